(* GENERATED by tools/gen.py from /repo; do not edit by hand. *)
From Verif Require Import Base Types Ops Groups DisplayBase DisplayTypes.
Local Open Scope string_scope.

(** def_op_display! expansions (macro: src/spv/dis.rs:92-133). *)

(* src/spv/op.rs:14 *)
Definition disp_OpNop (op : OpNop) : string :=
  disp_NoResult ++ "OpNop".

(* src/spv/op.rs:22 *)
Definition disp_OpUndef (op : OpUndef) : string :=
  disp_Result (OpUndef_result_id op) ++ "OpUndef" ++ format_arg disp_OpId (OpUndef_result_type op).

(* src/spv/op.rs:31 *)
Definition disp_OpSourceContinued (op : OpSourceContinued) : string :=
  disp_NoResult ++ "OpSourceContinued" ++ format_arg display_arg_String (OpSourceContinued_continued_source op).

(* src/spv/op.rs:41 *)
Definition disp_OpSource (op : OpSource) : string :=
  disp_NoResult ++ "OpSource" ++ format_arg disp_SourceLanguage (OpSource_language op) ++ format_arg disp_SourceVersion (OpSource_version op) ++ format_arg_Option disp_OpId (OpSource_file op) ++ format_arg_Option display_arg_String (OpSource_source op).

(* src/spv/op.rs:48 *)
Definition disp_OpSourceExtension (op : OpSourceExtension) : string :=
  disp_NoResult ++ "OpSourceExtension" ++ format_arg display_arg_String (OpSourceExtension_extension op).

(* src/spv/op.rs:56 *)
Definition disp_OpName (op : OpName) : string :=
  disp_NoResult ++ "OpName" ++ format_arg disp_OpId (OpName_target op) ++ format_arg display_arg_String (OpName_name op).

(* src/spv/op.rs:65 *)
Definition disp_OpMemberName (op : OpMemberName) : string :=
  disp_NoResult ++ "OpMemberName" ++ format_arg disp_OpId (OpMemberName_struct_type op) ++ format_arg disp_MemberIndex (OpMemberName_member op) ++ format_arg display_arg_String (OpMemberName_name op).

(* src/spv/op.rs:73 *)
Definition disp_OpString (op : OpString) : string :=
  disp_Result (OpString_result_id op) ++ "OpString" ++ format_arg display_arg_String (OpString_string op).

(* src/spv/op.rs:136 *)
Definition disp_OpExtension (op : OpExtension) : string :=
  disp_NoResult ++ "OpExtension" ++ format_arg display_arg_String (OpExtension_name op).

(* src/spv/op.rs:144 *)
Definition disp_OpExtInstImport (op : OpExtInstImport) : string :=
  disp_Result (OpExtInstImport_result_id op) ++ "OpExtInstImport" ++ format_arg display_arg_String (OpExtInstImport_name op).

(* src/spv/op.rs:154 *)
Definition disp_OpExtInst {E} (disp_ext : E -> string) (op : OpExtInst E) : string :=
  disp_Result (OpExtInst_result_id op) ++ "OpExtInst" ++ format_arg disp_OpId (OpExtInst_result_type op) ++ format_arg disp_OpId (OpExtInst_set op) ++ format_arg disp_ext (OpExtInst_instruction op).

(* src/spv/op.rs:164 *)
Definition disp_OpMemoryModel (op : OpMemoryModel) : string :=
  disp_NoResult ++ "OpMemoryModel" ++ format_arg disp_AddressingModel (OpMemoryModel_addressing_model op) ++ format_arg disp_MemoryModel (OpMemoryModel_memory_model op).

(* src/spv/op.rs:174 *)
Definition disp_OpEntryPoint (op : OpEntryPoint) : string :=
  disp_NoResult ++ "OpEntryPoint" ++ format_arg disp_ExecutionModel (OpEntryPoint_execution_model op) ++ format_arg disp_OpId (OpEntryPoint_entry_point op) ++ format_arg display_arg_String (OpEntryPoint_name op) ++ format_arg_Vec disp_OpId (OpEntryPoint_interface op).

(* src/spv/op.rs:182 *)
Definition disp_OpExecutionMode (op : OpExecutionMode) : string :=
  disp_NoResult ++ "OpExecutionMode" ++ format_arg disp_OpId (OpExecutionMode_entry_point op) ++ format_arg disp_ExecutionMode (OpExecutionMode_mode op).

(* src/spv/op.rs:189 *)
Definition disp_OpCapability (op : OpCapability) : string :=
  disp_NoResult ++ "OpCapability" ++ format_arg disp_Capability (OpCapability_capability op).

(* src/spv/op.rs:198 *)
Definition disp_OpTypeVoid (op : OpTypeVoid) : string :=
  disp_Result (OpTypeVoid_result_id op) ++ "OpTypeVoid".

(* src/spv/op.rs:205 *)
Definition disp_OpTypeBool (op : OpTypeBool) : string :=
  disp_Result (OpTypeBool_result_id op) ++ "OpTypeBool".

(* src/spv/op.rs:214 *)
Definition disp_OpTypeInt (op : OpTypeInt) : string :=
  disp_Result (OpTypeInt_result_id op) ++ "OpTypeInt" ++ format_arg disp_u32 (OpTypeInt_width op) ++ format_arg disp_Signedness (OpTypeInt_signedness op).

(* src/spv/op.rs:222 *)
Definition disp_OpTypeFloat (op : OpTypeFloat) : string :=
  disp_Result (OpTypeFloat_result_id op) ++ "OpTypeFloat" ++ format_arg disp_u32 (OpTypeFloat_width op).

(* src/spv/op.rs:231 *)
Definition disp_OpTypeVector (op : OpTypeVector) : string :=
  disp_Result (OpTypeVector_result_id op) ++ "OpTypeVector" ++ format_arg disp_OpId (OpTypeVector_component_type op) ++ format_arg disp_u32 (OpTypeVector_component_count op).

(* src/spv/op.rs:240 *)
Definition disp_OpTypeMatrix (op : OpTypeMatrix) : string :=
  disp_Result (OpTypeMatrix_result_id op) ++ "OpTypeMatrix" ++ format_arg disp_OpId (OpTypeMatrix_column_type op) ++ format_arg disp_u32 (OpTypeMatrix_column_count op).

(* src/spv/op.rs:255-264 *)
Definition disp_OpTypeImage (op : OpTypeImage) : string :=
  disp_Result (OpTypeImage_result_id op) ++ "OpTypeImage" ++ format_arg disp_OpId (OpTypeImage_sampled_type op) ++ format_arg disp_Dim (OpTypeImage_dim op) ++ format_arg disp_DepthStatus (OpTypeImage_depth op) ++ format_arg disp_Arrayed (OpTypeImage_arrayed op) ++ format_arg disp_MS (OpTypeImage_ms op) ++ format_arg disp_SampledStatus (OpTypeImage_sampled op) ++ format_arg disp_ImageFormat (OpTypeImage_format op) ++ format_arg_Option disp_AccessQualifier (OpTypeImage_access_qualifier op).

(* src/spv/op.rs:271 *)
Definition disp_OpTypeSampler (op : OpTypeSampler) : string :=
  disp_Result (OpTypeSampler_result_id op) ++ "OpTypeSampler".

(* src/spv/op.rs:279 *)
Definition disp_OpTypeSampledImage (op : OpTypeSampledImage) : string :=
  disp_Result (OpTypeSampledImage_result_id op) ++ "OpTypeSampledImage" ++ format_arg disp_OpId (OpTypeSampledImage_image_type op).

(* src/spv/op.rs:288 *)
Definition disp_OpTypeArray (op : OpTypeArray) : string :=
  disp_Result (OpTypeArray_result_id op) ++ "OpTypeArray" ++ format_arg disp_OpId (OpTypeArray_element_type op) ++ format_arg disp_OpId (OpTypeArray_length op).

(* src/spv/op.rs:296 *)
Definition disp_OpTypeRuntimeArray (op : OpTypeRuntimeArray) : string :=
  disp_Result (OpTypeRuntimeArray_result_id op) ++ "OpTypeRuntimeArray" ++ format_arg disp_OpId (OpTypeRuntimeArray_element_type op).

(* src/spv/op.rs:304 *)
Definition disp_OpTypeStruct (op : OpTypeStruct) : string :=
  disp_Result (OpTypeStruct_result_id op) ++ "OpTypeStruct" ++ format_arg_Vec disp_OpId (OpTypeStruct_member_types op).

(* src/spv/op.rs:312 *)
Definition disp_OpTypeOpaque (op : OpTypeOpaque) : string :=
  disp_Result (OpTypeOpaque_result_id op) ++ "OpTypeOpaque" ++ format_arg display_arg_String (OpTypeOpaque_name op).

(* src/spv/op.rs:321 *)
Definition disp_OpTypePointer (op : OpTypePointer) : string :=
  disp_Result (OpTypePointer_result_id op) ++ "OpTypePointer" ++ format_arg disp_StorageClass (OpTypePointer_storage_class op) ++ format_arg disp_OpId (OpTypePointer_pointed_type op).

(* src/spv/op.rs:330 *)
Definition disp_OpTypeFunction (op : OpTypeFunction) : string :=
  disp_Result (OpTypeFunction_result_id op) ++ "OpTypeFunction" ++ format_arg disp_OpId (OpTypeFunction_return_type op) ++ format_arg_Vec disp_OpId (OpTypeFunction_parameter_types op).

(* src/spv/op.rs:337 *)
Definition disp_OpTypeEvent (op : OpTypeEvent) : string :=
  disp_Result (OpTypeEvent_result_id op) ++ "OpTypeEvent".

(* src/spv/op.rs:344 *)
Definition disp_OpTypeDeviceEvent (op : OpTypeDeviceEvent) : string :=
  disp_Result (OpTypeDeviceEvent_result_id op) ++ "OpTypeDeviceEvent".

(* src/spv/op.rs:358 *)
Definition disp_OpTypeQueue (op : OpTypeQueue) : string :=
  disp_Result (OpTypeQueue_result_id op) ++ "OpTypeQueue".

(* src/spv/op.rs:366 *)
Definition disp_OpTypePipe (op : OpTypePipe) : string :=
  disp_Result (OpTypePipe_result_id op) ++ "OpTypePipe" ++ format_arg disp_AccessQualifier (OpTypePipe_access_qualifier op).

(* src/spv/op.rs:374 *)
Definition disp_OpTypeForwardPointer (op : OpTypeForwardPointer) : string :=
  disp_NoResult ++ "OpTypeForwardPointer" ++ format_arg disp_OpId (OpTypeForwardPointer_pointer_type op) ++ format_arg disp_StorageClass (OpTypeForwardPointer_storage_class op).

(* src/spv/op.rs:401 *)
Definition disp_OpConstant (op : OpConstant) : string :=
  disp_Result (OpConstant_result_id op) ++ "OpConstant" ++ format_arg disp_OpId (OpConstant_result_type op) ++ format_arg_Vec disp_u32 (OpConstant_value op).

(* src/spv/op.rs:410 *)
Definition disp_OpConstantComposite (op : OpConstantComposite) : string :=
  disp_Result (OpConstantComposite_result_id op) ++ "OpConstantComposite" ++ format_arg disp_OpId (OpConstantComposite_result_type op) ++ format_arg_Vec disp_OpId (OpConstantComposite_constituents op).

(* src/spv/op.rs:597 *)
Definition disp_OpFunction (op : OpFunction) : string :=
  disp_Result (OpFunction_result_id op) ++ "OpFunction" ++ format_arg disp_OpId (OpFunction_result_type op) ++ format_arg disp_FunctionControl (OpFunction_function_control op) ++ format_arg disp_OpId (OpFunction_function_type op).

(* src/spv/op.rs:605 *)
Definition disp_OpFunctionParameter (op : OpFunctionParameter) : string :=
  disp_Result (OpFunctionParameter_result_id op) ++ "OpFunctionParameter" ++ format_arg disp_OpId (OpFunctionParameter_result_type op).

(* src/spv/op.rs:610 *)
Definition disp_OpFunctionEnd (op : OpFunctionEnd) : string :=
  disp_NoResult ++ "OpFunctionEnd".

(* src/spv/op.rs:475 *)
Definition disp_OpVariable (op : OpVariable) : string :=
  disp_Result (OpVariable_result_id op) ++ "OpVariable" ++ format_arg disp_OpId (OpVariable_result_type op) ++ format_arg disp_StorageClass (OpVariable_storage_class op) ++ format_arg_Option disp_OpId (OpVariable_initializer op).

(* src/spv/op.rs:496 *)
Definition disp_OpLoad (op : OpLoad) : string :=
  disp_Result (OpLoad_result_id op) ++ "OpLoad" ++ format_arg disp_OpId (OpLoad_result_type op) ++ format_arg disp_OpId (OpLoad_pointer op) ++ format_arg_Option disp_MemoryAccess (OpLoad_memory_access op).

(* src/spv/op.rs:505 *)
Definition disp_OpStore (op : OpStore) : string :=
  disp_NoResult ++ "OpStore" ++ format_arg disp_OpId (OpStore_pointer op) ++ format_arg disp_OpId (OpStore_object op) ++ format_arg_Option disp_MemoryAccess (OpStore_memory_access op).

(* src/spv/op.rs:534 *)
Definition disp_OpAccessChain (op : OpAccessChain) : string :=
  disp_Result (OpAccessChain_result_id op) ++ "OpAccessChain" ++ format_arg disp_OpId (OpAccessChain_result_type op) ++ format_arg disp_OpId (OpAccessChain_base op) ++ format_arg_Vec disp_OpId (OpAccessChain_indexes op).

(* src/spv/op.rs:97 *)
Definition disp_OpDecorate (op : OpDecorate) : string :=
  disp_NoResult ++ "OpDecorate" ++ format_arg disp_OpId (OpDecorate_target op) ++ format_arg disp_Decoration (OpDecorate_decoration op).

(* src/spv/op.rs:106 *)
Definition disp_OpMemberDecorate (op : OpMemberDecorate) : string :=
  disp_NoResult ++ "OpMemberDecorate" ++ format_arg disp_OpId (OpMemberDecorate_structure_type op) ++ format_arg disp_MemberIndex (OpMemberDecorate_member op) ++ format_arg disp_Decoration (OpMemberDecorate_decoration op).

(* src/spv/op.rs:865 *)
Definition disp_OpConvertUToF (op : OpConvertUToF) : string :=
  disp_Result (OpConvertUToF_result_id op) ++ "OpConvertUToF" ++ format_arg disp_OpId (OpConvertUToF_result_type op) ++ format_arg disp_OpId (OpConvertUToF_unsigned_value op).

(* src/spv/op.rs:974 *)
Definition disp_OpBitcast (op : OpBitcast) : string :=
  disp_Result (OpBitcast_result_id op) ++ "OpBitcast" ++ format_arg disp_OpId (OpBitcast_result_type op) ++ format_arg disp_OpId (OpBitcast_operand op).

(* src/spv/op.rs:1086 *)
Definition disp_OpIAdd (op : OpIAdd) : string :=
  disp_Result (OpIAdd_result_id op) ++ "OpIAdd" ++ format_arg disp_OpId (OpIAdd_result_type op) ++ format_arg disp_OpId (OpIAdd_operand1 op) ++ format_arg disp_OpId (OpIAdd_operand2 op).

(* src/spv/op.rs:1096 *)
Definition disp_OpFAdd (op : OpFAdd) : string :=
  disp_Result (OpFAdd_result_id op) ++ "OpFAdd" ++ format_arg disp_OpId (OpFAdd_result_type op) ++ format_arg disp_OpId (OpFAdd_operand1 op) ++ format_arg disp_OpId (OpFAdd_operand2 op).

(* src/spv/op.rs:1106 *)
Definition disp_OpISub (op : OpISub) : string :=
  disp_Result (OpISub_result_id op) ++ "OpISub" ++ format_arg disp_OpId (OpISub_result_type op) ++ format_arg disp_OpId (OpISub_operand1 op) ++ format_arg disp_OpId (OpISub_operand2 op).

(* src/spv/op.rs:1116 *)
Definition disp_OpFSub (op : OpFSub) : string :=
  disp_Result (OpFSub_result_id op) ++ "OpFSub" ++ format_arg disp_OpId (OpFSub_result_type op) ++ format_arg disp_OpId (OpFSub_operand1 op) ++ format_arg disp_OpId (OpFSub_operand2 op).

(* src/spv/op.rs:1126 *)
Definition disp_OpIMul (op : OpIMul) : string :=
  disp_Result (OpIMul_result_id op) ++ "OpIMul" ++ format_arg disp_OpId (OpIMul_result_type op) ++ format_arg disp_OpId (OpIMul_operand1 op) ++ format_arg disp_OpId (OpIMul_operand2 op).

(* src/spv/op.rs:1136 *)
Definition disp_OpFMul (op : OpFMul) : string :=
  disp_Result (OpFMul_result_id op) ++ "OpFMul" ++ format_arg disp_OpId (OpFMul_result_type op) ++ format_arg disp_OpId (OpFMul_operand1 op) ++ format_arg disp_OpId (OpFMul_operand2 op).

(* src/spv/op.rs:1146 *)
Definition disp_OpUDiv (op : OpUDiv) : string :=
  disp_Result (OpUDiv_result_id op) ++ "OpUDiv" ++ format_arg disp_OpId (OpUDiv_result_type op) ++ format_arg disp_OpId (OpUDiv_operand1 op) ++ format_arg disp_OpId (OpUDiv_operand2 op).

(* src/spv/op.rs:1156 *)
Definition disp_OpSDiv (op : OpSDiv) : string :=
  disp_Result (OpSDiv_result_id op) ++ "OpSDiv" ++ format_arg disp_OpId (OpSDiv_result_type op) ++ format_arg disp_OpId (OpSDiv_operand1 op) ++ format_arg disp_OpId (OpSDiv_operand2 op).

(* src/spv/op.rs:1166 *)
Definition disp_OpFDiv (op : OpFDiv) : string :=
  disp_Result (OpFDiv_result_id op) ++ "OpFDiv" ++ format_arg disp_OpId (OpFDiv_result_type op) ++ format_arg disp_OpId (OpFDiv_operand1 op) ++ format_arg disp_OpId (OpFDiv_operand2 op).

(* src/spv/op.rs:1176 *)
Definition disp_OpUMod (op : OpUMod) : string :=
  disp_Result (OpUMod_result_id op) ++ "OpUMod" ++ format_arg disp_OpId (OpUMod_result_type op) ++ format_arg disp_OpId (OpUMod_operand1 op) ++ format_arg disp_OpId (OpUMod_operand2 op).

(* src/spv/op.rs:1186 *)
Definition disp_OpSRem (op : OpSRem) : string :=
  disp_Result (OpSRem_result_id op) ++ "OpSRem" ++ format_arg disp_OpId (OpSRem_result_type op) ++ format_arg disp_OpId (OpSRem_operand1 op) ++ format_arg disp_OpId (OpSRem_operand2 op).

(* src/spv/op.rs:1196 *)
Definition disp_OpSMod (op : OpSMod) : string :=
  disp_Result (OpSMod_result_id op) ++ "OpSMod" ++ format_arg disp_OpId (OpSMod_result_type op) ++ format_arg disp_OpId (OpSMod_operand1 op) ++ format_arg disp_OpId (OpSMod_operand2 op).

(* src/spv/op.rs:1206 *)
Definition disp_OpFRem (op : OpFRem) : string :=
  disp_Result (OpFRem_result_id op) ++ "OpFRem" ++ format_arg disp_OpId (OpFRem_result_type op) ++ format_arg disp_OpId (OpFRem_operand1 op) ++ format_arg disp_OpId (OpFRem_operand2 op).

(* src/spv/op.rs:1216 *)
Definition disp_OpFMod (op : OpFMod) : string :=
  disp_Result (OpFMod_result_id op) ++ "OpFMod" ++ format_arg disp_OpId (OpFMod_result_type op) ++ format_arg disp_OpId (OpFMod_operand1 op) ++ format_arg disp_OpId (OpFMod_operand2 op).

(* src/spv/op.rs:1296 *)
Definition disp_OpIAddCarry (op : OpIAddCarry) : string :=
  disp_Result (OpIAddCarry_result_id op) ++ "OpIAddCarry" ++ format_arg disp_OpId (OpIAddCarry_result_type op) ++ format_arg disp_OpId (OpIAddCarry_operand1 op) ++ format_arg disp_OpId (OpIAddCarry_operand2 op).

(* src/spv/op.rs:1306 *)
Definition disp_OpISubBorrow (op : OpISubBorrow) : string :=
  disp_Result (OpISubBorrow_result_id op) ++ "OpISubBorrow" ++ format_arg disp_OpId (OpISubBorrow_result_type op) ++ format_arg disp_OpId (OpISubBorrow_operand1 op) ++ format_arg disp_OpId (OpISubBorrow_operand2 op).

(* src/spv/op.rs:1316 *)
Definition disp_OpUMulExtended (op : OpUMulExtended) : string :=
  disp_Result (OpUMulExtended_result_id op) ++ "OpUMulExtended" ++ format_arg disp_OpId (OpUMulExtended_result_type op) ++ format_arg disp_OpId (OpUMulExtended_operand1 op) ++ format_arg disp_OpId (OpUMulExtended_operand2 op).

(* src/spv/op.rs:1326 *)
Definition disp_OpSMulExtended (op : OpSMulExtended) : string :=
  disp_Result (OpSMulExtended_result_id op) ++ "OpSMulExtended" ++ format_arg disp_OpId (OpSMulExtended_result_type op) ++ format_arg disp_OpId (OpSMulExtended_operand1 op) ++ format_arg disp_OpId (OpSMulExtended_operand2 op).

(* src/spv/op.rs:1368 *)
Definition disp_OpBitwiseOr (op : OpBitwiseOr) : string :=
  disp_Result (OpBitwiseOr_result_id op) ++ "OpBitwiseOr" ++ format_arg disp_OpId (OpBitwiseOr_result_type op) ++ format_arg disp_OpId (OpBitwiseOr_operand1 op) ++ format_arg disp_OpId (OpBitwiseOr_operand2 op).

(* src/spv/op.rs:1378 *)
Definition disp_OpBitwiseXor (op : OpBitwiseXor) : string :=
  disp_Result (OpBitwiseXor_result_id op) ++ "OpBitwiseXor" ++ format_arg disp_OpId (OpBitwiseXor_result_type op) ++ format_arg disp_OpId (OpBitwiseXor_operand1 op) ++ format_arg disp_OpId (OpBitwiseXor_operand2 op).

(* src/spv/op.rs:1388 *)
Definition disp_OpBitwiseAnd (op : OpBitwiseAnd) : string :=
  disp_Result (OpBitwiseAnd_result_id op) ++ "OpBitwiseAnd" ++ format_arg disp_OpId (OpBitwiseAnd_result_type op) ++ format_arg disp_OpId (OpBitwiseAnd_operand1 op) ++ format_arg disp_OpId (OpBitwiseAnd_operand2 op).

(* src/spv/op.rs:1472 *)
Definition disp_OpIEqual (op : OpIEqual) : string :=
  disp_Result (OpIEqual_result_id op) ++ "OpIEqual" ++ format_arg disp_OpId (OpIEqual_result_type op) ++ format_arg disp_OpId (OpIEqual_operand1 op) ++ format_arg disp_OpId (OpIEqual_operand2 op).

(* src/spv/op.rs:1482 *)
Definition disp_OpINotEqual (op : OpINotEqual) : string :=
  disp_Result (OpINotEqual_result_id op) ++ "OpINotEqual" ++ format_arg disp_OpId (OpINotEqual_result_type op) ++ format_arg disp_OpId (OpINotEqual_operand1 op) ++ format_arg disp_OpId (OpINotEqual_operand2 op).

(* src/spv/op.rs:1492 *)
Definition disp_OpUGreaterThan (op : OpUGreaterThan) : string :=
  disp_Result (OpUGreaterThan_result_id op) ++ "OpUGreaterThan" ++ format_arg disp_OpId (OpUGreaterThan_result_type op) ++ format_arg disp_OpId (OpUGreaterThan_operand1 op) ++ format_arg disp_OpId (OpUGreaterThan_operand2 op).

(* src/spv/op.rs:1502 *)
Definition disp_OpSGreaterThan (op : OpSGreaterThan) : string :=
  disp_Result (OpSGreaterThan_result_id op) ++ "OpSGreaterThan" ++ format_arg disp_OpId (OpSGreaterThan_result_type op) ++ format_arg disp_OpId (OpSGreaterThan_operand1 op) ++ format_arg disp_OpId (OpSGreaterThan_operand2 op).

(* src/spv/op.rs:1512 *)
Definition disp_OpUGreaterThanEqual (op : OpUGreaterThanEqual) : string :=
  disp_Result (OpUGreaterThanEqual_result_id op) ++ "OpUGreaterThanEqual" ++ format_arg disp_OpId (OpUGreaterThanEqual_result_type op) ++ format_arg disp_OpId (OpUGreaterThanEqual_operand1 op) ++ format_arg disp_OpId (OpUGreaterThanEqual_operand2 op).

(* src/spv/op.rs:1522 *)
Definition disp_OpSGreaterThanEqual (op : OpSGreaterThanEqual) : string :=
  disp_Result (OpSGreaterThanEqual_result_id op) ++ "OpSGreaterThanEqual" ++ format_arg disp_OpId (OpSGreaterThanEqual_result_type op) ++ format_arg disp_OpId (OpSGreaterThanEqual_operand1 op) ++ format_arg disp_OpId (OpSGreaterThanEqual_operand2 op).

(* src/spv/op.rs:1532 *)
Definition disp_OpULessThan (op : OpULessThan) : string :=
  disp_Result (OpULessThan_result_id op) ++ "OpULessThan" ++ format_arg disp_OpId (OpULessThan_result_type op) ++ format_arg disp_OpId (OpULessThan_operand1 op) ++ format_arg disp_OpId (OpULessThan_operand2 op).

(* src/spv/op.rs:1542 *)
Definition disp_OpSLessThan (op : OpSLessThan) : string :=
  disp_Result (OpSLessThan_result_id op) ++ "OpSLessThan" ++ format_arg disp_OpId (OpSLessThan_result_type op) ++ format_arg disp_OpId (OpSLessThan_operand1 op) ++ format_arg disp_OpId (OpSLessThan_operand2 op).

(* src/spv/op.rs:1552 *)
Definition disp_OpULessThanEqual (op : OpULessThanEqual) : string :=
  disp_Result (OpULessThanEqual_result_id op) ++ "OpULessThanEqual" ++ format_arg disp_OpId (OpULessThanEqual_result_type op) ++ format_arg disp_OpId (OpULessThanEqual_operand1 op) ++ format_arg disp_OpId (OpULessThanEqual_operand2 op).

(* src/spv/op.rs:1562 *)
Definition disp_OpSLessThanEqual (op : OpSLessThanEqual) : string :=
  disp_Result (OpSLessThanEqual_result_id op) ++ "OpSLessThanEqual" ++ format_arg disp_OpId (OpSLessThanEqual_result_type op) ++ format_arg disp_OpId (OpSLessThanEqual_operand1 op) ++ format_arg disp_OpId (OpSLessThanEqual_operand2 op).

(* src/spv/op.rs:1572 *)
Definition disp_OpFOrdEqual (op : OpFOrdEqual) : string :=
  disp_Result (OpFOrdEqual_result_id op) ++ "OpFOrdEqual" ++ format_arg disp_OpId (OpFOrdEqual_result_type op) ++ format_arg disp_OpId (OpFOrdEqual_operand1 op) ++ format_arg disp_OpId (OpFOrdEqual_operand2 op).

(* src/spv/op.rs:1582 *)
Definition disp_OpFUnordEqual (op : OpFUnordEqual) : string :=
  disp_Result (OpFUnordEqual_result_id op) ++ "OpFUnordEqual" ++ format_arg disp_OpId (OpFUnordEqual_result_type op) ++ format_arg disp_OpId (OpFUnordEqual_operand1 op) ++ format_arg disp_OpId (OpFUnordEqual_operand2 op).

(* src/spv/op.rs:1592 *)
Definition disp_OpFOrdNotEqual (op : OpFOrdNotEqual) : string :=
  disp_Result (OpFOrdNotEqual_result_id op) ++ "OpFOrdNotEqual" ++ format_arg disp_OpId (OpFOrdNotEqual_result_type op) ++ format_arg disp_OpId (OpFOrdNotEqual_operand1 op) ++ format_arg disp_OpId (OpFOrdNotEqual_operand2 op).

(* src/spv/op.rs:1602 *)
Definition disp_OpFUnordNotEqual (op : OpFUnordNotEqual) : string :=
  disp_Result (OpFUnordNotEqual_result_id op) ++ "OpFUnordNotEqual" ++ format_arg disp_OpId (OpFUnordNotEqual_result_type op) ++ format_arg disp_OpId (OpFUnordNotEqual_operand1 op) ++ format_arg disp_OpId (OpFUnordNotEqual_operand2 op).

(* src/spv/op.rs:1612 *)
Definition disp_OpFOrdLessThan (op : OpFOrdLessThan) : string :=
  disp_Result (OpFOrdLessThan_result_id op) ++ "OpFOrdLessThan" ++ format_arg disp_OpId (OpFOrdLessThan_result_type op) ++ format_arg disp_OpId (OpFOrdLessThan_operand1 op) ++ format_arg disp_OpId (OpFOrdLessThan_operand2 op).

(* src/spv/op.rs:1622 *)
Definition disp_OpFUnordLessThan (op : OpFUnordLessThan) : string :=
  disp_Result (OpFUnordLessThan_result_id op) ++ "OpFUnordLessThan" ++ format_arg disp_OpId (OpFUnordLessThan_result_type op) ++ format_arg disp_OpId (OpFUnordLessThan_operand1 op) ++ format_arg disp_OpId (OpFUnordLessThan_operand2 op).

(* src/spv/op.rs:1632 *)
Definition disp_OpFOrdGreaterThan (op : OpFOrdGreaterThan) : string :=
  disp_Result (OpFOrdGreaterThan_result_id op) ++ "OpFOrdGreaterThan" ++ format_arg disp_OpId (OpFOrdGreaterThan_result_type op) ++ format_arg disp_OpId (OpFOrdGreaterThan_operand1 op) ++ format_arg disp_OpId (OpFOrdGreaterThan_operand2 op).

(* src/spv/op.rs:1642 *)
Definition disp_OpFUnordGreaterThan (op : OpFUnordGreaterThan) : string :=
  disp_Result (OpFUnordGreaterThan_result_id op) ++ "OpFUnordGreaterThan" ++ format_arg disp_OpId (OpFUnordGreaterThan_result_type op) ++ format_arg disp_OpId (OpFUnordGreaterThan_operand1 op) ++ format_arg disp_OpId (OpFUnordGreaterThan_operand2 op).

(* src/spv/op.rs:1652 *)
Definition disp_OpFOrdLessThanEqual (op : OpFOrdLessThanEqual) : string :=
  disp_Result (OpFOrdLessThanEqual_result_id op) ++ "OpFOrdLessThanEqual" ++ format_arg disp_OpId (OpFOrdLessThanEqual_result_type op) ++ format_arg disp_OpId (OpFOrdLessThanEqual_operand1 op) ++ format_arg disp_OpId (OpFOrdLessThanEqual_operand2 op).

(* src/spv/op.rs:1662 *)
Definition disp_OpFUnordLessThanEqual (op : OpFUnordLessThanEqual) : string :=
  disp_Result (OpFUnordLessThanEqual_result_id op) ++ "OpFUnordLessThanEqual" ++ format_arg disp_OpId (OpFUnordLessThanEqual_result_type op) ++ format_arg disp_OpId (OpFUnordLessThanEqual_operand1 op) ++ format_arg disp_OpId (OpFUnordLessThanEqual_operand2 op).

(* src/spv/op.rs:1672 *)
Definition disp_OpFOrdGreaterThanEqual (op : OpFOrdGreaterThanEqual) : string :=
  disp_Result (OpFOrdGreaterThanEqual_result_id op) ++ "OpFOrdGreaterThanEqual" ++ format_arg disp_OpId (OpFOrdGreaterThanEqual_result_type op) ++ format_arg disp_OpId (OpFOrdGreaterThanEqual_operand1 op) ++ format_arg disp_OpId (OpFOrdGreaterThanEqual_operand2 op).

(* src/spv/op.rs:1682 *)
Definition disp_OpFUnordGreaterThanEqual (op : OpFUnordGreaterThanEqual) : string :=
  disp_Result (OpFUnordGreaterThanEqual_result_id op) ++ "OpFUnordGreaterThanEqual" ++ format_arg disp_OpId (OpFUnordGreaterThanEqual_result_type op) ++ format_arg disp_OpId (OpFUnordGreaterThanEqual_operand1 op) ++ format_arg disp_OpId (OpFUnordGreaterThanEqual_operand2 op).

(* src/spv/op.rs:1722 *)
Definition disp_OpPhi (op : OpPhi) : string :=
  disp_Result (OpPhi_result_id op) ++ "OpPhi" ++ format_arg disp_OpId (OpPhi_result_type op) ++ format_arg_Vec disp_PhiArg (OpPhi_variables op).

(* src/spv/op.rs:1731 *)
Definition disp_OpLoopMerge (op : OpLoopMerge) : string :=
  disp_NoResult ++ "OpLoopMerge" ++ format_arg disp_OpId (OpLoopMerge_merge_block op) ++ format_arg disp_OpId (OpLoopMerge_continue_target op) ++ format_arg disp_LoopControl (OpLoopMerge_loop_control op).

(* src/spv/op.rs:1739 *)
Definition disp_OpSelectionMerge (op : OpSelectionMerge) : string :=
  disp_NoResult ++ "OpSelectionMerge" ++ format_arg disp_OpId (OpSelectionMerge_merge_block op) ++ format_arg disp_SelectionControl (OpSelectionMerge_selection_control op).

(* src/spv/op.rs:1746 *)
Definition disp_OpLabel (op : OpLabel) : string :=
  disp_Result (OpLabel_result_id op) ++ "OpLabel".

(* src/spv/op.rs:1753 *)
Definition disp_OpBranch (op : OpBranch) : string :=
  disp_NoResult ++ "OpBranch" ++ format_arg disp_OpId (OpBranch_target_label op).

(* src/spv/op.rs:1763 *)
Definition disp_OpBranchConditional (op : OpBranchConditional) : string :=
  disp_NoResult ++ "OpBranchConditional" ++ format_arg disp_OpId (OpBranchConditional_condition op) ++ format_arg disp_OpId (OpBranchConditional_true_label op) ++ format_arg disp_OpId (OpBranchConditional_false_label op) ++ format_arg_Option disp_BranchWeights (OpBranchConditional_weights op).

(* src/spv/op.rs:1774 *)
Definition disp_OpReturn (op : OpReturn) : string :=
  disp_NoResult ++ "OpReturn".

Section DisplayCore.
Context {E : Type} (disp_ext : E -> string).

(* src/spv/raw/mod.rs:154-257 *)
Definition disp_Core (x : Core E) : string :=
  match x with
  | Core_OpNop op => disp_OpNop op
  | Core_OpUndef op => disp_OpUndef op
  | Core_OpSourceContinued op => disp_OpSourceContinued op
  | Core_OpSource op => disp_OpSource op
  | Core_OpSourceExtension op => disp_OpSourceExtension op
  | Core_OpName op => disp_OpName op
  | Core_OpMemberName op => disp_OpMemberName op
  | Core_OpString op => disp_OpString op
  | Core_OpExtension op => disp_OpExtension op
  | Core_OpExtInstImport op => disp_OpExtInstImport op
  | Core_OpExtInst op => disp_OpExtInst disp_ext op
  | Core_OpMemoryModel op => disp_OpMemoryModel op
  | Core_OpEntryPoint op => disp_OpEntryPoint op
  | Core_OpExecutionMode op => disp_OpExecutionMode op
  | Core_OpCapability op => disp_OpCapability op
  | Core_OpTypeVoid op => disp_OpTypeVoid op
  | Core_OpTypeBool op => disp_OpTypeBool op
  | Core_OpTypeInt op => disp_OpTypeInt op
  | Core_OpTypeFloat op => disp_OpTypeFloat op
  | Core_OpTypeVector op => disp_OpTypeVector op
  | Core_OpTypeMatrix op => disp_OpTypeMatrix op
  | Core_OpTypeImage op => disp_OpTypeImage op
  | Core_OpTypeSampler op => disp_OpTypeSampler op
  | Core_OpTypeSampledImage op => disp_OpTypeSampledImage op
  | Core_OpTypeArray op => disp_OpTypeArray op
  | Core_OpTypeRuntimeArray op => disp_OpTypeRuntimeArray op
  | Core_OpTypeStruct op => disp_OpTypeStruct op
  | Core_OpTypeOpaque op => disp_OpTypeOpaque op
  | Core_OpTypePointer op => disp_OpTypePointer op
  | Core_OpTypeFunction op => disp_OpTypeFunction op
  | Core_OpTypeEvent op => disp_OpTypeEvent op
  | Core_OpTypeDeviceEvent op => disp_OpTypeDeviceEvent op
  | Core_OpTypeQueue op => disp_OpTypeQueue op
  | Core_OpTypePipe op => disp_OpTypePipe op
  | Core_OpTypeForwardPointer op => disp_OpTypeForwardPointer op
  | Core_OpConstant op => disp_OpConstant op
  | Core_OpConstantComposite op => disp_OpConstantComposite op
  | Core_OpFunction op => disp_OpFunction op
  | Core_OpFunctionParameter op => disp_OpFunctionParameter op
  | Core_OpFunctionEnd op => disp_OpFunctionEnd op
  | Core_OpVariable op => disp_OpVariable op
  | Core_OpLoad op => disp_OpLoad op
  | Core_OpStore op => disp_OpStore op
  | Core_OpAccessChain op => disp_OpAccessChain op
  | Core_OpDecorate op => disp_OpDecorate op
  | Core_OpMemberDecorate op => disp_OpMemberDecorate op
  | Core_OpConvertUToF op => disp_OpConvertUToF op
  | Core_OpBitcast op => disp_OpBitcast op
  | Core_OpIAdd op => disp_OpIAdd op
  | Core_OpFAdd op => disp_OpFAdd op
  | Core_OpISub op => disp_OpISub op
  | Core_OpFSub op => disp_OpFSub op
  | Core_OpIMul op => disp_OpIMul op
  | Core_OpFMul op => disp_OpFMul op
  | Core_OpUDiv op => disp_OpUDiv op
  | Core_OpSDiv op => disp_OpSDiv op
  | Core_OpFDiv op => disp_OpFDiv op
  | Core_OpUMod op => disp_OpUMod op
  | Core_OpSRem op => disp_OpSRem op
  | Core_OpSMod op => disp_OpSMod op
  | Core_OpFRem op => disp_OpFRem op
  | Core_OpFMod op => disp_OpFMod op
  | Core_OpIAddCarry op => disp_OpIAddCarry op
  | Core_OpISubBorrow op => disp_OpISubBorrow op
  | Core_OpUMulExtended op => disp_OpUMulExtended op
  | Core_OpSMulExtended op => disp_OpSMulExtended op
  | Core_OpBitwiseOr op => disp_OpBitwiseOr op
  | Core_OpBitwiseXor op => disp_OpBitwiseXor op
  | Core_OpBitwiseAnd op => disp_OpBitwiseAnd op
  | Core_OpIEqual op => disp_OpIEqual op
  | Core_OpINotEqual op => disp_OpINotEqual op
  | Core_OpUGreaterThan op => disp_OpUGreaterThan op
  | Core_OpSGreaterThan op => disp_OpSGreaterThan op
  | Core_OpUGreaterThanEqual op => disp_OpUGreaterThanEqual op
  | Core_OpSGreaterThanEqual op => disp_OpSGreaterThanEqual op
  | Core_OpULessThan op => disp_OpULessThan op
  | Core_OpSLessThan op => disp_OpSLessThan op
  | Core_OpULessThanEqual op => disp_OpULessThanEqual op
  | Core_OpSLessThanEqual op => disp_OpSLessThanEqual op
  | Core_OpFOrdEqual op => disp_OpFOrdEqual op
  | Core_OpFUnordEqual op => disp_OpFUnordEqual op
  | Core_OpFOrdNotEqual op => disp_OpFOrdNotEqual op
  | Core_OpFUnordNotEqual op => disp_OpFUnordNotEqual op
  | Core_OpFOrdLessThan op => disp_OpFOrdLessThan op
  | Core_OpFUnordLessThan op => disp_OpFUnordLessThan op
  | Core_OpFOrdGreaterThan op => disp_OpFOrdGreaterThan op
  | Core_OpFUnordGreaterThan op => disp_OpFUnordGreaterThan op
  | Core_OpFOrdLessThanEqual op => disp_OpFOrdLessThanEqual op
  | Core_OpFUnordLessThanEqual op => disp_OpFUnordLessThanEqual op
  | Core_OpFOrdGreaterThanEqual op => disp_OpFOrdGreaterThanEqual op
  | Core_OpFUnordGreaterThanEqual op => disp_OpFUnordGreaterThanEqual op
  | Core_OpPhi op => disp_OpPhi op
  | Core_OpLoopMerge op => disp_OpLoopMerge op
  | Core_OpSelectionMerge op => disp_OpSelectionMerge op
  | Core_OpLabel op => disp_OpLabel op
  | Core_OpBranch op => disp_OpBranch op
  | Core_OpBranchConditional op => disp_OpBranchConditional op
  | Core_OpReturn op => disp_OpReturn op
  end.

(* src/spv/logical/mod.rs:126-185 *)
Definition disp_GroupCode (x : GroupCode E) : string :=
  match x with
  | GroupCode_OpNop op => disp_OpNop op
  | GroupCode_OpUndef op => disp_OpUndef op
  | GroupCode_OpExtInst op => disp_OpExtInst disp_ext op
  | GroupCode_OpVariable op => disp_OpVariable op
  | GroupCode_OpLoad op => disp_OpLoad op
  | GroupCode_OpStore op => disp_OpStore op
  | GroupCode_OpAccessChain op => disp_OpAccessChain op
  | GroupCode_OpConvertUToF op => disp_OpConvertUToF op
  | GroupCode_OpBitcast op => disp_OpBitcast op
  | GroupCode_OpIAdd op => disp_OpIAdd op
  | GroupCode_OpFAdd op => disp_OpFAdd op
  | GroupCode_OpISub op => disp_OpISub op
  | GroupCode_OpFSub op => disp_OpFSub op
  | GroupCode_OpIMul op => disp_OpIMul op
  | GroupCode_OpFMul op => disp_OpFMul op
  | GroupCode_OpUDiv op => disp_OpUDiv op
  | GroupCode_OpSDiv op => disp_OpSDiv op
  | GroupCode_OpFDiv op => disp_OpFDiv op
  | GroupCode_OpUMod op => disp_OpUMod op
  | GroupCode_OpSRem op => disp_OpSRem op
  | GroupCode_OpSMod op => disp_OpSMod op
  | GroupCode_OpFRem op => disp_OpFRem op
  | GroupCode_OpFMod op => disp_OpFMod op
  | GroupCode_OpIAddCarry op => disp_OpIAddCarry op
  | GroupCode_OpISubBorrow op => disp_OpISubBorrow op
  | GroupCode_OpUMulExtended op => disp_OpUMulExtended op
  | GroupCode_OpSMulExtended op => disp_OpSMulExtended op
  | GroupCode_OpBitwiseOr op => disp_OpBitwiseOr op
  | GroupCode_OpBitwiseXor op => disp_OpBitwiseXor op
  | GroupCode_OpBitwiseAnd op => disp_OpBitwiseAnd op
  | GroupCode_OpIEqual op => disp_OpIEqual op
  | GroupCode_OpINotEqual op => disp_OpINotEqual op
  | GroupCode_OpUGreaterThan op => disp_OpUGreaterThan op
  | GroupCode_OpSGreaterThan op => disp_OpSGreaterThan op
  | GroupCode_OpUGreaterThanEqual op => disp_OpUGreaterThanEqual op
  | GroupCode_OpSGreaterThanEqual op => disp_OpSGreaterThanEqual op
  | GroupCode_OpULessThan op => disp_OpULessThan op
  | GroupCode_OpSLessThan op => disp_OpSLessThan op
  | GroupCode_OpULessThanEqual op => disp_OpULessThanEqual op
  | GroupCode_OpSLessThanEqual op => disp_OpSLessThanEqual op
  | GroupCode_OpFOrdEqual op => disp_OpFOrdEqual op
  | GroupCode_OpFUnordEqual op => disp_OpFUnordEqual op
  | GroupCode_OpFOrdNotEqual op => disp_OpFOrdNotEqual op
  | GroupCode_OpFUnordNotEqual op => disp_OpFUnordNotEqual op
  | GroupCode_OpFOrdLessThan op => disp_OpFOrdLessThan op
  | GroupCode_OpFUnordLessThan op => disp_OpFUnordLessThan op
  | GroupCode_OpFOrdGreaterThan op => disp_OpFOrdGreaterThan op
  | GroupCode_OpFUnordGreaterThan op => disp_OpFUnordGreaterThan op
  | GroupCode_OpFOrdLessThanEqual op => disp_OpFOrdLessThanEqual op
  | GroupCode_OpFUnordLessThanEqual op => disp_OpFUnordLessThanEqual op
  | GroupCode_OpFOrdGreaterThanEqual op => disp_OpFOrdGreaterThanEqual op
  | GroupCode_OpFUnordGreaterThanEqual op => disp_OpFUnordGreaterThanEqual op
  | GroupCode_OpPhi op => disp_OpPhi op
  end.

(* src/spv/logical/mod.rs:200-209 *)
Definition disp_GroupBranch (x : GroupBranch) : string :=
  match x with
  | GroupBranch_OpBranch op => disp_OpBranch op
  | GroupBranch_OpBranchConditional op => disp_OpBranchConditional op
  | GroupBranch_OpReturn op => disp_OpReturn op
  end.

End DisplayCore.
