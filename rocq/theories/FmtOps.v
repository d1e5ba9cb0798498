(* GENERATED by tools/gen.py from /repo; do not edit by hand. *)
From Verif Require Import Base Types Ops Groups DisplayBase FmtBase FmtTypes.
Local Open Scope string_scope.

(** def_op_display! expansions (macro: src/spv/dis.rs:92-133) into a writer. *)

(* src/spv/op.rs:14 *)
Definition fmt_OpNop : Display OpNop := fun op f =>
  try_ (write_fmt [fmt_NoResult plain; lit "OpNop"]) (done).

(* src/spv/op.rs:22 *)
Definition fmt_OpUndef : Display OpUndef := fun op f =>
  try_ (write_fmt [fmt_Result (OpUndef_result_id op) plain; lit "OpUndef"]) (try_ (fmt_arg fmt_OpId (OpUndef_result_type op) f) (done)).

(* src/spv/op.rs:31 *)
Definition fmt_OpSourceContinued : Display OpSourceContinued := fun op f =>
  try_ (write_fmt [fmt_NoResult plain; lit "OpSourceContinued"]) (try_ (fmt_arg display_arg_fmt_String (OpSourceContinued_continued_source op) f) (done)).

(* src/spv/op.rs:41 *)
Definition fmt_OpSource : Display OpSource := fun op f =>
  try_ (write_fmt [fmt_NoResult plain; lit "OpSource"]) (try_ (fmt_arg fmt_SourceLanguage (OpSource_language op) f) (try_ (fmt_arg fmt_SourceVersion (OpSource_version op) f) (try_ (fmt_arg_Option fmt_OpId (OpSource_file op) f) (try_ (fmt_arg_Option display_arg_fmt_String (OpSource_source op) f) (done))))).

(* src/spv/op.rs:48 *)
Definition fmt_OpSourceExtension : Display OpSourceExtension := fun op f =>
  try_ (write_fmt [fmt_NoResult plain; lit "OpSourceExtension"]) (try_ (fmt_arg display_arg_fmt_String (OpSourceExtension_extension op) f) (done)).

(* src/spv/op.rs:56 *)
Definition fmt_OpName : Display OpName := fun op f =>
  try_ (write_fmt [fmt_NoResult plain; lit "OpName"]) (try_ (fmt_arg fmt_OpId (OpName_target op) f) (try_ (fmt_arg display_arg_fmt_String (OpName_name op) f) (done))).

(* src/spv/op.rs:65 *)
Definition fmt_OpMemberName : Display OpMemberName := fun op f =>
  try_ (write_fmt [fmt_NoResult plain; lit "OpMemberName"]) (try_ (fmt_arg fmt_OpId (OpMemberName_struct_type op) f) (try_ (fmt_arg fmt_MemberIndex (OpMemberName_member op) f) (try_ (fmt_arg display_arg_fmt_String (OpMemberName_name op) f) (done)))).

(* src/spv/op.rs:73 *)
Definition fmt_OpString : Display OpString := fun op f =>
  try_ (write_fmt [fmt_Result (OpString_result_id op) plain; lit "OpString"]) (try_ (fmt_arg display_arg_fmt_String (OpString_string op) f) (done)).

(* src/spv/op.rs:136 *)
Definition fmt_OpExtension : Display OpExtension := fun op f =>
  try_ (write_fmt [fmt_NoResult plain; lit "OpExtension"]) (try_ (fmt_arg display_arg_fmt_String (OpExtension_name op) f) (done)).

(* src/spv/op.rs:144 *)
Definition fmt_OpExtInstImport : Display OpExtInstImport := fun op f =>
  try_ (write_fmt [fmt_Result (OpExtInstImport_result_id op) plain; lit "OpExtInstImport"]) (try_ (fmt_arg display_arg_fmt_String (OpExtInstImport_name op) f) (done)).

(* src/spv/op.rs:154 *)
Definition fmt_OpExtInst {E} (fmt_ext : Display E) : Display (OpExtInst E) := fun op f =>
  try_ (write_fmt [fmt_Result (OpExtInst_result_id op) plain; lit "OpExtInst"]) (try_ (fmt_arg fmt_OpId (OpExtInst_result_type op) f) (try_ (fmt_arg fmt_OpId (OpExtInst_set op) f) (try_ (fmt_arg fmt_ext (OpExtInst_instruction op) f) (done)))).

(* src/spv/op.rs:164 *)
Definition fmt_OpMemoryModel : Display OpMemoryModel := fun op f =>
  try_ (write_fmt [fmt_NoResult plain; lit "OpMemoryModel"]) (try_ (fmt_arg fmt_AddressingModel (OpMemoryModel_addressing_model op) f) (try_ (fmt_arg fmt_MemoryModel (OpMemoryModel_memory_model op) f) (done))).

(* src/spv/op.rs:174 *)
Definition fmt_OpEntryPoint : Display OpEntryPoint := fun op f =>
  try_ (write_fmt [fmt_NoResult plain; lit "OpEntryPoint"]) (try_ (fmt_arg fmt_ExecutionModel (OpEntryPoint_execution_model op) f) (try_ (fmt_arg fmt_OpId (OpEntryPoint_entry_point op) f) (try_ (fmt_arg display_arg_fmt_String (OpEntryPoint_name op) f) (try_ (fmt_arg_Vec fmt_OpId (OpEntryPoint_interface op) f) (done))))).

(* src/spv/op.rs:182 *)
Definition fmt_OpExecutionMode : Display OpExecutionMode := fun op f =>
  try_ (write_fmt [fmt_NoResult plain; lit "OpExecutionMode"]) (try_ (fmt_arg fmt_OpId (OpExecutionMode_entry_point op) f) (try_ (fmt_arg fmt_ExecutionMode (OpExecutionMode_mode op) f) (done))).

(* src/spv/op.rs:189 *)
Definition fmt_OpCapability : Display OpCapability := fun op f =>
  try_ (write_fmt [fmt_NoResult plain; lit "OpCapability"]) (try_ (fmt_arg fmt_Capability (OpCapability_capability op) f) (done)).

(* src/spv/op.rs:198 *)
Definition fmt_OpTypeVoid : Display OpTypeVoid := fun op f =>
  try_ (write_fmt [fmt_Result (OpTypeVoid_result_id op) plain; lit "OpTypeVoid"]) (done).

(* src/spv/op.rs:205 *)
Definition fmt_OpTypeBool : Display OpTypeBool := fun op f =>
  try_ (write_fmt [fmt_Result (OpTypeBool_result_id op) plain; lit "OpTypeBool"]) (done).

(* src/spv/op.rs:214 *)
Definition fmt_OpTypeInt : Display OpTypeInt := fun op f =>
  try_ (write_fmt [fmt_Result (OpTypeInt_result_id op) plain; lit "OpTypeInt"]) (try_ (fmt_arg fmt_u32 (OpTypeInt_width op) f) (try_ (fmt_arg fmt_Signedness (OpTypeInt_signedness op) f) (done))).

(* src/spv/op.rs:222 *)
Definition fmt_OpTypeFloat : Display OpTypeFloat := fun op f =>
  try_ (write_fmt [fmt_Result (OpTypeFloat_result_id op) plain; lit "OpTypeFloat"]) (try_ (fmt_arg fmt_u32 (OpTypeFloat_width op) f) (done)).

(* src/spv/op.rs:231 *)
Definition fmt_OpTypeVector : Display OpTypeVector := fun op f =>
  try_ (write_fmt [fmt_Result (OpTypeVector_result_id op) plain; lit "OpTypeVector"]) (try_ (fmt_arg fmt_OpId (OpTypeVector_component_type op) f) (try_ (fmt_arg fmt_u32 (OpTypeVector_component_count op) f) (done))).

(* src/spv/op.rs:240 *)
Definition fmt_OpTypeMatrix : Display OpTypeMatrix := fun op f =>
  try_ (write_fmt [fmt_Result (OpTypeMatrix_result_id op) plain; lit "OpTypeMatrix"]) (try_ (fmt_arg fmt_OpId (OpTypeMatrix_column_type op) f) (try_ (fmt_arg fmt_u32 (OpTypeMatrix_column_count op) f) (done))).

(* src/spv/op.rs:255-264 *)
Definition fmt_OpTypeImage : Display OpTypeImage := fun op f =>
  try_ (write_fmt [fmt_Result (OpTypeImage_result_id op) plain; lit "OpTypeImage"]) (try_ (fmt_arg fmt_OpId (OpTypeImage_sampled_type op) f) (try_ (fmt_arg fmt_Dim (OpTypeImage_dim op) f) (try_ (fmt_arg fmt_DepthStatus (OpTypeImage_depth op) f) (try_ (fmt_arg fmt_Arrayed (OpTypeImage_arrayed op) f) (try_ (fmt_arg fmt_MS (OpTypeImage_ms op) f) (try_ (fmt_arg fmt_SampledStatus (OpTypeImage_sampled op) f) (try_ (fmt_arg fmt_ImageFormat (OpTypeImage_format op) f) (try_ (fmt_arg_Option fmt_AccessQualifier (OpTypeImage_access_qualifier op) f) (done))))))))).

(* src/spv/op.rs:271 *)
Definition fmt_OpTypeSampler : Display OpTypeSampler := fun op f =>
  try_ (write_fmt [fmt_Result (OpTypeSampler_result_id op) plain; lit "OpTypeSampler"]) (done).

(* src/spv/op.rs:279 *)
Definition fmt_OpTypeSampledImage : Display OpTypeSampledImage := fun op f =>
  try_ (write_fmt [fmt_Result (OpTypeSampledImage_result_id op) plain; lit "OpTypeSampledImage"]) (try_ (fmt_arg fmt_OpId (OpTypeSampledImage_image_type op) f) (done)).

(* src/spv/op.rs:288 *)
Definition fmt_OpTypeArray : Display OpTypeArray := fun op f =>
  try_ (write_fmt [fmt_Result (OpTypeArray_result_id op) plain; lit "OpTypeArray"]) (try_ (fmt_arg fmt_OpId (OpTypeArray_element_type op) f) (try_ (fmt_arg fmt_OpId (OpTypeArray_length op) f) (done))).

(* src/spv/op.rs:296 *)
Definition fmt_OpTypeRuntimeArray : Display OpTypeRuntimeArray := fun op f =>
  try_ (write_fmt [fmt_Result (OpTypeRuntimeArray_result_id op) plain; lit "OpTypeRuntimeArray"]) (try_ (fmt_arg fmt_OpId (OpTypeRuntimeArray_element_type op) f) (done)).

(* src/spv/op.rs:304 *)
Definition fmt_OpTypeStruct : Display OpTypeStruct := fun op f =>
  try_ (write_fmt [fmt_Result (OpTypeStruct_result_id op) plain; lit "OpTypeStruct"]) (try_ (fmt_arg_Vec fmt_OpId (OpTypeStruct_member_types op) f) (done)).

(* src/spv/op.rs:312 *)
Definition fmt_OpTypeOpaque : Display OpTypeOpaque := fun op f =>
  try_ (write_fmt [fmt_Result (OpTypeOpaque_result_id op) plain; lit "OpTypeOpaque"]) (try_ (fmt_arg display_arg_fmt_String (OpTypeOpaque_name op) f) (done)).

(* src/spv/op.rs:321 *)
Definition fmt_OpTypePointer : Display OpTypePointer := fun op f =>
  try_ (write_fmt [fmt_Result (OpTypePointer_result_id op) plain; lit "OpTypePointer"]) (try_ (fmt_arg fmt_StorageClass (OpTypePointer_storage_class op) f) (try_ (fmt_arg fmt_OpId (OpTypePointer_pointed_type op) f) (done))).

(* src/spv/op.rs:330 *)
Definition fmt_OpTypeFunction : Display OpTypeFunction := fun op f =>
  try_ (write_fmt [fmt_Result (OpTypeFunction_result_id op) plain; lit "OpTypeFunction"]) (try_ (fmt_arg fmt_OpId (OpTypeFunction_return_type op) f) (try_ (fmt_arg_Vec fmt_OpId (OpTypeFunction_parameter_types op) f) (done))).

(* src/spv/op.rs:337 *)
Definition fmt_OpTypeEvent : Display OpTypeEvent := fun op f =>
  try_ (write_fmt [fmt_Result (OpTypeEvent_result_id op) plain; lit "OpTypeEvent"]) (done).

(* src/spv/op.rs:344 *)
Definition fmt_OpTypeDeviceEvent : Display OpTypeDeviceEvent := fun op f =>
  try_ (write_fmt [fmt_Result (OpTypeDeviceEvent_result_id op) plain; lit "OpTypeDeviceEvent"]) (done).

(* src/spv/op.rs:358 *)
Definition fmt_OpTypeQueue : Display OpTypeQueue := fun op f =>
  try_ (write_fmt [fmt_Result (OpTypeQueue_result_id op) plain; lit "OpTypeQueue"]) (done).

(* src/spv/op.rs:366 *)
Definition fmt_OpTypePipe : Display OpTypePipe := fun op f =>
  try_ (write_fmt [fmt_Result (OpTypePipe_result_id op) plain; lit "OpTypePipe"]) (try_ (fmt_arg fmt_AccessQualifier (OpTypePipe_access_qualifier op) f) (done)).

(* src/spv/op.rs:374 *)
Definition fmt_OpTypeForwardPointer : Display OpTypeForwardPointer := fun op f =>
  try_ (write_fmt [fmt_NoResult plain; lit "OpTypeForwardPointer"]) (try_ (fmt_arg fmt_OpId (OpTypeForwardPointer_pointer_type op) f) (try_ (fmt_arg fmt_StorageClass (OpTypeForwardPointer_storage_class op) f) (done))).

(* src/spv/op.rs:401 *)
Definition fmt_OpConstant : Display OpConstant := fun op f =>
  try_ (write_fmt [fmt_Result (OpConstant_result_id op) plain; lit "OpConstant"]) (try_ (fmt_arg fmt_OpId (OpConstant_result_type op) f) (try_ (fmt_arg_Vec fmt_u32 (OpConstant_value op) f) (done))).

(* src/spv/op.rs:410 *)
Definition fmt_OpConstantComposite : Display OpConstantComposite := fun op f =>
  try_ (write_fmt [fmt_Result (OpConstantComposite_result_id op) plain; lit "OpConstantComposite"]) (try_ (fmt_arg fmt_OpId (OpConstantComposite_result_type op) f) (try_ (fmt_arg_Vec fmt_OpId (OpConstantComposite_constituents op) f) (done))).

(* src/spv/op.rs:597 *)
Definition fmt_OpFunction : Display OpFunction := fun op f =>
  try_ (write_fmt [fmt_Result (OpFunction_result_id op) plain; lit "OpFunction"]) (try_ (fmt_arg fmt_OpId (OpFunction_result_type op) f) (try_ (fmt_arg fmt_FunctionControl (OpFunction_function_control op) f) (try_ (fmt_arg fmt_OpId (OpFunction_function_type op) f) (done)))).

(* src/spv/op.rs:605 *)
Definition fmt_OpFunctionParameter : Display OpFunctionParameter := fun op f =>
  try_ (write_fmt [fmt_Result (OpFunctionParameter_result_id op) plain; lit "OpFunctionParameter"]) (try_ (fmt_arg fmt_OpId (OpFunctionParameter_result_type op) f) (done)).

(* src/spv/op.rs:610 *)
Definition fmt_OpFunctionEnd : Display OpFunctionEnd := fun op f =>
  try_ (write_fmt [fmt_NoResult plain; lit "OpFunctionEnd"]) (done).

(* src/spv/op.rs:475 *)
Definition fmt_OpVariable : Display OpVariable := fun op f =>
  try_ (write_fmt [fmt_Result (OpVariable_result_id op) plain; lit "OpVariable"]) (try_ (fmt_arg fmt_OpId (OpVariable_result_type op) f) (try_ (fmt_arg fmt_StorageClass (OpVariable_storage_class op) f) (try_ (fmt_arg_Option fmt_OpId (OpVariable_initializer op) f) (done)))).

(* src/spv/op.rs:496 *)
Definition fmt_OpLoad : Display OpLoad := fun op f =>
  try_ (write_fmt [fmt_Result (OpLoad_result_id op) plain; lit "OpLoad"]) (try_ (fmt_arg fmt_OpId (OpLoad_result_type op) f) (try_ (fmt_arg fmt_OpId (OpLoad_pointer op) f) (try_ (fmt_arg_Option fmt_MemoryAccess (OpLoad_memory_access op) f) (done)))).

(* src/spv/op.rs:505 *)
Definition fmt_OpStore : Display OpStore := fun op f =>
  try_ (write_fmt [fmt_NoResult plain; lit "OpStore"]) (try_ (fmt_arg fmt_OpId (OpStore_pointer op) f) (try_ (fmt_arg fmt_OpId (OpStore_object op) f) (try_ (fmt_arg_Option fmt_MemoryAccess (OpStore_memory_access op) f) (done)))).

(* src/spv/op.rs:534 *)
Definition fmt_OpAccessChain : Display OpAccessChain := fun op f =>
  try_ (write_fmt [fmt_Result (OpAccessChain_result_id op) plain; lit "OpAccessChain"]) (try_ (fmt_arg fmt_OpId (OpAccessChain_result_type op) f) (try_ (fmt_arg fmt_OpId (OpAccessChain_base op) f) (try_ (fmt_arg_Vec fmt_OpId (OpAccessChain_indexes op) f) (done)))).

(* src/spv/op.rs:97 *)
Definition fmt_OpDecorate : Display OpDecorate := fun op f =>
  try_ (write_fmt [fmt_NoResult plain; lit "OpDecorate"]) (try_ (fmt_arg fmt_OpId (OpDecorate_target op) f) (try_ (fmt_arg fmt_Decoration (OpDecorate_decoration op) f) (done))).

(* src/spv/op.rs:106 *)
Definition fmt_OpMemberDecorate : Display OpMemberDecorate := fun op f =>
  try_ (write_fmt [fmt_NoResult plain; lit "OpMemberDecorate"]) (try_ (fmt_arg fmt_OpId (OpMemberDecorate_structure_type op) f) (try_ (fmt_arg fmt_MemberIndex (OpMemberDecorate_member op) f) (try_ (fmt_arg fmt_Decoration (OpMemberDecorate_decoration op) f) (done)))).

(* src/spv/op.rs:865 *)
Definition fmt_OpConvertUToF : Display OpConvertUToF := fun op f =>
  try_ (write_fmt [fmt_Result (OpConvertUToF_result_id op) plain; lit "OpConvertUToF"]) (try_ (fmt_arg fmt_OpId (OpConvertUToF_result_type op) f) (try_ (fmt_arg fmt_OpId (OpConvertUToF_unsigned_value op) f) (done))).

(* src/spv/op.rs:974 *)
Definition fmt_OpBitcast : Display OpBitcast := fun op f =>
  try_ (write_fmt [fmt_Result (OpBitcast_result_id op) plain; lit "OpBitcast"]) (try_ (fmt_arg fmt_OpId (OpBitcast_result_type op) f) (try_ (fmt_arg fmt_OpId (OpBitcast_operand op) f) (done))).

(* src/spv/op.rs:1086 *)
Definition fmt_OpIAdd : Display OpIAdd := fun op f =>
  try_ (write_fmt [fmt_Result (OpIAdd_result_id op) plain; lit "OpIAdd"]) (try_ (fmt_arg fmt_OpId (OpIAdd_result_type op) f) (try_ (fmt_arg fmt_OpId (OpIAdd_operand1 op) f) (try_ (fmt_arg fmt_OpId (OpIAdd_operand2 op) f) (done)))).

(* src/spv/op.rs:1096 *)
Definition fmt_OpFAdd : Display OpFAdd := fun op f =>
  try_ (write_fmt [fmt_Result (OpFAdd_result_id op) plain; lit "OpFAdd"]) (try_ (fmt_arg fmt_OpId (OpFAdd_result_type op) f) (try_ (fmt_arg fmt_OpId (OpFAdd_operand1 op) f) (try_ (fmt_arg fmt_OpId (OpFAdd_operand2 op) f) (done)))).

(* src/spv/op.rs:1106 *)
Definition fmt_OpISub : Display OpISub := fun op f =>
  try_ (write_fmt [fmt_Result (OpISub_result_id op) plain; lit "OpISub"]) (try_ (fmt_arg fmt_OpId (OpISub_result_type op) f) (try_ (fmt_arg fmt_OpId (OpISub_operand1 op) f) (try_ (fmt_arg fmt_OpId (OpISub_operand2 op) f) (done)))).

(* src/spv/op.rs:1116 *)
Definition fmt_OpFSub : Display OpFSub := fun op f =>
  try_ (write_fmt [fmt_Result (OpFSub_result_id op) plain; lit "OpFSub"]) (try_ (fmt_arg fmt_OpId (OpFSub_result_type op) f) (try_ (fmt_arg fmt_OpId (OpFSub_operand1 op) f) (try_ (fmt_arg fmt_OpId (OpFSub_operand2 op) f) (done)))).

(* src/spv/op.rs:1126 *)
Definition fmt_OpIMul : Display OpIMul := fun op f =>
  try_ (write_fmt [fmt_Result (OpIMul_result_id op) plain; lit "OpIMul"]) (try_ (fmt_arg fmt_OpId (OpIMul_result_type op) f) (try_ (fmt_arg fmt_OpId (OpIMul_operand1 op) f) (try_ (fmt_arg fmt_OpId (OpIMul_operand2 op) f) (done)))).

(* src/spv/op.rs:1136 *)
Definition fmt_OpFMul : Display OpFMul := fun op f =>
  try_ (write_fmt [fmt_Result (OpFMul_result_id op) plain; lit "OpFMul"]) (try_ (fmt_arg fmt_OpId (OpFMul_result_type op) f) (try_ (fmt_arg fmt_OpId (OpFMul_operand1 op) f) (try_ (fmt_arg fmt_OpId (OpFMul_operand2 op) f) (done)))).

(* src/spv/op.rs:1146 *)
Definition fmt_OpUDiv : Display OpUDiv := fun op f =>
  try_ (write_fmt [fmt_Result (OpUDiv_result_id op) plain; lit "OpUDiv"]) (try_ (fmt_arg fmt_OpId (OpUDiv_result_type op) f) (try_ (fmt_arg fmt_OpId (OpUDiv_operand1 op) f) (try_ (fmt_arg fmt_OpId (OpUDiv_operand2 op) f) (done)))).

(* src/spv/op.rs:1156 *)
Definition fmt_OpSDiv : Display OpSDiv := fun op f =>
  try_ (write_fmt [fmt_Result (OpSDiv_result_id op) plain; lit "OpSDiv"]) (try_ (fmt_arg fmt_OpId (OpSDiv_result_type op) f) (try_ (fmt_arg fmt_OpId (OpSDiv_operand1 op) f) (try_ (fmt_arg fmt_OpId (OpSDiv_operand2 op) f) (done)))).

(* src/spv/op.rs:1166 *)
Definition fmt_OpFDiv : Display OpFDiv := fun op f =>
  try_ (write_fmt [fmt_Result (OpFDiv_result_id op) plain; lit "OpFDiv"]) (try_ (fmt_arg fmt_OpId (OpFDiv_result_type op) f) (try_ (fmt_arg fmt_OpId (OpFDiv_operand1 op) f) (try_ (fmt_arg fmt_OpId (OpFDiv_operand2 op) f) (done)))).

(* src/spv/op.rs:1176 *)
Definition fmt_OpUMod : Display OpUMod := fun op f =>
  try_ (write_fmt [fmt_Result (OpUMod_result_id op) plain; lit "OpUMod"]) (try_ (fmt_arg fmt_OpId (OpUMod_result_type op) f) (try_ (fmt_arg fmt_OpId (OpUMod_operand1 op) f) (try_ (fmt_arg fmt_OpId (OpUMod_operand2 op) f) (done)))).

(* src/spv/op.rs:1186 *)
Definition fmt_OpSRem : Display OpSRem := fun op f =>
  try_ (write_fmt [fmt_Result (OpSRem_result_id op) plain; lit "OpSRem"]) (try_ (fmt_arg fmt_OpId (OpSRem_result_type op) f) (try_ (fmt_arg fmt_OpId (OpSRem_operand1 op) f) (try_ (fmt_arg fmt_OpId (OpSRem_operand2 op) f) (done)))).

(* src/spv/op.rs:1196 *)
Definition fmt_OpSMod : Display OpSMod := fun op f =>
  try_ (write_fmt [fmt_Result (OpSMod_result_id op) plain; lit "OpSMod"]) (try_ (fmt_arg fmt_OpId (OpSMod_result_type op) f) (try_ (fmt_arg fmt_OpId (OpSMod_operand1 op) f) (try_ (fmt_arg fmt_OpId (OpSMod_operand2 op) f) (done)))).

(* src/spv/op.rs:1206 *)
Definition fmt_OpFRem : Display OpFRem := fun op f =>
  try_ (write_fmt [fmt_Result (OpFRem_result_id op) plain; lit "OpFRem"]) (try_ (fmt_arg fmt_OpId (OpFRem_result_type op) f) (try_ (fmt_arg fmt_OpId (OpFRem_operand1 op) f) (try_ (fmt_arg fmt_OpId (OpFRem_operand2 op) f) (done)))).

(* src/spv/op.rs:1216 *)
Definition fmt_OpFMod : Display OpFMod := fun op f =>
  try_ (write_fmt [fmt_Result (OpFMod_result_id op) plain; lit "OpFMod"]) (try_ (fmt_arg fmt_OpId (OpFMod_result_type op) f) (try_ (fmt_arg fmt_OpId (OpFMod_operand1 op) f) (try_ (fmt_arg fmt_OpId (OpFMod_operand2 op) f) (done)))).

(* src/spv/op.rs:1296 *)
Definition fmt_OpIAddCarry : Display OpIAddCarry := fun op f =>
  try_ (write_fmt [fmt_Result (OpIAddCarry_result_id op) plain; lit "OpIAddCarry"]) (try_ (fmt_arg fmt_OpId (OpIAddCarry_result_type op) f) (try_ (fmt_arg fmt_OpId (OpIAddCarry_operand1 op) f) (try_ (fmt_arg fmt_OpId (OpIAddCarry_operand2 op) f) (done)))).

(* src/spv/op.rs:1306 *)
Definition fmt_OpISubBorrow : Display OpISubBorrow := fun op f =>
  try_ (write_fmt [fmt_Result (OpISubBorrow_result_id op) plain; lit "OpISubBorrow"]) (try_ (fmt_arg fmt_OpId (OpISubBorrow_result_type op) f) (try_ (fmt_arg fmt_OpId (OpISubBorrow_operand1 op) f) (try_ (fmt_arg fmt_OpId (OpISubBorrow_operand2 op) f) (done)))).

(* src/spv/op.rs:1316 *)
Definition fmt_OpUMulExtended : Display OpUMulExtended := fun op f =>
  try_ (write_fmt [fmt_Result (OpUMulExtended_result_id op) plain; lit "OpUMulExtended"]) (try_ (fmt_arg fmt_OpId (OpUMulExtended_result_type op) f) (try_ (fmt_arg fmt_OpId (OpUMulExtended_operand1 op) f) (try_ (fmt_arg fmt_OpId (OpUMulExtended_operand2 op) f) (done)))).

(* src/spv/op.rs:1326 *)
Definition fmt_OpSMulExtended : Display OpSMulExtended := fun op f =>
  try_ (write_fmt [fmt_Result (OpSMulExtended_result_id op) plain; lit "OpSMulExtended"]) (try_ (fmt_arg fmt_OpId (OpSMulExtended_result_type op) f) (try_ (fmt_arg fmt_OpId (OpSMulExtended_operand1 op) f) (try_ (fmt_arg fmt_OpId (OpSMulExtended_operand2 op) f) (done)))).

(* src/spv/op.rs:1368 *)
Definition fmt_OpBitwiseOr : Display OpBitwiseOr := fun op f =>
  try_ (write_fmt [fmt_Result (OpBitwiseOr_result_id op) plain; lit "OpBitwiseOr"]) (try_ (fmt_arg fmt_OpId (OpBitwiseOr_result_type op) f) (try_ (fmt_arg fmt_OpId (OpBitwiseOr_operand1 op) f) (try_ (fmt_arg fmt_OpId (OpBitwiseOr_operand2 op) f) (done)))).

(* src/spv/op.rs:1378 *)
Definition fmt_OpBitwiseXor : Display OpBitwiseXor := fun op f =>
  try_ (write_fmt [fmt_Result (OpBitwiseXor_result_id op) plain; lit "OpBitwiseXor"]) (try_ (fmt_arg fmt_OpId (OpBitwiseXor_result_type op) f) (try_ (fmt_arg fmt_OpId (OpBitwiseXor_operand1 op) f) (try_ (fmt_arg fmt_OpId (OpBitwiseXor_operand2 op) f) (done)))).

(* src/spv/op.rs:1388 *)
Definition fmt_OpBitwiseAnd : Display OpBitwiseAnd := fun op f =>
  try_ (write_fmt [fmt_Result (OpBitwiseAnd_result_id op) plain; lit "OpBitwiseAnd"]) (try_ (fmt_arg fmt_OpId (OpBitwiseAnd_result_type op) f) (try_ (fmt_arg fmt_OpId (OpBitwiseAnd_operand1 op) f) (try_ (fmt_arg fmt_OpId (OpBitwiseAnd_operand2 op) f) (done)))).

(* src/spv/op.rs:1472 *)
Definition fmt_OpIEqual : Display OpIEqual := fun op f =>
  try_ (write_fmt [fmt_Result (OpIEqual_result_id op) plain; lit "OpIEqual"]) (try_ (fmt_arg fmt_OpId (OpIEqual_result_type op) f) (try_ (fmt_arg fmt_OpId (OpIEqual_operand1 op) f) (try_ (fmt_arg fmt_OpId (OpIEqual_operand2 op) f) (done)))).

(* src/spv/op.rs:1482 *)
Definition fmt_OpINotEqual : Display OpINotEqual := fun op f =>
  try_ (write_fmt [fmt_Result (OpINotEqual_result_id op) plain; lit "OpINotEqual"]) (try_ (fmt_arg fmt_OpId (OpINotEqual_result_type op) f) (try_ (fmt_arg fmt_OpId (OpINotEqual_operand1 op) f) (try_ (fmt_arg fmt_OpId (OpINotEqual_operand2 op) f) (done)))).

(* src/spv/op.rs:1492 *)
Definition fmt_OpUGreaterThan : Display OpUGreaterThan := fun op f =>
  try_ (write_fmt [fmt_Result (OpUGreaterThan_result_id op) plain; lit "OpUGreaterThan"]) (try_ (fmt_arg fmt_OpId (OpUGreaterThan_result_type op) f) (try_ (fmt_arg fmt_OpId (OpUGreaterThan_operand1 op) f) (try_ (fmt_arg fmt_OpId (OpUGreaterThan_operand2 op) f) (done)))).

(* src/spv/op.rs:1502 *)
Definition fmt_OpSGreaterThan : Display OpSGreaterThan := fun op f =>
  try_ (write_fmt [fmt_Result (OpSGreaterThan_result_id op) plain; lit "OpSGreaterThan"]) (try_ (fmt_arg fmt_OpId (OpSGreaterThan_result_type op) f) (try_ (fmt_arg fmt_OpId (OpSGreaterThan_operand1 op) f) (try_ (fmt_arg fmt_OpId (OpSGreaterThan_operand2 op) f) (done)))).

(* src/spv/op.rs:1512 *)
Definition fmt_OpUGreaterThanEqual : Display OpUGreaterThanEqual := fun op f =>
  try_ (write_fmt [fmt_Result (OpUGreaterThanEqual_result_id op) plain; lit "OpUGreaterThanEqual"]) (try_ (fmt_arg fmt_OpId (OpUGreaterThanEqual_result_type op) f) (try_ (fmt_arg fmt_OpId (OpUGreaterThanEqual_operand1 op) f) (try_ (fmt_arg fmt_OpId (OpUGreaterThanEqual_operand2 op) f) (done)))).

(* src/spv/op.rs:1522 *)
Definition fmt_OpSGreaterThanEqual : Display OpSGreaterThanEqual := fun op f =>
  try_ (write_fmt [fmt_Result (OpSGreaterThanEqual_result_id op) plain; lit "OpSGreaterThanEqual"]) (try_ (fmt_arg fmt_OpId (OpSGreaterThanEqual_result_type op) f) (try_ (fmt_arg fmt_OpId (OpSGreaterThanEqual_operand1 op) f) (try_ (fmt_arg fmt_OpId (OpSGreaterThanEqual_operand2 op) f) (done)))).

(* src/spv/op.rs:1532 *)
Definition fmt_OpULessThan : Display OpULessThan := fun op f =>
  try_ (write_fmt [fmt_Result (OpULessThan_result_id op) plain; lit "OpULessThan"]) (try_ (fmt_arg fmt_OpId (OpULessThan_result_type op) f) (try_ (fmt_arg fmt_OpId (OpULessThan_operand1 op) f) (try_ (fmt_arg fmt_OpId (OpULessThan_operand2 op) f) (done)))).

(* src/spv/op.rs:1542 *)
Definition fmt_OpSLessThan : Display OpSLessThan := fun op f =>
  try_ (write_fmt [fmt_Result (OpSLessThan_result_id op) plain; lit "OpSLessThan"]) (try_ (fmt_arg fmt_OpId (OpSLessThan_result_type op) f) (try_ (fmt_arg fmt_OpId (OpSLessThan_operand1 op) f) (try_ (fmt_arg fmt_OpId (OpSLessThan_operand2 op) f) (done)))).

(* src/spv/op.rs:1552 *)
Definition fmt_OpULessThanEqual : Display OpULessThanEqual := fun op f =>
  try_ (write_fmt [fmt_Result (OpULessThanEqual_result_id op) plain; lit "OpULessThanEqual"]) (try_ (fmt_arg fmt_OpId (OpULessThanEqual_result_type op) f) (try_ (fmt_arg fmt_OpId (OpULessThanEqual_operand1 op) f) (try_ (fmt_arg fmt_OpId (OpULessThanEqual_operand2 op) f) (done)))).

(* src/spv/op.rs:1562 *)
Definition fmt_OpSLessThanEqual : Display OpSLessThanEqual := fun op f =>
  try_ (write_fmt [fmt_Result (OpSLessThanEqual_result_id op) plain; lit "OpSLessThanEqual"]) (try_ (fmt_arg fmt_OpId (OpSLessThanEqual_result_type op) f) (try_ (fmt_arg fmt_OpId (OpSLessThanEqual_operand1 op) f) (try_ (fmt_arg fmt_OpId (OpSLessThanEqual_operand2 op) f) (done)))).

(* src/spv/op.rs:1572 *)
Definition fmt_OpFOrdEqual : Display OpFOrdEqual := fun op f =>
  try_ (write_fmt [fmt_Result (OpFOrdEqual_result_id op) plain; lit "OpFOrdEqual"]) (try_ (fmt_arg fmt_OpId (OpFOrdEqual_result_type op) f) (try_ (fmt_arg fmt_OpId (OpFOrdEqual_operand1 op) f) (try_ (fmt_arg fmt_OpId (OpFOrdEqual_operand2 op) f) (done)))).

(* src/spv/op.rs:1582 *)
Definition fmt_OpFUnordEqual : Display OpFUnordEqual := fun op f =>
  try_ (write_fmt [fmt_Result (OpFUnordEqual_result_id op) plain; lit "OpFUnordEqual"]) (try_ (fmt_arg fmt_OpId (OpFUnordEqual_result_type op) f) (try_ (fmt_arg fmt_OpId (OpFUnordEqual_operand1 op) f) (try_ (fmt_arg fmt_OpId (OpFUnordEqual_operand2 op) f) (done)))).

(* src/spv/op.rs:1592 *)
Definition fmt_OpFOrdNotEqual : Display OpFOrdNotEqual := fun op f =>
  try_ (write_fmt [fmt_Result (OpFOrdNotEqual_result_id op) plain; lit "OpFOrdNotEqual"]) (try_ (fmt_arg fmt_OpId (OpFOrdNotEqual_result_type op) f) (try_ (fmt_arg fmt_OpId (OpFOrdNotEqual_operand1 op) f) (try_ (fmt_arg fmt_OpId (OpFOrdNotEqual_operand2 op) f) (done)))).

(* src/spv/op.rs:1602 *)
Definition fmt_OpFUnordNotEqual : Display OpFUnordNotEqual := fun op f =>
  try_ (write_fmt [fmt_Result (OpFUnordNotEqual_result_id op) plain; lit "OpFUnordNotEqual"]) (try_ (fmt_arg fmt_OpId (OpFUnordNotEqual_result_type op) f) (try_ (fmt_arg fmt_OpId (OpFUnordNotEqual_operand1 op) f) (try_ (fmt_arg fmt_OpId (OpFUnordNotEqual_operand2 op) f) (done)))).

(* src/spv/op.rs:1612 *)
Definition fmt_OpFOrdLessThan : Display OpFOrdLessThan := fun op f =>
  try_ (write_fmt [fmt_Result (OpFOrdLessThan_result_id op) plain; lit "OpFOrdLessThan"]) (try_ (fmt_arg fmt_OpId (OpFOrdLessThan_result_type op) f) (try_ (fmt_arg fmt_OpId (OpFOrdLessThan_operand1 op) f) (try_ (fmt_arg fmt_OpId (OpFOrdLessThan_operand2 op) f) (done)))).

(* src/spv/op.rs:1622 *)
Definition fmt_OpFUnordLessThan : Display OpFUnordLessThan := fun op f =>
  try_ (write_fmt [fmt_Result (OpFUnordLessThan_result_id op) plain; lit "OpFUnordLessThan"]) (try_ (fmt_arg fmt_OpId (OpFUnordLessThan_result_type op) f) (try_ (fmt_arg fmt_OpId (OpFUnordLessThan_operand1 op) f) (try_ (fmt_arg fmt_OpId (OpFUnordLessThan_operand2 op) f) (done)))).

(* src/spv/op.rs:1632 *)
Definition fmt_OpFOrdGreaterThan : Display OpFOrdGreaterThan := fun op f =>
  try_ (write_fmt [fmt_Result (OpFOrdGreaterThan_result_id op) plain; lit "OpFOrdGreaterThan"]) (try_ (fmt_arg fmt_OpId (OpFOrdGreaterThan_result_type op) f) (try_ (fmt_arg fmt_OpId (OpFOrdGreaterThan_operand1 op) f) (try_ (fmt_arg fmt_OpId (OpFOrdGreaterThan_operand2 op) f) (done)))).

(* src/spv/op.rs:1642 *)
Definition fmt_OpFUnordGreaterThan : Display OpFUnordGreaterThan := fun op f =>
  try_ (write_fmt [fmt_Result (OpFUnordGreaterThan_result_id op) plain; lit "OpFUnordGreaterThan"]) (try_ (fmt_arg fmt_OpId (OpFUnordGreaterThan_result_type op) f) (try_ (fmt_arg fmt_OpId (OpFUnordGreaterThan_operand1 op) f) (try_ (fmt_arg fmt_OpId (OpFUnordGreaterThan_operand2 op) f) (done)))).

(* src/spv/op.rs:1652 *)
Definition fmt_OpFOrdLessThanEqual : Display OpFOrdLessThanEqual := fun op f =>
  try_ (write_fmt [fmt_Result (OpFOrdLessThanEqual_result_id op) plain; lit "OpFOrdLessThanEqual"]) (try_ (fmt_arg fmt_OpId (OpFOrdLessThanEqual_result_type op) f) (try_ (fmt_arg fmt_OpId (OpFOrdLessThanEqual_operand1 op) f) (try_ (fmt_arg fmt_OpId (OpFOrdLessThanEqual_operand2 op) f) (done)))).

(* src/spv/op.rs:1662 *)
Definition fmt_OpFUnordLessThanEqual : Display OpFUnordLessThanEqual := fun op f =>
  try_ (write_fmt [fmt_Result (OpFUnordLessThanEqual_result_id op) plain; lit "OpFUnordLessThanEqual"]) (try_ (fmt_arg fmt_OpId (OpFUnordLessThanEqual_result_type op) f) (try_ (fmt_arg fmt_OpId (OpFUnordLessThanEqual_operand1 op) f) (try_ (fmt_arg fmt_OpId (OpFUnordLessThanEqual_operand2 op) f) (done)))).

(* src/spv/op.rs:1672 *)
Definition fmt_OpFOrdGreaterThanEqual : Display OpFOrdGreaterThanEqual := fun op f =>
  try_ (write_fmt [fmt_Result (OpFOrdGreaterThanEqual_result_id op) plain; lit "OpFOrdGreaterThanEqual"]) (try_ (fmt_arg fmt_OpId (OpFOrdGreaterThanEqual_result_type op) f) (try_ (fmt_arg fmt_OpId (OpFOrdGreaterThanEqual_operand1 op) f) (try_ (fmt_arg fmt_OpId (OpFOrdGreaterThanEqual_operand2 op) f) (done)))).

(* src/spv/op.rs:1682 *)
Definition fmt_OpFUnordGreaterThanEqual : Display OpFUnordGreaterThanEqual := fun op f =>
  try_ (write_fmt [fmt_Result (OpFUnordGreaterThanEqual_result_id op) plain; lit "OpFUnordGreaterThanEqual"]) (try_ (fmt_arg fmt_OpId (OpFUnordGreaterThanEqual_result_type op) f) (try_ (fmt_arg fmt_OpId (OpFUnordGreaterThanEqual_operand1 op) f) (try_ (fmt_arg fmt_OpId (OpFUnordGreaterThanEqual_operand2 op) f) (done)))).

(* src/spv/op.rs:1722 *)
Definition fmt_OpPhi : Display OpPhi := fun op f =>
  try_ (write_fmt [fmt_Result (OpPhi_result_id op) plain; lit "OpPhi"]) (try_ (fmt_arg fmt_OpId (OpPhi_result_type op) f) (try_ (fmt_arg_Vec fmt_PhiArg (OpPhi_variables op) f) (done))).

(* src/spv/op.rs:1731 *)
Definition fmt_OpLoopMerge : Display OpLoopMerge := fun op f =>
  try_ (write_fmt [fmt_NoResult plain; lit "OpLoopMerge"]) (try_ (fmt_arg fmt_OpId (OpLoopMerge_merge_block op) f) (try_ (fmt_arg fmt_OpId (OpLoopMerge_continue_target op) f) (try_ (fmt_arg fmt_LoopControl (OpLoopMerge_loop_control op) f) (done)))).

(* src/spv/op.rs:1739 *)
Definition fmt_OpSelectionMerge : Display OpSelectionMerge := fun op f =>
  try_ (write_fmt [fmt_NoResult plain; lit "OpSelectionMerge"]) (try_ (fmt_arg fmt_OpId (OpSelectionMerge_merge_block op) f) (try_ (fmt_arg fmt_SelectionControl (OpSelectionMerge_selection_control op) f) (done))).

(* src/spv/op.rs:1746 *)
Definition fmt_OpLabel : Display OpLabel := fun op f =>
  try_ (write_fmt [fmt_Result (OpLabel_result_id op) plain; lit "OpLabel"]) (done).

(* src/spv/op.rs:1753 *)
Definition fmt_OpBranch : Display OpBranch := fun op f =>
  try_ (write_fmt [fmt_NoResult plain; lit "OpBranch"]) (try_ (fmt_arg fmt_OpId (OpBranch_target_label op) f) (done)).

(* src/spv/op.rs:1763 *)
Definition fmt_OpBranchConditional : Display OpBranchConditional := fun op f =>
  try_ (write_fmt [fmt_NoResult plain; lit "OpBranchConditional"]) (try_ (fmt_arg fmt_OpId (OpBranchConditional_condition op) f) (try_ (fmt_arg fmt_OpId (OpBranchConditional_true_label op) f) (try_ (fmt_arg fmt_OpId (OpBranchConditional_false_label op) f) (try_ (fmt_arg_Option fmt_BranchWeights (OpBranchConditional_weights op) f) (done))))).

(* src/spv/op.rs:1774 *)
Definition fmt_OpReturn : Display OpReturn := fun op f =>
  try_ (write_fmt [fmt_NoResult plain; lit "OpReturn"]) (done).

Section FmtCore.
Context {E : Type} (fmt_ext : Display E).

(* src/spv/raw/mod.rs:154-257 *)
Definition fmt_Core : Display (Core E) := fun x f =>
  match x with
  | Core_OpNop op => fmt_OpNop op f
  | Core_OpUndef op => fmt_OpUndef op f
  | Core_OpSourceContinued op => fmt_OpSourceContinued op f
  | Core_OpSource op => fmt_OpSource op f
  | Core_OpSourceExtension op => fmt_OpSourceExtension op f
  | Core_OpName op => fmt_OpName op f
  | Core_OpMemberName op => fmt_OpMemberName op f
  | Core_OpString op => fmt_OpString op f
  | Core_OpExtension op => fmt_OpExtension op f
  | Core_OpExtInstImport op => fmt_OpExtInstImport op f
  | Core_OpExtInst op => fmt_OpExtInst fmt_ext op f
  | Core_OpMemoryModel op => fmt_OpMemoryModel op f
  | Core_OpEntryPoint op => fmt_OpEntryPoint op f
  | Core_OpExecutionMode op => fmt_OpExecutionMode op f
  | Core_OpCapability op => fmt_OpCapability op f
  | Core_OpTypeVoid op => fmt_OpTypeVoid op f
  | Core_OpTypeBool op => fmt_OpTypeBool op f
  | Core_OpTypeInt op => fmt_OpTypeInt op f
  | Core_OpTypeFloat op => fmt_OpTypeFloat op f
  | Core_OpTypeVector op => fmt_OpTypeVector op f
  | Core_OpTypeMatrix op => fmt_OpTypeMatrix op f
  | Core_OpTypeImage op => fmt_OpTypeImage op f
  | Core_OpTypeSampler op => fmt_OpTypeSampler op f
  | Core_OpTypeSampledImage op => fmt_OpTypeSampledImage op f
  | Core_OpTypeArray op => fmt_OpTypeArray op f
  | Core_OpTypeRuntimeArray op => fmt_OpTypeRuntimeArray op f
  | Core_OpTypeStruct op => fmt_OpTypeStruct op f
  | Core_OpTypeOpaque op => fmt_OpTypeOpaque op f
  | Core_OpTypePointer op => fmt_OpTypePointer op f
  | Core_OpTypeFunction op => fmt_OpTypeFunction op f
  | Core_OpTypeEvent op => fmt_OpTypeEvent op f
  | Core_OpTypeDeviceEvent op => fmt_OpTypeDeviceEvent op f
  | Core_OpTypeQueue op => fmt_OpTypeQueue op f
  | Core_OpTypePipe op => fmt_OpTypePipe op f
  | Core_OpTypeForwardPointer op => fmt_OpTypeForwardPointer op f
  | Core_OpConstant op => fmt_OpConstant op f
  | Core_OpConstantComposite op => fmt_OpConstantComposite op f
  | Core_OpFunction op => fmt_OpFunction op f
  | Core_OpFunctionParameter op => fmt_OpFunctionParameter op f
  | Core_OpFunctionEnd op => fmt_OpFunctionEnd op f
  | Core_OpVariable op => fmt_OpVariable op f
  | Core_OpLoad op => fmt_OpLoad op f
  | Core_OpStore op => fmt_OpStore op f
  | Core_OpAccessChain op => fmt_OpAccessChain op f
  | Core_OpDecorate op => fmt_OpDecorate op f
  | Core_OpMemberDecorate op => fmt_OpMemberDecorate op f
  | Core_OpConvertUToF op => fmt_OpConvertUToF op f
  | Core_OpBitcast op => fmt_OpBitcast op f
  | Core_OpIAdd op => fmt_OpIAdd op f
  | Core_OpFAdd op => fmt_OpFAdd op f
  | Core_OpISub op => fmt_OpISub op f
  | Core_OpFSub op => fmt_OpFSub op f
  | Core_OpIMul op => fmt_OpIMul op f
  | Core_OpFMul op => fmt_OpFMul op f
  | Core_OpUDiv op => fmt_OpUDiv op f
  | Core_OpSDiv op => fmt_OpSDiv op f
  | Core_OpFDiv op => fmt_OpFDiv op f
  | Core_OpUMod op => fmt_OpUMod op f
  | Core_OpSRem op => fmt_OpSRem op f
  | Core_OpSMod op => fmt_OpSMod op f
  | Core_OpFRem op => fmt_OpFRem op f
  | Core_OpFMod op => fmt_OpFMod op f
  | Core_OpIAddCarry op => fmt_OpIAddCarry op f
  | Core_OpISubBorrow op => fmt_OpISubBorrow op f
  | Core_OpUMulExtended op => fmt_OpUMulExtended op f
  | Core_OpSMulExtended op => fmt_OpSMulExtended op f
  | Core_OpBitwiseOr op => fmt_OpBitwiseOr op f
  | Core_OpBitwiseXor op => fmt_OpBitwiseXor op f
  | Core_OpBitwiseAnd op => fmt_OpBitwiseAnd op f
  | Core_OpIEqual op => fmt_OpIEqual op f
  | Core_OpINotEqual op => fmt_OpINotEqual op f
  | Core_OpUGreaterThan op => fmt_OpUGreaterThan op f
  | Core_OpSGreaterThan op => fmt_OpSGreaterThan op f
  | Core_OpUGreaterThanEqual op => fmt_OpUGreaterThanEqual op f
  | Core_OpSGreaterThanEqual op => fmt_OpSGreaterThanEqual op f
  | Core_OpULessThan op => fmt_OpULessThan op f
  | Core_OpSLessThan op => fmt_OpSLessThan op f
  | Core_OpULessThanEqual op => fmt_OpULessThanEqual op f
  | Core_OpSLessThanEqual op => fmt_OpSLessThanEqual op f
  | Core_OpFOrdEqual op => fmt_OpFOrdEqual op f
  | Core_OpFUnordEqual op => fmt_OpFUnordEqual op f
  | Core_OpFOrdNotEqual op => fmt_OpFOrdNotEqual op f
  | Core_OpFUnordNotEqual op => fmt_OpFUnordNotEqual op f
  | Core_OpFOrdLessThan op => fmt_OpFOrdLessThan op f
  | Core_OpFUnordLessThan op => fmt_OpFUnordLessThan op f
  | Core_OpFOrdGreaterThan op => fmt_OpFOrdGreaterThan op f
  | Core_OpFUnordGreaterThan op => fmt_OpFUnordGreaterThan op f
  | Core_OpFOrdLessThanEqual op => fmt_OpFOrdLessThanEqual op f
  | Core_OpFUnordLessThanEqual op => fmt_OpFUnordLessThanEqual op f
  | Core_OpFOrdGreaterThanEqual op => fmt_OpFOrdGreaterThanEqual op f
  | Core_OpFUnordGreaterThanEqual op => fmt_OpFUnordGreaterThanEqual op f
  | Core_OpPhi op => fmt_OpPhi op f
  | Core_OpLoopMerge op => fmt_OpLoopMerge op f
  | Core_OpSelectionMerge op => fmt_OpSelectionMerge op f
  | Core_OpLabel op => fmt_OpLabel op f
  | Core_OpBranch op => fmt_OpBranch op f
  | Core_OpBranchConditional op => fmt_OpBranchConditional op f
  | Core_OpReturn op => fmt_OpReturn op f
  end.

(* src/spv/logical/mod.rs:126-185 *)
Definition fmt_GroupCode : Display (GroupCode E) := fun x f =>
  match x with
  | GroupCode_OpNop op => fmt_OpNop op f
  | GroupCode_OpUndef op => fmt_OpUndef op f
  | GroupCode_OpExtInst op => fmt_OpExtInst fmt_ext op f
  | GroupCode_OpVariable op => fmt_OpVariable op f
  | GroupCode_OpLoad op => fmt_OpLoad op f
  | GroupCode_OpStore op => fmt_OpStore op f
  | GroupCode_OpAccessChain op => fmt_OpAccessChain op f
  | GroupCode_OpConvertUToF op => fmt_OpConvertUToF op f
  | GroupCode_OpBitcast op => fmt_OpBitcast op f
  | GroupCode_OpIAdd op => fmt_OpIAdd op f
  | GroupCode_OpFAdd op => fmt_OpFAdd op f
  | GroupCode_OpISub op => fmt_OpISub op f
  | GroupCode_OpFSub op => fmt_OpFSub op f
  | GroupCode_OpIMul op => fmt_OpIMul op f
  | GroupCode_OpFMul op => fmt_OpFMul op f
  | GroupCode_OpUDiv op => fmt_OpUDiv op f
  | GroupCode_OpSDiv op => fmt_OpSDiv op f
  | GroupCode_OpFDiv op => fmt_OpFDiv op f
  | GroupCode_OpUMod op => fmt_OpUMod op f
  | GroupCode_OpSRem op => fmt_OpSRem op f
  | GroupCode_OpSMod op => fmt_OpSMod op f
  | GroupCode_OpFRem op => fmt_OpFRem op f
  | GroupCode_OpFMod op => fmt_OpFMod op f
  | GroupCode_OpIAddCarry op => fmt_OpIAddCarry op f
  | GroupCode_OpISubBorrow op => fmt_OpISubBorrow op f
  | GroupCode_OpUMulExtended op => fmt_OpUMulExtended op f
  | GroupCode_OpSMulExtended op => fmt_OpSMulExtended op f
  | GroupCode_OpBitwiseOr op => fmt_OpBitwiseOr op f
  | GroupCode_OpBitwiseXor op => fmt_OpBitwiseXor op f
  | GroupCode_OpBitwiseAnd op => fmt_OpBitwiseAnd op f
  | GroupCode_OpIEqual op => fmt_OpIEqual op f
  | GroupCode_OpINotEqual op => fmt_OpINotEqual op f
  | GroupCode_OpUGreaterThan op => fmt_OpUGreaterThan op f
  | GroupCode_OpSGreaterThan op => fmt_OpSGreaterThan op f
  | GroupCode_OpUGreaterThanEqual op => fmt_OpUGreaterThanEqual op f
  | GroupCode_OpSGreaterThanEqual op => fmt_OpSGreaterThanEqual op f
  | GroupCode_OpULessThan op => fmt_OpULessThan op f
  | GroupCode_OpSLessThan op => fmt_OpSLessThan op f
  | GroupCode_OpULessThanEqual op => fmt_OpULessThanEqual op f
  | GroupCode_OpSLessThanEqual op => fmt_OpSLessThanEqual op f
  | GroupCode_OpFOrdEqual op => fmt_OpFOrdEqual op f
  | GroupCode_OpFUnordEqual op => fmt_OpFUnordEqual op f
  | GroupCode_OpFOrdNotEqual op => fmt_OpFOrdNotEqual op f
  | GroupCode_OpFUnordNotEqual op => fmt_OpFUnordNotEqual op f
  | GroupCode_OpFOrdLessThan op => fmt_OpFOrdLessThan op f
  | GroupCode_OpFUnordLessThan op => fmt_OpFUnordLessThan op f
  | GroupCode_OpFOrdGreaterThan op => fmt_OpFOrdGreaterThan op f
  | GroupCode_OpFUnordGreaterThan op => fmt_OpFUnordGreaterThan op f
  | GroupCode_OpFOrdLessThanEqual op => fmt_OpFOrdLessThanEqual op f
  | GroupCode_OpFUnordLessThanEqual op => fmt_OpFUnordLessThanEqual op f
  | GroupCode_OpFOrdGreaterThanEqual op => fmt_OpFOrdGreaterThanEqual op f
  | GroupCode_OpFUnordGreaterThanEqual op => fmt_OpFUnordGreaterThanEqual op f
  | GroupCode_OpPhi op => fmt_OpPhi op f
  end.

(* src/spv/logical/mod.rs:200-209 *)
Definition fmt_GroupBranch : Display GroupBranch := fun x f =>
  match x with
  | GroupBranch_OpBranch op => fmt_OpBranch op f
  | GroupBranch_OpBranchConditional op => fmt_OpBranchConditional op f
  | GroupBranch_OpReturn op => fmt_OpReturn op f
  end.

End FmtCore.
