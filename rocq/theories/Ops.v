(* GENERATED by tools/gen.py from /repo; do not edit by hand. *)
From Verif Require Import Base Types.

(** Op structs (src/spv/op.rs) of every variant of Core, and Core itself.
    [E] is the type of extended instructions (ExtInstBox, src/spv/mod.rs:53-55). *)

(* src/spv/op.rs:12 *)
Record OpNop : Type := Build_OpNop {

}.

(* src/spv/op.rs:17-20 *)
Record OpUndef : Type := Build_OpUndef {
  OpUndef_result_type : OpId;
  OpUndef_result_id : ResultId
}.

(* src/spv/op.rs:27-29 *)
Record OpSourceContinued : Type := Build_OpSourceContinued {
  OpSourceContinued_continued_source : LitString
}.

(* src/spv/op.rs:34-39 *)
Record OpSource : Type := Build_OpSource {
  OpSource_language : SourceLanguage;
  OpSource_version : SourceVersion;
  OpSource_file : (option OpId);
  OpSource_source : (option LitString)
}.

(* src/spv/op.rs:44-46 *)
Record OpSourceExtension : Type := Build_OpSourceExtension {
  OpSourceExtension_extension : LitString
}.

(* src/spv/op.rs:51-54 *)
Record OpName : Type := Build_OpName {
  OpName_target : OpId;
  OpName_name : LitString
}.

(* src/spv/op.rs:59-63 *)
Record OpMemberName : Type := Build_OpMemberName {
  OpMemberName_struct_type : OpId;
  OpMemberName_member : MemberIndex;
  OpMemberName_name : LitString
}.

(* src/spv/op.rs:68-71 *)
Record OpString : Type := Build_OpString {
  OpString_result_id : ResultId;
  OpString_string : LitString
}.

(* src/spv/op.rs:132-134 *)
Record OpExtension : Type := Build_OpExtension {
  OpExtension_name : LitString
}.

(* src/spv/op.rs:139-142 *)
Record OpExtInstImport : Type := Build_OpExtInstImport {
  OpExtInstImport_result_id : ResultId;
  OpExtInstImport_name : LitString
}.

(* src/spv/op.rs:147-152 *)
Record OpExtInst (E : Type) : Type := Build_OpExtInst {
  OpExtInst_result_type : OpId;
  OpExtInst_result_id : ResultId;
  OpExtInst_set : OpId;
  OpExtInst_instruction : E
}.

(* src/spv/op.rs:159-162 *)
Record OpMemoryModel : Type := Build_OpMemoryModel {
  OpMemoryModel_addressing_model : AddressingModel;
  OpMemoryModel_memory_model : MemoryModel
}.

(* src/spv/op.rs:167-172 *)
Record OpEntryPoint : Type := Build_OpEntryPoint {
  OpEntryPoint_execution_model : ExecutionModel;
  OpEntryPoint_entry_point : OpId;
  OpEntryPoint_name : LitString;
  OpEntryPoint_interface : (list OpId)
}.

(* src/spv/op.rs:177-180 *)
Record OpExecutionMode : Type := Build_OpExecutionMode {
  OpExecutionMode_entry_point : OpId;
  OpExecutionMode_mode : ExecutionMode
}.

(* src/spv/op.rs:185-187 *)
Record OpCapability : Type := Build_OpCapability {
  OpCapability_capability : Capability
}.

(* src/spv/op.rs:194-196 *)
Record OpTypeVoid : Type := Build_OpTypeVoid {
  OpTypeVoid_result_id : ResultId
}.

(* src/spv/op.rs:201-203 *)
Record OpTypeBool : Type := Build_OpTypeBool {
  OpTypeBool_result_id : ResultId
}.

(* src/spv/op.rs:208-212 *)
Record OpTypeInt : Type := Build_OpTypeInt {
  OpTypeInt_result_id : ResultId;
  OpTypeInt_width : N;
  OpTypeInt_signedness : Signedness
}.

(* src/spv/op.rs:217-220 *)
Record OpTypeFloat : Type := Build_OpTypeFloat {
  OpTypeFloat_result_id : ResultId;
  OpTypeFloat_width : N
}.

(* src/spv/op.rs:225-229 *)
Record OpTypeVector : Type := Build_OpTypeVector {
  OpTypeVector_result_id : ResultId;
  OpTypeVector_component_type : OpId;
  OpTypeVector_component_count : N
}.

(* src/spv/op.rs:234-238 *)
Record OpTypeMatrix : Type := Build_OpTypeMatrix {
  OpTypeMatrix_result_id : ResultId;
  OpTypeMatrix_column_type : OpId;
  OpTypeMatrix_column_count : N
}.

(* src/spv/op.rs:243-253 *)
Record OpTypeImage : Type := Build_OpTypeImage {
  OpTypeImage_result_id : ResultId;
  OpTypeImage_sampled_type : OpId;
  OpTypeImage_dim : Dim;
  OpTypeImage_depth : DepthStatus;
  OpTypeImage_arrayed : Arrayed;
  OpTypeImage_ms : MS;
  OpTypeImage_sampled : SampledStatus;
  OpTypeImage_format : ImageFormat;
  OpTypeImage_access_qualifier : (option AccessQualifier)
}.

(* src/spv/op.rs:267-269 *)
Record OpTypeSampler : Type := Build_OpTypeSampler {
  OpTypeSampler_result_id : ResultId
}.

(* src/spv/op.rs:274-277 *)
Record OpTypeSampledImage : Type := Build_OpTypeSampledImage {
  OpTypeSampledImage_result_id : ResultId;
  OpTypeSampledImage_image_type : OpId
}.

(* src/spv/op.rs:282-286 *)
Record OpTypeArray : Type := Build_OpTypeArray {
  OpTypeArray_result_id : ResultId;
  OpTypeArray_element_type : OpId;
  OpTypeArray_length : OpId
}.

(* src/spv/op.rs:291-294 *)
Record OpTypeRuntimeArray : Type := Build_OpTypeRuntimeArray {
  OpTypeRuntimeArray_result_id : ResultId;
  OpTypeRuntimeArray_element_type : OpId
}.

(* src/spv/op.rs:299-302 *)
Record OpTypeStruct : Type := Build_OpTypeStruct {
  OpTypeStruct_result_id : ResultId;
  OpTypeStruct_member_types : (list OpId)
}.

(* src/spv/op.rs:307-310 *)
Record OpTypeOpaque : Type := Build_OpTypeOpaque {
  OpTypeOpaque_result_id : ResultId;
  OpTypeOpaque_name : LitString
}.

(* src/spv/op.rs:315-319 *)
Record OpTypePointer : Type := Build_OpTypePointer {
  OpTypePointer_result_id : ResultId;
  OpTypePointer_storage_class : StorageClass;
  OpTypePointer_pointed_type : OpId
}.

(* src/spv/op.rs:324-328 *)
Record OpTypeFunction : Type := Build_OpTypeFunction {
  OpTypeFunction_result_id : ResultId;
  OpTypeFunction_return_type : OpId;
  OpTypeFunction_parameter_types : (list OpId)
}.

(* src/spv/op.rs:333-335 *)
Record OpTypeEvent : Type := Build_OpTypeEvent {
  OpTypeEvent_result_id : ResultId
}.

(* src/spv/op.rs:340-342 *)
Record OpTypeDeviceEvent : Type := Build_OpTypeDeviceEvent {
  OpTypeDeviceEvent_result_id : ResultId
}.

(* src/spv/op.rs:354-356 *)
Record OpTypeQueue : Type := Build_OpTypeQueue {
  OpTypeQueue_result_id : ResultId
}.

(* src/spv/op.rs:361-364 *)
Record OpTypePipe : Type := Build_OpTypePipe {
  OpTypePipe_result_id : ResultId;
  OpTypePipe_access_qualifier : AccessQualifier
}.

(* src/spv/op.rs:369-372 *)
Record OpTypeForwardPointer : Type := Build_OpTypeForwardPointer {
  OpTypeForwardPointer_pointer_type : OpId;
  OpTypeForwardPointer_storage_class : StorageClass
}.

(* src/spv/op.rs:395-399 *)
Record OpConstant : Type := Build_OpConstant {
  OpConstant_result_type : OpId;
  OpConstant_result_id : ResultId;
  OpConstant_value : LitBytes
}.

(* src/spv/op.rs:404-408 *)
Record OpConstantComposite : Type := Build_OpConstantComposite {
  OpConstantComposite_result_type : OpId;
  OpConstantComposite_result_id : ResultId;
  OpConstantComposite_constituents : (list OpId)
}.

(* src/spv/op.rs:590-595 *)
Record OpFunction : Type := Build_OpFunction {
  OpFunction_result_type : OpId;
  OpFunction_result_id : ResultId;
  OpFunction_function_control : FunctionControl;
  OpFunction_function_type : OpId
}.

(* src/spv/op.rs:600-603 *)
Record OpFunctionParameter : Type := Build_OpFunctionParameter {
  OpFunctionParameter_result_type : OpId;
  OpFunctionParameter_result_id : ResultId
}.

(* src/spv/op.rs:608 *)
Record OpFunctionEnd : Type := Build_OpFunctionEnd {

}.

(* src/spv/op.rs:468-473 *)
Record OpVariable : Type := Build_OpVariable {
  OpVariable_result_type : OpId;
  OpVariable_result_id : ResultId;
  OpVariable_storage_class : StorageClass;
  OpVariable_initializer : (option OpId)
}.

(* src/spv/op.rs:489-494 *)
Record OpLoad : Type := Build_OpLoad {
  OpLoad_result_type : OpId;
  OpLoad_result_id : ResultId;
  OpLoad_pointer : OpId;
  OpLoad_memory_access : (option MemoryAccess)
}.

(* src/spv/op.rs:499-503 *)
Record OpStore : Type := Build_OpStore {
  OpStore_pointer : OpId;
  OpStore_object : OpId;
  OpStore_memory_access : (option MemoryAccess)
}.

(* src/spv/op.rs:527-532 *)
Record OpAccessChain : Type := Build_OpAccessChain {
  OpAccessChain_result_type : OpId;
  OpAccessChain_result_id : ResultId;
  OpAccessChain_base : OpId;
  OpAccessChain_indexes : (list OpId)
}.

(* src/spv/op.rs:92-95 *)
Record OpDecorate : Type := Build_OpDecorate {
  OpDecorate_target : OpId;
  OpDecorate_decoration : Decoration
}.

(* src/spv/op.rs:100-104 *)
Record OpMemberDecorate : Type := Build_OpMemberDecorate {
  OpMemberDecorate_structure_type : OpId;
  OpMemberDecorate_member : MemberIndex;
  OpMemberDecorate_decoration : Decoration
}.

(* src/spv/op.rs:859-863 *)
Record OpConvertUToF : Type := Build_OpConvertUToF {
  OpConvertUToF_result_type : OpId;
  OpConvertUToF_result_id : ResultId;
  OpConvertUToF_unsigned_value : OpId
}.

(* src/spv/op.rs:968-972 *)
Record OpBitcast : Type := Build_OpBitcast {
  OpBitcast_result_type : OpId;
  OpBitcast_result_id : ResultId;
  OpBitcast_operand : OpId
}.

(* src/spv/op.rs:1079-1084 *)
Record OpIAdd : Type := Build_OpIAdd {
  OpIAdd_result_type : OpId;
  OpIAdd_result_id : ResultId;
  OpIAdd_operand1 : OpId;
  OpIAdd_operand2 : OpId
}.

(* src/spv/op.rs:1089-1094 *)
Record OpFAdd : Type := Build_OpFAdd {
  OpFAdd_result_type : OpId;
  OpFAdd_result_id : ResultId;
  OpFAdd_operand1 : OpId;
  OpFAdd_operand2 : OpId
}.

(* src/spv/op.rs:1099-1104 *)
Record OpISub : Type := Build_OpISub {
  OpISub_result_type : OpId;
  OpISub_result_id : ResultId;
  OpISub_operand1 : OpId;
  OpISub_operand2 : OpId
}.

(* src/spv/op.rs:1109-1114 *)
Record OpFSub : Type := Build_OpFSub {
  OpFSub_result_type : OpId;
  OpFSub_result_id : ResultId;
  OpFSub_operand1 : OpId;
  OpFSub_operand2 : OpId
}.

(* src/spv/op.rs:1119-1124 *)
Record OpIMul : Type := Build_OpIMul {
  OpIMul_result_type : OpId;
  OpIMul_result_id : ResultId;
  OpIMul_operand1 : OpId;
  OpIMul_operand2 : OpId
}.

(* src/spv/op.rs:1129-1134 *)
Record OpFMul : Type := Build_OpFMul {
  OpFMul_result_type : OpId;
  OpFMul_result_id : ResultId;
  OpFMul_operand1 : OpId;
  OpFMul_operand2 : OpId
}.

(* src/spv/op.rs:1139-1144 *)
Record OpUDiv : Type := Build_OpUDiv {
  OpUDiv_result_type : OpId;
  OpUDiv_result_id : ResultId;
  OpUDiv_operand1 : OpId;
  OpUDiv_operand2 : OpId
}.

(* src/spv/op.rs:1149-1154 *)
Record OpSDiv : Type := Build_OpSDiv {
  OpSDiv_result_type : OpId;
  OpSDiv_result_id : ResultId;
  OpSDiv_operand1 : OpId;
  OpSDiv_operand2 : OpId
}.

(* src/spv/op.rs:1159-1164 *)
Record OpFDiv : Type := Build_OpFDiv {
  OpFDiv_result_type : OpId;
  OpFDiv_result_id : ResultId;
  OpFDiv_operand1 : OpId;
  OpFDiv_operand2 : OpId
}.

(* src/spv/op.rs:1169-1174 *)
Record OpUMod : Type := Build_OpUMod {
  OpUMod_result_type : OpId;
  OpUMod_result_id : ResultId;
  OpUMod_operand1 : OpId;
  OpUMod_operand2 : OpId
}.

(* src/spv/op.rs:1179-1184 *)
Record OpSRem : Type := Build_OpSRem {
  OpSRem_result_type : OpId;
  OpSRem_result_id : ResultId;
  OpSRem_operand1 : OpId;
  OpSRem_operand2 : OpId
}.

(* src/spv/op.rs:1189-1194 *)
Record OpSMod : Type := Build_OpSMod {
  OpSMod_result_type : OpId;
  OpSMod_result_id : ResultId;
  OpSMod_operand1 : OpId;
  OpSMod_operand2 : OpId
}.

(* src/spv/op.rs:1199-1204 *)
Record OpFRem : Type := Build_OpFRem {
  OpFRem_result_type : OpId;
  OpFRem_result_id : ResultId;
  OpFRem_operand1 : OpId;
  OpFRem_operand2 : OpId
}.

(* src/spv/op.rs:1209-1214 *)
Record OpFMod : Type := Build_OpFMod {
  OpFMod_result_type : OpId;
  OpFMod_result_id : ResultId;
  OpFMod_operand1 : OpId;
  OpFMod_operand2 : OpId
}.

(* src/spv/op.rs:1289-1294 *)
Record OpIAddCarry : Type := Build_OpIAddCarry {
  OpIAddCarry_result_type : OpId;
  OpIAddCarry_result_id : ResultId;
  OpIAddCarry_operand1 : OpId;
  OpIAddCarry_operand2 : OpId
}.

(* src/spv/op.rs:1299-1304 *)
Record OpISubBorrow : Type := Build_OpISubBorrow {
  OpISubBorrow_result_type : OpId;
  OpISubBorrow_result_id : ResultId;
  OpISubBorrow_operand1 : OpId;
  OpISubBorrow_operand2 : OpId
}.

(* src/spv/op.rs:1309-1314 *)
Record OpUMulExtended : Type := Build_OpUMulExtended {
  OpUMulExtended_result_type : OpId;
  OpUMulExtended_result_id : ResultId;
  OpUMulExtended_operand1 : OpId;
  OpUMulExtended_operand2 : OpId
}.

(* src/spv/op.rs:1319-1324 *)
Record OpSMulExtended : Type := Build_OpSMulExtended {
  OpSMulExtended_result_type : OpId;
  OpSMulExtended_result_id : ResultId;
  OpSMulExtended_operand1 : OpId;
  OpSMulExtended_operand2 : OpId
}.

(* src/spv/op.rs:1361-1366 *)
Record OpBitwiseOr : Type := Build_OpBitwiseOr {
  OpBitwiseOr_result_type : OpId;
  OpBitwiseOr_result_id : ResultId;
  OpBitwiseOr_operand1 : OpId;
  OpBitwiseOr_operand2 : OpId
}.

(* src/spv/op.rs:1371-1376 *)
Record OpBitwiseXor : Type := Build_OpBitwiseXor {
  OpBitwiseXor_result_type : OpId;
  OpBitwiseXor_result_id : ResultId;
  OpBitwiseXor_operand1 : OpId;
  OpBitwiseXor_operand2 : OpId
}.

(* src/spv/op.rs:1381-1386 *)
Record OpBitwiseAnd : Type := Build_OpBitwiseAnd {
  OpBitwiseAnd_result_type : OpId;
  OpBitwiseAnd_result_id : ResultId;
  OpBitwiseAnd_operand1 : OpId;
  OpBitwiseAnd_operand2 : OpId
}.

(* src/spv/op.rs:1465-1470 *)
Record OpIEqual : Type := Build_OpIEqual {
  OpIEqual_result_type : OpId;
  OpIEqual_result_id : ResultId;
  OpIEqual_operand1 : OpId;
  OpIEqual_operand2 : OpId
}.

(* src/spv/op.rs:1475-1480 *)
Record OpINotEqual : Type := Build_OpINotEqual {
  OpINotEqual_result_type : OpId;
  OpINotEqual_result_id : ResultId;
  OpINotEqual_operand1 : OpId;
  OpINotEqual_operand2 : OpId
}.

(* src/spv/op.rs:1485-1490 *)
Record OpUGreaterThan : Type := Build_OpUGreaterThan {
  OpUGreaterThan_result_type : OpId;
  OpUGreaterThan_result_id : ResultId;
  OpUGreaterThan_operand1 : OpId;
  OpUGreaterThan_operand2 : OpId
}.

(* src/spv/op.rs:1495-1500 *)
Record OpSGreaterThan : Type := Build_OpSGreaterThan {
  OpSGreaterThan_result_type : OpId;
  OpSGreaterThan_result_id : ResultId;
  OpSGreaterThan_operand1 : OpId;
  OpSGreaterThan_operand2 : OpId
}.

(* src/spv/op.rs:1505-1510 *)
Record OpUGreaterThanEqual : Type := Build_OpUGreaterThanEqual {
  OpUGreaterThanEqual_result_type : OpId;
  OpUGreaterThanEqual_result_id : ResultId;
  OpUGreaterThanEqual_operand1 : OpId;
  OpUGreaterThanEqual_operand2 : OpId
}.

(* src/spv/op.rs:1515-1520 *)
Record OpSGreaterThanEqual : Type := Build_OpSGreaterThanEqual {
  OpSGreaterThanEqual_result_type : OpId;
  OpSGreaterThanEqual_result_id : ResultId;
  OpSGreaterThanEqual_operand1 : OpId;
  OpSGreaterThanEqual_operand2 : OpId
}.

(* src/spv/op.rs:1525-1530 *)
Record OpULessThan : Type := Build_OpULessThan {
  OpULessThan_result_type : OpId;
  OpULessThan_result_id : ResultId;
  OpULessThan_operand1 : OpId;
  OpULessThan_operand2 : OpId
}.

(* src/spv/op.rs:1535-1540 *)
Record OpSLessThan : Type := Build_OpSLessThan {
  OpSLessThan_result_type : OpId;
  OpSLessThan_result_id : ResultId;
  OpSLessThan_operand1 : OpId;
  OpSLessThan_operand2 : OpId
}.

(* src/spv/op.rs:1545-1550 *)
Record OpULessThanEqual : Type := Build_OpULessThanEqual {
  OpULessThanEqual_result_type : OpId;
  OpULessThanEqual_result_id : ResultId;
  OpULessThanEqual_operand1 : OpId;
  OpULessThanEqual_operand2 : OpId
}.

(* src/spv/op.rs:1555-1560 *)
Record OpSLessThanEqual : Type := Build_OpSLessThanEqual {
  OpSLessThanEqual_result_type : OpId;
  OpSLessThanEqual_result_id : ResultId;
  OpSLessThanEqual_operand1 : OpId;
  OpSLessThanEqual_operand2 : OpId
}.

(* src/spv/op.rs:1565-1570 *)
Record OpFOrdEqual : Type := Build_OpFOrdEqual {
  OpFOrdEqual_result_type : OpId;
  OpFOrdEqual_result_id : ResultId;
  OpFOrdEqual_operand1 : OpId;
  OpFOrdEqual_operand2 : OpId
}.

(* src/spv/op.rs:1575-1580 *)
Record OpFUnordEqual : Type := Build_OpFUnordEqual {
  OpFUnordEqual_result_type : OpId;
  OpFUnordEqual_result_id : ResultId;
  OpFUnordEqual_operand1 : OpId;
  OpFUnordEqual_operand2 : OpId
}.

(* src/spv/op.rs:1585-1590 *)
Record OpFOrdNotEqual : Type := Build_OpFOrdNotEqual {
  OpFOrdNotEqual_result_type : OpId;
  OpFOrdNotEqual_result_id : ResultId;
  OpFOrdNotEqual_operand1 : OpId;
  OpFOrdNotEqual_operand2 : OpId
}.

(* src/spv/op.rs:1595-1600 *)
Record OpFUnordNotEqual : Type := Build_OpFUnordNotEqual {
  OpFUnordNotEqual_result_type : OpId;
  OpFUnordNotEqual_result_id : ResultId;
  OpFUnordNotEqual_operand1 : OpId;
  OpFUnordNotEqual_operand2 : OpId
}.

(* src/spv/op.rs:1605-1610 *)
Record OpFOrdLessThan : Type := Build_OpFOrdLessThan {
  OpFOrdLessThan_result_type : OpId;
  OpFOrdLessThan_result_id : ResultId;
  OpFOrdLessThan_operand1 : OpId;
  OpFOrdLessThan_operand2 : OpId
}.

(* src/spv/op.rs:1615-1620 *)
Record OpFUnordLessThan : Type := Build_OpFUnordLessThan {
  OpFUnordLessThan_result_type : OpId;
  OpFUnordLessThan_result_id : ResultId;
  OpFUnordLessThan_operand1 : OpId;
  OpFUnordLessThan_operand2 : OpId
}.

(* src/spv/op.rs:1625-1630 *)
Record OpFOrdGreaterThan : Type := Build_OpFOrdGreaterThan {
  OpFOrdGreaterThan_result_type : OpId;
  OpFOrdGreaterThan_result_id : ResultId;
  OpFOrdGreaterThan_operand1 : OpId;
  OpFOrdGreaterThan_operand2 : OpId
}.

(* src/spv/op.rs:1635-1640 *)
Record OpFUnordGreaterThan : Type := Build_OpFUnordGreaterThan {
  OpFUnordGreaterThan_result_type : OpId;
  OpFUnordGreaterThan_result_id : ResultId;
  OpFUnordGreaterThan_operand1 : OpId;
  OpFUnordGreaterThan_operand2 : OpId
}.

(* src/spv/op.rs:1645-1650 *)
Record OpFOrdLessThanEqual : Type := Build_OpFOrdLessThanEqual {
  OpFOrdLessThanEqual_result_type : OpId;
  OpFOrdLessThanEqual_result_id : ResultId;
  OpFOrdLessThanEqual_operand1 : OpId;
  OpFOrdLessThanEqual_operand2 : OpId
}.

(* src/spv/op.rs:1655-1660 *)
Record OpFUnordLessThanEqual : Type := Build_OpFUnordLessThanEqual {
  OpFUnordLessThanEqual_result_type : OpId;
  OpFUnordLessThanEqual_result_id : ResultId;
  OpFUnordLessThanEqual_operand1 : OpId;
  OpFUnordLessThanEqual_operand2 : OpId
}.

(* src/spv/op.rs:1665-1670 *)
Record OpFOrdGreaterThanEqual : Type := Build_OpFOrdGreaterThanEqual {
  OpFOrdGreaterThanEqual_result_type : OpId;
  OpFOrdGreaterThanEqual_result_id : ResultId;
  OpFOrdGreaterThanEqual_operand1 : OpId;
  OpFOrdGreaterThanEqual_operand2 : OpId
}.

(* src/spv/op.rs:1675-1680 *)
Record OpFUnordGreaterThanEqual : Type := Build_OpFUnordGreaterThanEqual {
  OpFUnordGreaterThanEqual_result_type : OpId;
  OpFUnordGreaterThanEqual_result_id : ResultId;
  OpFUnordGreaterThanEqual_operand1 : OpId;
  OpFUnordGreaterThanEqual_operand2 : OpId
}.

(* src/spv/op.rs:1716-1720 *)
Record OpPhi : Type := Build_OpPhi {
  OpPhi_result_type : OpId;
  OpPhi_result_id : ResultId;
  OpPhi_variables : (list PhiArg)
}.

(* src/spv/op.rs:1725-1729 *)
Record OpLoopMerge : Type := Build_OpLoopMerge {
  OpLoopMerge_merge_block : OpId;
  OpLoopMerge_continue_target : OpId;
  OpLoopMerge_loop_control : LoopControl
}.

(* src/spv/op.rs:1734-1737 *)
Record OpSelectionMerge : Type := Build_OpSelectionMerge {
  OpSelectionMerge_merge_block : OpId;
  OpSelectionMerge_selection_control : SelectionControl
}.

(* src/spv/op.rs:1742-1744 *)
Record OpLabel : Type := Build_OpLabel {
  OpLabel_result_id : ResultId
}.

(* src/spv/op.rs:1749-1751 *)
Record OpBranch : Type := Build_OpBranch {
  OpBranch_target_label : OpId
}.

(* src/spv/op.rs:1756-1761 *)
Record OpBranchConditional : Type := Build_OpBranchConditional {
  OpBranchConditional_condition : OpId;
  OpBranchConditional_true_label : OpId;
  OpBranchConditional_false_label : OpId;
  OpBranchConditional_weights : (option BranchWeights)
}.

(* src/spv/op.rs:1772 *)
Record OpReturn : Type := Build_OpReturn {

}.

Arguments Build_OpExtInst {E}.
Arguments OpExtInst_result_type {E}.
Arguments OpExtInst_result_id {E}.
Arguments OpExtInst_set {E}.
Arguments OpExtInst_instruction {E}.

(* src/spv/raw/mod.rs:53-152 *)
Inductive Core (E : Type) : Type :=
| Core_OpNop (_ : OpNop)
| Core_OpUndef (_ : OpUndef)
| Core_OpSourceContinued (_ : OpSourceContinued)
| Core_OpSource (_ : OpSource)
| Core_OpSourceExtension (_ : OpSourceExtension)
| Core_OpName (_ : OpName)
| Core_OpMemberName (_ : OpMemberName)
| Core_OpString (_ : OpString)
| Core_OpExtension (_ : OpExtension)
| Core_OpExtInstImport (_ : OpExtInstImport)
| Core_OpExtInst (_ : OpExtInst E)
| Core_OpMemoryModel (_ : OpMemoryModel)
| Core_OpEntryPoint (_ : OpEntryPoint)
| Core_OpExecutionMode (_ : OpExecutionMode)
| Core_OpCapability (_ : OpCapability)
| Core_OpTypeVoid (_ : OpTypeVoid)
| Core_OpTypeBool (_ : OpTypeBool)
| Core_OpTypeInt (_ : OpTypeInt)
| Core_OpTypeFloat (_ : OpTypeFloat)
| Core_OpTypeVector (_ : OpTypeVector)
| Core_OpTypeMatrix (_ : OpTypeMatrix)
| Core_OpTypeImage (_ : OpTypeImage)
| Core_OpTypeSampler (_ : OpTypeSampler)
| Core_OpTypeSampledImage (_ : OpTypeSampledImage)
| Core_OpTypeArray (_ : OpTypeArray)
| Core_OpTypeRuntimeArray (_ : OpTypeRuntimeArray)
| Core_OpTypeStruct (_ : OpTypeStruct)
| Core_OpTypeOpaque (_ : OpTypeOpaque)
| Core_OpTypePointer (_ : OpTypePointer)
| Core_OpTypeFunction (_ : OpTypeFunction)
| Core_OpTypeEvent (_ : OpTypeEvent)
| Core_OpTypeDeviceEvent (_ : OpTypeDeviceEvent)
| Core_OpTypeQueue (_ : OpTypeQueue)
| Core_OpTypePipe (_ : OpTypePipe)
| Core_OpTypeForwardPointer (_ : OpTypeForwardPointer)
| Core_OpConstant (_ : OpConstant)
| Core_OpConstantComposite (_ : OpConstantComposite)
| Core_OpFunction (_ : OpFunction)
| Core_OpFunctionParameter (_ : OpFunctionParameter)
| Core_OpFunctionEnd (_ : OpFunctionEnd)
| Core_OpVariable (_ : OpVariable)
| Core_OpLoad (_ : OpLoad)
| Core_OpStore (_ : OpStore)
| Core_OpAccessChain (_ : OpAccessChain)
| Core_OpDecorate (_ : OpDecorate)
| Core_OpMemberDecorate (_ : OpMemberDecorate)
| Core_OpConvertUToF (_ : OpConvertUToF)
| Core_OpBitcast (_ : OpBitcast)
| Core_OpIAdd (_ : OpIAdd)
| Core_OpFAdd (_ : OpFAdd)
| Core_OpISub (_ : OpISub)
| Core_OpFSub (_ : OpFSub)
| Core_OpIMul (_ : OpIMul)
| Core_OpFMul (_ : OpFMul)
| Core_OpUDiv (_ : OpUDiv)
| Core_OpSDiv (_ : OpSDiv)
| Core_OpFDiv (_ : OpFDiv)
| Core_OpUMod (_ : OpUMod)
| Core_OpSRem (_ : OpSRem)
| Core_OpSMod (_ : OpSMod)
| Core_OpFRem (_ : OpFRem)
| Core_OpFMod (_ : OpFMod)
| Core_OpIAddCarry (_ : OpIAddCarry)
| Core_OpISubBorrow (_ : OpISubBorrow)
| Core_OpUMulExtended (_ : OpUMulExtended)
| Core_OpSMulExtended (_ : OpSMulExtended)
| Core_OpBitwiseOr (_ : OpBitwiseOr)
| Core_OpBitwiseXor (_ : OpBitwiseXor)
| Core_OpBitwiseAnd (_ : OpBitwiseAnd)
| Core_OpIEqual (_ : OpIEqual)
| Core_OpINotEqual (_ : OpINotEqual)
| Core_OpUGreaterThan (_ : OpUGreaterThan)
| Core_OpSGreaterThan (_ : OpSGreaterThan)
| Core_OpUGreaterThanEqual (_ : OpUGreaterThanEqual)
| Core_OpSGreaterThanEqual (_ : OpSGreaterThanEqual)
| Core_OpULessThan (_ : OpULessThan)
| Core_OpSLessThan (_ : OpSLessThan)
| Core_OpULessThanEqual (_ : OpULessThanEqual)
| Core_OpSLessThanEqual (_ : OpSLessThanEqual)
| Core_OpFOrdEqual (_ : OpFOrdEqual)
| Core_OpFUnordEqual (_ : OpFUnordEqual)
| Core_OpFOrdNotEqual (_ : OpFOrdNotEqual)
| Core_OpFUnordNotEqual (_ : OpFUnordNotEqual)
| Core_OpFOrdLessThan (_ : OpFOrdLessThan)
| Core_OpFUnordLessThan (_ : OpFUnordLessThan)
| Core_OpFOrdGreaterThan (_ : OpFOrdGreaterThan)
| Core_OpFUnordGreaterThan (_ : OpFUnordGreaterThan)
| Core_OpFOrdLessThanEqual (_ : OpFOrdLessThanEqual)
| Core_OpFUnordLessThanEqual (_ : OpFUnordLessThanEqual)
| Core_OpFOrdGreaterThanEqual (_ : OpFOrdGreaterThanEqual)
| Core_OpFUnordGreaterThanEqual (_ : OpFUnordGreaterThanEqual)
| Core_OpPhi (_ : OpPhi)
| Core_OpLoopMerge (_ : OpLoopMerge)
| Core_OpSelectionMerge (_ : OpSelectionMerge)
| Core_OpLabel (_ : OpLabel)
| Core_OpBranch (_ : OpBranch)
| Core_OpBranchConditional (_ : OpBranchConditional)
| Core_OpReturn (_ : OpReturn).

Arguments Core_OpNop {E}.
Arguments Core_OpUndef {E}.
Arguments Core_OpSourceContinued {E}.
Arguments Core_OpSource {E}.
Arguments Core_OpSourceExtension {E}.
Arguments Core_OpName {E}.
Arguments Core_OpMemberName {E}.
Arguments Core_OpString {E}.
Arguments Core_OpExtension {E}.
Arguments Core_OpExtInstImport {E}.
Arguments Core_OpExtInst {E}.
Arguments Core_OpMemoryModel {E}.
Arguments Core_OpEntryPoint {E}.
Arguments Core_OpExecutionMode {E}.
Arguments Core_OpCapability {E}.
Arguments Core_OpTypeVoid {E}.
Arguments Core_OpTypeBool {E}.
Arguments Core_OpTypeInt {E}.
Arguments Core_OpTypeFloat {E}.
Arguments Core_OpTypeVector {E}.
Arguments Core_OpTypeMatrix {E}.
Arguments Core_OpTypeImage {E}.
Arguments Core_OpTypeSampler {E}.
Arguments Core_OpTypeSampledImage {E}.
Arguments Core_OpTypeArray {E}.
Arguments Core_OpTypeRuntimeArray {E}.
Arguments Core_OpTypeStruct {E}.
Arguments Core_OpTypeOpaque {E}.
Arguments Core_OpTypePointer {E}.
Arguments Core_OpTypeFunction {E}.
Arguments Core_OpTypeEvent {E}.
Arguments Core_OpTypeDeviceEvent {E}.
Arguments Core_OpTypeQueue {E}.
Arguments Core_OpTypePipe {E}.
Arguments Core_OpTypeForwardPointer {E}.
Arguments Core_OpConstant {E}.
Arguments Core_OpConstantComposite {E}.
Arguments Core_OpFunction {E}.
Arguments Core_OpFunctionParameter {E}.
Arguments Core_OpFunctionEnd {E}.
Arguments Core_OpVariable {E}.
Arguments Core_OpLoad {E}.
Arguments Core_OpStore {E}.
Arguments Core_OpAccessChain {E}.
Arguments Core_OpDecorate {E}.
Arguments Core_OpMemberDecorate {E}.
Arguments Core_OpConvertUToF {E}.
Arguments Core_OpBitcast {E}.
Arguments Core_OpIAdd {E}.
Arguments Core_OpFAdd {E}.
Arguments Core_OpISub {E}.
Arguments Core_OpFSub {E}.
Arguments Core_OpIMul {E}.
Arguments Core_OpFMul {E}.
Arguments Core_OpUDiv {E}.
Arguments Core_OpSDiv {E}.
Arguments Core_OpFDiv {E}.
Arguments Core_OpUMod {E}.
Arguments Core_OpSRem {E}.
Arguments Core_OpSMod {E}.
Arguments Core_OpFRem {E}.
Arguments Core_OpFMod {E}.
Arguments Core_OpIAddCarry {E}.
Arguments Core_OpISubBorrow {E}.
Arguments Core_OpUMulExtended {E}.
Arguments Core_OpSMulExtended {E}.
Arguments Core_OpBitwiseOr {E}.
Arguments Core_OpBitwiseXor {E}.
Arguments Core_OpBitwiseAnd {E}.
Arguments Core_OpIEqual {E}.
Arguments Core_OpINotEqual {E}.
Arguments Core_OpUGreaterThan {E}.
Arguments Core_OpSGreaterThan {E}.
Arguments Core_OpUGreaterThanEqual {E}.
Arguments Core_OpSGreaterThanEqual {E}.
Arguments Core_OpULessThan {E}.
Arguments Core_OpSLessThan {E}.
Arguments Core_OpULessThanEqual {E}.
Arguments Core_OpSLessThanEqual {E}.
Arguments Core_OpFOrdEqual {E}.
Arguments Core_OpFUnordEqual {E}.
Arguments Core_OpFOrdNotEqual {E}.
Arguments Core_OpFUnordNotEqual {E}.
Arguments Core_OpFOrdLessThan {E}.
Arguments Core_OpFUnordLessThan {E}.
Arguments Core_OpFOrdGreaterThan {E}.
Arguments Core_OpFUnordGreaterThan {E}.
Arguments Core_OpFOrdLessThanEqual {E}.
Arguments Core_OpFUnordLessThanEqual {E}.
Arguments Core_OpFOrdGreaterThanEqual {E}.
Arguments Core_OpFUnordGreaterThanEqual {E}.
Arguments Core_OpPhi {E}.
Arguments Core_OpLoopMerge {E}.
Arguments Core_OpSelectionMerge {E}.
Arguments Core_OpLabel {E}.
Arguments Core_OpBranch {E}.
Arguments Core_OpBranchConditional {E}.
Arguments Core_OpReturn {E}.

(* src/spv/raw/mod.rs:16-25 *)
Record RawModule (E : Type) : Type := Build_RawModule {
  RawModule_version : Version;
  RawModule_generator : Generator;
  RawModule_bound : N;
  RawModule_instructions : list (Core E)
}.
Arguments Build_RawModule {E}.
Arguments RawModule_version {E}.
Arguments RawModule_generator {E}.
Arguments RawModule_bound {E}.
Arguments RawModule_instructions {E}.
