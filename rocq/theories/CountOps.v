(* GENERATED by tools/count.py from ReadOps.v; do not edit by hand. *)
From Verif Require Import Base Types Ops ReadErr ReadBase ReadOperands ExtSet CountBase CountOperands.
Local Open Scope N_scope.

(** def_op_read! expansions (macro: src/spv/raw/reader.rs:440-479). *)

(* src/spv/raw/reader.rs:484 *)
Definition count_OpNop : CountReader OpNop := fun block =>
  count_Ok (block, Build_OpNop).

(* src/spv/raw/reader.rs:485 *)
Definition count_OpUndef : CountReader OpUndef := fun block =>
  let+ (block, result_type) := count_OpId block in
  let+ (block, result_id) := count_ResultId block in
  count_Ok (block, {| OpUndef_result_type := result_type; OpUndef_result_id := result_id |}).

(* src/spv/raw/reader.rs:488 *)
Definition count_OpSourceContinued : CountReader OpSourceContinued := fun block =>
  let+ (block, continued_source) := count_LitString block in
  count_Ok (block, {| OpSourceContinued_continued_source := continued_source |}).

(* src/spv/raw/reader.rs:489 *)
Definition count_OpSource : CountReader OpSource := fun block =>
  let+ (block, language) := count_SourceLanguage block in
  let+ (block, version) := count_SourceVersion block in
  let+ (block, file) := (count_Option count_OpId) block in
  let+ (block, source) := (count_Option count_LitString) block in
  count_Ok (block, {| OpSource_language := language; OpSource_version := version; OpSource_file := file; OpSource_source := source |}).

(* src/spv/raw/reader.rs:490 *)
Definition count_OpSourceExtension : CountReader OpSourceExtension := fun block =>
  let+ (block, extension) := count_LitString block in
  count_Ok (block, {| OpSourceExtension_extension := extension |}).

(* src/spv/raw/reader.rs:491 *)
Definition count_OpName : CountReader OpName := fun block =>
  let+ (block, target) := count_OpId block in
  let+ (block, name) := count_LitString block in
  count_Ok (block, {| OpName_target := target; OpName_name := name |}).

(* src/spv/raw/reader.rs:492 *)
Definition count_OpMemberName : CountReader OpMemberName := fun block =>
  let+ (block, struct_type) := count_OpId block in
  let+ (block, member) := count_MemberIndex block in
  let+ (block, name) := count_LitString block in
  count_Ok (block, {| OpMemberName_struct_type := struct_type; OpMemberName_member := member; OpMemberName_name := name |}).

(* src/spv/raw/reader.rs:493 *)
Definition count_OpString : CountReader OpString := fun block =>
  let+ (block, result_id) := count_ResultId block in
  let+ (block, string) := count_LitString block in
  count_Ok (block, {| OpString_result_id := result_id; OpString_string := string |}).

(* src/spv/raw/reader.rs:500 *)
Definition count_OpExtension : CountReader OpExtension := fun block =>
  let+ (block, name) := count_LitString block in
  count_Ok (block, {| OpExtension_name := name |}).

(* src/spv/raw/reader.rs:551 *)
Definition count_OpMemoryModel : CountReader OpMemoryModel := fun block =>
  let+ (block, addressing_model) := count_AddressingModel block in
  let+ (block, memory_model) := count_MemoryModel block in
  count_Ok (block, {| OpMemoryModel_addressing_model := addressing_model; OpMemoryModel_memory_model := memory_model |}).

(* src/spv/raw/reader.rs:552 *)
Definition count_OpEntryPoint : CountReader OpEntryPoint := fun block =>
  let+ (block, execution_model) := count_ExecutionModel block in
  let+ (block, entry_point) := count_OpId block in
  let+ (block, name) := count_LitString block in
  let+ (block, interface) := (count_Vec size_of_OpId count_OpId) block in
  count_Ok (block, {| OpEntryPoint_execution_model := execution_model; OpEntryPoint_entry_point := entry_point; OpEntryPoint_name := name; OpEntryPoint_interface := interface |}).

(* src/spv/raw/reader.rs:553 *)
Definition count_OpExecutionMode : CountReader OpExecutionMode := fun block =>
  let+ (block, entry_point) := count_OpId block in
  let+ (block, mode) := count_ExecutionMode block in
  count_Ok (block, {| OpExecutionMode_entry_point := entry_point; OpExecutionMode_mode := mode |}).

(* src/spv/raw/reader.rs:554 *)
Definition count_OpCapability : CountReader OpCapability := fun block =>
  let+ (block, capability) := count_Capability block in
  count_Ok (block, {| OpCapability_capability := capability |}).

(* src/spv/raw/reader.rs:557 *)
Definition count_OpTypeVoid : CountReader OpTypeVoid := fun block =>
  let+ (block, result_id) := count_ResultId block in
  count_Ok (block, {| OpTypeVoid_result_id := result_id |}).

(* src/spv/raw/reader.rs:558 *)
Definition count_OpTypeBool : CountReader OpTypeBool := fun block =>
  let+ (block, result_id) := count_ResultId block in
  count_Ok (block, {| OpTypeBool_result_id := result_id |}).

(* src/spv/raw/reader.rs:559 *)
Definition count_OpTypeInt : CountReader OpTypeInt := fun block =>
  let+ (block, result_id) := count_ResultId block in
  let+ (block, width) := count_u32 block in
  let+ (block, signedness) := count_Signedness block in
  count_Ok (block, {| OpTypeInt_result_id := result_id; OpTypeInt_width := width; OpTypeInt_signedness := signedness |}).

(* src/spv/raw/reader.rs:560 *)
Definition count_OpTypeFloat : CountReader OpTypeFloat := fun block =>
  let+ (block, result_id) := count_ResultId block in
  let+ (block, width) := count_u32 block in
  count_Ok (block, {| OpTypeFloat_result_id := result_id; OpTypeFloat_width := width |}).

(* src/spv/raw/reader.rs:561 *)
Definition count_OpTypeVector : CountReader OpTypeVector := fun block =>
  let+ (block, result_id) := count_ResultId block in
  let+ (block, component_type) := count_OpId block in
  let+ (block, component_count) := count_u32 block in
  count_Ok (block, {| OpTypeVector_result_id := result_id; OpTypeVector_component_type := component_type; OpTypeVector_component_count := component_count |}).

(* src/spv/raw/reader.rs:562 *)
Definition count_OpTypeMatrix : CountReader OpTypeMatrix := fun block =>
  let+ (block, result_id) := count_ResultId block in
  let+ (block, column_type) := count_OpId block in
  let+ (block, column_count) := count_u32 block in
  count_Ok (block, {| OpTypeMatrix_result_id := result_id; OpTypeMatrix_column_type := column_type; OpTypeMatrix_column_count := column_count |}).

(* src/spv/raw/reader.rs:563-573 *)
Definition count_OpTypeImage : CountReader OpTypeImage := fun block =>
  let+ (block, result_id) := count_ResultId block in
  let+ (block, sampled_type) := count_OpId block in
  let+ (block, dim) := count_Dim block in
  let+ (block, depth) := count_DepthStatus block in
  let+ (block, arrayed) := count_Arrayed block in
  let+ (block, ms) := count_MS block in
  let+ (block, sampled) := count_SampledStatus block in
  let+ (block, format) := count_ImageFormat block in
  let+ (block, access_qualifier) := (count_Option count_AccessQualifier) block in
  count_Ok (block, {| OpTypeImage_result_id := result_id; OpTypeImage_sampled_type := sampled_type; OpTypeImage_dim := dim; OpTypeImage_depth := depth; OpTypeImage_arrayed := arrayed; OpTypeImage_ms := ms; OpTypeImage_sampled := sampled; OpTypeImage_format := format; OpTypeImage_access_qualifier := access_qualifier |}).

(* src/spv/raw/reader.rs:574 *)
Definition count_OpTypeSampler : CountReader OpTypeSampler := fun block =>
  let+ (block, result_id) := count_ResultId block in
  count_Ok (block, {| OpTypeSampler_result_id := result_id |}).

(* src/spv/raw/reader.rs:575 *)
Definition count_OpTypeSampledImage : CountReader OpTypeSampledImage := fun block =>
  let+ (block, result_id) := count_ResultId block in
  let+ (block, image_type) := count_OpId block in
  count_Ok (block, {| OpTypeSampledImage_result_id := result_id; OpTypeSampledImage_image_type := image_type |}).

(* src/spv/raw/reader.rs:576 *)
Definition count_OpTypeArray : CountReader OpTypeArray := fun block =>
  let+ (block, result_id) := count_ResultId block in
  let+ (block, element_type) := count_OpId block in
  let+ (block, length) := count_OpId block in
  count_Ok (block, {| OpTypeArray_result_id := result_id; OpTypeArray_element_type := element_type; OpTypeArray_length := length |}).

(* src/spv/raw/reader.rs:577 *)
Definition count_OpTypeRuntimeArray : CountReader OpTypeRuntimeArray := fun block =>
  let+ (block, result_id) := count_ResultId block in
  let+ (block, element_type) := count_OpId block in
  count_Ok (block, {| OpTypeRuntimeArray_result_id := result_id; OpTypeRuntimeArray_element_type := element_type |}).

(* src/spv/raw/reader.rs:578 *)
Definition count_OpTypeStruct : CountReader OpTypeStruct := fun block =>
  let+ (block, result_id) := count_ResultId block in
  let+ (block, member_types) := (count_Vec size_of_OpId count_OpId) block in
  count_Ok (block, {| OpTypeStruct_result_id := result_id; OpTypeStruct_member_types := member_types |}).

(* src/spv/raw/reader.rs:579 *)
Definition count_OpTypeOpaque : CountReader OpTypeOpaque := fun block =>
  let+ (block, result_id) := count_ResultId block in
  let+ (block, name) := count_LitString block in
  count_Ok (block, {| OpTypeOpaque_result_id := result_id; OpTypeOpaque_name := name |}).

(* src/spv/raw/reader.rs:580 *)
Definition count_OpTypePointer : CountReader OpTypePointer := fun block =>
  let+ (block, result_id) := count_ResultId block in
  let+ (block, storage_class) := count_StorageClass block in
  let+ (block, pointed_type) := count_OpId block in
  count_Ok (block, {| OpTypePointer_result_id := result_id; OpTypePointer_storage_class := storage_class; OpTypePointer_pointed_type := pointed_type |}).

(* src/spv/raw/reader.rs:581 *)
Definition count_OpTypeFunction : CountReader OpTypeFunction := fun block =>
  let+ (block, result_id) := count_ResultId block in
  let+ (block, return_type) := count_OpId block in
  let+ (block, parameter_types) := (count_Vec size_of_OpId count_OpId) block in
  count_Ok (block, {| OpTypeFunction_result_id := result_id; OpTypeFunction_return_type := return_type; OpTypeFunction_parameter_types := parameter_types |}).

(* src/spv/raw/reader.rs:584 *)
Definition count_OpConstant : CountReader OpConstant := fun block =>
  let+ (block, result_type) := count_OpId block in
  let+ (block, result_id) := count_ResultId block in
  let+ (block, value) := (count_Vec size_of_u32 count_u32) block in
  count_Ok (block, {| OpConstant_result_type := result_type; OpConstant_result_id := result_id; OpConstant_value := value |}).

(* src/spv/raw/reader.rs:585 *)
Definition count_OpConstantComposite : CountReader OpConstantComposite := fun block =>
  let+ (block, result_type) := count_OpId block in
  let+ (block, result_id) := count_ResultId block in
  let+ (block, constituents) := (count_Vec size_of_OpId count_OpId) block in
  count_Ok (block, {| OpConstantComposite_result_type := result_type; OpConstantComposite_result_id := result_id; OpConstantComposite_constituents := constituents |}).

(* src/spv/raw/reader.rs:588 *)
Definition count_OpFunction : CountReader OpFunction := fun block =>
  let+ (block, result_type) := count_OpId block in
  let+ (block, result_id) := count_ResultId block in
  let+ (block, function_control) := count_FunctionControl block in
  let+ (block, function_type) := count_OpId block in
  count_Ok (block, {| OpFunction_result_type := result_type; OpFunction_result_id := result_id; OpFunction_function_control := function_control; OpFunction_function_type := function_type |}).

(* src/spv/raw/reader.rs:589 *)
Definition count_OpFunctionParameter : CountReader OpFunctionParameter := fun block =>
  let+ (block, result_type) := count_OpId block in
  let+ (block, result_id) := count_ResultId block in
  count_Ok (block, {| OpFunctionParameter_result_type := result_type; OpFunctionParameter_result_id := result_id |}).

(* src/spv/raw/reader.rs:590 *)
Definition count_OpFunctionEnd : CountReader OpFunctionEnd := fun block =>
  count_Ok (block, Build_OpFunctionEnd).

(* src/spv/raw/reader.rs:593 *)
Definition count_OpVariable : CountReader OpVariable := fun block =>
  let+ (block, result_type) := count_OpId block in
  let+ (block, result_id) := count_ResultId block in
  let+ (block, storage_class) := count_StorageClass block in
  let+ (block, initializer) := (count_Option count_OpId) block in
  count_Ok (block, {| OpVariable_result_type := result_type; OpVariable_result_id := result_id; OpVariable_storage_class := storage_class; OpVariable_initializer := initializer |}).

(* src/spv/raw/reader.rs:595 *)
Definition count_OpLoad : CountReader OpLoad := fun block =>
  let+ (block, result_type) := count_OpId block in
  let+ (block, result_id) := count_ResultId block in
  let+ (block, pointer) := count_OpId block in
  let+ (block, memory_access) := (count_Option count_MemoryAccess) block in
  count_Ok (block, {| OpLoad_result_type := result_type; OpLoad_result_id := result_id; OpLoad_pointer := pointer; OpLoad_memory_access := memory_access |}).

(* src/spv/raw/reader.rs:596 *)
Definition count_OpStore : CountReader OpStore := fun block =>
  let+ (block, pointer) := count_OpId block in
  let+ (block, object) := count_OpId block in
  let+ (block, memory_access) := (count_Option count_MemoryAccess) block in
  count_Ok (block, {| OpStore_pointer := pointer; OpStore_object := object; OpStore_memory_access := memory_access |}).

(* src/spv/raw/reader.rs:598 *)
Definition count_OpAccessChain : CountReader OpAccessChain := fun block =>
  let+ (block, result_type) := count_OpId block in
  let+ (block, result_id) := count_ResultId block in
  let+ (block, base) := count_OpId block in
  let+ (block, indexes) := (count_Vec size_of_OpId count_OpId) block in
  count_Ok (block, {| OpAccessChain_result_type := result_type; OpAccessChain_result_id := result_id; OpAccessChain_base := base; OpAccessChain_indexes := indexes |}).

(* src/spv/raw/reader.rs:496 *)
Definition count_OpDecorate : CountReader OpDecorate := fun block =>
  let+ (block, target) := count_OpId block in
  let+ (block, decoration) := count_Decoration block in
  count_Ok (block, {| OpDecorate_target := target; OpDecorate_decoration := decoration |}).

(* src/spv/raw/reader.rs:497 *)
Definition count_OpMemberDecorate : CountReader OpMemberDecorate := fun block =>
  let+ (block, structure_type) := count_OpId block in
  let+ (block, member) := count_MemberIndex block in
  let+ (block, decoration) := count_Decoration block in
  count_Ok (block, {| OpMemberDecorate_structure_type := structure_type; OpMemberDecorate_member := member; OpMemberDecorate_decoration := decoration |}).

(* src/spv/raw/reader.rs:601 *)
Definition count_OpConvertUToF : CountReader OpConvertUToF := fun block =>
  let+ (block, result_type) := count_OpId block in
  let+ (block, result_id) := count_ResultId block in
  let+ (block, unsigned_value) := count_OpId block in
  count_Ok (block, {| OpConvertUToF_result_type := result_type; OpConvertUToF_result_id := result_id; OpConvertUToF_unsigned_value := unsigned_value |}).

(* src/spv/raw/reader.rs:603 *)
Definition count_OpBitcast : CountReader OpBitcast := fun block =>
  let+ (block, result_type) := count_OpId block in
  let+ (block, result_id) := count_ResultId block in
  let+ (block, operand) := count_OpId block in
  count_Ok (block, {| OpBitcast_result_type := result_type; OpBitcast_result_id := result_id; OpBitcast_operand := operand |}).

(* src/spv/raw/reader.rs:606 *)
Definition count_OpIAdd : CountReader OpIAdd := fun block =>
  let+ (block, result_type) := count_OpId block in
  let+ (block, result_id) := count_ResultId block in
  let+ (block, operand1) := count_OpId block in
  let+ (block, operand2) := count_OpId block in
  count_Ok (block, {| OpIAdd_result_type := result_type; OpIAdd_result_id := result_id; OpIAdd_operand1 := operand1; OpIAdd_operand2 := operand2 |}).

(* src/spv/raw/reader.rs:607 *)
Definition count_OpFAdd : CountReader OpFAdd := fun block =>
  let+ (block, result_type) := count_OpId block in
  let+ (block, result_id) := count_ResultId block in
  let+ (block, operand1) := count_OpId block in
  let+ (block, operand2) := count_OpId block in
  count_Ok (block, {| OpFAdd_result_type := result_type; OpFAdd_result_id := result_id; OpFAdd_operand1 := operand1; OpFAdd_operand2 := operand2 |}).

(* src/spv/raw/reader.rs:608 *)
Definition count_OpISub : CountReader OpISub := fun block =>
  let+ (block, result_type) := count_OpId block in
  let+ (block, result_id) := count_ResultId block in
  let+ (block, operand1) := count_OpId block in
  let+ (block, operand2) := count_OpId block in
  count_Ok (block, {| OpISub_result_type := result_type; OpISub_result_id := result_id; OpISub_operand1 := operand1; OpISub_operand2 := operand2 |}).

(* src/spv/raw/reader.rs:609 *)
Definition count_OpFSub : CountReader OpFSub := fun block =>
  let+ (block, result_type) := count_OpId block in
  let+ (block, result_id) := count_ResultId block in
  let+ (block, operand1) := count_OpId block in
  let+ (block, operand2) := count_OpId block in
  count_Ok (block, {| OpFSub_result_type := result_type; OpFSub_result_id := result_id; OpFSub_operand1 := operand1; OpFSub_operand2 := operand2 |}).

(* src/spv/raw/reader.rs:610 *)
Definition count_OpIMul : CountReader OpIMul := fun block =>
  let+ (block, result_type) := count_OpId block in
  let+ (block, result_id) := count_ResultId block in
  let+ (block, operand1) := count_OpId block in
  let+ (block, operand2) := count_OpId block in
  count_Ok (block, {| OpIMul_result_type := result_type; OpIMul_result_id := result_id; OpIMul_operand1 := operand1; OpIMul_operand2 := operand2 |}).

(* src/spv/raw/reader.rs:611 *)
Definition count_OpFMul : CountReader OpFMul := fun block =>
  let+ (block, result_type) := count_OpId block in
  let+ (block, result_id) := count_ResultId block in
  let+ (block, operand1) := count_OpId block in
  let+ (block, operand2) := count_OpId block in
  count_Ok (block, {| OpFMul_result_type := result_type; OpFMul_result_id := result_id; OpFMul_operand1 := operand1; OpFMul_operand2 := operand2 |}).

(* src/spv/raw/reader.rs:612 *)
Definition count_OpUDiv : CountReader OpUDiv := fun block =>
  let+ (block, result_type) := count_OpId block in
  let+ (block, result_id) := count_ResultId block in
  let+ (block, operand1) := count_OpId block in
  let+ (block, operand2) := count_OpId block in
  count_Ok (block, {| OpUDiv_result_type := result_type; OpUDiv_result_id := result_id; OpUDiv_operand1 := operand1; OpUDiv_operand2 := operand2 |}).

(* src/spv/raw/reader.rs:613 *)
Definition count_OpSDiv : CountReader OpSDiv := fun block =>
  let+ (block, result_type) := count_OpId block in
  let+ (block, result_id) := count_ResultId block in
  let+ (block, operand1) := count_OpId block in
  let+ (block, operand2) := count_OpId block in
  count_Ok (block, {| OpSDiv_result_type := result_type; OpSDiv_result_id := result_id; OpSDiv_operand1 := operand1; OpSDiv_operand2 := operand2 |}).

(* src/spv/raw/reader.rs:614 *)
Definition count_OpFDiv : CountReader OpFDiv := fun block =>
  let+ (block, result_type) := count_OpId block in
  let+ (block, result_id) := count_ResultId block in
  let+ (block, operand1) := count_OpId block in
  let+ (block, operand2) := count_OpId block in
  count_Ok (block, {| OpFDiv_result_type := result_type; OpFDiv_result_id := result_id; OpFDiv_operand1 := operand1; OpFDiv_operand2 := operand2 |}).

(* src/spv/raw/reader.rs:615 *)
Definition count_OpUMod : CountReader OpUMod := fun block =>
  let+ (block, result_type) := count_OpId block in
  let+ (block, result_id) := count_ResultId block in
  let+ (block, operand1) := count_OpId block in
  let+ (block, operand2) := count_OpId block in
  count_Ok (block, {| OpUMod_result_type := result_type; OpUMod_result_id := result_id; OpUMod_operand1 := operand1; OpUMod_operand2 := operand2 |}).

(* src/spv/raw/reader.rs:616 *)
Definition count_OpSRem : CountReader OpSRem := fun block =>
  let+ (block, result_type) := count_OpId block in
  let+ (block, result_id) := count_ResultId block in
  let+ (block, operand1) := count_OpId block in
  let+ (block, operand2) := count_OpId block in
  count_Ok (block, {| OpSRem_result_type := result_type; OpSRem_result_id := result_id; OpSRem_operand1 := operand1; OpSRem_operand2 := operand2 |}).

(* src/spv/raw/reader.rs:617 *)
Definition count_OpSMod : CountReader OpSMod := fun block =>
  let+ (block, result_type) := count_OpId block in
  let+ (block, result_id) := count_ResultId block in
  let+ (block, operand1) := count_OpId block in
  let+ (block, operand2) := count_OpId block in
  count_Ok (block, {| OpSMod_result_type := result_type; OpSMod_result_id := result_id; OpSMod_operand1 := operand1; OpSMod_operand2 := operand2 |}).

(* src/spv/raw/reader.rs:618 *)
Definition count_OpFRem : CountReader OpFRem := fun block =>
  let+ (block, result_type) := count_OpId block in
  let+ (block, result_id) := count_ResultId block in
  let+ (block, operand1) := count_OpId block in
  let+ (block, operand2) := count_OpId block in
  count_Ok (block, {| OpFRem_result_type := result_type; OpFRem_result_id := result_id; OpFRem_operand1 := operand1; OpFRem_operand2 := operand2 |}).

(* src/spv/raw/reader.rs:619 *)
Definition count_OpFMod : CountReader OpFMod := fun block =>
  let+ (block, result_type) := count_OpId block in
  let+ (block, result_id) := count_ResultId block in
  let+ (block, operand1) := count_OpId block in
  let+ (block, operand2) := count_OpId block in
  count_Ok (block, {| OpFMod_result_type := result_type; OpFMod_result_id := result_id; OpFMod_operand1 := operand1; OpFMod_operand2 := operand2 |}).

(* src/spv/raw/reader.rs:621 *)
Definition count_OpIAddCarry : CountReader OpIAddCarry := fun block =>
  let+ (block, result_type) := count_OpId block in
  let+ (block, result_id) := count_ResultId block in
  let+ (block, operand1) := count_OpId block in
  let+ (block, operand2) := count_OpId block in
  count_Ok (block, {| OpIAddCarry_result_type := result_type; OpIAddCarry_result_id := result_id; OpIAddCarry_operand1 := operand1; OpIAddCarry_operand2 := operand2 |}).

(* src/spv/raw/reader.rs:622 *)
Definition count_OpISubBorrow : CountReader OpISubBorrow := fun block =>
  let+ (block, result_type) := count_OpId block in
  let+ (block, result_id) := count_ResultId block in
  let+ (block, operand1) := count_OpId block in
  let+ (block, operand2) := count_OpId block in
  count_Ok (block, {| OpISubBorrow_result_type := result_type; OpISubBorrow_result_id := result_id; OpISubBorrow_operand1 := operand1; OpISubBorrow_operand2 := operand2 |}).

(* src/spv/raw/reader.rs:623 *)
Definition count_OpUMulExtended : CountReader OpUMulExtended := fun block =>
  let+ (block, result_type) := count_OpId block in
  let+ (block, result_id) := count_ResultId block in
  let+ (block, operand1) := count_OpId block in
  let+ (block, operand2) := count_OpId block in
  count_Ok (block, {| OpUMulExtended_result_type := result_type; OpUMulExtended_result_id := result_id; OpUMulExtended_operand1 := operand1; OpUMulExtended_operand2 := operand2 |}).

(* src/spv/raw/reader.rs:624 *)
Definition count_OpSMulExtended : CountReader OpSMulExtended := fun block =>
  let+ (block, result_type) := count_OpId block in
  let+ (block, result_id) := count_ResultId block in
  let+ (block, operand1) := count_OpId block in
  let+ (block, operand2) := count_OpId block in
  count_Ok (block, {| OpSMulExtended_result_type := result_type; OpSMulExtended_result_id := result_id; OpSMulExtended_operand1 := operand1; OpSMulExtended_operand2 := operand2 |}).

(* src/spv/raw/reader.rs:627 *)
Definition count_OpBitwiseOr : CountReader OpBitwiseOr := fun block =>
  let+ (block, result_type) := count_OpId block in
  let+ (block, result_id) := count_ResultId block in
  let+ (block, operand1) := count_OpId block in
  let+ (block, operand2) := count_OpId block in
  count_Ok (block, {| OpBitwiseOr_result_type := result_type; OpBitwiseOr_result_id := result_id; OpBitwiseOr_operand1 := operand1; OpBitwiseOr_operand2 := operand2 |}).

(* src/spv/raw/reader.rs:628 *)
Definition count_OpBitwiseXor : CountReader OpBitwiseXor := fun block =>
  let+ (block, result_type) := count_OpId block in
  let+ (block, result_id) := count_ResultId block in
  let+ (block, operand1) := count_OpId block in
  let+ (block, operand2) := count_OpId block in
  count_Ok (block, {| OpBitwiseXor_result_type := result_type; OpBitwiseXor_result_id := result_id; OpBitwiseXor_operand1 := operand1; OpBitwiseXor_operand2 := operand2 |}).

(* src/spv/raw/reader.rs:629 *)
Definition count_OpBitwiseAnd : CountReader OpBitwiseAnd := fun block =>
  let+ (block, result_type) := count_OpId block in
  let+ (block, result_id) := count_ResultId block in
  let+ (block, operand1) := count_OpId block in
  let+ (block, operand2) := count_OpId block in
  count_Ok (block, {| OpBitwiseAnd_result_type := result_type; OpBitwiseAnd_result_id := result_id; OpBitwiseAnd_operand1 := operand1; OpBitwiseAnd_operand2 := operand2 |}).

(* src/spv/raw/reader.rs:632 *)
Definition count_OpIEqual : CountReader OpIEqual := fun block =>
  let+ (block, result_type) := count_OpId block in
  let+ (block, result_id) := count_ResultId block in
  let+ (block, operand1) := count_OpId block in
  let+ (block, operand2) := count_OpId block in
  count_Ok (block, {| OpIEqual_result_type := result_type; OpIEqual_result_id := result_id; OpIEqual_operand1 := operand1; OpIEqual_operand2 := operand2 |}).

(* src/spv/raw/reader.rs:633 *)
Definition count_OpINotEqual : CountReader OpINotEqual := fun block =>
  let+ (block, result_type) := count_OpId block in
  let+ (block, result_id) := count_ResultId block in
  let+ (block, operand1) := count_OpId block in
  let+ (block, operand2) := count_OpId block in
  count_Ok (block, {| OpINotEqual_result_type := result_type; OpINotEqual_result_id := result_id; OpINotEqual_operand1 := operand1; OpINotEqual_operand2 := operand2 |}).

(* src/spv/raw/reader.rs:634 *)
Definition count_OpUGreaterThan : CountReader OpUGreaterThan := fun block =>
  let+ (block, result_type) := count_OpId block in
  let+ (block, result_id) := count_ResultId block in
  let+ (block, operand1) := count_OpId block in
  let+ (block, operand2) := count_OpId block in
  count_Ok (block, {| OpUGreaterThan_result_type := result_type; OpUGreaterThan_result_id := result_id; OpUGreaterThan_operand1 := operand1; OpUGreaterThan_operand2 := operand2 |}).

(* src/spv/raw/reader.rs:635 *)
Definition count_OpSGreaterThan : CountReader OpSGreaterThan := fun block =>
  let+ (block, result_type) := count_OpId block in
  let+ (block, result_id) := count_ResultId block in
  let+ (block, operand1) := count_OpId block in
  let+ (block, operand2) := count_OpId block in
  count_Ok (block, {| OpSGreaterThan_result_type := result_type; OpSGreaterThan_result_id := result_id; OpSGreaterThan_operand1 := operand1; OpSGreaterThan_operand2 := operand2 |}).

(* src/spv/raw/reader.rs:636 *)
Definition count_OpUGreaterThanEqual : CountReader OpUGreaterThanEqual := fun block =>
  let+ (block, result_type) := count_OpId block in
  let+ (block, result_id) := count_ResultId block in
  let+ (block, operand1) := count_OpId block in
  let+ (block, operand2) := count_OpId block in
  count_Ok (block, {| OpUGreaterThanEqual_result_type := result_type; OpUGreaterThanEqual_result_id := result_id; OpUGreaterThanEqual_operand1 := operand1; OpUGreaterThanEqual_operand2 := operand2 |}).

(* src/spv/raw/reader.rs:637 *)
Definition count_OpSGreaterThanEqual : CountReader OpSGreaterThanEqual := fun block =>
  let+ (block, result_type) := count_OpId block in
  let+ (block, result_id) := count_ResultId block in
  let+ (block, operand1) := count_OpId block in
  let+ (block, operand2) := count_OpId block in
  count_Ok (block, {| OpSGreaterThanEqual_result_type := result_type; OpSGreaterThanEqual_result_id := result_id; OpSGreaterThanEqual_operand1 := operand1; OpSGreaterThanEqual_operand2 := operand2 |}).

(* src/spv/raw/reader.rs:638 *)
Definition count_OpULessThan : CountReader OpULessThan := fun block =>
  let+ (block, result_type) := count_OpId block in
  let+ (block, result_id) := count_ResultId block in
  let+ (block, operand1) := count_OpId block in
  let+ (block, operand2) := count_OpId block in
  count_Ok (block, {| OpULessThan_result_type := result_type; OpULessThan_result_id := result_id; OpULessThan_operand1 := operand1; OpULessThan_operand2 := operand2 |}).

(* src/spv/raw/reader.rs:639 *)
Definition count_OpSLessThan : CountReader OpSLessThan := fun block =>
  let+ (block, result_type) := count_OpId block in
  let+ (block, result_id) := count_ResultId block in
  let+ (block, operand1) := count_OpId block in
  let+ (block, operand2) := count_OpId block in
  count_Ok (block, {| OpSLessThan_result_type := result_type; OpSLessThan_result_id := result_id; OpSLessThan_operand1 := operand1; OpSLessThan_operand2 := operand2 |}).

(* src/spv/raw/reader.rs:640 *)
Definition count_OpULessThanEqual : CountReader OpULessThanEqual := fun block =>
  let+ (block, result_type) := count_OpId block in
  let+ (block, result_id) := count_ResultId block in
  let+ (block, operand1) := count_OpId block in
  let+ (block, operand2) := count_OpId block in
  count_Ok (block, {| OpULessThanEqual_result_type := result_type; OpULessThanEqual_result_id := result_id; OpULessThanEqual_operand1 := operand1; OpULessThanEqual_operand2 := operand2 |}).

(* src/spv/raw/reader.rs:641 *)
Definition count_OpSLessThanEqual : CountReader OpSLessThanEqual := fun block =>
  let+ (block, result_type) := count_OpId block in
  let+ (block, result_id) := count_ResultId block in
  let+ (block, operand1) := count_OpId block in
  let+ (block, operand2) := count_OpId block in
  count_Ok (block, {| OpSLessThanEqual_result_type := result_type; OpSLessThanEqual_result_id := result_id; OpSLessThanEqual_operand1 := operand1; OpSLessThanEqual_operand2 := operand2 |}).

(* src/spv/raw/reader.rs:642 *)
Definition count_OpFOrdEqual : CountReader OpFOrdEqual := fun block =>
  let+ (block, result_type) := count_OpId block in
  let+ (block, result_id) := count_ResultId block in
  let+ (block, operand1) := count_OpId block in
  let+ (block, operand2) := count_OpId block in
  count_Ok (block, {| OpFOrdEqual_result_type := result_type; OpFOrdEqual_result_id := result_id; OpFOrdEqual_operand1 := operand1; OpFOrdEqual_operand2 := operand2 |}).

(* src/spv/raw/reader.rs:643 *)
Definition count_OpFUnordEqual : CountReader OpFUnordEqual := fun block =>
  let+ (block, result_type) := count_OpId block in
  let+ (block, result_id) := count_ResultId block in
  let+ (block, operand1) := count_OpId block in
  let+ (block, operand2) := count_OpId block in
  count_Ok (block, {| OpFUnordEqual_result_type := result_type; OpFUnordEqual_result_id := result_id; OpFUnordEqual_operand1 := operand1; OpFUnordEqual_operand2 := operand2 |}).

(* src/spv/raw/reader.rs:644 *)
Definition count_OpFOrdNotEqual : CountReader OpFOrdNotEqual := fun block =>
  let+ (block, result_type) := count_OpId block in
  let+ (block, result_id) := count_ResultId block in
  let+ (block, operand1) := count_OpId block in
  let+ (block, operand2) := count_OpId block in
  count_Ok (block, {| OpFOrdNotEqual_result_type := result_type; OpFOrdNotEqual_result_id := result_id; OpFOrdNotEqual_operand1 := operand1; OpFOrdNotEqual_operand2 := operand2 |}).

(* src/spv/raw/reader.rs:645 *)
Definition count_OpFUnordNotEqual : CountReader OpFUnordNotEqual := fun block =>
  let+ (block, result_type) := count_OpId block in
  let+ (block, result_id) := count_ResultId block in
  let+ (block, operand1) := count_OpId block in
  let+ (block, operand2) := count_OpId block in
  count_Ok (block, {| OpFUnordNotEqual_result_type := result_type; OpFUnordNotEqual_result_id := result_id; OpFUnordNotEqual_operand1 := operand1; OpFUnordNotEqual_operand2 := operand2 |}).

(* src/spv/raw/reader.rs:646 *)
Definition count_OpFOrdLessThan : CountReader OpFOrdLessThan := fun block =>
  let+ (block, result_type) := count_OpId block in
  let+ (block, result_id) := count_ResultId block in
  let+ (block, operand1) := count_OpId block in
  let+ (block, operand2) := count_OpId block in
  count_Ok (block, {| OpFOrdLessThan_result_type := result_type; OpFOrdLessThan_result_id := result_id; OpFOrdLessThan_operand1 := operand1; OpFOrdLessThan_operand2 := operand2 |}).

(* src/spv/raw/reader.rs:647 *)
Definition count_OpFUnordLessThan : CountReader OpFUnordLessThan := fun block =>
  let+ (block, result_type) := count_OpId block in
  let+ (block, result_id) := count_ResultId block in
  let+ (block, operand1) := count_OpId block in
  let+ (block, operand2) := count_OpId block in
  count_Ok (block, {| OpFUnordLessThan_result_type := result_type; OpFUnordLessThan_result_id := result_id; OpFUnordLessThan_operand1 := operand1; OpFUnordLessThan_operand2 := operand2 |}).

(* src/spv/raw/reader.rs:648 *)
Definition count_OpFOrdGreaterThan : CountReader OpFOrdGreaterThan := fun block =>
  let+ (block, result_type) := count_OpId block in
  let+ (block, result_id) := count_ResultId block in
  let+ (block, operand1) := count_OpId block in
  let+ (block, operand2) := count_OpId block in
  count_Ok (block, {| OpFOrdGreaterThan_result_type := result_type; OpFOrdGreaterThan_result_id := result_id; OpFOrdGreaterThan_operand1 := operand1; OpFOrdGreaterThan_operand2 := operand2 |}).

(* src/spv/raw/reader.rs:649 *)
Definition count_OpFUnordGreaterThan : CountReader OpFUnordGreaterThan := fun block =>
  let+ (block, result_type) := count_OpId block in
  let+ (block, result_id) := count_ResultId block in
  let+ (block, operand1) := count_OpId block in
  let+ (block, operand2) := count_OpId block in
  count_Ok (block, {| OpFUnordGreaterThan_result_type := result_type; OpFUnordGreaterThan_result_id := result_id; OpFUnordGreaterThan_operand1 := operand1; OpFUnordGreaterThan_operand2 := operand2 |}).

(* src/spv/raw/reader.rs:650 *)
Definition count_OpFOrdLessThanEqual : CountReader OpFOrdLessThanEqual := fun block =>
  let+ (block, result_type) := count_OpId block in
  let+ (block, result_id) := count_ResultId block in
  let+ (block, operand1) := count_OpId block in
  let+ (block, operand2) := count_OpId block in
  count_Ok (block, {| OpFOrdLessThanEqual_result_type := result_type; OpFOrdLessThanEqual_result_id := result_id; OpFOrdLessThanEqual_operand1 := operand1; OpFOrdLessThanEqual_operand2 := operand2 |}).

(* src/spv/raw/reader.rs:651 *)
Definition count_OpFUnordLessThanEqual : CountReader OpFUnordLessThanEqual := fun block =>
  let+ (block, result_type) := count_OpId block in
  let+ (block, result_id) := count_ResultId block in
  let+ (block, operand1) := count_OpId block in
  let+ (block, operand2) := count_OpId block in
  count_Ok (block, {| OpFUnordLessThanEqual_result_type := result_type; OpFUnordLessThanEqual_result_id := result_id; OpFUnordLessThanEqual_operand1 := operand1; OpFUnordLessThanEqual_operand2 := operand2 |}).

(* src/spv/raw/reader.rs:652 *)
Definition count_OpFOrdGreaterThanEqual : CountReader OpFOrdGreaterThanEqual := fun block =>
  let+ (block, result_type) := count_OpId block in
  let+ (block, result_id) := count_ResultId block in
  let+ (block, operand1) := count_OpId block in
  let+ (block, operand2) := count_OpId block in
  count_Ok (block, {| OpFOrdGreaterThanEqual_result_type := result_type; OpFOrdGreaterThanEqual_result_id := result_id; OpFOrdGreaterThanEqual_operand1 := operand1; OpFOrdGreaterThanEqual_operand2 := operand2 |}).

(* src/spv/raw/reader.rs:653 *)
Definition count_OpFUnordGreaterThanEqual : CountReader OpFUnordGreaterThanEqual := fun block =>
  let+ (block, result_type) := count_OpId block in
  let+ (block, result_id) := count_ResultId block in
  let+ (block, operand1) := count_OpId block in
  let+ (block, operand2) := count_OpId block in
  count_Ok (block, {| OpFUnordGreaterThanEqual_result_type := result_type; OpFUnordGreaterThanEqual_result_id := result_id; OpFUnordGreaterThanEqual_operand1 := operand1; OpFUnordGreaterThanEqual_operand2 := operand2 |}).

(* src/spv/raw/reader.rs:656 *)
Definition count_OpPhi : CountReader OpPhi := fun block =>
  let+ (block, result_type) := count_OpId block in
  let+ (block, result_id) := count_ResultId block in
  let+ (block, variables) := (count_Vec size_of_PhiArg count_PhiArg) block in
  count_Ok (block, {| OpPhi_result_type := result_type; OpPhi_result_id := result_id; OpPhi_variables := variables |}).

(* src/spv/raw/reader.rs:657 *)
Definition count_OpLoopMerge : CountReader OpLoopMerge := fun block =>
  let+ (block, merge_block) := count_OpId block in
  let+ (block, continue_target) := count_OpId block in
  let+ (block, loop_control) := count_LoopControl block in
  count_Ok (block, {| OpLoopMerge_merge_block := merge_block; OpLoopMerge_continue_target := continue_target; OpLoopMerge_loop_control := loop_control |}).

(* src/spv/raw/reader.rs:658 *)
Definition count_OpSelectionMerge : CountReader OpSelectionMerge := fun block =>
  let+ (block, merge_block) := count_OpId block in
  let+ (block, selection_control) := count_SelectionControl block in
  count_Ok (block, {| OpSelectionMerge_merge_block := merge_block; OpSelectionMerge_selection_control := selection_control |}).

(* src/spv/raw/reader.rs:659 *)
Definition count_OpLabel : CountReader OpLabel := fun block =>
  let+ (block, result_id) := count_ResultId block in
  count_Ok (block, {| OpLabel_result_id := result_id |}).

(* src/spv/raw/reader.rs:660 *)
Definition count_OpBranch : CountReader OpBranch := fun block =>
  let+ (block, target_label) := count_OpId block in
  count_Ok (block, {| OpBranch_target_label := target_label |}).

(* src/spv/raw/reader.rs:661 *)
Definition count_OpBranchConditional : CountReader OpBranchConditional := fun block =>
  let+ (block, condition) := count_OpId block in
  let+ (block, true_label) := count_OpId block in
  let+ (block, false_label) := count_OpId block in
  let+ (block, weights) := (count_Option count_BranchWeights) block in
  count_Ok (block, {| OpBranchConditional_condition := condition; OpBranchConditional_true_label := true_label; OpBranchConditional_false_label := false_label; OpBranchConditional_weights := weights |}).

(* src/spv/raw/reader.rs:663 *)
Definition count_OpReturn : CountReader OpReturn := fun block =>
  count_Ok (block, Build_OpReturn).

Section CountCore.
Context {E : Type}.

(* src/spv/raw/reader.rs:433-438 *)
Definition CountCoreReader := list N -> list (ExtInstSet E) -> bound_sets E ->
  counted (list N * Core E * bound_sets E).

(* src/spv/raw/reader.rs:457-465 *)
Definition count_plain {A} (read : CountReader A) (wrap : A -> Core E) : CountCoreReader := fun block _ bound =>
  let+ (block, item) := read block in count_Ok (block, wrap item, bound).

(* src/spv/raw/reader.rs:484 *)
Definition count_core_OpNop : CountCoreReader := count_plain count_OpNop Core_OpNop.
(* src/spv/raw/reader.rs:485 *)
Definition count_core_OpUndef : CountCoreReader := count_plain count_OpUndef Core_OpUndef.
(* src/spv/raw/reader.rs:488 *)
Definition count_core_OpSourceContinued : CountCoreReader := count_plain count_OpSourceContinued Core_OpSourceContinued.
(* src/spv/raw/reader.rs:489 *)
Definition count_core_OpSource : CountCoreReader := count_plain count_OpSource Core_OpSource.
(* src/spv/raw/reader.rs:490 *)
Definition count_core_OpSourceExtension : CountCoreReader := count_plain count_OpSourceExtension Core_OpSourceExtension.
(* src/spv/raw/reader.rs:491 *)
Definition count_core_OpName : CountCoreReader := count_plain count_OpName Core_OpName.
(* src/spv/raw/reader.rs:492 *)
Definition count_core_OpMemberName : CountCoreReader := count_plain count_OpMemberName Core_OpMemberName.
(* src/spv/raw/reader.rs:493 *)
Definition count_core_OpString : CountCoreReader := count_plain count_OpString Core_OpString.
(* src/spv/raw/reader.rs:500 *)
Definition count_core_OpExtension : CountCoreReader := count_plain count_OpExtension Core_OpExtension.
(* src/spv/raw/reader.rs:551 *)
Definition count_core_OpMemoryModel : CountCoreReader := count_plain count_OpMemoryModel Core_OpMemoryModel.
(* src/spv/raw/reader.rs:552 *)
Definition count_core_OpEntryPoint : CountCoreReader := count_plain count_OpEntryPoint Core_OpEntryPoint.
(* src/spv/raw/reader.rs:553 *)
Definition count_core_OpExecutionMode : CountCoreReader := count_plain count_OpExecutionMode Core_OpExecutionMode.
(* src/spv/raw/reader.rs:554 *)
Definition count_core_OpCapability : CountCoreReader := count_plain count_OpCapability Core_OpCapability.
(* src/spv/raw/reader.rs:557 *)
Definition count_core_OpTypeVoid : CountCoreReader := count_plain count_OpTypeVoid Core_OpTypeVoid.
(* src/spv/raw/reader.rs:558 *)
Definition count_core_OpTypeBool : CountCoreReader := count_plain count_OpTypeBool Core_OpTypeBool.
(* src/spv/raw/reader.rs:559 *)
Definition count_core_OpTypeInt : CountCoreReader := count_plain count_OpTypeInt Core_OpTypeInt.
(* src/spv/raw/reader.rs:560 *)
Definition count_core_OpTypeFloat : CountCoreReader := count_plain count_OpTypeFloat Core_OpTypeFloat.
(* src/spv/raw/reader.rs:561 *)
Definition count_core_OpTypeVector : CountCoreReader := count_plain count_OpTypeVector Core_OpTypeVector.
(* src/spv/raw/reader.rs:562 *)
Definition count_core_OpTypeMatrix : CountCoreReader := count_plain count_OpTypeMatrix Core_OpTypeMatrix.
(* src/spv/raw/reader.rs:563-573 *)
Definition count_core_OpTypeImage : CountCoreReader := count_plain count_OpTypeImage Core_OpTypeImage.
(* src/spv/raw/reader.rs:574 *)
Definition count_core_OpTypeSampler : CountCoreReader := count_plain count_OpTypeSampler Core_OpTypeSampler.
(* src/spv/raw/reader.rs:575 *)
Definition count_core_OpTypeSampledImage : CountCoreReader := count_plain count_OpTypeSampledImage Core_OpTypeSampledImage.
(* src/spv/raw/reader.rs:576 *)
Definition count_core_OpTypeArray : CountCoreReader := count_plain count_OpTypeArray Core_OpTypeArray.
(* src/spv/raw/reader.rs:577 *)
Definition count_core_OpTypeRuntimeArray : CountCoreReader := count_plain count_OpTypeRuntimeArray Core_OpTypeRuntimeArray.
(* src/spv/raw/reader.rs:578 *)
Definition count_core_OpTypeStruct : CountCoreReader := count_plain count_OpTypeStruct Core_OpTypeStruct.
(* src/spv/raw/reader.rs:579 *)
Definition count_core_OpTypeOpaque : CountCoreReader := count_plain count_OpTypeOpaque Core_OpTypeOpaque.
(* src/spv/raw/reader.rs:580 *)
Definition count_core_OpTypePointer : CountCoreReader := count_plain count_OpTypePointer Core_OpTypePointer.
(* src/spv/raw/reader.rs:581 *)
Definition count_core_OpTypeFunction : CountCoreReader := count_plain count_OpTypeFunction Core_OpTypeFunction.
(* src/spv/raw/reader.rs:584 *)
Definition count_core_OpConstant : CountCoreReader := count_plain count_OpConstant Core_OpConstant.
(* src/spv/raw/reader.rs:585 *)
Definition count_core_OpConstantComposite : CountCoreReader := count_plain count_OpConstantComposite Core_OpConstantComposite.
(* src/spv/raw/reader.rs:588 *)
Definition count_core_OpFunction : CountCoreReader := count_plain count_OpFunction Core_OpFunction.
(* src/spv/raw/reader.rs:589 *)
Definition count_core_OpFunctionParameter : CountCoreReader := count_plain count_OpFunctionParameter Core_OpFunctionParameter.
(* src/spv/raw/reader.rs:590 *)
Definition count_core_OpFunctionEnd : CountCoreReader := count_plain count_OpFunctionEnd Core_OpFunctionEnd.
(* src/spv/raw/reader.rs:593 *)
Definition count_core_OpVariable : CountCoreReader := count_plain count_OpVariable Core_OpVariable.
(* src/spv/raw/reader.rs:595 *)
Definition count_core_OpLoad : CountCoreReader := count_plain count_OpLoad Core_OpLoad.
(* src/spv/raw/reader.rs:596 *)
Definition count_core_OpStore : CountCoreReader := count_plain count_OpStore Core_OpStore.
(* src/spv/raw/reader.rs:598 *)
Definition count_core_OpAccessChain : CountCoreReader := count_plain count_OpAccessChain Core_OpAccessChain.
(* src/spv/raw/reader.rs:496 *)
Definition count_core_OpDecorate : CountCoreReader := count_plain count_OpDecorate Core_OpDecorate.
(* src/spv/raw/reader.rs:497 *)
Definition count_core_OpMemberDecorate : CountCoreReader := count_plain count_OpMemberDecorate Core_OpMemberDecorate.
(* src/spv/raw/reader.rs:601 *)
Definition count_core_OpConvertUToF : CountCoreReader := count_plain count_OpConvertUToF Core_OpConvertUToF.
(* src/spv/raw/reader.rs:603 *)
Definition count_core_OpBitcast : CountCoreReader := count_plain count_OpBitcast Core_OpBitcast.
(* src/spv/raw/reader.rs:606 *)
Definition count_core_OpIAdd : CountCoreReader := count_plain count_OpIAdd Core_OpIAdd.
(* src/spv/raw/reader.rs:607 *)
Definition count_core_OpFAdd : CountCoreReader := count_plain count_OpFAdd Core_OpFAdd.
(* src/spv/raw/reader.rs:608 *)
Definition count_core_OpISub : CountCoreReader := count_plain count_OpISub Core_OpISub.
(* src/spv/raw/reader.rs:609 *)
Definition count_core_OpFSub : CountCoreReader := count_plain count_OpFSub Core_OpFSub.
(* src/spv/raw/reader.rs:610 *)
Definition count_core_OpIMul : CountCoreReader := count_plain count_OpIMul Core_OpIMul.
(* src/spv/raw/reader.rs:611 *)
Definition count_core_OpFMul : CountCoreReader := count_plain count_OpFMul Core_OpFMul.
(* src/spv/raw/reader.rs:612 *)
Definition count_core_OpUDiv : CountCoreReader := count_plain count_OpUDiv Core_OpUDiv.
(* src/spv/raw/reader.rs:613 *)
Definition count_core_OpSDiv : CountCoreReader := count_plain count_OpSDiv Core_OpSDiv.
(* src/spv/raw/reader.rs:614 *)
Definition count_core_OpFDiv : CountCoreReader := count_plain count_OpFDiv Core_OpFDiv.
(* src/spv/raw/reader.rs:615 *)
Definition count_core_OpUMod : CountCoreReader := count_plain count_OpUMod Core_OpUMod.
(* src/spv/raw/reader.rs:616 *)
Definition count_core_OpSRem : CountCoreReader := count_plain count_OpSRem Core_OpSRem.
(* src/spv/raw/reader.rs:617 *)
Definition count_core_OpSMod : CountCoreReader := count_plain count_OpSMod Core_OpSMod.
(* src/spv/raw/reader.rs:618 *)
Definition count_core_OpFRem : CountCoreReader := count_plain count_OpFRem Core_OpFRem.
(* src/spv/raw/reader.rs:619 *)
Definition count_core_OpFMod : CountCoreReader := count_plain count_OpFMod Core_OpFMod.
(* src/spv/raw/reader.rs:621 *)
Definition count_core_OpIAddCarry : CountCoreReader := count_plain count_OpIAddCarry Core_OpIAddCarry.
(* src/spv/raw/reader.rs:622 *)
Definition count_core_OpISubBorrow : CountCoreReader := count_plain count_OpISubBorrow Core_OpISubBorrow.
(* src/spv/raw/reader.rs:623 *)
Definition count_core_OpUMulExtended : CountCoreReader := count_plain count_OpUMulExtended Core_OpUMulExtended.
(* src/spv/raw/reader.rs:624 *)
Definition count_core_OpSMulExtended : CountCoreReader := count_plain count_OpSMulExtended Core_OpSMulExtended.
(* src/spv/raw/reader.rs:627 *)
Definition count_core_OpBitwiseOr : CountCoreReader := count_plain count_OpBitwiseOr Core_OpBitwiseOr.
(* src/spv/raw/reader.rs:628 *)
Definition count_core_OpBitwiseXor : CountCoreReader := count_plain count_OpBitwiseXor Core_OpBitwiseXor.
(* src/spv/raw/reader.rs:629 *)
Definition count_core_OpBitwiseAnd : CountCoreReader := count_plain count_OpBitwiseAnd Core_OpBitwiseAnd.
(* src/spv/raw/reader.rs:632 *)
Definition count_core_OpIEqual : CountCoreReader := count_plain count_OpIEqual Core_OpIEqual.
(* src/spv/raw/reader.rs:633 *)
Definition count_core_OpINotEqual : CountCoreReader := count_plain count_OpINotEqual Core_OpINotEqual.
(* src/spv/raw/reader.rs:634 *)
Definition count_core_OpUGreaterThan : CountCoreReader := count_plain count_OpUGreaterThan Core_OpUGreaterThan.
(* src/spv/raw/reader.rs:635 *)
Definition count_core_OpSGreaterThan : CountCoreReader := count_plain count_OpSGreaterThan Core_OpSGreaterThan.
(* src/spv/raw/reader.rs:636 *)
Definition count_core_OpUGreaterThanEqual : CountCoreReader := count_plain count_OpUGreaterThanEqual Core_OpUGreaterThanEqual.
(* src/spv/raw/reader.rs:637 *)
Definition count_core_OpSGreaterThanEqual : CountCoreReader := count_plain count_OpSGreaterThanEqual Core_OpSGreaterThanEqual.
(* src/spv/raw/reader.rs:638 *)
Definition count_core_OpULessThan : CountCoreReader := count_plain count_OpULessThan Core_OpULessThan.
(* src/spv/raw/reader.rs:639 *)
Definition count_core_OpSLessThan : CountCoreReader := count_plain count_OpSLessThan Core_OpSLessThan.
(* src/spv/raw/reader.rs:640 *)
Definition count_core_OpULessThanEqual : CountCoreReader := count_plain count_OpULessThanEqual Core_OpULessThanEqual.
(* src/spv/raw/reader.rs:641 *)
Definition count_core_OpSLessThanEqual : CountCoreReader := count_plain count_OpSLessThanEqual Core_OpSLessThanEqual.
(* src/spv/raw/reader.rs:642 *)
Definition count_core_OpFOrdEqual : CountCoreReader := count_plain count_OpFOrdEqual Core_OpFOrdEqual.
(* src/spv/raw/reader.rs:643 *)
Definition count_core_OpFUnordEqual : CountCoreReader := count_plain count_OpFUnordEqual Core_OpFUnordEqual.
(* src/spv/raw/reader.rs:644 *)
Definition count_core_OpFOrdNotEqual : CountCoreReader := count_plain count_OpFOrdNotEqual Core_OpFOrdNotEqual.
(* src/spv/raw/reader.rs:645 *)
Definition count_core_OpFUnordNotEqual : CountCoreReader := count_plain count_OpFUnordNotEqual Core_OpFUnordNotEqual.
(* src/spv/raw/reader.rs:646 *)
Definition count_core_OpFOrdLessThan : CountCoreReader := count_plain count_OpFOrdLessThan Core_OpFOrdLessThan.
(* src/spv/raw/reader.rs:647 *)
Definition count_core_OpFUnordLessThan : CountCoreReader := count_plain count_OpFUnordLessThan Core_OpFUnordLessThan.
(* src/spv/raw/reader.rs:648 *)
Definition count_core_OpFOrdGreaterThan : CountCoreReader := count_plain count_OpFOrdGreaterThan Core_OpFOrdGreaterThan.
(* src/spv/raw/reader.rs:649 *)
Definition count_core_OpFUnordGreaterThan : CountCoreReader := count_plain count_OpFUnordGreaterThan Core_OpFUnordGreaterThan.
(* src/spv/raw/reader.rs:650 *)
Definition count_core_OpFOrdLessThanEqual : CountCoreReader := count_plain count_OpFOrdLessThanEqual Core_OpFOrdLessThanEqual.
(* src/spv/raw/reader.rs:651 *)
Definition count_core_OpFUnordLessThanEqual : CountCoreReader := count_plain count_OpFUnordLessThanEqual Core_OpFUnordLessThanEqual.
(* src/spv/raw/reader.rs:652 *)
Definition count_core_OpFOrdGreaterThanEqual : CountCoreReader := count_plain count_OpFOrdGreaterThanEqual Core_OpFOrdGreaterThanEqual.
(* src/spv/raw/reader.rs:653 *)
Definition count_core_OpFUnordGreaterThanEqual : CountCoreReader := count_plain count_OpFUnordGreaterThanEqual Core_OpFUnordGreaterThanEqual.
(* src/spv/raw/reader.rs:656 *)
Definition count_core_OpPhi : CountCoreReader := count_plain count_OpPhi Core_OpPhi.
(* src/spv/raw/reader.rs:657 *)
Definition count_core_OpLoopMerge : CountCoreReader := count_plain count_OpLoopMerge Core_OpLoopMerge.
(* src/spv/raw/reader.rs:658 *)
Definition count_core_OpSelectionMerge : CountCoreReader := count_plain count_OpSelectionMerge Core_OpSelectionMerge.
(* src/spv/raw/reader.rs:659 *)
Definition count_core_OpLabel : CountCoreReader := count_plain count_OpLabel Core_OpLabel.
(* src/spv/raw/reader.rs:660 *)
Definition count_core_OpBranch : CountCoreReader := count_plain count_OpBranch Core_OpBranch.
(* src/spv/raw/reader.rs:661 *)
Definition count_core_OpBranchConditional : CountCoreReader := count_plain count_OpBranchConditional Core_OpBranchConditional.
(* src/spv/raw/reader.rs:663 *)
Definition count_core_OpReturn : CountCoreReader := count_plain count_OpReturn Core_OpReturn.

(* src/spv/raw/reader.rs:509-523: a step for every known set whose name is asked for, one for the insertion *)
Fixpoint count_import_loop (result_id : ResultId) (name : LitString) (block : list N) (bound : bound_sets E)
    (sets : list (ExtInstSet E)) : counted (list N * Core E * bound_sets E) :=
  match sets with
  | [] => count_Err (UnknownInstSet name)
  | inst_set :: rest =>
      let+ _ := step in
      if String.eqb (get_name inst_set) name then
        let+ _ := step in
        let '(old, bound) := map_insert result_id (duplicate inst_set) bound in
        match old with
        | Some _ => count_Err (DuplicateResultId result_id)
        | None => count_Ok (block, Core_OpExtInstImport
            {| OpExtInstImport_result_id := result_id; OpExtInstImport_name := name |}, bound)
        end
      else count_import_loop result_id name block bound rest
  end.

(* src/spv/raw/reader.rs:502-524 *)
Definition count_core_OpExtInstImport : CountCoreReader := fun block known bound =>
  let+ (block, result_id) := count_ResultId block in
  let+ (block, name) := count_LitString block in
  count_import_loop result_id name block bound known.

(* src/spv/raw/reader.rs:526-549: a step for the look-up, one for the call; what the set does in the call is
   not counted *)
Definition count_core_OpExtInst : CountCoreReader := fun block _ bound =>
  let+ (block, result_type) := count_OpId block in
  let+ (block, result_id) := count_ResultId block in
  let+ (block, set_id) := count_OpId block in
  let+ (block, inst) := count_u32 block in
  let+ _ := step in
  match map_get set_id bound with
  | Some read_instruction =>
      let+ _ := step in
      let+ (block, extinst) := (O, read_instruction inst block) in
      count_Ok (block, Core_OpExtInst {| OpExtInst_result_type := result_type; OpExtInst_result_id := result_id;
                                         OpExtInst_set := set_id; OpExtInst_instruction := extinst |}, bound)
  | None => count_Err (UnknownInstSetId set_id)
  end.

(* src/spv/raw/reader.rs:138-425 *)
Definition count_dispatch (id wc : N) : outcome ReadError CountCoreReader :=
  match id with
  | 0 => Ok count_core_OpNop
  | 1 => Ok count_core_OpUndef
  | 2 => Ok count_core_OpSourceContinued
  | 3 => Ok count_core_OpSource
  | 4 => Ok count_core_OpSourceExtension
  | 5 => Ok count_core_OpName
  | 6 => Ok count_core_OpMemberName
  | 7 => Ok count_core_OpString
  | 8 => Err (UnimplementedOp "OpLine")
  | 10 => Ok count_core_OpExtension
  | 11 => Ok count_core_OpExtInstImport
  | 12 => Ok count_core_OpExtInst
  | 14 => Ok count_core_OpMemoryModel
  | 15 => Ok count_core_OpEntryPoint
  | 16 => Ok count_core_OpExecutionMode
  | 17 => Ok count_core_OpCapability
  | 19 => Ok count_core_OpTypeVoid
  | 20 => Ok count_core_OpTypeBool
  | 21 => Ok count_core_OpTypeInt
  | 22 => Ok count_core_OpTypeFloat
  | 23 => Ok count_core_OpTypeVector
  | 24 => Ok count_core_OpTypeMatrix
  | 25 => Ok count_core_OpTypeImage
  | 26 => Ok count_core_OpTypeSampler
  | 27 => Ok count_core_OpTypeSampledImage
  | 28 => Ok count_core_OpTypeArray
  | 29 => Ok count_core_OpTypeRuntimeArray
  | 30 => Ok count_core_OpTypeStruct
  | 31 => Ok count_core_OpTypeOpaque
  | 32 => Ok count_core_OpTypePointer
  | 33 => Ok count_core_OpTypeFunction
  | 41 => Err (UnimplementedOp "OpConstantTrue")
  | 42 => Err (UnimplementedOp "OpConstantFalse")
  | 43 => Ok count_core_OpConstant
  | 44 => Ok count_core_OpConstantComposite
  | 45 => Err (UnimplementedOp "OpConstantSampler")
  | 46 => Err (UnimplementedOp "OpConstantNull")
  | 48 => Err (UnimplementedOp "OpSpecConstantTrue")
  | 49 => Err (UnimplementedOp "OpSpecConstantFalse")
  | 50 => Err (UnimplementedOp "OpSpecConstant")
  | 51 => Err (UnimplementedOp "OpSpecConstantComposite")
  | 52 => Err (UnimplementedOp "OpSpecConstantOp")
  | 54 => Ok count_core_OpFunction
  | 55 => Ok count_core_OpFunctionParameter
  | 56 => Ok count_core_OpFunctionEnd
  | 57 => Err (UnimplementedOp "OpFunctionCall")
  | 59 => Ok count_core_OpVariable
  | 60 => Err (UnimplementedOp "OpImageTexelPointer")
  | 61 => Ok count_core_OpLoad
  | 62 => Ok count_core_OpStore
  | 63 => Err (UnimplementedOp "OpCopyMemory")
  | 64 => Err (UnimplementedOp "OpCopyMemorySized")
  | 65 => Ok count_core_OpAccessChain
  | 66 => Err (UnimplementedOp "OpInBoundsAccessChain")
  | 67 => Err (UnimplementedOp "OpPtrAccessChain")
  | 68 => Err (UnimplementedOp "OpArrayLength")
  | 69 => Err (UnimplementedOp "OpGenericPtrMemSemantics")
  | 70 => Err (UnimplementedOp "OpInBoundsPtrAccessChain")
  | 71 => Ok count_core_OpDecorate
  | 72 => Ok count_core_OpMemberDecorate
  | 77 => Err (UnimplementedOp "OpVectorExtractDynamic")
  | 78 => Err (UnimplementedOp "OpVectorInsertDynamic")
  | 79 => Err (UnimplementedOp "OpVectorShuffle")
  | 80 => Err (UnimplementedOp "OpCompositeConstruct")
  | 81 => Err (UnimplementedOp "OpCompositeExtract")
  | 82 => Err (UnimplementedOp "OpCompositeInsert")
  | 83 => Err (UnimplementedOp "OpCopyObject")
  | 84 => Err (UnimplementedOp "OpTranspose")
  | 86 => Err (UnimplementedOp "OpSampledImage")
  | 87 => Err (UnimplementedOp "OpImageSampleImplicitLod")
  | 88 => Err (UnimplementedOp "OpImageSampleExplicitLod")
  | 89 => Err (UnimplementedOp "OpImageSampleDrefImplicitLod")
  | 90 => Err (UnimplementedOp "OpImageSampleDrefExplicitLod")
  | 91 => Err (UnimplementedOp "OpImageSampleProjImplicitLod")
  | 92 => Err (UnimplementedOp "OpImageSampleProjExplicitLod")
  | 93 => Err (UnimplementedOp "OpImageSampleProjDrefImplicitLod")
  | 94 => Err (UnimplementedOp "OpImageSampleProjDrefExplicitLod")
  | 95 => Err (UnimplementedOp "OpImageFetch")
  | 96 => Err (UnimplementedOp "OpImageGather")
  | 97 => Err (UnimplementedOp "OpImageDrefGather")
  | 98 => Err (UnimplementedOp "OpImageRead")
  | 99 => Err (UnimplementedOp "OpImageWrite")
  | 100 => Err (UnimplementedOp "OpImage")
  | 101 => Err (UnimplementedOp "OpImageQueryFormat")
  | 102 => Err (UnimplementedOp "OpImageQueryOrder")
  | 103 => Err (UnimplementedOp "OpImageQuerySizeLod")
  | 104 => Err (UnimplementedOp "OpImageQuerySize")
  | 105 => Err (UnimplementedOp "OpImageQueryLod")
  | 106 => Err (UnimplementedOp "OpImageQueryLevels")
  | 107 => Err (UnimplementedOp "OpImageQuerySamples")
  | 109 => Err (UnimplementedOp "OpConvertFToU")
  | 110 => Err (UnimplementedOp "OpConvertFToS")
  | 111 => Err (UnimplementedOp "OpConvertSToF")
  | 112 => Ok count_core_OpConvertUToF
  | 113 => Err (UnimplementedOp "OpUConvert")
  | 114 => Err (UnimplementedOp "OpSConvert")
  | 115 => Err (UnimplementedOp "OpFConvert")
  | 116 => Err (UnimplementedOp "OpQuantizeToF16")
  | 117 => Err (UnimplementedOp "OpConvertPtrToU")
  | 118 => Err (UnimplementedOp "OpSatConvertSToU")
  | 119 => Err (UnimplementedOp "OpSatConvertUToS")
  | 120 => Err (UnimplementedOp "OpConvertUToPtr")
  | 121 => Err (UnimplementedOp "OpPtrCastToGeneric")
  | 122 => Err (UnimplementedOp "OpGenericCastToPtr")
  | 123 => Err (UnimplementedOp "OpGenericCastToPtrExplicit")
  | 124 => Ok count_core_OpBitcast
  | 126 => Err (UnimplementedOp "OpSNegate")
  | 127 => Err (UnimplementedOp "OpFNegate")
  | 128 => Ok count_core_OpIAdd
  | 129 => Ok count_core_OpFAdd
  | 130 => Ok count_core_OpISub
  | 131 => Ok count_core_OpFSub
  | 132 => Ok count_core_OpIMul
  | 133 => Ok count_core_OpFMul
  | 134 => Ok count_core_OpUDiv
  | 135 => Ok count_core_OpSDiv
  | 136 => Ok count_core_OpFDiv
  | 137 => Ok count_core_OpUMod
  | 138 => Ok count_core_OpSRem
  | 139 => Ok count_core_OpSMod
  | 140 => Ok count_core_OpFRem
  | 141 => Ok count_core_OpFMod
  | 142 => Err (UnimplementedOp "OpVectorTimesScalar")
  | 143 => Err (UnimplementedOp "OpMatrixTimesScalar")
  | 144 => Err (UnimplementedOp "OpVectorTimesMatrix")
  | 145 => Err (UnimplementedOp "OpMatrixTimesVector")
  | 146 => Err (UnimplementedOp "OpMatrixTimesMatrix")
  | 147 => Err (UnimplementedOp "OpOuterProduct")
  | 148 => Err (UnimplementedOp "OpDot")
  | 149 => Ok count_core_OpIAddCarry
  | 150 => Ok count_core_OpISubBorrow
  | 151 => Ok count_core_OpUMulExtended
  | 152 => Ok count_core_OpSMulExtended
  | 154 => Err (UnimplementedOp "OpAny")
  | 155 => Err (UnimplementedOp "OpAll")
  | 156 => Err (UnimplementedOp "OpIsNan")
  | 157 => Err (UnimplementedOp "OpIsInf")
  | 158 => Err (UnimplementedOp "OpIsFinite")
  | 159 => Err (UnimplementedOp "OpIsNormal")
  | 160 => Err (UnimplementedOp "OpSignBitSet")
  | 161 => Err (UnimplementedOp "OpLessOrGreater")
  | 162 => Err (UnimplementedOp "OpOrdered")
  | 163 => Err (UnimplementedOp "OpUnordered")
  | 164 => Err (UnimplementedOp "OpLogicalEqual")
  | 165 => Err (UnimplementedOp "OpLogicalNotEqual")
  | 166 => Err (UnimplementedOp "OpLogicalOr")
  | 167 => Err (UnimplementedOp "OpLogicalAnd")
  | 168 => Err (UnimplementedOp "OpLogicalNot")
  | 169 => Err (UnimplementedOp "OpSelect")
  | 170 => Ok count_core_OpIEqual
  | 171 => Ok count_core_OpINotEqual
  | 172 => Ok count_core_OpUGreaterThan
  | 173 => Ok count_core_OpSGreaterThan
  | 174 => Ok count_core_OpUGreaterThanEqual
  | 175 => Ok count_core_OpSGreaterThanEqual
  | 176 => Ok count_core_OpULessThan
  | 177 => Ok count_core_OpSLessThan
  | 178 => Ok count_core_OpULessThanEqual
  | 179 => Ok count_core_OpSLessThanEqual
  | 180 => Ok count_core_OpFOrdEqual
  | 181 => Ok count_core_OpFUnordEqual
  | 182 => Ok count_core_OpFOrdNotEqual
  | 183 => Ok count_core_OpFUnordNotEqual
  | 184 => Ok count_core_OpFOrdLessThan
  | 185 => Ok count_core_OpFUnordLessThan
  | 186 => Ok count_core_OpFOrdGreaterThan
  | 187 => Ok count_core_OpFUnordGreaterThan
  | 188 => Ok count_core_OpFOrdLessThanEqual
  | 189 => Ok count_core_OpFUnordLessThanEqual
  | 190 => Ok count_core_OpFOrdGreaterThanEqual
  | 191 => Ok count_core_OpFUnordGreaterThanEqual
  | 194 => Err (UnimplementedOp "OpShiftRightLogical")
  | 195 => Err (UnimplementedOp "OpShiftRightArithmetic")
  | 196 => Err (UnimplementedOp "OpShiftLeftLogical")
  | 197 => Ok count_core_OpBitwiseOr
  | 198 => Ok count_core_OpBitwiseXor
  | 199 => Ok count_core_OpBitwiseAnd
  | 200 => Err (UnimplementedOp "OpNot")
  | 201 => Err (UnimplementedOp "OpBitFieldInsert")
  | 202 => Err (UnimplementedOp "OpBitFieldSExtract")
  | 203 => Err (UnimplementedOp "OpBitFieldUExtract")
  | 204 => Err (UnimplementedOp "OpBitReverse")
  | 205 => Err (UnimplementedOp "OpBitCount")
  | 207 => Err (UnimplementedOp "OpDPdx")
  | 208 => Err (UnimplementedOp "OpDPdy")
  | 209 => Err (UnimplementedOp "OpFwidth")
  | 210 => Err (UnimplementedOp "OpDPdxFine")
  | 211 => Err (UnimplementedOp "OpDPdyFine")
  | 212 => Err (UnimplementedOp "OpFwidthFine")
  | 213 => Err (UnimplementedOp "OpDPdxCoarse")
  | 214 => Err (UnimplementedOp "OpDPdyCoarse")
  | 215 => Err (UnimplementedOp "OpFwidthCoarse")
  | 218 => Err (UnimplementedOp "OpEmitVertex")
  | 219 => Err (UnimplementedOp "OpEndPrimitive")
  | 220 => Err (UnimplementedOp "OpEmitStreamVertex")
  | 221 => Err (UnimplementedOp "OpEndStreamPrimitive")
  | 224 => Err (UnimplementedOp "OpControlBarrier")
  | 225 => Err (UnimplementedOp "OpMemoryBarrier")
  | 227 => Err (UnimplementedOp "OpAtomicLoad")
  | 228 => Err (UnimplementedOp "OpAtomicStore")
  | 229 => Err (UnimplementedOp "OpAtomicExchange")
  | 230 => Err (UnimplementedOp "OpAtomicCompareExchange")
  | 231 => Err (UnimplementedOp "OpAtomicCompareExchangeWeak")
  | 232 => Err (UnimplementedOp "OpAtomicIIncrement")
  | 233 => Err (UnimplementedOp "OpAtomicIDecrement")
  | 234 => Err (UnimplementedOp "OpAtomicIAdd")
  | 235 => Err (UnimplementedOp "OpAtomicISub")
  | 236 => Err (UnimplementedOp "OpAtomicSMin")
  | 237 => Err (UnimplementedOp "OpAtomicUMin")
  | 238 => Err (UnimplementedOp "OpAtomicSMax")
  | 239 => Err (UnimplementedOp "OpAtomicUMax")
  | 240 => Err (UnimplementedOp "OpAtomicAnd")
  | 241 => Err (UnimplementedOp "OpAtomicOr")
  | 242 => Err (UnimplementedOp "OpAtomicXor")
  | 245 => Ok count_core_OpPhi
  | 246 => Ok count_core_OpLoopMerge
  | 247 => Ok count_core_OpSelectionMerge
  | 248 => Ok count_core_OpLabel
  | 249 => Ok count_core_OpBranch
  | 250 => Ok count_core_OpBranchConditional
  | 251 => Err (UnimplementedOp "OpSwitch")
  | 252 => Err (UnimplementedOp "OpKill")
  | 253 => Ok count_core_OpReturn
  | 254 => Err (UnimplementedOp "OpReturnValue")
  | 255 => Err (UnimplementedOp "OpUnreachable")
  | 256 => Err (UnimplementedOp "OpLifetimeStart")
  | 257 => Err (UnimplementedOp "OpLifetimeStop")
  | 259 => Err (UnimplementedOp "OpGroupAsyncCopy")
  | 260 => Err (UnimplementedOp "OpGroupWaitEvents")
  | 261 => Err (UnimplementedOp "OpGroupAll")
  | 262 => Err (UnimplementedOp "OpGroupAny")
  | 263 => Err (UnimplementedOp "OpGroupBroadcast")
  | 264 => Err (UnimplementedOp "OpGroupIAdd")
  | 265 => Err (UnimplementedOp "OpGroupFAdd")
  | 266 => Err (UnimplementedOp "OpGroupFMin")
  | 267 => Err (UnimplementedOp "OpGroupUMin")
  | 268 => Err (UnimplementedOp "OpGroupSMin")
  | 269 => Err (UnimplementedOp "OpGroupFMax")
  | 270 => Err (UnimplementedOp "OpGroupUMax")
  | 271 => Err (UnimplementedOp "OpGroupSMax")
  | 274 => Err (UnimplementedOp "OpReadPipe")
  | 275 => Err (UnimplementedOp "OpWritePipe")
  | 276 => Err (UnimplementedOp "OpReservedReadPipe")
  | 277 => Err (UnimplementedOp "OpReservedWritePipe")
  | 278 => Err (UnimplementedOp "OpReserveReadPipePackets")
  | 279 => Err (UnimplementedOp "OpReserveWritePipePackets")
  | 280 => Err (UnimplementedOp "OpCommitReadPipe")
  | 281 => Err (UnimplementedOp "OpCommitWritePipe")
  | 282 => Err (UnimplementedOp "OpIsValidReserveId")
  | 283 => Err (UnimplementedOp "OpGetNumPipePackets")
  | 284 => Err (UnimplementedOp "OpGetMaxPipePackets")
  | 285 => Err (UnimplementedOp "OpGroupReserveReadPipePackets")
  | 286 => Err (UnimplementedOp "OpGroupReserveWritePipePackets")
  | 287 => Err (UnimplementedOp "OpGroupCommitReadPipe")
  | 288 => Err (UnimplementedOp "OpGroupCommitWritePipe")
  | 291 => Err (UnimplementedOp "OpEnqueueMarker")
  | 292 => Err (UnimplementedOp "OpEnqueueKernel")
  | 293 => Err (UnimplementedOp "OpGetKernelNDrangeSubGroupCount")
  | 294 => Err (UnimplementedOp "OpGetKernelNDrangeMaxSubGroupSize")
  | 295 => Err (UnimplementedOp "OpGetKernelWorkGroupSize")
  | 296 => Err (UnimplementedOp "OpGetKernelPreferredWorkGroupSizeMultiple")
  | 297 => Err (UnimplementedOp "OpRetainEvent")
  | 298 => Err (UnimplementedOp "OpReleaseEvent")
  | 299 => Err (UnimplementedOp "OpCreateUserEvent")
  | 300 => Err (UnimplementedOp "OpIsValidEvent")
  | 301 => Err (UnimplementedOp "OpSetUserEventStatus")
  | 302 => Err (UnimplementedOp "OpCaptureEventProfilingInfo")
  | 303 => Err (UnimplementedOp "OpGetDefaultQueue")
  | 304 => Err (UnimplementedOp "OpBuildNDRange")
  | 305 => Err (UnimplementedOp "OpImageSparseSampleImplicitLod")
  | 306 => Err (UnimplementedOp "OpImageSparseSampleExplicitLod")
  | 307 => Err (UnimplementedOp "OpImageSparseSampleDrefImplicitLod")
  | 308 => Err (UnimplementedOp "OpImageSparseSampleDrefExplicitLod")
  | 309 => Err (UnimplementedOp "OpImageSparseSampleProjImplicitLod")
  | 310 => Err (UnimplementedOp "OpImageSparseSampleProjExplicitLod")
  | 311 => Err (UnimplementedOp "OpImageSparseSampleProjDrefImplicitLod")
  | 312 => Err (UnimplementedOp "OpImageSparseSampleProjDrefExplicitLod")
  | 313 => Err (UnimplementedOp "OpImageSparseFetch")
  | 314 => Err (UnimplementedOp "OpImageSparseGather")
  | 315 => Err (UnimplementedOp "OpImageSparseDrefGather")
  | 316 => Err (UnimplementedOp "OpImageSparseTexelsResident")
  | 317 => Err (UnimplementedOp "OpNoLine")
  | 318 => Err (UnimplementedOp "OpAtomicFlagTestAndSet")
  | 319 => Err (UnimplementedOp "OpAtomicFlagClear")
  | 320 => Err (UnimplementedOp "OpImageSparseRead")
  | _ => Err (UnknownOp id wc)
  end.

End CountCore.
