(* GENERATED by tools/gen.py from /repo; do not edit by hand. *)
From Verif Require Import Base Types Ops ReadErr ReadBase ReadOperands ExtSet.
Local Open Scope N_scope.

(** def_op_read! expansions (macro: src/spv/raw/reader.rs:440-479). *)

(* src/spv/raw/reader.rs:484 *)
Definition read_OpNop : Reader OpNop := fun block =>
  Ok (block, Build_OpNop).

(* src/spv/raw/reader.rs:485 *)
Definition read_OpUndef : Reader OpUndef := fun block =>
  let! (block, result_type) := read_OpId block in
  let! (block, result_id) := read_ResultId block in
  Ok (block, {| OpUndef_result_type := result_type; OpUndef_result_id := result_id |}).

(* src/spv/raw/reader.rs:488 *)
Definition read_OpSourceContinued : Reader OpSourceContinued := fun block =>
  let! (block, continued_source) := read_LitString block in
  Ok (block, {| OpSourceContinued_continued_source := continued_source |}).

(* src/spv/raw/reader.rs:489 *)
Definition read_OpSource : Reader OpSource := fun block =>
  let! (block, language) := read_SourceLanguage block in
  let! (block, version) := read_SourceVersion block in
  let! (block, file) := (read_Option read_OpId) block in
  let! (block, source) := (read_Option read_LitString) block in
  Ok (block, {| OpSource_language := language; OpSource_version := version; OpSource_file := file; OpSource_source := source |}).

(* src/spv/raw/reader.rs:490 *)
Definition read_OpSourceExtension : Reader OpSourceExtension := fun block =>
  let! (block, extension) := read_LitString block in
  Ok (block, {| OpSourceExtension_extension := extension |}).

(* src/spv/raw/reader.rs:491 *)
Definition read_OpName : Reader OpName := fun block =>
  let! (block, target) := read_OpId block in
  let! (block, name) := read_LitString block in
  Ok (block, {| OpName_target := target; OpName_name := name |}).

(* src/spv/raw/reader.rs:492 *)
Definition read_OpMemberName : Reader OpMemberName := fun block =>
  let! (block, struct_type) := read_OpId block in
  let! (block, member) := read_MemberIndex block in
  let! (block, name) := read_LitString block in
  Ok (block, {| OpMemberName_struct_type := struct_type; OpMemberName_member := member; OpMemberName_name := name |}).

(* src/spv/raw/reader.rs:493 *)
Definition read_OpString : Reader OpString := fun block =>
  let! (block, result_id) := read_ResultId block in
  let! (block, string) := read_LitString block in
  Ok (block, {| OpString_result_id := result_id; OpString_string := string |}).

(* src/spv/raw/reader.rs:500 *)
Definition read_OpExtension : Reader OpExtension := fun block =>
  let! (block, name) := read_LitString block in
  Ok (block, {| OpExtension_name := name |}).

(* src/spv/raw/reader.rs:551 *)
Definition read_OpMemoryModel : Reader OpMemoryModel := fun block =>
  let! (block, addressing_model) := read_AddressingModel block in
  let! (block, memory_model) := read_MemoryModel block in
  Ok (block, {| OpMemoryModel_addressing_model := addressing_model; OpMemoryModel_memory_model := memory_model |}).

(* src/spv/raw/reader.rs:552 *)
Definition read_OpEntryPoint : Reader OpEntryPoint := fun block =>
  let! (block, execution_model) := read_ExecutionModel block in
  let! (block, entry_point) := read_OpId block in
  let! (block, name) := read_LitString block in
  let! (block, interface) := (read_Vec size_of_OpId read_OpId) block in
  Ok (block, {| OpEntryPoint_execution_model := execution_model; OpEntryPoint_entry_point := entry_point; OpEntryPoint_name := name; OpEntryPoint_interface := interface |}).

(* src/spv/raw/reader.rs:553 *)
Definition read_OpExecutionMode : Reader OpExecutionMode := fun block =>
  let! (block, entry_point) := read_OpId block in
  let! (block, mode) := read_ExecutionMode block in
  Ok (block, {| OpExecutionMode_entry_point := entry_point; OpExecutionMode_mode := mode |}).

(* src/spv/raw/reader.rs:554 *)
Definition read_OpCapability : Reader OpCapability := fun block =>
  let! (block, capability) := read_Capability block in
  Ok (block, {| OpCapability_capability := capability |}).

(* src/spv/raw/reader.rs:557 *)
Definition read_OpTypeVoid : Reader OpTypeVoid := fun block =>
  let! (block, result_id) := read_ResultId block in
  Ok (block, {| OpTypeVoid_result_id := result_id |}).

(* src/spv/raw/reader.rs:558 *)
Definition read_OpTypeBool : Reader OpTypeBool := fun block =>
  let! (block, result_id) := read_ResultId block in
  Ok (block, {| OpTypeBool_result_id := result_id |}).

(* src/spv/raw/reader.rs:559 *)
Definition read_OpTypeInt : Reader OpTypeInt := fun block =>
  let! (block, result_id) := read_ResultId block in
  let! (block, width) := read_u32 block in
  let! (block, signedness) := read_Signedness block in
  Ok (block, {| OpTypeInt_result_id := result_id; OpTypeInt_width := width; OpTypeInt_signedness := signedness |}).

(* src/spv/raw/reader.rs:560 *)
Definition read_OpTypeFloat : Reader OpTypeFloat := fun block =>
  let! (block, result_id) := read_ResultId block in
  let! (block, width) := read_u32 block in
  Ok (block, {| OpTypeFloat_result_id := result_id; OpTypeFloat_width := width |}).

(* src/spv/raw/reader.rs:561 *)
Definition read_OpTypeVector : Reader OpTypeVector := fun block =>
  let! (block, result_id) := read_ResultId block in
  let! (block, component_type) := read_OpId block in
  let! (block, component_count) := read_u32 block in
  Ok (block, {| OpTypeVector_result_id := result_id; OpTypeVector_component_type := component_type; OpTypeVector_component_count := component_count |}).

(* src/spv/raw/reader.rs:562 *)
Definition read_OpTypeMatrix : Reader OpTypeMatrix := fun block =>
  let! (block, result_id) := read_ResultId block in
  let! (block, column_type) := read_OpId block in
  let! (block, column_count) := read_u32 block in
  Ok (block, {| OpTypeMatrix_result_id := result_id; OpTypeMatrix_column_type := column_type; OpTypeMatrix_column_count := column_count |}).

(* src/spv/raw/reader.rs:563-573 *)
Definition read_OpTypeImage : Reader OpTypeImage := fun block =>
  let! (block, result_id) := read_ResultId block in
  let! (block, sampled_type) := read_OpId block in
  let! (block, dim) := read_Dim block in
  let! (block, depth) := read_DepthStatus block in
  let! (block, arrayed) := read_Arrayed block in
  let! (block, ms) := read_MS block in
  let! (block, sampled) := read_SampledStatus block in
  let! (block, format) := read_ImageFormat block in
  let! (block, access_qualifier) := (read_Option read_AccessQualifier) block in
  Ok (block, {| OpTypeImage_result_id := result_id; OpTypeImage_sampled_type := sampled_type; OpTypeImage_dim := dim; OpTypeImage_depth := depth; OpTypeImage_arrayed := arrayed; OpTypeImage_ms := ms; OpTypeImage_sampled := sampled; OpTypeImage_format := format; OpTypeImage_access_qualifier := access_qualifier |}).

(* src/spv/raw/reader.rs:574 *)
Definition read_OpTypeSampler : Reader OpTypeSampler := fun block =>
  let! (block, result_id) := read_ResultId block in
  Ok (block, {| OpTypeSampler_result_id := result_id |}).

(* src/spv/raw/reader.rs:575 *)
Definition read_OpTypeSampledImage : Reader OpTypeSampledImage := fun block =>
  let! (block, result_id) := read_ResultId block in
  let! (block, image_type) := read_OpId block in
  Ok (block, {| OpTypeSampledImage_result_id := result_id; OpTypeSampledImage_image_type := image_type |}).

(* src/spv/raw/reader.rs:576 *)
Definition read_OpTypeArray : Reader OpTypeArray := fun block =>
  let! (block, result_id) := read_ResultId block in
  let! (block, element_type) := read_OpId block in
  let! (block, length) := read_OpId block in
  Ok (block, {| OpTypeArray_result_id := result_id; OpTypeArray_element_type := element_type; OpTypeArray_length := length |}).

(* src/spv/raw/reader.rs:577 *)
Definition read_OpTypeRuntimeArray : Reader OpTypeRuntimeArray := fun block =>
  let! (block, result_id) := read_ResultId block in
  let! (block, element_type) := read_OpId block in
  Ok (block, {| OpTypeRuntimeArray_result_id := result_id; OpTypeRuntimeArray_element_type := element_type |}).

(* src/spv/raw/reader.rs:578 *)
Definition read_OpTypeStruct : Reader OpTypeStruct := fun block =>
  let! (block, result_id) := read_ResultId block in
  let! (block, member_types) := (read_Vec size_of_OpId read_OpId) block in
  Ok (block, {| OpTypeStruct_result_id := result_id; OpTypeStruct_member_types := member_types |}).

(* src/spv/raw/reader.rs:579 *)
Definition read_OpTypeOpaque : Reader OpTypeOpaque := fun block =>
  let! (block, result_id) := read_ResultId block in
  let! (block, name) := read_LitString block in
  Ok (block, {| OpTypeOpaque_result_id := result_id; OpTypeOpaque_name := name |}).

(* src/spv/raw/reader.rs:580 *)
Definition read_OpTypePointer : Reader OpTypePointer := fun block =>
  let! (block, result_id) := read_ResultId block in
  let! (block, storage_class) := read_StorageClass block in
  let! (block, pointed_type) := read_OpId block in
  Ok (block, {| OpTypePointer_result_id := result_id; OpTypePointer_storage_class := storage_class; OpTypePointer_pointed_type := pointed_type |}).

(* src/spv/raw/reader.rs:581 *)
Definition read_OpTypeFunction : Reader OpTypeFunction := fun block =>
  let! (block, result_id) := read_ResultId block in
  let! (block, return_type) := read_OpId block in
  let! (block, parameter_types) := (read_Vec size_of_OpId read_OpId) block in
  Ok (block, {| OpTypeFunction_result_id := result_id; OpTypeFunction_return_type := return_type; OpTypeFunction_parameter_types := parameter_types |}).

(* src/spv/raw/reader.rs:584 *)
Definition read_OpConstant : Reader OpConstant := fun block =>
  let! (block, result_type) := read_OpId block in
  let! (block, result_id) := read_ResultId block in
  let! (block, value) := (read_Vec size_of_u32 read_u32) block in
  Ok (block, {| OpConstant_result_type := result_type; OpConstant_result_id := result_id; OpConstant_value := value |}).

(* src/spv/raw/reader.rs:585 *)
Definition read_OpConstantComposite : Reader OpConstantComposite := fun block =>
  let! (block, result_type) := read_OpId block in
  let! (block, result_id) := read_ResultId block in
  let! (block, constituents) := (read_Vec size_of_OpId read_OpId) block in
  Ok (block, {| OpConstantComposite_result_type := result_type; OpConstantComposite_result_id := result_id; OpConstantComposite_constituents := constituents |}).

(* src/spv/raw/reader.rs:588 *)
Definition read_OpFunction : Reader OpFunction := fun block =>
  let! (block, result_type) := read_OpId block in
  let! (block, result_id) := read_ResultId block in
  let! (block, function_control) := read_FunctionControl block in
  let! (block, function_type) := read_OpId block in
  Ok (block, {| OpFunction_result_type := result_type; OpFunction_result_id := result_id; OpFunction_function_control := function_control; OpFunction_function_type := function_type |}).

(* src/spv/raw/reader.rs:589 *)
Definition read_OpFunctionParameter : Reader OpFunctionParameter := fun block =>
  let! (block, result_type) := read_OpId block in
  let! (block, result_id) := read_ResultId block in
  Ok (block, {| OpFunctionParameter_result_type := result_type; OpFunctionParameter_result_id := result_id |}).

(* src/spv/raw/reader.rs:590 *)
Definition read_OpFunctionEnd : Reader OpFunctionEnd := fun block =>
  Ok (block, Build_OpFunctionEnd).

(* src/spv/raw/reader.rs:593 *)
Definition read_OpVariable : Reader OpVariable := fun block =>
  let! (block, result_type) := read_OpId block in
  let! (block, result_id) := read_ResultId block in
  let! (block, storage_class) := read_StorageClass block in
  let! (block, initializer) := (read_Option read_OpId) block in
  Ok (block, {| OpVariable_result_type := result_type; OpVariable_result_id := result_id; OpVariable_storage_class := storage_class; OpVariable_initializer := initializer |}).

(* src/spv/raw/reader.rs:595 *)
Definition read_OpLoad : Reader OpLoad := fun block =>
  let! (block, result_type) := read_OpId block in
  let! (block, result_id) := read_ResultId block in
  let! (block, pointer) := read_OpId block in
  let! (block, memory_access) := (read_Option read_MemoryAccess) block in
  Ok (block, {| OpLoad_result_type := result_type; OpLoad_result_id := result_id; OpLoad_pointer := pointer; OpLoad_memory_access := memory_access |}).

(* src/spv/raw/reader.rs:596 *)
Definition read_OpStore : Reader OpStore := fun block =>
  let! (block, pointer) := read_OpId block in
  let! (block, object) := read_OpId block in
  let! (block, memory_access) := (read_Option read_MemoryAccess) block in
  Ok (block, {| OpStore_pointer := pointer; OpStore_object := object; OpStore_memory_access := memory_access |}).

(* src/spv/raw/reader.rs:598 *)
Definition read_OpAccessChain : Reader OpAccessChain := fun block =>
  let! (block, result_type) := read_OpId block in
  let! (block, result_id) := read_ResultId block in
  let! (block, base) := read_OpId block in
  let! (block, indexes) := (read_Vec size_of_OpId read_OpId) block in
  Ok (block, {| OpAccessChain_result_type := result_type; OpAccessChain_result_id := result_id; OpAccessChain_base := base; OpAccessChain_indexes := indexes |}).

(* src/spv/raw/reader.rs:496 *)
Definition read_OpDecorate : Reader OpDecorate := fun block =>
  let! (block, target) := read_OpId block in
  let! (block, decoration) := read_Decoration block in
  Ok (block, {| OpDecorate_target := target; OpDecorate_decoration := decoration |}).

(* src/spv/raw/reader.rs:497 *)
Definition read_OpMemberDecorate : Reader OpMemberDecorate := fun block =>
  let! (block, structure_type) := read_OpId block in
  let! (block, member) := read_MemberIndex block in
  let! (block, decoration) := read_Decoration block in
  Ok (block, {| OpMemberDecorate_structure_type := structure_type; OpMemberDecorate_member := member; OpMemberDecorate_decoration := decoration |}).

(* src/spv/raw/reader.rs:601 *)
Definition read_OpConvertUToF : Reader OpConvertUToF := fun block =>
  let! (block, result_type) := read_OpId block in
  let! (block, result_id) := read_ResultId block in
  let! (block, unsigned_value) := read_OpId block in
  Ok (block, {| OpConvertUToF_result_type := result_type; OpConvertUToF_result_id := result_id; OpConvertUToF_unsigned_value := unsigned_value |}).

(* src/spv/raw/reader.rs:603 *)
Definition read_OpBitcast : Reader OpBitcast := fun block =>
  let! (block, result_type) := read_OpId block in
  let! (block, result_id) := read_ResultId block in
  let! (block, operand) := read_OpId block in
  Ok (block, {| OpBitcast_result_type := result_type; OpBitcast_result_id := result_id; OpBitcast_operand := operand |}).

(* src/spv/raw/reader.rs:606 *)
Definition read_OpIAdd : Reader OpIAdd := fun block =>
  let! (block, result_type) := read_OpId block in
  let! (block, result_id) := read_ResultId block in
  let! (block, operand1) := read_OpId block in
  let! (block, operand2) := read_OpId block in
  Ok (block, {| OpIAdd_result_type := result_type; OpIAdd_result_id := result_id; OpIAdd_operand1 := operand1; OpIAdd_operand2 := operand2 |}).

(* src/spv/raw/reader.rs:607 *)
Definition read_OpFAdd : Reader OpFAdd := fun block =>
  let! (block, result_type) := read_OpId block in
  let! (block, result_id) := read_ResultId block in
  let! (block, operand1) := read_OpId block in
  let! (block, operand2) := read_OpId block in
  Ok (block, {| OpFAdd_result_type := result_type; OpFAdd_result_id := result_id; OpFAdd_operand1 := operand1; OpFAdd_operand2 := operand2 |}).

(* src/spv/raw/reader.rs:608 *)
Definition read_OpISub : Reader OpISub := fun block =>
  let! (block, result_type) := read_OpId block in
  let! (block, result_id) := read_ResultId block in
  let! (block, operand1) := read_OpId block in
  let! (block, operand2) := read_OpId block in
  Ok (block, {| OpISub_result_type := result_type; OpISub_result_id := result_id; OpISub_operand1 := operand1; OpISub_operand2 := operand2 |}).

(* src/spv/raw/reader.rs:609 *)
Definition read_OpFSub : Reader OpFSub := fun block =>
  let! (block, result_type) := read_OpId block in
  let! (block, result_id) := read_ResultId block in
  let! (block, operand1) := read_OpId block in
  let! (block, operand2) := read_OpId block in
  Ok (block, {| OpFSub_result_type := result_type; OpFSub_result_id := result_id; OpFSub_operand1 := operand1; OpFSub_operand2 := operand2 |}).

(* src/spv/raw/reader.rs:610 *)
Definition read_OpIMul : Reader OpIMul := fun block =>
  let! (block, result_type) := read_OpId block in
  let! (block, result_id) := read_ResultId block in
  let! (block, operand1) := read_OpId block in
  let! (block, operand2) := read_OpId block in
  Ok (block, {| OpIMul_result_type := result_type; OpIMul_result_id := result_id; OpIMul_operand1 := operand1; OpIMul_operand2 := operand2 |}).

(* src/spv/raw/reader.rs:611 *)
Definition read_OpFMul : Reader OpFMul := fun block =>
  let! (block, result_type) := read_OpId block in
  let! (block, result_id) := read_ResultId block in
  let! (block, operand1) := read_OpId block in
  let! (block, operand2) := read_OpId block in
  Ok (block, {| OpFMul_result_type := result_type; OpFMul_result_id := result_id; OpFMul_operand1 := operand1; OpFMul_operand2 := operand2 |}).

(* src/spv/raw/reader.rs:612 *)
Definition read_OpUDiv : Reader OpUDiv := fun block =>
  let! (block, result_type) := read_OpId block in
  let! (block, result_id) := read_ResultId block in
  let! (block, operand1) := read_OpId block in
  let! (block, operand2) := read_OpId block in
  Ok (block, {| OpUDiv_result_type := result_type; OpUDiv_result_id := result_id; OpUDiv_operand1 := operand1; OpUDiv_operand2 := operand2 |}).

(* src/spv/raw/reader.rs:613 *)
Definition read_OpSDiv : Reader OpSDiv := fun block =>
  let! (block, result_type) := read_OpId block in
  let! (block, result_id) := read_ResultId block in
  let! (block, operand1) := read_OpId block in
  let! (block, operand2) := read_OpId block in
  Ok (block, {| OpSDiv_result_type := result_type; OpSDiv_result_id := result_id; OpSDiv_operand1 := operand1; OpSDiv_operand2 := operand2 |}).

(* src/spv/raw/reader.rs:614 *)
Definition read_OpFDiv : Reader OpFDiv := fun block =>
  let! (block, result_type) := read_OpId block in
  let! (block, result_id) := read_ResultId block in
  let! (block, operand1) := read_OpId block in
  let! (block, operand2) := read_OpId block in
  Ok (block, {| OpFDiv_result_type := result_type; OpFDiv_result_id := result_id; OpFDiv_operand1 := operand1; OpFDiv_operand2 := operand2 |}).

(* src/spv/raw/reader.rs:615 *)
Definition read_OpUMod : Reader OpUMod := fun block =>
  let! (block, result_type) := read_OpId block in
  let! (block, result_id) := read_ResultId block in
  let! (block, operand1) := read_OpId block in
  let! (block, operand2) := read_OpId block in
  Ok (block, {| OpUMod_result_type := result_type; OpUMod_result_id := result_id; OpUMod_operand1 := operand1; OpUMod_operand2 := operand2 |}).

(* src/spv/raw/reader.rs:616 *)
Definition read_OpSRem : Reader OpSRem := fun block =>
  let! (block, result_type) := read_OpId block in
  let! (block, result_id) := read_ResultId block in
  let! (block, operand1) := read_OpId block in
  let! (block, operand2) := read_OpId block in
  Ok (block, {| OpSRem_result_type := result_type; OpSRem_result_id := result_id; OpSRem_operand1 := operand1; OpSRem_operand2 := operand2 |}).

(* src/spv/raw/reader.rs:617 *)
Definition read_OpSMod : Reader OpSMod := fun block =>
  let! (block, result_type) := read_OpId block in
  let! (block, result_id) := read_ResultId block in
  let! (block, operand1) := read_OpId block in
  let! (block, operand2) := read_OpId block in
  Ok (block, {| OpSMod_result_type := result_type; OpSMod_result_id := result_id; OpSMod_operand1 := operand1; OpSMod_operand2 := operand2 |}).

(* src/spv/raw/reader.rs:618 *)
Definition read_OpFRem : Reader OpFRem := fun block =>
  let! (block, result_type) := read_OpId block in
  let! (block, result_id) := read_ResultId block in
  let! (block, operand1) := read_OpId block in
  let! (block, operand2) := read_OpId block in
  Ok (block, {| OpFRem_result_type := result_type; OpFRem_result_id := result_id; OpFRem_operand1 := operand1; OpFRem_operand2 := operand2 |}).

(* src/spv/raw/reader.rs:619 *)
Definition read_OpFMod : Reader OpFMod := fun block =>
  let! (block, result_type) := read_OpId block in
  let! (block, result_id) := read_ResultId block in
  let! (block, operand1) := read_OpId block in
  let! (block, operand2) := read_OpId block in
  Ok (block, {| OpFMod_result_type := result_type; OpFMod_result_id := result_id; OpFMod_operand1 := operand1; OpFMod_operand2 := operand2 |}).

(* src/spv/raw/reader.rs:621 *)
Definition read_OpIAddCarry : Reader OpIAddCarry := fun block =>
  let! (block, result_type) := read_OpId block in
  let! (block, result_id) := read_ResultId block in
  let! (block, operand1) := read_OpId block in
  let! (block, operand2) := read_OpId block in
  Ok (block, {| OpIAddCarry_result_type := result_type; OpIAddCarry_result_id := result_id; OpIAddCarry_operand1 := operand1; OpIAddCarry_operand2 := operand2 |}).

(* src/spv/raw/reader.rs:622 *)
Definition read_OpISubBorrow : Reader OpISubBorrow := fun block =>
  let! (block, result_type) := read_OpId block in
  let! (block, result_id) := read_ResultId block in
  let! (block, operand1) := read_OpId block in
  let! (block, operand2) := read_OpId block in
  Ok (block, {| OpISubBorrow_result_type := result_type; OpISubBorrow_result_id := result_id; OpISubBorrow_operand1 := operand1; OpISubBorrow_operand2 := operand2 |}).

(* src/spv/raw/reader.rs:623 *)
Definition read_OpUMulExtended : Reader OpUMulExtended := fun block =>
  let! (block, result_type) := read_OpId block in
  let! (block, result_id) := read_ResultId block in
  let! (block, operand1) := read_OpId block in
  let! (block, operand2) := read_OpId block in
  Ok (block, {| OpUMulExtended_result_type := result_type; OpUMulExtended_result_id := result_id; OpUMulExtended_operand1 := operand1; OpUMulExtended_operand2 := operand2 |}).

(* src/spv/raw/reader.rs:624 *)
Definition read_OpSMulExtended : Reader OpSMulExtended := fun block =>
  let! (block, result_type) := read_OpId block in
  let! (block, result_id) := read_ResultId block in
  let! (block, operand1) := read_OpId block in
  let! (block, operand2) := read_OpId block in
  Ok (block, {| OpSMulExtended_result_type := result_type; OpSMulExtended_result_id := result_id; OpSMulExtended_operand1 := operand1; OpSMulExtended_operand2 := operand2 |}).

(* src/spv/raw/reader.rs:627 *)
Definition read_OpBitwiseOr : Reader OpBitwiseOr := fun block =>
  let! (block, result_type) := read_OpId block in
  let! (block, result_id) := read_ResultId block in
  let! (block, operand1) := read_OpId block in
  let! (block, operand2) := read_OpId block in
  Ok (block, {| OpBitwiseOr_result_type := result_type; OpBitwiseOr_result_id := result_id; OpBitwiseOr_operand1 := operand1; OpBitwiseOr_operand2 := operand2 |}).

(* src/spv/raw/reader.rs:628 *)
Definition read_OpBitwiseXor : Reader OpBitwiseXor := fun block =>
  let! (block, result_type) := read_OpId block in
  let! (block, result_id) := read_ResultId block in
  let! (block, operand1) := read_OpId block in
  let! (block, operand2) := read_OpId block in
  Ok (block, {| OpBitwiseXor_result_type := result_type; OpBitwiseXor_result_id := result_id; OpBitwiseXor_operand1 := operand1; OpBitwiseXor_operand2 := operand2 |}).

(* src/spv/raw/reader.rs:629 *)
Definition read_OpBitwiseAnd : Reader OpBitwiseAnd := fun block =>
  let! (block, result_type) := read_OpId block in
  let! (block, result_id) := read_ResultId block in
  let! (block, operand1) := read_OpId block in
  let! (block, operand2) := read_OpId block in
  Ok (block, {| OpBitwiseAnd_result_type := result_type; OpBitwiseAnd_result_id := result_id; OpBitwiseAnd_operand1 := operand1; OpBitwiseAnd_operand2 := operand2 |}).

(* src/spv/raw/reader.rs:632 *)
Definition read_OpIEqual : Reader OpIEqual := fun block =>
  let! (block, result_type) := read_OpId block in
  let! (block, result_id) := read_ResultId block in
  let! (block, operand1) := read_OpId block in
  let! (block, operand2) := read_OpId block in
  Ok (block, {| OpIEqual_result_type := result_type; OpIEqual_result_id := result_id; OpIEqual_operand1 := operand1; OpIEqual_operand2 := operand2 |}).

(* src/spv/raw/reader.rs:633 *)
Definition read_OpINotEqual : Reader OpINotEqual := fun block =>
  let! (block, result_type) := read_OpId block in
  let! (block, result_id) := read_ResultId block in
  let! (block, operand1) := read_OpId block in
  let! (block, operand2) := read_OpId block in
  Ok (block, {| OpINotEqual_result_type := result_type; OpINotEqual_result_id := result_id; OpINotEqual_operand1 := operand1; OpINotEqual_operand2 := operand2 |}).

(* src/spv/raw/reader.rs:634 *)
Definition read_OpUGreaterThan : Reader OpUGreaterThan := fun block =>
  let! (block, result_type) := read_OpId block in
  let! (block, result_id) := read_ResultId block in
  let! (block, operand1) := read_OpId block in
  let! (block, operand2) := read_OpId block in
  Ok (block, {| OpUGreaterThan_result_type := result_type; OpUGreaterThan_result_id := result_id; OpUGreaterThan_operand1 := operand1; OpUGreaterThan_operand2 := operand2 |}).

(* src/spv/raw/reader.rs:635 *)
Definition read_OpSGreaterThan : Reader OpSGreaterThan := fun block =>
  let! (block, result_type) := read_OpId block in
  let! (block, result_id) := read_ResultId block in
  let! (block, operand1) := read_OpId block in
  let! (block, operand2) := read_OpId block in
  Ok (block, {| OpSGreaterThan_result_type := result_type; OpSGreaterThan_result_id := result_id; OpSGreaterThan_operand1 := operand1; OpSGreaterThan_operand2 := operand2 |}).

(* src/spv/raw/reader.rs:636 *)
Definition read_OpUGreaterThanEqual : Reader OpUGreaterThanEqual := fun block =>
  let! (block, result_type) := read_OpId block in
  let! (block, result_id) := read_ResultId block in
  let! (block, operand1) := read_OpId block in
  let! (block, operand2) := read_OpId block in
  Ok (block, {| OpUGreaterThanEqual_result_type := result_type; OpUGreaterThanEqual_result_id := result_id; OpUGreaterThanEqual_operand1 := operand1; OpUGreaterThanEqual_operand2 := operand2 |}).

(* src/spv/raw/reader.rs:637 *)
Definition read_OpSGreaterThanEqual : Reader OpSGreaterThanEqual := fun block =>
  let! (block, result_type) := read_OpId block in
  let! (block, result_id) := read_ResultId block in
  let! (block, operand1) := read_OpId block in
  let! (block, operand2) := read_OpId block in
  Ok (block, {| OpSGreaterThanEqual_result_type := result_type; OpSGreaterThanEqual_result_id := result_id; OpSGreaterThanEqual_operand1 := operand1; OpSGreaterThanEqual_operand2 := operand2 |}).

(* src/spv/raw/reader.rs:638 *)
Definition read_OpULessThan : Reader OpULessThan := fun block =>
  let! (block, result_type) := read_OpId block in
  let! (block, result_id) := read_ResultId block in
  let! (block, operand1) := read_OpId block in
  let! (block, operand2) := read_OpId block in
  Ok (block, {| OpULessThan_result_type := result_type; OpULessThan_result_id := result_id; OpULessThan_operand1 := operand1; OpULessThan_operand2 := operand2 |}).

(* src/spv/raw/reader.rs:639 *)
Definition read_OpSLessThan : Reader OpSLessThan := fun block =>
  let! (block, result_type) := read_OpId block in
  let! (block, result_id) := read_ResultId block in
  let! (block, operand1) := read_OpId block in
  let! (block, operand2) := read_OpId block in
  Ok (block, {| OpSLessThan_result_type := result_type; OpSLessThan_result_id := result_id; OpSLessThan_operand1 := operand1; OpSLessThan_operand2 := operand2 |}).

(* src/spv/raw/reader.rs:640 *)
Definition read_OpULessThanEqual : Reader OpULessThanEqual := fun block =>
  let! (block, result_type) := read_OpId block in
  let! (block, result_id) := read_ResultId block in
  let! (block, operand1) := read_OpId block in
  let! (block, operand2) := read_OpId block in
  Ok (block, {| OpULessThanEqual_result_type := result_type; OpULessThanEqual_result_id := result_id; OpULessThanEqual_operand1 := operand1; OpULessThanEqual_operand2 := operand2 |}).

(* src/spv/raw/reader.rs:641 *)
Definition read_OpSLessThanEqual : Reader OpSLessThanEqual := fun block =>
  let! (block, result_type) := read_OpId block in
  let! (block, result_id) := read_ResultId block in
  let! (block, operand1) := read_OpId block in
  let! (block, operand2) := read_OpId block in
  Ok (block, {| OpSLessThanEqual_result_type := result_type; OpSLessThanEqual_result_id := result_id; OpSLessThanEqual_operand1 := operand1; OpSLessThanEqual_operand2 := operand2 |}).

(* src/spv/raw/reader.rs:642 *)
Definition read_OpFOrdEqual : Reader OpFOrdEqual := fun block =>
  let! (block, result_type) := read_OpId block in
  let! (block, result_id) := read_ResultId block in
  let! (block, operand1) := read_OpId block in
  let! (block, operand2) := read_OpId block in
  Ok (block, {| OpFOrdEqual_result_type := result_type; OpFOrdEqual_result_id := result_id; OpFOrdEqual_operand1 := operand1; OpFOrdEqual_operand2 := operand2 |}).

(* src/spv/raw/reader.rs:643 *)
Definition read_OpFUnordEqual : Reader OpFUnordEqual := fun block =>
  let! (block, result_type) := read_OpId block in
  let! (block, result_id) := read_ResultId block in
  let! (block, operand1) := read_OpId block in
  let! (block, operand2) := read_OpId block in
  Ok (block, {| OpFUnordEqual_result_type := result_type; OpFUnordEqual_result_id := result_id; OpFUnordEqual_operand1 := operand1; OpFUnordEqual_operand2 := operand2 |}).

(* src/spv/raw/reader.rs:644 *)
Definition read_OpFOrdNotEqual : Reader OpFOrdNotEqual := fun block =>
  let! (block, result_type) := read_OpId block in
  let! (block, result_id) := read_ResultId block in
  let! (block, operand1) := read_OpId block in
  let! (block, operand2) := read_OpId block in
  Ok (block, {| OpFOrdNotEqual_result_type := result_type; OpFOrdNotEqual_result_id := result_id; OpFOrdNotEqual_operand1 := operand1; OpFOrdNotEqual_operand2 := operand2 |}).

(* src/spv/raw/reader.rs:645 *)
Definition read_OpFUnordNotEqual : Reader OpFUnordNotEqual := fun block =>
  let! (block, result_type) := read_OpId block in
  let! (block, result_id) := read_ResultId block in
  let! (block, operand1) := read_OpId block in
  let! (block, operand2) := read_OpId block in
  Ok (block, {| OpFUnordNotEqual_result_type := result_type; OpFUnordNotEqual_result_id := result_id; OpFUnordNotEqual_operand1 := operand1; OpFUnordNotEqual_operand2 := operand2 |}).

(* src/spv/raw/reader.rs:646 *)
Definition read_OpFOrdLessThan : Reader OpFOrdLessThan := fun block =>
  let! (block, result_type) := read_OpId block in
  let! (block, result_id) := read_ResultId block in
  let! (block, operand1) := read_OpId block in
  let! (block, operand2) := read_OpId block in
  Ok (block, {| OpFOrdLessThan_result_type := result_type; OpFOrdLessThan_result_id := result_id; OpFOrdLessThan_operand1 := operand1; OpFOrdLessThan_operand2 := operand2 |}).

(* src/spv/raw/reader.rs:647 *)
Definition read_OpFUnordLessThan : Reader OpFUnordLessThan := fun block =>
  let! (block, result_type) := read_OpId block in
  let! (block, result_id) := read_ResultId block in
  let! (block, operand1) := read_OpId block in
  let! (block, operand2) := read_OpId block in
  Ok (block, {| OpFUnordLessThan_result_type := result_type; OpFUnordLessThan_result_id := result_id; OpFUnordLessThan_operand1 := operand1; OpFUnordLessThan_operand2 := operand2 |}).

(* src/spv/raw/reader.rs:648 *)
Definition read_OpFOrdGreaterThan : Reader OpFOrdGreaterThan := fun block =>
  let! (block, result_type) := read_OpId block in
  let! (block, result_id) := read_ResultId block in
  let! (block, operand1) := read_OpId block in
  let! (block, operand2) := read_OpId block in
  Ok (block, {| OpFOrdGreaterThan_result_type := result_type; OpFOrdGreaterThan_result_id := result_id; OpFOrdGreaterThan_operand1 := operand1; OpFOrdGreaterThan_operand2 := operand2 |}).

(* src/spv/raw/reader.rs:649 *)
Definition read_OpFUnordGreaterThan : Reader OpFUnordGreaterThan := fun block =>
  let! (block, result_type) := read_OpId block in
  let! (block, result_id) := read_ResultId block in
  let! (block, operand1) := read_OpId block in
  let! (block, operand2) := read_OpId block in
  Ok (block, {| OpFUnordGreaterThan_result_type := result_type; OpFUnordGreaterThan_result_id := result_id; OpFUnordGreaterThan_operand1 := operand1; OpFUnordGreaterThan_operand2 := operand2 |}).

(* src/spv/raw/reader.rs:650 *)
Definition read_OpFOrdLessThanEqual : Reader OpFOrdLessThanEqual := fun block =>
  let! (block, result_type) := read_OpId block in
  let! (block, result_id) := read_ResultId block in
  let! (block, operand1) := read_OpId block in
  let! (block, operand2) := read_OpId block in
  Ok (block, {| OpFOrdLessThanEqual_result_type := result_type; OpFOrdLessThanEqual_result_id := result_id; OpFOrdLessThanEqual_operand1 := operand1; OpFOrdLessThanEqual_operand2 := operand2 |}).

(* src/spv/raw/reader.rs:651 *)
Definition read_OpFUnordLessThanEqual : Reader OpFUnordLessThanEqual := fun block =>
  let! (block, result_type) := read_OpId block in
  let! (block, result_id) := read_ResultId block in
  let! (block, operand1) := read_OpId block in
  let! (block, operand2) := read_OpId block in
  Ok (block, {| OpFUnordLessThanEqual_result_type := result_type; OpFUnordLessThanEqual_result_id := result_id; OpFUnordLessThanEqual_operand1 := operand1; OpFUnordLessThanEqual_operand2 := operand2 |}).

(* src/spv/raw/reader.rs:652 *)
Definition read_OpFOrdGreaterThanEqual : Reader OpFOrdGreaterThanEqual := fun block =>
  let! (block, result_type) := read_OpId block in
  let! (block, result_id) := read_ResultId block in
  let! (block, operand1) := read_OpId block in
  let! (block, operand2) := read_OpId block in
  Ok (block, {| OpFOrdGreaterThanEqual_result_type := result_type; OpFOrdGreaterThanEqual_result_id := result_id; OpFOrdGreaterThanEqual_operand1 := operand1; OpFOrdGreaterThanEqual_operand2 := operand2 |}).

(* src/spv/raw/reader.rs:653 *)
Definition read_OpFUnordGreaterThanEqual : Reader OpFUnordGreaterThanEqual := fun block =>
  let! (block, result_type) := read_OpId block in
  let! (block, result_id) := read_ResultId block in
  let! (block, operand1) := read_OpId block in
  let! (block, operand2) := read_OpId block in
  Ok (block, {| OpFUnordGreaterThanEqual_result_type := result_type; OpFUnordGreaterThanEqual_result_id := result_id; OpFUnordGreaterThanEqual_operand1 := operand1; OpFUnordGreaterThanEqual_operand2 := operand2 |}).

(* src/spv/raw/reader.rs:656 *)
Definition read_OpPhi : Reader OpPhi := fun block =>
  let! (block, result_type) := read_OpId block in
  let! (block, result_id) := read_ResultId block in
  let! (block, variables) := (read_Vec size_of_PhiArg read_PhiArg) block in
  Ok (block, {| OpPhi_result_type := result_type; OpPhi_result_id := result_id; OpPhi_variables := variables |}).

(* src/spv/raw/reader.rs:657 *)
Definition read_OpLoopMerge : Reader OpLoopMerge := fun block =>
  let! (block, merge_block) := read_OpId block in
  let! (block, continue_target) := read_OpId block in
  let! (block, loop_control) := read_LoopControl block in
  Ok (block, {| OpLoopMerge_merge_block := merge_block; OpLoopMerge_continue_target := continue_target; OpLoopMerge_loop_control := loop_control |}).

(* src/spv/raw/reader.rs:658 *)
Definition read_OpSelectionMerge : Reader OpSelectionMerge := fun block =>
  let! (block, merge_block) := read_OpId block in
  let! (block, selection_control) := read_SelectionControl block in
  Ok (block, {| OpSelectionMerge_merge_block := merge_block; OpSelectionMerge_selection_control := selection_control |}).

(* src/spv/raw/reader.rs:659 *)
Definition read_OpLabel : Reader OpLabel := fun block =>
  let! (block, result_id) := read_ResultId block in
  Ok (block, {| OpLabel_result_id := result_id |}).

(* src/spv/raw/reader.rs:660 *)
Definition read_OpBranch : Reader OpBranch := fun block =>
  let! (block, target_label) := read_OpId block in
  Ok (block, {| OpBranch_target_label := target_label |}).

(* src/spv/raw/reader.rs:661 *)
Definition read_OpBranchConditional : Reader OpBranchConditional := fun block =>
  let! (block, condition) := read_OpId block in
  let! (block, true_label) := read_OpId block in
  let! (block, false_label) := read_OpId block in
  let! (block, weights) := (read_Option read_BranchWeights) block in
  Ok (block, {| OpBranchConditional_condition := condition; OpBranchConditional_true_label := true_label; OpBranchConditional_false_label := false_label; OpBranchConditional_weights := weights |}).

(* src/spv/raw/reader.rs:663 *)
Definition read_OpReturn : Reader OpReturn := fun block =>
  Ok (block, Build_OpReturn).

Section ReadCore.
Context {E : Type}.

(* The result of CoreRead::read_core (src/spv/raw/reader.rs:433-438): remaining block, instruction
   and the updated bound_inst_sets (&mut HashMap). *)
Definition CoreReader := list N -> list (ExtInstSet E) -> bound_sets E ->
  outcome ReadError (list N * Core E * bound_sets E).

(* impl CoreRead in def_op_read!, src/spv/raw/reader.rs:457-465: the sets are ignored *)
Definition plain {A} (read : Reader A) (wrap : A -> Core E) : CoreReader := fun block _ bound =>
  let! (block, item) := read block in Ok (block, wrap item, bound).

(* src/spv/raw/reader.rs:484 *)
Definition read_core_OpNop : CoreReader := plain read_OpNop Core_OpNop.
(* src/spv/raw/reader.rs:485 *)
Definition read_core_OpUndef : CoreReader := plain read_OpUndef Core_OpUndef.
(* src/spv/raw/reader.rs:488 *)
Definition read_core_OpSourceContinued : CoreReader := plain read_OpSourceContinued Core_OpSourceContinued.
(* src/spv/raw/reader.rs:489 *)
Definition read_core_OpSource : CoreReader := plain read_OpSource Core_OpSource.
(* src/spv/raw/reader.rs:490 *)
Definition read_core_OpSourceExtension : CoreReader := plain read_OpSourceExtension Core_OpSourceExtension.
(* src/spv/raw/reader.rs:491 *)
Definition read_core_OpName : CoreReader := plain read_OpName Core_OpName.
(* src/spv/raw/reader.rs:492 *)
Definition read_core_OpMemberName : CoreReader := plain read_OpMemberName Core_OpMemberName.
(* src/spv/raw/reader.rs:493 *)
Definition read_core_OpString : CoreReader := plain read_OpString Core_OpString.
(* src/spv/raw/reader.rs:500 *)
Definition read_core_OpExtension : CoreReader := plain read_OpExtension Core_OpExtension.
(* src/spv/raw/reader.rs:551 *)
Definition read_core_OpMemoryModel : CoreReader := plain read_OpMemoryModel Core_OpMemoryModel.
(* src/spv/raw/reader.rs:552 *)
Definition read_core_OpEntryPoint : CoreReader := plain read_OpEntryPoint Core_OpEntryPoint.
(* src/spv/raw/reader.rs:553 *)
Definition read_core_OpExecutionMode : CoreReader := plain read_OpExecutionMode Core_OpExecutionMode.
(* src/spv/raw/reader.rs:554 *)
Definition read_core_OpCapability : CoreReader := plain read_OpCapability Core_OpCapability.
(* src/spv/raw/reader.rs:557 *)
Definition read_core_OpTypeVoid : CoreReader := plain read_OpTypeVoid Core_OpTypeVoid.
(* src/spv/raw/reader.rs:558 *)
Definition read_core_OpTypeBool : CoreReader := plain read_OpTypeBool Core_OpTypeBool.
(* src/spv/raw/reader.rs:559 *)
Definition read_core_OpTypeInt : CoreReader := plain read_OpTypeInt Core_OpTypeInt.
(* src/spv/raw/reader.rs:560 *)
Definition read_core_OpTypeFloat : CoreReader := plain read_OpTypeFloat Core_OpTypeFloat.
(* src/spv/raw/reader.rs:561 *)
Definition read_core_OpTypeVector : CoreReader := plain read_OpTypeVector Core_OpTypeVector.
(* src/spv/raw/reader.rs:562 *)
Definition read_core_OpTypeMatrix : CoreReader := plain read_OpTypeMatrix Core_OpTypeMatrix.
(* src/spv/raw/reader.rs:563-573 *)
Definition read_core_OpTypeImage : CoreReader := plain read_OpTypeImage Core_OpTypeImage.
(* src/spv/raw/reader.rs:574 *)
Definition read_core_OpTypeSampler : CoreReader := plain read_OpTypeSampler Core_OpTypeSampler.
(* src/spv/raw/reader.rs:575 *)
Definition read_core_OpTypeSampledImage : CoreReader := plain read_OpTypeSampledImage Core_OpTypeSampledImage.
(* src/spv/raw/reader.rs:576 *)
Definition read_core_OpTypeArray : CoreReader := plain read_OpTypeArray Core_OpTypeArray.
(* src/spv/raw/reader.rs:577 *)
Definition read_core_OpTypeRuntimeArray : CoreReader := plain read_OpTypeRuntimeArray Core_OpTypeRuntimeArray.
(* src/spv/raw/reader.rs:578 *)
Definition read_core_OpTypeStruct : CoreReader := plain read_OpTypeStruct Core_OpTypeStruct.
(* src/spv/raw/reader.rs:579 *)
Definition read_core_OpTypeOpaque : CoreReader := plain read_OpTypeOpaque Core_OpTypeOpaque.
(* src/spv/raw/reader.rs:580 *)
Definition read_core_OpTypePointer : CoreReader := plain read_OpTypePointer Core_OpTypePointer.
(* src/spv/raw/reader.rs:581 *)
Definition read_core_OpTypeFunction : CoreReader := plain read_OpTypeFunction Core_OpTypeFunction.
(* src/spv/raw/reader.rs:584 *)
Definition read_core_OpConstant : CoreReader := plain read_OpConstant Core_OpConstant.
(* src/spv/raw/reader.rs:585 *)
Definition read_core_OpConstantComposite : CoreReader := plain read_OpConstantComposite Core_OpConstantComposite.
(* src/spv/raw/reader.rs:588 *)
Definition read_core_OpFunction : CoreReader := plain read_OpFunction Core_OpFunction.
(* src/spv/raw/reader.rs:589 *)
Definition read_core_OpFunctionParameter : CoreReader := plain read_OpFunctionParameter Core_OpFunctionParameter.
(* src/spv/raw/reader.rs:590 *)
Definition read_core_OpFunctionEnd : CoreReader := plain read_OpFunctionEnd Core_OpFunctionEnd.
(* src/spv/raw/reader.rs:593 *)
Definition read_core_OpVariable : CoreReader := plain read_OpVariable Core_OpVariable.
(* src/spv/raw/reader.rs:595 *)
Definition read_core_OpLoad : CoreReader := plain read_OpLoad Core_OpLoad.
(* src/spv/raw/reader.rs:596 *)
Definition read_core_OpStore : CoreReader := plain read_OpStore Core_OpStore.
(* src/spv/raw/reader.rs:598 *)
Definition read_core_OpAccessChain : CoreReader := plain read_OpAccessChain Core_OpAccessChain.
(* src/spv/raw/reader.rs:496 *)
Definition read_core_OpDecorate : CoreReader := plain read_OpDecorate Core_OpDecorate.
(* src/spv/raw/reader.rs:497 *)
Definition read_core_OpMemberDecorate : CoreReader := plain read_OpMemberDecorate Core_OpMemberDecorate.
(* src/spv/raw/reader.rs:601 *)
Definition read_core_OpConvertUToF : CoreReader := plain read_OpConvertUToF Core_OpConvertUToF.
(* src/spv/raw/reader.rs:603 *)
Definition read_core_OpBitcast : CoreReader := plain read_OpBitcast Core_OpBitcast.
(* src/spv/raw/reader.rs:606 *)
Definition read_core_OpIAdd : CoreReader := plain read_OpIAdd Core_OpIAdd.
(* src/spv/raw/reader.rs:607 *)
Definition read_core_OpFAdd : CoreReader := plain read_OpFAdd Core_OpFAdd.
(* src/spv/raw/reader.rs:608 *)
Definition read_core_OpISub : CoreReader := plain read_OpISub Core_OpISub.
(* src/spv/raw/reader.rs:609 *)
Definition read_core_OpFSub : CoreReader := plain read_OpFSub Core_OpFSub.
(* src/spv/raw/reader.rs:610 *)
Definition read_core_OpIMul : CoreReader := plain read_OpIMul Core_OpIMul.
(* src/spv/raw/reader.rs:611 *)
Definition read_core_OpFMul : CoreReader := plain read_OpFMul Core_OpFMul.
(* src/spv/raw/reader.rs:612 *)
Definition read_core_OpUDiv : CoreReader := plain read_OpUDiv Core_OpUDiv.
(* src/spv/raw/reader.rs:613 *)
Definition read_core_OpSDiv : CoreReader := plain read_OpSDiv Core_OpSDiv.
(* src/spv/raw/reader.rs:614 *)
Definition read_core_OpFDiv : CoreReader := plain read_OpFDiv Core_OpFDiv.
(* src/spv/raw/reader.rs:615 *)
Definition read_core_OpUMod : CoreReader := plain read_OpUMod Core_OpUMod.
(* src/spv/raw/reader.rs:616 *)
Definition read_core_OpSRem : CoreReader := plain read_OpSRem Core_OpSRem.
(* src/spv/raw/reader.rs:617 *)
Definition read_core_OpSMod : CoreReader := plain read_OpSMod Core_OpSMod.
(* src/spv/raw/reader.rs:618 *)
Definition read_core_OpFRem : CoreReader := plain read_OpFRem Core_OpFRem.
(* src/spv/raw/reader.rs:619 *)
Definition read_core_OpFMod : CoreReader := plain read_OpFMod Core_OpFMod.
(* src/spv/raw/reader.rs:621 *)
Definition read_core_OpIAddCarry : CoreReader := plain read_OpIAddCarry Core_OpIAddCarry.
(* src/spv/raw/reader.rs:622 *)
Definition read_core_OpISubBorrow : CoreReader := plain read_OpISubBorrow Core_OpISubBorrow.
(* src/spv/raw/reader.rs:623 *)
Definition read_core_OpUMulExtended : CoreReader := plain read_OpUMulExtended Core_OpUMulExtended.
(* src/spv/raw/reader.rs:624 *)
Definition read_core_OpSMulExtended : CoreReader := plain read_OpSMulExtended Core_OpSMulExtended.
(* src/spv/raw/reader.rs:627 *)
Definition read_core_OpBitwiseOr : CoreReader := plain read_OpBitwiseOr Core_OpBitwiseOr.
(* src/spv/raw/reader.rs:628 *)
Definition read_core_OpBitwiseXor : CoreReader := plain read_OpBitwiseXor Core_OpBitwiseXor.
(* src/spv/raw/reader.rs:629 *)
Definition read_core_OpBitwiseAnd : CoreReader := plain read_OpBitwiseAnd Core_OpBitwiseAnd.
(* src/spv/raw/reader.rs:632 *)
Definition read_core_OpIEqual : CoreReader := plain read_OpIEqual Core_OpIEqual.
(* src/spv/raw/reader.rs:633 *)
Definition read_core_OpINotEqual : CoreReader := plain read_OpINotEqual Core_OpINotEqual.
(* src/spv/raw/reader.rs:634 *)
Definition read_core_OpUGreaterThan : CoreReader := plain read_OpUGreaterThan Core_OpUGreaterThan.
(* src/spv/raw/reader.rs:635 *)
Definition read_core_OpSGreaterThan : CoreReader := plain read_OpSGreaterThan Core_OpSGreaterThan.
(* src/spv/raw/reader.rs:636 *)
Definition read_core_OpUGreaterThanEqual : CoreReader := plain read_OpUGreaterThanEqual Core_OpUGreaterThanEqual.
(* src/spv/raw/reader.rs:637 *)
Definition read_core_OpSGreaterThanEqual : CoreReader := plain read_OpSGreaterThanEqual Core_OpSGreaterThanEqual.
(* src/spv/raw/reader.rs:638 *)
Definition read_core_OpULessThan : CoreReader := plain read_OpULessThan Core_OpULessThan.
(* src/spv/raw/reader.rs:639 *)
Definition read_core_OpSLessThan : CoreReader := plain read_OpSLessThan Core_OpSLessThan.
(* src/spv/raw/reader.rs:640 *)
Definition read_core_OpULessThanEqual : CoreReader := plain read_OpULessThanEqual Core_OpULessThanEqual.
(* src/spv/raw/reader.rs:641 *)
Definition read_core_OpSLessThanEqual : CoreReader := plain read_OpSLessThanEqual Core_OpSLessThanEqual.
(* src/spv/raw/reader.rs:642 *)
Definition read_core_OpFOrdEqual : CoreReader := plain read_OpFOrdEqual Core_OpFOrdEqual.
(* src/spv/raw/reader.rs:643 *)
Definition read_core_OpFUnordEqual : CoreReader := plain read_OpFUnordEqual Core_OpFUnordEqual.
(* src/spv/raw/reader.rs:644 *)
Definition read_core_OpFOrdNotEqual : CoreReader := plain read_OpFOrdNotEqual Core_OpFOrdNotEqual.
(* src/spv/raw/reader.rs:645 *)
Definition read_core_OpFUnordNotEqual : CoreReader := plain read_OpFUnordNotEqual Core_OpFUnordNotEqual.
(* src/spv/raw/reader.rs:646 *)
Definition read_core_OpFOrdLessThan : CoreReader := plain read_OpFOrdLessThan Core_OpFOrdLessThan.
(* src/spv/raw/reader.rs:647 *)
Definition read_core_OpFUnordLessThan : CoreReader := plain read_OpFUnordLessThan Core_OpFUnordLessThan.
(* src/spv/raw/reader.rs:648 *)
Definition read_core_OpFOrdGreaterThan : CoreReader := plain read_OpFOrdGreaterThan Core_OpFOrdGreaterThan.
(* src/spv/raw/reader.rs:649 *)
Definition read_core_OpFUnordGreaterThan : CoreReader := plain read_OpFUnordGreaterThan Core_OpFUnordGreaterThan.
(* src/spv/raw/reader.rs:650 *)
Definition read_core_OpFOrdLessThanEqual : CoreReader := plain read_OpFOrdLessThanEqual Core_OpFOrdLessThanEqual.
(* src/spv/raw/reader.rs:651 *)
Definition read_core_OpFUnordLessThanEqual : CoreReader := plain read_OpFUnordLessThanEqual Core_OpFUnordLessThanEqual.
(* src/spv/raw/reader.rs:652 *)
Definition read_core_OpFOrdGreaterThanEqual : CoreReader := plain read_OpFOrdGreaterThanEqual Core_OpFOrdGreaterThanEqual.
(* src/spv/raw/reader.rs:653 *)
Definition read_core_OpFUnordGreaterThanEqual : CoreReader := plain read_OpFUnordGreaterThanEqual Core_OpFUnordGreaterThanEqual.
(* src/spv/raw/reader.rs:656 *)
Definition read_core_OpPhi : CoreReader := plain read_OpPhi Core_OpPhi.
(* src/spv/raw/reader.rs:657 *)
Definition read_core_OpLoopMerge : CoreReader := plain read_OpLoopMerge Core_OpLoopMerge.
(* src/spv/raw/reader.rs:658 *)
Definition read_core_OpSelectionMerge : CoreReader := plain read_OpSelectionMerge Core_OpSelectionMerge.
(* src/spv/raw/reader.rs:659 *)
Definition read_core_OpLabel : CoreReader := plain read_OpLabel Core_OpLabel.
(* src/spv/raw/reader.rs:660 *)
Definition read_core_OpBranch : CoreReader := plain read_OpBranch Core_OpBranch.
(* src/spv/raw/reader.rs:661 *)
Definition read_core_OpBranchConditional : CoreReader := plain read_OpBranchConditional Core_OpBranchConditional.
(* src/spv/raw/reader.rs:663 *)
Definition read_core_OpReturn : CoreReader := plain read_OpReturn Core_OpReturn.

(* src/spv/raw/reader.rs:502-524 *)
Fixpoint import_loop (result_id : ResultId) (name : LitString) (block : list N) (bound : bound_sets E)
    (sets : list (ExtInstSet E)) : outcome ReadError (list N * Core E * bound_sets E) :=
  match sets with
  | [] => Err (UnknownInstSet name)
  | inst_set :: rest =>
      if String.eqb (get_name inst_set) name then
        let '(old, bound) := map_insert result_id (duplicate inst_set) bound in
        match old with
        | Some _ => Err (DuplicateResultId result_id)
        | None => Ok (block, Core_OpExtInstImport
            {| OpExtInstImport_result_id := result_id; OpExtInstImport_name := name |}, bound)
        end
      else import_loop result_id name block bound rest
  end.

(* src/spv/raw/reader.rs:502-524 *)
Definition read_core_OpExtInstImport : CoreReader := fun block known bound =>
  let! (block, result_id) := read_ResultId block in
  let! (block, name) := read_LitString block in
  import_loop result_id name block bound known.

(* src/spv/raw/reader.rs:526-549 *)
Definition read_core_OpExtInst : CoreReader := fun block _ bound =>
  let! (block, result_type) := read_OpId block in
  let! (block, result_id) := read_ResultId block in
  let! (block, set_id) := read_OpId block in
  let! (block, inst) := read_u32 block in
  match map_get set_id bound with
  | Some read_instruction =>
      let! (block, extinst) := read_instruction inst block in
      Ok (block, Core_OpExtInst {| OpExtInst_result_type := result_type; OpExtInst_result_id := result_id;
                                   OpExtInst_set := set_id; OpExtInst_instruction := extinst |}, bound)
  | None => Err (UnknownInstSetId set_id)
  end.

(* src/spv/raw/reader.rs:138-425 *)
Definition dispatch (id wc : N) : outcome ReadError CoreReader :=
  match id with
  | 0 => Ok read_core_OpNop
  | 1 => Ok read_core_OpUndef
  | 2 => Ok read_core_OpSourceContinued
  | 3 => Ok read_core_OpSource
  | 4 => Ok read_core_OpSourceExtension
  | 5 => Ok read_core_OpName
  | 6 => Ok read_core_OpMemberName
  | 7 => Ok read_core_OpString
  | 8 => Err (UnimplementedOp "OpLine")
  | 10 => Ok read_core_OpExtension
  | 11 => Ok read_core_OpExtInstImport
  | 12 => Ok read_core_OpExtInst
  | 14 => Ok read_core_OpMemoryModel
  | 15 => Ok read_core_OpEntryPoint
  | 16 => Ok read_core_OpExecutionMode
  | 17 => Ok read_core_OpCapability
  | 19 => Ok read_core_OpTypeVoid
  | 20 => Ok read_core_OpTypeBool
  | 21 => Ok read_core_OpTypeInt
  | 22 => Ok read_core_OpTypeFloat
  | 23 => Ok read_core_OpTypeVector
  | 24 => Ok read_core_OpTypeMatrix
  | 25 => Ok read_core_OpTypeImage
  | 26 => Ok read_core_OpTypeSampler
  | 27 => Ok read_core_OpTypeSampledImage
  | 28 => Ok read_core_OpTypeArray
  | 29 => Ok read_core_OpTypeRuntimeArray
  | 30 => Ok read_core_OpTypeStruct
  | 31 => Ok read_core_OpTypeOpaque
  | 32 => Ok read_core_OpTypePointer
  | 33 => Ok read_core_OpTypeFunction
  | 41 => Err (UnimplementedOp "OpConstantTrue")
  | 42 => Err (UnimplementedOp "OpConstantFalse")
  | 43 => Ok read_core_OpConstant
  | 44 => Ok read_core_OpConstantComposite
  | 45 => Err (UnimplementedOp "OpConstantSampler")
  | 46 => Err (UnimplementedOp "OpConstantNull")
  | 48 => Err (UnimplementedOp "OpSpecConstantTrue")
  | 49 => Err (UnimplementedOp "OpSpecConstantFalse")
  | 50 => Err (UnimplementedOp "OpSpecConstant")
  | 51 => Err (UnimplementedOp "OpSpecConstantComposite")
  | 52 => Err (UnimplementedOp "OpSpecConstantOp")
  | 54 => Ok read_core_OpFunction
  | 55 => Ok read_core_OpFunctionParameter
  | 56 => Ok read_core_OpFunctionEnd
  | 57 => Err (UnimplementedOp "OpFunctionCall")
  | 59 => Ok read_core_OpVariable
  | 60 => Err (UnimplementedOp "OpImageTexelPointer")
  | 61 => Ok read_core_OpLoad
  | 62 => Ok read_core_OpStore
  | 63 => Err (UnimplementedOp "OpCopyMemory")
  | 64 => Err (UnimplementedOp "OpCopyMemorySized")
  | 65 => Ok read_core_OpAccessChain
  | 66 => Err (UnimplementedOp "OpInBoundsAccessChain")
  | 67 => Err (UnimplementedOp "OpPtrAccessChain")
  | 68 => Err (UnimplementedOp "OpArrayLength")
  | 69 => Err (UnimplementedOp "OpGenericPtrMemSemantics")
  | 70 => Err (UnimplementedOp "OpInBoundsPtrAccessChain")
  | 71 => Ok read_core_OpDecorate
  | 72 => Ok read_core_OpMemberDecorate
  | 77 => Err (UnimplementedOp "OpVectorExtractDynamic")
  | 78 => Err (UnimplementedOp "OpVectorInsertDynamic")
  | 79 => Err (UnimplementedOp "OpVectorShuffle")
  | 80 => Err (UnimplementedOp "OpCompositeConstruct")
  | 81 => Err (UnimplementedOp "OpCompositeExtract")
  | 82 => Err (UnimplementedOp "OpCompositeInsert")
  | 83 => Err (UnimplementedOp "OpCopyObject")
  | 84 => Err (UnimplementedOp "OpTranspose")
  | 86 => Err (UnimplementedOp "OpSampledImage")
  | 87 => Err (UnimplementedOp "OpImageSampleImplicitLod")
  | 88 => Err (UnimplementedOp "OpImageSampleExplicitLod")
  | 89 => Err (UnimplementedOp "OpImageSampleDrefImplicitLod")
  | 90 => Err (UnimplementedOp "OpImageSampleDrefExplicitLod")
  | 91 => Err (UnimplementedOp "OpImageSampleProjImplicitLod")
  | 92 => Err (UnimplementedOp "OpImageSampleProjExplicitLod")
  | 93 => Err (UnimplementedOp "OpImageSampleProjDrefImplicitLod")
  | 94 => Err (UnimplementedOp "OpImageSampleProjDrefExplicitLod")
  | 95 => Err (UnimplementedOp "OpImageFetch")
  | 96 => Err (UnimplementedOp "OpImageGather")
  | 97 => Err (UnimplementedOp "OpImageDrefGather")
  | 98 => Err (UnimplementedOp "OpImageRead")
  | 99 => Err (UnimplementedOp "OpImageWrite")
  | 100 => Err (UnimplementedOp "OpImage")
  | 101 => Err (UnimplementedOp "OpImageQueryFormat")
  | 102 => Err (UnimplementedOp "OpImageQueryOrder")
  | 103 => Err (UnimplementedOp "OpImageQuerySizeLod")
  | 104 => Err (UnimplementedOp "OpImageQuerySize")
  | 105 => Err (UnimplementedOp "OpImageQueryLod")
  | 106 => Err (UnimplementedOp "OpImageQueryLevels")
  | 107 => Err (UnimplementedOp "OpImageQuerySamples")
  | 109 => Err (UnimplementedOp "OpConvertFToU")
  | 110 => Err (UnimplementedOp "OpConvertFToS")
  | 111 => Err (UnimplementedOp "OpConvertSToF")
  | 112 => Ok read_core_OpConvertUToF
  | 113 => Err (UnimplementedOp "OpUConvert")
  | 114 => Err (UnimplementedOp "OpSConvert")
  | 115 => Err (UnimplementedOp "OpFConvert")
  | 116 => Err (UnimplementedOp "OpQuantizeToF16")
  | 117 => Err (UnimplementedOp "OpConvertPtrToU")
  | 118 => Err (UnimplementedOp "OpSatConvertSToU")
  | 119 => Err (UnimplementedOp "OpSatConvertUToS")
  | 120 => Err (UnimplementedOp "OpConvertUToPtr")
  | 121 => Err (UnimplementedOp "OpPtrCastToGeneric")
  | 122 => Err (UnimplementedOp "OpGenericCastToPtr")
  | 123 => Err (UnimplementedOp "OpGenericCastToPtrExplicit")
  | 124 => Ok read_core_OpBitcast
  | 126 => Err (UnimplementedOp "OpSNegate")
  | 127 => Err (UnimplementedOp "OpFNegate")
  | 128 => Ok read_core_OpIAdd
  | 129 => Ok read_core_OpFAdd
  | 130 => Ok read_core_OpISub
  | 131 => Ok read_core_OpFSub
  | 132 => Ok read_core_OpIMul
  | 133 => Ok read_core_OpFMul
  | 134 => Ok read_core_OpUDiv
  | 135 => Ok read_core_OpSDiv
  | 136 => Ok read_core_OpFDiv
  | 137 => Ok read_core_OpUMod
  | 138 => Ok read_core_OpSRem
  | 139 => Ok read_core_OpSMod
  | 140 => Ok read_core_OpFRem
  | 141 => Ok read_core_OpFMod
  | 142 => Err (UnimplementedOp "OpVectorTimesScalar")
  | 143 => Err (UnimplementedOp "OpMatrixTimesScalar")
  | 144 => Err (UnimplementedOp "OpVectorTimesMatrix")
  | 145 => Err (UnimplementedOp "OpMatrixTimesVector")
  | 146 => Err (UnimplementedOp "OpMatrixTimesMatrix")
  | 147 => Err (UnimplementedOp "OpOuterProduct")
  | 148 => Err (UnimplementedOp "OpDot")
  | 149 => Ok read_core_OpIAddCarry
  | 150 => Ok read_core_OpISubBorrow
  | 151 => Ok read_core_OpUMulExtended
  | 152 => Ok read_core_OpSMulExtended
  | 154 => Err (UnimplementedOp "OpAny")
  | 155 => Err (UnimplementedOp "OpAll")
  | 156 => Err (UnimplementedOp "OpIsNan")
  | 157 => Err (UnimplementedOp "OpIsInf")
  | 158 => Err (UnimplementedOp "OpIsFinite")
  | 159 => Err (UnimplementedOp "OpIsNormal")
  | 160 => Err (UnimplementedOp "OpSignBitSet")
  | 161 => Err (UnimplementedOp "OpLessOrGreater")
  | 162 => Err (UnimplementedOp "OpOrdered")
  | 163 => Err (UnimplementedOp "OpUnordered")
  | 164 => Err (UnimplementedOp "OpLogicalEqual")
  | 165 => Err (UnimplementedOp "OpLogicalNotEqual")
  | 166 => Err (UnimplementedOp "OpLogicalOr")
  | 167 => Err (UnimplementedOp "OpLogicalAnd")
  | 168 => Err (UnimplementedOp "OpLogicalNot")
  | 169 => Err (UnimplementedOp "OpSelect")
  | 170 => Ok read_core_OpIEqual
  | 171 => Ok read_core_OpINotEqual
  | 172 => Ok read_core_OpUGreaterThan
  | 173 => Ok read_core_OpSGreaterThan
  | 174 => Ok read_core_OpUGreaterThanEqual
  | 175 => Ok read_core_OpSGreaterThanEqual
  | 176 => Ok read_core_OpULessThan
  | 177 => Ok read_core_OpSLessThan
  | 178 => Ok read_core_OpULessThanEqual
  | 179 => Ok read_core_OpSLessThanEqual
  | 180 => Ok read_core_OpFOrdEqual
  | 181 => Ok read_core_OpFUnordEqual
  | 182 => Ok read_core_OpFOrdNotEqual
  | 183 => Ok read_core_OpFUnordNotEqual
  | 184 => Ok read_core_OpFOrdLessThan
  | 185 => Ok read_core_OpFUnordLessThan
  | 186 => Ok read_core_OpFOrdGreaterThan
  | 187 => Ok read_core_OpFUnordGreaterThan
  | 188 => Ok read_core_OpFOrdLessThanEqual
  | 189 => Ok read_core_OpFUnordLessThanEqual
  | 190 => Ok read_core_OpFOrdGreaterThanEqual
  | 191 => Ok read_core_OpFUnordGreaterThanEqual
  | 194 => Err (UnimplementedOp "OpShiftRightLogical")
  | 195 => Err (UnimplementedOp "OpShiftRightArithmetic")
  | 196 => Err (UnimplementedOp "OpShiftLeftLogical")
  | 197 => Ok read_core_OpBitwiseOr
  | 198 => Ok read_core_OpBitwiseXor
  | 199 => Ok read_core_OpBitwiseAnd
  | 200 => Err (UnimplementedOp "OpNot")
  | 201 => Err (UnimplementedOp "OpBitFieldInsert")
  | 202 => Err (UnimplementedOp "OpBitFieldSExtract")
  | 203 => Err (UnimplementedOp "OpBitFieldUExtract")
  | 204 => Err (UnimplementedOp "OpBitReverse")
  | 205 => Err (UnimplementedOp "OpBitCount")
  | 207 => Err (UnimplementedOp "OpDPdx")
  | 208 => Err (UnimplementedOp "OpDPdy")
  | 209 => Err (UnimplementedOp "OpFwidth")
  | 210 => Err (UnimplementedOp "OpDPdxFine")
  | 211 => Err (UnimplementedOp "OpDPdyFine")
  | 212 => Err (UnimplementedOp "OpFwidthFine")
  | 213 => Err (UnimplementedOp "OpDPdxCoarse")
  | 214 => Err (UnimplementedOp "OpDPdyCoarse")
  | 215 => Err (UnimplementedOp "OpFwidthCoarse")
  | 218 => Err (UnimplementedOp "OpEmitVertex")
  | 219 => Err (UnimplementedOp "OpEndPrimitive")
  | 220 => Err (UnimplementedOp "OpEmitStreamVertex")
  | 221 => Err (UnimplementedOp "OpEndStreamPrimitive")
  | 224 => Err (UnimplementedOp "OpControlBarrier")
  | 225 => Err (UnimplementedOp "OpMemoryBarrier")
  | 227 => Err (UnimplementedOp "OpAtomicLoad")
  | 228 => Err (UnimplementedOp "OpAtomicStore")
  | 229 => Err (UnimplementedOp "OpAtomicExchange")
  | 230 => Err (UnimplementedOp "OpAtomicCompareExchange")
  | 231 => Err (UnimplementedOp "OpAtomicCompareExchangeWeak")
  | 232 => Err (UnimplementedOp "OpAtomicIIncrement")
  | 233 => Err (UnimplementedOp "OpAtomicIDecrement")
  | 234 => Err (UnimplementedOp "OpAtomicIAdd")
  | 235 => Err (UnimplementedOp "OpAtomicISub")
  | 236 => Err (UnimplementedOp "OpAtomicSMin")
  | 237 => Err (UnimplementedOp "OpAtomicUMin")
  | 238 => Err (UnimplementedOp "OpAtomicSMax")
  | 239 => Err (UnimplementedOp "OpAtomicUMax")
  | 240 => Err (UnimplementedOp "OpAtomicAnd")
  | 241 => Err (UnimplementedOp "OpAtomicOr")
  | 242 => Err (UnimplementedOp "OpAtomicXor")
  | 245 => Ok read_core_OpPhi
  | 246 => Ok read_core_OpLoopMerge
  | 247 => Ok read_core_OpSelectionMerge
  | 248 => Ok read_core_OpLabel
  | 249 => Ok read_core_OpBranch
  | 250 => Ok read_core_OpBranchConditional
  | 251 => Err (UnimplementedOp "OpSwitch")
  | 252 => Err (UnimplementedOp "OpKill")
  | 253 => Ok read_core_OpReturn
  | 254 => Err (UnimplementedOp "OpReturnValue")
  | 255 => Err (UnimplementedOp "OpUnreachable")
  | 256 => Err (UnimplementedOp "OpLifetimeStart")
  | 257 => Err (UnimplementedOp "OpLifetimeStop")
  | 259 => Err (UnimplementedOp "OpGroupAsyncCopy")
  | 260 => Err (UnimplementedOp "OpGroupWaitEvents")
  | 261 => Err (UnimplementedOp "OpGroupAll")
  | 262 => Err (UnimplementedOp "OpGroupAny")
  | 263 => Err (UnimplementedOp "OpGroupBroadcast")
  | 264 => Err (UnimplementedOp "OpGroupIAdd")
  | 265 => Err (UnimplementedOp "OpGroupFAdd")
  | 266 => Err (UnimplementedOp "OpGroupFMin")
  | 267 => Err (UnimplementedOp "OpGroupUMin")
  | 268 => Err (UnimplementedOp "OpGroupSMin")
  | 269 => Err (UnimplementedOp "OpGroupFMax")
  | 270 => Err (UnimplementedOp "OpGroupUMax")
  | 271 => Err (UnimplementedOp "OpGroupSMax")
  | 274 => Err (UnimplementedOp "OpReadPipe")
  | 275 => Err (UnimplementedOp "OpWritePipe")
  | 276 => Err (UnimplementedOp "OpReservedReadPipe")
  | 277 => Err (UnimplementedOp "OpReservedWritePipe")
  | 278 => Err (UnimplementedOp "OpReserveReadPipePackets")
  | 279 => Err (UnimplementedOp "OpReserveWritePipePackets")
  | 280 => Err (UnimplementedOp "OpCommitReadPipe")
  | 281 => Err (UnimplementedOp "OpCommitWritePipe")
  | 282 => Err (UnimplementedOp "OpIsValidReserveId")
  | 283 => Err (UnimplementedOp "OpGetNumPipePackets")
  | 284 => Err (UnimplementedOp "OpGetMaxPipePackets")
  | 285 => Err (UnimplementedOp "OpGroupReserveReadPipePackets")
  | 286 => Err (UnimplementedOp "OpGroupReserveWritePipePackets")
  | 287 => Err (UnimplementedOp "OpGroupCommitReadPipe")
  | 288 => Err (UnimplementedOp "OpGroupCommitWritePipe")
  | 291 => Err (UnimplementedOp "OpEnqueueMarker")
  | 292 => Err (UnimplementedOp "OpEnqueueKernel")
  | 293 => Err (UnimplementedOp "OpGetKernelNDrangeSubGroupCount")
  | 294 => Err (UnimplementedOp "OpGetKernelNDrangeMaxSubGroupSize")
  | 295 => Err (UnimplementedOp "OpGetKernelWorkGroupSize")
  | 296 => Err (UnimplementedOp "OpGetKernelPreferredWorkGroupSizeMultiple")
  | 297 => Err (UnimplementedOp "OpRetainEvent")
  | 298 => Err (UnimplementedOp "OpReleaseEvent")
  | 299 => Err (UnimplementedOp "OpCreateUserEvent")
  | 300 => Err (UnimplementedOp "OpIsValidEvent")
  | 301 => Err (UnimplementedOp "OpSetUserEventStatus")
  | 302 => Err (UnimplementedOp "OpCaptureEventProfilingInfo")
  | 303 => Err (UnimplementedOp "OpGetDefaultQueue")
  | 304 => Err (UnimplementedOp "OpBuildNDRange")
  | 305 => Err (UnimplementedOp "OpImageSparseSampleImplicitLod")
  | 306 => Err (UnimplementedOp "OpImageSparseSampleExplicitLod")
  | 307 => Err (UnimplementedOp "OpImageSparseSampleDrefImplicitLod")
  | 308 => Err (UnimplementedOp "OpImageSparseSampleDrefExplicitLod")
  | 309 => Err (UnimplementedOp "OpImageSparseSampleProjImplicitLod")
  | 310 => Err (UnimplementedOp "OpImageSparseSampleProjExplicitLod")
  | 311 => Err (UnimplementedOp "OpImageSparseSampleProjDrefImplicitLod")
  | 312 => Err (UnimplementedOp "OpImageSparseSampleProjDrefExplicitLod")
  | 313 => Err (UnimplementedOp "OpImageSparseFetch")
  | 314 => Err (UnimplementedOp "OpImageSparseGather")
  | 315 => Err (UnimplementedOp "OpImageSparseDrefGather")
  | 316 => Err (UnimplementedOp "OpImageSparseTexelsResident")
  | 317 => Err (UnimplementedOp "OpNoLine")
  | 318 => Err (UnimplementedOp "OpAtomicFlagTestAndSet")
  | 319 => Err (UnimplementedOp "OpAtomicFlagClear")
  | 320 => Err (UnimplementedOp "OpImageSparseRead")
  | _ => Err (UnknownOp id wc)
  end.

End ReadCore.
