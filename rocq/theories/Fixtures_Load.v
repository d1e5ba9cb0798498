(** The repository's remaining test: the module that reading src/tests/noop.spv must return, given field by field
    (src/tests/mod.rs:13-108).  Like Fixtures.v this tests the model's fidelity and proves no property. *)
From Verif Require Import Base Types Ops ReadErr ExtSet Reader Glsl450 Fixtures.
Open Scope N_scope.

(* src/tests/mod.rs:16-96 *)
Definition noop_instructions : list (Core Inst) := [
  Core_OpCapability {| OpCapability_capability := Capability_Shader |};
  Core_OpExtInstImport {| OpExtInstImport_result_id := 1; OpExtInstImport_name := "GLSL.std.450"%string |};
  Core_OpMemoryModel {| OpMemoryModel_addressing_model := AddressingModel_Logical; OpMemoryModel_memory_model := MemoryModel_Glsl450 |};
  Core_OpEntryPoint {| OpEntryPoint_execution_model := ExecutionModel_GlCompute; OpEntryPoint_entry_point := 4;
                       OpEntryPoint_name := "main"%string; OpEntryPoint_interface := [] |};
  Core_OpExecutionMode {| OpExecutionMode_entry_point := 4; OpExecutionMode_mode := ExecutionMode_LocalSize 32 32 32 |};
  Core_OpSource {| OpSource_language := SourceLanguage_Glsl; OpSource_version := 430; OpSource_file := None; OpSource_source := None |};
  Core_OpName {| OpName_target := 4; OpName_name := "main"%string |};
  Core_OpDecorate {| OpDecorate_target := 9; OpDecorate_decoration := Decoration_BuiltIn BuiltIn_WorkgroupSize |};
  Core_OpTypeVoid {| OpTypeVoid_result_id := 2 |};
  Core_OpTypeFunction {| OpTypeFunction_result_id := 3; OpTypeFunction_return_type := 2; OpTypeFunction_parameter_types := [] |};
  Core_OpTypeInt {| OpTypeInt_result_id := 6; OpTypeInt_width := 32; OpTypeInt_signedness := Signedness_UnsignedOrNone |};
  Core_OpTypeVector {| OpTypeVector_result_id := 7; OpTypeVector_component_type := 6; OpTypeVector_component_count := 3 |};
  Core_OpConstant {| OpConstant_result_type := 6; OpConstant_result_id := 8; OpConstant_value := [32] |};
  Core_OpConstantComposite {| OpConstantComposite_result_type := 7; OpConstantComposite_result_id := 9;
                              OpConstantComposite_constituents := [8; 8; 8] |};
  Core_OpFunction {| OpFunction_result_type := 2; OpFunction_result_id := 4;
                     OpFunction_function_control := {| FunctionControl_inline := false; FunctionControl_dont_inline := false;
                                                       FunctionControl_pure_function := false; FunctionControl_const_function := false |};
                     OpFunction_function_type := 3 |};
  Core_OpLabel {| OpLabel_result_id := 5 |};
  Core_OpReturn Build_OpReturn;
  Core_OpFunctionEnd Build_OpFunctionEnd ].
(* src/tests/mod.rs:97-105 *)
Definition noop_module : RawModule Inst :=
  {| RawModule_version := {| Version_0 := 1; Version_1 := 0 |};
     RawModule_generator := {| Generator_tool := Tool_KhronosGlslang; Generator_version := 1 |};
     RawModule_bound := 10; RawModule_instructions := noop_instructions |}.
(* src/tests/mod.rs:14, 107 *)
Example load_noop : read noop_spv = Ok noop_module.
Proof. vm_compute. reflexivity. Qed.
