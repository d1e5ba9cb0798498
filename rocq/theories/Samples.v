(** Concrete modules used to show that the hypotheses of the property theorems can be met. *)
From Verif Require Import Base Types Ops ReadErr ReadBase ExtSet ReadOps Reader Glsl450 Groups Spec_Wire.
Local Open Scope N_scope.

(** A shader with a decoration, a function computing a sine and two type declarations. *)
Definition sample_instructions : list (Core Inst) :=
  [ Core_OpCapability (Build_OpCapability Capability_Shader);
    Core_OpExtInstImport (Build_OpExtInstImport 1 "GLSL.std.450"%string);
    Core_OpMemoryModel (Build_OpMemoryModel AddressingModel_Logical MemoryModel_Glsl450);
    Core_OpEntryPoint (Build_OpEntryPoint ExecutionModel_Fragment 5 "main"%string [9; 10]);
    Core_OpDecorate (Build_OpDecorate 9 (Decoration_BuiltIn BuiltIn_FragCoord));
    Core_OpTypeVoid (Build_OpTypeVoid 2);
    Core_OpTypeFunction (Build_OpTypeFunction 3 2 []);
    Core_OpTypeFloat (Build_OpTypeFloat 4 32);
    Core_OpFunction (Build_OpFunction 2 5 (Build_FunctionControl false true false false) 3);
    Core_OpLabel (Build_OpLabel 6);
    Core_OpLoad (Build_OpLoad 4 8 9 (Some (Build_MemoryAccess true false false)));
    Core_OpExtInst (Build_OpExtInst 4 7 1 (Inst_Sin (Build_Sin 8)));
    Core_OpReturn Build_OpReturn;
    Core_OpFunctionEnd Build_OpFunctionEnd ].
Definition sample : RawModule Inst :=
  Build_RawModule (Build_Version 1 0) (Build_Generator (Tool_Other 77) 3) 11 sample_instructions.
Definition sample_payloads : payloads := [(13, [8])].

Definition sample_bytes (o : byte_order) : list ascii := encode_module o sample sample_payloads.

Lemma sample_read : forall o, read_module (sample_bytes o) [InstSet] = Ok sample.
Proof. intros []; vm_compute; reflexivity. Qed.

Lemma sample_in_order : forall o, in_order o (sample_bytes o).
Proof. intro o. eexists. reflexivity. Qed.

(** Just a header. *)
Definition empty_module : RawModule Inst :=
  Build_RawModule (Build_Version 1 0) (Build_Generator Tool_KhronosGlslang 0) 1 [].
Definition empty_bytes (o : byte_order) : list ascii := encode_module o empty_module [].
Lemma empty_read : forall o, read_module (empty_bytes o) [InstSet] = Ok empty_module.
Proof. intros []; vm_compute; reflexivity. Qed.

(** A module with a global and a local variable, a declaration with a parameter, a definition with two blocks and
    a body-less function after it. *)
Definition control0 : FunctionControl := Build_FunctionControl false false false false.
Definition layout_sample : list (Core Inst) :=
  [ Core_OpCapability (Build_OpCapability Capability_Shader);
    Core_OpMemoryModel (Build_OpMemoryModel AddressingModel_Logical MemoryModel_Glsl450);
    Core_OpName (Build_OpName 4 "main"%string);
    Core_OpVariable (Build_OpVariable 2 3 StorageClass_Input None);
    Core_OpFunction (Build_OpFunction 1 20 control0 6);
    Core_OpFunctionParameter (Build_OpFunctionParameter 7 8);
    Core_OpFunctionEnd Build_OpFunctionEnd;
    Core_OpFunction (Build_OpFunction 1 4 control0 5);
    Core_OpLabel (Build_OpLabel 10);
    Core_OpVariable (Build_OpVariable 2 11 StorageClass_Function None);
    Core_OpSelectionMerge (Build_OpSelectionMerge 12 (Build_SelectionControl true false));
    Core_OpBranchConditional (Build_OpBranchConditional 3 12 99 None);
    Core_OpLabel (Build_OpLabel 12);
    Core_OpReturn Build_OpReturn;
    Core_OpFunctionEnd Build_OpFunctionEnd;
    Core_OpFunction (Build_OpFunction 1 20 control0 6);
    Core_OpFunctionParameter (Build_OpFunctionParameter 7 8);
    Core_OpFunctionEnd Build_OpFunctionEnd ].
Definition module_of (l : list (Core Inst)) : RawModule Inst :=
  Build_RawModule (Build_Version 1 0) (Build_Generator Tool_Valve 1) 21 l.
