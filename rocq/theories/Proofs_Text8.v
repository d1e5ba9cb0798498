(** The statements of Prop_Display assembled from the lemmas on texts. *)
From Coq Require Import Lia.
From Verif Require Import Base Types Ops DisplayBase DisplayTypes DisplayOps DisplayModule DisplayFlow Groups Glsl450 ControlFlow
  Spec_Tables Spec_Opcodes Spec_Wire Spec_Layout Spec_Flow Spec_Names Spec_Text
  Proofs_Text Proofs_Text2 Proofs_Text3 Proofs_Text4 Proofs_Text5 Proofs_Text7.
Local Open Scope string_scope.

Lemma columns : forall E (d : E -> string) (i : Core E), result_fits i ->
  exists column name operands, result_column i column /\ opcode_name (opcode i) = Some name
    /\ disp_Core d i = column ++ name ++ spaced operands.
Proof.
  intros E d i F. destruct (line_shape d i) as [ts T]. exists (column_of i), (name_of i), ts.
  split; [apply column_form; exact F|]. split; [destruct i; reflexivity|exact T].
Qed.

Lemma line_feed_forgery : exists m m' : RawModule Inst,
  disp_RawModule disp_Inst m = disp_RawModule disp_Inst m'
  /\ List.length (RawModule_instructions m) <> List.length (RawModule_instructions m').
Proof.
  exists (Build_RawModule (Build_Version 1 0) (Build_Generator (Tool_Other 40) 0) 3
    [Core_OpName (Build_OpName 1%N ("x""" ++ String line_feed "               OpName %2 ""y"))]),
    (Build_RawModule (Build_Version 1 0) (Build_Generator (Tool_Other 40) 0) 3
    [Core_OpName (Build_OpName 1%N "x"); Core_OpName (Build_OpName 2%N "y")]).
  split; [vm_compute; reflexivity|discriminate].
Qed.

Lemma unregistered_generator : forall n n' v bound (l : list (Core Inst)),
  disp_RawModule disp_Inst (Build_RawModule (Build_Version 1 0) (Build_Generator (Tool_Other n) v) bound l)
  = disp_RawModule disp_Inst (Build_RawModule (Build_Version 1 0) (Build_Generator (Tool_Other n') v) bound l).
Proof. reflexivity. Qed.

Lemma number_text : forall n,
  shortest_decimal (disp_u32 n) n /\ (forall s, shortest_decimal s n -> s = disp_u32 n) /\ disp_OpId n = "%" ++ disp_u32 n.
Proof. intro n. split; [exact (decimal_shortest n)|]. split; [intros s; exact (shortest_unique s n)|reflexivity]. Qed.
Lemma number_text_inj : forall n m, (disp_u32 n = disp_u32 m -> n = m) /\ (disp_OpId n = disp_OpId m -> n = m).
Proof. intros n m. split; [exact (decimal_inj n m)|]. intro H. injection H as H. exact (decimal_inj n m H). Qed.

Lemma flags_text : (forall x, disp_FpFastMathMode x = mask_text fp_fast_math_flags (fp_fast_math_bits x))
  /\ (forall x, disp_MemoryAccess x = mask_text memory_access_flags (memory_access_bits x))
  /\ (forall x, disp_FunctionControl x = mask_text function_control_flags (function_control_bits x))
  /\ (forall x, disp_SelectionControl x = mask_text selection_control_flags (selection_control_bits x))
  /\ (forall x, disp_LoopControl x = mask_text (loop_flags (LoopControl_dependency_length x)) (loop_control_bits x)).
Proof. exact (conj fp_fast_math_text (conj memory_access_text (conj function_control_text (conj selection_control_text loop_control_text)))). Qed.
Lemma flags_none : (forall x, disp_FpFastMathMode x = "None" <-> fp_fast_math_bits x = 0%N)
  /\ (forall x, disp_MemoryAccess x = "None" <-> memory_access_bits x = 0%N)
  /\ (forall x, disp_FunctionControl x = "None" <-> function_control_bits x = 0%N)
  /\ (forall x, disp_SelectionControl x = "None" <-> selection_control_bits x = 0%N)
  /\ (forall x, disp_LoopControl x = "None" <-> loop_control_bits x = 0%N).
Proof. exact (conj none_fast_math (conj none_memory_access (conj none_function_control (conj none_selection_control none_loop_control)))). Qed.
Lemma flags_distinct : (forall x y, disp_FpFastMathMode x = disp_FpFastMathMode y -> x = y)
  /\ (forall x y, disp_MemoryAccess x = disp_MemoryAccess y -> x = y)
  /\ (forall x y, disp_FunctionControl x = disp_FunctionControl y -> x = y)
  /\ (forall x y, disp_SelectionControl x = disp_SelectionControl y -> x = y)
  /\ (forall x y, disp_LoopControl x = disp_LoopControl y -> x = y).
Proof. exact (conj fast_math_inj (conj memory_access_inj (conj function_control_text_inj (conj selection_control_inj loop_control_inj)))). Qed.

Lemma chain_nesting : forall c, brace_depth 0 (disp_ControlFlowChain c) = Some 0 /\ nested 0 (lines (disp_ControlFlowChain c)).
Proof. intro c. exact (conj (chain_braces c) (chain_nested c)). Qed.

Lemma all_named :
  printed_by_name disp_ExecutionModel execution_model_number execution_models
  /\ printed_by_name disp_AddressingModel addressing_model_number addressing_models
  /\ printed_by_name disp_MemoryModel memory_model_number memory_models
  /\ printed_by_name disp_StorageClass storage_class_number storage_classes
  /\ printed_by_name disp_Dim dim_number dims
  /\ printed_by_name disp_ImageFormat image_format_number image_formats
  /\ printed_by_name disp_FpRoundingMode fp_rounding_mode_number fp_rounding_modes
  /\ printed_by_name disp_LinkageType linkage_type_number linkage_types
  /\ printed_by_name disp_AccessQualifier access_qualifier_number access_qualifiers
  /\ printed_by_name disp_FunctionParameterAttribute function_parameter_attribute_number function_parameter_attributes
  /\ printed_by_name disp_BuiltIn built_in_number built_ins
  /\ printed_by_name disp_Capability capability_number capabilities.
Proof.
  exact (conj named_execution_model (conj named_addressing_model (conj named_memory_model (conj named_storage_class (conj named_dim
    (conj named_image_format (conj named_fp_rounding_mode (conj named_linkage_type (conj named_access_qualifier
    (conj named_function_parameter_attribute (conj named_built_in named_capability))))))))))).
Qed.

Lemma respelled_exactly : forall name, spelling name <> name <->
  In name ["TessellationControl"; "TessellationEvaluation"; "OutputVertices"; "PatchVertices"; "FPRoundingMode"; "FPFastMathMode"].
Proof.
  intro name. split.
  - intro H. unfold spelling, respelled in H. cbn [find fst snd] in H. cbv beta in H.
    repeat match type of H with context [String.eqb ?a ?b] =>
      destruct (String.eqb_spec a b) as [Q|Q]; [rewrite <- Q; clear; cbn; auto 10|clear Q]; cbv beta iota in H end. contradiction (H eq_refl).
  - intro I. repeat (destruct I as [<-|I]; [vm_compute; discriminate|]). contradiction I.
Qed.
