(** Flags and enumerants (C56, C63). *)
From Coq Require Import Lia.
From Verif Require Import Base Types Ops DisplayBase DisplayTypes Spec_Tables Spec_Wire Spec_Names Spec_Text Proofs_Text Proofs_Text2 Proofs_Text3.
Local Open Scope string_scope.

Lemma function_control_text_inj : forall a b, disp_FunctionControl a = disp_FunctionControl b -> a = b.
Proof. intros [[] [] [] []] [[] [] [] []] H; first [reflexivity|discriminate H]. Qed.

Lemma none_fast_math : forall x, disp_FpFastMathMode x = "None" <-> fp_fast_math_bits x = 0%N.
Proof. intros [[] [] [] [] []]; cbn; split; congruence. Qed.
Lemma none_memory_access : forall x, disp_MemoryAccess x = "None" <-> memory_access_bits x = 0%N.
Proof. intros [[] [] []]; cbn; split; congruence. Qed.
Lemma none_function_control : forall x, disp_FunctionControl x = "None" <-> function_control_bits x = 0%N.
Proof. intros [[] [] [] []]; cbn; split; congruence. Qed.
Lemma none_selection_control : forall x, disp_SelectionControl x = "None" <-> selection_control_bits x = 0%N.
Proof. intros [[] []]; cbn; split; congruence. Qed.
Lemma none_loop_control : forall x, disp_LoopControl x = "None" <-> loop_control_bits x = 0%N.
Proof. intros [[] [] [] [n|]]; cbn; split; congruence. Qed.

Ltac by_name := intros []; eexists; split; reflexivity.
Lemma named_execution_model : printed_by_name disp_ExecutionModel execution_model_number execution_models. Proof. by_name. Qed.
Lemma named_addressing_model : printed_by_name disp_AddressingModel addressing_model_number addressing_models. Proof. by_name. Qed.
Lemma named_memory_model : printed_by_name disp_MemoryModel memory_model_number memory_models. Proof. by_name. Qed.
Lemma named_storage_class : printed_by_name disp_StorageClass storage_class_number storage_classes. Proof. by_name. Qed.
Lemma named_dim : printed_by_name disp_Dim dim_number dims. Proof. by_name. Qed.
Lemma named_image_format : printed_by_name disp_ImageFormat image_format_number image_formats. Proof. by_name. Qed.
Lemma named_fp_rounding_mode : printed_by_name disp_FpRoundingMode fp_rounding_mode_number fp_rounding_modes. Proof. by_name. Qed.
Lemma named_linkage_type : printed_by_name disp_LinkageType linkage_type_number linkage_types. Proof. by_name. Qed.
Lemma named_access_qualifier : printed_by_name disp_AccessQualifier access_qualifier_number access_qualifiers. Proof. by_name. Qed.
Lemma named_function_parameter_attribute : printed_by_name disp_FunctionParameterAttribute function_parameter_attribute_number function_parameter_attributes.
Proof. by_name. Qed.
Lemma named_built_in : printed_by_name disp_BuiltIn built_in_number built_ins. Proof. by_name. Qed.
Lemma named_capability : printed_by_name disp_Capability capability_number capabilities. Proof. by_name. Qed.

(** Execution modes and decorations: the name of the first number, then the rest. *)
Lemma named_execution_mode : forall x, exists n rest name more, execution_mode_operands x = OWord n :: rest /\ lookup execution_modes n = Some name
  /\ disp_ExecutionMode x = spelling name ++ more /\ (more = "" \/ exists s, more = " " ++ s).
Proof.
  intros []; (do 4 eexists; split; [reflexivity|]; split; [reflexivity|]; split;
    [first [symmetry; apply sapp_nil|reflexivity]|]; first [left; reflexivity|right; eexists; reflexivity]).
Qed.
Lemma named_decoration : forall x, exists n rest name more, decoration_operands x = OWord n :: rest /\ lookup decorations n = Some name
  /\ disp_Decoration x = spelling name ++ more /\ (more = "" \/ exists s, more = " " ++ s).
Proof.
  intros []; (do 4 eexists; split; [reflexivity|]; split; [reflexivity|]; split;
    [first [symmetry; apply sapp_nil|reflexivity]|]; first [left; reflexivity|right; eexists; reflexivity]).
Qed.
