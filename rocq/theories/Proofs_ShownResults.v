(** The Debug texts of errors and of chains, C89. *)
From Verif Require Import Base Types ReadErr Groups Validate ControlFlow Glsl450 DisplayBase DebugBase Debug DebugMore Spec_Text Spec_Writer Spec_Debug Spec_ShownResults
  Proofs_Text.
Local Open Scope string_scope.

Lemma separated_enumerated : forall l, separated l = enumerated l.
Proof.
  unfold enumerated. induction l as [|a [|b l] IH]; [reflexivity|reflexivity|].
  change (separated (a :: b :: l)) with (a ++ ", " ++ separated (b :: l)). rewrite IH. reflexivity.
Qed.
Lemma separated_cons : forall a b l, separated (a :: b :: l) = a ++ ", " ++ separated (b :: l).
Proof. reflexivity. Qed.

Section Texts.
Context {E : Type} (e : escapes) (ext : E -> string).

Lemma tuple_text : forall name x l, debug_text e ext (DTuple name (x :: l)) = case_text name (map (debug_text e ext) (x :: l)).
Proof. intros name x l. cbn [debug_text case_text]. rewrite separated_enumerated. reflexivity. Qed.

Lemma read_error_text : forall x, exists name, nth_error error_names (error_kind x) = Some name
  /\ debug_text e ext (dbg_ReadError x) = case_text name (payload (dbg_str e) x).
Proof.
  intros x. destruct x; cbn [error_kind nth_error error_names]; eexists; (split; [reflexivity|]); cbn [dbg_ReadError payload];
    try reflexivity; rewrite tuple_text; try reflexivity.
Qed.
Lemma validation_error_shown : forall x, debug_text e ext (dbg_ValidationError x) = validation_error_text x.
Proof. intros []; reflexivity. Qed.
Lemma flow_error_shown : forall x, debug_text e ext (dbg_ControlFlowError x) = flow_error_text x.
Proof.
  intros []; try reflexivity; cbn [dbg_ControlFlowError flow_error_text]; try match goal with c : ControlType |- _ => destruct c end; reflexivity.
Qed.

Lemma weights_shown : forall w, debug_text e ext (dbg_Option dbg_BranchWeights w) = weights_text w.
Proof.
  intros [[a b]|]; [|reflexivity]. unfold weights_text. cbn [dbg_Option dbg_BranchWeights BranchWeights_true_weight BranchWeights_false_weight].
  unfold dbg_BranchWeights. cbn [debug_text map separated fst snd BranchWeights_true_weight BranchWeights_false_weight]. rewrite ?sapp_assoc. reflexivity.
Qed.
Lemma selection_control_shown : forall c, debug_text e ext (dbg_SelectionControl c) = selection_hint_text c.
Proof. intros [[] []]; reflexivity. Qed.
Lemma loop_control_shown : forall c, debug_text e ext (dbg_LoopControl c) = loop_hint_text c.
Proof.
  intros [[] [] [] [n|]]; try reflexivity; unfold loop_hint_text;
    cbn [dbg_LoopControl debug_text map separated fst snd dbg_Option LoopControl_unroll LoopControl_dont_unroll
         LoopControl_dependency_infinite LoopControl_dependency_length yes_no]; reflexivity.
Qed.

Lemma chain_shown : forall c, debug_text e ext (dbg_ControlFlowChain c) = chain_text c.
Proof.
  fix IH 1. intros [id|l|id lhs rhs hint weights|id inner hint weights| |]; try reflexivity.
  - cbn [dbg_ControlFlowChain chain_text]. cbn [debug_text map separated]. unfold dbg_Vec. cbn [debug_text].
    rewrite separated_enumerated, map_map.
    assert (map (fun x => debug_text e ext (dbg_ControlFlowChain x)) l = map chain_text l) as ->.
    { induction l as [|c l IHl]; [reflexivity|]. cbn [map]. rewrite IH, IHl. reflexivity. }
    cbn [append]. rewrite ?sapp_assoc. reflexivity.
  - cbn [dbg_ControlFlowChain chain_text]. rewrite <- (IH lhs), <- (IH rhs), <- selection_control_shown, <- weights_shown.
    cbn [debug_text map]. rewrite !separated_cons, ?sapp_assoc. reflexivity.
  - cbn [dbg_ControlFlowChain chain_text]. rewrite <- (IH inner), <- loop_control_shown, <- weights_shown.
    cbn [debug_text map]. rewrite !separated_cons, ?sapp_assoc. reflexivity.
Qed.

Lemma glsl_shown : forall id, debug_text e ext (dbg_Inst (Inst_Sin (Build_Sin id))) = "Sin(Sin { x: OpId(" ++ decimal id ++ ") })"
  /\ debug_text e ext (dbg_Inst (Inst_Cos (Build_Cos id))) = "Cos(Cos { x: OpId(" ++ decimal id ++ ") })".
Proof.
  intros id. unfold dbg_Inst, dbg_Sin, dbg_Cos, dbg_OpId. cbn [debug_text map separated fst snd Sin_x Cos_x]. rewrite !sapp_assoc. split; reflexivity.
Qed.
End Texts.
