(** Structural equality, extended instructions, and what equal modules and functions yield (C73-C75). *)
From Verif Require Import Base Types Ops ReadErr Groups Validate ControlFlow Glsl450 EqBase Equality EqMore Spec_Layout Spec_Equality Spec_Flow Proofs_Equality Proofs_Equality2.
From Verif Require Import DisplayOps DisplayModule DisplayFlow Proofs_Flow Proofs_Flow2 Proofs_Flow3 Proofs_Flow4 DisplayBase.

#[export] Instance exact_OpExtInst : forall {E} (eq_ext : E -> E -> bool), Exact eq_ext -> Exact (eq_OpExtInst eq_ext).
Proof.
  intros E eq_ext X a b. rewrite eq_OpExtInst_iff. split.
  - intros (t & i & s & x & y & -> & -> & H). apply (exact_iff (eq := eq_ext)) in H. rewrite H. reflexivity.
  - intros <-. destruct a as [t i s x]. exists t, i, s, x, x. repeat split. apply (exact_iff (eq := eq_ext)). reflexivity.
Qed.
#[export] Instance exact_Core : forall {E} (eq_ext : E -> E -> bool), Exact eq_ext -> Exact (eq_Core eq_ext).
Proof.
  intros E eq_ext X a b. rewrite eq_Core_alike. split.
  - intros H. destruct H as [t i s x y H|c N]; [|reflexivity]. apply (exact_iff (eq := eq_ext)) in H. rewrite H. reflexivity.
  - intros <-. destruct a; try (apply alike_same; intros ? Q; discriminate Q).
    match goal with o : OpExtInst E |- _ => destruct o end. apply alike_ext. apply (exact_iff (eq := eq_ext)). reflexivity.
Qed.
#[export] Instance exact_RawModule : forall {E} (eq_ext : E -> E -> bool), Exact eq_ext -> Exact (eq_RawModule eq_ext).
Proof. intros E eq_ext X. exact_with ltac:(unfold eq_RawModule). Qed.
#[export] Instance exact_GroupCode : forall {E} (eq_ext : E -> E -> bool), Exact eq_ext -> Exact (eq_GroupCode eq_ext).
Proof.
  intros E eq_ext X a b. rewrite <- eq_code. rewrite (exact_iff (eq := eq_Core eq_ext)). split; [|intros <-; reflexivity].
  destruct a, b; intros H; try discriminate H; try (injection H; intros ->; reflexivity).
  repeat match goal with x : OpNop |- _ => destruct x end. reflexivity.
Qed.
#[export] Instance exact_BasicBlock : forall {E} (eq_ext : E -> E -> bool), Exact eq_ext -> Exact (eq_BasicBlock eq_ext).
Proof. intros E eq_ext X. exact_with ltac:(unfold eq_BasicBlock). Qed.
#[export] Instance exact_FunctionDefinition : forall {E} (eq_ext : E -> E -> bool), Exact eq_ext -> Exact (eq_FunctionDefinition eq_ext).
Proof. intros E eq_ext X. exact_with ltac:(unfold eq_FunctionDefinition). Qed.
#[export] Instance exact_LogicalModule : forall {E} (eq_ext : E -> E -> bool), Exact eq_ext -> Exact (eq_LogicalModule eq_ext).
Proof. intros E eq_ext X. exact_with ltac:(unfold eq_LogicalModule). Qed.

#[export] Instance exact_ValidationError : Exact eq_ValidationError.
Proof. exact_with ltac:(unfold eq_ValidationError). Qed.

(** Induction on chains, through the list of a block. *)
Lemma chain_ind : forall P : ControlFlowChain -> Prop,
  (forall id, P (Atom id)) -> (forall l, Forall P l -> P (Block l)) ->
  (forall id l r h w, P l -> P r -> P (Selection id l r h w)) -> (forall id i h w, P i -> P (Loop id i h w)) ->
  P Break -> P Continue -> forall c, P c.
Proof.
  intros P A B S L Br Co. fix go 1. intros [id|l|id l r h w|id i h w| | ].
  - apply A.
  - apply B. induction l as [|c l IH]; constructor; [apply go|exact IH].
  - apply S; apply go.
  - apply L; apply go.
  - exact Br.
  - exact Co.
Qed.

Lemma exact_chain : Exact eq_ControlFlowChain.
Proof.
  unfold Exact. intros a. induction a as [id|l F|id l r h w IHl IHr|id i h w IHi| | ] using chain_ind; intros [id'|l'|id' l' r' h' w'|id' i' h' w'| | ]; cbn;
    try (split; [discriminate|discriminate]); try (split; reflexivity).
  - rewrite N.eqb_eq. split; [intros ->; reflexivity|intros [= ->]; reflexivity].
  - fold (eq_Vec eq_ControlFlowChain). revert l'. induction F as [|c l H F IH]; intros [|c' l']; cbn; try (split; [discriminate|discriminate]); [split; reflexivity|].
    fold (eq_Vec eq_ControlFlowChain). rewrite andb_true_iff, H, IH. split; [intros [-> [= ->]]; reflexivity|intros [= -> ->]; split; reflexivity].
  - rewrite !andb_true_iff, N.eqb_eq, IHl, IHr, (exact_iff h), (exact_iff w). split.
    + intros [[[[-> ->] ->] ->] ->]. reflexivity.
    + intros [= -> -> -> -> ->]. repeat split.
  - rewrite !andb_true_iff, N.eqb_eq, IHi, (exact_iff h), (exact_iff w). split.
    + intros [[[-> ->] ->] ->]. reflexivity.
    + intros [= -> -> -> ->]. repeat split.
Qed.

(** ** Extended instructions *)
#[export] Instance exact_Inst : Exact eq_Inst.
Proof.
  intros [[x]|[x]] [[y]|[y]]; cbn; try (split; [discriminate|discriminate]); unfold eq_Sin, eq_Cos; cbn; rewrite N.eqb_eq;
  (split; [intros ->; reflexivity|intros [= ->]; reflexivity]).
Qed.

Section Dynamic.
Context {F : Type} (eq_user : F -> AnyInst (F := F) -> bool) (user_as_Inst : F -> option Inst).

Lemma built_in_eq : forall i x, eq_ExtInstBox eq_user user_as_Inst (inl i) x = true <->
  match x with inl j => i = j | inr u => user_as_Inst u = Some i end.
Proof.
  intros i [j|u]; cbn.
  - unfold inst_eq. cbn. apply exact_iff.
  - unfold inst_eq. cbn. destruct (user_as_Inst u) as [j|]; [|split; discriminate]. rewrite exact_iff. split; [intros ->; reflexivity|intros [= ->]; reflexivity].
Qed.

Lemma exact_ExtInstBox : (forall u, user_as_Inst u = None) -> (forall u x, eq_user u x = true <-> x = inr u) ->
  Exact (eq_ExtInstBox eq_user user_as_Inst).
Proof.
  intros A U [i|u] x.
  - rewrite built_in_eq. destruct x as [j|u]; [split; [intros ->; reflexivity|intros [= ->]; reflexivity]|]. rewrite A. split; discriminate.
  - cbn. rewrite U. split; intros H; congruence.
Qed.
End Dynamic.

(** ** Texts and control flow *)
Section Yields.
Context {E : Type} (eq_ext : E -> E -> bool) (disp_ext : E -> string).

Lemma same_flow : forall f g, eq_FunctionDefinition eq_ext f g = true -> forall depth, find_control_flow depth f = find_control_flow depth g.
Proof.
  intros f g H. apply same_skeleton. unfold eq_FunctionDefinition in H. rewrite !andb_true_iff in H. destruct H as [_ B].
  apply (eq_Vec_shape _ skeleton) in B; [exact B|]. intros x y H. unfold eq_BasicBlock in H. rewrite !andb_true_iff in H. destruct H as [[[L _] M] T].
  apply (exact_iff (eq := eq_OpLabel)) in L. apply (exact_iff (eq := eq_Option eq_GroupMerge)) in M. apply (exact_iff (eq := eq_GroupBranch)) in T.
  unfold skeleton, label_of. rewrite L, M, T. reflexivity.
Qed.

Context (respects : forall x y, eq_ext x y = true -> disp_ext x = disp_ext y).

Lemma same_line : forall c d, eq_Core eq_ext c d = true -> disp_Core disp_ext c = disp_Core disp_ext d.
Proof.
  intros c d H. apply eq_Core_alike in H. destruct H as [t i s x y H|c N]; [|reflexivity].
  cbn [disp_Core]. unfold disp_OpExtInst. cbn. apply respects in H. unfold format_arg. rewrite H. reflexivity.
Qed.

Lemma same_text : forall a b, eq_RawModule eq_ext a b = true -> disp_RawModule disp_ext a = disp_RawModule disp_ext b.
Proof.
  intros a b H. apply eq_RawModule_iff in H. destruct H as [(V & G & B) I]. unfold disp_RawModule. rewrite V, G, B.
  replace (disp_instructions disp_ext (RawModule_instructions a)) with (disp_instructions disp_ext (RawModule_instructions b)); [reflexivity|].
  unfold same_instructions in I. induction I as [|c d l l' H _ IH]; [reflexivity|]. cbn [disp_instructions].
  apply eq_Core_alike in H. rewrite (same_line _ _ H), IH. reflexivity.
Qed.

Lemma core_line : forall g : GroupCode E, disp_GroupCode disp_ext g = disp_Core disp_ext (core_of_code g).
Proof. destruct g; reflexivity. Qed.

Lemma same_code_lines : forall l l', eq_Vec (eq_GroupCode eq_ext) l l' = true -> forall n, code_lines disp_ext n l = code_lines disp_ext n l'.
Proof.
  intros l l' H n. apply eq_Vec_Forall2 in H. induction H as [|g g' l l' H _ IH]; [reflexivity|]. cbn [code_lines].
  rewrite <- eq_code in H. rewrite !core_line, (same_line _ _ H), IH. reflexivity.
Qed.

Definition found_alike (a b : outcome unit (option (BasicBlock E))) : Prop :=
  match a, b with
  | Ok (Some x), Ok (Some y) => eq_BasicBlock eq_ext x y = true
  | Ok None, Ok None => True
  | Panic, Panic => True
  | _, _ => False
  end.

Lemma same_found : forall bs cs, eq_Vec (eq_BasicBlock eq_ext) bs cs = true -> forall id x y, found_alike (Ok x) (Ok y) ->
  found_alike (find_block bs id x) (find_block cs id y).
Proof.
  intros bs cs H. apply eq_Vec_Forall2 in H. induction H as [|b c bs cs H _ IH]; intros id x y K; [exact K|]. cbn [find_block].
  assert (L : BasicBlock_label b = BasicBlock_label c).
  { unfold eq_BasicBlock in H. rewrite !andb_true_iff in H. destruct H as [[[L _] _] _]. apply (exact_iff (eq := eq_OpLabel)) in L. exact L. }
  rewrite L. destruct (N.eqb _ id); [|apply IH; exact K].
  destruct x as [x|], y as [y|]; cbn in K; try contradiction; [exact I|]. apply IH. exact H.
Qed.

Lemma same_block_text : forall f g, eq_FunctionDefinition eq_ext f g = true -> forall n id,
  fmt_block_indent disp_ext f n id = fmt_block_indent disp_ext g n id.
Proof.
  intros f g H n id. unfold fmt_block_indent. unfold eq_FunctionDefinition in H. rewrite !andb_true_iff in H. destruct H as [_ B].
  pose proof (same_found _ _ B id None None I) as K.
  destruct (find_block (FunctionDefinition_blocks f) id None) as [[x|]| | |], (find_block (FunctionDefinition_blocks g) id None) as [[y|]| | |];
    cbn in K; try contradiction; try reflexivity. cbn.
  unfold eq_BasicBlock in K. rewrite !andb_true_iff in K. destruct K as [[[_ C] _] T]. apply (exact_iff (eq := eq_GroupBranch)) in T.
  rewrite (same_code_lines _ _ C), T. reflexivity.
Qed.

Lemma same_function_text : forall f g, eq_FunctionDefinition eq_ext f g = true -> forall chain,
  disp_ControlFlowFunctionPrinter disp_ext f chain = disp_ControlFlowFunctionPrinter disp_ext g chain.
Proof.
  intros f g H chain. unfold disp_ControlFlowFunctionPrinter. generalize 0 as n. pose proof (same_block_text f g H) as T.
  induction chain as [id|l F|id l r h w IHl IHr|id i h w IHi| | ] using chain_ind; intros n; cbn [printer_fmt_indent]; try reflexivity.
  - apply T.
  - induction F as [|c l K _ IH]; [reflexivity|]. rewrite K. rewrite IH. reflexivity.
  - rewrite T, IHl, IHr. reflexivity.
  - rewrite T, IHi. reflexivity.
Qed.
End Yields.

(** ** Equivalence *)
Section Equivalence.
Context {E : Type} (eq_ext : E -> E -> bool).

Lemma alike_refl : (forall x, eq_ext x x = true) -> forall c, eq_Core eq_ext c c = true.
Proof.
  intros H c. apply eq_Core_alike. destruct c; try (apply alike_same; intros ? Q; discriminate Q).
  match goal with o : OpExtInst E |- _ => destruct o end. apply alike_ext. apply H.
Qed.
Lemma alike_sym : (forall x y, eq_ext x y = true -> eq_ext y x = true) -> forall c d, eq_Core eq_ext c d = true -> eq_Core eq_ext d c = true.
Proof.
  intros H c d K. apply eq_Core_alike in K. apply eq_Core_alike. destruct K as [t i s x y K|c N]; [apply alike_ext; apply H; exact K|apply alike_same; exact N].
Qed.
Lemma alike_trans : (forall x y z, eq_ext x y = true -> eq_ext y z = true -> eq_ext x z = true) ->
  forall c d e, eq_Core eq_ext c d = true -> eq_Core eq_ext d e = true -> eq_Core eq_ext c e = true.
Proof.
  intros H c d e K L. apply eq_Core_alike in K, L. apply eq_Core_alike. destruct K as [t i s x y K|c N]; [|exact L].
  inversion L as [t' i' s' x' y' L'|c' N' ]; subst; [apply alike_ext; exact (H _ _ _ K L')|exfalso; exact (N' _ eq_refl)].
Qed.

Lemma module_refl : (forall x, eq_ext x x = true) -> forall m, eq_RawModule eq_ext m m = true.
Proof.
  intros H m. apply eq_RawModule_iff. split; [repeat split|]. apply eq_cores, eq_Vec_Forall2.
  induction (RawModule_instructions m); constructor; [apply alike_refl; exact H|assumption].
Qed.
Lemma module_sym : (forall x y, eq_ext x y = true -> eq_ext y x = true) -> forall a b, eq_RawModule eq_ext a b = true -> eq_RawModule eq_ext b a = true.
Proof.
  intros H a b K. apply eq_RawModule_iff in K. apply eq_RawModule_iff. destruct K as [(V & G & B) K]. split; [repeat split; congruence|].
  apply eq_cores, eq_Vec_Forall2. apply eq_cores, eq_Vec_Forall2 in K. induction K; constructor; [apply alike_sym; assumption|assumption].
Qed.
Lemma module_trans : (forall x y z, eq_ext x y = true -> eq_ext y z = true -> eq_ext x z = true) ->
  forall a b c, eq_RawModule eq_ext a b = true -> eq_RawModule eq_ext b c = true -> eq_RawModule eq_ext a c = true.
Proof.
  intros H a b c K L. apply eq_RawModule_iff in K, L. apply eq_RawModule_iff. destruct K as [(V & G & B) K], L as [(V' & G' & B') L].
  split; [repeat split; congruence|]. apply eq_cores, eq_Vec_Forall2. apply eq_cores, eq_Vec_Forall2 in K, L.
  revert L. generalize (RawModule_instructions c). induction K as [|x y l l' K _ IH]; intros l'' L; inversion L; subst; constructor.
  - eapply alike_trans; eassumption.
  - apply IH. assumption.
Qed.
End Equivalence.
