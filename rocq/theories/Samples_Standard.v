(** Functions that obey the rules of the standard and are refused (C93). *)
From Coq Require Import Permutation Relation_Operators.
From Verif Require Import Base Types Ops Groups Glsl450 ControlFlow Spec_Flow Spec_Structured Samples Samples_Flow Spec_Standard.
Local Open Scope N_scope.

(** loop_function with the condition of block 11 negated: the loop is left if it holds. *)
Definition negated_loop_function : FunctionDefinition Inst := function_of
  [ simple_block 9 None (branch_to 10);
    simple_block 10 (Some (GroupMerge_OpLoopMerge (Build_OpLoopMerge 14 13 unroll))) (branch_to 11);
    simple_block 11 None (branch_on 14 12 (Some (Build_BranchWeights 1 7)));
    simple_block 12 (Some (GroupMerge_OpSelectionMerge (Build_OpSelectionMerge 13 flatten))) (branch_on 15 16 None);
    simple_block 15 None (branch_to 13);
    simple_block 16 None (branch_to 13);
    simple_block 13 None (branch_to 10);
    simple_block 14 None (GroupBranch_OpReturn Build_OpReturn) ].

(** [if (c) return; return]. *)
Definition early_return_function : FunctionDefinition Inst := function_of
  [ simple_block 1 (Some (GroupMerge_OpSelectionMerge (Build_OpSelectionMerge 3 flatten))) (branch_on 2 3 None);
    simple_block 2 None (GroupBranch_OpReturn Build_OpReturn);
    simple_block 3 None (GroupBranch_OpReturn Build_OpReturn) ].

Ltac early_cases H := unfold has_block in H; cbn [In FunctionDefinition_blocks early_return_function function_of] in H;
  let I := fresh "I" in let L := fresh "L" in destruct H as [I L]; repeat destruct I as [I|I]; try (destruct I; fail); subst; cbn in *; subst.

Lemma early_entry : forall e, entry early_return_function e <-> e = 1.
Proof. intros e. split; [intros (b & r & Q & L); injection Q; intros; subst; reflexivity|intros ->; eexists _, _; split; reflexivity]. Qed.
Lemma early_branches : forall u n v, branches early_return_function u n v -> u = 1 /\ (v = 2 \/ v = 3).
Proof. intros u n v (b & H & N). early_cases H; destruct n as [|[|[|n]]]; cbn in N; try discriminate N; injection N; intros; subst; auto. Qed.
Lemma early_walk : forall v t d, (v = 2 \/ v = 3) -> walk early_return_function v t d -> (t = [] /\ d = Some v) \/ d = None.
Proof.
  intros v t d V W. destruct W as [id|id b op H B|id b op t d H B W|id b op t d H B W|id b op t d H B W]; auto; exfalso; early_cases H; try discriminate B; destruct V; discriminate.
Qed.
Lemma early_walk_1 : forall t x, walk early_return_function 1 t (Some x) -> (t = [] /\ x = 1) \/ (map fst t = [1] /\ (x = 2 \/ x = 3)).
Proof.
  intros t x W. inversion W as [id|id b op H B|id b op t' d H B W'|id b op t' d H B W'|id b op t' d H B W']; subst; auto; right.
  - early_cases H; discriminate B || discriminate.
  - assert (V : OpBranchConditional_true_label op = 2) by (early_cases H; try discriminate B; try discriminate; injection B; intros <-; reflexivity).
    rewrite V in W'. destruct (early_walk _ _ _ (or_introl eq_refl) W') as [[-> Q]|Q]; [injection Q; auto|discriminate Q].
  - assert (V : OpBranchConditional_false_label op = 3) by (early_cases H; try discriminate B; try discriminate; injection B; intros <-; reflexivity).
    rewrite V in W'. destruct (early_walk _ _ _ (or_intror eq_refl) W') as [[-> Q]|Q]; [injection Q; auto|discriminate Q].
Qed.
Lemma early_dominates : forall b, dominates early_return_function 1 b.
Proof. intros b e t En W. apply early_entry in En. subst e. destruct (early_walk_1 _ _ W) as [[-> ->]|[-> _]]; left; reflexivity. Qed.
Lemma early_reaches : forall x, x = 2 \/ x = 3 -> exists t, walk early_return_function 1 t (Some x) /\ map fst t = [1].
Proof.
  assert (HB : has_block early_return_function 1 (simple_block 1 (Some (GroupMerge_OpSelectionMerge (Build_OpSelectionMerge 3 flatten))) (branch_on 2 3 None))) by (split; [left|]; reflexivity).
  intros x [->| ->].
  - exists [(1, Some true)]. split; [|reflexivity]. eapply walk_true; [exact HB|reflexivity|]. apply walk_here.
  - exists [(1, Some false)]. split; [|reflexivity]. eapply walk_false; [exact HB|reflexivity|]. apply walk_here.
Qed.
Lemma early_declares : forall h m, declares early_return_function h m -> h = 1 /\ m = 3.
Proof. intros h m (b & H & M). early_cases H; try (destruct M as [M|[]]); subst; try (destruct M; fail); auto. Qed.
Lemma early_no_loop : forall h m ct, ~ heads_loop early_return_function h m ct.
Proof. intros h m ct (b & hint & H & M). early_cases H; discriminate M. Qed.
Lemma early_not_1 : forall a, a <> 1 -> ~ dominates early_return_function a 1.
Proof. intros a N D. destruct (D 1 []) as [Q|[]]; [apply early_entry; reflexivity|apply walk_here|]. cbn in Q. congruence. Qed.

Lemma early_rules : merge_rules early_return_function /\ continue_rules early_return_function /\ construct_rules early_return_function.
Proof.
  split; [|split].
  - split; [|split; [|split; [|split; [|split]]]].
    + intros e u n En B. apply early_entry in En. subst e. apply early_branches in B as [_ [B|B]]; discriminate B.
    + intros h1 h2 m A B. apply early_declares in A as [-> _]. apply early_declares in B as [-> _]. reflexivity.
    + intros h m D _. apply early_declares in D as [-> ->]. split; [apply early_dominates|discriminate].
    + assert (G : forall u v, clos_trans BlockId (onward early_return_function) u v -> u = 1 /\ (v = 2 \/ v = 3)).
      { intros u v H. induction H as [u v (n & B & _)|u v w H1 IH1 H2 IH2]; [eapply early_branches; exact B|]. destruct IH1 as [-> _], IH2 as [_ IH2]. auto. }
      intros u H. destruct (G u u H) as [-> [Q|Q]]; discriminate Q.
    + intros u n v (B & _ & D). exfalso. apply early_branches in B as [-> [->| ->]]; revert D; apply early_not_1; discriminate.
    + intros h m ct H. destruct (early_no_loop _ _ _ H).
  - intros h m ct u n H. destruct (early_no_loop _ _ _ H).
  - intros h m D _. apply early_declares in D as [-> ->]. split; [|split].
    + intros h' m' _ N D' _. apply early_declares in D' as [-> _]. congruence.
    + intros u n v B _ NC _. exfalso. apply NC. apply early_branches in B as [-> _]. split; [|split; [apply early_dominates|apply early_not_1; discriminate]].
      exists 1, []. split; [apply early_entry; reflexivity|apply walk_here].
    + intros u n v B _ NC. left. apply early_branches in B as [-> [->| ->]]; [exfalso|reflexivity]. apply NC. destruct (early_reaches 2 (or_introl eq_refl)) as (t & W & M).
      split; [exists 1, t; split; [apply early_entry; reflexivity|exact W]|]. split; [apply early_dominates|]. intros D. specialize (D 1 t (proj2 (early_entry 1) eq_refl) W).
      rewrite M in D. cbn in D. destruct D as [D|[D|[]]]; discriminate D.
Qed.
