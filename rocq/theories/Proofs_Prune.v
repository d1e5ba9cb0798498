(** Leaving out the blocks that are not needed, C137. *)
From Coq Require Import Lia.
From Verif Require Import Base Types Ops Groups ReadErr ExtSet Reader Validate Glsl450 ControlFlow Spec_Operands Spec_Wire Spec_Layout Spec_Flow Spec_Invariance Spec_Link Spec_Prune
  Samples_Flow Proofs_Layout Proofs_Layout2 Proofs_Link Proofs_Flow Proofs_Flow2 Proofs_Flow3 Proofs_Flow4 Proofs_Invariance.

Section Prune.
Context {E : Type}.
Implicit Types (d : FunctionDefinition E) (lm : LogicalModule E).
Lemma needed_iff : forall chain (b : BasicBlock E), needed_for chain b = true <-> In (label_of b) (chain_ids chain).
Proof.
  intros chain b. unfold needed_for. rewrite existsb_exists. split.
  - intros (x & X & Q). apply N.eqb_eq in Q as ->. exact X.
  - intros X. exists (label_of b). split; [exact X|apply N.eqb_refl].
Qed.
Lemma returns_one : forall d r r', returns d r -> returns d r' -> r = r'.
Proof. intros d r r' A B. apply returns_iff in A as [_ <-]. apply returns_iff in B as [_ B]. exact B. Qed.
Lemma returns_at : forall d c, returns d (Ok c) -> exists depth, find_control_flow depth d = Ok c.
Proof. intros d c [_ H]. exact H. Qed.
Lemma returns_unique_labels : forall d c, returns d (Ok c) -> NoDup (labels d).
Proof. intros d c R. destruct (returns_at d c R) as [k F]. exact (proj1 (find_inv d k c F)). Qed.
Lemma filter_labels : forall p (l : list (BasicBlock E)), NoDup (map label_of l) -> NoDup (map label_of (filter p l)).
Proof.
  intros p l. induction l as [|b l IH]; intros D; [exact D|]. cbn in D. inversion D as [|? ? N D']; subst. cbn. destruct (p b); [|exact (IH D')]. cbn. constructor; [|exact (IH D')].
  intros X. apply N. apply in_map_iff in X as (y & Y & X). apply filter_In in X as [X _]. rewrite <- Y. apply in_map. exact X.
Qed.
Theorem pruned_flow : forall d d', pruned d d' -> forall chain, returns d' (Ok chain) <-> returns d (Ok chain).
Proof.
  intros d d' (_ & _ & c & R & B).
  assert (R' : returns d' (Ok c)).
  { apply (only_named _ _ d d' c R).
    - unfold labels. rewrite B. apply filter_labels. exact (returns_unique_labels d c R).
    - intros id (b & rest & Q & L). destruct (returns_at d c R) as [depth F]. destruct (chain_entry_first d depth c F) as (id' & ids & (b' & rest' & Q' & L') & I).
      rewrite Q in Q'. injection Q' as <- <-. rewrite L in L'. subst id'. rewrite Q in B. cbn in B.
      assert (N : needed_for c b = true) by (apply needed_iff; rewrite I, L; left; reflexivity). rewrite N in B. exists b, (filter (needed_for c) rest). split; [exact B|exact L].
    - intros b X N. apply in_map. rewrite B. apply filter_In. split; [exact X|]. apply needed_iff. exact N. }
  intros chain. split; intros X.
  - pose proof (returns_one d' _ _ X R') as Q. injection Q as ->. exact R.
  - pose proof (returns_one d _ _ X R) as Q. injection Q as ->. exact R'.
Qed.
Theorem pruned_runs : forall d d', pruned d d' -> forall t, complete_run d' t <-> complete_run d t.
Proof.
  intros d d' P t. pose proof P as (_ & _ & c & R & _). pose proof (proj2 (pruned_flow d d' P c) R) as R'. destruct (returns_at d c R) as [k F], (returns_at d' c R') as [k' F'].
  rewrite <- (runs_complete d k c F t), <- (runs_complete d' k' c F' t). reflexivity.
Qed.
Theorem pruned_smallest : forall d d' d'' chain, pruned d d' -> returns d (Ok chain) -> returns d'' (Ok chain) ->
  incl (labels d') (labels d'') /\ (length (FunctionDefinition_blocks d') <= length (FunctionDefinition_blocks d''))%nat.
Proof.
  intros d d' d'' chain P R R''. pose proof P as (_ & _ & c & Rc & B). pose proof (returns_one d _ _ R Rc) as Q. injection Q as <-.
  assert (I : incl (labels d') (labels d'')).
  { intros id X. unfold labels in X. rewrite B in X. apply in_map_iff in X as (b & L & X). apply filter_In in X as [_ X]. apply needed_iff in X. rewrite L in X.
    destruct (returns_at d'' chain R'') as [k F]. destruct (chain_ids_exist d'' k chain F id X) as [b' [X1 X2]]. unfold labels. rewrite <- X2. apply in_map. exact X1. }
  split; [exact I|]. pose proof (proj2 (pruned_flow d d' P chain) R) as R'. pose proof (NoDup_incl_length (returns_unique_labels d' chain R') I) as X. unfold labels in X. rewrite !map_length in X. exact X.
Qed.
Theorem pruned_again : forall d d' d'', pruned d d' -> pruned d' d'' -> d'' = d'.
Proof.
  intros d d' d'' P (F & A & c & R & B). pose proof (proj1 (pruned_flow d d' P c) R) as R0. destruct P as (_ & _ & c0 & R0' & B0). pose proof (returns_one d _ _ R0 R0') as Q. injection Q as <-.
  destruct d' as [f1 p1 b1], d'' as [f2 p2 b2]. cbn in F, A, B, B0. subst. f_equal. clear. induction (FunctionDefinition_blocks d) as [|b l IH]; [reflexivity|]. cbn. destruct (needed_for c b) eqn:N; [|exact IH]. cbn. rewrite N, IH. reflexivity.
Qed.
Lemma pruned_blocks : forall d d', d' = d \/ pruned d d' -> incl (FunctionDefinition_blocks d') (FunctionDefinition_blocks d).
Proof. intros d d' [->|(_ & _ & c & _ & B)]; [apply incl_refl|]. rewrite B. intros b X. apply filter_In in X as [X _]. exact X. Qed.
Lemma pruned_written : forall d d', d' = d \/ pruned d d' -> incl (write_definition d') (write_definition d).
Proof.
  intros d d' P. pose proof (pruned_blocks d d' P) as I. destruct P as [->|(F & A & _)]; [apply incl_refl|]. unfold write_definition. rewrite F, A.
  apply incl_cons; [left; reflexivity|]. apply incl_tl. apply incl_app; [apply incl_appl, incl_refl|]. apply incl_appr. apply incl_app; [apply incl_appl|apply incl_appr, incl_refl].
  intros i X. apply in_flat_map in X as (b & X & Y). apply in_flat_map. exists b. split; [exact (I b X)|exact Y].
Qed.
Lemma pruned_all : forall ds ds', Forall2 (fun d d' => d' = d \/ pruned d d') ds ds' -> forall d', In d' ds' -> exists d, In d ds /\ (d' = d \/ pruned d d').
Proof.
  intros ds ds' F. induction F as [|d d' ds ds' P F IH]; intros x X; [destruct X|]. destruct X as [<-|X].
  - exists d. split; [left; reflexivity|exact P].
  - destruct (IH x X) as (y & Y & Q). exists y. split; [right; exact Y|exact Q].
Qed.
Theorem prune_file : forall (known : list (ExtInstSet E)) lm ds, has_file known lm -> Forall2 (fun d d' => d' = d \/ pruned d d') (LogicalModule_function_definitions lm) ds ->
  has_file known (with_definitions lm ds).
Proof.
  intros known lm ds H F. destruct (file_facts known lm H) as (D & S & _). destruct H as (data & m & R & V). apply validate_iff in V as [W (C1 & C2 & C3)].
  apply (build known).
  - exists data, m. exact R.
  - split; [exact C1|]. cbn [with_definitions LogicalModule_function_definitions]. split.
    + apply Forall_forall. intros d' X. destruct (pruned_all _ _ F d' X) as (d & Y & P). rewrite Forall_forall in C2. pose proof (C2 d Y) as C. unfold canonical_definition in *.
      rewrite Forall_forall in *. intros b B. apply C. exact (pruned_blocks d d' P b B).
    + destruct F as [|d d' ds0 ds' P F]; [exact I|]. destruct P as [->|P]; [exact C3|]. pose proof P as (_ & _ & c & Rc & _). pose proof (proj2 (pruned_flow d d' P c) Rc) as R'.
      destruct (returns_at d' c R') as [k K]. destruct (chain_entry_first d' k c K) as (id & ids & (b & rest & Q & _) & _). rewrite Q. discriminate.
  - exact D.
  - intros i X. exists data, m. split; [exact R|].
    assert (Y : In i (RawModule_instructions m)).
    { rewrite W. revert X. unfold write_module. cbn [with_definitions LogicalModule_capabilities LogicalModule_extensions LogicalModule_ext_inst_imports LogicalModule_memory_model LogicalModule_entry_points
        LogicalModule_execution_modes LogicalModule_debug LogicalModule_annotations LogicalModule_globals LogicalModule_function_declarations LogicalModule_function_definitions].
      rewrite !in_app_iff. intros X. repeat (destruct X as [X|X]; [tauto|]). do 10 right. apply in_flat_map in X as (d' & X & Y). destruct (pruned_all _ _ F d' X) as (d & Z & P).
      apply in_flat_map. exists d. split; [exact Z|exact (pruned_written d d' P i Y)]. }
    split; [exact Y|]. intros x name Q Z. cbn [with_definitions LogicalModule_ext_inst_imports]. rewrite W in Z. apply import_in_write in Z. exact Z.
Qed.
End Prune.

Lemma reachable_not_enough : ~ (forall E (d d' : FunctionDefinition E) chain, returns d (Ok chain) -> reachable_part d d' -> exists chain', returns d' (Ok chain')).
Proof.
  intros H. pose (d' := function_of [simple_block 1 (Some (GroupMerge_OpLoopMerge (Build_OpLoopMerge 2 1 unroll))) (branch_to 1)]%N : FunctionDefinition Inst).
  assert (A : exists c, returns endless_function (Ok c)) by (eexists; split; [discriminate|exists 5; vm_compute; reflexivity]). destruct A as [c A].
  assert (B : returns d' (Err (UnknownBlockId 2%N))) by (split; [discriminate|exists 5; vm_compute; reflexivity]).
  destruct (H _ endless_function d' c A) as [c' R]; [|pose proof (returns_one d' _ _ B R) as Q; discriminate Q].
  intros b. split.
  - intros [<-|[]]. split; [left; reflexivity|]. exists 1%N, []. split; [eexists _, _; split; reflexivity|]. constructor.
  - intros [[<-|[<-|[]]] X]; [left; reflexivity|]. exfalso. destruct X as (s & t & (b & r & Q & <-) & W). injection Q as <- <-. apply endless_walk in W; [discriminate W|reflexivity].
Qed.
