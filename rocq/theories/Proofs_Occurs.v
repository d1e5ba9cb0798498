(** Lemmas for C116: how often a block is named in the chain of a function that obeys the rules. *)
From Coq Require Import Relation_Operators Operators_Properties.
From Verif Require Import Base Types Ops Groups ExtSet ControlFlow Spec_Flow Proofs_Flow Proofs_Flow2 Proofs_Flow3 Spec_Standard Spec_Returns Spec_Simple Proofs_Returns Spec_Occurs Proofs_Simple Proofs_Simple2.

Section Occurs.
Context {E : Type}.
Variable f : FunctionDefinition E.
Hypothesis ND : NoDup (labels f).
Hypothesis MR : merge_rules f.
Hypothesis CR : construct_rules f.
Hypothesis LC : loops_close f.
Hypothesis RM : merges_reached f.
Hypothesis SI : simple f.
Variable v : BlockId.

(** ** Calls for block [v] that do not stop there *)
Definition hit (fl : FlowList) (t : BlockId) : nat := if N.eqb t v && negb (merges fl t) then 1 else 0.
Definition hits (fl : FlowList) (id : BlockId) (b : BasicBlock E) : nat :=
  match BasicBlock_branch b, BasicBlock_merge b with
  | GroupBranch_OpBranch op, None => hit fl (OpBranch_target_label op)
  | GroupBranch_OpBranch op, Some (GroupMerge_OpLoopMerge lm) =>
      hit (Converge_Loop id (OpLoopMerge_merge_block lm) (OpLoopMerge_loop_control lm) :: fl) (OpBranch_target_label op) + hit fl (OpLoopMerge_merge_block lm)
  | GroupBranch_OpBranchConditional op, Some (GroupMerge_OpSelectionMerge sm) =>
      hit (Converge_If (OpSelectionMerge_merge_block sm) (OpSelectionMerge_selection_control sm) :: fl) (OpBranchConditional_true_label op)
      + hit (Converge_If (OpSelectionMerge_merge_block sm) (OpSelectionMerge_selection_control sm) :: fl) (OpBranchConditional_false_label op)
      + hit fl (OpSelectionMerge_merge_block sm)
  | GroupBranch_OpBranchConditional op, None => hit fl (OpBranchConditional_true_label op)
  | _, _ => 0
  end.

(** ** The parts of a step *)
Section Step.
Variables (id : BlockId) (fl : FlowList) (os : list (BlockId * BlockId)) (b : BasicBlock E).
Hypothesis H : here f id fl os.
Hypothesis M : merges fl id = false.
Hypothesis HB : has_block f id b.
Let R : reachable f id := here_reached _ _ _ _ H.

Lemma inside : forall h m, In (h, m) os -> construct f h m id /\ h <> id.
Proof. exact (go_inside f _ _ _ H M). Qed.
Lemma nest : Forall (fun o => construct f (fst o) (snd o) id /\ fst o <> id) os.
Proof. apply Forall_forall. intros [h m] I. exact (inside h m I). Qed.
Lemma its_targets : forall n t, nth_error (branch_targets b) n = Some t -> branches f id n t.
Proof. intros n t Q. exists b. auto. Qed.
Lemma its_branches : forall n t, branches f id n t -> nth_error (branch_targets b) n = Some t.
Proof. intros n t (b' & HB' & Q). rewrite (has_block_inj f ND _ _ _ HB' HB) in Q. exact Q. Qed.
Lemma its_merge : forall m, declares f id m <-> In m (merge_targets b).
Proof. intros m. split; [intros (b' & HB' & I); rewrite (has_block_inj f ND _ _ _ HB' HB) in I; exact I|intros I; exists b; auto]. Qed.
Lemma into_loop : forall lm, BasicBlock_merge b = Some (GroupMerge_OpLoopMerge lm) ->
  opened f (Converge_Loop id (OpLoopMerge_merge_block lm) (OpLoopMerge_loop_control lm) :: fl) ((id, OpLoopMerge_merge_block lm) :: os).
Proof.
  intros lm BM. apply opened_loop with (ct := OpLoopMerge_continue_target lm); [|exact R|exact nest|exact (here_open _ _ _ _ H)].
  exists b, (OpLoopMerge_loop_control lm). split; [exact HB|]. rewrite BM. destruct lm. reflexivity.
Qed.
Lemma not_loop : forall sm m ct, BasicBlock_merge b = Some (GroupMerge_OpSelectionMerge sm) -> ~ heads_loop f id m ct.
Proof. intros sm m ct BM (b' & hint & HB' & Q). rewrite (has_block_inj f ND _ _ _ HB' HB) in Q. congruence. Qed.
Lemma into_selection : forall sm, BasicBlock_merge b = Some (GroupMerge_OpSelectionMerge sm) ->
  opened f (Converge_If (OpSelectionMerge_merge_block sm) (OpSelectionMerge_selection_control sm) :: fl) ((id, OpSelectionMerge_merge_block sm) :: os).
Proof.
  intros sm BM. apply opened_if; [|intros ct; exact (not_loop sm _ ct BM)|exact R|exact nest|exact (here_open _ _ _ _ H)].
  apply its_merge. unfold merge_targets. rewrite BM. left. reflexivity.
Qed.
Lemma at_merge : forall m, declares f id m -> here f m fl os /\ merges fl m = false.
Proof.
  intros m D. pose proof (step_merge f ND MR CR RM SI id fl os m H M D) as Hm. split; [exact Hm|]. destruct (merges fl m) eqn:Mm; [|reflexivity]. exfalso.
  pose proof (stop_expected f _ _ _ Hm Mm) as Q. destruct (merge_below f MR RM _ _ D R) as (Dm & Nm & _). pose proof inside as IN. pose proof (here_open _ _ _ _ Hm) as O.
  destruct O as [|h m' hint fl1 os1 D' NL R' F O|h m' ct hint fl1 os1 HL R' F O]; [discriminate Q| |]; cbn [expected] in Q; injection Q as Q.
  - rewrite Q in *. destruct (IN h m (or_introl eq_refl)) as [_ X]. apply X. exact (proj1 (proj2 MR) _ _ _ D' D).
  - rewrite Q in *. destruct (IN m m' (or_introl eq_refl)) as [(_ & X & _) _]. apply Nm. exact (dom_antisym f _ _ R Dm X).
Qed.
(** Branches to blocks where the search goes on are onward; others go to a dominator or a merge block. *)
Lemma goes_on : forall fl' os' n t, opened f fl' os' -> (forall o, In o os -> In o os') -> (forall m, declares f id m -> In (id, m) os') -> branches f id n t ->
  merges fl' t = false -> ~ dominates f t id.
Proof.
  intros fl' os' n t O SUB OWN B Mt D. assert (BE : back_edge f id n t) by (split; auto). destruct (proj1 (proj2 (proj2 (proj2 (proj2 MR)))) _ _ _ BE) as (x & ct & HL).
  pose proof (loop_declares f _ _ _ HL) as DC. assert (C : construct f t x id) by (split; [exact R|split; [exact D|exact (LC _ _ _ _ _ HL BE)]]).
  assert (NI : ~ In (t, x) os').
  { intros I. destruct (opened_in f _ _ O _ _ I) as (_ & _ & X & _). rewrite (X (ex_intro _ ct HL)) in Mt. discriminate Mt. }
  apply NI. exact (all_open f id os os' (here_all _ _ _ _ H) SUB OWN t x DC C).
Qed.
Lemma stops : forall fl' os' n t, here f t fl' os' -> (forall h m, In (h, m) os' -> construct f h m id) -> branches f id n t -> merges fl' t = true ->
  dominates f t id \/ exists h, declares f h t /\ reachable f h.
Proof.
  intros fl' os' n t H' IN B Mt. pose proof (stop_expected f _ _ _ H' Mt) as Q. pose proof (here_open _ _ _ _ H') as O.
  destruct O as [|h m' hint fl1 os1 D' NL R' F O|h m' ct hint fl1 os1 HL R' F O]; [discriminate Q| |]; cbn [expected] in Q; injection Q as Q; rewrite Q in *; [right; eauto|].
  left. destruct (IN t m' (or_introl eq_refl)) as (_ & X & _). exact X.
Qed.
End Step.

Variable steps : BlockId -> nat.
Hypothesis STEPS : forall id fl os b, here f id fl os -> merges fl id = false -> has_block f id b -> hits fl id b = steps id.

Lemma nat_stable : forall a c : nat, (a <> c -> False) -> a = c.
Proof. intros a c NN. destruct (Nat.eq_dec a c) as [Q|Q]; [exact Q|destruct (NN Q)]. Qed.

Lemma count_search : forall fl id c nx, Search f fl id c nx -> forall os, here f id fl os -> occurrences c v = hit fl id + list_sum (map steps (chain_ids c)).
Proof.
  unfold occurrences. intros fl id c nx S. induction S as [fl id M|fl id b op M HB BR|fl id b op c n M HB BR MG Hc IH
    |fl id b op lm inner after n M HB BR MG Hi IHi Ha IHa|fl id b op sm lhs rhs after n M HB BR MG Hl IHl Hr IHr Ha IHa
    |fl id b op head merge inner isb M HB BR MG L D Hi IHi]; intros os H.
  1: { unfold hit. rewrite M. cbn. rewrite andb_false_r. reflexivity. }
  all: pose proof (STEPS id fl os b H M HB) as ST; unfold hits in ST; rewrite BR in ST; try rewrite MG in ST;
    assert (ME : hit fl id = if N.eq_dec id v then 1 else 0) by (unfold hit; rewrite M; cbn [negb]; rewrite andb_true_r; destruct (N.eqb_spec id v), (N.eq_dec id v); congruence).
  - cbn [chain_ids map list_sum count_occ fold_right]. rewrite ME, <- ST. destruct (N.eq_dec id v); reflexivity.
  - rewrite chain_ids_block. cbn [chain_ids app count_occ map list_sum fold_right]. apply nat_stable. intros BAD.
    apply (step_same f ND MR CR SI id fl os 0 (OpBranch_target_label op) H M); [exists b; unfold branch_targets; rewrite BR; auto| |reflexivity|].
    + intros m D. apply (its_merge id b HB) in D. unfold merge_targets in D. rewrite MG in D. exact D.
    + intros Ht. specialize (IH os Ht). apply BAD. change (fold_right Nat.add 0) with list_sum. rewrite ME, IH, <- ST. destruct (N.eq_dec id v); cbn [Nat.add]; reflexivity.
  - pose proof (into_loop id fl os b H M HB lm MG) as O. set (m := OpLoopMerge_merge_block lm) in *. set (t := OpBranch_target_label op) in *. set (fl' := Converge_Loop id m (OpLoopMerge_loop_control lm) :: fl) in *.
    assert (D : declares f id m) by (apply (its_merge id b HB); unfold merge_targets; rewrite MG; left; reflexivity).
    assert (B : branches f id 0 t) by (exists b; unfold branch_targets; rewrite BR; auto).
    destruct (at_merge id fl os H M m D) as [Hm Mm]. specialize (IHa os Hm).
    rewrite chain_ids_block. cbn [chain_ids]. apply nat_stable. intros BAD.
    apply (step_into f ND MR CR RM SI id fl os _ m 0 t H M B D O (fun _ _ => eq_refl)). intros Ht. specialize (IHi _ Ht). apply BAD.
    cbn [app count_occ map list_sum fold_right]. rewrite count_occ_app, map_app. change (fold_right Nat.add 0) with list_sum. rewrite list_sum_app, ME, IHi, IHa, <- ST. set (s1 := list_sum _). set (s2 := list_sum _). clearbody s1 s2. destruct (N.eq_dec id v); lia.
  - pose proof (into_selection id fl os b H M HB sm MG) as O. set (m := OpSelectionMerge_merge_block sm) in *. set (t1 := OpBranchConditional_true_label op) in *. set (t2 := OpBranchConditional_false_label op) in *.
    set (fl' := Converge_If m (OpSelectionMerge_selection_control sm) :: fl) in *.
    assert (D : declares f id m) by (apply (its_merge id b HB); unfold merge_targets; rewrite MG; left; reflexivity).
    assert (B1 : branches f id 0 t1) by (exists b; unfold branch_targets; rewrite BR; auto).
    assert (B2 : branches f id 1 t2) by (exists b; unfold branch_targets; rewrite BR; auto).
    destruct (at_merge id fl os H M m D) as [Hm Mm]. specialize (IHa os Hm).
    rewrite chain_ids_block. cbn [chain_ids]. apply nat_stable. intros BAD.
    apply (step_into f ND MR CR RM SI id fl os _ m 0 t1 H M B1 D O (fun _ _ => eq_refl)). intros H1. specialize (IHl _ H1).
    apply (step_into f ND MR CR RM SI id fl os _ m 1 t2 H M B2 D O (fun ct HL => match not_loop id b HB sm m ct MG HL with end)). intros H2. specialize (IHr _ H2). apply BAD.
    cbn [app count_occ map list_sum fold_right]. rewrite !count_occ_app, !map_app. change (fold_right Nat.add 0) with list_sum. rewrite !list_sum_app, ME, IHl, IHr, IHa, <- ST. set (s1 := list_sum _). set (s2 := list_sum _). set (s3 := list_sum _). clearbody s1 s2 s3. destruct (N.eq_dec id v); lia.
  - assert (NIL : chain_ids (if isb then Break else Continue) = []) by (destruct isb; reflexivity). cbn [chain_ids]. rewrite NIL, app_nil_r. apply nat_stable. intros BAD.
    apply (step_same f ND MR CR SI id fl os 0 (OpBranchConditional_true_label op) H M); [exists b; unfold branch_targets; rewrite BR; auto| |reflexivity|].
    + intros m D'. apply (its_merge id b HB) in D'. unfold merge_targets in D'. rewrite MG in D'. exact D'.
    + intros Ht. specialize (IHi os Ht). apply BAD. cbn [count_occ map list_sum fold_right]. change (fold_right Nat.add 0) with list_sum. rewrite ME, IHi, <- ST. destruct (N.eq_dec id v); cbn [Nat.add]; reflexivity.
Qed.
End Occurs.

Section Counts.
Context {E : Type}.
Variable f : FunctionDefinition E.
Hypothesis ND : NoDup (labels f).
Hypothesis MR : merge_rules f.
Hypothesis CR : construct_rules f.
Hypothesis LC : loops_close f.
Hypothesis RM : merges_reached f.
Hypothesis SI : simple f.
Variable v : BlockId.

Lemma step_stable : forall id fl os b t n fl' os', here f id fl os -> merges fl id = false -> has_block f id b -> branches f id n t ->
  (fl' = fl /\ os' = os /\ n = 0 /\ BasicBlock_merge b = None \/ exists c m, fl' = c :: fl /\ os' = (id, m) :: os /\ declares f id m /\ opened f fl' os' /\ forall ct, heads_loop f id m ct -> n = 0) ->
  opened f fl' os' /\ (forall o, In o os -> In o os') /\ (forall m, declares f id m -> In (id, m) os') /\ (forall h m, In (h, m) os' -> construct f h m id)
  /\ ((here f t fl' os' -> False) -> False).
Proof.
  intros id fl os b t n fl' os' H M HB B K. pose proof (go_inside f _ _ _ H M) as IN. destruct K as [(-> & -> & -> & MG)|(c & m & -> & -> & D & O & N)].
  - assert (NONE : forall m, ~ declares f id m) by (intros m D; apply (its_merge f ND id b HB) in D; unfold merge_targets in D; rewrite MG in D; exact D).
    split; [exact (here_open _ _ _ _ H)|]. split; [auto|]. split; [intros m D; destruct (NONE m D)|]. split; [intros h m I; exact (proj1 (IN h m I))|].
    exact (step_same f ND MR CR SI id fl os 0 t H M B NONE eq_refl).
  - split; [exact O|]. split; [intros o I; right; exact I|]. split; [intros m' D'; rewrite (one_merge f ND _ _ _ D' D); left; reflexivity|].
    split; [|exact (step_into f ND MR CR RM SI id fl os c m n t H M B D O N)].
    intros h m' [Q|I]; [|exact (proj1 (IN h m' I))]. injection Q as <- <-. exact (own_construct f MR RM _ _ D (here_reached _ _ _ _ H)).
Qed.

(** ** Merge blocks *)
Section Merge.
Variable h0 : BlockId.
Hypothesis D0 : declares f h0 v.
Hypothesis R0 : reachable f h0.
Lemma merge_edge : forall id fl os fl' os' n t, here f id fl os -> opened f fl' os' -> (forall o, In o os -> In o os') -> (forall m, declares f id m -> In (id, m) os') -> branches f id n t ->
  (forall ct, heads_loop f h0 v ct -> innermost f id h0 v -> n = 1 -> False) -> hit v fl' t = 0.
Proof.
  intros id fl os fl' os' n t H O SUB OWN B NL. unfold hit. destruct (N.eqb t v) eqn:Q; [apply N.eqb_eq in Q|reflexivity]. destruct (merges fl' t) eqn:Mt; [reflexivity|]. exfalso.
  pose proof (goes_on f MR LC id fl os H fl' os' n t O SUB OWN B Mt) as NDm. rewrite Q in *. destruct (merge_below f MR RM _ _ D0 R0) as (Dm & Nm & Rm).
  assert (C : construct f h0 v id) by (split; [exact (here_reached _ _ _ _ H)|split; [exact (dom_edge f h0 id n v Dm B (fun X => Nm (eq_sym X)))|exact NDm]]).
  destruct (proj2 (proj2 (proj2 (proj2 SI))) h0 v id n v D0 B C (not_own_merge f _ _)) as (_ & IM & LOOP).
  pose proof (all_open f id os os' (here_all _ _ _ _ H) SUB OWN h0 v D0 C) as I. destruct (opened_in f _ _ O _ _ I) as (_ & _ & _ & X).
  rewrite X in Mt; [discriminate Mt|]. intros ct HL. exact (NL ct HL IM (LOOP ct HL)).
Qed.
Lemma merge_hits : forall id fl os b, here f id fl os -> merges fl id = false -> has_block f id b -> hits v fl id b = if N.eq_dec id h0 then 1 else 0.
Proof.
  intros id fl os b H M HB. pose proof (here_reached _ _ _ _ H) as R.
  assert (AM : forall m, declares f id m -> hit v fl m = if N.eq_dec id h0 then 1 else 0).
  { intros m D. destruct (at_merge f ND MR CR RM SI id fl os H M m D) as [_ Mm]. unfold hit. rewrite Mm. cbn [negb]. rewrite andb_true_r. destruct (N.eq_dec id h0) as [Q|Q].
    - rewrite Q in D. rewrite (one_merge f ND _ _ _ D D0), N.eqb_refl. reflexivity.
    - destruct (N.eqb m v) eqn:X; [|reflexivity]. apply N.eqb_eq in X. rewrite X in D. destruct (Q (proj1 (proj2 MR) _ _ _ D D0)). }
  assert (NOT : (forall m, ~ declares f id m) -> 0 = if N.eq_dec id h0 then 1 else 0) by (intros NO; destruct (N.eq_dec id h0) as [Q|Q]; [rewrite Q in NO; destruct (NO v D0)|reflexivity]).
  assert (NONE : BasicBlock_merge b = None -> forall m, ~ declares f id m) by (intros MG m D; apply (its_merge f ND id b HB) in D; unfold merge_targets in D; rewrite MG in D; exact D).
  assert (PLAIN : BasicBlock_merge b = None -> forall t, branches f id 0 t -> hit v fl t = if N.eq_dec id h0 then 1 else 0).
  { intros MG t B. rewrite <- (NOT (NONE MG)). destruct (step_stable id fl os b t 0 fl os H M HB B) as (O & SUB & OWN & _); [left; auto|].
    apply (merge_edge id fl os fl os 0 t H O SUB OWN B). intros ct _ _ X. discriminate X. }
  pose proof (proj1 (proj2 SI) id b HB R) as KIND. pose proof (its_targets f id b HB) as TG. unfold branch_targets in TG. unfold hits.
  assert (DM : forall m, In m (merge_targets b) -> declares f id m) by (intros m; apply (its_merge f ND id b HB)). unfold merge_targets in DM.
  destruct (BasicBlock_branch b) as [op|op|op] eqn:BR.
  - destruct (BasicBlock_merge b) as [[lm|sm]|] eqn:MG; [|destruct KIND|exact (PLAIN eq_refl _ (TG 0 _ eq_refl))].
    pose proof (DM _ (or_introl eq_refl)) as D. rewrite (AM _ D). pose proof (TG 0 _ eq_refl) as B.
    destruct (step_stable id fl os b (OpBranch_target_label op) 0 (Converge_Loop id (OpLoopMerge_merge_block lm) (OpLoopMerge_loop_control lm) :: fl) ((id, OpLoopMerge_merge_block lm) :: os) H M HB B) as (O & SUB & OWN & _); [right; eexists; exists (OpLoopMerge_merge_block lm); split; [reflexivity|]; split; [reflexivity|];
      split; [exact D|]; split; [exact (into_loop f id fl os b H M HB lm MG)|auto]|].
    rewrite (merge_edge id fl os _ _ 0 _ H O SUB OWN B); [reflexivity|]. intros ct _ _ X. discriminate X.
  - destruct (BasicBlock_merge b) as [[lm|sm]|] eqn:MG; [destruct KIND| |exact (PLAIN eq_refl _ (TG 0 _ eq_refl))].
    pose proof (DM _ (or_introl eq_refl)) as D. rewrite (AM _ D).
    assert (ARM : forall n t, branches f id n t -> hit v (Converge_If (OpSelectionMerge_merge_block sm) (OpSelectionMerge_selection_control sm) :: fl) t = 0).
    { intros n t B. destruct (step_stable id fl os b t n (Converge_If (OpSelectionMerge_merge_block sm) (OpSelectionMerge_selection_control sm) :: fl) ((id, OpSelectionMerge_merge_block sm) :: os) H M HB B) as (O & SUB & OWN & _); [right; eexists; exists (OpSelectionMerge_merge_block sm); split; [reflexivity|]; split; [reflexivity|];
        split; [exact D|]; split; [exact (into_selection f ND id fl os b H M HB sm MG)|]; intros ct HL; destruct (not_loop f ND id b HB sm _ ct MG HL)|].
      apply (merge_edge id fl os _ _ n t H O SUB OWN B). intros ct HL (_ & C & IM) _. destruct (IM _ _ D (own_construct f MR RM _ _ D R)) as (_ & X & _). destruct C as (_ & Y & _).
      pose proof (dom_antisym f _ _ R X Y) as Q. rewrite <- Q in HL. exact (not_loop f ND id b HB sm _ ct MG HL). }
    rewrite (ARM 0 _ (TG 0 _ eq_refl)), (ARM 1 _ (TG 1 _ eq_refl)). reflexivity.
  - apply NOT. intros m D. exact (proj1 (proj2 (proj2 SI)) id b op id m HB BR D (own_construct f MR RM _ _ D R)).
Qed.
End Merge.

(** ** Other blocks *)
Definition pair_dec : forall a b : BlockId * nat, {a = b} + {a <> b}.
Proof. intros [a1 a2] [b1 b2]. destruct (N.eq_dec a1 b1) as [->|N]; [|right; congruence]. destruct (Nat.eq_dec a2 b2) as [->|N]; [left; reflexivity|right; congruence]. Defined.
Definition from (id : BlockId) (l : list (BlockId * nat)) : nat := length (filter (fun e => N.eqb (fst e) id) l).
Lemma from_two : forall id l, (forall n, In (id, n) l -> n = 0 \/ n = 1) -> from id l = count_occ pair_dec l (id, 0) + count_occ pair_dec l (id, 1).
Proof.
  unfold from. intros id l. induction l as [|[u n] l IH]; intros K; [reflexivity|]. cbn [filter fst count_occ].
  assert (K' : forall n0, In (id, n0) l -> n0 = 0 \/ n0 = 1) by (intros n0 I; apply K; right; exact I). specialize (IH K'). destruct (N.eqb u id) eqn:Q.
  - apply N.eqb_eq in Q. subst u. cbn [length]. rewrite IH. destruct (K n (or_introl eq_refl)) as [->| ->].
    + destruct (pair_dec (id, 0) (id, 0)) as [_|X]; [|congruence]. destruct (pair_dec (id, 0) (id, 1)) as [X|_]; [congruence|]. lia.
    + destruct (pair_dec (id, 1) (id, 1)) as [_|X]; [|congruence]. destruct (pair_dec (id, 1) (id, 0)) as [X|_]; [congruence|]. lia.
  - apply N.eqb_neq in Q. destruct (pair_dec (u, n) (id, 0)) as [X|_]; [congruence|]. destruct (pair_dec (u, n) (id, 1)) as [X|_]; [congruence|]. exact IH.
Qed.
Lemma list_sum_zero : forall l : list BlockId, list_sum (map (fun _ => 0) l) = 0.
Proof. induction l as [|x l IH]; [reflexivity|exact IH]. Qed.
Lemma list_sum_plus : forall (g h : BlockId -> nat) l, list_sum (map (fun x => g x + h x) l) = list_sum (map g l) + list_sum (map h l).
Proof. intros g h l. induction l as [|x l IH]; [reflexivity|]. cbn [map]. change (list_sum (?a :: ?r)) with (a + list_sum r). cbn [list_sum fold_right]. change (fold_right Nat.add 0) with list_sum. rewrite IH. lia. Qed.
Lemma list_sum_is : forall h (l : list BlockId), list_sum (map (fun x => if N.eq_dec x h then 1 else 0) l) = count_occ (A := BlockId) N.eq_dec l h.
Proof. intros h l. induction l as [|x l IH]; [reflexivity|]. cbn [map list_sum fold_right count_occ]. change (fold_right Nat.add 0) with list_sum. rewrite IH. destruct (N.eq_dec x h); reflexivity. Qed.
Lemma swap : forall (ids : list BlockId) (l : list (BlockId * nat)),
  list_sum (map (fun x => from x l) ids) = list_sum (map (fun e => count_occ (A := BlockId) N.eq_dec ids (fst e)) l).
Proof.
  intros ids l. induction l as [|[u n] l IH]; [exact (list_sum_zero ids)|]. cbn [map list_sum fold_right fst]. change (fold_right Nat.add 0) with list_sum. rewrite <- IH, <- list_sum_is.
  rewrite <- list_sum_plus. f_equal. apply map_ext. intros x. unfold from. cbn [filter fst]. destruct (N.eqb u x) eqn:Q, (N.eq_dec x u) as [X|X]; cbn [length]; try reflexivity.
  - apply N.eqb_eq in Q. congruence.
  - apply N.eqb_neq in Q. congruence.
Qed.

Section Other.
Hypothesis NM : forall h, declares f h v -> ~ reachable f h.
Variable l : list (BlockId * nat).
Hypothesis NDl : NoDup l.
Hypothesis ALLl : forall u n, In (u, n) l <-> branches f u n v /\ reachable f u /\ ~ dominates f v u.
Lemma other_edge : forall id fl os b n t fl' os', here f id fl os -> has_block f id b -> opened f fl' os' -> (forall o, In o os -> In o os') -> (forall m, declares f id m -> In (id, m) os') ->
  (forall h m, In (h, m) os' -> construct f h m id) -> ((here f t fl' os' -> False) -> False) -> branches f id n t -> hit v fl' t = count_occ pair_dec l (id, n).
Proof.
  intros id fl os b n t fl' os' H HB O SUB OWN IN Ht B. pose proof (here_reached _ _ _ _ H) as R. unfold hit.
  assert (NOT : ~ In (id, n) l -> 0 = count_occ pair_dec l (id, n)) by (intros NI; symmetry; exact (proj1 (count_occ_not_In pair_dec l (id, n)) NI)).
  destruct (N.eqb t v) eqn:Q; [apply N.eqb_eq in Q|apply N.eqb_neq in Q].
  - destruct (merges fl' t) eqn:Mt; cbn [negb andb].
    + apply NOT. intros I. apply ALLl in I as (_ & _ & NDm). apply Ht. intros Ht'. destruct (stops f id fl' os' n t Ht' IN B Mt) as [X|(h & X & Y)]; rewrite Q in X; [exact (NDm X)|exact (NM h X Y)].
    + symmetry. apply (proj1 (NoDup_count_occ' pair_dec l) NDl). apply ALLl. pose proof (goes_on f MR LC id fl os H fl' os' n t O SUB OWN B Mt) as X. rewrite Q in *. auto.
  - cbn [andb]. apply NOT. intros I. apply ALLl in I as (B' & _). apply (its_branches f ND id b HB) in B, B'. congruence.
Qed.
Lemma other_hits : forall id fl os b, here f id fl os -> merges fl id = false -> has_block f id b -> hits v fl id b = from id l.
Proof.
  intros id fl os b H M HB. pose proof (here_reached _ _ _ _ H) as R.
  assert (AM : forall m, declares f id m -> hit v fl m = 0).
  { intros m D. unfold hit. destruct (N.eqb m v) eqn:X; [|reflexivity]. apply N.eqb_eq in X. rewrite X in D. destruct (NM _ D R). }
  assert (PLAIN : BasicBlock_merge b = None -> forall t, branches f id 0 t -> hit v fl t = count_occ pair_dec l (id, 0)).
  { intros MG t B. destruct (step_stable id fl os b t 0 fl os H M HB B) as (O & SUB & OWN & IN & Ht); [left; auto|]. exact (other_edge id fl os b 0 t fl os H HB O SUB OWN IN Ht B). }
  pose proof (proj1 (proj2 SI) id b HB R) as KIND. pose proof (its_targets f id b HB) as TG. pose proof (its_branches f ND id b HB) as GT. unfold branch_targets in TG, GT. unfold hits.
  assert (DM : forall m, In m (merge_targets b) -> declares f id m) by (intros m; apply (its_merge f ND id b HB)). unfold merge_targets in DM.
  assert (NOT : forall n, (forall t, ~ branches f id n t) -> count_occ pair_dec l (id, n) = 0).
  { intros n NB. apply count_occ_not_In. intros I. apply ALLl in I as (B & _). exact (NB _ B). }
  assert (TWO : (forall n t, branches f id n t -> n = 0 \/ n = 1) -> from id l = count_occ pair_dec l (id, 0) + count_occ pair_dec l (id, 1)).
  { intros K. apply from_two. intros n I. apply ALLl in I as (B & _). exact (K _ _ B). }
  destruct (BasicBlock_branch b) as [op|op|op] eqn:BR.
  - rewrite TWO by (intros [|[|n]] t B; auto; apply GT in B; destruct n; discriminate B). rewrite (NOT 1) by (intros t B; apply GT in B; discriminate B). rewrite Nat.add_0_r.
    destruct (BasicBlock_merge b) as [[lm|sm]|] eqn:MG; [|destruct KIND|exact (PLAIN eq_refl _ (TG 0 _ eq_refl))].
    pose proof (DM _ (or_introl eq_refl)) as D. rewrite (AM _ D), Nat.add_0_r. pose proof (TG 0 _ eq_refl) as B.
    destruct (step_stable id fl os b (OpBranch_target_label op) 0 (Converge_Loop id (OpLoopMerge_merge_block lm) (OpLoopMerge_loop_control lm) :: fl) ((id, OpLoopMerge_merge_block lm) :: os) H M HB B) as (O & SUB & OWN & IN & Ht); [right; eexists; exists (OpLoopMerge_merge_block lm); split; [reflexivity|]; split; [reflexivity|];
      split; [exact D|]; split; [exact (into_loop f id fl os b H M HB lm MG)|auto]|].
    exact (other_edge id fl os b 0 _ _ _ H HB O SUB OWN IN Ht B).
  - rewrite TWO by (intros [|[|n]] t B; auto; apply GT in B; destruct n; discriminate B).
    destruct (BasicBlock_merge b) as [[lm|sm]|] eqn:MG; [destruct KIND| |].
    + pose proof (DM _ (or_introl eq_refl)) as D. rewrite (AM _ D), Nat.add_0_r.
      assert (ARM : forall n t, branches f id n t -> hit v (Converge_If (OpSelectionMerge_merge_block sm) (OpSelectionMerge_selection_control sm) :: fl) t = count_occ pair_dec l (id, n)).
      { intros n t B. destruct (step_stable id fl os b t n (Converge_If (OpSelectionMerge_merge_block sm) (OpSelectionMerge_selection_control sm) :: fl) ((id, OpSelectionMerge_merge_block sm) :: os) H M HB B) as (O & SUB & OWN & IN & Ht); [right; eexists; exists (OpSelectionMerge_merge_block sm); split; [reflexivity|]; split; [reflexivity|];
          split; [exact D|]; split; [exact (into_selection f ND id fl os b H M HB sm MG)|]; intros ct HL; destruct (not_loop f ND id b HB sm _ ct MG HL)|].
        exact (other_edge id fl os b n t _ _ H HB O SUB OWN IN Ht B). }
      rewrite (ARM 0 _ (TG 0 _ eq_refl)), (ARM 1 _ (TG 1 _ eq_refl)). reflexivity.
    + rewrite (PLAIN eq_refl _ (TG 0 _ eq_refl)). replace (count_occ pair_dec l (id, 1)) with 0; [lia|]. symmetry. apply count_occ_not_In. intros I. apply ALLl in I as (B & _).
      apply GT in B. injection B as B. destruct (proj1 (proj2 (proj2 (proj2 SI))) id b op HB R BR MG) as (h & m & ct & HL & (D & C & _) & Q).
      apply (NM h); [rewrite <- B, Q; exact D|exact (construct_reaches f _ _ _ C)].
  - symmetry. rewrite TWO by (intros [|n] t B; auto; apply GT in B; destruct n; discriminate B).
    rewrite (NOT 0), (NOT 1); [reflexivity| |]; intros t B; apply GT in B; discriminate B.
Qed.
End Other.
End Counts.
