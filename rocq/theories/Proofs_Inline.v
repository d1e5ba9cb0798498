(** Inlining, C122. *)
From Coq Require Import Permutation.
From Verif Require Import Base Types Ops Groups ExtSet ControlFlow Spec_Flow Spec_Split Spec_Inline Proofs_Flow Proofs_Flow2 Proofs_Flow3 Proofs_Split.

Section Chains.
Context (b n : BlockId) (body : ControlFlowChain).
Local Notation inline_chain := (inline_chain b n body).
Local Notation inline_parts := (inline_parts b n body).

Lemma block_steps : forall x y, block [x; y] = Block (steps_of x ++ steps_of y).
Proof. intros x y. unfold block. destruct x, y; reflexivity. Qed.
Lemma two_parts : forall x l y, exists p q r, x :: l ++ [y] = p :: q :: r :> list ControlFlowChain.
Proof. intros x [|z l] y; cbn; eauto. Qed.
Lemma together_two : forall c x l y, together c (x :: l ++ [y]) = Block (x :: l ++ [y]).
Proof. intros c x l y. destruct (two_parts x l y) as (p & q & r & ->). destruct c; reflexivity. Qed.
Lemma steps_inline : forall c, steps_of (inline_chain c) = flat_map inline_parts (steps_of c).
Proof.
  intros c. destruct c; cbn [steps_of flat_map]; rewrite ?app_nil_r; unfold Spec_Inline.inline_chain; try reflexivity.
  - cbn [Spec_Inline.inline_parts]. destruct (N.eqb id b); [rewrite together_two|]; reflexivity.
  - cbn [Spec_Inline.inline_parts]. cbv zeta. destruct (N.eqb id b); [rewrite together_two|]; reflexivity.
Qed.
Lemma inline_block : forall x y, inline_chain (block [x; y]) = Block (flat_map inline_parts (steps_of x) ++ flat_map inline_parts (steps_of y)).
Proof. intros x y. rewrite block_steps, <- flat_map_app. reflexivity. Qed.
End Chains.

Section Search.
Context {E : Type} (b n : BlockId) (body : ControlFlowChain) (inner : BlockId -> Prop).
Local Notation inline_chain := (inline_chain b n body).
Local Notation moved := (moved b n).
Local Notation inline_error := (inline_error b n).
Local Notation search := (list (BlockId * BasicBlock E)).

Definition inline_found (r : outcome ControlFlowError (ControlFlowChain * Cont)) : outcome ControlFlowError (ControlFlowChain * Cont) :=
  match r with Ok (c, k) => Ok (inline_chain c, k) | Err e => Err (inline_error e) | Panic => Panic | OutOfFuel => OutOfFuel end.

(* neither n nor ids of the inlined function are in the flow list *)
Definition mine (id : BlockId) : Prop := id = n \/ inner id.
Definition apart (fl : FlowList) : Prop := Forall (fun c => match c with Converge_If j _ => ~ mine j | Converge_Loop h m _ => ~ mine h /\ ~ mine m end) fl.
Lemma apart_merges : forall fl id, apart fl -> mine id -> merges fl id = false.
Proof.
  intros fl id H I. induction H as [|c fl H _ IH]; [reflexivity|]. destruct c as [j h|j m h]; cbn.
  - destruct (N.eqb j id) eqn:Q; [apply N.eqb_eq in Q; subst; contradiction|exact IH].
  - destruct H as [H _]. destruct (N.eqb j id) eqn:Q; [apply N.eqb_eq in Q; subst; contradiction|exact IH].
Qed.
Lemma merges_app : forall a c id, merges (a ++ c) id = merges a id || merges c id.
Proof. induction a as [|[j h|j m h] a IH]; intros c id; cbn; [reflexivity| |]; destruct (N.eqb j id); cbn; auto. Qed.
Lemma innermost_app : forall a c x, innermost_loop a = Some x -> innermost_loop (a ++ c) = Some x.
Proof. induction a as [|[j h|j m h] a IH]; intros c x H; cbn in *; [discriminate H| |]; auto. Qed.

(* the body and what follows *)
Definition followed (c : ControlFlowChain) (r : outcome ControlFlowError (ControlFlowChain * Cont)) : outcome ControlFlowError (ControlFlowChain * Cont) :=
  bind r (fun '(d, k) => Ok (block [c; d], k)).
Lemma followed_block : forall x c r, bind (followed c r) (fun '(d, k) => Ok (block [x; d], k)) = followed (block [x; c]) r.
Proof. intros x c [[d k]|e| |]; try reflexivity. cbn [followed bind]. rewrite !block_steps. cbn [steps_of]. rewrite app_assoc. reflexivity. Qed.
Lemma followed_oof : forall c r, followed c r <> OutOfFuel -> r <> OutOfFuel.
Proof. intros c r H ->. apply H. reflexivity. Qed.

(** ** Inside of the inlined function *)
Context (mh m' : BlockMap (E := E)).
Hypothesis HH : forall id x, map_get id mh = Some x -> exists y, map_get id m' = Some y
  /\ match BasicBlock_branch x with
     | GroupBranch_OpReturn _ => BasicBlock_merge y = None /\ BasicBlock_branch y = GroupBranch_OpBranch (Build_OpBranch n)
     | _ => BasicBlock_merge y = BasicBlock_merge x /\ BasicBlock_branch y = BasicBlock_branch x
     end.
Hypothesis HT : forall id x t, map_get id mh = Some x -> In t (branch_targets x) \/ In t (merge_targets x) -> inner t.

Lemma step_Ok_cases : forall (rec : BlockId -> FlowList -> outcome ControlFlowError (ControlFlowChain * Cont)) id fl (x : BasicBlock E) c k,
  step rec id fl x = Ok (c, k) ->
  (exists op, BasicBlock_branch x = GroupBranch_OpReturn op /\ c = Atom id /\ k = Cont_Return)
  \/ (exists op c1, BasicBlock_branch x = GroupBranch_OpBranch op /\ BasicBlock_merge x = None /\ rec (OpBranch_target_label op) fl = Ok (c1, k) /\ c = block [Atom id; c1])
  \/ (exists op lm c1 c2, BasicBlock_branch x = GroupBranch_OpBranch op /\ BasicBlock_merge x = Some (GroupMerge_OpLoopMerge lm)
      /\ rec (OpBranch_target_label op) (Converge_Loop id (OpLoopMerge_merge_block lm) (OpLoopMerge_loop_control lm) :: fl) = Ok (c1, Cont_Next id)
      /\ rec (OpLoopMerge_merge_block lm) fl = Ok (c2, k) /\ c = block [Loop id c1 (OpLoopMerge_loop_control lm) None; c2])
  \/ (exists op sel c1 c2 c3, BasicBlock_branch x = GroupBranch_OpBranchConditional op /\ BasicBlock_merge x = Some (GroupMerge_OpSelectionMerge sel)
      /\ rec (OpBranchConditional_true_label op) (Converge_If (OpSelectionMerge_merge_block sel) (OpSelectionMerge_selection_control sel) :: fl) = Ok (c1, Cont_Next (OpSelectionMerge_merge_block sel))
      /\ rec (OpBranchConditional_false_label op) (Converge_If (OpSelectionMerge_merge_block sel) (OpSelectionMerge_selection_control sel) :: fl) = Ok (c2, Cont_Next (OpSelectionMerge_merge_block sel))
      /\ rec (OpSelectionMerge_merge_block sel) fl = Ok (c3, k)
      /\ c = block [Selection id c1 c2 (OpSelectionMerge_selection_control sel) (OpBranchConditional_weights op); c3])
  \/ (exists op head merge c1, BasicBlock_branch x = GroupBranch_OpBranchConditional op /\ BasicBlock_merge x = None /\ innermost_loop fl = Some (head, merge)
      /\ N.eqb (OpBranchConditional_false_label op) merge || N.eqb (OpBranchConditional_false_label op) head = true
      /\ rec (OpBranchConditional_true_label op) fl = Ok (c1, Cont_Next head) /\ k = Cont_Next head
      /\ c = Selection id c1 (if N.eqb (OpBranchConditional_false_label op) merge then Break else Continue) SelectionControl_default (OpBranchConditional_weights op)).
Proof.
  intros rec id fl x c k H. unfold step in H. destruct (BasicBlock_branch x) as [op|op|op].
  - destruct (BasicBlock_merge x) as [[lm|sm]|]; [|discriminate H|].
    + apply bind_Ok in H as ([c1 k1] & H1 & H). destruct (cont_eqb k1 (Cont_Next id)) eqn:Q; [|discriminate H]. apply cont_eqb_eq in Q. subst k1.
      apply bind_Ok in H as ([c2 k2] & H2 & H). injection H as <- <-. right. right. left. exists op, lm, c1, c2. auto.
    + apply bind_Ok in H as ([c1 k1] & H1 & H). injection H as <- <-. right. left. exists op, c1. auto.
  - destruct (BasicBlock_merge x) as [[lm|sm]|]; [discriminate H| |].
    + apply bind_Ok in H as ([c1 k1] & H1 & H). apply bind_Ok in H as ([c2 k2] & H2 & H).
      destruct (cont_eqb k1 k2 && cont_eqb k1 (Cont_Next (OpSelectionMerge_merge_block sm))) eqn:Q; [|discriminate H].
      apply Bool.andb_true_iff in Q as [Q1 Q2]. apply cont_eqb_eq in Q1, Q2. subst k2 k1.
      apply bind_Ok in H as ([c3 k3] & H3 & H). injection H as <- <-. do 3 right. left. exists op, sm, c1, c2, c3. auto 8.
    + destruct (innermost_loop fl) as [[head merge]|] eqn:I; [|discriminate H]. destruct (_ || _) eqn:O; [|discriminate H].
      apply bind_Ok in H as ([c1 k1] & H1 & H). destruct (cont_eqb k1 (Cont_Next head)) eqn:Q; [|discriminate H]. apply cont_eqb_eq in Q. subst k1.
      injection H as <- <-. do 4 right. exists op, head, merge, c1. auto 8.
  - injection H as <- <-. left. eauto.
Qed.


Lemma targets_inner : forall id x, map_get id mh = Some x ->
  match BasicBlock_branch x with
  | GroupBranch_OpBranch op => inner (OpBranch_target_label op)
  | GroupBranch_OpBranchConditional op => inner (OpBranchConditional_true_label op) /\ inner (OpBranchConditional_false_label op)
  | GroupBranch_OpReturn _ => True
  end
  /\ match BasicBlock_merge x with
     | Some (GroupMerge_OpLoopMerge lm) => inner (OpLoopMerge_merge_block lm)
     | Some (GroupMerge_OpSelectionMerge sm) => inner (OpSelectionMerge_merge_block sm)
     | None => True
     end.
Proof.
  intros id x G. assert (T := fun t => HT id x t G). unfold branch_targets, merge_targets in T. split.
  - destruct (BasicBlock_branch x) as [op|op|op]; [apply T; left; left; reflexivity|split; apply T; left; [left|right; left]; reflexivity|exact I].
  - destruct (BasicBlock_merge x) as [[lm|sm]|]; [apply T; right; left; reflexivity..|exact I].
Qed.

Lemma body_next : forall d id flh c x, search_block d id flh mh = Ok (c, Cont_Next x) -> inner id ->
  forall fl, apart fl -> search_block d id (flh ++ fl) m' = Ok (c, Cont_Next x).
Proof.
  induction d as [|d IH]; intros id flh c x H I fl A; [discriminate H|]. rewrite search_step in H |- *.
  rewrite merges_app, (apart_merges fl id A (or_intror I)), Bool.orb_false_r. destruct (merges flh id); [exact H|].
  destruct (map_get id mh) as [blk|] eqn:G; [|discriminate H]. destruct (HH _ _ G) as (y & G' & Y). rewrite G'.
  destruct (targets_inner _ _ G) as [TB TM].
  apply step_Ok_cases in H.
  destruct H as [(op & B & _ & K)|[(op & c1 & B & M & R & ->)|[(op & lm & c1 & c2 & B & M & R1 & R2 & ->)|[(op & sel & c1 & c2 & c3 & B & M & R1 & R2 & R3 & ->)|(op & head & merge & c1 & B & M & L & O & R & K & ->)]]]];
    [discriminate K| | | |]; rewrite B in Y, TB; rewrite M in TM; destruct Y as [Y1 Y2]; unfold step; rewrite Y2, Y1, M.
  - rewrite (IH _ _ _ _ R TB fl A). reflexivity.
  - assert (X := IH _ _ _ _ R1 TB fl A). cbn [app] in X. rewrite X. cbn [bind cont_eqb]. rewrite N.eqb_refl, (IH _ _ _ _ R2 TM fl A). reflexivity.
  - destruct TB as [T1 T2]. cbv zeta. assert (X1 := IH _ _ _ _ R1 T1 fl A). assert (X2 := IH _ _ _ _ R2 T2 fl A). cbn [app] in X1, X2. rewrite X1, X2.
    cbn [bind cont_eqb]. rewrite N.eqb_refl. cbn [andb]. rewrite (IH _ _ _ _ R3 TM fl A). reflexivity.
  - destruct TB as [T1 T2]. rewrite (innermost_app _ fl _ L), O, (IH _ _ _ _ R T1 fl A). cbn [bind cont_eqb]. rewrite N.eqb_refl. injection K as ->. reflexivity.
Qed.

Lemma search_up : forall d e id fl (m : BlockMap (E := E)) r, search_block d id fl m = Ok r -> d <= e -> search_block e id fl m = Ok r.
Proof. intros d e id fl m r H L. replace e with ((e - d) + d) by lia. rewrite search_mono; [exact H|]. rewrite H. discriminate. Qed.

(* where the inlined function returned, the search goes on at n *)
Lemma body_return : forall d id c, search_block d id [] mh = Ok (c, Cont_Return) -> inner id ->
  exists p, forall fl e, apart fl -> d <= e -> search_block (p + e) id fl m' = followed c (search_block e n fl m').
Proof.
  induction d as [|d IH]; intros id c H I; [discriminate H|]. rewrite search_step in H. cbn [merges] in H.
  destruct (map_get id mh) as [blk|] eqn:G; [|discriminate H]. destruct (HH _ _ G) as (y & G' & Y).
  destruct (targets_inner _ _ G) as [TB TM].
  assert (U : forall p fl, apart fl -> search_block (S p) id fl m' = step (fun id fl => search_block p id fl m') id fl y).
  { intros p fl A. rewrite search_step, (apart_merges fl id A (or_intror I)), G'. reflexivity. }
  apply step_Ok_cases in H.
  destruct H as [(op & B & -> & K)|[(op & c1 & B & M & R & ->)|[(op & lm & c1 & c2 & B & M & R1 & R2 & ->)|[(op & sel & c1 & c2 & c3 & B & M & R1 & R2 & R3 & ->)|(op & head & merge & c1 & B & M & L & O & R & K & ->)]]]];
    [| | | |discriminate K]; rewrite B in Y, TB; destruct Y as [Y1 Y2]; [|rewrite M in TM, Y1..].
  - exists 1. intros fl e A L. cbn [Nat.add]. rewrite (U _ _ A). unfold step. rewrite Y2, Y1. reflexivity.
  - destruct (IH _ _ R TB) as [p P]. exists (S p). intros fl e A L. cbn [Nat.add]. rewrite (U _ _ A). unfold step. rewrite Y2, Y1, P by (assumption || lia). apply followed_block.
  - destruct (IH _ _ R2 TM) as [p P]. exists (S p). intros fl e A L. cbn [Nat.add]. rewrite (U _ _ A). unfold step. rewrite Y2, Y1.
    assert (X := body_next _ _ _ _ _ R1 TB fl A). cbn [app] in X. rewrite (search_up _ (p + e) _ _ _ _ X) by lia. cbn [bind cont_eqb].
    rewrite N.eqb_refl, P by (assumption || lia). apply followed_block.
  - destruct TB as [T1 T2]. destruct (IH _ _ R3 TM) as [p P]. exists (S p). intros fl e A L. cbn [Nat.add]. rewrite (U _ _ A). unfold step. rewrite Y2, Y1. cbv zeta.
    assert (X1 := body_next _ _ _ _ _ R1 T1 fl A). assert (X2 := body_next _ _ _ _ _ R2 T2 fl A). cbn [app] in X1, X2.
    rewrite (search_up _ (p + e) _ _ _ _ X1), (search_up _ (p + e) _ _ _ _ X2) by lia. cbn [bind cont_eqb].
    rewrite N.eqb_refl. cbn [andb]. rewrite P by (assumption || lia). apply followed_block.
Qed.

(* and a search that ends has gone on there *)
Lemma bind_oof : forall {A B X} (r : outcome X A) (K : A -> outcome X B), bind r K <> OutOfFuel -> r <> OutOfFuel.
Proof. intros A B X r K H ->. apply H. reflexivity. Qed.
Lemma body_past : forall d id c, search_block d id [] mh = Ok (c, Cont_Return) -> inner id ->
  forall fl e, apart fl -> search_block e id fl m' <> OutOfFuel -> exists e2, e2 < e /\ search_block e2 n fl m' <> OutOfFuel.
Proof.
  induction d as [|d IH]; intros id c H I fl e A N; [discriminate H|]. destruct e as [|e]; [destruct N; reflexivity|]. rewrite search_step in H. cbn [merges] in H.
  destruct (map_get id mh) as [blk|] eqn:G; [|discriminate H]. destruct (HH _ _ G) as (y & G' & Y).
  destruct (targets_inner _ _ G) as [TB TM]. rewrite search_step, (apart_merges fl id A (or_intror I)), G' in N.
  apply step_Ok_cases in H.
  destruct H as [(op & B & -> & K)|[(op & c1 & B & M & R & ->)|[(op & lm & c1 & c2 & B & M & R1 & R2 & ->)|[(op & sel & c1 & c2 & c3 & B & M & R1 & R2 & R3 & ->)|(op & head & merge & c1 & B & M & L & O & R & K & ->)]]]];
    [| | | |discriminate K]; rewrite B in Y, TB; destruct Y as [Y1 Y2]; [|rewrite M in TM, Y1..]; unfold step in N; rewrite Y2, Y1 in N; cbv zeta in N.
  - apply bind_oof in N. exists e. split; [lia|exact N].
  - apply bind_oof in N. destruct (IH _ _ R TB fl e A N) as (e2 & L & Z). exists e2. split; [lia|exact Z].
  - assert (X := body_next _ _ _ _ _ R1 TB fl A). cbn [app] in X. assert (N1 := bind_oof _ _ N).
    assert (Q := search_agree m' _ d _ _ N1). rewrite X in Q. specialize (Q ltac:(discriminate)). rewrite Q in N. cbn [bind cont_eqb] in N. rewrite N.eqb_refl in N.
    apply bind_oof in N. destruct (IH _ _ R2 TM fl e A N) as (e2 & L & Z). exists e2. split; [lia|exact Z].
  - destruct TB as [T1 T2]. assert (X1 := body_next _ _ _ _ _ R1 T1 fl A). assert (X2 := body_next _ _ _ _ _ R2 T2 fl A). cbn [app] in X1, X2.
    assert (N1 := bind_oof _ _ N). assert (Q := search_agree m' _ d _ _ N1). rewrite X1 in Q. specialize (Q ltac:(discriminate)). rewrite Q in N. cbn [bind] in N.
    assert (N2 := bind_oof _ _ N). clear Q. assert (Q := search_agree m' _ d _ _ N2). rewrite X2 in Q. specialize (Q ltac:(discriminate)). rewrite Q in N. cbn [bind cont_eqb] in N.
    rewrite N.eqb_refl in N. cbn [andb] in N. apply bind_oof in N. destruct (IH _ _ R3 TM fl e A N) as (e2 & L & Z). exists e2. split; [lia|exact Z].
Qed.

(** ** Outside of it *)
Context (m : BlockMap (E := E)) (cut first second : BasicBlock E) (start : BlockId) (depth : nat).
Hypothesis HBODY : search_block depth start [] mh = Ok (body, Cont_Return).
Hypothesis HS : inner start.
Hypothesis HB : map_get b m = Some cut.
Hypothesis HB' : map_get b m' = Some first.
Hypothesis HN' : map_get n m' = Some second.
Hypothesis HO : forall id, id <> b -> ~ mine id ->
  match map_get id m, map_get id m' with
  | Some x, Some y => BasicBlock_branch y = BasicBlock_branch x /\ BasicBlock_merge y = BasicBlock_merge x
  | None, None => True
  | _, _ => False
  end.
Hypothesis BN : ~ mine b.
Hypothesis F1 : BasicBlock_branch first = GroupBranch_OpBranch (Build_OpBranch start).
Hypothesis F2 : BasicBlock_merge first = None.
Hypothesis S1 : BasicBlock_branch second = BasicBlock_branch cut.
Hypothesis S2 : BasicBlock_merge second = BasicBlock_merge cut.
Hypothesis NL : ~ begins_loop cut.
Hypothesis FR : forall id x t, map_get id m = Some x -> In t (branch_targets x) \/ In t (merge_targets x) -> ~ mine t.

Definition past (id : BlockId) (r : outcome ControlFlowError (ControlFlowChain * Cont)) : outcome ControlFlowError (ControlFlowChain * Cont) :=
  bind r (fun '(c, k) => Ok (if N.eqb id b then block [block [Atom b; body]; c] else c, k)).
Definition akin (ahead : bool) (r r' : outcome ControlFlowError (ControlFlowChain * Cont)) : Prop :=
  (if ahead then r' else r) <> OutOfFuel -> r' = inline_found r.
Lemma akin_bind : forall ahead id r r' K K', akin ahead r r' ->
  (forall c k, akin ahead (K (c, k)) (past id (K' (inline_chain c, k)))) -> akin ahead (bind r K) (past id (bind r' K')).
Proof.
  intros ahead id r r' K K' H HK. unfold akin in H.
  assert (D : r' = inline_found r \/ (r' = OutOfFuel /\ ahead = true) \/ (r = OutOfFuel /\ ahead = false)).
  { destruct ahead; [destruct r'|destruct r]; auto; left; apply H; discriminate. }
  destruct D as [->|[[-> ->]|[-> ->]]]; [|intros X; exfalso; apply X; reflexivity|intros X; exfalso; apply X; reflexivity].
  destruct r as [[c k]|e| |]; cbn [inline_found bind]; [apply HK|intros _; reflexivity..].
Qed.
Lemma akin_refl : forall ahead r r', r' = inline_found r -> akin ahead r r'.
Proof. intros ahead r r' H _. exact H. Qed.

Lemma step_inline : forall ahead rec rec' id fl (blk : BasicBlock E), apart fl -> ~ mine id ->
  (id = b -> ~ begins_loop blk) -> (forall t, In t (branch_targets blk) \/ In t (merge_targets blk) -> ~ mine t) ->
  (forall x fl, apart fl -> ~ mine x -> akin ahead (rec x fl) (rec' x fl)) ->
  akin ahead (step rec id fl blk) (past id (step rec' (moved id) fl blk)).
Proof.
  intros ahead rec rec' id fl blk C N L T R. unfold step, Spec_Inline.moved.
  unfold branch_targets, merge_targets in T. unfold begins_loop in L.
  destruct (BasicBlock_branch blk) as [op|op|op].
  - destruct (BasicBlock_merge blk) as [[lm|sm]|].
    + destruct (N.eqb id b) eqn:Q; [apply N.eqb_eq in Q; exfalso; apply (L Q); eauto|].
      apply akin_bind; [apply R; [constructor; [split; [exact N|apply T; right; left; reflexivity]|exact C]|apply T; left; left; reflexivity]|].
      intros c k. destruct (cont_eqb k (Cont_Next id)).
      * apply akin_bind; [apply R; [exact C|apply T; right; left; reflexivity]|]. intros c2 k2. apply akin_refl.
        unfold past. cbn [bind inline_found]. rewrite Q, inline_block, block_steps, steps_inline. reflexivity.
      * apply akin_refl. cbn. unfold Spec_Inline.moved. rewrite Q. reflexivity.
    + apply akin_refl. reflexivity.
    + apply akin_bind; [apply R; [exact C|apply T; left; left; reflexivity]|]. intros c k. apply akin_refl.
      unfold past. cbn [bind inline_found]. rewrite inline_block, !block_steps, steps_inline. cbn [steps_of flat_map inline_parts].
      destruct (N.eqb id b) eqn:Q; [apply N.eqb_eq in Q; subst; cbn; rewrite !app_nil_r, <- !app_assoc|]; reflexivity.
  - destruct (BasicBlock_merge blk) as [[lm|sm]|].
    + apply akin_refl. reflexivity.
    + set (fl' := Converge_If _ _ :: fl).
      assert (C' : apart fl') by (constructor; [apply T; right; left; reflexivity|exact C]).
      apply akin_bind; [apply R; [exact C'|apply T; left; left; reflexivity]|]. intros c k.
      apply akin_bind; [apply R; [exact C'|apply T; left; right; left; reflexivity]|]. intros c2 k2.
      destruct (cont_eqb k k2 && cont_eqb k (Cont_Next (OpSelectionMerge_merge_block sm))).
      * apply akin_bind; [apply R; [exact C|apply T; right; left; reflexivity]|]. intros c3 k3. apply akin_refl.
        unfold past. cbn [bind inline_found]. rewrite inline_block, !block_steps, steps_inline. cbn [steps_of flat_map inline_parts]. cbv zeta.
        destruct (N.eqb id b) eqn:Q; [apply N.eqb_eq in Q; subst; cbn; rewrite !app_nil_r, <- !app_assoc|]; reflexivity.
      * apply akin_refl. reflexivity.
    + destruct (innermost_loop fl) as [[h mg]|]; [|apply akin_refl; reflexivity].
      destruct (_ || _); [|apply akin_refl; reflexivity].
      apply akin_bind; [apply R; [exact C|apply T; left; left; reflexivity]|]. intros c k.
      destruct (cont_eqb k (Cont_Next h)); [|apply akin_refl; reflexivity]. apply akin_refl.
      unfold past. cbn [bind inline_found]. unfold Spec_Inline.inline_chain. cbn [inline_parts]. cbv zeta. destruct (N.eqb id b) eqn:Q.
      * apply N.eqb_eq in Q. subst. rewrite together_two, !block_steps. destruct (N.eqb _ mg); reflexivity.
      * destruct (N.eqb _ mg); reflexivity.
  - apply akin_refl. unfold past. cbn [bind inline_found]. unfold Spec_Inline.inline_chain. cbn [inline_parts]. destruct (N.eqb id b) eqn:Q; [apply N.eqb_eq in Q; subst; rewrite together_two, !block_steps|]; reflexivity.
Qed.

Lemma past_followed : forall r, past b r = bind (followed body r) (fun '(d, k) => Ok (block [Atom b; d], k)).
Proof. intros r. rewrite followed_block. unfold past, followed. rewrite N.eqb_refl. reflexivity. Qed.
Lemma at_cut : forall d fl, apart fl -> merges fl b = false ->
  search_block (S d) b fl m' = bind (search_block d start fl m') (fun '(c, k) => Ok (block [Atom b; c], k)).
Proof. intros d fl C M. rewrite search_step, M, HB'. unfold step. rewrite F1, F2. reflexivity. Qed.
Lemma at_second : forall d fl, apart fl -> search_block (S d) n fl m' = step (fun x fl => search_block d x fl m') (moved b) fl cut.
Proof.
  intros d fl C. rewrite search_step, (apart_merges fl n C (or_introl eq_refl)), HN', (step_same _ _ _ _ _ S1 S2).
  unfold Spec_Inline.moved. rewrite N.eqb_refl. reflexivity.
Qed.
Lemma past_other : forall id r, id <> b -> past id r = r.
Proof. intros id [[c k]|e| |] H; try reflexivity. unfold past. apply N.eqb_neq in H. rewrite H. reflexivity. Qed.
Lemma moved_other : forall id, id <> b -> moved id = id.
Proof. intros id H. unfold Spec_Inline.moved. apply N.eqb_neq in H. rewrite H. reflexivity. Qed.

Lemma inline_forward : exists K, forall d id fl, apart fl -> ~ mine id -> akin false (search_block d id fl m) (search_block (K * d) id fl m').
Proof.
  destruct (body_return _ _ _ HBODY HS) as [p P]. exists (S (S (p + depth))).
  induction d as [|d IH]; intros id fl C N; [intros X; exfalso; apply X; reflexivity|].
  set (K := S (S (p + depth))) in *. replace (K * S d) with (S (S (p + depth) + K * d)) by (unfold K; lia).
  destruct (merges fl id) eqn:M; [apply akin_refl; rewrite !search_step, M; reflexivity|]. rewrite (search_step d), M.
  assert (UP : forall more x fl, apart fl -> ~ mine x -> akin false (search_block d x fl m) (search_block (more + K * d) x fl m')).
  { intros more x fl' C' N' X. assert (Y := IH x fl' C' N' X). rewrite <- Y. apply search_mono. rewrite Y.
    destruct (search_block d x fl' m) as [[]|e| |]; cbn in *; congruence. }
  destruct (N.eq_dec id b) as [->|NE].
  - rewrite (at_cut _ _ C M). replace (S (p + depth) + K * d) with (p + S (depth + K * d)) by lia.
    rewrite P by (assumption || lia). rewrite <- past_followed, (at_second _ _ C), HB.
    apply step_inline; try assumption; [intros _; exact NL|intros t; exact (FR _ _ t HB)|]. intros x fl' C' N'. apply UP; assumption.
  - rewrite search_step, M. assert (O := HO id NE N). destruct (map_get id m) as [x|] eqn:G, (map_get id m') as [y|]; try contradiction; [|apply akin_refl; reflexivity].
    destruct O as [O1 O2]. rewrite (step_same _ _ _ y x O1 O2). 
    match goal with |- akin ?a ?r (step ?r' id fl x) => cut (akin a r (past id (step r' (moved id) fl x))); [rewrite (past_other _ _ NE), (moved_other _ NE); trivial|] end.
    apply step_inline; try assumption; [intros; contradiction|intros t; exact (FR _ _ t G)|]. intros z fl' C' N'. apply UP; assumption.
Qed.

Lemma inline_backward : forall d id fl, apart fl -> ~ mine id -> akin true (search_block d id fl m) (search_block d id fl m').
Proof.
  destruct (body_return _ _ _ HBODY HS) as [p P].
  induction d as [d IH] using lt_wf_ind. intros id fl C N. destruct d as [|d]; [intros X; exfalso; apply X; reflexivity|].
  destruct (merges fl id) eqn:M; [apply akin_refl; rewrite !search_step, M; reflexivity|]. rewrite (search_step d id fl m), M.
  destruct (N.eq_dec id b) as [->|NE].
  - rewrite (at_cut _ _ C M), HB. intros X. assert (X1 := bind_oof _ _ X).
    destruct (body_past _ _ _ HBODY HS fl d C X1) as (e & LE & Z).
    assert (Q : search_block d start fl m' = followed body (search_block e n fl m')).
    { assert (Y := P fl (depth + d) C ltac:(lia)). rewrite <- (search_mono m' (p + depth) d _ _ X1), <- Nat.add_assoc, Y. f_equal.
      replace (depth + d) with ((depth + d - e) + e) by lia. apply search_mono. exact Z. }
    destruct e as [|e]; [destruct Z; reflexivity|].
    rewrite Q, <- past_followed, (at_second _ _ C) in X |- *. revert X. apply (step_inline true); try assumption; [intros _; exact NL|intros t; exact (FR _ _ t HB)|].
    intros x fl' C' N' X. assert (Y := IH e ltac:(lia) x fl' C' N' X). cbn [akin] in X. replace d with ((d - e) + e) by lia. rewrite search_mono; [exact Y|].
    intros W. apply X. rewrite Y, W. reflexivity.
  - rewrite search_step, M. assert (O := HO id NE N). destruct (map_get id m) as [x|] eqn:G, (map_get id m') as [y|]; try contradiction; [|apply akin_refl; reflexivity].
    destruct O as [O1 O2]. rewrite (step_same _ _ _ y x O1 O2). 
    match goal with |- akin ?a ?r (step ?r' id fl x) => cut (akin a r (past id (step r' (moved id) fl x))); [rewrite (past_other _ _ NE), (moved_other _ NE); trivial|] end.
    apply step_inline; try assumption; [intros; contradiction|intros t; exact (FR _ _ t G)|]. intros z fl' C' N'. apply IH; [lia|assumption..].
Qed.

End Search.

Lemma again_middle : forall mid pre post, NoDup mid -> (forall l, In l mid -> ~ In l pre /\ ~ In l post) -> again [] (pre ++ mid ++ post) = again [] (pre ++ post).
Proof.
  induction mid as [|l mid IH]; intros pre post N H; [reflexivity|]. inversion N; subst. cbn [app]. destruct (H l (or_introl eq_refl)) as [H1' H2'].
  rewrite again_fresh; [apply IH; [assumption|intros x I; apply H; right; exact I]|exact H1'| |intros []].
  intros I. apply in_app_iff in I as [I|I]; contradiction.
Qed.

Section Function.
Context {E : Type} (f h g : FunctionDefinition E) (cut : BasicBlock E) (n : BlockId) (body : ControlFlowChain).
Hypothesis IN : inlined_at f h g cut n.
Hypothesis RH : returns h (Ok body).
Hypothesis NL : ~ begins_loop cut.

Definition name (s : BlockId * option GroupMerge * GroupBranch) : BlockId := fst (fst s).
Lemma labels_skeleton : forall (x : FunctionDefinition E), labels x = map name (map skeleton (FunctionDefinition_blocks x)).
Proof. intros x. unfold labels. rewrite map_map. reflexivity. Qed.
Lemma going_label : forall l : list (BasicBlock E), map name (map (going_on n) l) = map label_of l.
Proof. intros l. rewrite map_map. apply map_ext. intros x. unfold going_on. destruct (BasicBlock_branch x); reflexivity. Qed.
Lemma used_label : forall (x : FunctionDefinition E) id, In id (labels x) -> used x id.
Proof. intros x id I. apply in_map_iff in I as (y & <- & I). exists y. auto. Qed.

Lemma NDh : NoDup (labels h).
Proof.
  destruct RH as [_ [d H]]. apply find_unfold. destruct (again [] (labels h)) eqn:A; [|reflexivity]. rewrite (find_dup _ _ A d) in H. discriminate H.
Qed.
Lemma inline_again : again [] (labels g) = again [] (labels f).
Proof.
  destruct IN as (before & after & start & F & _ & G & U1 & U2 & U3). rewrite labels_skeleton, G, !map_app. cbn [map]. rewrite map_app. cbn [map]. rewrite going_label.
  change (name (label_of cut, None, GroupBranch_OpBranch {| OpBranch_target_label := start |})) with (label_of cut).
  change (name (n, BasicBlock_merge cut, BasicBlock_branch cut)) with n. fold (labels h).
  assert (X : forall l : list (BasicBlock E), map name (map skeleton l) = map label_of l) by (intros l; rewrite map_map; reflexivity). rewrite !X.
  assert (LF : labels f = (map label_of before ++ [label_of cut]) ++ map label_of after) by (unfold labels; rewrite F, map_app, <- app_assoc; reflexivity).
  rewrite LF. refine (eq_trans _ (again_middle (labels h ++ [n]) (map label_of before ++ [label_of cut]) (map label_of after) _ _)).
  - rewrite <- !app_assoc. reflexivity.
  - rewrite <- (rev_involutive (labels h)). apply Permutation_NoDup with (l := n :: labels h).
    + rewrite rev_involutive. apply Permutation_cons_append.
    + constructor; [intros I; apply U2, used_label, I|exact NDh].
  - intros l I. assert (NF : ~ In l (labels f)).
    { intros J. apply used_label in J. apply in_app_iff in I as [I|[<-|[]]]; [exact (U3 _ J (used_label _ _ I))|contradiction]. }
    rewrite LF in NF. split; intros J; apply NF, in_app_iff; auto.
Qed.

Lemma answer_inline : forall b r, answer (inline_found b n body r) = inline_answer b n body (answer r).
Proof. intros b [[c []]|e| |]; reflexivity. Qed.

Lemma get_skeleton : forall (x : FunctionDefinition E), NoDup (labels x) -> forall id s,
  In s (map skeleton (FunctionDefinition_blocks x)) -> name s = id -> exists y, map_get id (block_map x) = Some y /\ skeleton y = s.
Proof. intros x N id s I <-. apply in_map_iff in I as (y & <- & I). exists y. split; [|reflexivity]. apply (find_map_iff x N). split; [exact I|reflexivity]. Qed.

Lemma inline_runs : NoDup (labels f) -> exists K,
  (forall d, find_control_flow d f <> OutOfFuel -> find_control_flow (K * d) g = inline_answer (label_of cut) n body (find_control_flow d f))
  /\ (forall d, find_control_flow d g <> OutOfFuel -> find_control_flow d g = inline_answer (label_of cut) n body (find_control_flow d f)).
Proof.
  intros ND. assert (NDg : NoDup (labels g)).
  { apply find_unfold. rewrite inline_again. destruct (again [] (labels f)) eqn:A; [|reflexivity].
    exfalso. assert (X := find_dup _ _ A 0). rewrite (find_eq f ND) in X. destruct (FunctionDefinition_blocks f); discriminate X. }
  assert (NH := NDh).
  destruct IN as (before & after & start & F & EN & G & U1 & U2 & U3).
  assert (HC : In cut (FunctionDefinition_blocks f)) by (rewrite F; apply in_app_iff; right; left; reflexivity).
  assert (HB : map_get (label_of cut) (block_map f) = Some cut) by (apply (find_map_iff f ND); split; [exact HC|reflexivity]).
  destruct (get_skeleton g NDg (label_of cut) (label_of cut, None, GroupBranch_OpBranch (Build_OpBranch start))) as (b1 & HB' & K1);
    [rewrite G; apply in_app_iff; right; left; reflexivity|reflexivity|].
  destruct (get_skeleton g NDg n (n, BasicBlock_merge cut, BasicBlock_branch cut)) as (b2 & HN' & K2);
    [rewrite G; apply in_app_iff; right; right; apply in_app_iff; right; left; reflexivity|reflexivity|].
  injection K1 as _ F2 F1. injection K2 as _ S2 S1.
  assert (UM : forall id, used f id -> ~ mine n (used h) id) by (intros id U [->|J]; [contradiction|exact (U3 id U J)]).
  assert (HO : forall id, id <> label_of cut -> ~ mine n (used h) id ->
    match map_get id (block_map f), map_get id (block_map g) with
    | Some x, Some y => BasicBlock_branch y = BasicBlock_branch x /\ BasicBlock_merge y = BasicBlock_merge x
    | None, None => True
    | _, _ => False
    end).
  { intros id N1 N2. destruct (map_get id (block_map f)) as [x|] eqn:Q.
    - apply (find_map_iff f ND) in Q as [I L]. destruct (get_skeleton g NDg id (skeleton x)) as (y & -> & S); [|exact L|injection S as _ S1' S2'; auto].
      rewrite F in I. rewrite G. apply in_app_iff in I as [I|[<-|I]]; [|contradiction N1; symmetry; exact L|].
      + apply in_app_iff. left. apply in_map. exact I.
      + apply in_app_iff. right. right. apply in_app_iff. right. right. apply in_map. exact I.
    - destruct (map_get id (block_map g)) as [y|] eqn:Q2; [|exact I]. apply (find_map_iff g NDg) in Q2 as [J L].
      assert (NF : ~ In id (labels f)).
      { intros J2. apply in_map_iff in J2 as (x & L2 & J2). assert (W : map_get id (block_map f) = Some x) by (apply (find_map_iff f ND); split; assumption). congruence. }
      assert (JG : In id (labels g)) by (apply in_map_iff; eauto).
      rewrite labels_skeleton, G, !map_app in JG. cbn [map] in JG. rewrite map_app in JG. cbn [map] in JG. rewrite going_label in JG.
      assert (X : forall l : list (BasicBlock E), map name (map skeleton l) = map label_of l) by (intros l; rewrite map_map; reflexivity). rewrite !X in JG.
      unfold labels in NF. rewrite F, map_app in NF. cbn [map] in NF.
      apply in_app_iff in JG as [JG|[JG|JG]]; [apply NF, in_app_iff; left; exact JG|apply N1; symmetry; exact JG|].
      apply in_app_iff in JG as [JG|[JG|JG]]; [apply N2; right; apply used_label; exact JG|apply N2; left; symmetry; exact JG|].
      apply NF, in_app_iff. right. right. exact JG. }
  assert (HH : forall id x, map_get id (block_map h) = Some x -> exists y, map_get id (block_map g) = Some y
    /\ match BasicBlock_branch x with
       | GroupBranch_OpReturn _ => BasicBlock_merge y = None /\ BasicBlock_branch y = GroupBranch_OpBranch (Build_OpBranch n)
       | _ => BasicBlock_merge y = BasicBlock_merge x /\ BasicBlock_branch y = BasicBlock_branch x
       end).
  { intros id x Q. apply (find_map_iff h NH) in Q as [I L]. destruct (get_skeleton g NDg id (going_on n x)) as (y & Y & S).
    - rewrite G. apply in_app_iff. right. right. apply in_app_iff. left. apply in_map. exact I.
    - unfold going_on. destruct (BasicBlock_branch x); exact L.
    - exists y. split; [exact Y|]. unfold going_on in S. unfold skeleton in S. destruct (BasicBlock_branch x); injection S as _ S1' S2'; split; assumption. }
  assert (HT : forall id x t, map_get id (block_map h) = Some x -> In t (branch_targets x) \/ In t (merge_targets x) -> used h t).
  { intros id x t Q T. apply (find_map_iff h NH) in Q as [I _]. exists x. auto. }
  assert (FR : forall id x t, map_get id (block_map f) = Some x -> In t (branch_targets x) \/ In t (merge_targets x) -> ~ mine n (used h) t).
  { intros id x t Q T. apply (find_map_iff f ND) in Q as [I _]. apply UM. exists x. auto. }
  assert (BN : ~ mine n (used h) (label_of cut)) by (apply UM; exists cut; auto).
  assert (HS : used h start) by (destruct EN as (x & rest & H & <-); exists x; split; [rewrite H; left; reflexivity|auto]).
  assert (BODY : exists depth, search_block depth start [] (block_map h) = Ok (body, Cont_Return)).
  { destruct RH as [_ [d H]]. rewrite (find_eq h NH) in H. destruct EN as (x & rest & H2 & <-). rewrite H2 in H. exists d.
    apply bind_Ok in H as ([c k] & H & H3). destruct k; [discriminate H3|]. injection H3 as ->. exact H. }
  destruct BODY as [depth BODY].
  assert (ST : exists s, (forall d, find_control_flow d f = answer (search_block d s [] (block_map f))) /\ (forall d, find_control_flow d g = answer (search_block d s [] (block_map g))) /\ ~ mine n (used h) s).
  { setoid_rewrite (find_eq f ND). setoid_rewrite (find_eq g NDg). rewrite F.
    destruct (FunctionDefinition_blocks g) as [|g0 gs]; [destruct before; discriminate G|]. destruct before as [|p before]; cbn [app map] in G |- *;
      apply (f_equal (fun l => match l with [] => n | s :: _ => name s end)) in G; unfold skeleton, name in G; cbn [fst] in G.
    - exists (label_of cut). split; [reflexivity|]. split; [rewrite G; reflexivity|]. exact BN.
    - exists (label_of p). split; [reflexivity|]. split; [rewrite G; reflexivity|]. apply UM. exists p. split; [rewrite F; left; reflexivity|auto]. }
  destruct ST as (s & Sf & Sg & SN).
  assert (OF : forall r, answer r <> OutOfFuel -> r <> OutOfFuel) by (intros r H ->; apply H; reflexivity).
  destruct (inline_forward (label_of cut) n body (used h) (block_map h) (block_map g) HH HT (block_map f) cut b1 b2 start depth BODY HS HB HB' HN' HO F1 F2 S1 S2 NL FR) as [K FW].
  exists K. split; intros d H; rewrite Sf, Sg in *; rewrite <- answer_inline; f_equal.
  - apply (FW d s []); [constructor|exact SN|apply OF; exact H].
  - apply (inline_backward (label_of cut) n body (used h) (block_map h) (block_map g) HH HT (block_map f) cut b1 b2 start depth BODY HS HB HB' HN' HO F1 F2 S1 S2 NL FR d s []); [constructor|exact SN|apply OF; exact H].
Qed.

Theorem inline_iff : forall r, returns g r <-> exists r0, returns f r0 /\ r = inline_answer (label_of cut) n body r0.
Proof.
  intros r. destruct (again [] (labels f)) as [x|] eqn:A.
  - assert (Af := find_dup _ _ A).
    assert (Ag : forall d, find_control_flow d g = Err (DuplicateBlockId x)) by (apply find_dup; rewrite inline_again; exact A).
    split.
    + intros [_ [d H]]. rewrite Ag in H. subst r. exists (Err (DuplicateBlockId x)). split; [split; [discriminate|exists 0; apply Af]|reflexivity].
    + intros (r0 & [_ [d H]] & ->). rewrite Af in H. subst r0. split; [discriminate|exists 0; apply Ag].
  - apply find_unfold in A. destruct (inline_runs A) as (K & FW & BW). split.
    + intros [N [d H]]. subst r. exists (find_control_flow d f). split; [|apply BW; exact N]. split; [|eauto].
      intros Q. apply N. rewrite (BW d N), Q. reflexivity.
    + intros (r0 & [N [d H]] & ->). subst r0. split; [|exists (K * d); apply FW; exact N]. destruct (find_control_flow d f); cbn; congruence.
Qed.
End Function.
