(** Structured control flow: how large a chain is in terms of the number of blocks (C112). *)
From Coq Require Import Relations.
From Verif Require Import Base Types Ops Groups ExtSet ControlFlow ControlFlowCount Spec_Flow Spec_Structured Spec_Cost Spec_Frames Proofs_Flow Proofs_Flow2 Proofs_Flow3 Proofs_Structured Proofs_Cost Proofs_Frames Proofs_Nesting.

(** ** The number of different elements *)
Definition card (l : list BlockId) : nat := length (nodup N.eq_dec l).
Lemma card_incl : forall l l', incl l l' -> card l <= card l'.
Proof.
  intros l l' I. apply NoDup_incl_length; [apply NoDup_nodup|]. intros x J. apply nodup_In in J. apply nodup_In. auto.
Qed.
Lemma card_cons : forall x l, ~ In x l -> card (x :: l) = S (card l).
Proof. intros x l N. unfold card. cbn [nodup]. destruct (in_dec N.eq_dec x l); [contradiction|reflexivity]. Qed.
Lemma card_app : forall l l', (forall x, In x l -> ~ In x l') -> card l + card l' <= card (l ++ l').
Proof.
  intros l l' D. induction l as [|x l IH]; [cbn [app]; cbn; lia|]. cbn [app].
  assert (IH' : card l + card l' <= card (l ++ l')) by (apply IH; intros y J; apply D; right; exact J).
  destruct (in_dec N.eq_dec x l) as [J|J].
  - unfold card in *. cbn [nodup]. destruct (in_dec N.eq_dec x l); [|contradiction]. destruct (in_dec N.eq_dec x (l ++ l')) as [K|K]; cbn [length]; lia.
  - rewrite !card_cons; [lia| |exact J]. intros K. apply in_app_or in K as [K|K]; [contradiction|]. exact (D x (or_introl eq_refl) K).
Qed.
Lemma card_length : forall l, card l <= length l.
Proof.
  intros l. unfold card. induction l as [|x l IH]; [reflexivity|]. cbn [nodup]. destruct (in_dec N.eq_dec x l); cbn [length]; lia.
Qed.

Section Size.
Context {E : Type}.
Variable f : FunctionDefinition E.
Hypothesis ND : NoDup (labels f).

Notation below := (clos_refl_trans_1n _ (calls f)).

(** ** Where the search goes on after a block *)
Definition next (x y : BlockId) : Prop := exists b, has_block f x b /\
  ((exists op, BasicBlock_branch b = GroupBranch_OpBranch op /\ BasicBlock_merge b = None /\ y = OpBranch_target_label op)
   \/ (exists op lm, BasicBlock_branch b = GroupBranch_OpBranch op /\ BasicBlock_merge b = Some (GroupMerge_OpLoopMerge lm) /\ y = OpLoopMerge_merge_block lm)
   \/ (exists op sm, BasicBlock_branch b = GroupBranch_OpBranchConditional op /\ BasicBlock_merge b = Some (GroupMerge_OpSelectionMerge sm) /\ y = OpSelectionMerge_merge_block sm)
   \/ (exists op, BasicBlock_branch b = GroupBranch_OpBranchConditional op /\ BasicBlock_merge b = None /\ y = OpBranchConditional_true_label op)).
Notation goes := (clos_refl_trans_1n _ next).
Notation reaches := (clos_trans_1n _ next).

Lemma next_fun : forall x y z, next x y -> next x z -> y = z.
Proof.
  intros x y z (b & HB & Y) (b' & HB' & Z). pose proof (has_block_inj f ND _ _ _ HB HB') as <-.
  destruct Y as [(op & B & M & ->)|[(op & lm & B & M & ->)|[(op & sm & B & M & ->)|(op & B & M & ->)]]];
  destruct Z as [(op' & B' & M' & ->)|[(op' & lm' & B' & M' & ->)|[(op' & sm' & B' & M' & ->)|(op' & B' & M' & ->)]]];
  rewrite B in B'; try discriminate B'; rewrite M in M'; try discriminate M'; injection B' as <-; try injection M' as <-; reflexivity.
Qed.
Lemma along_next : forall k k', along f k k' -> next (fst k) (fst k').
Proof.
  intros k k' A. destruct A; cbn [fst]; exists b; (split; [assumption|]).
  - left. eauto.
  - right; left. eauto 6.
  - right; right; left. eauto 6.
  - right; right; right. eauto.
Qed.
Lemma next_along : forall x y fl n, next x y -> merges fl x = false -> found f (x, fl) n -> along f (x, fl) (y, fl).
Proof.
  intros x y fl n (b & HB & Y) M _.
  destruct Y as [(op & B & Mg & ->)|[(op & lm & B & Mg & ->)|[(op & sm & B & Mg & ->)|(op & B & Mg & ->)]]];
  [eapply along_branch|eapply along_loop|eapply along_selection|eapply along_leave]; eassumption.
Qed.

(** [x] ends: the search goes from it to a block that returns. *)
Definition ends (x : BlockId) : Prop := exists r b, goes x r /\ has_block f r b /\ returning b = true.
Lemma return_next : forall r b y, has_block f r b -> returning b = true -> ~ next r y.
Proof.
  intros r b y HB R (b' & HB' & Y). pose proof (has_block_inj f ND _ _ _ HB HB') as <-. unfold returning in R.
  destruct Y as [(op & B & _)|[(op & lm & B & _)|[(op & sm & B & _)|(op & B & _)]]]; rewrite B in R; discriminate R.
Qed.
Lemma goes_step : forall x y z, next x y -> goes y z -> goes x z.
Proof. intros x y z A B. eapply Relation_Operators.rt1n_trans; eassumption. Qed.
Lemma goes_trans : forall x y z, goes x y -> goes y z -> goes x z.
Proof. intros x y z A B. induction A as [x|x w y N A IH]; [exact B|]. eapply goes_step; [exact N|]. apply IH. exact B. Qed.
Lemma reaches_goes : forall x y, reaches x y <-> exists w, next x w /\ goes w y.
Proof.
  intros x y. split.
  - intros R. induction R as [x y N|x w y N R (v & Nv & G)]; [exists y; split; [exact N|apply Relation_Operators.rt1n_refl]|].
    exists w. split; [exact N|]. eapply goes_step; eassumption.
  - intros (w & N & G). revert x N. induction G as [w|w v y Nw G IH]; intros x N; [apply t1n_step; exact N|].
    eapply Relation_Operators.t1n_trans; [exact N|]. apply IH. exact Nw.
Qed.
Lemma reaches_l : forall x y z, reaches x y -> goes y z -> reaches x z.
Proof. intros x y z R G. apply reaches_goes in R as (w & N & G'). apply reaches_goes. exists w. split; [exact N|]. eapply goes_trans; eassumption. Qed.
Lemma reaches_r : forall x y z, goes x y -> reaches y z -> reaches x z.
Proof. intros x y z G. induction G as [x|x w y N G IH]; intros R; [exact R|]. eapply Relation_Operators.t1n_trans; [exact N|]. apply IH, R. Qed.
Lemma goes_reaches : forall x y, goes x y -> x = y \/ reaches x y.
Proof. intros x y G. destruct G as [|w y N G]; [left; reflexivity|right]. apply reaches_goes. eauto. Qed.
Lemma ends_next : forall x y, ends x -> next x y -> ends y.
Proof.
  intros x y (r & b & G & HB & R) N. destruct G as [|w r Nw G]; [destruct (return_next _ _ _ HB R N)|].
  rewrite (next_fun _ _ _ N Nw). exists r, b. auto.
Qed.
(** So the search does not come back. *)
Lemma ends_once : forall x, ends x -> ~ reaches x x.
Proof.
  intros x0 (r0 & b & G0 & HB0 & R0) C0. revert HB0 R0 C0. induction G0 as [r|x w r N G IH]; intros HB R C.
  - apply reaches_goes in C as (y & N & _). exact (return_next _ _ _ HB R N).
  - apply IH; [exact HB|exact R|]. apply reaches_goes in C as (w' & N' & G'). rewrite (next_fun _ _ _ N' N) in G'.
    destruct (goes_reaches _ _ G') as [->|X]; [apply t1n_step; exact N|]. eapply reaches_l; [exact X|]. eapply goes_step; [exact N|apply Relation_Operators.rt1n_refl].
Qed.

(** ** Blocks in a sequence and in its constructs *)
Lemma found_goes : forall fl id c n, Search f fl id c n -> match n with Cont_Next s => goes id s | Cont_Return => ends id end.
Proof.
  intros fl id c n S. assert (K : forall x y, next x y -> match n with Cont_Next s => goes y s | Cont_Return => ends y end -> match n with Cont_Next s => goes x s | Cont_Return => ends x end).
  { intros x y N G. destruct n as [s|]; [eapply goes_step; eassumption|]. destruct G as (r & b & G & HB & R). exists r, b. split; [eapply goes_step; eassumption|auto]. }
  induction S as [fl id M|fl id b op M HB Br|fl id b op c n M HB Br Mg S IH|fl id b op lm inner after n M HB Br Mg S1 IH1 S2 IH2
    |fl id b op sm lhs rhs after n M HB Br Mg S1 IH1 S2 IH2 S3 IH3|fl id b op head merge inner is_break M HB Br Mg L D S IH].
  - apply Relation_Operators.rt1n_refl.
  - exists id, b. split; [apply Relation_Operators.rt1n_refl|]. split; [exact HB|]. unfold returning. rewrite Br. reflexivity.
  - eapply K; [|apply IH; exact K]. apply (along_next (id, fl) (OpBranch_target_label op, fl)). eapply along_branch; eassumption.
  - eapply K; [|apply IH2; exact K]. apply (along_next (id, fl) (OpLoopMerge_merge_block lm, fl)). eapply along_loop; eassumption.
  - eapply K; [|apply IH3; exact K]. apply (along_next (id, fl) (OpSelectionMerge_merge_block sm, fl)). eapply along_selection; eassumption.
  - eapply K; [|apply IH; exact K]. apply (along_next (id, fl) (OpBranchConditional_true_label op, fl)). eapply along_leave; eassumption.
Qed.

(** The blocks in [k], which ends at [stop], go to [stop]. *)
Lemma inside_goes : forall k k', below k k' -> forall stop, found f k (Cont_Next stop) -> goes (fst k') stop.
Proof.
  intros k k' B. induction B as [k|k k1 k' C B IH]; intros stop F.
  - destruct F as [c S]. exact (found_goes _ _ _ _ S).
  - destruct C as [k k1 A|k k1 s A].
    + apply IH. eapply found_along; eassumption.
    + eapply goes_trans; [apply IH; eapply found_into; eassumption|]. destruct F as [c S]. destruct A as [fl id b op lm M HB Br Mg|fl id b op sm side M HB Br Mg].
      * exact (found_goes _ _ _ _ S).
      * assert (A : along f (id, fl) (OpSelectionMerge_merge_block sm, fl)) by (eapply along_selection; eassumption).
        destruct (found_along f ND _ _ (Cont_Next stop) A (ex_intro _ c S)) as [c' S']. exact (found_goes _ _ _ _ S').
Qed.

(** [v] is in the sequence that starts with [k]. *)
Definition inside (k : call) (v : BlockId) : Prop := exists fl, below k (v, fl) /\ merges fl v = false.

Lemma clos_rt1n_n1 : forall k k', below k k' -> clos_refl_trans_n1 _ (calls f) k k'.
Proof. intros k k' B. apply clos_rt_rtn1. apply clos_rt1n_rt. exact B. Qed.
Lemma rtn1_below : forall k k', clos_refl_trans_n1 _ (calls f) k k' -> below k k'.
Proof. intros k k' B. apply clos_rt_rt1n. apply clos_rtn1_rt. exact B. Qed.

Lemma inside_stop : forall k k', below k k' -> forall stop, found f k (Cont_Next stop) -> exists s, found f k' (Cont_Next s) /\ (s = stop \/ inside k s).
Proof.
  intros k k' B stop F. apply clos_rt1n_n1 in B. induction B as [|k1 k2 C B IH]; [exists stop; auto|].
  apply rtn1_below in B. destruct IH as (s & Fs & IH). destruct C as [k1 k2 A|k1 k2 s2 A].
  - exists s. split; [eapply found_along; eassumption|exact IH].
  - exists s2. split; [eapply found_into; eassumption|]. destruct A as [fl id b op lm M HB Br Mg|fl id b op sm side M HB Br Mg].
    + right. exists fl. auto.
    + assert (A : along f (id, fl) (OpSelectionMerge_merge_block sm, fl)) by (eapply along_selection; eassumption).
      pose proof (found_along f ND _ _ _ A Fs) as F'. destruct (merges fl (OpSelectionMerge_merge_block sm)) eqn:Q.
      * apply found_stop in F'; [|exact Q]. injection F' as ->. exact IH.
      * right. exists fl. split; [|exact Q]. eapply below_calls; [exact B|]. apply calls_along. exact A.
Qed.
Lemma inside_next : forall k stop, found f k (Cont_Next stop) -> forall v w, inside k v -> next v w -> w = stop \/ inside k w.
Proof.
  intros k stop F v w (fl & B & M) N. destruct (inside_stop _ _ B _ F) as (s & Fs & _).
  pose proof (next_along _ _ _ _ N M Fs) as A. assert (B' : below k (w, fl)) by (eapply below_calls; [exact B|apply calls_along; exact A]).
  destruct (merges fl w) eqn:Q; [|right; exists fl; auto]. destruct (inside_stop _ _ B' _ F) as (s' & Fs' & H). apply found_stop in Fs'; [|exact Q]. injection Fs' as ->. exact H.
Qed.

Lemma inside_once : forall k n, found f k n -> forall k1 stop, into f k k1 stop -> ~ inside k1 (fst k).
Proof.
  intros k n F k1 stop I (fl & B & M). pose proof (not_inside f ND _ (Acc_later f _ (found_Acc f ND _ _ F)) _ F _ _ I _ B eq_refl) as X. cbn [fst snd] in X. congruence.
Qed.
(** What is in an arm of a selection does not come to the selection. *)
Lemma inside_apart : forall fl id b op sm side n, merges fl id = false -> has_block f id b -> BasicBlock_branch b = GroupBranch_OpBranchConditional op ->
  BasicBlock_merge b = Some (GroupMerge_OpSelectionMerge sm) -> found f (id, fl) n -> ends id ->
  forall v, inside (if (side : bool) then OpBranchConditional_true_label op else OpBranchConditional_false_label op,
    Converge_If (OpSelectionMerge_merge_block sm) (OpSelectionMerge_selection_control sm) :: fl) v -> ~ goes v id.
Proof.
  intros fl id b op sm side n M HB Br Mg F EN v IV G.
  pose proof (into_selection f fl id b op sm side M HB Br Mg) as I.
  pose proof (found_into f ND _ _ _ _ I F) as FI.
  assert (N : next id (OpSelectionMerge_merge_block sm)) by (apply (along_next (id, fl) (_, fl)); eapply along_selection; eassumption).
  induction G as [v|v w id' Nv G IH]; [exact (inside_once _ _ F _ _ I IV)|].
  destruct (inside_next _ _ FI _ _ IV Nv) as [->|IW].
  - apply (ends_once _ EN). apply reaches_goes. eauto.
  - apply IH; assumption.
Qed.

(** ** The bound *)
Definition fits (n : Cont) (size : nat) (ids : list BlockId) : Prop :=
  match n with Cont_Next _ => size + 1 <= 2 ^ card ids | Cont_Return => size <= 2 ^ (card ids - 1) end.
Lemma fits_more : forall n size ids size' ids', fits n size ids -> size' = size -> incl ids ids' -> fits n size' ids'.
Proof.
  intros n size ids size' ids' F -> I. apply card_incl in I. unfold fits in *. destruct n.
  - eapply Nat.le_trans; [exact F|]. apply Nat.pow_le_mono_r; lia.
  - eapply Nat.le_trans; [exact F|]. apply Nat.pow_le_mono_r; lia.
Qed.
Lemma ends_goes : forall x y, goes x y -> ends y -> ends x.
Proof. intros x y G (r & b & G' & HB & R). exists r, b. split; [eapply goes_trans; eassumption|auto]. Qed.
Lemma double : forall a b c d, a + 1 <= 2 ^ c -> b + 1 <= 2 ^ d -> forall e, c <= e -> d <= e -> a + b + 2 <= 2 ^ S e.
Proof.
  intros a b c d H1 H2 e L1 L2. cbn [Nat.pow]. pose proof (Nat.pow_le_mono_r 2 c e). pose proof (Nat.pow_le_mono_r 2 d e). lia.
Qed.
Lemma two_arms : forall a l r c d e, a + 1 <= 2 ^ c -> l + 1 <= 2 ^ d -> r + 1 <= 2 ^ d -> c + d <= e -> a + (l + r) + 2 <= 2 ^ S e.
Proof.
  intros a l r c d e H1 H2 H3 L. eapply Nat.le_trans with (2 ^ S (c + d)); [|apply Nat.pow_le_mono_r; lia]. rewrite Nat.pow_succ_r', Nat.pow_add_r.
  set (x := 2 ^ c) in *. set (y := 2 ^ d) in *. clearbody x y. nia.
Qed.

Lemma size_bound : forall fl id c n, Search f fl id c n -> ends id -> forall pre size, (forall d, In d pre -> reaches d id) -> size + 1 <= 2 ^ card pre ->
  fits n (size + length (chain_ids c)) (pre ++ chain_ids c).
Proof.
  assert (FRESH : forall id pre, ends id -> (forall d, In d pre -> reaches d id) -> ~ In id pre).
  { intros id pre EN D J. exact (ends_once _ EN (D _ J)). }
  assert (STEP : forall id id' pre, (forall d, In d pre -> reaches d id) -> next id id' -> forall d, In d (id :: pre) -> reaches d id').
  { intros id id' pre D N d [<-|J]; [apply t1n_step; exact N|]. eapply reaches_l; [apply D; exact J|]. eapply goes_step; [exact N|apply Relation_Operators.rt1n_refl]. }
  intros fl id c n S. induction S as [fl id M|fl id b op M HB Br|fl id b op c n M HB Br Mg S IH|fl id b op lm inner after n M HB Br Mg S1 IH1 S2 IH2
    |fl id b op sm lhs rhs after n M HB Br Mg S1 IH1 S2 IH2 S3 IH3|fl id b op head merge inner is_break M HB Br Mg L D S IH]; intros EN pre size D0 A0.
  - cbn [chain_ids length fits]. rewrite app_nil_r, Nat.add_0_r. exact A0.
  - cbn [chain_ids length fits]. assert (X : card (id :: pre) <= card (pre ++ [id])) by (apply card_incl; intros x [<-|J]; apply in_or_app; [right; left; reflexivity|left; exact J]).
    rewrite card_cons in X by (apply FRESH; assumption). eapply Nat.le_trans; [exact A0|]. apply Nat.pow_le_mono_r; lia.
  - assert (N : next id (OpBranch_target_label op)) by (apply (along_next (id, fl) (_, fl)); eapply along_branch; eassumption).
    eapply fits_more; [apply (IH (ends_next _ _ EN N) (id :: pre) (size + 1))| |].
    + apply (STEP id); assumption.
    + rewrite card_cons by (apply FRESH; assumption). rewrite Nat.pow_succ_r'. lia.
    + rewrite chain_ids_block, app_length. cbn [chain_ids length]. lia.
    + rewrite chain_ids_block. cbn [chain_ids]. intros x J. cbn [app] in *. rewrite !in_app_iff in *. cbn [In] in *. rewrite in_app_iff in J. tauto.
  - assert (N : next id (OpLoopMerge_merge_block lm)) by (apply (along_next (id, fl) (_, fl)); eapply along_loop; eassumption).
    assert (SS : Search f fl id (block [Loop id inner (OpLoopMerge_loop_control lm) None; after]) n) by (eapply S_loop; eassumption).
    pose proof (into_loop f _ _ _ _ _ M HB Br Mg) as IT.
    assert (NI : ~ In id (chain_ids inner)) by (eapply (not_below f ND fl id); [exact SS|exact IT|exact S1]).
    pose proof (found_goes _ _ _ _ S1) as GO. cbn in GO.
    pose proof (IH1 (ends_goes _ _ GO EN) [] 0 (fun d J => match J with end) (le_n 1)) as B1. cbn [fits app] in B1.
    assert (IG : forall d, In d (chain_ids inner) -> goes d id).
    { intros d J. destruct (ids_below f _ _ _ _ S1 d J) as (fl' & B & Md). exact (inside_goes _ _ B _ (ex_intro _ inner S1)). }
    eapply fits_more; [apply (IH2 (ends_next _ _ EN N) (id :: chain_ids inner ++ pre) (size + 1 + length (chain_ids inner)))| |].
    + intros d [<-|J]; [apply t1n_step; exact N|]. apply in_app_or in J as [J|J]; [eapply reaches_r; [apply IG; exact J|apply t1n_step; exact N]|].
      apply (STEP id _ pre D0 N). right. exact J.
    + rewrite card_cons by (rewrite in_app_iff; intros [J|J]; [contradiction|exact (FRESH _ _ EN D0 J)]).
      replace (size + 1 + length (chain_ids inner) + 1) with (size + length (chain_ids inner) + 2) by lia.
      eapply double; [exact A0|exact B1| |]; apply card_incl; [apply incl_appr|apply incl_appl]; apply incl_refl.
    + rewrite chain_ids_block, app_length. cbn [chain_ids length]. lia.
    + rewrite chain_ids_block. cbn [chain_ids]. intros x J. cbn [app] in *. rewrite !in_app_iff in *. cbn [In] in *. rewrite !in_app_iff in *. tauto.
  - assert (N : next id (OpSelectionMerge_merge_block sm)) by (apply (along_next (id, fl) (_, fl)); eapply along_selection; eassumption).
    assert (SS : Search f fl id (block [Selection id lhs rhs (OpSelectionMerge_selection_control sm) (OpBranchConditional_weights op); after]) n) by (eapply S_selection; eassumption).
    pose proof (into_selection f _ _ _ _ _ true M HB Br Mg) as IT1. pose proof (into_selection f _ _ _ _ _ false M HB Br Mg) as IT2.
    assert (NI1 : ~ In id (chain_ids lhs)) by (eapply (not_below f ND fl id); [exact SS|exact IT1|exact S1]).
    assert (NI2 : ~ In id (chain_ids rhs)) by (eapply (not_below f ND fl id); [exact SS|exact IT2|exact S2]).
    pose proof (found_goes _ _ _ _ S1) as GO1. pose proof (found_goes _ _ _ _ S2) as GO2. cbn in GO1, GO2.
    pose proof (ends_next _ _ EN N) as ENM.
    pose proof (IH1 (ends_goes _ _ GO1 ENM) [] 0 (fun d J => match J with end) (le_n 1)) as B1. cbn [fits app] in B1.
    pose proof (IH2 (ends_goes _ _ GO2 ENM) [] 0 (fun d J => match J with end) (le_n 1)) as B2. cbn [fits app] in B2.
    assert (IN : forall d, In d (chain_ids lhs ++ chain_ids rhs) -> exists side : bool, inside (if side then OpBranchConditional_true_label op else OpBranchConditional_false_label op,
      Converge_If (OpSelectionMerge_merge_block sm) (OpSelectionMerge_selection_control sm) :: fl) d).
    { intros d J. apply in_app_or in J as [J|J]; [exists true; exact (ids_below f _ _ _ _ S1 d J)|exists false; exact (ids_below f _ _ _ _ S2 d J)]. }
    assert (IG : forall d, In d (chain_ids lhs ++ chain_ids rhs) -> reaches d (OpSelectionMerge_merge_block sm)).
    { intros d J. destruct (IN d J) as [side (fl' & B & Md)].
      assert (FF : found f (if side then OpBranchConditional_true_label op else OpBranchConditional_false_label op,
        Converge_If (OpSelectionMerge_merge_block sm) (OpSelectionMerge_selection_control sm) :: fl) (Cont_Next (OpSelectionMerge_merge_block sm))) by (destruct side; eexists; eassumption).
      destruct (goes_reaches _ _ (inside_goes _ _ B _ FF)) as [Q|Q]; [|exact Q]. cbn [fst] in Q. subst d. exfalso.
      pose proof (merges_below f _ _ B (OpSelectionMerge_merge_block sm)) as X. cbn [snd merges] in X. rewrite N.eqb_refl in X. specialize (X eq_refl). congruence. }
    assert (AP : forall d, In d pre -> ~ In d (chain_ids lhs ++ chain_ids rhs)).
    { intros d J K. destruct (IN d K) as [side I]. apply (inside_apart _ _ _ _ _ _ _ M HB Br Mg (ex_intro _ _ SS) EN d I).
      apply D0, reaches_goes in J as (w & Nw & G). eapply goes_step; eassumption. }
    eapply fits_more; [apply (IH3 ENM (id :: pre ++ (chain_ids lhs ++ chain_ids rhs)) (size + 1 + (length (chain_ids lhs) + length (chain_ids rhs))))| |].
    + intros d [<-|J]; [apply t1n_step; exact N|]. apply in_app_or in J as [J|J]; [apply (STEP id _ pre D0 N); right; exact J|apply IG; exact J].
    + rewrite card_cons by (rewrite !in_app_iff; intros [J|[J|J]]; [exact (FRESH _ _ EN D0 J)|contradiction|contradiction]).
      replace (size + 1 + (length (chain_ids lhs) + length (chain_ids rhs)) + 1) with (size + (length (chain_ids lhs) + length (chain_ids rhs)) + 2) by lia.
      assert (W : forall l, l + 1 <= 2 ^ card (chain_ids lhs) \/ l + 1 <= 2 ^ card (chain_ids rhs) -> l + 1 <= 2 ^ card (chain_ids lhs ++ chain_ids rhs)).
      { intros l [X|X]; (eapply Nat.le_trans; [exact X|]; apply Nat.pow_le_mono_r; [lia|]; apply card_incl); [apply incl_appl, incl_refl|apply incl_appr, incl_refl]. }
      eapply two_arms; [exact A0|apply W; left; exact B1|apply W; right; exact B2|]. apply card_app. exact AP.
    + rewrite chain_ids_block, app_length. cbn [chain_ids length]. rewrite app_length. lia.
    + rewrite chain_ids_block. cbn [chain_ids]. intros x J. cbn [app] in *. rewrite !in_app_iff in *. cbn [In] in *. rewrite !in_app_iff in *. tauto.
  - assert (N : next id (OpBranchConditional_true_label op)) by (apply (along_next (id, fl) (_, fl)); eapply along_leave; eassumption).
    assert (Q : chain_ids (Selection id inner (if is_break then Break else Continue) SelectionControl_default (OpBranchConditional_weights op)) = id :: chain_ids inner).
    { cbn [chain_ids]. destruct is_break; cbn [chain_ids]; rewrite app_nil_r; reflexivity. }
    rewrite Q. eapply fits_more; [apply (IH (ends_next _ _ EN N) (id :: pre) (size + 1))| |].
    + apply (STEP id); assumption.
    + rewrite card_cons by (apply FRESH; assumption). rewrite Nat.pow_succ_r'. lia.
    + cbn [length]. lia.
    + intros x J. cbn [app] in *. rewrite in_app_iff in *. cbn [In] in *. rewrite in_app_iff in J. tauto.
Qed.
End Size.

Theorem size_at_most : forall E (f : FunctionDefinition E) chain, returns f (Ok chain) -> length (chain_ids chain) <= 2 ^ (length (FunctionDefinition_blocks f) - 1).
Proof.
  intros E f chain [_ [d H]]. apply find_inv in H as (ND & s & _ & _ & S).
  pose proof (found_goes f _ _ _ _ S) as EN. cbn in EN.
  pose proof (size_bound f ND _ _ _ _ S EN [] 0 (fun d J => match J with end) (le_n 1)) as B. cbn [fits app Nat.add] in B.
  eapply Nat.le_trans; [exact B|]. apply Nat.pow_le_mono_r; [lia|]. apply Nat.sub_le_mono_r.
  eapply Nat.le_trans with (card (labels f)).
  - apply card_incl. intros x J. destruct (proj2 (Search_ids f _ _ _ _ S) x J) as (b & [I <-] & _). apply in_map. exact I.
  - eapply Nat.le_trans; [apply card_length|]. unfold labels. rewrite map_length. reflexivity.
Qed.

(** ** A function whose chain is as large *)
(** Block [k] chooses between block [k - 1] and block [k - 1], and so on. *)
Fixpoint fork (k : nat) : list statement :=
  match k with
  | O => []
  | S k => [Choose (N.of_nat (S k)) 0%N (fork k) (fork k) SelectionControl_default None]
  end.
Definition fork_block (i : nat) : BlockId * option GroupMerge * GroupBranch :=
  (N.of_nat (S i), Some (GroupMerge_OpSelectionMerge (Build_OpSelectionMerge 0%N SelectionControl_default)),
   GroupBranch_OpBranchConditional (Build_OpBranchConditional 0%N (N.of_nat i) (N.of_nat i) None)).
Definition fork_blocks (k : nat) : list (BlockId * option GroupMerge * GroupBranch) :=
  rev (map fork_block (seq 0 k)) ++ [(0%N, None, GroupBranch_OpReturn Build_OpReturn)].
Definition fork_function {E} (k : nat) : FunctionDefinition E :=
  Build_FunctionDefinition (Build_OpFunction 0%N 0%N (Build_FunctionControl false false false false) 0%N) [] (map of_skeleton (fork_blocks k)).

Lemma fork_first : forall k, first_of (fork k) 0%N = N.of_nat k.
Proof. intros [|k]; reflexivity. Qed.
Lemma fork_lower : forall k loop, incl (sequence (lower loop) (fork k) 0%N) (map fork_block (seq 0 k)).
Proof.
  induction k as [|k IH]; intros loop; [intros x []|]. cbn [fork sequence lower first_of]. rewrite !fork_first, app_nil_r.
  assert (W : incl (map fork_block (seq 0 k)) (map fork_block (seq 0 (S k)))) by (apply incl_map; intros x I; apply in_seq in I; apply in_seq; lia).
  intros x [<-|I].
  - apply in_map_iff. exists k. split; [reflexivity|]. apply in_seq. lia.
  - apply in_app_or in I as [I|I]; apply W, (IH loop), I.
Qed.
Lemma fork_placed : forall k stops loop, incl stops [0%N] -> each (placed stops loop) (fork k) 0%N.
Proof.
  induction k as [|k IH]; intros stops loop H; [exact I|]. cbn [fork each first_of placed start]. split; [|exact I]. split.
  - intros J. apply H in J as [J|[]]. lia.
  - split; apply IH; intros x [<-|J]; [left; reflexivity|apply H; exact J|left; reflexivity|apply H; exact J].
Qed.
Lemma fork_calls : forall k, program_calls (fork (S k)) = 3 * (2 ^ S k - 1) + 1.
Proof.
  intros k. assert (X : statement_calls (Choose (N.of_nat (S k)) 0%N (fork k) (fork k) SelectionControl_default None) = 3 * (2 ^ S k - 1)).
  { induction k as [|k IH]; [reflexivity|]. cbn [statement_calls]. cbn [fork sequence_calls is_exit] in IH |- *.
    replace (fork (S k)) with [Choose (N.of_nat (S k)) 0%N (fork k) (fork k) SelectionControl_default None] by reflexivity.
    cbn [sequence_calls is_exit]. rewrite IH. pose proof (Nat.pow_nonzero 2 k). cbn [Nat.pow]. lia. }
  unfold program_calls. cbn [fork sequence_calls is_exit]. rewrite X. reflexivity.
Qed.
Lemma arm_fork : forall k, arm chain_of (fork k) = Block (map chain_of (fork k)).
Proof. intros [|k]; reflexivity. Qed.
Lemma fork_ids : forall k, length (flat_map chain_ids (map chain_of (fork k))) = 2 ^ k - 1.
Proof.
  induction k as [|k IH]; [reflexivity|]. cbn [fork map chain_of flat_map chain_ids]. rewrite !arm_fork. cbn [chain_ids]. rewrite app_nil_r. cbn [length]. rewrite app_length, IH.
  pose proof (Nat.pow_nonzero 2 k). cbn [Nat.pow]. lia.
Qed.

Theorem size_reached : forall E n, exists (f : FunctionDefinition E) chain depth, length (FunctionDefinition_blocks f) = S n /\
  find_control_flow_counted depth f = (Ok chain, 3 * 2 ^ n - 2) /\ length (chain_ids chain) = 2 ^ n.
Proof.
  intros E n. exists (fork_function n), (program_chain (fork n) 0%N), (program_depth (fork n)). unfold fork_function. cbn [FunctionDefinition_blocks]. rewrite map_length. unfold fork_blocks at 1.
  rewrite app_length, rev_length, map_length, seq_length. cbn [length]. split; [lia|]. set (f := Build_FunctionDefinition _ _ _ : FunctionDefinition E).
  assert (SK : map skeleton (FunctionDefinition_blocks f) = fork_blocks n) by (unfold f; cbn [FunctionDefinition_blocks]; apply skeleton_of).
  assert (LB : labels f = rev (map N.of_nat (seq 0 (S n)))).
  { unfold labels, f. cbn [FunctionDefinition_blocks]. rewrite map_map. unfold fork_blocks. rewrite map_app, map_rev, map_map.
    cbn [seq map rev]. rewrite <- seq_shift, map_map. reflexivity. }
  assert (ND : NoDup (labels f)). { rewrite LB. apply NoDup_rev. apply FinFun.Injective_map_NoDup; [|apply seq_NoDup]. intros a b Q. lia. }
  assert (PL : placed_program (fork n) 0%N) by (apply fork_placed; intros x []).
  assert (IN : incl (lower_program (fork n) 0%N None) (map skeleton (FunctionDefinition_blocks f))).
  { rewrite SK. unfold lower_program, fork_blocks. apply incl_app; [|apply incl_appr, incl_refl]. apply incl_appl. intros x I. apply -> in_rev. apply (fork_lower n None), I. }
  assert (EN : entry f (first_of (fork n) 0%N)).
  { rewrite fork_first. unfold entry, f. cbn [FunctionDefinition_blocks]. unfold fork_blocks. destruct n as [|n]; [cbn; eauto|].
    assert (Q : rev (map fork_block (seq 0 (S n))) = fork_block n :: rev (map fork_block (seq 0 n))) by (rewrite seq_S, map_app, rev_app_distr; reflexivity).
    rewrite Q. cbn [app map]. eexists _, _. split; reflexivity. }
  split.
  - rewrite (calls_exact f ND _ _ _ PL IN EN) by reflexivity. f_equal. destruct n as [|n]; [reflexivity|]. rewrite fork_calls. pose proof (Nat.pow_nonzero 2 n). cbn [Nat.pow]. lia.
  - unfold program_chain. pose proof (fork_ids n) as Q. pose proof (Nat.pow_nonzero 2 n) as P. destruct (fork n) as [|x l] eqn:FK.
    + destruct n; [reflexivity|discriminate FK].
    + cbn [chain_ids]. rewrite flat_map_app, app_length, Q. cbn [flat_map chain_ids app length]. lia.
Qed.

Theorem calls_at_most : forall E (f : FunctionDefinition E) depth chain calls, find_control_flow_counted depth f = (Ok chain, calls) ->
  calls <= 3 * 2 ^ (length (FunctionDefinition_blocks f) - 1) - 2.
Proof.
  intros E f depth chain calls H. assert (H' : find_control_flow depth f = Ok chain) by (rewrite <- counted_find, H; reflexivity).
  assert (R : returns f (Ok chain)) by (split; [discriminate|eauto]).
  destruct (chain_calls f chain R) as (k & [_ K] & Q). specialize (Q _ H'). rewrite H in Q. injection Q as ->.
  pose proof (size_at_most _ _ _ R). lia.
Qed.
