(** Structured control flow: how many calls the search makes, whether it finds a chain or not (C113). *)
From Coq Require Import Relations.
From Verif Require Import Base Types Ops Groups ExtSet ControlFlow ControlFlowCount Spec_Flow Spec_Structured Spec_Cost Spec_Frames Proofs_Flow Proofs_Flow2 Proofs_Flow3 Proofs_Structured Proofs_Cost Proofs_Frames Proofs_Nesting Proofs_ChainSize.

Section Any.
Context {E : Type}.
Variable f : FunctionDefinition E.
Hypothesis ND : NoDup (labels f).

Notation below := (clos_refl_trans_1n _ (calls f)).
Notation later := (clos_trans _ (calls f)).

(** ** Where the search goes on after a block, without coming to a block at which it stops *)
Definition step (fl : FlowList) (x y : BlockId) : Prop := next f x y /\ merges fl x = false.
Notation goes fl := (clos_refl_trans_1n _ (step fl)).
Notation reaches fl := (clos_trans_1n _ (step fl)).

Lemma along_step : forall k k', along f k k' -> step (snd k) (fst k) (fst k').
Proof. intros k k' A. split; [apply along_next; exact A|]. eapply calls_open. apply calls_along. exact A. Qed.
Lemma step_along : forall fl x y, step fl x y -> along f (x, fl) (y, fl).
Proof.
  intros fl x y [(b & HB & Y) M].
  destruct Y as [(op & B & Mg & ->)|[(op & lm & B & Mg & ->)|[(op & sm & B & Mg & ->)|(op & B & Mg & ->)]]];
  [eapply along_branch|eapply along_loop|eapply along_selection|eapply along_leave]; eassumption.
Qed.
Lemma goes_here : forall fl x, goes fl x x.
Proof. intros. apply Relation_Operators.rt1n_refl. Qed.
Lemma step_goes : forall fl x y z, step fl x y -> goes fl y z -> goes fl x z.
Proof. intros fl x y z A B. eapply Relation_Operators.rt1n_trans; eassumption. Qed.
Lemma goes_goes : forall fl x y z, goes fl x y -> goes fl y z -> goes fl x z.
Proof. intros fl x y z A B. induction A as [x|x w y N A IH]; [exact B|]. eapply step_goes; [exact N|]. apply IH. exact B. Qed.
Lemma reaches_split : forall fl x y, reaches fl x y <-> exists w, step fl x w /\ goes fl w y.
Proof.
  intros fl x y. split.
  - intros R. induction R as [x y N|x w y N R (v & Nv & G)]; [exists y; split; [exact N|apply goes_here]|].
    exists w. split; [exact N|]. eapply step_goes; eassumption.
  - intros (w & N & G). revert x N. induction G as [w|w v y Nw G IH]; intros x N; [apply t1n_step; exact N|].
    eapply Relation_Operators.t1n_trans; [exact N|]. apply IH. exact Nw.
Qed.
Lemma goes_step_reaches : forall fl x y z, goes fl x y -> step fl y z -> reaches fl x z.
Proof.
  intros fl x y z G S. induction G as [x|x w y N G IH]; [apply t1n_step; exact S|]. eapply Relation_Operators.t1n_trans; [exact N|apply IH; exact S].
Qed.
Lemma reaches_step : forall fl x y z, reaches fl x y -> step fl y z -> reaches fl x z.
Proof.
  intros fl x y z R S. apply reaches_split in R as (w & N & G). apply reaches_split. exists w. split; [exact N|].
  eapply goes_goes; [exact G|]. eapply step_goes; [exact S|apply goes_here].
Qed.
Lemma goes_or_reaches : forall fl x y, goes fl x y -> x = y \/ reaches fl x y.
Proof. intros fl x y G. destruct G as [|w y N G]; [left; reflexivity|right]. apply reaches_split. eauto. Qed.
Lemma goes_weaken : forall c fl x y, goes (c :: fl) x y -> goes fl x y.
Proof.
  intros c fl x y G. induction G as [x|x w y [N M] G IH]; [apply goes_here|]. eapply step_goes; [|exact IH]. split; [exact N|].
  destruct (merges fl x) eqn:Q; [|reflexivity]. apply (merges_cons c) in Q. congruence.
Qed.
Lemma reaches_later : forall fl x y, reaches fl x y -> later (x, fl) (y, fl).
Proof.
  intros fl x y R. induction R as [x y S|x w y S R IH]; [|eapply t_trans; [|exact IH]]; apply t_step, calls_along, step_along; exact S.
Qed.
Lemma reaches_once : forall fl x n, found f (x, fl) n -> ~ reaches fl x x.
Proof. intros fl x n F R. exact (later_irrefl f ND _ _ F (reaches_later _ _ _ R)). Qed.

Lemma found_goes_on : forall fl id c n, Search f fl id c n -> match n with Cont_Next s => goes fl id s | Cont_Return => True end.
Proof.
  intros fl id c n S. destruct n as [s|]; [|exact I]. remember (Cont_Next s) as n eqn:Q.
  induction S as [fl id M|fl id b op M HB Br|fl id b op c n M HB Br Mg S IH|fl id b op lm inner after n M HB Br Mg S1 IH1 S2 IH2
    |fl id b op sm lhs rhs after n M HB Br Mg S1 IH1 S2 IH2 S3 IH3|fl id b op head merge inner is_break M HB Br Mg L D S IH].
  - injection Q as ->. apply goes_here.
  - discriminate Q.
  - eapply step_goes; [|exact (IH Q)]. apply (along_step (id, fl) (_, fl)). eapply along_branch; eassumption.
  - eapply step_goes; [|exact (IH2 Q)]. apply (along_step (id, fl) (_, fl)). eapply along_loop; eassumption.
  - eapply step_goes; [|exact (IH3 Q)]. apply (along_step (id, fl) (_, fl)). eapply along_selection; eassumption.
  - eapply step_goes; [|exact (IH Q)]. apply (along_step (id, fl) (_, fl)). eapply along_leave; eassumption.
Qed.

(** The blocks in [k], which ends at [stop], go to [stop]. *)
Lemma inside_goes_on : forall k k', below k k' -> forall stop, found f k (Cont_Next stop) -> goes (snd k) (fst k') stop.
Proof.
  intros k k' B. induction B as [k|k k1 k' C B IH]; intros stop F.
  - destruct F as [c S]. exact (found_goes_on _ _ _ _ S).
  - destruct C as [k k1 A|k k1 s A].
    + rewrite <- (along_flow f _ _ A). apply IH. eapply found_along; eassumption.
    + pose proof (IH s (found_into f ND _ _ _ _ A F)) as G. destruct F as [c S]. destruct A as [fl id b op lm M HB Br Mg|fl id b op sm side M HB Br Mg]; cbn [snd] in *.
      * eapply goes_goes; [eapply goes_weaken; exact G|]. exact (found_goes_on _ _ _ _ S).
      * eapply goes_goes; [eapply goes_weaken; exact G|].
        assert (A : along f (id, fl) (OpSelectionMerge_merge_block sm, fl)) by (eapply along_selection; eassumption).
        destruct (found_along f ND _ _ (Cont_Next stop) A (ex_intro _ c S)) as [c' S']. exact (found_goes_on _ _ _ _ S').
Qed.

(** What is in an arm of a selection does not come to the selection. *)
Lemma inside_apart_from : forall fl id b op sm side n, merges fl id = false -> has_block f id b -> BasicBlock_branch b = GroupBranch_OpBranchConditional op ->
  BasicBlock_merge b = Some (GroupMerge_OpSelectionMerge sm) -> found f (id, fl) n ->
  forall v, inside f (if (side : bool) then OpBranchConditional_true_label op else OpBranchConditional_false_label op,
    Converge_If (OpSelectionMerge_merge_block sm) (OpSelectionMerge_selection_control sm) :: fl) v -> ~ goes fl v id.
Proof.
  intros fl id b op sm side n M HB Br Mg F v IV G.
  pose proof (into_selection f fl id b op sm side M HB Br Mg) as I.
  pose proof (found_into f ND _ _ _ _ I F) as FI.
  assert (S : step fl id (OpSelectionMerge_merge_block sm)) by (apply (along_step (id, fl) (_, fl)); eapply along_selection; eassumption).
  induction G as [v|v w id' [Nv Mv] G IH]; [exact (inside_once f ND _ _ F _ _ I IV)|].
  destruct (inside_next f ND _ _ FI _ _ IV Nv) as [->|IW].
  - apply (reaches_once _ _ _ F). apply reaches_split. eauto.
  - apply IH; assumption.
Qed.

(** ** The size of what a search finds *)
Lemma size_bound_any : forall fl id c n, Search f fl id c n -> forall pre size, (forall d, In d pre -> reaches fl d id) -> size + 1 <= 2 ^ card pre ->
  fits n (size + length (chain_ids c)) (pre ++ chain_ids c).
Proof.
  assert (FRESH : forall fl id n pre, found f (id, fl) n -> (forall d, In d pre -> reaches fl d id) -> ~ In id pre).
  { intros fl id n pre F D J. exact (reaches_once _ _ _ F (D _ J)). }
  assert (STEP : forall fl id id' pre, (forall d, In d pre -> reaches fl d id) -> step fl id id' -> forall d, In d (id :: pre) -> reaches fl d id').
  { intros fl id id' pre D N d [<-|J]; [apply t1n_step; exact N|]. eapply reaches_step; [apply D; exact J|exact N]. }
  intros fl id c n S. induction S as [fl id M|fl id b op M HB Br|fl id b op c n M HB Br Mg S IH|fl id b op lm inner after n M HB Br Mg S1 IH1 S2 IH2
    |fl id b op sm lhs rhs after n M HB Br Mg S1 IH1 S2 IH2 S3 IH3|fl id b op head merge inner is_break M HB Br Mg L D S IH]; intros pre size D0 A0.
  - cbn [chain_ids length fits]. rewrite app_nil_r, Nat.add_0_r. exact A0.
  - assert (F : found f (id, fl) Cont_Return) by (eexists; eapply S_return; eassumption).
    cbn [chain_ids length fits]. assert (X : card (id :: pre) <= card (pre ++ [id])) by (apply card_incl; intros x [<-|J]; apply in_or_app; [right; left; reflexivity|left; exact J]).
    rewrite card_cons in X by (eapply FRESH; eassumption). eapply Nat.le_trans; [exact A0|]. apply Nat.pow_le_mono_r; lia.
  - assert (N : step fl id (OpBranch_target_label op)) by (apply (along_step (id, fl) (_, fl)); eapply along_branch; eassumption).
    assert (F : found f (id, fl) n) by (eexists; eapply S_branch; eassumption).
    eapply fits_more; [apply (IH (id :: pre) (size + 1))| |].
    + apply (STEP _ id); assumption.
    + rewrite card_cons by (eapply FRESH; eassumption). rewrite Nat.pow_succ_r'. lia.
    + rewrite chain_ids_block, app_length. cbn [chain_ids length]. lia.
    + rewrite chain_ids_block. cbn [chain_ids]. intros x J. cbn [app] in *. rewrite !in_app_iff in *. cbn [In] in *. rewrite in_app_iff in J. tauto.
  - assert (N : step fl id (OpLoopMerge_merge_block lm)) by (apply (along_step (id, fl) (_, fl)); eapply along_loop; eassumption).
    assert (SS : Search f fl id (block [Loop id inner (OpLoopMerge_loop_control lm) None; after]) n) by (eapply S_loop; eassumption).
    assert (F : found f (id, fl) n) by (eexists; exact SS).
    pose proof (into_loop f _ _ _ _ _ M HB Br Mg) as IT.
    assert (NI : ~ In id (chain_ids inner)) by (eapply (not_below f ND fl id); [exact SS|exact IT|exact S1]).
    pose proof (IH1 [] 0 (fun d J => match J with end) (le_n 1)) as B1. cbn [fits app] in B1.
    assert (IG : forall d, In d (chain_ids inner) -> goes fl d id).
    { intros d J. destruct (ids_below f _ _ _ _ S1 d J) as (fl' & B & Md). eapply goes_weaken. exact (inside_goes_on _ _ B _ (ex_intro _ inner S1)). }
    eapply fits_more; [apply (IH2 (id :: chain_ids inner ++ pre) (size + 1 + length (chain_ids inner)))| |].
    + intros d [<-|J]; [apply t1n_step; exact N|]. apply in_app_or in J as [J|J]; [eapply goes_step_reaches; [apply IG; exact J|exact N]|].
      apply (STEP _ id _ pre D0 N). right. exact J.
    + rewrite card_cons by (rewrite in_app_iff; intros [J|J]; [contradiction|exact (FRESH _ _ _ _ F D0 J)]).
      replace (size + 1 + length (chain_ids inner) + 1) with (size + length (chain_ids inner) + 2) by lia.
      eapply double; [exact A0|exact B1| |]; apply card_incl; [apply incl_appr|apply incl_appl]; apply incl_refl.
    + rewrite chain_ids_block, app_length. cbn [chain_ids length]. lia.
    + rewrite chain_ids_block. cbn [chain_ids]. intros x J. cbn [app] in *. rewrite !in_app_iff in *. cbn [In] in *. rewrite !in_app_iff in *. tauto.
  - assert (N : step fl id (OpSelectionMerge_merge_block sm)) by (apply (along_step (id, fl) (_, fl)); eapply along_selection; eassumption).
    assert (SS : Search f fl id (block [Selection id lhs rhs (OpSelectionMerge_selection_control sm) (OpBranchConditional_weights op); after]) n) by (eapply S_selection; eassumption).
    assert (F : found f (id, fl) n) by (eexists; exact SS).
    pose proof (into_selection f _ _ _ _ _ true M HB Br Mg) as IT1. pose proof (into_selection f _ _ _ _ _ false M HB Br Mg) as IT2.
    assert (NI1 : ~ In id (chain_ids lhs)) by (eapply (not_below f ND fl id); [exact SS|exact IT1|exact S1]).
    assert (NI2 : ~ In id (chain_ids rhs)) by (eapply (not_below f ND fl id); [exact SS|exact IT2|exact S2]).
    pose proof (IH1 [] 0 (fun d J => match J with end) (le_n 1)) as B1. cbn [fits app] in B1.
    pose proof (IH2 [] 0 (fun d J => match J with end) (le_n 1)) as B2. cbn [fits app] in B2.
    assert (IN : forall d, In d (chain_ids lhs ++ chain_ids rhs) -> exists side : bool, inside f (if side then OpBranchConditional_true_label op else OpBranchConditional_false_label op,
      Converge_If (OpSelectionMerge_merge_block sm) (OpSelectionMerge_selection_control sm) :: fl) d).
    { intros d J. apply in_app_or in J as [J|J]; [exists true; exact (ids_below f _ _ _ _ S1 d J)|exists false; exact (ids_below f _ _ _ _ S2 d J)]. }
    assert (IG : forall d, In d (chain_ids lhs ++ chain_ids rhs) -> reaches fl d (OpSelectionMerge_merge_block sm)).
    { intros d J. destruct (IN d J) as [side (fl' & B & Md)].
      assert (FF : found f (if side then OpBranchConditional_true_label op else OpBranchConditional_false_label op,
        Converge_If (OpSelectionMerge_merge_block sm) (OpSelectionMerge_selection_control sm) :: fl) (Cont_Next (OpSelectionMerge_merge_block sm))) by (destruct side; eexists; eassumption).
      pose proof (goes_weaken _ _ _ _ (inside_goes_on _ _ B _ FF)) as G. cbn [fst] in G. destruct (goes_or_reaches _ _ _ G) as [Q|Q]; [|exact Q]. subst d. exfalso.
      pose proof (merges_below f _ _ B (OpSelectionMerge_merge_block sm)) as X. cbn [snd merges] in X. rewrite N.eqb_refl in X. specialize (X eq_refl). congruence. }
    assert (AP : forall d, In d pre -> ~ In d (chain_ids lhs ++ chain_ids rhs)).
    { intros d J K. destruct (IN d K) as [side I]. apply (inside_apart_from _ _ _ _ _ _ _ M HB Br Mg F d I).
      apply D0, reaches_split in J as (w & Nw & G). eapply step_goes; eassumption. }
    eapply fits_more; [apply (IH3 (id :: pre ++ (chain_ids lhs ++ chain_ids rhs)) (size + 1 + (length (chain_ids lhs) + length (chain_ids rhs))))| |].
    + intros d [<-|J]; [apply t1n_step; exact N|]. apply in_app_or in J as [J|J]; [apply (STEP _ id _ pre D0 N); right; exact J|apply IG; exact J].
    + rewrite card_cons by (rewrite !in_app_iff; intros [J|[J|J]]; [exact (FRESH _ _ _ _ F D0 J)|contradiction|contradiction]).
      replace (size + 1 + (length (chain_ids lhs) + length (chain_ids rhs)) + 1) with (size + (length (chain_ids lhs) + length (chain_ids rhs)) + 2) by lia.
      assert (W : forall l, l + 1 <= 2 ^ card (chain_ids lhs) \/ l + 1 <= 2 ^ card (chain_ids rhs) -> l + 1 <= 2 ^ card (chain_ids lhs ++ chain_ids rhs)).
      { intros l [X|X]; (eapply Nat.le_trans; [exact X|]; apply Nat.pow_le_mono_r; [lia|]; apply card_incl); [apply incl_appl, incl_refl|apply incl_appr, incl_refl]. }
      eapply two_arms; [exact A0|apply W; left; exact B1|apply W; right; exact B2|]. apply card_app. exact AP.
    + rewrite chain_ids_block, app_length. cbn [chain_ids length]. rewrite app_length. lia.
    + rewrite chain_ids_block. cbn [chain_ids]. intros x J. cbn [app] in *. rewrite !in_app_iff in *. cbn [In] in *. rewrite !in_app_iff in *. tauto.
  - assert (N : step fl id (OpBranchConditional_true_label op)) by (apply (along_step (id, fl) (_, fl)); eapply along_leave; eassumption).
    assert (F : found f (id, fl) (Cont_Next head)) by (eexists; eapply S_leave; eassumption).
    assert (Q : chain_ids (Selection id inner (if is_break then Break else Continue) SelectionControl_default (OpBranchConditional_weights op)) = id :: chain_ids inner).
    { cbn [chain_ids]. destruct is_break; cbn [chain_ids]; rewrite app_nil_r; reflexivity. }
    rewrite Q. eapply fits_more; [apply (IH (id :: pre) (size + 1))| |].
    + apply (STEP _ id); assumption.
    + rewrite card_cons by (eapply FRESH; eassumption). rewrite Nat.pow_succ_r'. lia.
    + cbn [length]. lia.
    + intros x J. cbn [app] in *. rewrite in_app_iff in *. cbn [In] in *. rewrite in_app_iff in J. tauto.
Qed.

(** ** The number of calls *)
Notation m := (block_map f).

Lemma more_inv : forall {A} (x : counted A) r k, one_more x = (r, k) -> exists k', x = (r, k') /\ k = S k'.
Proof. intros A [r' k'] r k H. injection H as <- <-. eauto. Qed.
Lemma count_bind_Ok : forall {A B} (x : counted A) (g : A -> counted B) r k, count_bind x g = (Ok r, k) -> exists v a b, x = (Ok v, a) /\ g v = (Ok r, b) /\ k = a + b.
Proof. intros A B [[v|e| |] a] g r k H; cbn [count_bind] in H; try discriminate H. destruct (g v) as [r' b] eqn:G. injection H as -> <-. exists v, a, b. auto. Qed.

Lemma answer_Ok : forall (x c : ControlFlowChain) (y n : Cont) q, answer (Ok (x, y)) = (Ok (c, n), q) -> c = x /\ n = y /\ q = 0.
Proof. intros x c y n q H. unfold answer in H. split; [|split]; congruence. Qed.

Lemma calls_of_found : forall k id fl c n q, search_block_counted k id fl m = (Ok (c, n), q) ->
  q + match n with Cont_Next _ => 0 | Cont_Return => 3 end <= 3 * length (chain_ids c) + 1.
Proof.
  induction k as [|k IH]; intros id fl c n q H; [discriminate H|]. cbn [search_block_counted] in H. apply more_inv in H as (q' & H & ->).
  destruct (merges fl id); [apply answer_Ok in H as (-> & -> & ->); cbn; lia|]. destruct (map_get id m) as [b|]; [|discriminate H].
  destruct (BasicBlock_branch b) as [op|op|op].
  - destruct (BasicBlock_merge b) as [[lm|sm]|].
    + apply count_bind_Ok in H as ([ic inx] & a1 & b1 & H1 & H & ->). destruct (cont_eqb inx (Cont_Next id)) eqn:Q; [|discriminate H].
      apply count_bind_Ok in H as ([ac an] & a2 & b2 & H2 & H & ->). apply answer_Ok in H as (-> & -> & ->). apply IH in H1. apply IH in H2.
      rewrite chain_ids_block, app_length. cbn [chain_ids length]. destruct inx; [|discriminate Q]. lia.
    + discriminate H.
    + apply count_bind_Ok in H as ([ac an] & a2 & b2 & H2 & H & ->). apply answer_Ok in H as (-> & -> & ->). apply IH in H2.
      rewrite chain_ids_block, app_length. cbn [chain_ids length]. lia.
  - destruct (BasicBlock_merge b) as [[lm|sm]|].
    + discriminate H.
    + apply count_bind_Ok in H as ([tc tn] & a1 & b1 & H1 & H & ->). apply count_bind_Ok in H as ([fc fn] & a2 & b2 & H2 & H & ->).
      destruct (_ && _); [|discriminate H]. apply count_bind_Ok in H as ([ac an] & a3 & b3 & H3 & H & ->). apply answer_Ok in H as (-> & -> & ->).
      apply IH in H1. apply IH in H2. apply IH in H3. rewrite chain_ids_block, app_length. cbn [chain_ids length]. rewrite app_length. lia.
    + destruct (innermost_loop fl) as [[h mg]|]; [|discriminate H]. destruct (_ || _); [|discriminate H].
      apply count_bind_Ok in H as ([ic inx] & a1 & b1 & H1 & H & ->). destruct (cont_eqb inx (Cont_Next h)); [|discriminate H]. apply answer_Ok in H as (-> & -> & ->). apply IH in H1.
      cbn [chain_ids length]. rewrite app_length. lia.
  - apply answer_Ok in H as (-> & -> & ->). cbn. lia.
Qed.

Notation n := (length (FunctionDefinition_blocks f)).

Lemma ids_card : forall fl id c k, Search f fl id c k -> card (chain_ids c) <= n.
Proof.
  intros fl id c k S. eapply Nat.le_trans with (card (labels f)).
  - apply card_incl. intros x J. destruct (proj2 (Search_ids f _ _ _ _ S) x J) as (b & [I <-] & _). apply in_map. exact I.
  - eapply Nat.le_trans; [apply card_length|]. unfold labels. rewrite map_length. reflexivity.
Qed.

Lemma found_cheap : forall k id fl r q, search_block_counted k id fl m = (Ok r, q) -> q <= 3 * 2 ^ n - 2.
Proof.
  intros k id fl [c nx] q H. pose proof (calls_of_found _ _ _ _ _ _ H) as C.
  assert (S : Search f fl id c nx) by (eapply search_Ok; [apply block_map_represents|]; rewrite <- counted_search, H; reflexivity).
  pose proof (size_bound_any _ _ _ _ S [] 0 (fun d J => match J with end) (le_n 1)) as B. cbn [app Nat.add] in B.
  pose proof (ids_card _ _ _ _ S) as CA. unfold fits in B. destruct nx.
  - pose proof (Nat.pow_le_mono_r 2 _ _ (Nat.neq_succ_0 1) CA). lia.
  - assert (L : card (chain_ids c) - 1 <= n) by lia. pose proof (Nat.pow_le_mono_r 2 _ _ (Nat.neq_succ_0 1) L). lia.
Qed.

Lemma search_calls : forall k id fl, snd (search_block_counted k id fl m) <= k * (6 * 2 ^ n - 3).
Proof.
  pose proof (Nat.pow_nonzero 2 n (Nat.neq_succ_0 1)) as P. pose proof found_cheap as CH. set (p := 2 ^ n) in *. clearbody p.
  induction k as [|k IH]; intros id fl; [cbn; lia|]. cbn [search_block_counted]. rewrite Nat.mul_succ_l. set (w := k * (6 * p - 3)) in *. clearbody w.
  assert (MORE : forall A (x : counted A), snd x <= 6 * p - 4 + w -> snd (one_more x) <= w + (6 * p - 3)) by (intros A [r q]; cbn [one_more snd]; lia). apply MORE; clear MORE.
  assert (BIND : forall A (i : BlockId) l (g : ControlFlowChain * Cont -> counted A) d, (forall r, snd (g r) <= d + w) -> snd (count_bind (search_block_counted k i l m) g) <= 3 * p - 2 + d + w).
  { intros A i l g d G. pose proof (IH i l) as I. pose proof (CH k i l) as Cc. destruct (search_block_counted k i l m) as [[r|e| |] q]; cbn [count_bind snd] in *; try lia.
    specialize (Cc r q eq_refl). specialize (G r). destruct (g r) as [r' q']. cbn [snd] in *. lia. }
  assert (LAST : forall A (i : BlockId) l (g : ControlFlowChain * Cont -> counted A), (forall r, snd (g r) = 0) -> snd (count_bind (search_block_counted k i l m) g) <= 0 + w).
  { intros A i l g G. pose proof (IH i l) as I. destruct (search_block_counted k i l m) as [[r|e| |] q]; cbn [count_bind snd] in *; try lia.
    specialize (G r). destruct (g r) as [r' q']. cbn [snd] in *. lia. }
  destruct (merges fl id); [cbn; lia|]. destruct (map_get id m) as [b|]; [|cbn; lia].
  destruct (BasicBlock_branch b) as [op|op|op]; [| |cbn; lia]; (destruct (BasicBlock_merge b) as [[lm|sm]|]; try (cbn; lia)).
  - eapply Nat.le_trans; [apply BIND with (d := 0)|lia]. intros [ic inx]. destruct (cont_eqb inx _); [|cbn; lia]. apply LAST. intros [ac an]. reflexivity.
  - eapply Nat.le_trans; [apply LAST|lia]. intros [ac an]. reflexivity.
  - eapply Nat.le_trans; [apply BIND with (d := 3 * p - 2)|lia]. intros [tc tn]. eapply Nat.le_trans; [apply BIND with (d := 0)|lia]. intros [fc fn].
    destruct (_ && _); [|cbn; lia]. apply LAST. intros [ac an]. reflexivity.
  - destruct (innermost_loop fl) as [[h mg]|]; [|cbn; lia]. destruct (_ || _); [|cbn; lia]. eapply Nat.le_trans; [apply LAST|lia]. intros [ic inx]. destruct (cont_eqb inx _); reflexivity.
Qed.
End Any.

Section Find.
Context {E : Type}.
Variable f : FunctionDefinition E.

(** A search that is not stopped takes as many calls with more depth. *)
Lemma counted_mono : forall (m : BlockMap (E := E)) d id fl more, fst (search_block_counted d id fl m) <> OutOfFuel ->
  search_block_counted (more + d) id fl m = search_block_counted d id fl m.
Proof.
  intros m. induction d as [|d IH]; intros id fl more H; [destruct H; reflexivity|]. rewrite Nat.add_succ_r. cbn [search_block_counted] in *. rewrite fst_more in H. f_equal.
  assert (BIND : forall A (i : BlockId) l (g g' : ControlFlowChain * Cont -> counted A), fst (count_bind (search_block_counted d i l m) g) <> OutOfFuel ->
    (forall r, fst (g r) <> OutOfFuel -> g' r = g r) -> count_bind (search_block_counted (more + d) i l m) g' = count_bind (search_block_counted d i l m) g).
  { intros A i l g g' X G. assert (Y : fst (search_block_counted d i l m) <> OutOfFuel).
    { intros Y. apply X. apply out_bind. exact Y. }
    rewrite (IH _ _ _ Y). destruct (search_block_counted d i l m) as [[r|e| |] q]; cbn [count_bind fst] in *; try reflexivity.
    rewrite G; [reflexivity|]. destruct (g r). exact X. }
  destruct (merges fl id); [reflexivity|]. destruct (map_get id m) as [b|]; [|reflexivity].
  destruct (BasicBlock_branch b) as [op|op|op]; [| |reflexivity]; (destruct (BasicBlock_merge b) as [[lm|sm]|]; try reflexivity).
  - apply BIND; [exact H|]. intros [ic inx] H1. destruct (cont_eqb inx _); [|reflexivity]. apply BIND; [exact H1|]. reflexivity.
  - apply BIND; [exact H|]. reflexivity.
  - apply BIND; [exact H|]. intros [tc tn] H1. apply BIND; [exact H1|]. intros [fc fn] H2. destruct (_ && _); [|reflexivity]. apply BIND; [exact H2|]. reflexivity.
  - destruct (innermost_loop fl) as [[h mg]|]; [|reflexivity]. destruct (_ || _); [|reflexivity]. apply BIND; [exact H|]. reflexivity.
Qed.

Theorem calls_at_depth : forall depth, snd (find_control_flow_counted depth f) <= depth * (6 * 2 ^ length (FunctionDefinition_blocks f) - 3).
Proof.
  intros depth. unfold find_control_flow_counted. destruct (build_map (FunctionDefinition_blocks f) None []) as [[[s|] m]|e| |] eqn:B; cbn [count_bind answer snd Nat.add]; try apply Nat.le_0_l.
  pose proof (build_map_spec _ _ _ _ B) as [M _]. cbn [fst snd] in M. rewrite app_nil_r in M. change (m = block_map f) in M.
  assert (N : NoDup (labels f)).
  { pose proof (proj1 (build_map_dup (FunctionDefinition_blocks f) None []) _ B (NoDup_nil _)) as N. cbn [snd] in N. apply NoDup_labels. rewrite <- M. exact N. }
  subst m. pose proof (search_calls f N depth s []) as C. destruct (search_block_counted depth s [] (block_map f)) as [[[c [j|]]|e| |] q]; cbn [count_bind answer snd] in *; lia.
Qed.
Theorem calls_when_returns : forall depth r calls, find_control_flow_counted depth f = (r, calls) -> r <> OutOfFuel ->
  calls <= depth_limit f * (6 * 2 ^ length (FunctionDefinition_blocks f) - 3).
Proof.
  intros depth r calls H N. assert (R : find_control_flow depth f = r) by (rewrite <- counted_find, H; reflexivity).
  assert (L : fst (find_control_flow_counted (depth_limit f) f) <> OutOfFuel).
  { rewrite counted_find. assert (X : returns f r) by (split; eauto). apply returns_iff in X as [_ X]. congruence. }
  assert (MONO : forall d more, fst (find_control_flow_counted d f) <> OutOfFuel -> find_control_flow_counted (more + d) f = find_control_flow_counted d f).
  { intros d more X. unfold find_control_flow_counted in *. destruct (build_map (FunctionDefinition_blocks f) None []) as [[[s|] m]|e| |]; cbn [count_bind answer] in *; try reflexivity.
    rewrite counted_mono; [reflexivity|]. intros Y. apply X. rewrite (surjective_pairing (search_block_counted d s [] m)), Y. reflexivity. }
  assert (Q : find_control_flow_counted (depth_limit f) f = find_control_flow_counted depth f).
  { rewrite <- (MONO (depth_limit f) depth L), Nat.add_comm. apply MONO. rewrite H. exact N. }
  pose proof (calls_at_depth (depth_limit f)) as C. rewrite Q, H in C. exact C.
Qed.
End Find.

(** ** A function without a chain that takes as many calls *)
(** As [fork_function], without the block in which everything ends. *)
Definition torn_function {E} (k : nat) : FunctionDefinition E :=
  Build_FunctionDefinition (Build_OpFunction 0%N 0%N (Build_FunctionControl false false false false) 0%N) [] (map of_skeleton (rev (map fork_block (seq 0 k)))).
Lemma fork_calls_all : forall k, sequence_calls statement_calls (fork k) = 3 * 2 ^ k - 2.
Proof.
  intros [|k]; [reflexivity|]. pose proof (fork_calls k) as Q. unfold program_calls in Q. rewrite Q. pose proof (Nat.pow_nonzero 2 k). cbn [Nat.pow]. lia.
Qed.
Theorem error_reached : forall E n, exists (f : FunctionDefinition E) depth, length (FunctionDefinition_blocks f) = S n /\
  find_control_flow_counted depth f = (Err (UnknownBlockId 0%N), 3 * 2 ^ S n - 2).
Proof.
  intros E n. exists (torn_function (S n)). set (f := torn_function (S n) : FunctionDefinition E).
  assert (SK : map skeleton (FunctionDefinition_blocks f) = rev (map fork_block (seq 0 (S n)))) by (unfold f; cbn [torn_function FunctionDefinition_blocks]; apply skeleton_of).
  assert (LB : labels f = rev (map (fun i => N.of_nat (S i)) (seq 0 (S n)))).
  { unfold labels, f. cbn [torn_function FunctionDefinition_blocks]. rewrite map_map, map_rev, map_map. reflexivity. }
  assert (ND : NoDup (labels f)). { rewrite LB. apply NoDup_rev. apply FinFun.Injective_map_NoDup; [|apply seq_NoDup]. intros a b Q. lia. }
  assert (FB : exists rest, FunctionDefinition_blocks f = of_skeleton (fork_block n) :: rest).
  { unfold f. cbn [torn_function FunctionDefinition_blocks]. rewrite seq_S, map_app, rev_app_distr. cbn [map rev app]. eauto. }
  assert (LEN : length (FunctionDefinition_blocks f) = S n). { unfold f. cbn [torn_function FunctionDefinition_blocks]. rewrite map_length, rev_length, map_length, seq_length. reflexivity. }
  set (fl := [Converge_If 0%N SelectionControl_default]).
  assert (ARM : costs f fl (N.of_nat n) (arm chain_of (fork n)) (Cont_Next 0%N) (sequence_depth inside_depth (fork n)) (sequence_calls statement_calls (fork n))).
  { rewrite <- (fork_first n). apply (sequence_paid f (fork n)).
    - apply Forall_forall. intros s _. apply all_paid. exact ND.
    - apply fork_placed. intros x J. exact J.
    - rewrite SK. eapply incl_tran; [apply fork_lower|]. intros x J. apply -> in_rev. revert J. apply incl_map. intros i J. apply in_seq in J. apply in_seq. lia.
    - left. reflexivity. }
  exists (S (sequence_depth inside_depth (fork n))). split; [exact LEN|]. pose proof (depth_pos (fork n)) as DP.
  pose proof (costs_yes f _ _ _ _ _ _ _ ARM (le_n _)) as C. remember (sequence_depth inside_depth (fork n)) as d eqn:QD. clear QD.
  destruct FB as [rest FB]. assert (HB : map_get (N.of_nat (S n)) (block_map f) = Some (of_skeleton (fork_block n))).
  { apply find_map_iff; [exact ND|]. split; [rewrite FB; left; reflexivity|reflexivity]. }
  assert (H0 : map_get 0%N (block_map f) = None).
  { destruct (map_get 0%N (block_map f)) as [b|] eqn:Q; [|reflexivity]. apply find_map_iff in Q; [|exact ND]. destruct Q as [I L].
    assert (J : In 0%N (labels f)) by (unfold labels; rewrite <- L; apply in_map; exact I). rewrite LB in J. apply in_rev in J. apply in_map_iff in J as (i & Q & _). lia. }
  assert (S : search_block_counted (S d) (N.of_nat (S n)) [] (block_map f) = (Err (UnknownBlockId 0%N), 3 * 2 ^ S n - 2)).
  { cbn [search_block_counted merges]. rewrite HB. unfold fork_block, of_skeleton. cbn [BasicBlock_branch BasicBlock_merge OpBranchConditional_true_label OpBranchConditional_false_label OpSelectionMerge_merge_block OpSelectionMerge_selection_control].
    change [Converge_If 0%N SelectionControl_default] with fl. rewrite C. cbn [count_bind cont_eqb N.eqb andb].
    destruct d as [|d]; [lia|]. cbn [search_block_counted merges]. rewrite H0. cbn [answer one_more count_bind]. rewrite fork_calls_all.
    pose proof (Nat.pow_nonzero 2 n). cbn [Nat.pow]. f_equal. lia. }
  unfold find_control_flow_counted. rewrite (build_map_Ok f ND), FB. cbn [answer count_bind]. change (label_of (of_skeleton (fork_block n))) with (N.of_nat (Datatypes.S n)).
  rewrite S. reflexivity.
Qed.
