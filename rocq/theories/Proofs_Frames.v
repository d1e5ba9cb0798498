(** Structured control flow: how deep the search goes in terms of the number of blocks (C110). *)
From Coq Require Import Relations Wellfounded.Transitive_Closure.
From Verif Require Import Base Types Ops Groups ExtSet ControlFlow Spec_Flow Spec_Structured Spec_Cost Proofs_Flow Proofs_Flow3 Proofs_Structured Proofs_Cost Spec_Frames.

Section Frames.
Context {E : Type}.
Variable f : FunctionDefinition E.
Hypothesis ND : NoDup (labels f).

Definition call : Type := BlockId * FlowList.

(** ** Which search starts which *)
(** The search goes on with the next block of a sequence. *)
Inductive along : call -> call -> Prop :=
| along_branch : forall fl id b op, merges fl id = false -> has_block f id b -> BasicBlock_branch b = GroupBranch_OpBranch op -> BasicBlock_merge b = None ->
    along (id, fl) (OpBranch_target_label op, fl)
| along_loop : forall fl id b op lm, merges fl id = false -> has_block f id b -> BasicBlock_branch b = GroupBranch_OpBranch op ->
    BasicBlock_merge b = Some (GroupMerge_OpLoopMerge lm) -> along (id, fl) (OpLoopMerge_merge_block lm, fl)
| along_selection : forall fl id b op sm, merges fl id = false -> has_block f id b -> BasicBlock_branch b = GroupBranch_OpBranchConditional op ->
    BasicBlock_merge b = Some (GroupMerge_OpSelectionMerge sm) -> along (id, fl) (OpSelectionMerge_merge_block sm, fl)
| along_leave : forall fl id b op, merges fl id = false -> has_block f id b -> BasicBlock_branch b = GroupBranch_OpBranchConditional op ->
    BasicBlock_merge b = None -> along (id, fl) (OpBranchConditional_true_label op, fl).

(** The search goes into a construct, which has to end at [stop]. *)
Inductive into : call -> call -> BlockId -> Prop :=
| into_loop : forall fl id b op lm, merges fl id = false -> has_block f id b -> BasicBlock_branch b = GroupBranch_OpBranch op ->
    BasicBlock_merge b = Some (GroupMerge_OpLoopMerge lm) ->
    into (id, fl) (OpBranch_target_label op, Converge_Loop id (OpLoopMerge_merge_block lm) (OpLoopMerge_loop_control lm) :: fl) id
| into_selection : forall fl id b op sm (side : bool), merges fl id = false -> has_block f id b -> BasicBlock_branch b = GroupBranch_OpBranchConditional op ->
    BasicBlock_merge b = Some (GroupMerge_OpSelectionMerge sm) ->
    into (id, fl) (if side then OpBranchConditional_true_label op else OpBranchConditional_false_label op,
                   Converge_If (OpSelectionMerge_merge_block sm) (OpSelectionMerge_selection_control sm) :: fl) (OpSelectionMerge_merge_block sm).

Inductive calls : call -> call -> Prop :=
| calls_along : forall k k', along k k' -> calls k k'
| calls_into : forall k k' stop, into k k' stop -> calls k k'.

Notation later := (clos_trans _ calls).
Notation below := (clos_refl_trans_1n _ calls).

Definition found (k : call) (n : Cont) : Prop := exists c, Search f (snd k) (fst k) c n.

Ltac same_block := repeat match goal with
  | A : has_block f ?i ?b, B : has_block f ?i ?b' |- _ => assert (b = b') by (exact (has_block_inj f ND _ _ _ A B)); subst b'; clear B
  end; repeat match goal with
  | A : BasicBlock_branch ?b = _, B : BasicBlock_branch ?b = _ |- _ => rewrite A in B; try discriminate B; injection B as B; try subst
  end; repeat match goal with
  | A : BasicBlock_merge ?b = _, B : BasicBlock_merge ?b = _ |- _ => rewrite A in B; try discriminate B; try (injection B as B; subst); try clear B
  end.

Lemma found_along : forall k k' n, along k k' -> found k n -> found k' n.
Proof.
  intros k k' n A [c S]. destruct A; cbn [fst snd] in S; inversion S; subst; try congruence; same_block; eexists; eassumption.
Qed.
Lemma found_into : forall k k' stop n, into k k' stop -> found k n -> found k' (Cont_Next stop).
Proof.
  intros k k' stop n A [c S]. destruct A; cbn [fst snd] in S; inversion S; subst; try congruence; same_block; try destruct side; eexists; eassumption.
Qed.
Lemma found_stop : forall fl id n, merges fl id = true -> found (id, fl) n -> n = Cont_Next id.
Proof. intros fl id n M [c S]. cbn [fst snd] in S. inversion S; subst; try congruence. Qed.
Lemma found_calls : forall k k', calls k k' -> forall n, found k n -> exists n', found k' n'.
Proof. intros k k' [? ? A|? ? s A] n F; [exists n; eapply found_along; eassumption|eexists; eapply found_into; eassumption]. Qed.
Lemma found_below : forall k k', below k k' -> forall n, found k n -> exists n', found k' n'.
Proof.
  intros k k' B. induction B as [k|k k1 k' C B IH]; intros n F; [eauto|]. destruct (found_calls _ _ C _ F) as [n1 F1]. eauto.
Qed.

Lemma below_trans : forall a b c, below a b -> below b c -> below a c.
Proof. intros a b c A B. apply clos_rt_rt1n. apply rt_trans with b; apply clos_rt1n_rt; assumption. Qed.
Lemma below_later : forall a b c, calls a b -> below b c -> later a c.
Proof.
  intros a b c C B. revert a C. induction B as [|b d c C1 B IH]; intros a C; [apply t_step; exact C|].
  apply t_trans with b; [apply t_step; exact C|]. apply IH. exact C1.
Qed.
Lemma later_below : forall a b, later a b -> below a b.
Proof. intros a b L. apply clos_rt_rt1n. induction L; [apply rt_step; assumption|eapply rt_trans; eassumption]. Qed.
Lemma below_calls : forall a b c, below a b -> calls b c -> below a c.
Proof. intros a b c A B. eapply below_trans; [exact A|]. eapply Relation_Operators.rt1n_trans; [exact B|apply Relation_Operators.rt1n_refl]. Qed.

(** A search that returns starts finitely many. *)
Lemma found_Acc : forall k n, found k n -> Acc (fun k' k => calls k k') k.
Proof.
  intros [id fl] n [c S]. cbn [fst snd] in S.
  induction S; constructor; intros k' C; inversion C as [? ? A|? ? s A]; subst; inversion A; subst; try congruence; same_block; try (destruct side); assumption.
Qed.
Lemma Acc_later : forall k, Acc (fun k' k => calls k k') k -> Acc (fun k' k => later k k') k.
Proof.
  intros k A. apply (Acc_clos_trans call (fun k' k => calls k k')) in A. induction A as [k _ IH]. constructor. intros k' L. apply IH.
  clear IH. induction L; [apply t_step; assumption|eapply t_trans; eassumption].
Qed.
Lemma later_irrefl : forall k n, found k n -> ~ later k k.
Proof.
  intros k n F. pose proof (Acc_later _ (found_Acc _ _ F)) as A. clear F. induction A as [k _ IH]. intros L. exact (IH k L L).
Qed.

(** ** Blocks at which the search stops *)
Lemma merges_cons : forall c fl x, merges fl x = true -> merges (c :: fl) x = true.
Proof. intros [j h|j mg h] fl x M; cbn [merges]; destruct (N.eqb j x); auto. Qed.
Lemma merges_below : forall k k', below k k' -> forall x, merges (snd k) x = true -> merges (snd k') x = true.
Proof.
  intros k k' B. induction B as [k|k k1 k' C B IH]; intros x M; [exact M|]. apply IH.
  destruct C as [? ? A|? ? s A]; destruct A; cbn [snd] in *; try exact M; apply merges_cons; exact M.
Qed.
Lemma into_stop : forall k k' stop, into k k' stop -> merges (snd k') stop = true.
Proof. intros k k' stop A. destruct A; cbn [snd merges]; rewrite N.eqb_refl; reflexivity. Qed.
Lemma calls_open : forall k k', calls k k' -> merges (snd k) (fst k) = false.
Proof. intros k k' [? ? A|? ? s A]; destruct A; assumption. Qed.

(** ** No construct contains the block that starts it *)
Notation alongs := (clos_refl_trans_1n _ along).
Lemma alongs_below : forall k k', alongs k k' -> below k k'.
Proof. intros k k' A. induction A; [apply Relation_Operators.rt1n_refl|eapply Relation_Operators.rt1n_trans; [apply calls_along; eassumption|assumption]]. Qed.

Lemma along_elsewhere : forall k k' fl, along k k' -> merges fl (fst k) = false -> along (fst k, fl) (fst k', fl).
Proof.
  intros k k' fl A M. destruct A; cbn [fst] in *; [eapply along_branch|eapply along_loop|eapply along_selection|eapply along_leave]; eassumption.
Qed.
Lemma along_flow : forall k k', along k k' -> snd k' = snd k.
Proof. intros k k' []; reflexivity. Qed.

(** A sequence that ends in the same place goes through the same blocks. *)
Lemma replay : forall k t, alongs k t -> merges (snd t) (fst t) = false -> forall stop fl, merges (snd k) stop = true -> found (fst k, fl) (Cont_Next stop) ->
  alongs (fst k, fl) (fst t, fl) /\ merges fl (fst t) = false.
Proof.
  intros k t A. induction A as [k|k k1 t A1 A IH]; intros M stop fl MS F.
  - split; [apply Relation_Operators.rt1n_refl|]. destruct (merges fl (fst k)) eqn:Q; [|reflexivity]. apply found_stop in F; [|exact Q]. injection F as ->. congruence.
  - assert (Q : merges fl (fst k) = false).
    { destruct (merges fl (fst k)) eqn:Q; [|reflexivity]. apply found_stop in F; [|exact Q]. injection F as ->.
      apply calls_along, calls_open in A1. congruence. }
    pose proof (along_elsewhere _ _ fl A1 Q) as A2. destruct (IH M stop fl) as [B1 B2].
    + rewrite (along_flow _ _ A1). exact MS.
    + eapply found_along; eassumption.
    + split; [eapply Relation_Operators.rt1n_trans; eassumption|exact B2].
Qed.

Lemma below_split : forall k k', below k k' -> exists t, alongs k t /\ (t = k' \/ exists u stop, into t u stop /\ below u k').
Proof.
  intros k k' B. induction B as [k|k k1 k' C B (t & A & IH)]; [exists k; split; [apply Relation_Operators.rt1n_refl|left; reflexivity]|].
  destruct C as [k k1 A1|k k1 s A1].
  - exists t. split; [eapply Relation_Operators.rt1n_trans; eassumption|exact IH].
  - exists k. split; [apply Relation_Operators.rt1n_refl|]. right. eauto.
Qed.

Lemma not_inside : forall k, Acc (fun k' k => later k k') k -> forall n, found k n -> forall k1 stop, into k k1 stop -> forall k2, below k1 k2 ->
  fst k2 = fst k -> merges (snd k2) (fst k2) = true.
Proof.
  intros k A. induction A as [k _ IH]. intros n F k1 stop I k2 B Q.
  destruct (merges (snd k2) (fst k2)) eqn:M; [reflexivity|]. exfalso.
  pose proof (into_stop _ _ _ I) as ST. assert (B' : later k k2) by (eapply below_later; [eapply calls_into; exact I|exact B]).
  destruct (found_below _ _ (later_below _ _ B') _ F) as [n2 F2].
  destruct I as [fl id b op lm M1 HB Br Mg|fl id b op sm side M1 HB Br Mg]; cbn [fst snd] in *.
  { rewrite Q in M. rewrite (merges_below _ _ B) in M by (cbn [snd]; exact ST). discriminate M. }
  destruct k2 as [id2 fl2]. cbn [fst snd] in *. subst id2.
  pose proof (into_selection fl2 id b op sm side M HB Br Mg) as I2.
  pose proof (found_into _ _ _ _ I2 F2) as F3.
  destruct (below_split _ _ B) as (t & T & C).
  assert (Mt : merges (snd t) (fst t) = false).
  { destruct C as [->|(u & s & I & _)]; [exact M|]. eapply calls_open. eapply calls_into. exact I. }
  destruct (replay _ _ T Mt _ _ ST F3) as [R1 R2]. cbn [fst] in R1.
  destruct C as [->|(u & s & I & Bu)].
  - cbn [fst] in *. pose proof (IH _ B' _ F2 _ _ I2 _ (alongs_below _ _ R1) eq_refl) as X. cbn [fst snd] in X. congruence.
  - assert (Lt : later (id, fl) t).
    { eapply below_later; [eapply calls_into; eapply (into_selection fl id b op sm side); eassumption|]. apply alongs_below. exact T. }
    destruct (found_below _ _ (later_below _ _ Lt) _ F) as [nt Ft].
    assert (X : merges (snd (fst t, Converge_If (OpSelectionMerge_merge_block sm) (OpSelectionMerge_selection_control sm) :: fl2)) (fst t) = true).
    { apply (IH t Lt nt Ft u s I (fst t, Converge_If (OpSelectionMerge_merge_block sm) (OpSelectionMerge_selection_control sm) :: fl2)); [|reflexivity]. eapply below_trans; [exact Bu|]. eapply below_trans; [|apply alongs_below; exact R1].
      eapply Relation_Operators.rt1n_trans; [eapply calls_into; exact I2|apply Relation_Operators.rt1n_refl]. }
    cbn [snd] in X. congruence.
Qed.

(** ** The bound *)
Fixpoint triangle (n : nat) : nat := match n with O => O | S n => S n + triangle n end.

Definition returning (b : BasicBlock E) : bool := match BasicBlock_branch b with GroupBranch_OpReturn _ => true | _ => false end.
Definition going : list BlockId := map label_of (filter (fun b => negb (returning b)) (FunctionDefinition_blocks f)).

Lemma going_In : forall id b, has_block f id b -> returning b = false -> In id going.
Proof.
  intros id b [I <-] R. unfold going. apply in_map. apply filter_In. split; [exact I|]. rewrite R. reflexivity.
Qed.

Lemma triangle_ge : forall a, a <= triangle a.
Proof. induction a as [|a IH]; cbn [triangle]; lia. Qed.

Section Bound.
Notation m := (block_map f).

(** A block is visited that is neither earlier in the sequence nor the start of a construct around it. *)
Record context (id : BlockId) (fl : FlowList) (seen heads : list BlockId) : Prop := {
  context_seen : forall s, In s seen -> later (s, fl) (id, fl);
  context_heads : forall h, In h heads -> exists flh n u stop, found (h, flh) n /\ into (h, flh) u stop /\ below u (id, fl);
  context_NoDup : NoDup (seen ++ heads);
  context_going : incl (seen ++ heads) going
}.

Lemma context_length : forall id fl seen heads, context id fl seen heads -> length seen + length heads <= length going.
Proof. intros id fl seen heads C. rewrite <- app_length. apply NoDup_incl_length; apply C. Qed.

Lemma context_visit : forall id fl seen heads n b, context id fl seen heads -> found (id, fl) n -> merges fl id = false -> has_block f id b -> returning b = false ->
  NoDup (id :: seen ++ heads) /\ incl (id :: seen ++ heads) going.
Proof.
  intros id fl seen heads n b C F M HB R. split.
  - constructor; [|apply C]. intros I. apply in_app_or in I as [I|I].
    + apply (context_seen _ _ _ _ C) in I. exact (later_irrefl _ _ F I).
    + destruct (context_heads _ _ _ _ C id I) as (flh & nh & u & s & Fh & Ih & Bh).
      pose proof (not_inside _ (Acc_later _ (found_Acc _ _ Fh)) _ Fh _ _ Ih _ Bh eq_refl) as X. cbn [fst snd] in X. congruence.
  - intros x [<-|I]; [eapply going_In; eassumption|apply C; exact I].
Qed.

Lemma context_along : forall id fl seen heads n b id', context id fl seen heads -> found (id, fl) n -> merges fl id = false -> has_block f id b -> returning b = false ->
  along (id, fl) (id', fl) -> context id' fl (id :: seen) heads.
Proof.
  intros id fl seen heads n b id' C F M HB R A. destruct (context_visit _ _ _ _ _ _ C F M HB R) as [N I]. constructor; [| |exact N|exact I].
  - intros s [<-|J]; [apply t_step, calls_along; exact A|]. apply t_trans with (id, fl); [apply C; exact J|apply t_step, calls_along; exact A].
  - intros h J. destruct (context_heads _ _ _ _ C h J) as (flh & nh & u & s & Fh & Ih & Bh). exists flh, nh, u, s. split; [exact Fh|]. split; [exact Ih|].
    eapply below_calls; [exact Bh|apply calls_along; exact A].
Qed.
Lemma context_into : forall id fl seen heads n b k' stop, context id fl seen heads -> found (id, fl) n -> merges fl id = false -> has_block f id b -> returning b = false ->
  into (id, fl) k' stop -> context (fst k') (snd k') [] (id :: heads).
Proof.
  intros id fl seen heads n b [id' fl'] stop C F M HB R A. cbn [fst snd]. destruct (context_visit _ _ _ _ _ _ C F M HB R) as [N I]. constructor; cbn [app].
  - intros s [].
  - intros h [<-|J]; [exists fl, n, (id', fl'), stop; split; [exact F|split; [exact A|apply Relation_Operators.rt1n_refl]]|].
    destruct (context_heads _ _ _ _ C h J) as (flh & nh & u & s & Fh & Ih & Bh). exists flh, nh, u, s. split; [exact Fh|]. split; [exact Ih|].
    eapply below_calls; [exact Bh|eapply calls_into; exact A].
  - inversion N as [|? ? N1 N2]; subst. constructor; [intros J; apply N1, in_or_app; auto|]. clear - N2. induction seen as [|s seen IH]; [exact N2|].
    cbn [app] in N2. inversion N2; subst. auto.
  - intros x [<-|J]; apply I; [left; reflexivity|right; apply in_or_app; auto].
Qed.

Lemma bound : forall fl id c n, Search f fl id c n -> forall seen heads, context id fl seen heads ->
  forall d, triangle (length going - length heads) + 1 <= d + length seen -> exists c', search_block d id fl m = Ok (c', n).
Proof.
  intros fl id c n S. assert (F : found (id, fl) n) by (exists c; exact S). revert F.
  induction S as [fl id M|fl id b op M HB Br|fl id b op c n M HB Br Mg S IH|fl id b op lm inner after n M HB Br Mg S1 IH1 S2 IH2
    |fl id b op sm lhs rhs after n M HB Br Mg S1 IH1 S2 IH2 S3 IH3|fl id b op head merge inner is_break M HB Br Mg L D S IH]; intros F seen heads C d Hd;
  pose proof (context_length _ _ _ _ C) as LC; pose proof (triangle_ge (length going - length heads)) as TG.
  - destruct d as [|d]; [lia|]. cbn [search_block]. rewrite M. eauto.
  - destruct d as [|d]; [lia|]. cbn [search_block]. rewrite M, (proj2 (find_map_iff f ND id b) HB), Br. eauto.
  - assert (R : returning b = false) by (unfold returning; rewrite Br; reflexivity).
    pose proof (context_along _ _ _ _ _ _ _ C F M HB R (along_branch _ _ _ _ M HB Br Mg)) as C1.
    pose proof (context_length _ _ _ _ C1) as LC1. cbn [length] in LC1.
    destruct d as [|d]; [lia|]. cbn [search_block]. rewrite M, (proj2 (find_map_iff f ND id b) HB), Br, Mg.
    destruct (IH (ex_intro _ c S) _ _ C1 d) as [c' ->]; [cbn [length]; lia|]. cbn [bind]. eauto.
  - assert (R : returning b = false) by (unfold returning; rewrite Br; reflexivity).
    pose proof (context_along _ _ _ _ _ _ _ C F M HB R (along_loop _ _ _ _ _ M HB Br Mg)) as C1.
    pose proof (context_length _ _ _ _ C1) as LC1. cbn [length] in LC1.
    pose proof (context_into _ _ _ _ _ _ _ _ C F M HB R (into_loop _ _ _ _ _ M HB Br Mg)) as C2. cbn [fst snd] in C2.
    destruct d as [|d]; [lia|]. cbn [search_block]. rewrite M, (proj2 (find_map_iff f ND id b) HB), Br, Mg.
    destruct (IH1 (ex_intro _ inner S1) _ _ C2 d) as [c1 ->]. { cbn [length]. replace (length going - length heads) with (Datatypes.S (length going - Datatypes.S (length heads))) in Hd by lia. cbn [triangle] in Hd. lia. }
    cbn [bind]. rewrite cont_eqb_refl.
    destruct (IH2 (ex_intro _ after S2) _ _ C1 d) as [c' ->]; [cbn [length]; lia|]. cbn [bind]. eauto.
  - assert (R : returning b = false) by (unfold returning; rewrite Br; reflexivity).
    pose proof (context_along _ _ _ _ _ _ _ C F M HB R (along_selection _ _ _ _ _ M HB Br Mg)) as C1.
    pose proof (context_length _ _ _ _ C1) as LC1. cbn [length] in LC1.
    pose proof (context_into _ _ _ _ _ _ _ _ C F M HB R (into_selection _ _ _ _ _ true M HB Br Mg)) as C2. cbn [fst snd] in C2.
    pose proof (context_into _ _ _ _ _ _ _ _ C F M HB R (into_selection _ _ _ _ _ false M HB Br Mg)) as C3. cbn [fst snd] in C3.
    destruct d as [|d]; [lia|]. cbn [search_block]. rewrite M, (proj2 (find_map_iff f ND id b) HB), Br, Mg.
    assert (Hd' : triangle (length going - Datatypes.S (length heads)) + 1 <= d + 0).
    { replace (length going - length heads) with (Datatypes.S (length going - Datatypes.S (length heads))) in Hd by lia. cbn [triangle] in Hd. lia. }
    destruct (IH1 (ex_intro _ lhs S1) _ _ C2 d Hd') as [c1 ->]. cbn [bind]. destruct (IH2 (ex_intro _ rhs S2) _ _ C3 d Hd') as [c2 ->]. cbn [bind]. rewrite !cont_eqb_refl. cbn [andb].
    destruct (IH3 (ex_intro _ after S3) _ _ C1 d) as [c' ->]; [cbn [length]; lia|]. cbn [bind]. eauto.
  - assert (R : returning b = false) by (unfold returning; rewrite Br; reflexivity).
    pose proof (context_along _ _ _ _ _ _ _ C F M HB R (along_leave _ _ _ _ M HB Br Mg)) as C1.
    pose proof (context_length _ _ _ _ C1) as LC1. cbn [length] in LC1.
    destruct d as [|d]; [lia|].
    cbn [search_block]. rewrite M, (proj2 (find_map_iff f ND id b) HB), Br, Mg, L.
    assert (Y : (N.eqb (OpBranchConditional_false_label op) merge || N.eqb (OpBranchConditional_false_label op) head)%bool = true).
    { rewrite D. destruct is_break; rewrite N.eqb_refl; [reflexivity|apply orb_true_r]. }
    rewrite Y. destruct (IH (ex_intro _ inner S) _ _ C1 d) as [c' ->]; [cbn [length]; lia|]. cbn [bind]. rewrite cont_eqb_refl. eauto.
Qed.
End Bound.

Lemma Search_returns : forall fl id c n, Search f fl id c n -> n = Cont_Return -> exists b, In b (FunctionDefinition_blocks f) /\ returning b = true.
Proof.
  intros fl id c n S. induction S; intros Q; try discriminate Q; auto.
  exists b. split; [apply H0|]. unfold returning. rewrite H1. reflexivity.
Qed.
Lemma going_length : forall b, In b (FunctionDefinition_blocks f) -> returning b = true -> length going < length (FunctionDefinition_blocks f).
Proof.
  intros b I R. unfold going. rewrite map_length. clear ND. induction (FunctionDefinition_blocks f) as [|x l IH]; [destruct I|]. cbn [filter].
  assert (L : length (filter (fun b => negb (returning b)) l) <= length l).
  { clear. induction l as [|y l IH]; [reflexivity|]. cbn [filter]. destruct (returning y); cbn [negb length]; lia. }
  destruct I as [->|I]; [rewrite R; cbn [negb length]; lia|]. specialize (IH I). destruct (returning x); cbn [negb length]; lia.
Qed.
End Frames.

Lemma triangle_eq : forall n, triangle n = (n + 1) * n / 2.
Proof.
  intros n. apply Nat.div_unique with 0; [lia|]. induction n as [|n IH]; [reflexivity|]. cbn [triangle]. nia.
Qed.
Lemma triangle_le : forall a b, a <= b -> triangle a <= triangle b.
Proof. intros a b L. induction L as [|b L IH]; [reflexivity|]. cbn [triangle]. lia. Qed.

Theorem frames_enough : forall E (f : FunctionDefinition E) chain, returns f (Ok chain) -> find_control_flow (frames (length (FunctionDefinition_blocks f))) f = Ok chain.
Proof.
  intros E f chain [_ [d H]]. pose proof (find_inv f _ _ H) as (ND & s & EN & HS & S).
  set (n := length (FunctionDefinition_blocks f)).
  assert (X : find_control_flow (frames n) f <> OutOfFuel).
  { intros O. apply find_search in O as (b & rest & Q & _ & O). destruct EN as (b' & rest' & Q' & QL). rewrite Q in Q'. injection Q' as <- <-. subst s.
    destruct (bound f ND _ _ _ _ S [] []) with (d := frames n) as [c' R]; [| |congruence].
    - constructor; [intros ? []|intros ? []|constructor|intros ? []].
    - destruct (Search_returns f _ _ _ _ S eq_refl) as (rb & I & R). pose proof (going_length f rb I R) as L. fold n in L.
      unfold frames. cbn [length]. rewrite Nat.sub_0_r, Nat.add_0_r. destruct n as [|n']; [lia|].
      replace (Datatypes.S n' - 1) with n' by lia. replace (Datatypes.S n') with (n' + 1) by lia. rewrite <- triangle_eq.
      apply Nat.add_le_mono_r. apply triangle_le. lia. }
  destruct (Nat.le_gt_cases (frames n) d) as [L|L].
  - rewrite <- (depth_irrelevant f _ _ X L). exact H.
  - rewrite (depth_irrelevant f d (frames n)); [exact H|rewrite H; discriminate|lia].
Qed.

(** ** A function that needs as much *)
(** Block 0, then loops 1, 2, ... [k], each of which contains what is before it. *)
Fixpoint tower (k : nat) : list statement :=
  match k with
  | O => [Step 0%N]
  | S k => tower k ++ [Repeat (N.of_nat (S k)) 0%N (tower k) LoopControl_default]
  end.

Lemma sequence_depth_app : forall inside l s, length l + S (inside s) <= sequence_depth inside (l ++ [s]).
Proof. intros inside l s. induction l as [|x l IH]; cbn [app length sequence_depth]; lia. Qed.
Lemma tower_length : forall k, length (tower k) = S k.
Proof. induction k as [|k IH]; [reflexivity|]. cbn [tower]. rewrite app_length, IH. cbn [length]. lia. Qed.
Lemma tower_depth : forall k, triangle (S k) + 1 <= program_depth (tower k).
Proof.
  induction k as [|k IH]; [cbn; lia|]. cbn [tower]. unfold program_depth in *.
  pose proof (sequence_depth_app inside_depth (tower k) (Repeat (N.of_nat (S k)) 0%N (tower k) LoopControl_default)) as L.
  cbn [inside_depth] in L. rewrite tower_length in L. cbn [triangle] in *. lia.
Qed.
Lemma tower_first : forall k next, first_of (tower k) next = 0%N.
Proof.
  induction k as [|k IH]; intros next; [reflexivity|]. cbn [tower]. specialize (IH next). pose proof (tower_length k). destruct (tower k); [discriminate|exact IH].
Qed.

(** The blocks: block 0 goes to 1; loop [i] starts with 0 and goes on with [i + 1]. *)
Definition tower_block (i : nat) : BlockId * option GroupMerge * GroupBranch :=
  match i with
  | O => (0%N, None, GroupBranch_OpBranch (Build_OpBranch 1%N))
  | S _ => (N.of_nat i, Some (GroupMerge_OpLoopMerge (Build_OpLoopMerge (N.of_nat (S i)) 0%N LoopControl_default)), GroupBranch_OpBranch (Build_OpBranch 0%N))
  end.
Definition tower_blocks (k : nat) : list (BlockId * option GroupMerge * GroupBranch) :=
  map tower_block (seq 0 (S k)) ++ [(N.of_nat (S k), None, GroupBranch_OpReturn Build_OpReturn)].
Definition tower_function {E} (k : nat) : FunctionDefinition E :=
  Build_FunctionDefinition (Build_OpFunction 0%N 0%N (Build_FunctionControl false false false false) 0%N) [] (map of_skeleton (tower_blocks k)).

Lemma sequence_snoc : forall {A} (one : statement -> BlockId -> list A) l s next, sequence one (l ++ [s]) next = sequence one l (start s) ++ one s next.
Proof.
  intros A one l s next. induction l as [|x l IH]; cbn [app sequence first_of]; [rewrite app_nil_r; reflexivity|].
  rewrite IH, <- app_assoc. f_equal. f_equal. destruct l; reflexivity.
Qed.
Lemma each_snoc : forall P l s next, each P (l ++ [s]) next <-> each P l (start s) /\ P s next.
Proof.
  intros P l s next. induction l as [|x l IH]; cbn [app each first_of]; [tauto|]. rewrite IH.
  replace (first_of (l ++ [s]) next) with (first_of l (start s)) by (destruct l; reflexivity). tauto.
Qed.

Lemma tower_lower : forall k loop, incl (sequence (lower loop) (tower k) (N.of_nat (S k))) (map tower_block (seq 0 (S k))).
Proof.
  induction k as [|k IH]; intros loop; [intros x [<-|[]]; left; reflexivity|].
  cbn [tower]. rewrite sequence_snoc. cbn [start lower]. rewrite tower_first.
  assert (W : incl (map tower_block (seq 0 (S k))) (map tower_block (seq 0 (S (S k))))).
  { apply incl_map. intros x I. apply in_seq in I. apply in_seq. lia. }
  intros x I. apply in_app_or in I as [I|[<-|I]].
  - apply W, (IH loop), I.
  - apply in_map_iff. exists (S k). split; [reflexivity|]. apply in_seq. lia.
  - apply W, (IH (Some (N.of_nat (S k), N.of_nat (S (S k))))), I.
Qed.
Lemma tower_placed : forall k stops loop, (forall x, In x stops -> (N.of_nat k < x)%N) -> each (placed stops loop) (tower k) (N.of_nat (S k)).
Proof.
  induction k as [|k IH]; intros stops loop H.
  - cbn. split; [|exact I]. split; [|exact I]. intros J. apply H in J. lia.
  - cbn [tower]. apply each_snoc. cbn [start placed]. split; [|split].
    + apply IH. intros x J. apply H in J. lia.
    + intros J. apply H in J. lia.
    + apply IH. intros x [<-|J]; [lia|]. apply H in J. lia.
Qed.

Lemma tower_exact : forall E k, length (FunctionDefinition_blocks (tower_function (E := E) k)) = S (S k) /\
  forall n, find_control_flow n (tower_function (E := E) k) = if program_depth (tower k) <=? n then Ok (program_chain (tower k) (N.of_nat (S k))) else OutOfFuel.
Proof.
  intros E k. unfold tower_function. cbn [FunctionDefinition_blocks]. rewrite map_length. unfold tower_blocks at 1. rewrite app_length, map_length, seq_length. cbn [length].
  split; [lia|]. set (f := Build_FunctionDefinition _ _ _ : FunctionDefinition E).
  assert (SK : map skeleton (FunctionDefinition_blocks f) = tower_blocks k) by (unfold f; cbn [FunctionDefinition_blocks]; apply skeleton_of).
  assert (LB : labels f = map N.of_nat (seq 0 (S (S k)))).
  { unfold labels, f. cbn [FunctionDefinition_blocks]. rewrite map_map. unfold tower_blocks. rewrite map_app, map_map.
    rewrite (seq_S (S k) 0), map_app. f_equal. apply map_ext. intros [|i]; reflexivity. }
  assert (ND : NoDup (labels f)). { rewrite LB. apply FinFun.Injective_map_NoDup; [|apply seq_NoDup]. intros a b Q. lia. }
  assert (PL : placed_program (tower k) (N.of_nat (S k))) by (apply tower_placed; intros x []).
  assert (IN : incl (lower_program (tower k) (N.of_nat (S k)) None) (map skeleton (FunctionDefinition_blocks f))).
  { rewrite SK. unfold lower_program, tower_blocks. apply incl_app; [apply incl_appl, tower_lower|apply incl_appr, incl_refl]. }
  assert (EN : entry f (first_of (tower k) (N.of_nat (S k)))).
  { rewrite tower_first. unfold entry, f. cbn. eauto. }
  exact (depth_exact f ND _ _ _ PL IN EN).
Qed.
Lemma tower_found : forall E k, length (FunctionDefinition_blocks (tower_function (E := E) k)) = S (S k) /\
  returns (tower_function (E := E) k) (Ok (program_chain (tower k) (N.of_nat (S k)))).
Proof.
  intros E k. destruct (tower_exact E k) as [L D]. split; [exact L|]. split; [discriminate|]. exists (program_depth (tower k)). rewrite D, Nat.leb_refl. reflexivity.
Qed.

Theorem frames_needed : forall E n, exists f : FunctionDefinition E, length (FunctionDefinition_blocks f) = S n /\
  (exists chain, returns f (Ok chain)) /\ forall depth, depth < frames (S n) -> find_control_flow depth f = OutOfFuel.
Proof.
  intros E [|k].
  - destruct (depth_unbounded E 0) as (f & L & C & O). exists f. split; [exact L|]. split; [exact C|]. intros [|d] Hd; [exact O|]. unfold frames in Hd. cbn in Hd. lia.
  - destruct (tower_found E k) as [L R]. exists (tower_function k). split; [exact L|]. split; [eauto|].
    intros d Hd. rewrite (proj2 (tower_exact E k)). destruct (Nat.leb_spec (program_depth (tower k)) d) as [LE|LE]; [|reflexivity].
    pose proof (tower_depth k) as T. unfold frames in Hd. replace (S (S k) - 1) with (S k) in Hd by lia. replace (S (S k)) with (S k + 1) in Hd by lia.
    rewrite <- triangle_eq in Hd. lia.
Qed.

Theorem frames_not_linear : forall E factor, exists (f : FunctionDefinition E) chain, returns f (Ok chain) /\
  find_control_flow (factor * length (FunctionDefinition_blocks f)) f = OutOfFuel.
Proof.
  intros E factor. destruct (frames_needed E (2 * factor)) as (f & L & (chain & R) & N). exists f, chain. split; [exact R|]. apply N. rewrite L.
  unfold frames. replace (S (2 * factor) - 1) with (factor * 2) by lia. rewrite Nat.mul_assoc, Nat.div_mul by lia. lia.
Qed.
