(** Lemmas for C115: a function that obeys the rules and for which find_control_flow returns a chain is simple. *)
From Coq Require Import Relation_Operators Operators_Properties.
From Verif Require Import Base Types Ops Groups ExtSet ControlFlow Spec_Flow Proofs_Flow Proofs_Flow2 Proofs_Flow3 Spec_Standard Spec_Returns Spec_Simple Proofs_Returns Proofs_Simple.

Section Converse.
Context {E : Type}.
Variable f : FunctionDefinition E.
Hypothesis ND : NoDup (labels f).
Hypothesis MR : merge_rules f.
Hypothesis CR : construct_rules f.
Hypothesis LC : loops_close f.
Hypothesis RM : merges_reached f.
Notation way := (clos_refl_trans BlockId (onward f)).
Notation strict_way := (clos_trans BlockId (onward f)).

Lemma construct_stable : forall h m b, reachable f b -> (~ construct f h m b -> False) -> construct f h m b.
Proof.
  intros h m b R NN. split; [exact R|]. split.
  - intros e t En W. destruct (in_dec N.eq_dec h (map fst t ++ [b])) as [I|I]; [exact I|]. exfalso. apply NN. intros (_ & D & _). exact (I (D e t En W)).
  - intros D. apply NN. intros (_ & _ & X). exact (X D).
Qed.

(** ** Ways to where the search stops *)
Definition arrives (fl : FlowList) (id tgt : BlockId) : Prop :=
  (merges fl id = true /\ id = tgt) \/ (merges fl id = false /\ exists u n, way id u /\ reachable f u /\ branches f u n tgt).
Lemma success_way : forall fl id c nx, Search f fl id c nx -> forall tgt, nx = Cont_Next tgt -> reachable f id -> (merges fl id = false -> stopped f id fl) -> arrives fl id tgt.
Proof.
  assert (PLAIN : forall fl id b n t tgt, merges fl id = false -> has_block f id b -> BasicBlock_merge b = None -> branches f id n t -> reachable f id ->
    (merges fl id = false -> stopped f id fl) ->
    (reachable f t -> (merges fl t = false -> stopped f t fl) -> arrives fl t tgt) -> arrives fl id tgt).
  { intros fl id b n t tgt M HB MG B R ST IH. right. split; [exact M|].
    assert (GO : merges fl t = false -> onward f id t /\ stopped f t fl).
    { intros Mt. apply (branch_onward f ND MR CR LC RM id b fl fl n t HB R (ST M) B); [auto| |exact Mt]. intros lm Q. rewrite MG in Q. discriminate Q. }
    destruct IH as [[Mt ->]|(Mt & u & n' & W & Ru & B')]; [exact (reachable_edge f _ _ _ R B)|intros Mt; apply GO; exact Mt|exists id, n; split; [apply rt_refl|auto]|].
    exists u, n'. split; [|auto]. eapply rt_trans; [apply rt_step; exact (proj1 (GO Mt))|exact W]. }
  assert (AFTER : forall fl id m tgt, merges fl id = false -> declares f id m -> reachable f id -> (merges fl id = false -> stopped f id fl) ->
    (reachable f m -> (merges fl m = false -> stopped f m fl) -> arrives fl m tgt) -> arrives fl id tgt).
  { intros fl id m tgt M D R ST IH. right. split; [exact M|].
    destruct IH as [[Mt ->]|(Mt & u & n' & W & Ru & B')]; [exact (RM _ _ D R)|intros _; exact (merge_stopped f ND MR RM _ _ _ R (ST M) D)| |].
    - destruct (merge_entered f MR RM _ _ D R) as (u & n & B & C). exists u, n. destruct C as (Ru & Du & _). split; [exact (onward_way f _ _ Ru Du)|auto].
    - exists u, n'. split; [|auto]. eapply rt_trans; [apply t_in_rt; exact (merge_way f MR RM _ _ D R)|exact W]. }
  intros fl id c nx H. induction H as [fl id M|fl id b op M HB BR|fl id b op c n M HB BR MG Hc IH
    |fl id b op lm inner after n M HB BR MG Hi IHi Ha IHa|fl id b op sm lhs rhs after n M HB BR MG Hl IHl Hr IHr Ha IHa
    |fl id b op head merge inner isb M HB BR MG L D Hi IHi]; intros tgt Q R ST.
  - injection Q as <-. left. auto.
  - discriminate Q.
  - apply (PLAIN fl id b 0 (OpBranch_target_label op) tgt M HB MG); [exists b; unfold branch_targets; rewrite BR; auto|exact R|exact ST|]. apply IH. exact Q.
  - apply (AFTER fl id (OpLoopMerge_merge_block lm) tgt M); [exists b; unfold merge_targets; rewrite MG; split; [exact HB|left; reflexivity]|exact R|exact ST|]. apply IHa. exact Q.
  - apply (AFTER fl id (OpSelectionMerge_merge_block sm) tgt M); [exists b; unfold merge_targets; rewrite MG; split; [exact HB|left; reflexivity]|exact R|exact ST|]. apply IHa. exact Q.
  - apply (PLAIN fl id b 0 (OpBranchConditional_true_label op) tgt M HB MG); [exists b; unfold branch_targets; rewrite BR; auto|exact R|exact ST|]. apply IHi. exact Q.
Qed.
Lemma no_entry : forall h m v x, declares f h m -> reachable f h -> ~ construct f h m v -> way v x -> construct f h m x -> (way v h -> False) -> False.
Proof.
  intros h m v x D R NC W C K. apply clos_rt_rtn1 in W. revert C. induction W as [|y x O W IH]; intros C; [exact (NC C)|].
  apply (cases_or (construct f h m y)). intros [Cy|NCy]; [exact (IH Cy)|]. destruct O as (n & B & Ry & ND').
  pose proof (entered f CR _ _ _ _ _ D R B Ry NCy C) as Q. apply K. rewrite <- Q. eapply rt_trans; [apply clos_rtn1_rt; exact W|]. apply rt_step. exists n. auto.
Qed.
Lemma way_dom : forall a v x, way v x -> dominates f a x -> (dominates f a v -> False) -> (way v a -> False) -> False.
Proof.
  intros a v x W DA K1 K2. apply clos_rt_rtn1 in W. revert DA. induction W as [|y x O W IH]; intros DA; [exact (K1 DA)|].
  destruct (N.eq_dec x a) as [Q|Q].
  - apply K2. rewrite <- Q. eapply rt_trans; [apply clos_rtn1_rt; exact W|]. apply rt_step. exact O.
  - destruct O as (n & B & Ry & ND'). apply IH. exact (dom_edge f a y n x DA B Q).
Qed.

Definition stays_at (os' : list (BlockId * BlockId)) (v : BlockId) : Prop :=
  forall h m, In (h, m) os' -> ~ construct f h m v -> v = m /\ (exists os2, os' = (h, m) :: os2) /\ forall ct, ~ heads_loop f h m ct.
(** A branch into a search that succeeds leaves at most the innermost construct, a selection, for its merge block. *)
Lemma stays : forall id b fl fl' os' n v c, reachable f id -> has_block f id b -> stopped f id fl -> opened f fl' os' ->
  (forall h m, In (h, m) os' -> construct f h m id) -> (forall x, merges fl x = true -> merges fl' x = true) ->
  (forall lm, BasicBlock_merge b = Some (GroupMerge_OpLoopMerge lm) -> merges fl' id = true) -> branches f id n v -> Search f fl' v c (expected fl') ->
  stays_at os' v.
Proof.
  intros id b fl fl' os' n v c R HB ST O IN SUB SELF B S h m I NC. pose proof (reachable_edge f _ _ _ R B) as Rv.
  destruct (opened_in f _ _ O _ _ I) as (D & Rh & _).
  destruct (merges fl' v) eqn:Mv.
  - assert (Q : expected fl' = Cont_Next v) by (inversion S; congruence).
    destruct O as [|ht mt hint fl1 os1 Dt NL Rt F O|ht mt ct hint fl1 os1 HL Rt F O]; [destruct I| |]; cbn [expected] in Q; injection Q as Q.
    + destruct I as [QI|I]; [injection QI as -> ->; split; [symmetry; exact Q|]; split; [eauto|exact NL]|]. exfalso. apply NC. rewrite <- Q.
      rewrite Forall_forall in F. destruct (F _ I) as [C N]. cbn [fst snd] in *. apply (proj1 (CR h m D Rh) ht mt C); [congruence|exact Dt|exact (RM _ _ Dt Rt)].
    + exfalso. apply NC. rewrite <- Q. destruct I as [QI|I]; [injection QI as -> ->; exact (own_construct f MR RM _ _ D Rh)|]. rewrite Forall_forall in F. exact (proj1 (F _ I)).
  - exfalso. destruct (branch_onward f ND MR CR LC RM id b fl fl' n v HB R ST B SUB SELF Mv) as [ON ST'].
    assert (CYC : forall h' m', In (h', m') os' -> way v h' -> False).
    { intros h' m' I' W. destruct (IN _ _ I') as (_ & D' & _). apply (no_cycle f MR id). eapply t_rt; [apply t_step; exact ON|]. eapply rt_trans; [exact W|]. exact (onward_way f _ _ R D'). }
    destruct O as [|ht mt hint fl1 os1 Dt NL Rt F O|ht mt ct hint fl1 os1 HL Rt F O]; [destruct I| |].
    + destruct (success_way _ _ _ _ S mt eq_refl Rv (fun _ => ST')) as [[X _]|(_ & u & n' & W & Ru & B')]; [congruence|]. destruct (merge_below f MR RM _ _ Dt Rt) as (Dm & Nm & Rm).
      destruct I as [QI|I].
      * injection QI as <- <-. destruct (IN ht mt (or_introl eq_refl)) as (_ & Di & Nd).
        apply (way_dom ht v u W); [exact (dom_edge f ht u n' mt Dm B' (fun Q => Nm (eq_sym Q)))| |exact (CYC ht mt (or_introl eq_refl))].
        intros Dv. apply NC. split; [exact Rv|]. split; [exact Dv|]. intros X. apply Nd. apply (dom_edge f mt id n v X B). intros Q. rewrite Q in Mv. cbn [merges] in Mv. rewrite N.eqb_refl in Mv. discriminate Mv.
      * rewrite Forall_forall in F. destruct (F _ I) as [C N]. cbn [fst snd] in *.
        assert (Cm : construct f h m mt) by (apply (proj1 (CR h m D Rh) ht mt C); [congruence|exact Dt|exact Rm]).
        apply (cases_or (construct f h m u)). intros [Cu|NU]; [exact (no_entry h m v u D Rh NC W Cu (CYC h m (or_intror I)))|].
        pose proof (entered f CR _ _ _ _ _ D Rh B' Ru NU Cm) as Q. destruct C as (_ & X & _). rewrite <- Q in X. apply Nm. exact (dom_antisym f _ _ Rt Dm X).
    + destruct (success_way _ _ _ _ S ht eq_refl Rv (fun _ => ST')) as [[X _]|(_ & u & n' & W & Ru & B')]; [congruence|].
      destruct I as [QI|I].
      * injection QI as <- <-. apply (cases_or (dominates f ht u)). intros [Du|NU].
        -- apply (no_entry ht mt v u D Rh NC W); [|exact (CYC ht mt (or_introl eq_refl))]. split; [exact Ru|]. split; [exact Du|]. apply (LC ht mt ct u n' HL). split; auto.
        -- apply (CYC ht mt (or_introl eq_refl)). eapply rt_trans; [exact W|]. apply rt_step. exists n'. auto.
      * rewrite Forall_forall in F. destruct (F _ I) as [C N]. cbn [fst snd] in *.
        apply (cases_or (construct f h m u)). intros [Cu|NU]; [exact (no_entry h m v u D Rh NC W Cu (CYC h m (or_intror I)))|].
        apply N. symmetry. exact (entered f CR _ _ _ _ _ D Rh B' Ru NU C).
Qed.

(** ** Steps of the search *)
Lemma step_here : forall id os fl' os' n v, reachable f id -> (forall h m, declares f h m -> construct f h m id -> h <> id -> ~ In (h, m) os -> False) ->
  opened f fl' os' -> (forall h m, In (h, m) os' -> construct f h m id) -> branches f id n v -> (forall o, In o os -> In o os') -> (forall m, declares f id m -> In (id, m) os') ->
  stays_at os' v -> here f v fl' os'.
Proof.
  intros id os fl' os' n v R HA O IN B SUB OWN K. pose proof (reachable_edge f _ _ _ R B) as Rv. constructor.
  - exact Rv.
  - exact O.
  - destruct os' as [|[h m] os']; [exact Logic.I|]. split.
    + destruct (N.eq_dec v m) as [Q|Q].
      * right. split; [exact Q|]. apply (K h m (or_introl eq_refl)). rewrite Q. exact (not_own_merge f h m).
      * left. apply construct_stable; [exact Rv|]. intros NC. apply Q. exact (proj1 (K h m (or_introl eq_refl) NC)).
    + apply Forall_forall. intros [h' m'] I. cbn [fst snd]. apply construct_stable; [exact Rv|]. intros NC. destruct (K h' m' (or_intror I) NC) as (_ & (os2 & Q) & _).
      injection Q as Q1 Q2 Q3. assert (F : Forall (fun o => construct f (fst o) (snd o) h /\ fst o <> h) os') by (inversion O; assumption).
      rewrite Forall_forall in F. destruct (F _ I) as [_ X]. apply X. symmetry. exact Q1.
  - intros h m I Q. destruct (IN _ _ I) as (_ & DM & _). rewrite Q in *. exact (step_head f ND MR _ _ _ _ R B DM (proj1 (opened_in f _ _ O _ _ I))).
  - exact (step_all f CR id os os' n v R HA B SUB OWN).
Qed.
Lemma step_after : forall id fl os m, here f id fl os -> merges fl id = false -> declares f id m ->
  (forall h' m', declares f h' m' -> construct f h' m' m -> dominates f id h' -> h' <> id -> h' <> m -> False) -> here f m fl os.
Proof.
  intros id fl os m H M D PRED. pose proof (here_reached _ _ _ _ H) as R. destruct (merge_below f MR RM _ _ D R) as (DM & N & Rm).
  assert (IN : forall h m, In (h, m) os -> construct f h m id /\ h <> id) by exact (go_inside f _ _ _ H M).
  assert (ALL : forall h' m', In (h', m') os -> construct f h' m' m).
  { intros h' m' I. destruct (opened_in f _ _ (here_open _ _ _ _ H) _ _ I) as (D' & R' & _). destruct (IN _ _ I) as [C NE].
    exact (proj1 (CR h' m' D' R') id m C (fun Q => NE (eq_sym Q)) D Rm). }
  constructor.
  - exact Rm.
  - exact (here_open _ _ _ _ H).
  - destruct os as [|[h' m'] os]; [exact Logic.I|]. split; [left; apply ALL; left; reflexivity|]. apply Forall_forall. intros [h2 m2] I. apply ALL. right. exact I.
  - intros h' m' I ->. exfalso. destruct (IN _ _ I) as [(_ & DI & _) _]. apply N. exact (dom_antisym f _ _ R DM DI).
  - intros h' m' D' C NE NI. pose proof C as (_ & DH & NM). destruct (dom_chain f _ _ _ Rm DH DM) as [A|A].
    + assert (Ci : construct f h' m' id) by (split; [exact R|split; [exact A|]]; intros X; apply NM; exact (dom_trans f _ _ _ X DM)).
      destruct (N.eq_dec h' id) as [->|NQ]; [|exact (here_all _ _ _ _ H _ _ D' Ci NQ NI)]. rewrite (one_merge f ND _ _ _ D' D) in NM. apply NM. apply dom_refl.
    + destruct (N.eq_dec h' id) as [->|NQ]; [rewrite (one_merge f ND _ _ _ D' D) in NM; apply NM; apply dom_refl|]. exact (PRED _ _ D' C A NQ NE).
Qed.
(** All blocks of a loop that the search has been through. *)
Lemma loop_covered : forall id m t hint fl inner, declares f id m -> reachable f id -> (forall n v, branches f id n v -> v = t) ->
  Search f (Converge_Loop id m hint :: fl) t inner (Cont_Next id) -> forall u, construct f id m u -> u <> id -> In u (chain_ids inner).
Proof.
  intros id m t hint fl inner D R ONE S. destruct (Search_ids f _ _ _ _ S) as [S1 S2].
  assert (P : forall k e l u, length l <= k -> entry f e -> path f e l u -> construct f id m u -> u <> id -> In u (chain_ids inner)).
  { induction k as [|k IH]; intros e l u L En P C N; destruct (path_last f _ _ _ P) as [[-> ->]|(l' & p & n & -> & P' & B)].
    1, 3: exfalso; destruct C as (_ & X & _); destruct (proj1 (dominates_path f id e) X e [] En P) as [Q|[]]; exact (N Q).
    1: rewrite app_length in L; cbn [length] in L; lia.
    assert (Rp : reachable f p) by (apply reachable_path; eauto).
    destruct (in_dec N.eq_dec u (chain_ids inner)) as [I|I]; [exact I|]. exfalso. apply (cases_or (construct f id m p)). intros [Cp|NC].
    - destruct (N.eq_dec p id) as [Q|Q].
      + subst p. pose proof (ONE _ _ B) as Q. destruct S1 as [S1|S1]; [rewrite <- Q in S1; exact (I S1)|]. injection S1 as S1. congruence.
      + assert (Ip : In p (chain_ids inner)) by (apply (IH e l' p); [rewrite app_length in L; cbn [length] in L; lia|assumption..]).
        destruct (S2 _ Ip) as (b & HB & T). destruct B as (b' & HB' & NT). rewrite (has_block_inj f ND _ _ _ HB' HB) in NT.
        destruct (T u (nth_error_In _ _ NT)) as [X|[X|(h' & m' & X & Y)]]; [exact (I X)|injection X as X; congruence|]. cbn [ControlFlow.innermost_loop] in X. injection X as <- <-.
        destruct Y as [Y|Y]; [exact (N Y)|]. rewrite Y in C. exact (not_own_merge f _ _ C).
    - apply N. exact (entered f CR _ _ _ _ _ D R B Rp NC C). }
  intros u C N. pose proof (proj1 C) as Ru. apply reachable_path in Ru as (e & l & En & Pa). exact (P _ e l u (le_n _) En Pa C N).
Qed.

(** ** What holds of a block the search has been through *)
Definition local (u : BlockId) : Prop :=
  (forall b, has_block f u b -> match BasicBlock_branch b, BasicBlock_merge b with
     | GroupBranch_OpBranch _, Some (GroupMerge_OpSelectionMerge _) => False
     | GroupBranch_OpBranchConditional _, Some (GroupMerge_OpLoopMerge _) => False
     | _, _ => True
     end)
  /\ (forall b op h m, has_block f u b -> BasicBlock_branch b = GroupBranch_OpReturn op -> declares f h m -> ~ construct f h m u)
  /\ (forall b op, has_block f u b -> BasicBlock_branch b = GroupBranch_OpBranchConditional op -> BasicBlock_merge b = None ->
        exists h m ct, heads_loop f h m ct /\ innermost f u h m /\ OpBranchConditional_false_label op = m)
  /\ (forall h m n v, declares f h m -> branches f u n v -> construct f h m u -> ~ construct f h m v ->
        v = m /\ innermost f u h m /\ forall ct, heads_loop f h m ct -> n = 1).

Lemma all_open : forall id os os', (forall h m, declares f h m -> construct f h m id -> h <> id -> ~ In (h, m) os -> False) ->
  (forall o, In o os -> In o os') -> (forall m, declares f id m -> In (id, m) os') -> forall h m, declares f h m -> construct f h m id -> In (h, m) os'.
Proof.
  intros id os os' HA SUB OWN h m D C. destruct (N.eq_dec h id) as [->|N]; [exact (OWN _ D)|]. apply SUB.
  assert (DEC : {In (h, m) os} + {~ In (h, m) os}) by (apply in_dec; intros [a1 b1] [a2 b2]; destruct (N.eq_dec a1 a2) as [->|X]; [|right; congruence]; destruct (N.eq_dec b1 b2) as [->|X]; [left; reflexivity|right; congruence]).
  destruct DEC as [I|I]; [exact I|destruct (HA _ _ D C N I)].
Qed.
Lemma top_innermost : forall id fl os h m, opened f fl ((h, m) :: os) -> construct f h m id ->
  (forall h' m', declares f h' m' -> construct f h' m' id -> In (h', m') ((h, m) :: os)) -> innermost f id h m.
Proof.
  intros id fl os h m O C ALL. destruct (opened_in f _ _ O h m (or_introl eq_refl)) as (D & R & _). split; [exact D|]. split; [exact C|].
  intros h' m' D' C'. destruct (ALL _ _ D' C') as [Q|I]; [injection Q as <- <-; exact (own_construct f MR RM _ _ D R)|].
  assert (F : Forall (fun o => construct f (fst o) (snd o) h /\ fst o <> h) os) by (inversion O; assumption). rewrite Forall_forall in F. exact (proj1 (F _ I)).
Qed.
Lemma exit_ok : forall id fl' os' n v, opened f fl' os' -> (forall h m, declares f h m -> construct f h m id -> In (h, m) os') -> stays_at os' v ->
  forall h m, declares f h m -> construct f h m id -> ~ construct f h m v -> v = m /\ innermost f id h m /\ forall ct, heads_loop f h m ct -> n = 1.
Proof.
  intros id fl' os' n v O ALL K h m D C NC. destruct (K h m (ALL _ _ D C) NC) as (Q & (os2 & QO) & NL). split; [exact Q|]. split; [|intros ct HL; destruct (NL _ HL)].
  rewrite QO in *. exact (top_innermost _ _ _ _ _ O C ALL).
Qed.
Lemma loop_open : forall fl os, opened f fl os -> forall h m, ControlFlow.innermost_loop fl = Some (h, m) -> In (h, m) os.
Proof.
  intros fl os O. induction O as [|h m hint fl os D NL R F O IH|h m ct hint fl os HL R F O IH]; intros h' m' Q; cbn [ControlFlow.innermost_loop] in Q; [discriminate Q|right; apply IH; exact Q|].
  injection Q as <- <-. left. reflexivity.
Qed.

Lemma search_local : forall fl id c nx, Search f fl id c nx -> forall os, here f id fl os -> (merges fl id = false -> stopped f id fl) -> nx = expected fl ->
  (forall x, In x (chain_ids c) -> local x)
  /\ forall m hint fl0, fl = Converge_If m hint :: fl0 ->
       id = m \/ exists u n, here f u fl os /\ merges fl u = false /\ branches f u n m /\ forall m', ~ declares f u m'.
Proof.
  intros fl id c nx H. induction H as [fl id M|fl id b op M HB BR|fl id b op c n M HB BR MG Hc IH
    |fl id b op lm inner after n M HB BR MG Hi IHi Ha IHa|fl id b op sm lhs rhs after n M HB BR MG Hl IHl Hr IHr Ha IHa
    |fl id b op head merge inner isb M HB BR MG L D Hi IHi]; intros os H ST Q.
  1: { split; [intros x []|]. intros m hint fl0 QF. left. pose proof (stop_expected f _ _ _ H M) as X. rewrite QF in X. cbn [expected] in X. congruence. }
  all: specialize (ST M); pose proof (here_reached _ _ _ _ H) as R; pose proof (here_open _ _ _ _ H) as O; pose proof (here_all _ _ _ _ H) as HA;
    assert (IN : forall h m, In (h, m) os -> construct f h m id /\ h <> id) by exact (go_inside f _ _ _ H M);
    assert (ONE : forall b', has_block f id b' -> b' = b) by (intros b' HB'; exact (has_block_inj f ND _ _ _ HB' HB));
    assert (TG : forall n v, branches f id n v -> nth_error (branch_targets b) n = Some v) by (intros n0 v (b' & HB' & NT); rewrite (ONE _ HB') in NT; exact NT);
    assert (GT : forall n v, nth_error (branch_targets b) n = Some v -> branches f id n v) by (intros n0 v NT; exists b; auto);
    assert (DC : forall m, declares f id m -> In m (merge_targets b)) by (intros m (b' & HB' & I); rewrite (ONE _ HB') in I; exact I);
    assert (CD : forall m, In m (merge_targets b) -> declares f id m) by (intros m I; exists b; auto);
    assert (PUSH : forall c x, merges fl x = true -> merges (c :: fl) x = true) by (intros c' x Q'; destruct c'; cbn [merges]; rewrite Q'; destruct (N.eqb _ x); reflexivity);
    unfold branch_targets, merge_targets in TG, GT, DC, CD; rewrite BR in TG, GT.
  - (* return *) destruct fl as [|cv fl]; [|destruct cv; discriminate Q]. inversion O; subst. split; [|intros m hint fl0 QF; discriminate QF].
    intros x [<-|[]]. split; [|split; [|split]].
    + intros b' HB'. rewrite (ONE _ HB'), BR. exact Logic.I.
    + intros b' op' h m HB' BR' D C. destruct (N.eq_dec h id) as [->|N]; [|exact (HA _ _ D C N (fun I => I))].
      pose proof (merge_way f MR RM _ _ D R) as W. apply clos_trans_t1n in W. assert (X : exists y, onward f id y) by (destruct W; eauto). destruct X as (y & n & B & _).
      apply TG in B. destruct n; discriminate B.
    + intros b' op' HB' BR'. rewrite (ONE _ HB') in BR'. congruence.
    + intros h m n v D B. apply TG in B. destruct n; discriminate B.
  - (* branch *) rewrite MG in DC, CD. set (t := OpBranch_target_label op) in *. pose proof (GT 0 t eq_refl) as B.
    assert (K : stays_at os t).
    { subst n. apply (stays id b fl fl os 0 t c R HB ST O); [intros h m I; exact (proj1 (IN _ _ I))|auto|intros lm X; rewrite MG in X; discriminate X|exact B|exact Hc]. }
    assert (Ht : here f t fl os) by (apply (step_here id os fl os 0 t R HA O); [intros h m I; exact (proj1 (IN _ _ I))|exact B|auto|intros m D; destruct (DC _ D)|exact K]).
    assert (STt : merges fl t = false -> stopped f t fl).
    { intros Mt. apply (branch_onward f ND MR CR LC RM id b fl fl 0 t HB R ST B); [auto|intros lm X; rewrite MG in X; discriminate X|exact Mt]. }
    destruct (IH os Ht STt Q) as [LO LA]. split.
    + intros x I. rewrite chain_ids_block in I. destruct I as [<-|I]; [|exact (LO _ I)]. split; [|split; [|split]].
      * intros b' HB'. rewrite (ONE _ HB'), BR, MG. exact Logic.I.
      * intros b' op' h m HB' BR'. rewrite (ONE _ HB') in BR'. congruence.
      * intros b' op' HB' BR'. rewrite (ONE _ HB') in BR'. congruence.
      * intros h m n' v D B' C NC. apply TG in B'. destruct n' as [|[|n']]; try discriminate B'. injection B' as <-.
        apply (exit_ok id fl os 0 t O); [|exact K|exact D|exact C|exact NC]. apply (all_open id os os HA); [auto|intros m' D'; destruct (DC _ D')].
    + intros m hint fl0 QF. right. destruct (LA m hint fl0 QF) as [QM|X]; [|exact X]. exists id, 0. split; [exact H|]. split; [exact M|]. split; [rewrite <- QM; exact B|]. intros m' D'. exact (DC _ D').
  - (* loop *) rewrite MG in DC, CD. set (t := OpBranch_target_label op) in *. set (m := OpLoopMerge_merge_block lm) in *. set (hint := OpLoopMerge_loop_control lm) in *.
    pose proof (GT 0 t eq_refl) as B. pose proof (CD m (or_introl eq_refl)) as D.
    assert (HL : heads_loop f id m (OpLoopMerge_continue_target lm)) by (exists b, hint; split; [exact HB|rewrite MG; destruct lm; reflexivity]).
    assert (NEST : Forall (fun o => construct f (fst o) (snd o) id /\ fst o <> id) os) by (apply Forall_forall; intros [h' m'] I; exact (IN _ _ I)).
    assert (O' : opened f (Converge_Loop id m hint :: fl) ((id, m) :: os)) by (apply opened_loop with (ct := OpLoopMerge_continue_target lm); assumption).
    assert (IN' : forall h m', In (h, m') ((id, m) :: os) -> construct f h m' id).
    { intros h m' [QI|I]; [injection QI as <- <-; exact (own_construct f MR RM _ _ D R)|exact (proj1 (IN _ _ I))]. }
    assert (HEAD : merges (Converge_Loop id m hint :: fl) id = true) by (cbn [merges]; rewrite N.eqb_refl; reflexivity).
    assert (OWN : forall m', declares f id m' -> In (id, m') ((id, m) :: os)) by (intros m' D'; rewrite (one_merge f ND _ _ _ D' D); left; reflexivity).
    assert (SUB : forall o, In o os -> In o ((id, m) :: os)) by (intros o I; right; exact I).
    assert (K : stays_at ((id, m) :: os) t) by (apply (stays id b fl (Converge_Loop id m hint :: fl) _ 0 t inner R HB ST O' IN'); [exact (PUSH _)|auto|exact B|exact Hi]).
    assert (Ht : here f t (Converge_Loop id m hint :: fl) ((id, m) :: os)) by (apply (step_here id os _ _ 0 t R HA O' IN' B SUB OWN K)).
    assert (STt : merges (Converge_Loop id m hint :: fl) t = false -> stopped f t (Converge_Loop id m hint :: fl)).
    { intros Mt. apply (branch_onward f ND MR CR LC RM id b fl _ 0 t HB R ST B); [exact (PUSH _)|auto|exact Mt]. }
    destruct (IHi _ Ht STt eq_refl) as [LO _].
    assert (LI : local id).
    { split; [|split; [|split]].
      * intros b' HB'. rewrite (ONE _ HB'), BR, MG. exact Logic.I.
      * intros b' op' h m' HB' BR'. rewrite (ONE _ HB') in BR'. congruence.
      * intros b' op' HB' BR'. rewrite (ONE _ HB') in BR'. congruence.
      * intros h m' n' v D' B' C NC. apply TG in B'. destruct n' as [|[|n']]; try discriminate B'. injection B' as <-.
        exact (exit_ok id _ _ 0 t O' (all_open id os _ HA SUB OWN) K h m' D' C NC). }
    assert (Hm : here f m fl os).
    { apply (step_after id fl os m H M D). intros h' m' D' C A NQ NE. destruct (merge_entered f MR RM _ _ D R) as (u & n' & Bu & Cu).
      assert (LU : local u).
      { destruct (N.eq_dec u id) as [->|NU]; [exact LI|]. apply LO. apply (loop_covered id m t hint fl inner D R); [|exact Hi|exact Cu|exact NU].
        intros n0 v B0. apply TG in B0. destruct n0 as [|[|n0]]; try discriminate B0. injection B0 as <-. reflexivity. }
      destruct (proj2 (proj2 (proj2 LU)) id m n' m D Bu Cu (not_own_merge f _ _)) as (_ & (_ & _ & IM) & _). pose proof (construct_reaches f _ _ _ C) as R'.
      apply (cases_or (construct f h' m' u)). intros [C'|NC].
      - destruct (IM _ _ D' C') as (_ & X & _). apply NQ. exact (dom_antisym f _ _ R' X A).
      - apply NE. symmetry. exact (entered f CR h' m' u n' m D' R' Bu (proj1 Cu) NC C). }
    destruct (IHa os Hm (fun _ => merge_stopped f ND MR RM _ _ _ R ST D) Q) as [LO2 LA2]. split.
    + intros x I. rewrite chain_ids_block in I. apply in_app_or in I as [[<-|I]|I]; auto.
    + intros m' hint' fl0 QF. right. destruct (LA2 m' hint' fl0 QF) as [QM|X]; [|exact X]. exfalso. rewrite QF in O. inversion O as [|h0 m0 hint0 fl1 os1 D0 NL0 R0 F0 O0|]; subst.
      destruct (IN h0 m (or_introl eq_refl)) as [_ X]. apply X. exact (proj1 (proj2 MR) _ _ _ D0 D).
  - (* selection *) rewrite MG in DC, CD. set (t1 := OpBranchConditional_true_label op) in *. set (t2 := OpBranchConditional_false_label op) in *. set (m := OpSelectionMerge_merge_block sm) in *. set (hint := OpSelectionMerge_selection_control sm) in *.
    pose proof (GT 0 t1 eq_refl) as B1. pose proof (GT 1 t2 eq_refl) as B2. pose proof (CD m (or_introl eq_refl)) as D.
    assert (NL : forall ct, ~ heads_loop f id m ct) by (intros ct (b' & hint' & H' & Q'); rewrite (ONE _ H') in Q'; congruence).
    assert (NEST : Forall (fun o => construct f (fst o) (snd o) id /\ fst o <> id) os) by (apply Forall_forall; intros [h' m'] I; exact (IN _ _ I)).
    assert (O' : opened f (Converge_If m hint :: fl) ((id, m) :: os)) by (apply opened_if; assumption).
    assert (IN' : forall h m', In (h, m') ((id, m) :: os) -> construct f h m' id).
    { intros h m' [QI|I]; [injection QI as <- <-; exact (own_construct f MR RM _ _ D R)|exact (proj1 (IN _ _ I))]. }
    assert (OWN : forall m', declares f id m' -> In (id, m') ((id, m) :: os)) by (intros m' D'; rewrite (one_merge f ND _ _ _ D' D); left; reflexivity).
    assert (SUB : forall o, In o os -> In o ((id, m) :: os)) by (intros o I; right; exact I).
    assert (NOL : forall lm, BasicBlock_merge b = Some (GroupMerge_OpLoopMerge lm) -> merges (Converge_If m hint :: fl) id = true) by (intros lm X; rewrite MG in X; discriminate X).
    assert (K1 : stays_at ((id, m) :: os) t1) by (apply (stays id b fl (Converge_If m hint :: fl) _ 0 t1 lhs R HB ST O' IN'); [exact (PUSH _)|exact NOL|exact B1|exact Hl]).
    assert (K2 : stays_at ((id, m) :: os) t2) by (apply (stays id b fl (Converge_If m hint :: fl) _ 1 t2 rhs R HB ST O' IN'); [exact (PUSH _)|exact NOL|exact B2|exact Hr]).
    assert (H1 : here f t1 (Converge_If m hint :: fl) ((id, m) :: os)) by (apply (step_here id os _ _ 0 t1 R HA O' IN' B1 SUB OWN K1)).
    assert (H2 : here f t2 (Converge_If m hint :: fl) ((id, m) :: os)) by (apply (step_here id os _ _ 1 t2 R HA O' IN' B2 SUB OWN K2)).
    assert (STt : forall n t, branches f id n t -> merges (Converge_If m hint :: fl) t = false -> stopped f t (Converge_If m hint :: fl)).
    { intros n' t B Mt. apply (branch_onward f ND MR CR LC RM id b fl _ n' t HB R ST B); [exact (PUSH _)|exact NOL|exact Mt]. }
    destruct (IHl _ H1 (STt _ _ B1) eq_refl) as [LO1 LA1]. destruct (IHr _ H2 (STt _ _ B2) eq_refl) as [LO2 _].
    assert (LI : local id).
    { split; [|split; [|split]].
      * intros b' HB'. rewrite (ONE _ HB'), BR, MG. exact Logic.I.
      * intros b' op' h m' HB' BR'. rewrite (ONE _ HB') in BR'. congruence.
      * intros b' op' HB' BR' MG'. rewrite (ONE _ HB') in MG'. congruence.
      * intros h m' n' v D' B' C NC. apply TG in B'. destruct n' as [|[|[|n']]]; try discriminate B'; injection B' as <-.
        -- exact (exit_ok id _ _ 0 t1 O' (all_open id os _ HA SUB OWN) K1 h m' D' C NC).
        -- exact (exit_ok id _ _ 1 t2 O' (all_open id os _ HA SUB OWN) K2 h m' D' C NC). }
    assert (Hm : here f m fl os).
    { apply (step_after id fl os m H M D). intros h' m' D' C A NQ NE. pose proof (construct_reaches f _ _ _ C) as R'.
      destruct (LA1 m hint fl eq_refl) as [QM|(u & n' & Hu & Mu & Bu & NDu)].
      - apply (cases_or (construct f h' m' id)). intros [C'|NC].
        + destruct C' as (_ & X & _). apply NQ. exact (dom_antisym f _ _ R' X A).
        + apply NE. symmetry. rewrite QM in B1. exact (entered f CR h' m' id 0 m D' R' B1 R NC C).
      - apply (cases_or (construct f h' m' u)). intros [C'|NC].
        + destruct (N.eq_dec h' u) as [->|NU]; [exact (NDu _ D')|]. apply (here_all _ _ _ _ Hu h' m' D' C' NU). intros [QI|I]; [injection QI as QI _; congruence|].
          destruct (IN _ _ I) as [(_ & X & _) _]. apply NQ. exact (dom_antisym f _ _ R' X A).
        + apply NE. symmetry. exact (entered f CR h' m' u n' m D' R' Bu (here_reached _ _ _ _ Hu) NC C). }
    destruct (IHa os Hm (fun _ => merge_stopped f ND MR RM _ _ _ R ST D) Q) as [LO3 LA3]. split.
    + intros x I. rewrite chain_ids_block in I. apply in_app_or in I as [[<-|I]|I]; auto. apply in_app_or in I as [I|I]; auto.
    + intros m' hint' fl0 QF. right. destruct (LA3 m' hint' fl0 QF) as [QM|X]; [|exact X]. exfalso. rewrite QF in O. inversion O as [|h0 m0 hint0 fl1 os1 D0 NL0 R0 F0 O0|]; subst.
      destruct (IN h0 m (or_introl eq_refl)) as [_ X]. apply X. exact (proj1 (proj2 MR) _ _ _ D0 D).
  - (* leave *) rewrite MG in DC, CD. set (t := OpBranchConditional_true_label op) in *. set (t2 := OpBranchConditional_false_label op) in *.
    pose proof (GT 0 t eq_refl) as B. pose proof (GT 1 t2 eq_refl) as B2. pose proof (loop_open _ _ O _ _ L) as IL.
    assert (NOL : forall lm, BasicBlock_merge b = Some (GroupMerge_OpLoopMerge lm) -> merges fl id = true) by (intros lm X; rewrite MG in X; discriminate X).
    assert (K : stays_at os t).
    { apply (stays id b fl fl os 0 t inner R HB ST O); [intros h m I; exact (proj1 (IN _ _ I))|auto|exact NOL|exact B|rewrite <- Q; exact Hi]. }
    assert (Ht : here f t fl os) by (apply (step_here id os fl os 0 t R HA O); [intros h m I; exact (proj1 (IN _ _ I))|exact B|auto|intros m X; destruct (DC _ X)|exact K]).
    assert (STt : merges fl t = false -> onward f id t /\ stopped f t fl).
    { intros Mt. apply (branch_onward f ND MR CR LC RM id b fl fl 0 t HB R ST B); [auto|exact NOL|exact Mt]. }
    destruct (IHi os Ht (fun Mt => proj2 (STt Mt)) Q) as [LO LA].
    assert (ALL : forall h m, declares f h m -> construct f h m id -> In (h, m) os) by (apply (all_open id os os HA); [auto|intros m' D'; destruct (DC _ D')]).
    split.
    2: { intros m hint fl0 QF. right. destruct (LA m hint fl0 QF) as [QM|X]; [|exact X]. exists id, 0. split; [exact H|]. split; [exact M|]. split; [rewrite <- QM; exact B|]. intros m' D'. exact (DC _ D'). }
    assert (LI : local id).
    { destruct O as [|ht mt hint fl1 os1 Dt NL Rt F O|ht mt ct hint fl1 os1 HL Rt F O]; [discriminate Q| |].
      - (* a selection cannot end at the header of a loop around it *)
        exfalso. cbn [expected] in Q. injection Q as Q. destruct (merge_below f MR RM _ _ Dt Rt) as (Dm & Nm & Rm). destruct IL as [QI|I].
        + cbn [ControlFlow.innermost_loop] in L. pose proof (loop_open _ _ O _ _ L) as IL. rewrite Forall_forall in F. destruct (F _ IL) as [(_ & X & _) Y]. cbn [fst snd] in *. congruence.
        + rewrite Forall_forall in F. destruct (F _ I) as [(_ & X & _) Y]. cbn [fst snd] in *. rewrite Q in X. apply Nm. exact (dom_antisym f _ _ Rt Dm X).
      - cbn [ControlFlow.innermost_loop] in L. injection L as <- <-.
        destruct (IN ht mt (or_introl eq_refl)) as [Ct Nt]. pose proof (opened_loop f _ _ _ hint _ _ HL Rt F O) as OO.
        assert (BRK : isb = true).
        { destruct isb; [reflexivity|]. exfalso. assert (BE : back_edge f id 1 ht) by (rewrite <- D; split; [exact B2|]; split; [exact R|]; rewrite D; apply Ct).
          destruct (proj2 (proj2 (proj2 (proj2 (proj2 MR)))) ht mt ct HL Rt) as (u0 & n0 & _ & UNI). destruct (UNI _ _ BE) as [U1 U2].
          assert (NT : t <> ht).
          { intros QT. destruct (UNI id 0) as [_ U3]; [split; [rewrite <- QT; exact B|split; [exact R|apply Ct]]|congruence]. }
          assert (Mt : merges (Converge_Loop ht mt hint :: fl1) t = false).
          { destruct (merges (Converge_Loop ht mt hint :: fl1) t) eqn:Mt; [|reflexivity]. pose proof (stop_expected f _ _ _ Ht Mt) as X. cbn [expected] in X. congruence. }
          destruct (STt Mt) as [ON ST']. destruct (success_way _ _ _ _ Hi ht eq_refl (here_reached _ _ _ _ Ht) (fun _ => ST')) as [[X _]|(_ & u & n' & W & Ru & Bu)]; [congruence|].
          apply (cases_or (dominates f ht u)). intros [Du|NU].
          - destruct (UNI u n') as [U3 _]; [split; auto|]. apply (no_cycle f MR id). eapply t_rt; [apply t_step; exact ON|]. rewrite U1, <- U3. exact W.
          - apply (no_cycle f MR id). eapply t_rt; [apply t_step; exact ON|]. eapply rt_trans; [exact W|]. apply rt_trans with ht; [apply rt_step; exists n'; auto|]. apply onward_way; [exact R|apply Ct]. }
        rewrite BRK in D. split; [|split; [|split]].
        + intros b' HB'. rewrite (ONE _ HB'), BR, MG. exact Logic.I.
        + intros b' op' h m' HB' BR'. rewrite (ONE _ HB') in BR'. congruence.
        + intros b' op' HB' BR' MG'. rewrite (ONE _ HB') in BR'. assert (op' = op) as -> by congruence. exists ht, mt, ct. split; [exact HL|]. split; [|exact D].
          exact (top_innermost _ _ _ _ _ OO Ct ALL).
        + intros h m' n' v D' B' C NC. apply TG in B'. destruct n' as [|[|[|n']]]; try discriminate B'; injection B' as <-.
          * exact (exit_ok id _ _ 0 t OO ALL K h m' D' C NC).
          * rewrite D in NC |- *. destruct (ALL _ _ D' C) as [QI|I].
            -- injection QI as <- <-. split; [reflexivity|]. split; [exact (top_innermost _ _ _ _ _ OO Ct ALL)|auto].
            -- exfalso. apply NC. rewrite Forall_forall in F. destruct (F _ I) as [X Y]. cbn [fst snd] in *. pose proof (loop_declares f _ _ _ HL) as Dt.
               apply (proj1 (CR h m' D' (construct_reaches f _ _ _ C)) ht mt X); [congruence|exact Dt|exact (RM _ _ Dt Rt)]. }
    intros x [<-|I]; [exact LI|]. rewrite app_nil_r in I || (apply in_app_or in I as [I|I]; [|destruct isb; destruct I]). exact (LO _ I).
Qed.
End Converse.

Theorem understood_simple : forall E (f : FunctionDefinition E) chain, merge_rules f -> construct_rules f -> loops_close f -> merges_reached f ->
  returns f (Ok chain) -> NoDup (labels f) /\ FunctionDefinition_blocks f <> [] /\ simple f.
Proof.
  intros E f chain MR CR LC RM (_ & depth & Q). pose proof (find_inv f _ _ Q) as (ND & s & En & _ & S). split; [exact ND|].
  assert (NE : FunctionDefinition_blocks f <> []) by (destruct En as (b & r & QB & _); rewrite QB; discriminate). split; [exact NE|].
  assert (H : here f s [] []).
  { constructor.
    - apply reachable_path. exists s, []. split; [exact En|constructor].
    - constructor.
    - exact I.
    - intros h m [].
    - intros h m _ (_ & D & _) NQ _. destruct (proj1 (dominates_path f h _) D s [] En (path_nil f _)) as [QH|[]]. exact (NQ (eq_sym QH)). }
  assert (ST : stopped f s []).
  { intros h x ct _ (_ & D & _) NQ _ _. destruct (proj1 (dominates_path f h _) D s [] En (path_nil f _)) as [QH|[]]. exact (NQ QH). }
  destruct (search_local f ND MR CR LC RM _ _ _ _ S [] H (fun _ => ST) eq_refl) as [LO _].
  assert (LR : forall u, reachable f u -> local f u) by (intros u R; apply LO; exact (chain_ids_reachable f _ _ Q u R)).
  split; [|split; [|split; [|split]]].
  - intros u n v B R. pose proof (chain_ids_reachable f _ _ Q v (reachable_edge f _ _ _ R B)) as I. destruct (Search_ids f _ _ _ _ S) as [_ X]. destruct (X _ I) as (b & HB & _). eauto.
  - intros u b HB R. exact (proj1 (LR u R) b HB).
  - intros u b op h m HB BR D C. exact (proj1 (proj2 (LR u (proj1 C))) b op h m HB BR D C).
  - intros u b op HB R BR MG. exact (proj1 (proj2 (proj2 (LR u R))) b op HB BR MG).
  - intros h m u n v D B C NC. exact (proj2 (proj2 (proj2 (LR u (proj1 C)))) h m n v D B C NC).
Qed.
Theorem simple_iff : forall E (f : FunctionDefinition E), merge_rules f -> construct_rules f -> loops_close f -> merges_reached f ->
  ((exists chain, returns f (Ok chain)) <-> NoDup (labels f) /\ FunctionDefinition_blocks f <> [] /\ simple f).
Proof.
  intros E f MR CR LC RM. split.
  - intros (chain & R). exact (understood_simple E f chain MR CR LC RM R).
  - intros (ND & NE & SI). exact (simple_understood E f ND NE MR CR LC RM SI).
Qed.
