(** What the instructions of a function with a block cut in two do, C139. *)
From Coq Require Import Lia.
From Verif Require Import Base Types Ops Groups ExtSet Reader ControlFlow Spec_Layout Spec_Flow Spec_Machine Spec_Split Spec_Rewrite
  Proofs_Flow Proofs_Flow2 Proofs_Machine Proofs_Rewrite.

(** Where a block can go: nowhere if it returns. *)
Definition leads (br : GroupBranch) (dec : option bool) : option (option BlockId) :=
  match br, dec with
  | GroupBranch_OpReturn _, None => Some None
  | GroupBranch_OpBranch op, None => Some (Some (OpBranch_target_label op))
  | GroupBranch_OpBranchConditional op, Some true => Some (Some (OpBranchConditional_true_label op))
  | GroupBranch_OpBranchConditional op, Some false => Some (Some (OpBranchConditional_false_label op))
  | _, _ => None
  end.

Section Walks.
Context {E : Type} (f : FunctionDefinition E).
Lemma walk_stop : forall id x dec, has_block f id x -> leads (BasicBlock_branch x) dec = Some None -> walk f id [(id, dec)] None.
Proof. intros id x dec H Q. destruct (BasicBlock_branch x) eqn:B, dec as [[]|]; try discriminate Q. eapply walk_return; eassumption. Qed.
Lemma walk_step : forall id x dec j t d, has_block f id x -> leads (BasicBlock_branch x) dec = Some (Some j) -> walk f j t d -> walk f id ((id, dec) :: t) d.
Proof.
  intros id x dec j t d H Q W. destruct (BasicBlock_branch x) eqn:B, dec as [[]|]; try discriminate Q; injection Q as <-.
  - eapply walk_branch; eassumption.
  - eapply walk_true; eassumption.
  - eapply walk_false; eassumption.
Qed.
Lemma walk_steps : forall P : BlockId -> list event -> option BlockId -> Prop,
  (forall id, P id [] (Some id)) ->
  (forall id x dec, has_block f id x -> leads (BasicBlock_branch x) dec = Some None -> P id [(id, dec)] None) ->
  (forall id x dec j t d, has_block f id x -> leads (BasicBlock_branch x) dec = Some (Some j) -> P j t d -> P id ((id, dec) :: t) d) ->
  forall id t d, walk f id t d -> P id t d.
Proof.
  intros P H S T id t d W. induction W as [id|id b op H1 B|id b op t d H1 B W IH|id b op t d H1 B W IH|id b op t d H1 B W IH].
  - apply H.
  - apply (S id b None H1). rewrite B. reflexivity.
  - apply (T id b None (OpBranch_target_label op) t d H1); [rewrite B; reflexivity|exact IH].
  - apply (T id b (Some true) (OpBranchConditional_true_label op) t d H1); [rewrite B; reflexivity|exact IH].
  - apply (T id b (Some false) (OpBranchConditional_false_label op) t d H1); [rewrite B; reflexivity|exact IH].
Qed.
Lemma walk_more : forall id t j, walk f id t (Some j) -> forall t2 d, walk f j t2 d -> walk f id (t ++ t2) d.
Proof.
  intros id t j W. remember (Some j) as d1 eqn:Q. revert Q. pattern id, t, d1. revert id t d1 W. apply walk_steps.
  - intros id Q t2 d W. injection Q as ->. exact W.
  - discriminate.
  - intros id x dec k t d H L IH Q t2 d2 W. cbn. eapply walk_step; [exact H|exact L|]. exact (IH Q t2 d2 W).
Qed.
Lemma leads_target : forall (x : BasicBlock E) dec j, leads (BasicBlock_branch x) dec = Some (Some j) -> In j (branch_targets x).
Proof. intros x dec j Q. unfold branch_targets. destruct (BasicBlock_branch x), dec as [[]|]; try discriminate Q; injection Q as <-; cbn; auto. Qed.
Lemma performs_app : forall t1 a1 t2 a2, performs f t1 a1 -> performs f t2 a2 -> performs f (t1 ++ t2) (a1 ++ a2).
Proof. intros t1 a1 t2 a2 P1 P2. induction P1; cbn; [exact P2|]. rewrite <- app_assoc. apply performs_block; assumption. Qed.
Lemma performs_inv : forall t1 t2 a, performs f (t1 ++ t2) a -> exists a1 a2, a = a1 ++ a2 /\ performs f t1 a1 /\ performs f t2 a2.
Proof.
  induction t1 as [|[id dec] t1 IH]; intros t2 a P; cbn in P.
  - exists [], a. split; [reflexivity|]. split; [constructor|exact P].
  - inversion P; subst. destruct (IH _ _ ltac:(eassumption)) as (a1 & a2 & -> & P1 & P2). exists (block_actions b dec ++ a1), a2. rewrite app_assoc. split; [reflexivity|]. split; [apply performs_block; assumption|exact P2].
Qed.
End Walks.

Lemma filter_split : forall A (p : A -> bool) l a r, filter p l = a ++ r -> exists l1 l2, l = l1 ++ l2 /\ filter p l1 = a /\ filter p l2 = r.
Proof.
  induction l as [|x l IH]; intros a r Q; cbn in Q.
  - symmetry in Q. apply app_eq_nil in Q as [-> ->]. exists [], []. auto.
  - destruct (p x) eqn:P.
    + destruct a as [|y a].
      * cbn in Q. subst r. exists [], (x :: l). split; [reflexivity|]. split; [reflexivity|]. cbn. rewrite P. reflexivity.
      * injection Q as -> Q. destruct (IH _ _ Q) as (l1 & l2 & -> & <- & <-). exists (y :: l1), l2. split; [reflexivity|]. split; [cbn; rewrite P; reflexivity|reflexivity].
    + destruct (IH _ _ Q) as (l1 & l2 & -> & <- & <-). exists (x :: l1), l2. split; [reflexivity|]. split; [cbn; rewrite P; reflexivity|reflexivity].
Qed.

Section Cut.
Context {E : Type} (f g : FunctionDefinition E) (cut : BasicBlock E) (n : BlockId) (before after : list (BasicBlock E)) (code1 code2 : list (GroupCode E)).
Context (Bf : FunctionDefinition_blocks f = before ++ cut :: after) (Code : BasicBlock_code cut = code1 ++ code2).
Notation first := (Build_BasicBlock (BasicBlock_label cut) code1 None (GroupBranch_OpBranch (Build_OpBranch n))).
Notation second := (Build_BasicBlock (Build_OpLabel n) code2 (BasicBlock_merge cut) (BasicBlock_branch cut)).
Context (Bg : FunctionDefinition_blocks g = before ++ first :: second :: after) (Fr : fresh f n) (U : NoDup (labels f)).
Notation b := (label_of cut).

Lemma not_n : forall x, In x (FunctionDefinition_blocks f) -> label_of x <> n /\ ~ In n (branch_targets x).
Proof. intros x I. pose proof (proj1 (Forall_forall _ _) Fr x I) as (A & B & _). auto. Qed.
Lemma cut_in : has_block f b cut. Proof. split; [rewrite Bf; apply in_or_app; right; left; reflexivity|reflexivity]. Qed.
Lemma b_not_n : b <> n. Proof. exact (proj1 (not_n _ (proj1 cut_in))). Qed.
Lemma g_first : has_block g b first. Proof. split; [rewrite Bg; apply in_or_app; right; left; reflexivity|reflexivity]. Qed.
Lemma g_second : has_block g n second. Proof. split; [rewrite Bg; apply in_or_app; do 2 right; left; reflexivity|reflexivity]. Qed.
Lemma f_to_g : forall id x, has_block f id x -> id <> b -> has_block g id x.
Proof.
  intros id x [I <-] N. split; [|reflexivity]. rewrite Bf in I. rewrite Bg. apply in_app_iff in I as [I|[I|I]]; apply in_or_app; [left; exact I|congruence|right; right; right; exact I].
Qed.
Lemma g_to_f : forall id x, has_block g id x -> (id = b /\ x = first) \/ (id = n /\ x = second) \/ (has_block f id x /\ id <> b).
Proof.
  intros id x [I <-]. rewrite Bg in I. assert (X : In x (before ++ after) -> has_block f (label_of x) x /\ label_of x <> b).
  { intros J. unfold labels in U. rewrite Bf, map_app in U. cbn [map] in U. split.
    - split; [|reflexivity]. rewrite Bf. apply in_app_iff in J as [J|J]; apply in_or_app; [left|right; right]; exact J.
    - intros Q. apply NoDup_remove_2 in U. rewrite <- map_app, <- Q in U. apply U. apply in_map. exact J. }
  apply in_app_iff in I as [I|[<-|[<-|I]]].
  - right. right. apply X. apply in_or_app. auto.
  - left. auto.
  - right. left. auto.
  - right. right. apply X. apply in_or_app. auto.
Qed.
Lemma f_only : forall x, has_block f b x -> x = cut. Proof. intros x H. eapply one_block; [exact U|exact H|exact cut_in]. Qed.

Definition expand (t : list event) : list event := flat_map (fun e => if N.eqb (fst e) b then [(b, None); (n, snd e)] else [e]) t.
Lemma expand_b : forall dec t, expand ((b, dec) :: t) = (b, None) :: (n, dec) :: expand t.
Proof. intros dec t. unfold expand. cbn [flat_map fst snd]. rewrite N.eqb_refl. reflexivity. Qed.
Lemma expand_other : forall id dec t, id <> b -> expand ((id, dec) :: t) = (id, dec) :: expand t.
Proof. intros id dec t N. unfold expand. cbn [flat_map fst snd]. apply N.eqb_neq in N. rewrite N. reflexivity. Qed.

Lemma cut_walk : forall id t d, walk f id t d -> walk g id (expand t) d.
Proof.
  apply walk_steps.
  - intros id. apply walk_here.
  - intros id x dec H L. destruct (N.eq_dec id b) as [->|N].
    + rewrite (f_only x H) in L. rewrite expand_b. eapply walk_step; [exact g_first|reflexivity|]. eapply walk_stop; [exact g_second|exact L].
    + rewrite expand_other by exact N. eapply walk_stop; [exact (f_to_g _ _ H N)|exact L].
  - intros id x dec j t d H L W. destruct (N.eq_dec id b) as [->|N].
    + rewrite (f_only x H) in L. rewrite expand_b. eapply walk_step; [exact g_first|reflexivity|]. eapply walk_step; [exact g_second|exact L|exact W].
    + rewrite expand_other by exact N. eapply walk_step; [exact (f_to_g _ _ H N)|exact L|exact W].
Qed.

Definition came (id : BlockId) (t' : list event) (d : option BlockId) : Prop :=
  (exists t, t' = expand t /\ walk f id t d /\ d <> Some n) \/ (exists t, t' = expand t ++ [(b, None)] /\ d = Some n /\ walk f id t (Some b)).
Lemma came_other : forall id x dec j t d, has_block f id x -> id <> b -> leads (BasicBlock_branch x) dec = Some (Some j) -> came j t d -> came id ((id, dec) :: t) d.
Proof.
  intros id x dec j t d H N L [(t0 & -> & W & Q)|(t0 & -> & Q & W)]; [left|right]; exists ((id, dec) :: t0); rewrite expand_other by exact N.
  - split; [reflexivity|]. split; [eapply walk_step; eassumption|exact Q].
  - split; [reflexivity|]. split; [exact Q|eapply walk_step; eassumption].
Qed.
Lemma came_b : forall dec j t d, leads (BasicBlock_branch cut) dec = Some (Some j) -> came j t d -> came b ((b, None) :: (n, dec) :: t) d.
Proof.
  intros dec j t d L [(t0 & -> & W & Q)|(t0 & -> & Q & W)]; [left|right]; exists ((b, dec) :: t0); rewrite expand_b.
  - split; [reflexivity|]. split; [eapply walk_step; [exact cut_in|exact L|exact W]|exact Q].
  - split; [reflexivity|]. split; [exact Q|eapply walk_step; [exact cut_in|exact L|exact W]].
Qed.
Lemma walk_cut : forall id t' d, walk g id t' d -> (id <> n -> came id t' d) /\ (id = n -> came b ((b, None) :: t') d).
Proof.
  apply walk_steps.
  - intros id. split.
    + intros N. left. exists []. split; [reflexivity|]. split; [apply walk_here|]. intros Q. injection Q as Q. exact (N Q).
    + intros ->. right. exists []. split; [reflexivity|]. split; [reflexivity|apply walk_here].
  - intros id x dec H L. apply g_to_f in H as [[-> ->]|[[-> ->]|[H N]]].
    + destruct dec; discriminate L.
    + split; [intros X; destruct (X eq_refl)|]. intros _. left. exists [(b, dec)]. rewrite expand_b. split; [reflexivity|]. split; [eapply walk_stop; [exact cut_in|exact L]|discriminate].
    + split; [|intros ->; destruct H as [I Q]; destruct (proj1 (not_n _ I) Q)]. intros _. left. exists [(id, dec)]. rewrite expand_other by exact N.
      split; [reflexivity|]. split; [eapply walk_stop; eassumption|discriminate].
  - intros id x dec j t d H L [IH1 IH2]. apply g_to_f in H as [[-> ->]|[[-> ->]|[H N]]].
    + assert (dec = None /\ j = n) as [-> ->] by (destruct dec as [[]|]; try discriminate L; injection L as <-; auto). split; [|intros X; destruct (b_not_n X)]. intros _. exact (IH2 eq_refl).
    + split; [intros X; destruct (X eq_refl)|]. intros _. apply (came_b dec j); [exact L|]. apply IH1. intros ->. apply leads_target in L. exact (proj2 (not_n _ (proj1 cut_in)) L).
    + split; [|intros ->; destruct H as [I Q]; destruct (proj1 (not_n _ I) Q)]. intros _. apply (came_other id x dec j); [exact H|exact N|exact L|].
      apply IH1. intros ->. apply leads_target in L. exact (proj2 (not_n _ (proj1 H)) L).
Qed.

(** ** Actions *)
Notation without := (without_entering (E := E) n).
Lemma without_app : forall a a', without (a ++ a') = without a ++ without a'. Proof. intros a a'. apply filter_app. Qed.
Lemma without_code : forall code : list (GroupCode E), without (map (fun i => Does (core_of_code i)) code) = map (fun i => Does (core_of_code i)) code.
Proof. induction code as [|i code IH]; cbn; [reflexivity|]. f_equal. exact IH. Qed.
Lemma without_other : forall x dec, label_of x <> n -> without (block_actions x dec) = block_actions x dec.
Proof.
  intros x dec N. unfold block_actions. apply N.eqb_neq in N. unfold without_entering at 1. cbn [filter]. rewrite N. cbn [negb]. f_equal. fold (without_entering (E := E) n).
  change (filter _ ?l) with (without l). rewrite without_app, without_code. f_equal. destruct (BasicBlock_branch x); try reflexivity. destruct dec; reflexivity.
Qed.
Lemma without_cut : forall dec, without (block_actions first None ++ block_actions second dec) = block_actions cut dec.
Proof.
  intros dec. rewrite without_app. assert (X : label_of first <> n) by exact b_not_n. rewrite (without_other first None X).
  unfold block_actions at 2 3. unfold block_actions. cbn [BasicBlock_code BasicBlock_branch]. rewrite app_nil_r. cbn [app]. f_equal. rewrite Code, map_app, <- app_assoc. f_equal.
  unfold without_entering. cbn [filter label_of BasicBlock_label OpLabel_result_id]. rewrite N.eqb_refl. cbn [negb]. change (filter _ ?l) with (without l).
  rewrite without_app, without_code. f_equal. destruct (BasicBlock_branch cut); try reflexivity. destruct dec; reflexivity.
Qed.

Lemma perform_forth : forall t a, performs f t a -> exists a', performs g (expand t) a' /\ without a' = a.
Proof.
  intros t a P. induction P as [|id x dec t a H P (a' & P' & <-)]; [exists []; split; [constructor|reflexivity]|]. destruct (N.eq_dec id b) as [->|N].
  - rewrite (f_only x H). rewrite expand_b. exists (block_actions first None ++ block_actions second dec ++ a'). split.
    + apply performs_block; [exact g_first|]. apply performs_block; [exact g_second|exact P'].
    + rewrite app_assoc, without_app, without_cut. reflexivity.
  - rewrite expand_other by exact N. exists (block_actions x dec ++ a'). split; [apply performs_block; [exact (f_to_g _ _ H N)|exact P']|].
    rewrite without_app, without_other; [reflexivity|]. exact (proj1 (not_n _ (proj1 H))).
Qed.
Lemma g_unique : forall id x, has_block g id x -> (id = b -> x = first) /\ (id = n -> x = second) /\ (id <> b -> id <> n -> has_block f id x).
Proof.
  intros id x H. pose proof b_not_n as Nn. apply g_to_f in H as [[-> ->]|[[-> ->]|[H N]]].
  - split; [reflexivity|]. split; [intros X; destruct (Nn X)|]. intros X. destruct (X eq_refl).
  - split; [intros X; destruct (Nn (eq_sym X))|]. split; [reflexivity|]. intros _ X. destruct (X eq_refl).
  - split; [intros X; destruct (N X)|]. split; [intros ->; destruct H as [I Q]; destruct (proj1 (not_n _ I) Q)|]. intros _ _. exact H.
Qed.
Lemma perform_back : forall t a', (forall id dec, In (id, dec) t -> id <> n) -> performs g (expand t) a' -> performs f t (without a').
Proof.
  induction t as [|[id dec] t IH]; intros a' N P.
  - inversion P. constructor.
  - assert (N' : forall i x, In (i, x) t -> i <> n) by (intros i x I; exact (N i x (or_intror I))). destruct (N.eq_dec id b) as [->|Nb].
    + rewrite expand_b in P. inversion P as [|i1 x1 d1 t1 a1 H1 P1]; subst. inversion P1 as [|i2 x2 d2 t2 a2 H2 P2]; subst.
      rewrite (proj1 (g_unique _ _ H1) eq_refl), (proj1 (proj2 (g_unique _ _ H2)) eq_refl). rewrite app_assoc, without_app, without_cut. apply performs_block; [exact cut_in|]. apply IH; assumption.
    + rewrite expand_other in P by exact Nb. inversion P as [|i1 x1 d1 t1 a1 H1 P1]; subst. pose proof (proj2 (proj2 (g_unique _ _ H1)) Nb (N _ _ (or_introl eq_refl))) as H.
      rewrite without_app, without_other by (exact (proj1 (not_n _ (proj1 H)))). apply performs_block; [exact H|]. apply IH; assumption.
Qed.
Lemma walk_not_n : forall id t d, walk f id t d -> forall i x, In (i, x) t -> i <> n.
Proof.
  apply (walk_steps f (fun id t d => forall i x, In (i, x) t -> i <> n)).
  - intros id i x [].
  - intros id y dec [I <-] L i x [Q|[]]. injection Q as <- _. exact (proj1 (not_n _ I)).
  - intros id y dec j t d [I <-] L IH i x [Q|J]; [injection Q as <- _; exact (proj1 (not_n _ I))|exact (IH i x J)].
Qed.

(** ** The functions *)
Context (EX : forall j, reachable f j -> exists x, has_block f j x).

Lemma entry_cut : forall id, entry g id <-> entry f id.
Proof.
  intros id. unfold entry. rewrite Bf, Bg. destruct before as [|x before']; cbn [app].
  - split; intros (y & rest & Q & L); injection Q as <- <-; [exists cut, after|exists first, (second :: after)]; (split; [reflexivity|exact L]).
  - split; intros (y & rest & Q & L); injection Q as <- <-; eexists x, _; (split; [reflexivity|exact L]).
Qed.
Lemma entry_not_n : forall id, entry f id -> id <> n.
Proof. intros id (y & rest & Q & <-). exact (proj1 (not_n y ltac:(rewrite Q; left; reflexivity))). Qed.
Lemma g_labels : NoDup (labels g).
Proof.
  unfold labels in *. rewrite Bf in U. rewrite Bg. rewrite map_app in *. cbn [map] in *. change (label_of first) with b. change (label_of second) with n.
  apply NoDup_Add with (a := n) (l := map label_of before ++ b :: map label_of after).
  - replace (map label_of before ++ b :: n :: map label_of after) with ((map label_of before ++ [b]) ++ n :: map label_of after) by (rewrite <- app_assoc; reflexivity).
    replace (map label_of before ++ b :: map label_of after) with ((map label_of before ++ [b]) ++ map label_of after) by (rewrite <- app_assoc; reflexivity). apply Add_app.
  - split; [exact U|]. intros I. change (b :: map label_of after) with (map label_of (cut :: after)) in I. rewrite <- map_app, <- Bf in I. apply in_map_iff in I as (x & Q & I). exact (proj1 (not_n x I) Q).
Qed.
Lemma g_exist : forall j, reachable g j -> exists x, has_block g j x.
Proof.
  intros j (id & t & En & W). apply entry_cut in En. destruct (proj1 (walk_cut _ _ _ W) (entry_not_n _ En)) as [(t0 & _ & W0 & _)|(t0 & _ & Q & _)].
  - destruct (EX j) as [x H]; [exists id, t0; auto|]. destruct (N.eq_dec j b) as [->|N]; [eexists; exact g_first|exists x; exact (f_to_g _ _ H N)].
  - injection Q as ->. eexists. exact g_second.
Qed.
Lemma run_cut : forall t', complete_run g t' <-> exists t, complete_run f t /\ t' = expand t.
Proof.
  intros t'. split.
  - intros (id & En & W). apply entry_cut in En. destruct (proj1 (walk_cut _ _ _ W) (entry_not_n _ En)) as [(t & -> & W0 & _)|(t & _ & Q & _)]; [|discriminate Q].
    exists t. split; [exists id; auto|reflexivity].
  - intros (t & (id & En & W) & ->). exists id. split; [apply entry_cut; exact En|apply cut_walk; exact W].
Qed.
Lemma complete_not_n : forall t, complete_run f t -> forall i x, In (i, x) t -> i <> n.
Proof. intros t (id & _ & W). exact (walk_not_n _ _ _ W). Qed.

Lemma some_start : exists y rest, FunctionDefinition_blocks f = y :: rest.
Proof. rewrite Bf. destruct before; eexists _, _; reflexivity. Qed.
Lemma some_start_g : exists y rest, FunctionDefinition_blocks g = y :: rest.
Proof. rewrite Bg. destruct before; eexists _, _; reflexivity. Qed.

Context (m m' : RawModule E) (pc pc' : nat) (M : stands_at m pc f) (M' : stands_at m' pc' g).
Theorem cut_do : forall a, can_do m pc a <-> exists a', can_do m' pc' a' /\ a = without a'.
Proof.
  intros a. destruct M as (pre & post & Q & <-), M' as (pre' & post' & Q' & <-). unfold can_do. rewrite Q, Q'. destruct some_start as (y & rest & S), some_start_g as (y' & rest' & S').
  rewrite (complete_iff f pre post U y rest S EX). split.
  - intros (t & C & P). apply perform_forth in P as (a' & P & <-). exists a'. split; [|reflexivity]. apply (complete_iff g pre' post' g_labels y' rest' S' g_exist). exists (expand t). split; [|exact P].
    apply run_cut. exists t. auto.
  - intros (a' & X & ->). apply (complete_iff g pre' post' g_labels y' rest' S' g_exist) in X as (t' & C & P). apply run_cut in C as (t & C & ->). exists t. split; [exact C|].
    apply perform_back; [exact (complete_not_n t C)|exact P].
Qed.
Theorem cut_begin : forall a, can_begin_with m pc a <-> exists a', can_begin_with m' pc' a' /\ a = without a'.
Proof.
  intros a. destruct M as (pre & post & Q & <-), M' as (pre' & post' & Q' & <-). unfold can_begin_with. rewrite Q, Q'. destruct some_start as (y & rest & S), some_start_g as (y' & rest' & S').
  rewrite (prefix_iff f pre post U y rest S EX). split.
  - intros (t & r & C & P). apply perform_forth in P as (a' & P & X). apply filter_split in X as (a1 & a2 & -> & <- & <-). exists a1. split; [|reflexivity].
    apply (prefix_iff g pre' post' g_labels y' rest' S' g_exist). exists (expand t), a2. split; [|exact P]. destruct C as [C|(id & j & En & W)]; [left; apply run_cut; eauto|right].
    exists id, j. split; [apply entry_cut; exact En|apply cut_walk; exact W].
  - intros (a' & X & ->). apply (prefix_iff g pre' post' g_labels y' rest' S' g_exist) in X as (t' & r & C & P).
    assert (D : (exists t, (complete_run f t \/ unfinished_run f t) /\ t' = expand t) \/ (exists id t, entry f id /\ walk f id t (Some b) /\ t' = expand t ++ [(b, None)])).
    { destruct C as [C|(id & j & En & W)]; [left; apply run_cut in C as (t & C & ->); eauto|]. apply entry_cut in En.
      destruct (proj1 (walk_cut _ _ _ W) (entry_not_n _ En)) as [(t & -> & W0 & _)|(t & -> & _ & W0)].
      - left. exists t. split; [right; exists id, j; auto|reflexivity].
      - right. exists id, t. auto. }
    destruct D as [(t & C' & ->)|(id & t & En & W & ->)].
    + exists t, (without r). split; [exact C'|]. rewrite <- without_app. apply perform_back; [|exact P]. destruct C' as [C'|(id & j & _ & W)]; [exact (complete_not_n t C')|exact (walk_not_n _ _ _ W)].
    + apply performs_inv in P as (a1 & a2 & X & P1 & P2). inversion P2 as [|i x dc t2 a3 H P3]; subst. inversion P3; subst. rewrite (proj1 (g_unique _ _ H) eq_refl) in X.
      assert (L : exists dec j, leads (BasicBlock_branch cut) dec = Some j) by (destruct (BasicBlock_branch cut) as [op|op|op]; [exists None|exists (Some true)|exists None]; eexists; reflexivity).
      destruct L as (dec & j & L).
      assert (W2 : exists d, walk f b [(b, dec)] d).
      { destruct j as [j|]; [exists (Some j); eapply walk_step; [exact cut_in|exact L|apply walk_here]|exists None; eapply walk_stop; [exact cut_in|exact L]]. }
      destruct W2 as (d & W2). pose proof (walk_more f _ _ _ W _ _ W2) as W3. exists (t ++ [(b, dec)]), (without r ++ without (block_actions second dec)). split.
      * destruct d as [j'|]; [right; exists id, j'; auto|left; exists id; auto].
      * rewrite app_assoc, <- without_app, X, app_nil_r, <- without_app, <- app_assoc, without_app, without_cut. apply performs_app; [apply perform_back; [exact (walk_not_n _ _ _ W)|exact P1]|].
        rewrite <- (app_nil_r (block_actions cut dec)). apply performs_block; [exact cut_in|constructor].
Qed.
End Cut.

Theorem cut_does : forall E (f g : FunctionDefinition E) cut n, cut_at f g cut n -> NoDup (labels f) -> (forall j, reachable f j -> exists x, has_block f j x) ->
  forall m m' pc pc', stands_at m pc f -> stands_at m' pc' g ->
  forall a, (can_do m pc a <-> exists a', can_do m' pc' a' /\ a = without_entering n a')
    /\ (can_begin_with m pc a <-> exists a', can_begin_with m' pc' a' /\ a = without_entering n a').
Proof.
  intros E f g cut n (before & after & code1 & code2 & Bf & Code & Bg & Fr) U EX m m' pc pc' M M' a. split.
  - exact (cut_do f g cut n before after code1 code2 Bf Code Bg Fr U EX m m' pc pc' M M' a).
  - exact (cut_begin f g cut n before after code1 code2 Bf Code Bg Fr U EX m m' pc pc' M M' a).
Qed.
