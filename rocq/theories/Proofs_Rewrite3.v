(** What the instructions of a function with arms exchanged do, C139. *)
From Coq Require Import Lia.
From Verif Require Import Base Types Ops Groups ExtSet Reader ControlFlow Spec_Layout Spec_Flow Spec_Machine Spec_Mirror Spec_Rewrite
  Proofs_Flow Proofs_Flow2 Proofs_Machine Proofs_Mirror Proofs_Prune Proofs_Rewrite Proofs_Rewrite2.

Section Turned.
Context {E : Type} (chosen : BlockId -> bool).
Notation turn := (turned_in (E := E) chosen).

Lemma turn_twice : forall a here, turn here (turn here a) = a.
Proof. induction a as [|[id|i|c h] a IH]; intros here; cbn; [reflexivity|rewrite IH; reflexivity..|]. rewrite IH. destruct (chosen here); [rewrite Bool.negb_involutive|]; reflexivity. Qed.
Lemma turn_split : forall a r here, exists there, turn here (a ++ r) = turn here a ++ turn there r.
Proof.
  induction a as [|[id|i|c h] a IH]; intros r here; cbn; [exists here; reflexivity| | |].
  - destruct (IH r id) as [x ->]. exists x. reflexivity.
  - destruct (IH r here) as [x ->]. exists x. reflexivity.
  - destruct (IH r here) as [x ->]. exists x. reflexivity.
Qed.
Definition turn_dec (id : BlockId) (dec : option bool) : option bool := if chosen id then option_map negb dec else dec.
Definition flip (t : list event) : list event := map (fun e => (fst e, turn_dec (fst e) (snd e))) t.
Lemma flip_twice : forall t, flip (flip t) = t.
Proof. intros t. unfold flip. rewrite map_map. rewrite <- (map_id t) at 2. apply map_ext. intros [id dec]. cbn. f_equal. unfold turn_dec. destruct (chosen id); [|reflexivity]. destruct dec as [[]|]; reflexivity. Qed.

Definition alike (b b' : BasicBlock E) : Prop := mirrored chosen b b' /\ BasicBlock_code b' = BasicBlock_code b
    /\ match BasicBlock_branch b, BasicBlock_branch b' with
       | GroupBranch_OpBranchConditional op, GroupBranch_OpBranchConditional op' => OpBranchConditional_condition op' = OpBranchConditional_condition op
       | _, _ => True
       end.

Lemma turn_code : forall (code : list (GroupCode E)) r here, turn here (map (fun i => Does (core_of_code i)) code ++ r) = map (fun i => Does (core_of_code i)) code ++ turn here r.
Proof. induction code as [|i code IH]; intros r here; cbn; [reflexivity|]. rewrite IH. reflexivity. Qed.
Lemma turn_block : forall b b' dec r here, alike b b' -> turn here (block_actions b dec ++ r) = block_actions b' (turn_dec (label_of b) dec) ++ turn (label_of b) r.
Proof.
  intros b b' dec r here ((L & M & B) & C & D). unfold block_actions. cbn [app turned_in]. rewrite L, C. f_equal. rewrite <- !app_assoc, turn_code. f_equal.
  unfold turn_dec. destruct (chosen (label_of b)) eqn:Q.
  - destruct B as (sel & op & op' & _ & B1 & B2 & _). rewrite B1, B2 in *. destruct dec as [h|]; cbn [option_map app turned_in]; [|reflexivity]. rewrite Q, D. reflexivity.
  - rewrite B in *. destruct (BasicBlock_branch b); try reflexivity. destruct dec as [h|]; cbn [app turned_in]; [|reflexivity]. rewrite Q. reflexivity.
Qed.
Lemma leads_turn : forall b b' dec, alike b b' -> leads (BasicBlock_branch b') (turn_dec (label_of b) dec) = leads (BasicBlock_branch b) dec.
Proof.
  intros b b' dec ((L & M & B) & _). unfold turn_dec. destruct (chosen (label_of b)); [|rewrite B; reflexivity].
  destruct B as (sel & op & op' & _ & B1 & B2 & T & F & _). rewrite B1, B2. destruct dec as [[]|]; cbn; congruence.
Qed.

Lemma alike_all : forall f g : FunctionDefinition E, mirror_of chosen f g -> same_work f g -> Forall2 alike (FunctionDefinition_blocks f) (FunctionDefinition_blocks g).
Proof.
  intros f g M S. unfold mirror_of in M. unfold same_work in S. induction M as [|b b' l l' H M IH]; inversion S as [|? ? ? ? S1 S2]; subst; constructor; [|apply IH; exact S2]. split; [exact H|exact S1].
Qed.
Lemma same_back : forall f g : FunctionDefinition E, same_work f g -> same_work g f.
Proof.
  intros f g S. unfold same_work in *. induction S as [|b b' l l' [C D] S IH]; constructor; [|exact IH]. split; [symmetry; exact C|]. destruct (BasicBlock_branch b), (BasicBlock_branch b'); auto.
Qed.

Section Pair.
Context (f g : FunctionDefinition E) (A : Forall2 alike (FunctionDefinition_blocks f) (FunctionDefinition_blocks g)).
Lemma other_block : forall id b, has_block f id b -> exists b', has_block g id b' /\ alike b b'.
Proof.
  intros id b [I <-]. unfold has_block. induction A as [|x x' l l' H A' IH]; [destruct I|]. destruct I as [->|I].
  - exists x'. split; [split; [left; reflexivity|exact (proj1 (proj1 H))]|exact H].
  - destruct (IH A' I) as (b' & [J Q] & K). exists b'. split; [split; [right; exact J|exact Q]|exact K].
Qed.
Lemma walk_flip : forall id t d, walk f id t d -> walk g id (flip t) d.
Proof.
  apply walk_steps.
  - intros id. apply walk_here.
  - intros id x dec H L. destruct (other_block id x H) as (x' & H' & K). destruct H as [_ <-]. cbn. eapply walk_stop; [exact H'|]. rewrite (leads_turn x x' dec K). exact L.
  - intros id x dec j t d H L W. destruct (other_block id x H) as (x' & H' & K). destruct H as [_ <-]. cbn. eapply walk_step; [exact H'| |exact W]. rewrite (leads_turn x x' dec K). exact L.
Qed.
Lemma entry_flip : forall id, entry f id -> entry g id.
Proof.
  intros id (b & rest & Q & L). unfold entry. rewrite Q in A. inversion A as [|x x' l l' H A' Q1 Q2]; subst. exists x', l'. split; [reflexivity|]. exact (proj1 (proj1 H)).
Qed.
Lemma performs_flip : forall t a, performs f t a -> forall here, performs g (flip t) (turn here a).
Proof.
  intros t a P. induction P as [|id x dec t a H P IH]; intros here; [constructor|]. destruct (other_block id x H) as (x' & H' & K). rewrite (turn_block x x' dec a here K).
  destruct H as [_ <-]. cbn. apply performs_block; [exact H'|apply IH].
Qed.
Lemma exist_flip : (forall j, reachable g j -> exists b, has_block g j b) -> (forall id t j, walk f id t (Some j) -> entry f id -> exists b', has_block g j b').
Proof. intros X id t j W En. apply X. exists id, (flip t). split; [apply entry_flip; exact En|apply walk_flip; exact W]. Qed.
End Pair.

Section Both.
Context (f g : FunctionDefinition E) (A : Forall2 alike (FunctionDefinition_blocks f) (FunctionDefinition_blocks g)).
Context (U : NoDup (labels f)) (U' : NoDup (labels g)) (X : forall j, reachable f j -> exists b, has_block f j b) (X' : forall j, reachable g j -> exists b, has_block g j b).
Context (m m' : RawModule E) (pc pc' : nat) (M : stands_at m pc f) (M' : stands_at m' pc' g) (y y' : BasicBlock E) (rest rest' : list (BasicBlock E)).
Context (S : FunctionDefinition_blocks f = y :: rest) (S' : FunctionDefinition_blocks g = y' :: rest').
Lemma do_flip : forall a, can_do m pc a -> can_do m' pc' (with_decisions_turned chosen a).
Proof.
  intros a. destruct M as (pre & post & Q & <-), M' as (pre' & post' & Q' & <-). unfold can_do. rewrite Q, Q'.
  rewrite (complete_iff f pre post U y rest S X), (complete_iff g pre' post' U' y' rest' S' X'). intros (t & (id & En & W) & P). exists (flip t). split.
  - exists id. split; [exact (entry_flip f g A id En)|exact (walk_flip f g A _ _ _ W)].
  - exact (performs_flip f g A _ _ P _).
Qed.
Lemma begin_flip : forall a, can_begin_with m pc a -> can_begin_with m' pc' (with_decisions_turned chosen a).
Proof.
  intros a. destruct M as (pre & post & Q & <-), M' as (pre' & post' & Q' & <-). unfold can_begin_with. rewrite Q, Q'.
  rewrite (prefix_iff f pre post U y rest S X), (prefix_iff g pre' post' U' y' rest' S' X'). intros (t & r & C & P).
  destruct (turn_split a r 0%N) as [there T]. exists (flip t), (turn there r). split.
  - destruct C as [(id & En & W)|(id & j & En & W)]; [left; exists id|right; exists id, j]; (split; [exact (entry_flip f g A id En)|exact (walk_flip f g A _ _ _ W)]).
  - unfold with_decisions_turned. rewrite <- T. exact (performs_flip f g A _ _ P _).
Qed.
End Both.
End Turned.

Theorem mirror_does : forall E chosen (f g : FunctionDefinition E), mirror_of chosen f g -> same_work f g -> NoDup (labels f) -> (forall j, reachable f j -> exists b, has_block f j b) ->
  forall m m' pc pc', stands_at m pc f -> stands_at m' pc' g -> FunctionDefinition_blocks f <> [] ->
  forall a, (can_do m' pc' (with_decisions_turned chosen a) <-> can_do m pc a) /\ (can_begin_with m' pc' (with_decisions_turned chosen a) <-> can_begin_with m pc a).
Proof.
  intros E chosen f g R W U X m m' pc pc' M M' N a. pose proof (alike_all chosen f g R W) as A. pose proof (alike_all chosen g f (mirror_back chosen f g R) (same_back f g W)) as A'.
  assert (U' : NoDup (labels g)) by (rewrite (mirror_labels chosen f g R); exact U).
  assert (X' : forall j, reachable g j -> exists b, has_block g j b).
  { intros j (id & t & En & V). destruct (X j) as [b H]; [exists id, (flip chosen t); split; [exact (entry_flip chosen g f A' id En)|exact (walk_flip chosen g f A' _ _ _ V)]|].
    destruct (other_block chosen f g A j b H) as (b' & H' & _). eauto. }
  destruct (FunctionDefinition_blocks f) as [|y rest] eqn:S; [destruct (N eq_refl)|]. destruct (FunctionDefinition_blocks g) as [|y' rest'] eqn:S'; [inversion A|].
  rewrite <- S, <- S' in A, A'. split; split; intros K.
  - rewrite <- (turn_twice chosen a 0%N). exact (do_flip chosen g f A' U' U X' X m' m pc' pc M' M y' y rest' rest S' S _ K).
  - exact (do_flip chosen f g A U U' X X' m m' pc pc' M M' y y' rest rest' S S' _ K).
  - rewrite <- (turn_twice chosen a 0%N). exact (begin_flip chosen g f A' U' U X' X m' m pc' pc M' M y' y rest' rest S' S _ K).
  - exact (begin_flip chosen f g A U U' X X' m m' pc pc' M M' y y' rest rest' S S' _ K).
Qed.

(** ** The same control flow *)
Section SameChain.
Context {E : Type} (f g : FunctionDefinition E) (c : ControlFlowChain) (F : returns f (Ok c)) (G : returns g (Ok c)).
Context (H : forall id b b', In id (chain_ids c) -> has_block f id b -> has_block g id b' -> works_like b b').

Lemma walk_decides : forall (d : FunctionDefinition E) id t dest, walk d id t dest -> forall i h, In (i, Some h) t -> exists b op, has_block d i b /\ BasicBlock_branch b = GroupBranch_OpBranchConditional op.
Proof.
  intros d id t dest W. induction W as [id|id b op H1 B|id b op t d' H1 B W IH|id b op t d' H1 B W IH|id b op t d' H1 B W IH]; intros i h J.
  - destruct J.
  - destruct J as [Q|[]]. discriminate Q.
  - destruct J as [Q|J]; [discriminate Q|exact (IH i h J)].
  - destruct J as [Q|J]; [injection Q as <- <-; eauto|exact (IH i h J)].
  - destruct J as [Q|J]; [injection Q as <- <-; eauto|exact (IH i h J)].
Qed.
Lemma chain_decides : forall (d : FunctionDefinition E) t e, returns d (Ok c) -> exec c t e -> forall i h, In (i, Some h) t -> exists b op, has_block d i b /\ BasicBlock_branch b = GroupBranch_OpBranchConditional op.
Proof.
  intros d t e R X. destruct (returns_at _ _ R) as [n N]. destruct (runs_no_exit d n c N _ _ X) as [->| ->].
  - apply (runs_complete d n c N) in X as (id & _ & W). exact (walk_decides _ _ _ _ W).
  - apply (runs_unfinished d n c N) in X as (id & j & _ & W). exact (walk_decides _ _ _ _ W).
Qed.
Lemma same_performs : forall t e, exec c t e -> forall a, performs f t a -> performs g t a.
Proof.
  intros t e X. pose proof (returns_unique_labels _ _ F) as Uf. pose proof (returns_unique_labels _ _ G) as Ug. destruct (returns_at _ _ G) as [n N].
  pose proof (chain_decides f t e F X) as Df. pose proof (chain_decides g t e G X) as Dg. pose proof (proj1 exec_ids _ _ _ X) as Ids. clear X.
  induction t as [|[id dec] t IH]; intros a P; inversion P as [|i b d t' a' B P']; subst; [constructor|].
  destruct (chain_ids_exist g n c N id (Ids id dec (or_introl eq_refl))) as [b' B']. destruct (H id b b' (Ids id dec (or_introl eq_refl)) B B') as [C D].
  assert (Q : block_actions b dec = block_actions b' dec).
  { unfold block_actions. rewrite C, (proj2 B), (proj2 B'). f_equal. f_equal. destruct dec as [h|]; [|destruct (BasicBlock_branch b), (BasicBlock_branch b'); reflexivity].
    destruct (Df id h (or_introl eq_refl)) as (x & op & Bx & Q), (Dg id h (or_introl eq_refl)) as (x' & op' & Bx' & Q').
    rewrite (one_block f id b x Uf B Bx), (one_block g id b' x' Ug B' Bx') in *. rewrite Q, Q' in *. rewrite D. reflexivity. }
  rewrite Q. apply performs_block; [exact B'|]. apply IH; [..|exact P'].
  - intros i h I. exact (Df i h (or_intror I)).
  - intros i h I. exact (Dg i h (or_intror I)).
  - intros i h I. exact (Ids i h (or_intror I)).
Qed.
Context (m m' : RawModule E) (pc pc' : nat) (M : stands_at m pc f) (M' : stands_at m' pc' g).
Lemma chain_do : forall a, can_do m pc a -> can_do m' pc' a.
Proof.
  intros a. destruct M as (pre & post & Q & <-), M' as (pre' & post' & Q' & <-). destruct (returns_at _ _ F) as [n N], (returns_at _ _ G) as [n' N']. unfold can_do.
  rewrite Q, Q', (chain_complete _ _ _ _ N), (chain_complete _ _ _ _ N'). intros (t & X & P). exists t. split; [exact X|exact (same_performs t _ X a P)].
Qed.
Lemma chain_begin : forall a, can_begin_with m pc a -> can_begin_with m' pc' a.
Proof.
  intros a. destruct M as (pre & post & Q & <-), M' as (pre' & post' & Q' & <-). destruct (returns_at _ _ F) as [n N], (returns_at _ _ G) as [n' N']. unfold can_begin_with.
  rewrite Q, Q', (chain_prefix _ _ _ _ N), (chain_prefix _ _ _ _ N'). intros (t & e & r & X & P). exists t, e, r. split; [exact X|exact (same_performs t _ X _ P)].
Qed.
End SameChain.
Lemma works_back : forall E (b b' : BasicBlock E), works_like b b' -> works_like b' b.
Proof. intros E b b' [C D]. split; [symmetry; exact C|]. destruct (BasicBlock_branch b), (BasicBlock_branch b'); auto. Qed.

Theorem same_chain_does : forall E (f g : FunctionDefinition E) c, returns f (Ok c) -> returns g (Ok c) ->
  (forall id b b', In id (chain_ids c) -> has_block f id b -> has_block g id b' -> works_like b b') ->
  forall m m' pc pc', stands_at m pc f -> stands_at m' pc' g ->
  forall a, (can_do m pc a <-> can_do m' pc' a) /\ (can_begin_with m pc a <-> can_begin_with m' pc' a).
Proof.
  intros E f g c F G H m m' pc pc' M M' a.
  assert (H' : forall id b b', In id (chain_ids c) -> has_block g id b -> has_block f id b' -> works_like b b') by (intros id b b' I B B'; apply works_back; exact (H id b' b I B' B)).
  split; split.
  - exact (chain_do f g c F G H m m' pc pc' M M' a).
  - exact (chain_do g f c G F H' m' m pc' pc M' M a).
  - exact (chain_begin f g c F G H m m' pc pc' M M' a).
  - exact (chain_begin g f c G F H' m' m pc' pc M' M a).
Qed.
