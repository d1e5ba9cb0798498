(** Executions of a function with arms exchanged, C123. *)
From Verif Require Import Base Types Ops Groups ControlFlow Spec_Flow Spec_Mirror Spec_Inlined Spec_Turned Proofs_Mirror Proofs_Rewrite2 Proofs_Inlined Proofs_Inlined4.

Section Turned.
Context {E : Type} (chosen : BlockId -> bool).
Lemma turned_goes : forall (f g : FunctionDefinition E) id dec dst, mirror_of chosen f g -> goes f id dec dst -> goes g id (if chosen id then option_map negb dec else dec) dst.
Proof.
  intros f g id dec dst M G. apply goes_inv in G as (b & [I <-] & L).
  assert (X : exists b', In b' (FunctionDefinition_blocks g) /\ mirrored chosen b b').
  { unfold mirror_of in M. revert I. induction M as [|x y l l' M1 M IH]; intros I; [destruct I|]. destruct I as [<-|I]; [exists y; cbn; auto|]. destruct (IH I) as (b' & J & K). exists b'. cbn. auto. }
  destruct X as (b' & J & Q & _ & K). apply (goes_block g _ b'); [split; [exact J|exact Q]|]. destruct (chosen (label_of b)); [|rewrite K; exact L].
  destruct K as (sel & op & op' & _ & B & B' & T & F & _). rewrite B in L. rewrite B'. destruct dec as [[]|]; cbn in *; congruence.
Qed.
Lemma turned_walk : forall (f g : FunctionDefinition E), mirror_of chosen f g -> forall t id d, walk f id t d -> walk g id (turned_events chosen t) d.
Proof.
  intros f g M. induction t as [|e t IH]; intros id d W; apply walk_inv in W as [[Q1 Q2]|(dec & dst & t1 & Q & G & R)]; try discriminate; [subst; constructor|].
  injection Q as -> <-. cbn. apply (walk_goes g _ _ dst); [exact (turned_goes f g _ _ _ M G)|]. destruct dst as [j|]; [exact (IH _ _ R)|]. destruct R as [-> ->]. split; reflexivity.
Qed.
Lemma turned_entry : forall (f g : FunctionDefinition E), mirror_of chosen f g -> forall id, entry f id -> entry g id.
Proof. intros f g M id (b & r & Q & <-). unfold mirror_of in M. rewrite Q in M. inversion M as [|? y ? r' [M1 _] M2 X1 X2]; subst. exists y, r'. split; [symmetry; assumption|exact M1]. Qed.
Lemma turned_twice : forall t, turned_events chosen (turned_events chosen t) = t.
Proof. intros t. unfold turned_events. rewrite map_map. rewrite <- (map_id t) at 2. apply map_ext. intros [id dec]. cbn. destruct (chosen id); [|reflexivity]. destruct dec as [[]|]; reflexivity. Qed.

Theorem turned_executions : forall f g : FunctionDefinition E, mirror_of chosen f g -> forall t, complete_run g (turned_events chosen t) <-> complete_run f t.
Proof.
  assert (K : forall (f g : FunctionDefinition E) t, mirror_of chosen f g -> complete_run f t -> complete_run g (turned_events chosen t)).
  { intros f g t M (id & En & W). exists id. split; [exact (turned_entry f g M id En)|exact (turned_walk f g M _ _ _ W)]. }
  intros f g M t. split; [|apply K; exact M]. intros H. rewrite <- (turned_twice t). exact (K g f _ (mirror_back chosen f g M) H).
Qed.
Theorem turned_on_the_way : forall f g : FunctionDefinition E, mirror_of chosen f g -> forall t j, gets_to g (turned_events chosen t) j <-> gets_to f t j.
Proof.
  assert (K : forall (f g : FunctionDefinition E) t j, mirror_of chosen f g -> gets_to f t j -> gets_to g (turned_events chosen t) j).
  { intros f g t j M (id & En & W). exists id. split; [exact (turned_entry f g M id En)|exact (turned_walk f g M _ _ _ W)]. }
  intros f g M t j. split; [|apply K; exact M]. intros H. rewrite <- (turned_twice t). exact (K g f _ _ (mirror_back chosen f g M) H).
Qed.
Theorem turned_reached : forall f g : FunctionDefinition E, mirror_of chosen f g -> labels g = labels f /\ forall j, reachable g j <-> reachable f j.
Proof.
  intros f g M. split; [exact (mirror_labels chosen f g M)|]. intros j. rewrite !reach_gets. split; intros [t H].
  - exists (turned_events chosen t). apply (turned_on_the_way f g M). rewrite turned_twice. exact H.
  - exists (turned_events chosen t). apply (turned_on_the_way f g M). exact H.
Qed.
End Turned.
