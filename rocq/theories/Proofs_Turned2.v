(** Arms exchanged in a function that obeys the rules of the standard, C123. *)
From Coq Require Import Relation_Operators.
From Verif Require Import Base Types Ops Groups ControlFlow Spec_Flow Spec_Structured Spec_Standard Spec_Returns Spec_Mirror Spec_Inlined Spec_Turned Proofs_Mirror Proofs_Inlined4 Proofs_Turned.

Section Obeys.
Context {E : Type} (chosen : BlockId -> bool).
Definition other (u : BlockId) (n : nat) : nat := if chosen u then match n with O => 1 | 1 => O | n => n end else n.
Lemma other_twice : forall u n, other u (other u n) = n.
Proof. intros u n. unfold other. destruct (chosen u); [|reflexivity]. destruct n as [|[|n]]; reflexivity. Qed.
Lemma same_blocks : forall t, map fst (turned_events chosen t) = map fst t.
Proof. intros t. unfold turned_events. rewrite map_map. reflexivity. Qed.
Lemma turned_block : forall (f g : FunctionDefinition E) u b, mirror_of chosen f g -> has_block f u b -> exists b', has_block g u b' /\ mirrored chosen b b'.
Proof.
  intros f g u b M [I <-]. unfold mirror_of in M. unfold has_block. induction M as [|x y l l' M1 M IH]; [destruct I|]. destruct I as [<-|I].
  - exists y. split; [split; [left; reflexivity|exact (proj1 M1)]|exact M1].
  - destruct (IH I) as (b' & [J Q] & K). exists b'. split; [split; [right; exact J|exact Q]|exact K].
Qed.

Lemma half_dominates : forall (f g : FunctionDefinition E) a b, mirror_of chosen f g -> dominates f a b -> dominates g a b.
Proof.
  intros f g a b M D first t En W. apply (mirror_back chosen) in M. rewrite <- same_blocks. apply (D first); [exact (turned_entry chosen g f M first En)|exact (turned_walk chosen g f M _ _ _ W)].
Qed.
Lemma half_post : forall (f g : FunctionDefinition E) a b, mirror_of chosen f g -> post_dominates f a b -> post_dominates g a b.
Proof. intros f g a b M D t W. apply (mirror_back chosen) in M. rewrite <- same_blocks. apply D. exact (turned_walk chosen g f M _ _ _ W). Qed.
Lemma half_declares : forall (f g : FunctionDefinition E) h m, mirror_of chosen f g -> declares f h m -> declares g h m.
Proof. intros f g h m M (b & H & I). destruct (turned_block f g h b M H) as (b' & H' & _ & Q & _). exists b'. split; [exact H'|]. unfold merge_targets in *. rewrite Q. exact I. Qed.
Lemma half_heads : forall (f g : FunctionDefinition E) h m ct, mirror_of chosen f g -> heads_loop f h m ct -> heads_loop g h m ct.
Proof. intros f g h m ct M (b & hint & H & I). destruct (turned_block f g h b M H) as (b' & H' & _ & Q & _). exists b', hint. split; [exact H'|]. rewrite Q. exact I. Qed.
Lemma half_branches : forall (f g : FunctionDefinition E) u n v, mirror_of chosen f g -> branches f u n v -> branches g u (other u n) v.
Proof.
  intros f g u n v M (b & H & I). destruct (turned_block f g u b M H) as (b' & H' & _ & _ & K). exists b'. split; [exact H'|]. unfold other. destruct H as [_ Q]. rewrite Q in K. unfold branch_targets in *.
  destruct (chosen u); [|rewrite K; exact I]. destruct K as (sel & op & op' & _ & B & B' & T & F & _). rewrite B in I. rewrite B', T, F. destruct n as [|[|n]]; cbn in *; [exact I|exact I|]. destruct n; exact I.
Qed.

Context (f g : FunctionDefinition E) (M : mirror_of chosen f g).
Lemma m_entry : forall a, entry g a <-> entry f a.
Proof. intros a. split; apply (turned_entry chosen); [exact (mirror_back _ _ _ M)|exact M]. Qed.
Lemma m_dominates : forall a b, dominates g a b <-> dominates f a b.
Proof. intros a b. split; apply half_dominates; [exact (mirror_back _ _ _ M)|exact M]. Qed.
Lemma m_post : forall a b, post_dominates g a b <-> post_dominates f a b.
Proof. intros a b. split; apply half_post; [exact (mirror_back _ _ _ M)|exact M]. Qed.
Lemma m_declares : forall a b, declares g a b <-> declares f a b.
Proof. intros a b. split; apply half_declares; [exact (mirror_back _ _ _ M)|exact M]. Qed.
Lemma m_heads : forall a b c, heads_loop g a b c <-> heads_loop f a b c.
Proof. intros a b c. split; apply half_heads; [exact (mirror_back _ _ _ M)|exact M]. Qed.
Lemma m_branches : forall u n v, branches g u n v <-> branches f u (other u n) v.
Proof. intros u n v. split; intros H; [apply (half_branches g f); [exact (mirror_back _ _ _ M)|exact H]|]. rewrite <- (other_twice u n). apply (half_branches f g); [exact M|exact H]. Qed.
Lemma m_reach : forall j, reachable g j <-> reachable f j. Proof. exact (proj2 (turned_reached chosen f g M)). Qed.
Lemma m_back : forall u n v, back_edge g u n v <-> back_edge f u (other u n) v.
Proof. intros u n v. unfold back_edge. rewrite m_branches, m_reach, m_dominates. reflexivity. Qed.
Lemma m_onward : forall u v, onward g u v -> onward f u v.
Proof. intros u v (n & B & R & D). exists (other u n). rewrite <- m_branches, <- m_reach, <- m_dominates. auto. Qed.
Lemma m_construct : forall h m b, construct g h m b <-> construct f h m b.
Proof. intros h m b. unfold construct. rewrite m_reach, !m_dominates. reflexivity. Qed.
Lemma m_innermost : forall b h m ct, innermost_loop f b h m ct -> innermost_loop g b h m ct.
Proof.
  intros b h m ct (A & B & C). split; [apply m_heads; exact A|]. split; [apply m_construct; exact B|]. intros h' m' ct' X Y. apply m_construct. apply (C h' m' ct'); [apply m_heads; exact X|apply m_construct; exact Y].
Qed.
Lemma half_merge : merge_rules f -> merge_rules g.
Proof.
  intros (A & B & C & D & F & G). split; [|split; [|split; [|split; [|split]]]].
  - intros first u n En X. apply m_entry in En. apply m_branches in X. exact (A _ _ _ En X).
  - intros h1 h2 m X Y. apply m_declares in X, Y. exact (B _ _ _ X Y).
  - intros h m X Y. apply m_declares in X. apply m_reach in Y. rewrite m_dominates. exact (C _ _ X Y).
  - intros u X. apply (D u). clear D. revert X. generalize u at 2 4. intros w X. induction X as [x y X|x y z _ IH1 _ IH2]; [apply t_step; apply m_onward; exact X|eapply t_trans; eassumption].
  - intros u n v X. apply m_back in X. destruct (F _ _ _ X) as (m & ct & Y). exists m, ct. apply m_heads. exact Y.
  - intros h m ct X Y. apply m_heads in X. apply m_reach in Y. destruct (G _ _ _ X Y) as (u & n & K & L). exists u, (other u n). split; [apply m_back; rewrite other_twice; exact K|].
    intros u' n' Z. apply m_back in Z. destruct (L _ _ Z) as [-> Q]. split; [reflexivity|]. rewrite <- Q, other_twice. reflexivity.
Qed.
Lemma half_continue : continue_rules f -> continue_rules g.
Proof. intros A h m ct u n X Y. apply m_heads in X. apply m_back in Y. rewrite !m_dominates, m_post. exact (A _ _ _ _ _ X Y). Qed.
Lemma half_construct : construct_rules f -> construct_rules g.
Proof.
  intros A h m X Y. apply m_declares in X. apply m_reach in Y. destruct (A h m X Y) as (B & C & D). split; [|split].
  - intros h' m' Z1 Z2 Z3 Z4. apply m_construct in Z1. apply m_declares in Z3. apply m_reach in Z4. apply m_construct. exact (B _ _ Z1 Z2 Z3 Z4).
  - intros u n v Z1 Z2 Z3 Z4. apply m_branches in Z1. apply m_reach in Z2. rewrite m_construct in Z3. apply m_construct in Z4. exact (C _ _ _ Z1 Z2 Z3 Z4).
  - intros u n v Z1 Z2 Z3. apply m_branches in Z1. apply m_construct in Z2. rewrite m_construct in Z3. destruct (D _ _ _ Z1 Z2 Z3) as [K|(lh & lm & ct & K & L)]; [left; exact K|right]. exists lh, lm, ct. split; [apply m_innermost; exact K|exact L].
Qed.
Lemma half_obeys : obeys f -> obeys g.
Proof. intros (A & B & C). split; [exact (half_merge A)|]. split; [exact (half_continue B)|exact (half_construct C)]. Qed.
Lemma half_close : loops_close f -> loops_close g.
Proof. intros A h m ct u n X Y. apply m_heads in X. apply m_back in Y. rewrite m_dominates. exact (A _ _ _ _ _ X Y). Qed.
Lemma half_reached : merges_reached f -> merges_reached g.
Proof. intros A h m X Y. apply m_declares in X. apply m_reach in Y. apply m_reach. exact (A _ _ X Y). Qed.
End Obeys.

Theorem turned_obeys : forall E chosen (f g : FunctionDefinition E), mirror_of chosen f g -> (obeys g <-> obeys f)
  /\ (forall a b, dominates g a b <-> dominates f a b) /\ (forall a b, post_dominates g a b <-> post_dominates f a b).
Proof.
  intros E chosen f g M. split; [|split; [exact (m_dominates chosen f g M)|exact (m_post chosen f g M)]].
  split; [exact (half_obeys chosen g f (mirror_back chosen f g M))|exact (half_obeys chosen f g M)].
Qed.

Theorem turned_conditions : forall E chosen (f g : FunctionDefinition E), mirror_of chosen f g -> (loops_close g <-> loops_close f) /\ (merges_reached g <-> merges_reached f).
Proof.
  intros E chosen f g M. pose proof (mirror_back chosen f g M) as M'. split; split; [exact (half_close chosen g f M')|exact (half_close chosen f g M)|exact (half_reached chosen g f M')|exact (half_reached chosen f g M)].
Qed.
