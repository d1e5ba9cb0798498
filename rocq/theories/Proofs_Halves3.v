(** Two blocks joined in a function that obeys the rules of the standard, C121: the converse of Proofs_Halves2. *)
From Coq Require Import Relation_Operators.
From Verif Require Import Base Types Ops Groups ControlFlow Spec_Flow Spec_Structured Spec_Standard Spec_Returns Spec_Split Spec_Inlined Spec_Halves Proofs_Rewrite2 Proofs_Inlined Proofs_Inlined4 Proofs_Halves Proofs_Halves2.

Section Joined.
Context {E : Type} (f g : FunctionDefinition E) (cut : BasicBlock E) (n : BlockId) (H : cut_at f g cut n) (U : NoDup (labels f)) (NL : ~ starts_loop cut).
Notation c := (label_of cut).
Notation upn := (up cut n).
Notation hv := (with_halves c n).

Lemma reach_branch : forall u k v, reachable f u -> branches f u k v -> reachable f v.
Proof.
  intros u k v (id & t & En & W) (b & B & Q). destruct (BasicBlock_branch b) as [op|op|op] eqn:R; unfold branch_targets in Q; rewrite R in Q; cbn in Q.
  all: try (destruct k as [|[|[|k]]]; cbn in Q; try discriminate Q; injection Q as <-).
  all: exists id; eexists; (split; [exact En|]); apply (walk_more f _ _ _ W).
  all: first [eapply walk_branch; [exact B|exact R|constructor]|eapply walk_true; [exact B|exact R|constructor]|eapply walk_false; [exact B|exact R|constructor]].
Qed.
Lemma f_declares : forall h m, declares f h m -> h <> n /\ m <> n /\ declares g (upn h) m.
Proof.
  intros h m (b & B & I). split; [exact (block_not_n f g cut n H h b B)|]. split; [exact (merge_not_n f g cut n H h b m B I)|]. destruct (f_blocks f g cut n H U h b B) as (b' & B' & R & _). exists b'. split; [exact B'|]. unfold merge_targets in *. rewrite R. exact I.
Qed.
Lemma f_target : forall u k v, branches f u k v -> u <> n /\ v <> n.
Proof. intros u k v (b & B & Q). split; [exact (block_not_n f g cut n H u b B)|exact (target_not_n f g cut n H u b v B (nth_error_In _ _ Q))]. Qed.
Lemma f_back : forall u k v, back_edge f u k v -> u <> n /\ v <> n /\ back_edge g (upn u) k v.
Proof.
  intros u k v (B & R & D). destruct (f_target u k v B) as [X Y]. split; [exact X|]. split; [exact Y|]. split; [exact (f_branches f g cut n H U u k v B)|]. split; [apply (r_up f g cut n H U); assumption|apply (d_up f g cut n H U); assumption].
Qed.
Lemma f_onward : forall u v, Spec_Standard.onward f u v -> clos_trans BlockId (Spec_Standard.onward g) (upn u) (upn v).
Proof.
  intros u v (k & B & R & D). destruct (f_target u k v B) as [X Y]. pose proof (reach_branch u k v R B) as Rv. assert (S1 : Spec_Standard.onward g (upn u) v).
  { exists k. split; [exact (f_branches f g cut n H U u k v B)|]. split; [apply (r_up f g cut n H U); assumption|]. intros K. apply D. apply (d_up f g cut n H U) in K; assumption. }
  destruct (N.eq_dec v c) as [->|Z]; [|rewrite (up_other cut n v Z); apply t_step; exact S1]. rewrite (up_c cut n). apply t_trans with c; apply t_step; [exact S1|].
  exists 0. split; [|split].
  - destruct H as (before & after & code1 & code2 & Bf & Code & Bg & Fr). eexists. split; [exact (g_first g cut n before after code1 code2 Bg)|reflexivity].
  - apply (r_same f g cut n H U); [exact Y|exact Rv].
  - intros K. exact (d_n_c f g cut n H U K Rv).
Qed.
Lemma f_cycle : forall u v, clos_trans BlockId (Spec_Standard.onward f) u v -> clos_trans BlockId (Spec_Standard.onward g) (upn u) (upn v).
Proof. intros u v T. induction T as [u v X|u w v _ IH1 _ IH2]; [exact (f_onward u v X)|eapply t_trans; eassumption]. Qed.
Lemma j_merge : merge_rules g -> merge_rules f.
Proof.
  intros (A & B & C & D & F & G). split; [|split; [|split; [|split; [|split]]]].
  - intros first u k En X. apply (f_branches f g cut n H U) in X. revert X. apply A. destruct H as (before & after & code1 & code2 & Bf & _ & Bg & _). apply (entry_cut f g cut n before after code1 code2 Bf Bg). exact En.
  - intros h1 h2 m X Y. apply f_declares in X as (X1 & _ & X). apply f_declares in Y as (Y1 & _ & Y). exact (up_same cut n h1 h2 X1 Y1 (B _ _ _ X Y)).
  - intros h m X Y. apply f_declares in X as (X1 & X2 & X). destruct (C _ _ X) as [K L]; [apply (r_same f g cut n H U); assumption|]. destruct (N.eq_dec h c) as [->|Z].
    + rewrite (up_c cut n) in K, L. destruct (N.eq_dec m c) as [->|Mc]; [destruct (d_n_c f g cut n H U K Y)|]. split; [apply (d_from_n f g cut n H U); assumption|congruence].
    + rewrite (up_other cut n h Z) in K, L. split; [apply (d_same f g cut n H U) in K; assumption|exact L].
  - intros u X. exact (D _ (f_cycle u u X)).
  - intros u k v X. apply f_back in X as (_ & _ & X). destruct (F _ _ _ X) as (m & ct & K). exists m, ct. apply (h_heads f g cut n H U NL). exact K.
  - intros h m ct X Y. pose proof (heads_in f g cut n H U NL _ _ _ X) as [Hn Hc]. destruct (G h m ct) as (u & k & K & L); [apply (h_heads f g cut n H U NL); exact X|apply (r_same f g cut n H U); assumption|].
    apply (h_back f g cut n H U) in K as (u0 & -> & Un & _ & K). exists u0, k. split; [exact K|]. intros u' k' Z. apply f_back in Z as (Z1 & _ & Z). destruct (L _ _ Z) as [Q ->]. split; [exact (up_same cut n u' u0 Z1 Un Q)|reflexivity].
Qed.
Lemma j_continue : (forall h m ct, heads_loop f h m ct -> ct <> n) -> continue_rules g -> continue_rules f.
Proof.
  intros CN A h m ct u k X Y. pose proof (CN _ _ _ X) as Cn. pose proof (heads_in f g cut n H U NL _ _ _ X) as [Hn _]. apply f_back in Y as (Un & _ & Y). destruct (A h m ct (upn u) k) as (D1 & D2 & D3); [apply (h_heads f g cut n H U NL); exact X|exact Y|].
  split; [apply (d_same f g cut n H U) in D1; assumption|]. split; [apply (d_up f g cut n H U) in D2; assumption|]. intros t W.
  destruct H as (before & after & code1 & code2 & Bf & _ & Bg & Fr). specialize (D3 (hv t) (cut_walk f g cut n before after code1 code2 Bf Bg U _ _ _ W)). destruct (N.eq_dec u c) as [->|Z].
  - rewrite (up_c cut n) in D3. apply (hv_n cut n) in D3; [exact D3|]. intros I. apply in_map_iff in I as ([i d] & Q & I). exact (walk_not_n f n Fr _ _ _ W i d I Q).
  - rewrite (up_other cut n u Z) in D3. apply (hv_in cut n u t Un) in D3. exact D3.
Qed.
Lemma j_constructs : construct_rules g -> construct_rules f.
Proof.
  intros A h m X Y. apply f_declares in X as (Hn & Mn & X). destruct (A (upn h) m X) as (K1 & K2 & K3); [apply (r_up f g cut n H U); assumption|].
  assert (HU : forall x, x <> n -> (construct g (upn h) m (upn x) <-> construct f h m x)).
  { intros x Xn. rewrite (h_construct f g cut n H U h m (upn x) Hn Mn), (down_up cut n x Xn). pose proof (up_not_c f g cut n H x). tauto. }
  assert (HS : forall x, x <> n -> (construct g (upn h) m x <-> construct f h m x /\ ~ (h = c /\ x = c))).
  { intros x Xn. rewrite (h_construct f g cut n H U h m x Hn Mn), (down_other cut n x Xn). reflexivity. }
  split; [|split].
  - intros h2 m2 Z1 Z2 Z3 Z4. apply f_declares in Z3 as (An & M2 & Z3). apply (HS m2 M2). apply (K1 (upn h2) m2); [apply HU; assumption|intros Q; exact (Z2 (up_same cut n h2 h An Hn Q))|exact Z3|apply (r_same f g cut n H U); assumption].
  - intros u k v Z1 Z2 Z3 Z4. destruct (f_target u k v Z1) as [Un Vn]. destruct (N.eq_dec v h) as [Q|Nq]; [exact Q|exfalso].
    assert (Q : v = upn h).
    { apply (K2 (upn u) k v); [exact (f_branches f g cut n H U u k v Z1)|apply (r_up f g cut n H U); assumption|intros K; apply Z3; apply (HU u Un); exact K|]. apply (HS v Vn). split; [exact Z4|]. intros [Q1 Q2]. apply Nq. congruence. }
    destruct (N.eq_dec h c) as [Hc|Hc]; [apply Vn; rewrite Q, Hc; exact (up_c cut n)|]. rewrite (up_other cut n h Hc) in Q. exact (Nq Q).
  - intros u k v Z1 Z2 Z3. destruct (f_target u k v Z1) as [Un Vn].
    destruct (K3 (upn u) k v) as [L|(lh & lm & ct & (L1 & L2 & L3) & L4)]; [exact (f_branches f g cut n H U u k v Z1)|apply HU; assumption|intros K; apply Z3; apply (HS v Vn); exact K|left; exact L|right].
    apply (h_heads f g cut n H U NL) in L1. exists lh, lm, ct. split; [|exact L4].
    assert (HC : forall a b d x, heads_loop f a b d -> x <> n -> (construct g a b (upn x) <-> construct f a b x) /\ (construct g a b x <-> construct f a b x)).
    { intros a b d x L Xn. pose proof (heads_in f g cut n H U NL _ _ _ L) as [La Lc]. assert (Bn : b <> n) by (destruct L as (bb & hint & BB & Q); apply (merge_not_n f g cut n H a bb b BB); unfold merge_targets; rewrite Q; left; reflexivity).
      pose proof (h_construct f g cut n H U a b (upn x) La Bn) as R1. pose proof (h_construct f g cut n H U a b x La Bn) as R2. rewrite (up_other cut n a Lc) in R1, R2. rewrite R1, R2, (down_up cut n x Xn), (down_other cut n x Xn). tauto. }
    pose proof (heads_in f g cut n H U NL _ _ _ L1) as [Ln Lc]. split; [exact L1|]. split; [exact (proj1 (proj1 (HC _ _ _ u L1 Un)) L2)|]. intros a b d M1 M2. apply (proj2 (HC _ _ _ lh M1 Ln)). apply (L3 a b d); [apply (h_heads f g cut n H U NL); exact M1|exact (proj2 (proj1 (HC _ _ _ u M1 Un)) M2)].
Qed.
End Joined.

Theorem joined_obeys : forall E (f g : FunctionDefinition E) cut n, cut_at f g cut n -> NoDup (labels f) -> ~ starts_loop cut ->
  ((forall h m ct, heads_loop f h m ct -> ct <> n) -> obeys g -> obeys f) /\ (loops_close g -> loops_close f) /\ (merges_reached g -> merges_reached f).
Proof.
  intros E f g cut n H U NL. split; [|split].
  - intros CN (A & B & C). split; [exact (j_merge f g cut n H U NL A)|]. split; [exact (j_continue f g cut n H U NL CN B)|exact (j_constructs f g cut n H U NL C)].
  - intros A h m ct u k X Y Z. apply (f_back f g cut n H U) in Y as (Un & _ & Y). apply (A h m ct (up cut n u) k); [apply (h_heads f g cut n H U NL); exact X|exact Y|]. apply (d_up f g cut n H U m u); [|exact Un|exact Z].
    destruct X as (b & hint & B & Q). apply (merge_not_n f g cut n H h b m B). unfold merge_targets. rewrite Q. left. reflexivity.
  - intros A h m X Y. apply (f_declares f g cut n H U) in X as (Hn & Mn & X). apply (r_same f g cut n H U m Mn). apply (A _ _ X). apply (r_up f g cut n H U h Hn). exact Y.
Qed.

Theorem halves_dominates : forall E (f g : FunctionDefinition E) cut n, cut_at f g cut n -> NoDup (labels f) ->
  (forall a b, a <> n -> b <> n -> (dominates g a b <-> dominates f a b)) /\ (forall a, a <> n -> (dominates g a n <-> dominates f a (label_of cut)))
  /\ (forall b, b <> n -> b <> label_of cut -> (dominates g n b <-> dominates f (label_of cut) b)) /\ (reachable f (label_of cut) -> ~ dominates g n (label_of cut)).
Proof.
  intros E f g cut n H U. split; [exact (d_same f g cut n H U)|]. split; [exact (d_to_n f g cut n H U)|]. split; [exact (d_from_n f g cut n H U)|]. intros R D. exact (d_n_c f g cut n H U D R).
Qed.
