(** A block cut in two in a function that obeys the rules of the standard, C121. *)
From Coq Require Import Relation_Operators.
From Verif Require Import Base Types Ops Groups ControlFlow Spec_Flow Spec_Structured Spec_Standard Spec_Returns Spec_Split Spec_Inlined Spec_Halves Proofs_Rewrite2 Proofs_Inlined Proofs_Inlined4 Proofs_Halves.

Section Dominators.
Context {E : Type} (f : FunctionDefinition E).
Lemma dominates_gets : forall a b, dominates f a b <-> forall t, gets_to f t b -> In a (map fst t ++ [b]).
Proof. intros a b. split; [intros D t (id & En & W); exact (D id t En W)|intros D id t En W; apply D; exists id; auto]. Qed.
Lemma first_arrival : forall j, reachable f j -> exists t, gets_to f t j /\ ~ In j (map fst t).
Proof.
  intros j (s & t & En & W). assert (K : exists t0, walk f s t0 (Some j) /\ ~ In j (map fst t0)).
  { clear En. revert s W. induction t as [|e t IH]; intros s W; apply walk_inv in W as [[Q1 Q2]|(d0 & dst & t1 & Q & G & R)]; try discriminate.
    - injection Q2 as <-. exists []. split; [constructor|intros []].
    - injection Q as -> <-. destruct dst as [x|]; [|destruct R as [_ R]; discriminate R]. destruct (N.eq_dec s j) as [->|Ns]; [exists []; split; [constructor|intros []]|].
      destruct (IH x R) as (t0 & W0 & N0). exists ((s, d0) :: t0). split; [exact (walk_goes f _ _ (Some x) _ _ G W0)|]. intros [Q|I]; [exact (Ns Q)|exact (N0 I)]. }
  destruct K as (t0 & W0 & N0). exists t0. split; [exists s; auto|exact N0].
Qed.
Lemma visited : forall a t b, gets_to f t b -> In a (map fst t) -> exists t1 t2 d, gets_to f t1 a /\ t = t1 ++ (a, d) :: t2.
Proof.
  intros a t b (s & En & W) I. cut (exists t1 t2 d, walk f s t1 (Some a) /\ t = t1 ++ (a, d) :: t2); [intros (t1 & t2 & d & X & Q); exists t1, t2, d; split; [exists s; auto|exact Q]|].
  clear En. revert s W I. induction t as [|e t IH]; intros s W I; [destruct I|]. apply walk_inv in W as [[Q1 Q2]|(d0 & dst & t1 & Q & G & R)]; [discriminate|]. injection Q as -> <-.
  destruct (N.eq_dec s a) as [->|Ns]; [exists [], t, d0; split; [constructor|reflexivity]|]. destruct I as [I|I]; [destruct (Ns I)|]. destruct dst as [x|]; [|destruct R as [_ R]; discriminate R].
  destruct (IH x R I) as (t1 & t2 & d & X & ->). exists ((s, d0) :: t1), t2, d. split; [exact (walk_goes f _ _ (Some x) _ _ G X)|reflexivity].
Qed.
Lemma dominates_both : forall a b, dominates f a b -> dominates f b a -> reachable f b -> a = b.
Proof.
  intros a b D1 D2 R. destruct (N.eq_dec a b) as [Q|Nq]; [exact Q|exfalso]. destruct (first_arrival b R) as (t & G & Nt). rewrite dominates_gets in D1, D2. specialize (D1 t G). apply in_app_or in D1 as [I|[I|[]]]; [|congruence].
  destruct (visited a t b G I) as (t1 & t2 & d & G1 & ->). specialize (D2 t1 G1). apply in_app_or in D2 as [J|[J|[]]]; [|congruence]. apply Nt. rewrite map_app. apply in_or_app. auto.
Qed.
End Dominators.

Section Halves.
Context {E : Type} (f g : FunctionDefinition E) (cut : BasicBlock E) (n : BlockId) (H : cut_at f g cut n) (U : NoDup (labels f)) (NL : ~ starts_loop cut).
Notation c := (label_of cut).
Notation hv := (with_halves c n).
Definition up (u : BlockId) : BlockId := if N.eqb u c then n else u.
Definition down (u : BlockId) : BlockId := if N.eqb u n then c else u.

Lemma h_fresh : fresh f n. Proof. destruct H as (? & ? & ? & ? & _ & _ & _ & Fr). exact Fr. Qed.
Lemma h_cut : has_block f c cut. Proof. destruct H as (? & ? & ? & ? & Bf & _). split; [rewrite Bf; apply in_elt|reflexivity]. Qed.
Lemma c_n : c <> n. Proof. exact (proj1 (proj1 (Forall_forall _ _) h_fresh cut (proj1 h_cut))). Qed.
Lemma up_c : up c = n. Proof. unfold up. rewrite N.eqb_refl. reflexivity. Qed.
Lemma up_other : forall u, u <> c -> up u = u. Proof. intros u X. unfold up. apply N.eqb_neq in X. rewrite X. reflexivity. Qed.
Lemma down_n : down n = c. Proof. unfold down. rewrite N.eqb_refl. reflexivity. Qed.
Lemma down_other : forall u, u <> n -> down u = u. Proof. intros u X. unfold down. apply N.eqb_neq in X. rewrite X. reflexivity. Qed.
Lemma down_up : forall u, u <> n -> down (up u) = u.
Proof. intros u X. destruct (N.eq_dec u c) as [->|Y]; [rewrite up_c; exact down_n|rewrite (up_other u Y); exact (down_other u X)]. Qed.
Lemma up_not_c : forall u, up u <> c.
Proof. intros u. destruct (N.eq_dec u c) as [->|Y]; [rewrite up_c; intros Q; exact (c_n (eq_sym Q))|rewrite (up_other u Y); exact Y]. Qed.
Lemma up_same : forall u v, u <> n -> v <> n -> up u = up v -> u = v.
Proof. intros u v X Y Q. rewrite <- (down_up u X), <- (down_up v Y), Q. reflexivity. Qed.

(* blocks *)
Lemma block_not_n : forall u b, has_block f u b -> u <> n. Proof. intros u b [I <-]. exact (proj1 (proj1 (Forall_forall _ _) h_fresh b I)). Qed.
Lemma target_not_n : forall u b v, has_block f u b -> In v (branch_targets b) -> v <> n.
Proof. intros u b v [I _] J ->. exact (proj1 (proj2 (proj1 (Forall_forall _ _) h_fresh b I)) J). Qed.
Lemma merge_not_n : forall u b v, has_block f u b -> In v (merge_targets b) -> v <> n.
Proof. intros u b v [I _] J ->. exact (proj2 (proj2 (proj1 (Forall_forall _ _) h_fresh b I)) J). Qed.
Lemma g_blocks : forall u b, has_block g u b -> u = c /\ BasicBlock_merge b = None /\ branch_targets b = [n]
  \/ exists b0, has_block f (down u) b0 /\ u = up (down u) /\ BasicBlock_merge b = BasicBlock_merge b0 /\ BasicBlock_branch b = BasicBlock_branch b0.
Proof.
  intros u b B. pose proof h_cut as HC. destruct H as (before & after & code1 & code2 & Bf & Code & Bg & Fr). destruct (g_to_f f g cut n before after code1 code2 Bf Bg U u b B) as [[-> ->]|[[-> ->]|[X Y]]].
  - left. auto.
  - right. exists cut. rewrite down_n, up_c. auto.
  - right. exists b. rewrite (down_other u) by exact (block_not_n u b X). rewrite (up_other u Y). auto.
Qed.
Lemma f_blocks : forall u b, has_block f u b -> exists b', has_block g (up u) b' /\ BasicBlock_merge b' = BasicBlock_merge b /\ BasicBlock_branch b' = BasicBlock_branch b.
Proof.
  intros u b B. destruct H as (before & after & code1 & code2 & Bf & Code & Bg & Fr). destruct (N.eq_dec u c) as [->|Y].
  - rewrite (f_only f cut before after Bf U b B), up_c. eexists. split; [exact (g_second g cut n before after code1 code2 Bg)|]. auto.
  - exists b. rewrite (up_other u Y). split; [exact (f_to_g f g cut n before after code1 code2 Bf Bg u b B Y)|auto].
Qed.
Lemma g_branches : forall u k v, branches g u k v -> u = c /\ v = n \/ exists u0, u = up u0 /\ u0 <> n /\ v <> n /\ branches f u0 k v.
Proof.
  intros u k v (b & B & Q). destruct (g_blocks u b B) as [(-> & _ & T)|(b0 & B0 & Q0 & _ & R)].
  - left. rewrite T in Q. destruct k as [|[|k]]; cbn in Q; [|discriminate..]. injection Q as <-. auto.
  - right. assert (T : branch_targets b = branch_targets b0) by (unfold branch_targets; rewrite R; reflexivity). rewrite T in Q. exists (down u). split; [exact Q0|]. split; [exact (block_not_n _ _ B0)|].
    split; [exact (target_not_n _ _ _ B0 (nth_error_In _ _ Q))|]. exists b0. auto.
Qed.
Lemma f_branches : forall u k v, branches f u k v -> branches g (up u) k v.
Proof. intros u k v (b & B & Q). destruct (f_blocks u b B) as (b' & B' & _ & R). exists b'. split; [exact B'|]. unfold branch_targets in *. rewrite R. exact Q. Qed.
Lemma g_declares : forall h m, declares g h m -> exists h0, h = up h0 /\ h0 <> n /\ m <> n /\ declares f h0 m.
Proof.
  intros h m (b & B & I). unfold merge_targets in I. destruct (g_blocks h b B) as [(_ & Q & _)|(b0 & B0 & Q0 & R & _)]; [rewrite Q in I; destruct I|]. rewrite R in I.
  exists (down h). split; [exact Q0|]. split; [exact (block_not_n _ _ B0)|]. split; [exact (merge_not_n _ _ _ B0 I)|]. exists b0. auto.
Qed.
Lemma f_heads_not : forall m ct, ~ heads_loop f c m ct.
Proof. intros m ct (b & hint & B & Q). destruct H as (before & after & code1 & code2 & Bf & _). rewrite (f_only f cut before after Bf U b B) in Q. apply NL. eexists. exact Q. Qed.
Lemma heads_in : forall h m ct, heads_loop f h m ct -> h <> n /\ h <> c.
Proof. intros h m ct X. split; [destruct X as (b & hint & B & _); exact (block_not_n _ _ B)|intros ->; exact (f_heads_not _ _ X)]. Qed.
Lemma gets_not_n : forall t j, gets_to f t j -> j <> n.
Proof. intros t j G. apply gets_used in G as (b & I & Q). pose proof (proj1 (Forall_forall _ _) h_fresh b I) as (X & Y & Z). intros ->. destruct Q as [Q|[Q|Q]]; [exact (X (eq_sym Q))|exact (Y Q)|exact (Z Q)]. Qed.
Lemma reach_not_n : forall j, reachable f j -> j <> n.
Proof. intros j R. apply reach_gets in R as [t R]. exact (gets_not_n t j R). Qed.
Lemma dom_not_n : forall a u, dominates f a u -> reachable f u -> a <> n.
Proof.
  intros a u D R. apply reach_gets in R as [t R]. apply dominates_gets with (t := t) in D; [|exact R]. apply in_app_or in D as [I|[<-|[]]]; [|exact (gets_not_n t _ R)].
  destruct (visited f a t u R I) as (t1 & _ & _ & G & _). exact (gets_not_n t1 a G).
Qed.
Lemma h_heads : forall h m ct, heads_loop g h m ct <-> heads_loop f h m ct.
Proof.
  intros h m ct. split.
  - intros (b & hint & B & Q). destruct (g_blocks h b B) as [(_ & X & _)|(b0 & B0 & Q0 & R & _)]; [congruence|]. assert (X : heads_loop f (down h) m ct) by (exists b0, hint; split; [exact B0|congruence]).
    rewrite Q0. rewrite (up_other (down h)); [exact X|exact (proj2 (heads_in _ _ _ X))].
  - intros X. pose proof (heads_in _ _ _ X) as [_ X2]. destruct X as (b & hint & B & Q). destruct (f_blocks h b B) as (b' & B' & R & _). rewrite (up_other h X2) in B'. exists b', hint. split; [exact B'|congruence].
Qed.

(* executions *)
Lemma hv_in : forall a t, a <> n -> (In a (map fst (hv t)) <-> In a (map fst t)).
Proof.
  intros a t X. unfold with_halves. induction t as [|[id d] t IH]; [reflexivity|]. cbn [flat_map map fst snd]. destruct (N.eqb_spec id c) as [->|Y]; cbn [map fst app In]; rewrite IH; intuition congruence.
Qed.
Lemma hv_n : forall t, ~ In n (map fst t) -> (In n (map fst (hv t)) <-> In c (map fst t)).
Proof.
  intros t. unfold with_halves. induction t as [|[id d] t IH]; intros X; [reflexivity|]. cbn [map fst In] in X. cbn [flat_map map fst snd]. destruct (N.eqb_spec id c) as [->|Y]; cbn [map fst app In]; [tauto|]. rewrite IH by tauto. tauto.
Qed.
Lemma path_not_n : forall t j, gets_to f t j -> ~ In n (map fst t).
Proof. intros t j G I. destruct (visited f n t j G I) as (t1 & _ & _ & K & _). exact (gets_not_n t1 n K eq_refl). Qed.
Lemma g_gets : forall t' j, gets_to g t' j -> (exists t, gets_to f t j /\ t' = hv t) \/ j = n /\ exists t, gets_to f t c /\ t' = hv t ++ [(c, None)].
Proof. intros t' j G. apply (halves_on_the_way _ _ _ _ _ H U). exact G. Qed.
Lemma f_gets : forall t j, gets_to f t j -> gets_to g (hv t) j.
Proof. intros t j G. apply (halves_on_the_way _ _ _ _ _ H U). eauto. Qed.
Lemma f_gets_n : forall t, gets_to f t c -> gets_to g (hv t ++ [(c, None)]) n.
Proof. intros t G. apply (halves_on_the_way _ _ _ _ _ H U). eauto. Qed.
Lemma d_same : forall a b, a <> n -> b <> n -> (dominates g a b <-> dominates f a b).
Proof.
  intros a b X Y. rewrite !dominates_gets. split; intros D t G.
  - specialize (D _ (f_gets t b G)). apply in_app_or in D as [I|I]; apply in_or_app; [left; exact (proj1 (hv_in a _ X) I)|right; exact I].
  - apply g_gets in G as [(t0 & G & ->)|(Q & _)]; [|destruct (Y Q)]. specialize (D _ G). apply in_app_or in D as [I|I]; apply in_or_app; [left; exact (proj2 (hv_in a _ X) I)|right; exact I].
Qed.
Lemma d_to_n : forall a, a <> n -> (dominates g a n <-> dominates f a c).
Proof.
  intros a X. rewrite !dominates_gets. split; intros D t G.
  - specialize (D _ (f_gets_n t G)). rewrite map_app in D. cbn in D. apply in_app_or in D as [I|[I|[]]]; [|destruct (X (eq_sym I))]. apply in_app_or in I as [I|I]; apply in_or_app; [left; exact (proj1 (hv_in a _ X) I)|right; exact I].
  - apply g_gets in G as [(t0 & G & ->)|(_ & t0 & G & ->)]; [destruct (gets_not_n _ _ G eq_refl)|]. rewrite map_app. cbn. specialize (D _ G). apply in_or_app. left. apply in_app_or in D as [I|I]; apply in_or_app; [left; exact (proj2 (hv_in a _ X) I)|right; exact I].
Qed.
Lemma d_from_n : forall b, b <> n -> b <> c -> (dominates g n b <-> dominates f c b).
Proof.
  intros b X Y. rewrite !dominates_gets. split; intros D t G.
  - specialize (D _ (f_gets t b G)). apply in_app_or in D as [I|[I|[]]]; [|destruct (X I)]. apply (hv_n t (path_not_n _ _ G)) in I. apply in_or_app. auto.
  - apply g_gets in G as [(t0 & G & ->)|(Q & _)]; [|destruct (X Q)]. specialize (D _ G). apply in_app_or in D as [I|[I|[]]]; [|destruct (Y I)]. apply in_or_app. left. apply hv_n; [exact (path_not_n _ _ G)|exact I].
Qed.
Lemma d_n_c : dominates g n c -> ~ reachable f c.
Proof.
  intros D R. destruct (first_arrival f c R) as (t & G & Nc). rewrite dominates_gets in D. specialize (D _ (f_gets t c G)). apply in_app_or in D as [I|[I|[]]]; [|exact (c_n I)].
  apply hv_n in I; [exact (Nc I)|exact (path_not_n _ _ G)].
Qed.
Lemma d_refl : forall (d : FunctionDefinition E) a, dominates d a a. Proof. intros d a. apply dominates_gets. intros t _. apply in_or_app. right. left. reflexivity. Qed.
Lemma d_up : forall a u, a <> n -> u <> n -> (dominates g a (up u) <-> dominates f a u).
Proof. intros a u X Y. destruct (N.eq_dec u c) as [->|Z]; [rewrite up_c; exact (d_to_n a X)|rewrite (up_other u Z); exact (d_same a u X Y)]. Qed.
Lemma d_up_up : forall h u, h <> n -> u <> n -> (dominates g (up h) (up u) <-> dominates f h u).
Proof.
  intros h u X Y. destruct (N.eq_dec h c) as [->|Z]; [|rewrite (up_other h Z); exact (d_up h u X Y)]. rewrite up_c. destruct (N.eq_dec u c) as [->|Z]; [rewrite up_c; split; intros _; apply d_refl|]. rewrite (up_other u Z). exact (d_from_n u Y Z).
Qed.
Lemma r_same : forall j, j <> n -> (reachable g j <-> reachable f j).
Proof. intros j X. rewrite (halves_reached _ _ _ _ _ H U). split; [intros [R|[Q _]]; [exact R|destruct (X Q)]|auto]. Qed.
Lemma r_up : forall u, u <> n -> (reachable g (up u) <-> reachable f u).
Proof.
  intros u X. destruct (N.eq_dec u c) as [->|Z]; [|rewrite (up_other u Z); exact (r_same u X)]. rewrite up_c, (halves_reached _ _ _ _ _ H U). split; [intros [R|[_ R]]; [destruct (reach_not_n n R eq_refl)|exact R]|auto].
Qed.
Lemma h_back : forall u k v, back_edge g u k v -> exists u0, u = up u0 /\ u0 <> n /\ v <> n /\ back_edge f u0 k v.
Proof.
  intros u k v (B & R & D). apply g_branches in B as [[-> ->]|(u0 & -> & X & Y & B)].
  - destruct (d_n_c D). apply r_same in R; [exact R|exact c_n].
  - exists u0. split; [reflexivity|]. split; [exact X|]. split; [exact Y|]. split; [exact B|]. split; [apply r_up; assumption|apply (d_up v u0); assumption].
Qed.
Lemma h_onward : forall u v, Spec_Standard.onward g u v -> u = c /\ v = n \/ Spec_Standard.onward f (down u) (down v).
Proof.
  intros u v (k & B & R & D). apply g_branches in B as [X|(u0 & -> & X & Y & B)]; [left; exact X|right]. rewrite (down_up u0 X), (down_other v Y). exists k. split; [exact B|]. split; [apply r_up; assumption|]. intros K. apply D. apply d_up; assumption.
Qed.
Lemma h_cycle : forall u v, clos_trans BlockId (Spec_Standard.onward g) u v -> u = c /\ v = n \/ clos_trans BlockId (Spec_Standard.onward f) (down u) (down v).
Proof.
  intros u v T. induction T as [u v X|u w v _ IH1 _ IH2].
  - apply h_onward in X as [X|X]; [left; exact X|right; apply t_step; exact X].
  - destruct IH1 as [[-> ->]|IH1], IH2 as [[Q ->]|IH2].
    + destruct (c_n (eq_sym Q)).
    + right. rewrite down_n in IH2. rewrite (down_other c c_n). exact IH2.
    + right. subst w. rewrite down_n. rewrite (down_other c c_n) in IH1. exact IH1.
    + right. eapply t_trans; eassumption.
Qed.
Lemma h_merge : merge_rules f -> merge_rules g.
Proof.
  intros (A & B & C & D & F & G). split; [|split; [|split; [|split; [|split]]]].
  - intros first u k En X. assert (Enf : entry f first) by (destruct H as (before & after & code1 & code2 & Bf & _ & Bg & _); apply (entry_cut f g cut n before after code1 code2 Bf Bg); exact En).
    apply g_branches in X as [[_ ->]|(u0 & _ & _ & _ & X)]; [exact (entry_not_n f n h_fresh n Enf eq_refl)|exact (A _ _ _ Enf X)].
  - intros h1 h2 m X Y. apply g_declares in X as (a & -> & _ & _ & X). apply g_declares in Y as (b & -> & _ & _ & Y). f_equal. exact (B _ _ _ X Y).
  - intros h m X Y. apply g_declares in X as (a & -> & N1 & N2 & X). apply r_same in Y; [|exact N2]. destruct (C _ _ X Y) as [K L]. destruct (N.eq_dec a c) as [->|Z].
    + rewrite up_c. split; [apply d_from_n; [exact N2|intros Q; exact (L (eq_sym Q))|exact K]|intros Q; exact (N2 (eq_sym Q))].
    + rewrite (up_other a Z). split; [apply d_same; assumption|exact L].
  - intros u X. apply h_cycle in X as [[Q1 Q2]|X]; [apply c_n; congruence|exact (D _ X)].
  - intros u k v X. apply h_back in X as (u0 & _ & _ & _ & X). destruct (F _ _ _ X) as (m & ct & K). exists m, ct. apply h_heads. exact K.
  - intros h m ct X Y. apply h_heads in X. pose proof (heads_in _ _ _ X) as [Hn Hc]. apply r_same in Y; [|exact Hn]. destruct (G _ _ _ X Y) as (u & k & (K1 & K2 & K3) & L). pose proof (reach_not_n u K2) as Un. exists (up u), k. split.
    + split; [exact (f_branches _ _ _ K1)|]. split; [apply r_up; assumption|apply d_up; assumption].
    + intros u' k' Z. apply h_back in Z as (u0 & -> & _ & _ & Z). destruct (L _ _ Z) as [-> ->]. auto.
Qed.
Lemma h_continue : continue_rules f -> continue_rules g.
Proof.
  intros A h m ct u k X Y. apply h_heads in X. pose proof (heads_in _ _ _ X) as [Hn _]. apply h_back in Y as (u0 & -> & Un & _ & Y). destruct (A _ _ _ _ _ X Y) as (D1 & D2 & D3).
  pose proof (dom_not_n ct u0 D2 (proj1 (proj2 Y))) as Cn. split; [apply d_same; assumption|]. split; [apply d_up; assumption|]. intros t' W.
  destruct H as (before & after & code1 & code2 & Bf & _ & Bg & Fr). destruct (proj1 (walk_cut f g cut n before after code1 code2 Bf Bg Fr U _ _ _ W) Cn) as [(t & -> & W0 & _)|(t & _ & Q & _)]; [|discriminate Q].
  specialize (D3 t W0). change (expand cut n t) with (hv t). destruct (N.eq_dec u0 c) as [->|Z]; [rewrite up_c; apply hv_n; [|exact D3]|rewrite (up_other u0 Z); exact (proj2 (hv_in u0 _ Un) D3)].
  intros I. apply in_map_iff in I as ([i d] & Q & I). exact (walk_not_n f n Fr _ _ _ W0 i d I Q).
Qed.
Lemma h_construct : forall h m b, h <> n -> m <> n -> (construct g (up h) m b <-> construct f h m (down b) /\ ~ (h = c /\ b = c)).
Proof.
  intros h m b X Y. unfold construct. destruct (N.eq_dec b n) as [->|Bn].
  - rewrite down_n. pose proof (r_up c c_n) as R1. pose proof (d_up_up h c X c_n) as R2. pose proof (d_up m c Y c_n) as R3. rewrite up_c in R1, R2, R3. rewrite R1, R2, R3. pose proof c_n. intuition congruence.
  - rewrite (down_other b Bn). rewrite r_same, (d_same m b) by assumption. destruct (N.eq_dec h c) as [->|Hc].
    + rewrite up_c. destruct (N.eq_dec b c) as [->|Bc]; [|rewrite d_from_n by assumption; tauto]. split; [|tauto]. intros (R & D & _). destruct (d_n_c D R).
    + rewrite (up_other h Hc), d_same by assumption. tauto.
Qed.
Lemma h_constructs : merge_rules f -> construct_rules f -> construct_rules g.
Proof.
  intros (_ & _ & C & _ & F & _) A h' m X Y. apply g_declares in X as (h & -> & Hn & Mn & X). apply r_up in Y; [|exact Hn]. destruct (A h m X Y) as (K1 & K2 & K3). split; [|split].
  - intros h2 m2 Z1 Z2 Z3 Z4. apply g_declares in Z3 as (a & -> & An & M2 & Z3). apply h_construct in Z1 as [Z1 _]; try assumption. rewrite (down_up a An) in Z1. apply r_same in Z4; [|exact M2].
    assert (Q : a <> h) by (intros ->; exact (Z2 eq_refl)). apply h_construct; try assumption. rewrite (down_other m2 M2). split; [exact (K1 a m2 Z1 Q Z3 Z4)|]. intros [-> ->].
    destruct (C _ _ Z3 Z4) as [D1 D2]. destruct Z1 as (_ & D3 & _). exact (D2 (dominates_both f a c D1 D3 Z4)).
  - intros u k v Z1 Z2 Z3 Z4. apply h_construct in Z4 as [Z4 Z5]; try assumption. rewrite h_construct in Z3 by assumption. apply g_branches in Z1 as [[-> ->]|(u0 & -> & Un & Vn & Z1)].
    + rewrite down_n in Z4. rewrite (down_other c c_n) in Z3. destruct (N.eq_dec h c) as [->|Hc]; [symmetry; exact up_c|]. destruct Z3. split; [exact Z4|tauto].
    + rewrite (down_up u0 Un) in Z3. rewrite (down_other v Vn) in Z4. apply r_up in Z2; [|exact Un]. assert (Q : v = h) by (apply (K2 u0 k v Z1 Z2); [|exact Z4]; intros K; apply Z3; split; [exact K|]; intros [_ Q]; exact (up_not_c _ Q)).
      subst v. symmetry. apply up_other. intros ->. apply Z5. auto.
  - intros u k v Z1 Z2 Z3. apply h_construct in Z2 as [Z2 Z4]; try assumption. rewrite h_construct in Z3 by assumption. apply g_branches in Z1 as [[-> ->]|(u0 & -> & Un & Vn & Z1)].
    + rewrite (down_other c c_n) in Z2. rewrite down_n in Z3. destruct Z3. split; [exact Z2|]. intros [_ Q]. exact (c_n (eq_sym Q)).
    + rewrite (down_up u0 Un) in Z2. rewrite (down_other v Vn) in Z3. assert (NB : ~ (h = c /\ v = c)).
      { intros [-> ->]. destruct Z2 as (R & D & _). destruct (F u0 k c (conj Z1 (conj R D))) as (m' & ct' & L). exact (f_heads_not _ _ L). }
      destruct (K3 u0 k v Z1 Z2 ltac:(tauto)) as [L|(lh & lm & ct & (L1 & L2 & L3) & L4)]; [left; exact L|right]. exists lh, lm, ct. split; [|exact L4].
      assert (HC : forall a b d x, heads_loop f a b d -> x <> n -> (construct g a b (up x) <-> construct f a b x)).
      { intros a b d x L Xn. pose proof (heads_in _ _ _ L) as [La Lc]. assert (Bn : b <> n) by (destruct L as (bb & hint & BB & Q); apply (merge_not_n a bb b BB); unfold merge_targets; rewrite Q; left; reflexivity).
        rewrite <- (up_other a Lc) at 1. rewrite h_construct by assumption. rewrite (down_up x Xn). tauto. }
      split; [apply h_heads; exact L1|]. split; [apply (HC _ _ _ u0 L1 Un); exact L2|]. intros a b d M1 M2. apply h_heads in M1. apply (HC _ _ _ u0 M1 Un) in M2. pose proof (heads_in _ _ _ L1) as [Ln Lc].
      rewrite <- (up_other lh Lc). apply (HC _ _ _ lh M1 Ln). exact (L3 _ _ _ M1 M2).
Qed.
End Halves.

Theorem halves_obeys : forall E (f g : FunctionDefinition E) cut n, cut_at f g cut n -> NoDup (labels f) -> ~ starts_loop cut -> (obeys f -> obeys g) /\ (loops_close f -> loops_close g) /\ (merges_reached f -> merges_reached g).
Proof.
  intros E f g cut n H U NL. split; [|split].
  - intros (A & B & C). split; [exact (h_merge f g cut n H U NL A)|]. split; [exact (h_continue f g cut n H U NL B)|exact (h_constructs f g cut n H U NL A C)].
  - intros A h m ct u k X Y Z. apply (h_heads f g cut n H U NL) in X. apply (h_back f g cut n H U) in Y as (u0 & -> & Un & _ & Y). apply (A _ _ _ _ _ X Y). apply (d_up f g cut n H U m u0); [|exact Un|exact Z].
    destruct X as (b & hint & B & Q). apply (merge_not_n f g cut n H h b m B). unfold merge_targets. rewrite Q. left. reflexivity.
  - intros A h m X Y. apply (g_declares f g cut n H U) in X as (h0 & -> & Hn & Mn & X). apply (r_up f g cut n H U h0 Hn) in Y. apply (r_same f g cut n H U m Mn). exact (A _ _ X Y).
Qed.

Theorem halves_header : forall E (f g : FunctionDefinition E) cut n, cut_at f g cut n -> NoDup (labels f) -> starts_loop cut -> reachable f (label_of cut) -> obeys f -> ~ obeys g.
Proof.
  intros E f g cut n H U [[m ct hint] SL] R ((_ & _ & _ & _ & _ & G) & _) ((_ & _ & _ & _ & F & _) & _).
  destruct (G (label_of cut) m ct) as (u & k & (K1 & K2 & K3) & _); [exists cut, hint; split; [exact (h_cut f g cut n H)|exact SL]|exact R|].
  pose proof (reach_not_n f g cut n H u K2) as Un. pose proof (c_n f g cut n H) as Cn.
  destruct (F (up cut n u) k (label_of cut)) as (m' & ct' & b & hint' & B & Q).
  { split; [exact (f_branches f g cut n H U _ _ _ K1)|]. split; [apply (r_up f g cut n H U); assumption|apply (d_up f g cut n H U); assumption]. }
  destruct (g_blocks f g cut n H U _ _ B) as [(_ & X & _)|(b0 & _ & X & _)]; [congruence|]. exact (up_not_c f g cut n H _ (eq_sym X)).
Qed.
