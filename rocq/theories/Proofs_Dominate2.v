(** Dominators and post-dominators of a function from its chain (C127). *)
From Verif Require Import Base Types Ops Groups ControlFlow Spec_Flow Spec_Standard Spec_Dominate Proofs_Flow Proofs_Flow2 Proofs_Dominate.

Section Function.
Context {E : Type} (f : FunctionDefinition E) (depth : nat) (chain : ControlFlowChain) (R : find_control_flow depth f = Ok chain).

Lemma walk_at : forall t id b o u d, walk f id (t ++ (b, o) :: u) d -> walk f id t (Some b).
Proof.
  induction t as [|x t IH]; intros id b o u d W; cbn [app] in W.
  - inversion W; subst; constructor.
  - inversion W as [|? ? ? ? ? Q1 Q2|? ? ? ? ? HB BR W'|? ? ? ? ? HB BR W'|? ? ? ? ? HB BR W']; subst.
    + destruct t; discriminate.
    + eapply walk_branch; eauto.
    + eapply walk_true; eauto.
    + eapply walk_false; eauto.
Qed.

Lemma walk_step : forall id b, has_block f id b -> exists o d, walk f id [(id, o)] d.
Proof.
  intros id b HB. destruct (BasicBlock_branch b) as [op|op|op] eqn:BR.
  - eexists _, _. eapply walk_branch; [exact HB|exact BR|constructor].
  - eexists (Some true), _. eapply walk_true; [exact HB|exact BR|constructor].
  - eexists _, _. eapply walk_return; eauto.
Qed.

Lemma run_exec : forall first t d, entry f first -> walk f first t d -> exists e, exec chain t e.
Proof.
  intros first t d EN W. destruct d as [j|].
  - exists Interrupted. apply (runs_unfinished f depth chain R). exists first, j. auto.
  - exists Normal. apply (runs_complete f depth chain R). exists first. auto.
Qed.

Lemma exec_run : forall t e, exec chain t e -> exists first d, entry f first /\ walk f first t d.
Proof.
  intros t e X. destruct (runs_no_exit f depth chain R t e X) as [-> | ->].
  - apply (runs_complete f depth chain R) in X as (first & EN & W). eauto.
  - apply (runs_unfinished f depth chain R) in X as (first & j & EN & W). eauto.
Qed.

Lemma arrives_walk : forall avoid b, arrives avoid b chain = true <->
  exists first t, entry f first /\ walk f first t (Some b) /\ clean avoid t.
Proof.
  intros avoid b. rewrite arrives_iff. split.
  - intros (t & e & X & p & o & s & -> & C). apply exec_run in X as (first & d & EN & W).
    exists first, p. split; [exact EN|]. split; [exact (walk_at _ _ _ _ _ _ W)|exact C].
  - intros (first & t & EN & W & C).
    assert (HB : exists blk, has_block f b blk).
    { apply (chain_ids_exist f depth chain R). apply (chain_ids_reachable f depth chain R). exists first, t. auto. }
    destruct HB as (blk & HB). destruct (walk_step _ _ HB) as (o & d & S).
    destruct (run_exec _ _ _ EN (walk_app f _ _ _ W _ _ S)) as (e & X).
    exists (t ++ [(b, o)]), e. split; [exact X|]. exists t, o, []. auto.
Qed.

Lemma clean_not_in : forall a t, clean (N.eqb a) t <-> ~ In a (map fst t).
Proof.
  intros a t. unfold clean. rewrite Forall_forall. split.
  - intros H I. apply in_map_iff in I as (x & Q & I). specialize (H x I). cbn in H. rewrite Q, N.eqb_refl in H. discriminate.
  - intros H x I. apply N.eqb_neq. intros ->. apply H. apply in_map. exact I.
Qed.

Lemma dominators : forall a b, dominates f a b <-> a = b \/ arrives (N.eqb a) b chain = false.
Proof.
  intros a b. split.
  - intros D. destruct (N.eq_dec a b) as [Q|Q]; [left; exact Q|right]. apply not_true_is_false. intros H.
    apply arrives_walk in H as (first & t & EN & W & C). specialize (D first t EN W).
    apply in_app_or in D as [D|[D|[]]]; [|congruence]. exact (proj1 (clean_not_in a t) C D).
  - intros H first t EN W. apply in_or_app. destruct H as [->|H]; [right; left; reflexivity|left].
    destruct (in_dec N.eq_dec a (map fst t)) as [I|I]; [exact I|]. exfalso.
    assert (G : arrives (N.eqb a) b chain = true); [|congruence].
    apply arrives_walk. exists first, t. split; [exact EN|]. split; [exact W|]. apply clean_not_in. exact I.
Qed.

Lemma reached : forall b, reachable f b <-> arrives nothing_avoided b chain = true.
Proof.
  intros b. rewrite arrives_walk. split.
  - intros (first & t & EN & W). exists first, t. split; [exact EN|]. split; [exact W|]. apply clean_nothing.
  - intros (first & t & EN & W & _). exists first, t. auto.
Qed.

Lemma walk_from : forall t id b o u d, walk f id (t ++ (b, o) :: u) d -> walk f b ((b, o) :: u) d.
Proof.
  induction t as [|x t IH]; intros id b o u d W; cbn [app] in W.
  - inversion W; subst; exact W.
  - inversion W as [|? ? ? ? ? Q1 Q2|? ? ? ? ? HB BR W'|? ? ? ? ? HB BR W'|? ? ? ? ? HB BR W']; subst; eauto.
    destruct t; discriminate.
Qed.

Lemma post_dominators : forall a b, reachable f a -> (post_dominates f b a <-> leaves (N.eqb b) a chain Normal = false).
Proof.
  intros a b (first & t0 & EN & W0). split.
  - intros D. apply not_true_is_false. intros H.
    apply leaves_iff in H as (t & X & p & o & s & -> & C); [|discriminate].
    apply (runs_complete f depth chain R) in X as (id & _ & W). apply walk_from in W.
    specialize (D _ W). exact (proj1 (clean_not_in b _) C D).
  - intros H t W. destruct (in_dec N.eq_dec b (map fst t)) as [I|I]; [exact I|]. exfalso.
    assert (G : leaves (N.eqb b) a chain Normal = true); [|congruence].
    apply leaves_iff; [discriminate|]. exists (t0 ++ t). split.
    + apply (runs_complete f depth chain R). exists first. split; [exact EN|]. exact (walk_app f _ _ _ W0 _ _ W).
    + apply from_a_after. assert (Q : exists o s, t = (a, o) :: s) by (inversion W; subst; eauto).
      destruct Q as (o & s & ->). apply from_a_head. apply clean_not_in. exact I.
Qed.

Lemma only_inside_arrives : forall h b c, only_inside h b c -> arrives (N.eqb h) b c = false.
Proof.
  intros h b. induction c as [id|l IH|id lhs rhs hint w IHl IHr|id inner hint w IHi| |] using chain_ind'; cbn [only_inside arrives]; intros H; try reflexivity.
  - apply N.eqb_neq. exact H.
  - induction IH as [|c l H1 F IH]; [reflexivity|]. cbn [fold_right] in H. destruct H as [A B]. cbn [arrives_list].
    rewrite (H1 A), (IH B), andb_false_r. reflexivity.
  - destruct H as [A B]. apply N.eqb_neq in A. rewrite A. destruct B as [->|[B C]]; [rewrite N.eqb_refl; reflexivity|].
    rewrite (IHl B), (IHr C), andb_false_r. reflexivity.
  - destruct H as [A B]. apply N.eqb_neq in A. rewrite A. destruct B as [->|B]; [rewrite N.eqb_refl; reflexivity|].
    rewrite (IHi B), andb_false_r. reflexivity.
Qed.

Lemma header_dominates : forall h b, only_inside h b chain -> dominates f h b.
Proof. intros h b H. apply dominators. right. apply only_inside_arrives. exact H. Qed.
End Function.
