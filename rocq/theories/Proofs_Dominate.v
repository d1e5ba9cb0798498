(** Dominators and post-dominators of a function from its chain (C127). *)
From Verif Require Import Base Types Ops Groups ControlFlow Spec_Flow Spec_Standard Spec_Dominate Proofs_Flow Proofs_Flow2.

Section Chains.
Context (avoid : BlockId -> bool).

(* nothing that is avoided is executed *)
Definition clean (t : list event) : Prop := Forall (fun x => avoid (fst x) = false) t.

Lemma clean_app : forall t u, clean (t ++ u) <-> clean t /\ clean u.
Proof. intros. apply Forall_app. Qed.

Lemma clean_cons : forall x t, clean (x :: t) <-> avoid (fst x) = false /\ clean t.
Proof. intros x t. split; [intros H; inversion H; auto|intros [A B]; constructor; auto]. Qed.

Definition to_end (e : exit) : Prop := e <> Interrupted.

Lemma in_order_exec : forall l,
  Forall (fun c => forall e, ends avoid c e = true -> exists t, exec c t e /\ clean t) l ->
  forall e, in_order (ends avoid) l e = true -> exists t, exec_list l t e /\ clean t.
Proof.
  intros l F. induction F as [|c l H F IH]; intros e Q; cbn [in_order] in Q.
  - destruct e; try discriminate. exists []. split; constructor.
  - apply orb_true_iff in Q as [Q|Q]; apply andb_true_iff in Q as [Q R].
    + destruct (H _ Q) as (t & X & C). destruct (IH _ R) as (u & Y & D).
      exists (t ++ u). split; [constructor; assumption|]. apply clean_app. auto.
    + destruct (H _ R) as (t & X & C). exists t. split; [|exact C].
      apply exec_exit; [exact X|]. intros ->. discriminate.
Qed.

Lemma ends_exec : forall c e, ends avoid c e = true -> exists t, exec c t e /\ clean t.
Proof.
  induction c as [id|l IH|id lhs rhs h w IHl IHr|id inner h w IHi| |] using chain_ind'; intros e Q; cbn [ends] in Q.
  - apply andb_true_iff in Q as [Q R]. destruct e; try discriminate. exists [(id, None)]. split; [constructor|].
    apply clean_cons. split; [apply negb_true_iff; exact R|constructor].
  - destruct (in_order_exec l IH e Q) as (t & X & C). exists t. split; [constructor; exact X|exact C].
  - apply andb_true_iff in Q as [R Q]. apply negb_true_iff in R. apply orb_true_iff in Q as [Q|Q].
    + destruct (IHl _ Q) as (t & X & C). exists ((id, Some true) :: t). split; [constructor; exact X|]. apply clean_cons. auto.
    + destruct (IHr _ Q) as (t & X & C). exists ((id, Some false) :: t). split; [constructor; exact X|]. apply clean_cons. auto.
  - apply andb_true_iff in Q as [Q S]. apply andb_true_iff in Q as [Q R]. apply negb_true_iff in R.
    destruct e; try discriminate. destruct (IHi _ S) as (t & X & C). exists ((id, None) :: t).
    split; [apply exec_loop_leave; exact X|]. apply clean_cons. auto.
  - destruct e; try discriminate. exists []. split; constructor.
  - destruct e; try discriminate. exists []. split; constructor.
Qed.

Lemma exec_ends_both :
  (forall c t e, exec c t e -> to_end e -> clean t -> ends avoid c e = true) /\
  (forall l t e, exec_list l t e -> to_end e -> clean t -> in_order (ends avoid) l e = true).
Proof.
  apply exec_exec_list_ind; unfold to_end; intros; cbn [ends in_order is_normal andb];
    repeat match goal with H : clean (_ :: _) |- _ => apply clean_cons in H as [? ?]; cbn [fst] in *
                         | H : clean (_ ++ _) |- _ => apply clean_app in H as [? ?] end;
    repeat match goal with H : avoid _ = false |- _ => rewrite H; clear H end; cbn [negb andb orb];
    try congruence; try reflexivity; auto.
  - destruct taken; rewrite (H H0) by assumption; [reflexivity|apply orb_true_r].
  - rewrite H by (assumption || discriminate). reflexivity.
  - specialize (H0 H1 ltac:(assumption)). cbn [ends] in H0.
    destruct (avoid id); [rewrite andb_false_r in H0; discriminate H0|exact H0].
  - rewrite H by (assumption || discriminate). rewrite H0 by assumption. reflexivity.
  - rewrite H by assumption. destruct e; try contradiction; cbn; rewrite ?orb_true_r; reflexivity.
Qed.

Lemma ends_iff : forall c e, to_end e -> (ends avoid c e = true <-> exists t, exec c t e /\ clean t).
Proof.
  intros c e T. split; [apply ends_exec|]. intros (t & X & C). exact (proj1 exec_ends_both c t e X T C).
Qed.

(** ** Arriving *)
Section Arrive.
Context (b : BlockId).

Definition at_b (t : list event) : Prop := exists p o s, t = p ++ (b, o) :: s /\ clean p.

Lemma at_b_head : forall o t, at_b ((b, o) :: t).
Proof. intros o t. exists [], o, t. split; [reflexivity|constructor]. Qed.

Lemma at_b_app : forall t u, at_b t -> at_b (t ++ u).
Proof. intros t u (p & o & s & -> & C). exists p, o, (s ++ u). rewrite <- app_assoc. split; [reflexivity|exact C]. Qed.

Lemma at_b_after : forall t u, clean t -> at_b u -> at_b (t ++ u).
Proof. intros t u C (p & o & s & -> & D). exists (t ++ p), o, s. rewrite <- app_assoc. split; [reflexivity|apply clean_app; auto]. Qed.

Lemma at_b_cons : forall x t, avoid (fst x) = false -> at_b t -> at_b (x :: t).
Proof. intros x t H. apply (at_b_after [x] t). apply clean_cons. split; [exact H|constructor]. Qed.

Lemma at_b_cons_inv : forall x t, at_b (x :: t) -> fst x = b \/ avoid (fst x) = false /\ at_b t.
Proof.
  intros x t ([|y p] & o & s & Q & C).
  - injection Q as -> ->. left. reflexivity.
  - injection Q as -> ->. apply clean_cons in C as [A C]. right. split; [exact A|]. exists p, o, s. auto.
Qed.

Lemma at_b_app_inv : forall t u, at_b (t ++ u) -> at_b t \/ clean t /\ at_b u.
Proof.
  induction t as [|x t IH]; intros u H; [right; split; [constructor|exact H]|].
  cbn [app] in H. apply at_b_cons_inv in H as [H|[A H]].
  - left. destruct x as [i o]. cbn in H. subst i. apply at_b_head.
  - apply IH in H as [H|[C H]]; [left; apply at_b_cons; assumption|right; split; [apply clean_cons; auto|exact H]].
Qed.

Lemma at_b_nil : ~ at_b [].
Proof. intros (p & o & s & Q & _). destruct p; discriminate. Qed.

(* after some elements a list can be given up *)
Lemma exec_list_more : forall l, exists e, exec_list l [] e.
Proof. intros [|c l]; [exists Normal; constructor|]. exists Interrupted. apply exec_exit; [constructor|discriminate]. Qed.

Lemma arrives_exec : forall c, arrives avoid b c = true -> exists t e, exec c t e /\ at_b t.
Proof.
  induction c as [id|l IH|id lhs rhs h w IHl IHr|id inner h w IHi| |] using chain_ind'; intros Q; cbn [arrives] in Q; try discriminate.
  - apply N.eqb_eq in Q. subst id. exists [(b, None)], Normal. split; [constructor|apply at_b_head].
  - assert (X : exists t e, exec_list l t e /\ at_b t); [|destruct X as (t & e & X & A); exists t, e; split; [constructor; exact X|exact A]].
    induction IH as [|c l H F IH]; cbn [arrives_list] in Q; [discriminate|]. apply orb_true_iff in Q as [Q|Q].
    + destruct (H Q) as (t & e & X & A). destruct e; try (eexists t, _; split; [apply exec_exit; [exact X|discriminate]|exact A]).
      destruct (exec_list_more l) as (e & Y). exists (t ++ []), e. split; [constructor; assumption|apply at_b_app; exact A].
    + apply andb_true_iff in Q as [R Q]. destruct (IH Q) as (t & e & X & A). destruct (ends_exec _ _ R) as (u & Y & C).
      exists (u ++ t), e. split; [constructor; assumption|apply at_b_after; assumption].
  - apply orb_true_iff in Q as [Q|Q].
    + apply N.eqb_eq in Q. subst id. exists [(b, Some true)], Interrupted. split; [constructor; constructor|apply at_b_head].
    + apply andb_true_iff in Q as [R Q]. apply negb_true_iff in R. apply orb_true_iff in Q as [Q|Q].
      * destruct (IHl Q) as (t & e & X & A). exists ((id, Some true) :: t), e. split; [constructor; exact X|apply at_b_cons; assumption].
      * destruct (IHr Q) as (t & e & X & A). exists ((id, Some false) :: t), e. split; [constructor; exact X|apply at_b_cons; assumption].
  - apply orb_true_iff in Q as [Q|Q].
    + apply N.eqb_eq in Q. subst id. exists [(b, None)], Interrupted. split; [apply exec_loop_interrupted; constructor|apply at_b_head].
    + apply andb_true_iff in Q as [R Q]. apply negb_true_iff in R. destruct (IHi Q) as (t & e & X & A). destruct e.
      * exists ((id, None) :: t ++ []), Interrupted. split; [eapply exec_loop_again; [exact X|auto|constructor]|].
        apply at_b_cons; [exact R|apply at_b_app; exact A].
      * exists ((id, None) :: t), Normal. split; [apply exec_loop_leave; exact X|apply at_b_cons; assumption].
      * exists ((id, None) :: t ++ []), Interrupted. split; [eapply exec_loop_again; [exact X|auto|constructor]|].
        apply at_b_cons; [exact R|apply at_b_app; exact A].
      * exists ((id, None) :: t), Interrupted. split; [apply exec_loop_interrupted; exact X|apply at_b_cons; assumption].
Qed.

Lemma exec_arrives_both :
  (forall c t e, exec c t e -> at_b t -> arrives avoid b c = true) /\
  (forall l t e, exec_list l t e -> at_b t -> arrives_list (ends avoid) (arrives avoid b) l = true).
Proof.
  apply exec_exec_list_ind.
  - intros c H. exfalso. exact (at_b_nil H).
  - intros id H. cbn. apply at_b_cons_inv in H as [H|[_ H]]; [apply N.eqb_eq; exact H|exfalso; exact (at_b_nil H)].
  - intros l t e X IH H. cbn. auto.
  - intros id lhs rhs h w taken t e X IH H. cbn [arrives]. apply at_b_cons_inv in H as [H|[A H]].
    + cbn in H. subst id. rewrite N.eqb_refl. reflexivity.
    + cbn in A. rewrite A. destruct taken; rewrite (IH H); cbn; rewrite ?orb_true_r; reflexivity.
  - intros id inner h w t X IH H. cbn [arrives]. apply at_b_cons_inv in H as [H|[A H]].
    + cbn in H. subst id. rewrite N.eqb_refl. reflexivity.
    + cbn in A. rewrite A, (IH H). cbn. apply orb_true_r.
  - intros id inner h w t X IH H. cbn [arrives]. apply at_b_cons_inv in H as [H|[A H]].
    + cbn in H. subst id. rewrite N.eqb_refl. reflexivity.
    + cbn in A. rewrite A, (IH H). cbn. apply orb_true_r.
  - intros id inner h w t1 e1 t2 e X IH Z Y IH2 H. apply at_b_cons_inv in H as [H|[A H]].
    + cbn in H. subst id. cbn. rewrite N.eqb_refl. reflexivity.
    + cbn in A. apply at_b_app_inv in H as [H|[C H]]; [|exact (IH2 H)].
      cbn [arrives]. rewrite A, (IH H). cbn. apply orb_true_r.
  - intros H. exfalso. exact (at_b_nil H).
  - intros H. exfalso. exact (at_b_nil H).
  - intros H. exfalso. exact (at_b_nil H).
  - intros c l t1 t2 e X IH Y IH2 H. cbn [arrives_list]. apply at_b_app_inv in H as [H|[C H]].
    + rewrite (IH H). reflexivity.
    + rewrite (proj1 exec_ends_both _ _ _ X) by (exact C || discriminate). rewrite (IH2 H). apply orb_true_r.
  - intros c l t e X IH Z H. cbn [arrives_list]. rewrite (IH H). reflexivity.
Qed.

Lemma arrives_iff : forall c, arrives avoid b c = true <-> exists t e, exec c t e /\ at_b t.
Proof. intros c. split; [apply arrives_exec|]. intros (t & e & X & A). exact (proj1 exec_arrives_both c t e X A). Qed.
End Arrive.

(** ** Leaving *)
Section Leave.
Context (a : BlockId).

Definition from_a (t : list event) : Prop := exists p o s, t = p ++ (a, o) :: s /\ clean ((a, o) :: s).

Lemma from_a_head : forall o t, clean ((a, o) :: t) -> from_a ((a, o) :: t).
Proof. intros o t C. exists [], o, t. split; [reflexivity|exact C]. Qed.

Lemma from_a_after : forall t u, from_a u -> from_a (t ++ u).
Proof. intros t u (p & o & s & -> & D). exists (t ++ p), o, s. rewrite <- app_assoc. split; [reflexivity|exact D]. Qed.

Lemma from_a_app : forall t u, from_a t -> clean u -> from_a (t ++ u).
Proof.
  intros t u (p & o & s & -> & D) C. exists p, o, (s ++ u). rewrite <- app_assoc. split; [reflexivity|].
  change ((a, o) :: s ++ u) with (((a, o) :: s) ++ u). apply clean_app. auto.
Qed.

Lemma from_a_cons_inv : forall x t, from_a (x :: t) -> fst x = a /\ clean (x :: t) \/ from_a t.
Proof.
  intros x t ([|y p] & o & s & Q & C).
  - injection Q as -> ->. left. auto.
  - injection Q as -> ->. right. exists p, o, s. auto.
Qed.

Lemma from_a_nil : ~ from_a [].
Proof. intros (p & o & s & Q & _). destruct p; discriminate. Qed.

Lemma from_a_app_inv : forall t u, from_a (t ++ u) -> from_a t /\ clean u \/ from_a u.
Proof.
  induction t as [|x t IH]; intros u H; [right; exact H|].
  cbn [app] in H. apply from_a_cons_inv in H as [[A C]|H].
  - left. destruct x as [i o]. cbn in A. subst i. apply clean_cons in C as [A C]. apply clean_app in C as [C D].
    split; [apply from_a_head; apply clean_cons; auto|exact D].
  - apply IH in H as [[H C]|H]; [left; split; [apply (from_a_after [x]); exact H|exact C]|right; exact H].
Qed.
End Leave.
End Chains.

Lemma clean_nothing : forall t, clean nothing_avoided t.
Proof. intros t. apply Forall_forall. reflexivity. Qed.

Section Leaves.
Context (avoid : BlockId -> bool) (a : BlockId).
Notation from := (from_a avoid a).

Lemma leaves_exec : forall c e, leaves avoid a c e = true -> exists t, exec c t e /\ from t.
Proof.
  induction c as [id|l IH|id lhs rhs h w IHl IHr|id inner h w IHi| |] using chain_ind'; intros e Q; cbn [leaves] in Q; try discriminate.
  - apply andb_true_iff in Q as [Q R]. apply andb_true_iff in Q as [Q S]. apply negb_true_iff in R. apply N.eqb_eq in S. subst id.
    destruct e; try discriminate. exists [(a, None)]. split; [constructor|]. apply from_a_head. apply clean_cons. split; [exact R|constructor].
  - assert (X : exists t, exec_list l t e /\ from t); [|destruct X as (t & X & A); exists t; split; [constructor; exact X|exact A]].
    revert e Q. induction IH as [|c l H F IH]; intros e Q; cbn [leaves_list] in Q; [discriminate|].
    apply orb_true_iff in Q as [Q|Q]; [apply orb_true_iff in Q as [Q|Q]|]; apply andb_true_iff in Q as [Q R].
    + destruct (H _ Q) as (t & X & A).
      assert (G : Forall (fun c => forall e, ends avoid c e = true -> exists t, exec c t e /\ clean avoid t) l).
      { apply Forall_forall. intros x _. apply ends_exec. }
      destruct (in_order_exec avoid l G e R) as (u & Y & C). exists (t ++ u). split; [constructor; assumption|apply from_a_app; assumption].
    + destruct (H _ R) as (t & X & A). exists t. split; [|exact A]. apply exec_exit; [exact X|]. intros ->. discriminate.
    + destruct (IH _ R) as (t & X & A). destruct (ends_exec _ _ _ Q) as (u & Y & _). exists (u ++ t).
      split; [constructor; assumption|apply from_a_after; exact A].
  - apply orb_true_iff in Q as [Q|Q]; [apply orb_true_iff in Q as [Q|Q]|].
    + apply andb_true_iff in Q as [Q R]. apply andb_true_iff in Q as [Q S]. apply N.eqb_eq in Q. subst id. apply negb_true_iff in S.
      apply orb_true_iff in R as [R|R]; destruct (ends_exec _ _ _ R) as (t & X & C).
      * exists ((a, Some true) :: t). split; [constructor; exact X|]. apply from_a_head. apply clean_cons. auto.
      * exists ((a, Some false) :: t). split; [constructor; exact X|]. apply from_a_head. apply clean_cons. auto.
    + destruct (IHl _ Q) as (t & X & A). exists ((id, Some true) :: t). split; [constructor; exact X|].
      apply (from_a_after avoid a [_]). exact A.
    + destruct (IHr _ Q) as (t & X & A). exists ((id, Some false) :: t). split; [constructor; exact X|].
      apply (from_a_after avoid a [_]). exact A.
  - apply andb_true_iff in Q as [N Q]. destruct e; try discriminate.
    apply orb_true_iff in Q as [Q|Q]; [apply orb_true_iff in Q as [Q|Q]|].
    + apply andb_true_iff in Q as [Q R]. apply andb_true_iff in Q as [Q S]. apply N.eqb_eq in Q. subst id. apply negb_true_iff in S.
      destruct (ends_exec _ _ _ R) as (t & X & C). exists ((a, None) :: t). split; [apply exec_loop_leave; exact X|].
      apply from_a_head. apply clean_cons. auto.
    + destruct (IHi _ Q) as (t & X & A). exists ((id, None) :: t). split; [apply exec_loop_leave; exact X|].
      apply (from_a_after avoid a [_]). exact A.
    + apply andb_true_iff in Q as [Q R]. apply andb_true_iff in Q as [Q S]. apply negb_true_iff in S.
      destruct (ends_exec _ _ _ R) as (u & Y & C).
      assert (Z : exists t e, exec inner t e /\ (e = Normal \/ e = Continued) /\ from t).
      { apply orb_true_iff in Q as [Q|Q]; destruct (IHi _ Q) as (t & X & A); eauto 6. }
      destruct Z as (t & e & X & Z & A). exists ((id, None) :: t ++ (id, None) :: u).
      split; [eapply exec_loop_again; [exact X|exact Z|apply exec_loop_leave; exact Y]|].
      apply (from_a_after avoid a [_]). apply from_a_app; [exact A|]. apply clean_cons. auto.
Qed.

Lemma exec_leaves_both :
  (forall c t e, exec c t e -> to_end e -> from t -> leaves avoid a c e = true) /\
  (forall l t e, exec_list l t e -> to_end e -> from t ->
     leaves_list (ends avoid) (leaves avoid a) (ends nothing_avoided) l e = true).
Proof.
  apply exec_exec_list_ind; unfold to_end.
  - intros c T. contradiction.
  - intros id _ H. cbn. apply from_a_cons_inv in H as [[A C]|H]; [|exfalso; exact (from_a_nil _ _ H)].
    cbn in A. subst id. apply clean_cons in C as [C _]. cbn in C. rewrite N.eqb_refl, C. reflexivity.
  - intros l t e X IH T H. cbn. auto.
  - intros id lhs rhs h w taken t e X IH T H. cbn [leaves]. apply from_a_cons_inv in H as [[A C]|H].
    + cbn in A. subst id. apply clean_cons in C as [B C]. cbn in B. rewrite N.eqb_refl, B.
      pose proof (proj1 (exec_ends_both avoid) _ _ _ X T C) as D. destruct taken; rewrite D; cbn; rewrite ?orb_true_r; reflexivity.
    + specialize (IH T H). destruct taken; rewrite IH; rewrite ?orb_true_r; reflexivity.
  - intros id inner h w t X IH _ H. cbn [leaves is_normal andb]. apply from_a_cons_inv in H as [[A C]|H].
    + cbn in A. subst id. apply clean_cons in C as [B C]. cbn in B. rewrite N.eqb_refl, B.
      rewrite (proj1 (exec_ends_both avoid) _ _ _ X) by (exact C || discriminate). reflexivity.
    + rewrite IH by (exact H || discriminate). rewrite orb_true_r. reflexivity.
  - intros id inner h w t X IH T H. contradiction.
  - intros id inner h w t1 e1 t2 e X IH Z Y IH2 T H. apply from_a_cons_inv in H as [[A C]|H].
    + cbn in A. subst id. apply clean_cons in C as [B C]. cbn in B. apply clean_app in C as [_ C].
      pose proof (proj1 (exec_ends_both avoid) _ _ _ Y T C) as D. cbn [ends] in D. cbn [leaves].
      apply andb_true_iff in D as [D D3]. apply andb_true_iff in D as [D1 D2]. rewrite D1, D2, D3, N.eqb_refl. reflexivity.
    + apply from_a_app_inv in H as [[H C]|H]; [|exact (IH2 T H)].
      pose proof (proj1 (exec_ends_both avoid) _ _ _ Y T C) as D. cbn [ends] in D. cbn [leaves].
      apply andb_true_iff in D as [D D3]. apply andb_true_iff in D as [D1 D2]. rewrite D1, D2, D3.
      assert (G : leaves avoid a inner e1 = true) by (apply IH; [destruct Z; subst; discriminate|exact H]).
      destruct Z; subst e1; rewrite G; cbn; rewrite ?orb_true_r; reflexivity.
  - intros _ H. exfalso. exact (from_a_nil _ _ H).
  - intros _ H. exfalso. exact (from_a_nil _ _ H).
  - intros _ H. exfalso. exact (from_a_nil _ _ H).
  - intros c l t1 t2 e X IH Y IH2 T H. cbn [leaves_list]. apply from_a_app_inv in H as [[H C]|H].
    + rewrite IH by (exact H || discriminate). rewrite (proj2 (exec_ends_both avoid) _ _ _ Y T C). reflexivity.
    + rewrite (proj1 (exec_ends_both nothing_avoided) _ _ _ X) by (discriminate || apply clean_nothing).
      rewrite (IH2 T H). apply orb_true_r.
  - intros c l t e X IH Z T H. cbn [leaves_list]. rewrite (IH T H). destruct e; try contradiction; cbn; rewrite ?orb_true_r; reflexivity.
Qed.

Lemma leaves_iff : forall c e, to_end e -> (leaves avoid a c e = true <-> exists t, exec c t e /\ from t).
Proof. intros c e T. split; [apply leaves_exec|]. intros (t & X & A). exact (proj1 exec_leaves_both c t e X T A). Qed.
End Leaves.
