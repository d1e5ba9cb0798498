(** Executions that go in circles, C129. *)
From Coq Require Import Lia.
From Verif Require Import Base Types Ops Groups ControlFlow Spec_Flow Spec_Standard Spec_Dominate Spec_Circles Proofs_Flow Proofs_Flow2 Proofs_Dominate Proofs_Dominate2.

Notation ids t := (map (@fst BlockId (option bool)) t).

Lemma exec_names_both :
  (forall c t e, exec c t e -> incl (ids t) (chain_ids c)) /\
  (forall l t e, exec_list l t e -> incl (ids t) (flat_map chain_ids l)).
Proof.
  apply exec_exec_list_ind; intros; cbn [chain_ids flat_map map fst]; rewrite ?map_app; try (intros x []; fail); auto.
  - intros x I. exact I.
  - intros x [<-|I]; [left; reflexivity|right]. apply in_or_app. destruct taken; [left|right]; apply H; exact I.
  - intros x [<-|I]; [left; reflexivity|right; apply H; exact I].
  - intros x [<-|I]; [left; reflexivity|right; apply H; exact I].
  - intros x [<-|I]; [left; reflexivity|]. apply in_app_or in I as [I|I]; [right; apply H; exact I|apply H0; exact I].
  - intros x I. apply in_or_app. apply in_app_or in I as [I|I]; [left; apply H|right; apply H0]; exact I.
  - intros x I. apply in_or_app. left. apply H. exact I.
Qed.
Lemma loop_first : forall id inner h w t e, exec (Loop id inner h w) t e -> t = [] \/ exists u, t = (id, None) :: u.
Proof. intros id inner h w t e X. inversion X; subst; eauto. Qed.

(** Two ways to split a list. *)
Lemma split_app : forall {A} (t1 t2 p q : list A), t1 ++ t2 = p ++ q -> (exists m, t1 = p ++ m /\ q = m ++ t2) \/ (exists m, p = t1 ++ m /\ t2 = m ++ q).
Proof.
  intros A t1. induction t1 as [|x t1 IH]; intros t2 p q H.
  - right. exists p. auto.
  - destruct p as [|y p]; [left; exists (x :: t1); auto|]. injection H as -> H. destruct (IH _ _ _ H) as [(m & -> & ->)|(m & -> & ->)]; [left|right]; exists m; auto.
Qed.

(** ** Without loop headers *)
Section Free.
Context (heads : list BlockId).
Definition free (t : list event) : Prop := forall x, In x (ids t) -> ~ In x heads.
Lemma free_app : forall t u, free (t ++ u) -> free t /\ free u.
Proof. intros t u H. split; intros x I; apply H; rewrite map_app; apply in_or_app; auto. Qed.
Lemma free_bound_both :
  (forall c t e, exec c t e -> incl (loop_headers c) heads -> forall p q, t = p ++ q -> free q -> length q <= length (chain_ids c)) /\
  (forall l t e, exec_list l t e -> incl (flat_map loop_headers l) heads -> forall p q, t = p ++ q -> free q -> length q <= length (flat_map chain_ids l)).
Proof.
  apply exec_exec_list_ind; cbn [chain_ids flat_map loop_headers].
  - intros c _ p q Q _. symmetry in Q. apply app_eq_nil in Q as [_ ->]. cbn. lia.
  - intros id _ p q Q _. apply (f_equal (@length event)) in Q. rewrite app_length in Q. cbn in *. lia.
  - intros l t e X IH. exact IH.
  - intros id lhs rhs h w taken t e X IH I p q Q F. cbn [length]. rewrite app_length.
    assert (J : forall p q, t = p ++ q -> free q -> length q <= length (chain_ids lhs) + length (chain_ids rhs)).
    { intros p' q' Q' F'. assert (K : incl (loop_headers (if taken then lhs else rhs)) heads) by (intros x Hx; apply I; apply in_or_app; destruct taken; auto).
      specialize (IH K p' q' Q' F'). destruct taken; lia. }
    destruct p as [|x p]; cbn in Q.
    + subst q. apply (free_app [_]) in F as [_ F]. specialize (J [] t eq_refl F). cbn. lia.
    + injection Q as _ Q. specialize (J p q Q F). lia.
  - intros id inner h w t X IH I p q Q F. cbn [length]. destruct p as [|x p]; cbn in Q.
    + subst q. exfalso. apply (F id); [left; reflexivity|apply I; left; reflexivity].
    + injection Q as _ Q. assert (K : incl (loop_headers inner) heads) by (intros y Hy; apply I; right; exact Hy). specialize (IH K p q Q F). lia.
  - intros id inner h w t X IH I p q Q F. cbn [length]. destruct p as [|x p]; cbn in Q.
    + subst q. exfalso. apply (F id); [left; reflexivity|apply I; left; reflexivity].
    + injection Q as _ Q. assert (K : incl (loop_headers inner) heads) by (intros y Hy; apply I; right; exact Hy). specialize (IH K p q Q F). lia.
  - intros id inner h w t1 e1 t2 e X IH Z Y IH2 I p q Q F. destruct p as [|x p]; cbn in Q.
    + subst q. exfalso. apply (F id); [left; reflexivity|apply I; left; reflexivity].
    + injection Q as _ Q. apply split_app in Q as [(m & -> & ->)|(m & -> & ->)].
      * apply free_app in F as [F1 F2]. destruct (loop_first _ _ _ _ _ _ Y) as [->|(u & ->)].
        -- rewrite app_nil_r. cbn [length]. assert (K : incl (loop_headers inner) heads) by (intros y Hy; apply I; right; exact Hy). specialize (IH K p m eq_refl F1). lia.
        -- exfalso. apply (F2 id); [left; reflexivity|apply I; left; reflexivity].
      * exact (IH2 I m q eq_refl F).
  - intros _ p q Q _. symmetry in Q. apply app_eq_nil in Q as [_ ->]. cbn. lia.
  - intros _ p q Q _. symmetry in Q. apply app_eq_nil in Q as [_ ->]. cbn. lia.
  - intros _ p q Q _. symmetry in Q. apply app_eq_nil in Q as [_ ->]. cbn. lia.
  - intros c l t1 t2 e X IH Y IH2 I p q Q F. rewrite app_length.
    assert (K1 : incl (loop_headers c) heads) by (intros y Hy; apply I; apply in_or_app; auto).
    assert (K2 : incl (flat_map loop_headers l) heads) by (intros y Hy; apply I; apply in_or_app; auto).
    apply split_app in Q as [(m & -> & ->)|(m & -> & ->)].
    + apply free_app in F as [F1 F2]. specialize (IH K1 p m eq_refl F1). specialize (IH2 K2 [] t2 eq_refl F2). rewrite app_length. lia.
    + specialize (IH2 K2 m q eq_refl F). lia.
  - intros c l t e X IH Z I p q Q F. rewrite app_length.
    assert (K1 : incl (loop_headers c) heads) by (intros y Hy; apply I; apply in_or_app; auto). specialize (IH K1 p q Q F). lia.
Qed.
End Free.

(** ** Coming around *)
Definition times (b : BlockId) (t : list event) : nat := count_occ N.eq_dec (ids t) b.
Lemma times_app : forall b t u, times b (t ++ u) = times b t + times b u.
Proof. intros b t u. unfold times. rewrite map_app, count_occ_app. reflexivity. Qed.
Lemma times_in : forall b t, times b t <> 0 -> exists p o s, t = p ++ (b, o) :: s.
Proof.
  intros b t H. assert (I : In b (ids t)) by (apply (count_occ_In N.eq_dec); unfold times in H; lia). apply in_map_iff in I as ([b' o] & Q & I). cbn in Q. subst b'.
  apply in_split in I as (p & s & ->). eauto.
Qed.
Lemma from_nothing : forall b t, times b t <> 0 -> from_a nothing_avoided b t.
Proof. intros b t H. destruct (times_in b t H) as (p & o & s & ->). exists p, o, s. split; [reflexivity|apply clean_nothing]. Qed.
Lemma times_bound_both : forall b,
  (forall c t e, exec c t e -> comes_around b c = false -> times b t <= length (chain_ids c)) /\
  (forall l t e, exec_list l t e -> arrives_list (ends nothing_avoided) (comes_around b) l = false -> times b t <= length (flat_map chain_ids l)).
Proof.
  intros b. apply exec_exec_list_ind; cbn [chain_ids flat_map comes_around arrives_list].
  - intros. cbn. lia.
  - intros id _. unfold times. cbn. destruct (N.eq_dec id b); lia.
  - intros l t e X IH. exact IH.
  - intros id lhs rhs h w taken t e X IH Q. apply orb_false_iff in Q as [Q1 Q2]. change ((id, Some taken) :: t) with ([(id, Some taken)] ++ t). rewrite times_app. cbn [length]. rewrite app_length.
    assert (times b [(id, Some taken)] <= 1) by (unfold times; cbn; destruct (N.eq_dec id b); lia). destruct taken; [specialize (IH Q1)|specialize (IH Q2)]; lia.
  - intros id inner h w t X IH Q. apply orb_false_iff in Q as [Q Q4]. change ((id, None) :: t) with ([(id, @None bool)] ++ t). rewrite times_app. cbn [length].
    assert (times b [(id, None)] <= 1) by (unfold times; cbn; destruct (N.eq_dec id b); lia). specialize (IH Q4). lia.
  - intros id inner h w t X IH Q. apply orb_false_iff in Q as [Q Q4]. change ((id, None) :: t) with ([(id, @None bool)] ++ t). rewrite times_app. cbn [length].
    assert (times b [(id, None)] <= 1) by (unfold times; cbn; destruct (N.eq_dec id b); lia). specialize (IH Q4). lia.
  - intros id inner h w t1 e1 t2 e X IH Z Y IH2 Q. specialize (IH2 Q). apply orb_false_iff in Q as [Q Q4]. apply orb_false_iff in Q as [Q Q3]. apply orb_false_iff in Q as [Q1 Q2].
    change ((id, None) :: t1 ++ t2) with ([(id, @None bool)] ++ t1 ++ t2). rewrite !times_app.
    assert (T : times b t1 = 0).
    { destruct (Nat.eq_dec (times b t1) 0) as [T|T]; [exact T|]. exfalso. apply from_nothing in T. apply (proj1 (exec_leaves_both nothing_avoided b) _ _ _ X) in T; [|destruct Z; subst; discriminate].
      destruct Z; subst e1; congruence. }
    assert (I : times b [(id, None)] = 0).
    { unfold times. cbn. destruct (N.eq_dec id b) as [->|]; [|reflexivity]. exfalso. rewrite N.eqb_refl in Q1. cbn in Q1. apply orb_false_iff in Q1 as [Qa Qb].
      pose proof (proj1 (exec_ends_both nothing_avoided) _ _ _ X) as G. specialize (G ltac:(destruct Z; subst; discriminate) (clean_nothing _)). destruct Z; subst e1; congruence. }
    lia.
  - intros. cbn. lia.
  - intros. cbn. lia.
  - intros. cbn. lia.
  - intros c l t1 t2 e X IH Y IH2 Q. apply orb_false_iff in Q as [Q1 Q2]. rewrite times_app, app_length. specialize (IH Q1).
    rewrite (proj1 (exec_ends_both nothing_avoided) _ _ _ X) in Q2 by (discriminate || apply clean_nothing). specialize (IH2 Q2). lia.
  - intros c l t e X IH Z Q. apply orb_false_iff in Q as [Q1 _]. rewrite app_length. specialize (IH Q1). lia.
Qed.

Definition twice (b : BlockId) (t : list event) : Prop := exists p o m o' s, t = p ++ (b, o) :: m ++ (b, o') :: s.
Lemma twice_after : forall b t u, twice b u -> twice b (t ++ u).
Proof. intros b t u (p & o & m & o' & s & ->). exists (t ++ p), o, m, o', s. rewrite <- app_assoc. reflexivity. Qed.
Lemma twice_app : forall b t u, twice b t -> twice b (t ++ u).
Proof. intros b t u (p & o & m & o' & s & ->). exists p, o, m, o', (s ++ u). rewrite <- !app_assoc. cbn. rewrite <- app_assoc. reflexivity. Qed.
Lemma around_exec : forall b c, comes_around b c = true -> exists t e, exec c t e /\ twice b t.
Proof.
  intros b. induction c as [id|l IH|id lhs rhs h w IHl IHr|id inner h w IHi| |] using chain_ind'; cbn [comes_around]; intros Q; try discriminate Q.
  - assert (X : exists t e, exec_list l t e /\ twice b t); [|destruct X as (t & e & X & A); exists t, e; split; [constructor; exact X|exact A]].
    induction IH as [|c l H F IH]; cbn [arrives_list] in Q; [discriminate|]. apply orb_true_iff in Q as [Q|Q].
    + destruct (H Q) as (t & e & X & A). destruct e; try (eexists t, _; split; [apply exec_exit; [exact X|discriminate]|exact A]).
      destruct (exec_list_more l) as (e & Y). exists (t ++ []), e. split; [constructor; assumption|apply twice_app; exact A].
    + apply andb_true_iff in Q as [R Q]. destruct (IH Q) as (t & e & X & A). destruct (ends_exec _ _ _ R) as (u & Y & C).
      exists (u ++ t), e. split; [constructor; assumption|apply twice_after; assumption].
  - apply orb_true_iff in Q as [Q|Q].
    + destruct (IHl Q) as (t & e & X & A). exists ((id, Some true) :: t), e. split; [constructor; exact X|apply (twice_after b [_]); assumption].
    + destruct (IHr Q) as (t & e & X & A). exists ((id, Some false) :: t), e. split; [constructor; exact X|apply (twice_after b [_]); assumption].
  - assert (Z : forall t e, exec inner t e -> e = Normal \/ e = Continued -> exec (Loop id inner h w) ((id, None) :: t ++ (id, None) :: t ++ []) Interrupted).
    { intros t e X N. eapply exec_loop_again; [exact X|exact N|]. eapply exec_loop_again; [exact X|exact N|]. constructor. }
    assert (L : forall e, e = Normal \/ e = Continued -> leaves nothing_avoided b inner e = true -> exists t e, exec (Loop id inner h w) t e /\ twice b t).
    { intros e N V. destruct (leaves_exec _ _ _ _ V) as (t & X & (p & o & s & -> & _)). eexists _, _. split; [exact (Z _ _ X N)|].
      exists ((id, None) :: p), o, (s ++ (id, None) :: p), o, (s ++ []). cbn [app]. repeat (rewrite <- app_assoc; cbn [app]). reflexivity. }
    apply orb_true_iff in Q as [Q|Q]; [apply orb_true_iff in Q as [Q|Q]; [apply orb_true_iff in Q as [Q|Q]|]|].
    + apply andb_true_iff in Q as [B Q]. apply N.eqb_eq in B. subst b. assert (V : exists t e, exec inner t e /\ (e = Normal \/ e = Continued)).
      { apply orb_true_iff in Q as [Q|Q]; destruct (ends_exec _ _ _ Q) as (t & X & _); eauto. }
      destruct V as (t & e & X & N). eexists _, _. split; [exact (Z _ _ X N)|]. exists [], None, t, None, (t ++ []). reflexivity.
    + apply (L Normal); auto.
    + apply (L Continued); auto.
    + destruct (IHi Q) as (t & e & X & A). destruct e.
      * exists ((id, None) :: t ++ []), Interrupted. split; [eapply exec_loop_again; [exact X|auto|constructor]|]. apply (twice_after b [_]). apply twice_app. exact A.
      * exists ((id, None) :: t), Normal. split; [apply exec_loop_leave; exact X|apply (twice_after b [_]); exact A].
      * exists ((id, None) :: t ++ []), Interrupted. split; [eapply exec_loop_again; [exact X|auto|constructor]|]. apply (twice_after b [_]). apply twice_app. exact A.
      * exists ((id, None) :: t), Interrupted. split; [apply exec_loop_interrupted; exact X|apply (twice_after b [_]); exact A].
Qed.

Lemma once_or_twice : forall t, NoDup (ids t) \/ exists x, twice x t.
Proof.
  induction t as [|[x o] t IH]; [left; constructor|]. destruct (in_dec N.eq_dec x (ids t)) as [I|I].
  - right. apply in_map_iff in I as ([x' o'] & Q & I). cbn in Q. subst x'. apply in_split in I as (m & s & ->). exists x, [], o, m, o', s. reflexivity.
  - destruct IH as [N|[y Y]]; [left; cbn; constructor; assumption|right]. exists y. apply (twice_after y [_]). exact Y.
Qed.

(** ** Chains that name every block once *)
Fixpoint has_loop (h : BlockId) (inner : ControlFlowChain) (c : ControlFlowChain) : Prop :=
  match c with
  | Atom _ | Break | Continue => False
  | Block l => fold_right (fun c rest => has_loop h inner c \/ rest) False l
  | Selection _ lhs rhs _ _ => has_loop h inner lhs \/ has_loop h inner rhs
  | Loop id body _ _ => id = h /\ body = inner \/ has_loop h inner body
  end.
Lemma has_loop_header : forall h inner c, has_loop h inner c -> In h (loop_headers c) /\ incl (h :: chain_ids inner) (chain_ids c).
Proof.
  intros h inner. induction c as [id|l IH|id lhs rhs hint w IHl IHr|id body hint w IHi| |] using chain_ind'; cbn [has_loop loop_headers chain_ids]; intros H; try contradiction.
  - induction IH as [|c l H1 F IH]; [contradiction|]. cbn [fold_right flat_map] in *. destruct H as [H|H].
    + destruct (H1 H) as [A B]. split; [apply in_or_app; auto|]. intros x I. apply in_or_app. left. apply B. exact I.
    + destruct (IH H) as [A B]. split; [apply in_or_app; auto|]. intros x I. apply in_or_app. right. apply B. exact I.
  - destruct H as [H|H]; [destruct (IHl H) as [A B]|destruct (IHr H) as [A B]]; (split; [apply in_or_app; auto|]); intros x I; right; apply in_or_app; [left|right]; apply B; exact I.
  - destruct H as [[-> ->]|H]; [split; [left; reflexivity|apply incl_refl]|]. destruct (IHi H) as [A B]. split; [right; exact A|]. intros x I. right. apply B. exact I.
Qed.
Lemma absent_inside : forall h b c, ~ In b (chain_ids c) -> only_inside h b c.
Proof.
  intros h b. induction c as [id|l IH|id lhs rhs hint w IHl IHr|id body hint w IHi| |] using chain_ind'; cbn [only_inside chain_ids]; intros H; try exact I.
  - intros ->. apply H. left. reflexivity.
  - induction IH as [|c l H1 F IH]; [exact I|]. cbn [fold_right flat_map] in *. split; [apply H1|apply IH]; intros X; apply H; apply in_or_app; auto.
  - split; [intros ->; apply H; left; reflexivity|]. right. split; [apply IHl|apply IHr]; intros X; apply H; right; apply in_or_app; auto.
  - split; [intros ->; apply H; left; reflexivity|]. right. apply IHi. intros X. apply H. right. exact X.
Qed.
Lemma nodup_app : forall (a b : list BlockId), NoDup (a ++ b) -> NoDup a /\ NoDup b /\ forall x, In x a -> ~ In x b.
Proof.
  induction a as [|x a IH]; intros b H; [split; [constructor|auto]|]. inversion H as [|? ? N H']; subst. destruct (IH b H') as (A & B & C).
  split; [constructor; [intros I; apply N; apply in_or_app; auto|exact A]|]. split; [exact B|]. intros y [<-|I]; [intros J; apply N; apply in_or_app; auto|apply C; exact I].
Qed.
Lemma loop_inside : forall h inner b c, NoDup (chain_ids c) -> has_loop h inner c -> In b (chain_ids inner) -> only_inside h b c.
Proof.
  intros h inner b. induction c as [id|l IH|id lhs rhs hint w IHl IHr|id body hint w IHi| |] using chain_ind'; cbn [has_loop only_inside chain_ids]; intros N H I; try contradiction.
  - induction IH as [|c l H1 F IH]; [contradiction|]. cbn [fold_right flat_map] in *. apply nodup_app in N as (N1 & N2 & D). destruct H as [H|H].
    + split; [apply H1; assumption|]. destruct (has_loop_header _ _ _ H) as [_ B]. assert (J : ~ In b (flat_map chain_ids l)) by (apply D; apply B; right; exact I).
      exact (absent_inside h b (Block l) J).
    + split; [|apply IH; assumption]. apply absent_inside. intros J. apply (D b J). exact (proj2 (has_loop_header h inner (Block l) H) b (or_intror I)).
  - inversion N as [|? ? N0 N']; subst. apply nodup_app in N' as (N1 & N2 & D). destruct H as [H|H]; destruct (has_loop_header _ _ _ H) as [_ B].
    + split; [intros ->; apply N0; apply in_or_app; left; apply B; right; exact I|]. right. split; [apply IHl; assumption|]. apply absent_inside. apply D. apply B. right. exact I.
    + split; [intros ->; apply N0; apply in_or_app; right; apply B; right; exact I|]. right. split; [|apply IHr; assumption]. apply absent_inside. intros J. apply (D b J). apply B. right. exact I.
  - inversion N as [|? ? N0 N']; subst. destruct H as [[-> ->]|H].
    + split; [intros ->; contradiction|]. left. reflexivity.
    + split; [|right; apply IHi; assumption]. intros ->. apply N0. apply (proj2 (has_loop_header _ _ _ H)). right. exact I.
Qed.

Definition lap (c : ControlFlowChain) (b : BlockId) (m : list event) : Prop :=
  exists h inner, has_loop h inner c /\ In h (b :: ids m) /\ incl (b :: ids m) (h :: chain_ids inner).
Lemma lap_both :
  (forall c t e, exec c t e -> NoDup (chain_ids c) -> forall p b o m o' s, t = p ++ (b, o) :: m ++ (b, o') :: s -> lap c b m) /\
  (forall l t e, exec_list l t e -> NoDup (flat_map chain_ids l) -> forall p b o m o' s, t = p ++ (b, o) :: m ++ (b, o') :: s -> lap (Block l) b m).
Proof.
  assert (NIL : forall (p : list event) x m y s, [] = p ++ x :: m ++ y :: s -> False) by (intros p x m y s Q; destruct p; discriminate Q).
  apply exec_exec_list_ind; cbn [chain_ids].
  - intros c _ p b o m o' s Q. destruct (NIL _ _ _ _ _ Q).
  - intros id _ p b o m o' s Q. apply (f_equal (@length event)) in Q. rewrite app_length in Q. cbn in Q. rewrite app_length in Q. cbn in Q. lia.
  - intros l t e X IH N. exact (IH N).
  - intros id lhs rhs h w taken t e X IH N p b o m o' s Q. inversion N as [|? ? N0 N']; subst. apply nodup_app in N' as (N1 & N2 & D).
    destruct p as [|x p]; cbn in Q.
    + injection Q as -> _ ->. exfalso. apply N0. apply in_or_app. assert (I : In b (chain_ids (if taken then lhs else rhs))).
      { apply (proj1 exec_names_both _ _ _ X). rewrite map_app. apply in_or_app. right. left. reflexivity. }
      destruct taken; auto.
    + injection Q as _ Q. destruct (IH ltac:(destruct taken; assumption) _ _ _ _ _ _ Q) as (h' & inner & HL & A & B). exists h', inner. split; [|auto]. cbn [has_loop]. destruct taken; auto.
  - intros id inner h w t X IH N p b o m o' s Q. inversion N as [|? ? N0 N']; subst. destruct p as [|x p]; cbn in Q.
    + injection Q as -> _ ->. exfalso. apply N0. apply (proj1 exec_names_both _ _ _ X). rewrite map_app. apply in_or_app. right. left. reflexivity.
    + injection Q as _ Q. destruct (IH N' _ _ _ _ _ _ Q) as (h' & inner' & HL & A & B). exists h', inner'. split; [|auto]. cbn [has_loop]. auto.
  - intros id inner h w t X IH N p b o m o' s Q. inversion N as [|? ? N0 N']; subst. destruct p as [|x p]; cbn in Q.
    + injection Q as -> _ ->. exfalso. apply N0. apply (proj1 exec_names_both _ _ _ X). rewrite map_app. apply in_or_app. right. left. reflexivity.
    + injection Q as _ Q. destruct (IH N' _ _ _ _ _ _ Q) as (h' & inner' & HL & A & B). exists h', inner'. split; [|auto]. cbn [has_loop]. auto.
  - intros id inner h w t1 e1 t2 e X IH Z Y IH2 N p b o m o' s Q. pose proof N as N'. inversion N' as [|? ? N0 N1]; subst. clear N'.
    assert (T : incl (ids ((id, None) :: t1 ++ t2)) (id :: chain_ids inner)) by exact (proj1 exec_names_both _ _ _ (exec_loop_again id inner h w _ _ _ _ X Z Y)).
    destruct (in_dec N.eq_dec id (b :: ids m)) as [I|I].
    + exists id, inner. split; [left; auto|]. split; [exact I|]. intros x J. apply T. rewrite Q. rewrite map_app. apply in_or_app. right. cbn [map fst]. rewrite map_app.
      destruct J as [<-|J]; [left; reflexivity|right; apply in_or_app; left; exact J].
    + destruct p as [|x p]; cbn in Q; [injection Q as -> _ _; contradiction I; left; reflexivity|]. injection Q as _ Q.
      apply split_app in Q as [(k & -> & Q)|(k & -> & ->)]; [|exact (IH2 N _ _ _ _ _ _ eq_refl)].
      destruct k as [|y k]; cbn in Q.
      * exact (IH2 N [] _ _ _ _ _ (eq_sym Q)).
      * injection Q as <- Q. symmetry in Q. apply split_app in Q as [(k2 & -> & Q)|(k2 & -> & Q)].
        -- destruct (loop_first _ _ _ _ _ _ Y) as [->|(u & ->)].
           ++ rewrite app_nil_r in Q. subst k2. destruct (IH N1 p b o m o' s) as (h' & inner' & HL & A & B); [reflexivity|]. exists h', inner'. split; [right; exact HL|auto].
           ++ destruct k2 as [|z k2]; cbn in Q.
              ** injection Q as Q _ _. exfalso. apply I. left. exact Q.
              ** injection Q as <- Q. destruct (IH N1 p b o m o' k2) as (h' & inner' & HL & A & B); [reflexivity|]. exists h', inner'. split; [right; exact HL|auto].
        -- destruct (loop_first _ _ _ _ _ _ Y) as [->|(u & ->)].
           ++ exfalso. symmetry in Q. apply app_eq_nil in Q as [_ Q]. discriminate Q.
           ++ destruct k2 as [|z k2]; cbn in Q; injection Q as Q1 Q2.
              ** exfalso. apply I. left. congruence.
              ** exfalso. apply I. right. rewrite map_app. apply in_or_app. right. subst z. left. reflexivity.
  - intros _ p b o m o' s Q. destruct (NIL _ _ _ _ _ Q).
  - intros _ p b o m o' s Q. destruct (NIL _ _ _ _ _ Q).
  - intros _ p b o m o' s Q. destruct (NIL _ _ _ _ _ Q).
  - intros c l t1 t2 e X IH Y IH2 N p b o m o' s Q. cbn [flat_map] in N. apply nodup_app in N as (N1 & N2 & D).
    apply split_app in Q as [(k & -> & Q)|(k & -> & ->)].
    + destruct k as [|y k]; cbn in Q.
      * destruct (IH2 N2 [] _ _ _ _ _ (eq_sym Q)) as (h' & inner' & HL & A & B). exists h', inner'. split; [right; exact HL|auto].
      * injection Q as <- Q. assert (Ib : In b (chain_ids c)) by (apply (proj1 exec_names_both _ _ _ X); rewrite map_app; apply in_or_app; right; left; reflexivity).
        symmetry in Q. apply split_app in Q as [(k2 & -> & Q)|(k2 & -> & ->)].
        -- destruct k2 as [|z k2]; cbn in Q.
           ++ exfalso. apply (D b Ib). apply (proj2 exec_names_both _ _ _ Y). rewrite <- Q. left. reflexivity.
           ++ injection Q as <- Q. destruct (IH N1 p b o m o' k2) as (h' & inner' & HL & A & B); [reflexivity|]. exists h', inner'. split; [left; exact HL|auto].
        -- exfalso. apply (D b Ib). apply (proj2 exec_names_both _ _ _ Y). rewrite map_app. apply in_or_app. right. left. reflexivity.
    + destruct (IH2 N2 _ _ _ _ _ _ eq_refl) as (h' & inner' & HL & A & B). exists h', inner'. split; [right; exact HL|auto].
  - intros c l t e X IH Z N p b o m o' s Q. cbn [flat_map] in N. apply nodup_app in N as (N1 & N2 & D).
    destruct (IH N1 _ _ _ _ _ _ Q) as (h' & inner' & HL & A & B). exists h', inner'. split; [left; exact HL|auto].
Qed.

(** ** Functions *)
Section Function.
Context {E : Type} (f : FunctionDefinition E) (depth : nat) (chain : ControlFlowChain) (R : find_control_flow depth f = Ok chain).

Fixpoint laps (n : nat) (t : list event) : list event := match n with O => [] | S n => t ++ laps n t end.
Lemma laps_walk : forall n b t, walk f b t (Some b) -> walk f b (laps n t) (Some b).
Proof. induction n as [|n IH]; intros b t W; cbn [laps]; [constructor|]. exact (walk_app f _ _ _ W _ _ (IH _ _ W)). Qed.
Lemma laps_exec : forall b t, circle f b t -> exists p, forall n, exists e, exec chain (p ++ laps n t) e.
Proof. intros b t ((first & p & EN & W0) & _ & W). exists p. intros n. exact (run_exec f depth chain R first _ _ EN (walk_app f _ _ _ W0 _ _ (laps_walk n b t W))). Qed.
Lemma laps_length : forall n t, t <> [] -> n <= length (laps n t).
Proof. induction n as [|n IH]; intros t H; cbn [laps]; [lia|]. rewrite app_length. specialize (IH t H). destruct t; [congruence|]. cbn [length]. lia. Qed.
Lemma laps_ids : forall n t x, In x (ids (laps n t)) -> In x (ids t).
Proof. induction n as [|n IH]; intros t x I; cbn [laps] in I; [contradiction|]. rewrite map_app in I. apply in_app_or in I as [I|I]; eauto. Qed.
Lemma circle_head : forall b t, circle f b t -> exists o u, t = (b, o) :: u.
Proof. intros b t (_ & NE & W). inversion W; subst; [congruence|eauto..]. Qed.

Theorem circle_header : forall b t, circle f b t -> exists h, In h (loop_headers chain) /\ In h (ids t).
Proof.
  intros b t C. destruct (laps_exec b t C) as [p P]. destruct (P (S (length (chain_ids chain)))) as [e X].
  destruct (Exists_dec (fun x => In x (loop_headers chain)) (ids t)) as [H|H]; [intros x; apply (in_dec N.eq_dec)| |].
  - apply Exists_exists in H as (h & I & H). eauto.
  - exfalso. assert (F : free (loop_headers chain) (laps (S (length (chain_ids chain))) t)).
    { intros x I Hx. apply H. apply Exists_exists. exists x. split; [exact (laps_ids _ _ _ I)|exact Hx]. }
    pose proof (proj1 (free_bound_both (loop_headers chain)) _ _ _ X (incl_refl _) p _ eq_refl F) as B.
    pose proof (laps_length (S (length (chain_ids chain))) t (proj1 (proj2 C))). lia.
Qed.

Lemma laps_times : forall n b t, times b t <> 0 -> n <= times b (laps n t).
Proof. induction n as [|n IH]; intros b t H; cbn [laps]; [lia|]. rewrite times_app. specialize (IH b t H). lia. Qed.
Lemma walk_between : forall t id d b o m o' s, walk f id (t ++ (b, o) :: m ++ (b, o') :: s) d -> walk f b ((b, o) :: m) (Some b).
Proof.
  intros t id d b o m o' s W. apply walk_from in W. change ((b, o) :: m ++ (b, o') :: s) with (((b, o) :: m) ++ (b, o') :: s) in W. exact (walk_at f _ _ _ _ _ _ W).
Qed.
Theorem circle_iff : forall b, (exists t, circle f b t) <-> comes_around b chain = true.
Proof.
  intros b. split.
  - intros [t C]. destruct (comes_around b chain) eqn:Q; [reflexivity|]. exfalso. destruct (laps_exec b t C) as [p P]. destruct (P (S (length (chain_ids chain)))) as [e X].
    pose proof (proj1 (times_bound_both b) _ _ _ X Q) as B. rewrite times_app in B. destruct (circle_head b t C) as (o & u & ->).
    assert (T : times b ((b, o) :: u) <> 0) by (unfold times; cbn; destruct (N.eq_dec b b); [lia|congruence]). pose proof (laps_times (S (length (chain_ids chain))) b _ T). lia.
  - intros Q. destruct (around_exec b chain Q) as (t & e & X & (p & o & m & o' & s & ->)). destruct (exec_run f depth chain R _ _ X) as (first & d & EN & W).
    exists ((b, o) :: m). split; [|split; [discriminate|exact (walk_between _ _ _ _ _ _ _ _ W)]]. exists first, p. split; [exact EN|]. exact (walk_at f _ _ _ _ _ _ W).
Qed.

Theorem between_headers : forall b t d, reachable f b -> walk f b t d -> (forall h, In h (loop_headers chain) -> ~ In h (ids t)) -> NoDup (ids t).
Proof.
  intros b t d RB W H. destruct (once_or_twice t) as [N|T]; [exact N|]. exfalso.
  destruct T as (x & p & o & m & o' & s & ->). destruct RB as (first & t0 & EN & W0).
  destruct (circle_header x ((x, o) :: m)) as (h & Hh & I).
  - split; [|split; [discriminate|exact (walk_between _ _ _ _ _ _ _ _ W)]]. exists first, (t0 ++ p). split; [exact EN|]. exact (walk_app f _ _ _ W0 _ _ (walk_at f _ _ _ _ _ _ W)).
  - apply (H h Hh). rewrite map_app. apply in_or_app. right. cbn [map] in *. rewrite map_app. destruct I as [<-|I]; [left; reflexivity|right; apply in_or_app; left; exact I].
Qed.

Theorem reducible : NoDup (chain_ids chain) -> forall b t, circle f b t ->
  exists h, In h (loop_headers chain) /\ In h (ids t) /\ forall x, In x (ids t) -> dominates f h x.
Proof.
  intros N b t C. destruct (circle_head b t C) as (o & u & ->). destruct (laps_exec b _ C) as [p P]. destruct (P 2) as [e X].
  destruct (proj1 lap_both _ _ _ X N p b o u o (u ++ [])) as (h & inner & HL & I & B); [cbn [laps]; reflexivity|].
  exists h. split; [apply (has_loop_header _ _ _ HL)|]. split; [exact I|]. intros x J. destruct (B x J) as [<-|K].
  - apply (dominators f depth chain R). left. reflexivity.
  - apply (header_dominates f depth chain R). exact (loop_inside _ _ _ _ N HL K).
Qed.
End Function.
