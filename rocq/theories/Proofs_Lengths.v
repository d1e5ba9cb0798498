(** How long the executions of a function are and how many there are, C131. *)
From Coq Require Import Lia.
From Verif Require Import Base Types Ops Groups ControlFlow Spec_Flow Spec_Lengths Proofs_Flow Proofs_Flow2.

(** ** The executions of the parts of a chain *)
Lemma exec_loop_exit : forall c t e, exec c t e -> forall id inner h w, c = Loop id inner h w -> e = Normal \/ e = Interrupted.
Proof. induction 1; intros id' inner' h' w' Q; try discriminate Q; auto. eapply IHexec2. exact Q. Qed.
Lemma exec_atom_iff : forall id t e, e <> Interrupted -> (exec (Atom id) t e <-> t = [(id, None)] /\ e = Normal).
Proof. intros id t e N. split; [intros H; inversion H; subst; [congruence|auto]|intros [-> ->]; constructor]. Qed.
Lemma exec_block_iff : forall l t e, e <> Interrupted -> (exec (Block l) t e <-> exec_list l t e).
Proof. intros l t e N. split; [intros H; inversion H; subst; [congruence|auto]|intros H; constructor; exact H]. Qed.
Lemma exec_nil_iff : forall t e, exec_list [] t e <-> t = [] /\ e = Normal.
Proof. intros t e. split; [intros H; inversion H; auto|intros [-> ->]; constructor]. Qed.
Lemma exec_cons_iff : forall c l t e, exec_list (c :: l) t e <-> (exists t1 t2, t = t1 ++ t2 /\ exec c t1 Normal /\ exec_list l t2 e) \/ (e <> Normal /\ exec c t e).
Proof.
  intros c l t e. split.
  - intros H. inversion H; subst; [left; eauto|right; auto].
  - intros [(t1 & t2 & -> & H1 & H2)|[N H]]; [constructor; assumption|apply exec_exit; assumption].
Qed.
Lemma exec_selection_iff : forall id lhs rhs h w t e, e <> Interrupted ->
  (exec (Selection id lhs rhs h w) t e <-> (exists u, t = (id, Some true) :: u /\ exec lhs u e) \/ (exists u, t = (id, Some false) :: u /\ exec rhs u e)).
Proof.
  intros id lhs rhs h w t e N. split.
  - intros H. inversion H; subst; [congruence|]. destruct taken; [left|right]; eauto.
  - intros [(u & -> & H)|(u & -> & H)]; [exact (exec_selection id lhs rhs h w true u e H)|exact (exec_selection id lhs rhs h w false u e H)].
Qed.
Lemma exec_loop_iff : forall id inner h w t, exec (Loop id inner h w) t Normal <->
  (exists u, t = (id, None) :: u /\ exec inner u Broke)
  \/ (exists t1 t2 e1, t = (id, None) :: t1 ++ t2 /\ (e1 = Normal \/ e1 = Continued) /\ exec inner t1 e1 /\ exec (Loop id inner h w) t2 Normal).
Proof.
  intros id inner h w t. split.
  - intros H. inversion H; subst; [left; eauto|right]. do 3 eexists. split; [reflexivity|]. eauto.
  - intros [(u & -> & H)|(t1 & t2 & e1 & -> & Q & H1 & H2)]; [apply exec_loop_leave; exact H|]. eapply exec_loop_again; eassumption.
Qed.

(** What was executed says how it ended. *)
Lemma exact_both : (forall c t e, exec c t e -> e <> Interrupted -> forall u e' v v', exec c u e' -> e' <> Interrupted -> t ++ v = u ++ v' -> t = u /\ e = e' /\ v = v')
  /\ (forall l t e, exec_list l t e -> e <> Interrupted -> forall u e' v v', exec_list l u e' -> e' <> Interrupted -> t ++ v = u ++ v' -> t = u /\ e = e' /\ v = v').
Proof.
  apply exec_exec_list_ind.
  - intros c N. congruence.
  - intros id N u e' v v' X N' Q. apply exec_atom_iff in X as [-> ->]; [|exact N']. injection Q as Q. auto.
  - intros l t e _ IH N u e' v v' X N' Q. apply exec_block_iff in X; [|exact N']. eapply IH; eassumption.
  - intros id lhs rhs h w taken t e H IH N u e' v v' X N' Q. apply exec_selection_iff in X as [(u' & -> & X)|(u' & -> & X)]; [| |exact N'];
      injection Q as B Q; subst taken; destruct (IH N _ _ _ _ X N' Q) as (-> & -> & ->); auto.
  - intros id inner h w t H IH N u e' v v' X N' Q. destruct (exec_loop_exit _ _ _ X _ _ _ _ eq_refl) as [->|]; [|congruence].
    apply exec_loop_iff in X as [(u' & -> & X)|(t1 & t2 & e1 & -> & O & X & Y)]; injection Q as Q.
    + destruct (IH ltac:(discriminate) _ _ _ _ X ltac:(discriminate) Q) as (-> & _ & ->). auto.
    + rewrite <- app_assoc in Q. destruct (IH ltac:(discriminate) _ _ _ _ X ltac:(destruct O; subst; discriminate) Q) as (_ & Z & _). subst e1. destruct O; discriminate.
  - intros id inner h w t _ _ N. congruence.
  - intros id inner h w t1 e1 t2 e H IH O H2 IH2 N u e' v v' X N' Q. assert (N1 : e1 <> Interrupted) by (destruct O; subst; discriminate).
    destruct (exec_loop_exit _ _ _ X _ _ _ _ eq_refl) as [->|]; [|congruence].
    apply exec_loop_iff in X as [(u' & -> & X)|(u1 & u2 & f1 & -> & O' & X & Y)]; injection Q as Q; rewrite <- app_assoc in Q.
    + destruct (IH N1 _ _ _ _ X ltac:(discriminate) Q) as (_ & Z & _). subst e1. destruct O; discriminate.
    + rewrite <- app_assoc in Q. destruct (IH N1 _ _ _ _ X ltac:(destruct O'; subst; discriminate) Q) as (-> & _ & Z).
      destruct (IH2 N _ _ _ _ Y ltac:(discriminate) Z) as (-> & -> & ->). auto.
  - intros N u e' v v' X N' Q. inversion X; subst; [congruence|]. auto.
  - intros N u e' v v' X N' Q. inversion X; subst; [congruence|]. auto.
  - intros N u e' v v' X N' Q. apply exec_nil_iff in X as [-> ->]. auto.
  - intros c l t1 t2 e H1 IH1 H2 IH2 N u e' v v' X N' Q. rewrite <- app_assoc in Q. apply exec_cons_iff in X as [(u1 & u2 & -> & X & Y)|[N2 X]].
    + rewrite <- app_assoc in Q. destruct (IH1 ltac:(discriminate) _ _ _ _ X ltac:(discriminate) Q) as (-> & _ & Z).
      destruct (IH2 N _ _ _ _ Y N' Z) as (-> & -> & ->). auto.
    + destruct (IH1 ltac:(discriminate) _ _ _ _ X N' Q) as (_ & Z & _). congruence.
  - intros c l t e H IH N2 N u e' v v' X N' Q. apply exec_cons_iff in X as [(u1 & u2 & -> & X & Y)|[N3 X]].
    + rewrite <- app_assoc in Q. destruct (IH N _ _ _ _ X ltac:(discriminate) Q) as (_ & Z & _). congruence.
    + exact (IH N _ _ _ _ X N' Q).
Qed.

(** ** The three ways to measure them, at once *)
Section Measure.
Context {A : Type} (none empty step : A) (or_ then_ : A -> A -> A) (endless : A -> A) (possible : A -> bool).
Context (says : (list event -> Prop) -> A -> Prop).
Context (says_iff : forall S T a, (forall t, S t <-> T t) -> says S a -> says T a).
Context (says_none : forall S, (forall t, ~ S t) -> says S none).
Context (says_empty : says (fun t => t = []) empty).
Context (says_step : forall x, says (fun t => t = [x]) step).
Context (says_possible : forall S a, says S a -> (possible a = true <-> exists t, S t)).
Context (says_or : forall S T a b, says S a -> says T b -> (forall t, S t -> T t -> False) -> says (fun t => S t \/ T t) (or_ a b)).
Context (says_then : forall S T a b, says S a -> says T b -> (forall t u v v', S t -> S u -> t ++ v = u ++ v' -> t = u) ->
  says (fun t => exists t1 t2, t = t1 ++ t2 /\ S t1 /\ T t2) (then_ a b)).
Context (shared : forall a b, or_ (then_ step a) (then_ step b) = then_ step (or_ a b)).
Context (says_endless : forall S T a L x, says S a -> (exists t, T t) ->
  (forall t, L t <-> (exists u, t = x :: u /\ S u) \/ (exists t1 t2, t = x :: t1 ++ t2 /\ T t1 /\ L t2)) -> says L (endless a)).
Notation al := (along none empty step or_ then_ endless possible).

Lemma says_cons : forall S a x, says S a -> says (fun t => exists u, t = x :: u /\ S u) (then_ step a).
Proof.
  intros S a x H. apply (says_iff (fun t => exists t1 t2, t = t1 ++ t2 /\ t1 = [x] /\ S t2)).
  - intros t. split; [intros (t1 & t2 & -> & -> & X); exists t2; auto|intros (u & -> & X); exists [x], u; auto].
  - apply says_then; [apply says_step|exact H|]. intros t u v v' -> -> _. reflexivity.
Qed.
Lemma says_fork : forall S T a b x y, x <> y -> says S a -> says T b ->
  says (fun t => (exists u, t = x :: u /\ S u) \/ (exists u, t = y :: u /\ T u)) (then_ step (or_ a b)).
Proof. intros S T a b x y N HS HT. rewrite <- shared. apply says_or; [apply says_cons; exact HS|apply says_cons; exact HT|]. intros t (u & -> & _) (v & Q & _). congruence. Qed.

Theorem measured : forall c e, e <> Interrupted -> says (fun t => exec c t e) (al c e).
Proof.
  induction c as [id|l IH|id lhs rhs h w IHl IHr|id inner h w IHi| |] using chain_ind'; intros e N; cbn [along].
  - apply (says_iff (fun t => t = [(id, None)] /\ e = Normal)); [intros t; symmetry; apply exec_atom_iff; exact N|].
    destruct e; cbn [if_normal]; try (apply says_none; intros t [_ X]; discriminate X).
    apply (says_iff (fun t => t = [(id, None)])); [intuition|apply says_step].
  - apply (says_iff (fun t => exec_list l t e)); [intros t; symmetry; apply exec_block_iff; exact N|].
    induction IH as [|c l H F IH]; cbn [along_list].
    + apply (says_iff (fun t => t = [] /\ e = Normal)); [intros t; symmetry; apply exec_nil_iff|].
      destruct e; cbn [if_normal]; try (apply says_none; intros t [_ X]; discriminate X).
      apply (says_iff (fun t => t = [])); [intuition|apply says_empty].
    + apply (says_iff (fun t => (exists t1 t2, t = t1 ++ t2 /\ exec c t1 Normal /\ exec_list l t2 e) \/ (e <> Normal /\ exec c t e))); [intros t; symmetry; apply exec_cons_iff|].
      apply says_or.
      * apply says_then; [apply H; discriminate|exact IH|]. intros t u v v' X Y Q. exact (proj1 (proj1 exact_both c t Normal X ltac:(discriminate) u Normal v v' Y ltac:(discriminate) Q)).
      * destruct e; try (apply says_none; intros t [X _]; congruence);
          (eapply says_iff; [|apply H; exact N]; intros t; cbn; split; [intros X; split; [discriminate|exact X]|intros [_ X]; exact X]).
      * intros t (t1 & t2 & -> & X & _) [NN Y]. destruct (proj1 exact_both c _ _ X ltac:(discriminate) _ _ t2 [] Y N ltac:(rewrite app_nil_r; reflexivity)) as (_ & Z & _). congruence.
  - apply (says_iff (fun t => (exists u, t = (id, Some true) :: u /\ exec lhs u e) \/ (exists u, t = (id, Some false) :: u /\ exec rhs u e)));
      [intros t; symmetry; apply exec_selection_iff; exact N|]. apply says_fork; [discriminate|apply IHl; exact N|apply IHr; exact N].
  - destruct (match e with Normal => true | _ => false end) eqn:K.
    2: { assert (X : if_normal none e (if possible (al inner Normal) || possible (al inner Continued) then endless (al inner Broke) else then_ step (al inner Broke)) = none)
           by (destruct e; try reflexivity; discriminate K).
         rewrite X. apply says_none. intros t H. destruct (exec_loop_exit _ _ _ H _ _ _ _ eq_refl) as [->| ->]; [discriminate K|congruence]. }
    destruct e; try discriminate K. cbn [if_normal].
    pose proof (says_possible _ _ (IHi Normal ltac:(discriminate))) as PN. pose proof (says_possible _ _ (IHi Continued ltac:(discriminate))) as PC.
    destruct (possible (al inner Normal) || possible (al inner Continued)) eqn:P.
    + apply (says_endless (fun t => exec inner t Broke) (fun t => exec inner t Normal \/ exec inner t Continued) _ _ (id, None)).
      * apply IHi. discriminate.
      * apply orb_true_iff in P as [P|P]; [apply PN in P as [t P]|apply PC in P as [t P]]; eauto.
      * intros t. rewrite exec_loop_iff. split; (intros [X|(t1 & t2 & X)]; [left; exact X|right]).
        -- destruct X as (e1 & -> & O & X & Y). exists t1, t2. split; [reflexivity|]. split; [destruct O; subst; auto|exact Y].
        -- destruct X as (-> & [X|X] & Y); exists t1, t2; eexists; (split; [reflexivity|]); (split; [|split; [exact X|exact Y]]); auto.
    + apply orb_false_iff in P as [P1 P2].
      apply (says_iff (fun t => exists t1 t2, t = t1 ++ t2 /\ t1 = [(id, None)] /\ exec inner t2 Broke)).
      * intros t. rewrite exec_loop_iff. split; [intros (t1 & t2 & -> & -> & X); left; exists t2; split; [reflexivity|exact X]|].
        intros [(u & Q & X')|(t1 & t2 & e1 & Q & O & X' & Y)]; subst t; [exists [(id, None)], u; auto|exfalso].
        destruct O; subst e1; [rewrite (proj2 PN) in P1 by eauto; discriminate|rewrite (proj2 PC) in P2 by eauto; discriminate].
      * apply says_then; [apply says_step|apply IHi; discriminate|]. intros t u v v' -> -> _. reflexivity.
  - destruct e; try (apply says_none; intros t X; inversion X; congruence). eapply says_iff; [|apply says_empty].
    intros t. split; [intros ->; constructor|intros X; inversion X; reflexivity].
  - destruct e; try (apply says_none; intros t X; inversion X; congruence). eapply says_iff; [|apply says_empty].
    intros t. split; [intros ->; constructor|intros X; inversion X; reflexivity].
Qed.
End Measure.

(** ** How long they are *)
Definition sizes (S : list event -> Prop) (k : nat) : Prop := exists t, S t /\ length t = k.
Lemma sizes_iff : forall (S T : list event -> Prop), (forall t, S t <-> T t) -> forall k, sizes S k <-> sizes T k.
Proof. intros S T H k. unfold sizes. split; intros (t & X & Y); exists t; (split; [apply H; exact X|exact Y]). Qed.
Lemma endless_inv : forall (S T L : list event -> Prop) x, (forall t, L t <-> (exists u, t = x :: u /\ S u) \/ (exists t1 t2, t = x :: t1 ++ t2 /\ T t1 /\ L t2)) ->
  forall t, L t -> exists u, S u /\ length u < length t.
Proof.
  intros S T L x H t. remember (length t) as n eqn:Q. assert (Q' : length t <= n) by lia. clear Q. revert t Q'.
  induction n as [|n IH]; intros t Q X; apply H in X as [(u & -> & X)|(t1 & t2 & -> & X & Y)]; cbn in Q; try lia.
  - exists u. split; [exact X|lia].
  - rewrite app_length in Q. destruct (IH t2 ltac:(lia) Y) as (u & Z & W). exists u. split; [exact Z|lia].
Qed.
Lemma endless_long : forall (S T L : list event -> Prop) x, (forall t, L t <-> (exists u, t = x :: u /\ S u) \/ (exists t1 t2, t = x :: t1 ++ t2 /\ T t1 /\ L t2)) ->
  (exists t, T t) -> (exists t, S t) -> forall n, exists t, L t /\ n <= length t.
Proof.
  intros S T L x H [t1 X] [u Y]. induction n as [|n (t & Z & W)]; [exists (x :: u); split; [apply H; left; eauto|lia]|].
  exists (x :: t1 ++ t). split; [apply H; right; eauto|]. cbn. rewrite app_length. lia.
Qed.
Lemma most_inhabited : forall (S : list event -> Prop) a, at_most (sizes S) a -> (a <> Never <-> exists t, S t).
Proof.
  intros S [|n|] H; cbn in H.
  - split; [congruence|intros [t X]; exfalso; apply (H (length t)); exists t; auto].
  - split; [intros _; destruct H as [(t & X & _) _]; eauto|discriminate].
  - split; [intros _; destruct (H 0) as (k & (t & X & _) & _); eauto|discriminate].
Qed.

Theorem longest_chain : forall c e, e <> Interrupted -> at_most (sizes (fun t => exec c t e)) (longest c e).
Proof.
  unfold longest. apply (measured _ _ _ _ _ _ _ (fun S a => at_most (sizes S) a)).
  - intros S T [|n|] H X; cbn in *.
    + intros k Y. apply (X k). apply (sizes_iff S T H). exact Y.
    + split; [apply (sizes_iff S T H); apply X|]. intros k Y. apply X. apply (sizes_iff S T H). exact Y.
    + intros n. destruct (X n) as (k & Y & Z). exists k. split; [apply (sizes_iff S T H); exact Y|exact Z].
  - intros S H k (t & X & _). exact (H t X).
  - split; [exists []; auto|]. intros k (t & -> & <-). cbn. lia.
  - intros x. split; [exists [x]; auto|]. intros k (t & -> & <-). cbn. lia.
  - intros S a H. rewrite <- (most_inhabited S a H). destruct a; split; congruence.
  - intros S T a b HS HT _. destruct a as [|n|], b as [|k|]; cbn in *.
    + intros k (t & [X|X] & Y); [apply (HS k)|apply (HT k)]; exists t; auto.
    + destruct HT as [(t & X & Y) Z]. split; [exists t; auto|]. intros j (u & [W|W] & V); [exfalso; apply (HS j); exists u; auto|apply Z; exists u; auto].
    + intros n. destruct (HT n) as (j & (t & X & Y) & Z). exists j. split; [exists t; auto|exact Z].
    + destruct HS as [(t & X & Y) Z]. split; [exists t; auto|]. intros j (u & [W|W] & V); [apply Z; exists u; auto|exfalso; apply (HT j); exists u; auto].
    + destruct HS as [(t & X & Y) Z], HT as [(t' & X' & Y') Z']. split.
      * destruct (Nat.max_spec n k) as [[_ ->]|[_ ->]]; [exists t'; auto|exists t; auto].
      * intros j (u & [W|W] & V); [pose proof (Z j ltac:(exists u; auto))|pose proof (Z' j ltac:(exists u; auto))]; lia.
    + intros j. destruct (HT j) as (i & (t & X & Y) & Z). exists i. split; [exists t; auto|exact Z].
    + intros j. destruct (HS j) as (i & (t & X & Y) & Z). exists i. split; [exists t; auto|exact Z].
    + intros j. destruct (HS j) as (i & (t & X & Y) & Z). exists i. split; [exists t; auto|exact Z].
    + intros j. destruct (HS j) as (i & (t & X & Y) & Z). exists i. split; [exists t; auto|exact Z].
  - intros S T a b HS HT _. assert (Z : (exists t, S t) -> (exists t, T t) -> most_then a b = NoLimit \/ exists n k, a = UpTo n /\ b = UpTo k).
    { intros X Y. apply (most_inhabited _ _ HS) in X. apply (most_inhabited _ _ HT) in Y. destruct a, b; cbn; try congruence; eauto. }
    destruct a as [|n|]; [|destruct b as [|k|]|destruct b as [|k|]]; cbn [most_then at_most] in *.
    + intros k (t & (t1 & t2 & _ & X & _) & _). apply (HS (length t1)). exists t1. auto.
    + intros k (t & (t1 & t2 & _ & _ & X) & _). apply (HT (length t2)). exists t2. auto.
    + destruct HS as [(t & X & Y) V], HT as [(u & X' & Y') V']. split.
      * exists (t ++ u). split; [exists t, u; auto|]. rewrite app_length. lia.
      * intros j (w & (t1 & t2 & -> & W1 & W2) & <-). rewrite app_length. pose proof (V (length t1) ltac:(exists t1; auto)). pose proof (V' (length t2) ltac:(exists t2; auto)). lia.
    + destruct HS as [(t & X & Y) _]. intros j. destruct (HT j) as (i & (u & X' & Y') & W). exists (n + i). split; [|lia]. exists (t ++ u). split; [exists t, u; auto|]. rewrite app_length. lia.
    + intros k (t & (t1 & t2 & _ & _ & X) & _). apply (HT (length t2)). exists t2. auto.
    + destruct HT as [(t & X & Y) _]. intros j. destruct (HS j) as (i & (u & X' & Y') & W). exists (i + k). split; [|lia]. exists (u ++ t). split; [exists u, t; auto|]. rewrite app_length. lia.
    + intros j. destruct (HS j) as (i & (u & X' & Y') & W). destruct (HT 0) as (i' & (t & X & Y) & _). exists (i + i'). split; [|lia]. exists (u ++ t). split; [exists u, t; auto|]. rewrite app_length. lia.
  - intros [|n|] [|k|]; reflexivity.
  - intros S T a L x HS HT HL. pose proof (most_inhabited S a HS) as I. destruct a as [|n|].
    + intros k (t & X & _). destruct (endless_inv S T L x HL t X) as (u & Y & _). apply (proj2 I); eauto.
    + intros j. destruct (endless_long S T L x HL HT (proj1 I ltac:(discriminate)) j) as (t & X & Y). exists (length t). split; [exists t; auto|exact Y].
    + intros j. destruct (endless_long S T L x HL HT (proj1 I ltac:(discriminate)) j) as (t & X & Y). exists (length t). split; [exists t; auto|exact Y].
Qed.

Lemma least_inhabited : forall (S : list event -> Prop) a, at_least (sizes S) a -> (a <> None <-> exists t, S t).
Proof.
  intros S [n|] H; cbn in H.
  - split; [intros _; destruct H as [(t & X & _) _]; eauto|discriminate].
  - split; [congruence|intros [t X]; exfalso; apply (H (length t)); exists t; auto].
Qed.
Theorem shortest_chain : forall c e, e <> Interrupted -> at_least (sizes (fun t => exec c t e)) (shortest c e).
Proof.
  unfold shortest. apply (measured _ _ _ _ _ _ _ (fun S a => at_least (sizes S) a)).
  - intros S T [n|] H X; cbn in *.
    + split; [apply (sizes_iff S T H); apply X|]. intros k Y. apply X. apply (sizes_iff S T H). exact Y.
    + intros k Y. apply (X k). apply (sizes_iff S T H). exact Y.
  - intros S H k (t & X & _). exact (H t X).
  - split; [exists []; auto|]. intros k (t & -> & <-). cbn. lia.
  - intros x. split; [exists [x]; auto|]. intros k (t & -> & <-). cbn. lia.
  - intros S a H. rewrite <- (least_inhabited S a H). destruct a; split; congruence.
  - intros S T a b HS HT _. destruct a as [n|], b as [k|]; cbn in *.
    + destruct HS as [(t & X & Y) Z], HT as [(t' & X' & Y') Z']. split.
      * destruct (Nat.min_spec n k) as [[_ ->]|[_ ->]]; [exists t; auto|exists t'; auto].
      * intros j (u & [W|W] & V); [pose proof (Z j ltac:(exists u; auto))|pose proof (Z' j ltac:(exists u; auto))]; lia.
    + destruct HS as [(t & X & Y) Z]. split; [exists t; auto|]. intros j (u & [W|W] & V); [apply Z; exists u; auto|exfalso; apply (HT j); exists u; auto].
    + destruct HT as [(t & X & Y) Z]. split; [exists t; auto|]. intros j (u & [W|W] & V); [exfalso; apply (HS j); exists u; auto|apply Z; exists u; auto].
    + intros k (t & [X|X] & Y); [apply (HS k)|apply (HT k)]; exists t; auto.
  - intros S T a b HS HT _. destruct a as [n|]; [destruct b as [k|]|]; cbn [least_then at_least] in *.
    + destruct HS as [(t & X & Y) V], HT as [(u & X' & Y') V']. split.
      * exists (t ++ u). split; [exists t, u; auto|]. rewrite app_length. lia.
      * intros j (w & (t1 & t2 & -> & W1 & W2) & <-). rewrite app_length. pose proof (V (length t1) ltac:(exists t1; auto)). pose proof (V' (length t2) ltac:(exists t2; auto)). lia.
    + intros k (t & (t1 & t2 & _ & _ & X) & _). apply (HT (length t2)). exists t2. auto.
    + intros k (t & (t1 & t2 & _ & X & _) & _). apply (HS (length t1)). exists t1. auto.
  - intros [n|] [k|]; reflexivity.
  - intros S T a L x HS HT HL. destruct a as [n|]; cbn [least_then at_least] in *.
    + destruct HS as [(t & X & Y) V]. split; [exists (x :: t); split; [apply HL; left; eauto|cbn; lia]|].
      intros k (u & Z & <-). destruct (endless_inv S T L x HL u Z) as (w & W & Q). pose proof (V (length w) ltac:(exists w; auto)). lia.
    + intros k (t & X & _). destruct (endless_inv S T L x HL t X) as (u & Y & _). apply (HS (length u)). exists u. auto.
Qed.

(** ** How many there are *)
Lemma many_inhabited : forall (S : list event -> Prop) a, so_many S a -> (a <> Exactly 0 <-> exists t, S t).
Proof.
  intros S [n|] H; cbn in H.
  - destruct H as (l & L & _ & H). destruct l as [|t l]; cbn in L; subst n.
    + split; [congruence|]. intros [t X]. apply H in X. destruct X.
    + split; [intros _; exists t; apply H; left; reflexivity|discriminate].
  - split; [intros _; destruct (H 1) as ([|t l] & L & _ & H'); [discriminate L|exists t; apply H'; left; reflexivity]|discriminate].
Qed.
Lemma long_many : forall S : list event -> Prop, (forall n, exists t, S t /\ n <= length t) -> so_many S Infinite.
Proof.
  intros S H. cbn. induction n as [|n (l & L & N & I)]; [exists []; split; [reflexivity|split; [constructor|intros x []]]|].
  destruct (H (1 + list_sum (map (@length event) l))) as (t & X & Y). exists (t :: l). split; [cbn; lia|]. split.
  - constructor; [|exact N]. intros Z. assert (W : length t <= list_sum (map (@length event) l)); [|lia]. clear -Z.
    induction l as [|u l IH]; [destruct Z|]. change (length t <= length u + list_sum (map (@length event) l)). destruct Z as [->|Z]; [lia|specialize (IH Z); lia].
  - intros x [<-|Z]; auto.
Qed.
Lemma NoDup_map_inj : forall {A B} (f : A -> B) l, (forall x y, In x l -> In y l -> f x = f y -> x = y) -> NoDup l -> NoDup (map f l).
Proof.
  intros A B f l H N. induction N as [|x l X N IH]; cbn; constructor.
  - intros Y. apply in_map_iff in Y as (y & Q & Y). apply X. rewrite (H x y); auto; [left; reflexivity|right; exact Y].
  - apply IH. intros y z Y Z. apply H; right; assumption.
Qed.
Lemma NoDup_app_intro : forall {A} (l l' : list A), NoDup l -> NoDup l' -> (forall x, In x l -> In x l' -> False) -> NoDup (l ++ l').
Proof.
  intros A l l' N N' D. induction N as [|x l X N IH]; [exact N'|]. cbn. constructor.
  - rewrite in_app_iff. intros [Y|Y]; [contradiction|]. apply (D x); [left; reflexivity|exact Y].
  - apply IH. intros y Y. apply D. right. exact Y.
Qed.
Lemma product : forall (l l' : list (list event)), NoDup l -> NoDup l' -> (forall t u v v', In t l -> In u l -> t ++ v = u ++ v' -> t = u) ->
  let p := flat_map (fun t => map (app t) l') l in length p = length l * length l' /\ NoDup p /\ forall t, In t p <-> exists t1 t2, t = t1 ++ t2 /\ In t1 l /\ In t2 l'.
Proof.
  intros l l' N N' D p. subst p. induction N as [|x l X N IH].
  - split; [reflexivity|]. split; [constructor|]. intros t. split; [intros []|intros (t1 & t2 & _ & [] & _)].
  - destruct IH as (L & M & I); [intros t u v v' T U; apply D; right; assumption|]. cbn [flat_map length]. split; [rewrite app_length, map_length, L; lia|]. split.
    + apply NoDup_app_intro; [|exact M|].
      * apply NoDup_map_inj; [|exact N']. intros y z _ _ Q. apply app_inv_head in Q. exact Q.
      * intros t Y Z. apply in_map_iff in Y as (u & <- & Y). apply I in Z as (t1 & t2 & Q & Z & _). apply X.
        rewrite (D x t1 u t2); [exact Z|left; reflexivity|right; exact Z|exact Q].
    + intros t. rewrite in_app_iff, in_map_iff, I. split.
      * intros [(u & <- & Y)|(t1 & t2 & -> & Y & Z)]; [exists x, u|exists t1, t2]; (split; [reflexivity|]); split; try assumption; [left; reflexivity|right; exact Y].
      * intros (t1 & t2 & -> & [<-|Y] & Z); [left; exists t2; auto|right; eauto].
Qed.

Theorem number_chain : forall c e, e <> Interrupted -> so_many (fun t => exec c t e) (number c e).
Proof.
  unfold number. apply (measured _ _ _ _ _ _ _ (fun S a => so_many S a)).
  - intros S T [n|] H X; cbn in *.
    + destruct X as (l & L & N & I). exists l. split; [exact L|]. split; [exact N|]. intros t. rewrite <- H. apply I.
    + intros n. destruct (X n) as (l & L & N & I). exists l. split; [exact L|]. split; [exact N|]. intros t Y. apply H. apply I. exact Y.
  - intros S H. exists []. split; [reflexivity|]. split; [constructor|]. intros t. split; [apply H|intros []].
  - exists [[]]. split; [reflexivity|]. split; [constructor; [intros []|constructor]|]. intros t. cbn. intuition.
  - intros x. exists [[x]]. split; [reflexivity|]. split; [constructor; [intros []|constructor]|]. intros t. cbn. intuition.
  - intros S a H. rewrite <- (many_inhabited S a H). destruct a as [[|n]|]; split; congruence.
  - intros S T a b HS HT D. destruct a as [n|]; [destruct b as [k|]|]; cbn [many_or so_many] in *.
    + destruct HS as (l & L & N & I), HT as (l' & L' & N' & I'). exists (l ++ l'). split; [rewrite app_length; lia|]. split.
      * apply NoDup_app_intro; [exact N|exact N'|]. intros t X Y. apply (D t); [apply I; exact X|apply I'; exact Y].
      * intros t. rewrite in_app_iff, I, I'. reflexivity.
    + intros j. destruct (HT j) as (l & L & N & I). exists l. split; [exact L|]. split; [exact N|]. auto.
    + intros j. destruct (HS j) as (l & L & N & I). exists l. split; [exact L|]. split; [exact N|]. auto.
  - intros S T a b HS HT D. pose proof (many_inhabited S a HS) as IS. pose proof (many_inhabited T b HT) as IT.
    assert (Z : a = Exactly 0 \/ b = Exactly 0 -> so_many (fun t => exists t1 t2, t = t1 ++ t2 /\ S t1 /\ T t2) (Exactly 0)).
    { intros Q. exists []. split; [reflexivity|]. split; [constructor|]. intros t. split; [|intros []]. intros (t1 & t2 & _ & X & Y).
      destruct Q as [Q|Q]; [apply (proj2 IS)|apply (proj2 IT)]; eauto. }
    assert (INF : a = Infinite -> (exists t, T t) -> so_many (fun t => exists t1 t2, t = t1 ++ t2 /\ S t1 /\ T t2) Infinite).
    { intros -> [t2 Y] j. destruct (HS j) as (l & L & N & I). exists (map (fun t => t ++ t2) l). split; [rewrite map_length; exact L|]. split.
      - apply NoDup_map_inj; [|exact N]. intros x y X X' Q. apply app_inv_tail in Q. exact Q.
      - intros t X. apply in_map_iff in X as (t1 & <- & X). exists t1, t2. auto. }
    assert (INF' : b = Infinite -> (exists t, S t) -> so_many (fun t => exists t1 t2, t = t1 ++ t2 /\ S t1 /\ T t2) Infinite).
    { intros -> [t1 Y] j. destruct (HT j) as (l & L & N & I). exists (map (app t1) l). split; [rewrite map_length; exact L|]. split.
      - apply NoDup_map_inj; [|exact N]. intros x y X X' Q. apply app_inv_head in Q. exact Q.
      - intros t X. apply in_map_iff in X as (t2 & <- & X). exists t1, t2. auto. }
    destruct a as [[|n]|]; [apply Z; auto| |].
    + destruct b as [[|k]|]; [apply Z; auto| |].
      * cbn [many_then]. destruct HS as (l & L & N & I), HT as (l' & L' & N' & I').
        destruct (product l l' N N') as (P1 & P2 & P3); [intros t u v v' X Y; apply D; apply I; assumption|].
        eexists. split; [rewrite <- L, <- L'; exact P1|]. split; [exact P2|]. intros t. rewrite P3. split; intros (t1 & t2 & Q & X & Y); exists t1, t2; (split; [exact Q|]); split; first [apply I; exact X | apply I'; exact Y].
      * cbn [many_then]. apply INF'; [reflexivity|]. apply IS. discriminate.
    + destruct b as [[|k]|]; [apply Z; auto| |]; cbn [many_then]; (apply INF; [reflexivity|]; apply IT; discriminate).
  - intros [[|n]|] [[|k]|]; cbn; rewrite ?Nat.add_0_r; try reflexivity.
  - intros S T a L x HS HT HL. pose proof (many_inhabited S a HS) as I. destruct a as [[|n]|].
    + exists []. split; [reflexivity|]. split; [constructor|]. intros t. split; [|intros []]. intros X. destruct (endless_inv S T L x HL t X) as (u & Y & _). apply (proj2 I); eauto.
    + apply long_many. apply (endless_long S T L x HL HT). apply I. discriminate.
    + apply long_many. apply (endless_long S T L x HL HT). apply I. discriminate.
Qed.

(** ** Of a function *)
Lemma at_most_unique : forall S a b, at_most S a -> at_most S b -> a = b.
Proof.
  intros S [|n|] [|k|] H H'; cbn in *; try reflexivity.
  - exfalso. exact (H _ (proj1 H')).
  - exfalso. destruct (H' 0) as (j & X & _). exact (H j X).
  - exfalso. exact (H' _ (proj1 H)).
  - f_equal. apply Nat.le_antisymm; [apply H'; apply H|apply H; apply H'].
  - exfalso. destruct (H' (1 + n)) as (j & X & Y). apply H in X. lia.
  - exfalso. destruct (H 0) as (j & X & _). exact (H' j X).
  - exfalso. destruct (H (1 + k)) as (j & X & Y). apply H' in X. lia.
Qed.
Lemma at_least_unique : forall S a b, at_least S a -> at_least S b -> a = b.
Proof.
  intros S [n|] [k|] H H'; cbn in *; try reflexivity.
  - f_equal. apply Nat.le_antisymm; [apply H; apply H'|apply H'; apply H].
  - exfalso. exact (H' _ (proj1 H)).
  - exfalso. exact (H _ (proj1 H')).
Qed.
Lemma so_many_unique : forall A (S : A -> Prop) a b, so_many S a -> so_many S b -> a = b.
Proof.
  assert (X : forall A (S : A -> Prop) n, so_many S (Exactly n) -> so_many S Infinite -> False).
  { intros A S n (l & L & N & I) H. destruct (H (1 + n)) as (l' & L' & N' & I'). pose proof (NoDup_incl_length N' (fun x Y => proj1 (I x) (I' x Y))). lia. }
  intros A S [n|] [k|] H H'; try reflexivity; [f_equal|exfalso; eapply X; eassumption|exfalso; eapply X; eassumption].
  destruct H as (l & L & N & I), H' as (l' & L' & N' & I'). subst n k.
  apply Nat.le_antisymm; apply NoDup_incl_length; try assumption; intros x Y; [apply I', I|apply I, I']; exact Y.
Qed.

Section Function.
Context {E : Type} (f : FunctionDefinition E) depth chain (R : find_control_flow depth f = Ok chain).
Lemma lengths_sizes : forall k, sizes (fun t => exec chain t Normal) k <-> lengths f k.
Proof. intros k. unfold sizes, lengths. split; intros (t & X & Y); exists t; (split; [apply (runs_complete f depth chain R); exact X|exact Y]). Qed.
Theorem longest_iff : forall a, at_most (lengths f) a <-> longest chain Normal = a.
Proof.
  assert (X : at_most (lengths f) (longest chain Normal)).
  { pose proof (longest_chain chain Normal ltac:(discriminate)) as X. destruct (longest chain Normal) as [|n|]; cbn in *.
    - intros k Y. apply (X k). apply lengths_sizes. exact Y.
    - split; [apply lengths_sizes; apply X|]. intros k Y. apply X. apply lengths_sizes. exact Y.
    - intros n. destruct (X n) as (k & Y & Z). exists k. split; [apply lengths_sizes; exact Y|exact Z]. }
  intros a. split; [intros Y; exact (at_most_unique _ _ _ X Y)|intros <-; exact X].
Qed.
Theorem shortest_iff : forall a, at_least (lengths f) a <-> shortest chain Normal = a.
Proof.
  assert (X : at_least (lengths f) (shortest chain Normal)).
  { pose proof (shortest_chain chain Normal ltac:(discriminate)) as X. destruct (shortest chain Normal) as [n|]; cbn in *.
    - split; [apply lengths_sizes; apply X|]. intros k Y. apply X. apply lengths_sizes. exact Y.
    - intros k Y. apply (X k). apply lengths_sizes. exact Y. }
  intros a. split; [intros Y; exact (at_least_unique _ _ _ X Y)|intros <-; exact X].
Qed.
Theorem number_iff : forall a, so_many (complete_run f) a <-> number chain Normal = a.
Proof.
  assert (X : so_many (complete_run f) (number chain Normal)).
  { pose proof (number_chain chain Normal ltac:(discriminate)) as X. destruct (number chain Normal) as [n|]; cbn in *.
    - destruct X as (l & L & N & I). exists l. split; [exact L|]. split; [exact N|]. intros t. rewrite <- (runs_complete f depth chain R). apply I.
    - intros n. destruct (X n) as (l & L & N & I). exists l. split; [exact L|]. split; [exact N|]. intros t Y. apply (runs_complete f depth chain R). apply I. exact Y. }
  intros a. split; [intros Y; exact (so_many_unique _ _ _ _ X Y)|intros <-; exact X].
Qed.
End Function.

(** ** There are infinitely many exactly if they can be arbitrarily long *)
Definition agree (a : most) (b : many) : Prop :=
  match a, b with Never, Exactly 0 | UpTo _, Exactly (S _) | NoLimit, Infinite => True | _, _ => False end.
Lemma agree_or : forall a b c d, agree a b -> agree c d -> agree (most_or a c) (many_or b d).
Proof. intros [|n|] [[|k]|] [|i|] [[|j]|] H H'; try exact I; try contradiction. Qed.
Lemma agree_then : forall a b c d, agree a b -> agree c d -> agree (most_then a c) (many_then b d).
Proof. intros [|n|] [[|k]|] [|i|] [[|j]|] H H'; try exact I; try contradiction. Qed.
Lemma agree_chain : forall c e, agree (longest c e) (number c e).
Proof.
  unfold longest, number. induction c as [id|l IH|id lhs rhs h w IHl IHr|id inner h w IHi| |] using chain_ind'; intros e; cbn [along].
  - destruct e; exact I.
  - induction IH as [|c l H F IH]; cbn [along_list]; [destruct e; exact I|]. apply agree_or; [apply agree_then; [apply H|exact IH]|]. destruct e; try exact I; apply H.
  - apply agree_then; [exact I|]. apply agree_or; [apply IHl|apply IHr].
  - destruct e; try exact I. cbn [if_normal]. pose proof (IHi Normal) as A. pose proof (IHi Continued) as B. pose proof (IHi Broke) as C.
    match goal with |- agree (if ?p || ?q then _ else _) (if ?p' || ?q' then _ else _) => assert (X : p = p'); [|assert (Y : q = q')] end.
    { clear -A. match goal with |- match ?x with _ => _ end = match ?y with _ => _ end => destruct x, y as [[|]|]; try reflexivity; contradiction end. }
    { clear -B. match goal with |- match ?x with _ => _ end = match ?y with _ => _ end => destruct x, y as [[|]|]; try reflexivity; contradiction end. }
    rewrite X, Y. clear X Y A B. match goal with |- agree (if ?p then _ else _) _ => destruct p end; [|apply agree_then; [exact I|exact C]].
    match goal with |- agree (match ?x with _ => _ end) (match ?y with _ => _ end) => destruct x, y as [[|]|]; try exact I; contradiction end.
  - destruct e; exact I.
  - destruct e; exact I.
Qed.
Theorem infinite_iff : forall E (f : FunctionDefinition E) depth chain, find_control_flow depth f = Ok chain ->
  (so_many (complete_run f) Infinite <-> forall n, exists k, lengths f k /\ n <= k).
Proof.
  intros E f depth chain R. rewrite (number_iff f depth chain R). change (forall n, exists k, lengths f k /\ n <= k) with (at_most (lengths f) NoLimit).
  rewrite (longest_iff f depth chain R). pose proof (agree_chain chain Normal) as X. destruct (longest chain Normal), (number chain Normal) as [[|]|]; try contradiction; split; congruence.
Qed.
