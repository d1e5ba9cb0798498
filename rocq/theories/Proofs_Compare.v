(** Comparing modules with the user's eq: C106. *)
From Verif Require Import Base Types Ops Groups EqBase Equality ModuleState Spec_Layout Spec_Equality Spec_UserCode
  Proofs_Equality Proofs_Equality2 Proofs_UserCode.

Section Compare.
Context {E W : Type} (eq : E -> E -> W -> option bool * W).

Lemma answers_app : forall a b w r w', answers eq w (a ++ b) r w' <->
  (exists w1, answers eq w a (Some true) w1 /\ answers eq w1 b r w') \/ (r <> Some true /\ answers eq w a r w').
Proof.
  induction a as [|q a IH]; intros b w r w'.
  - cbn. split.
    + intros H. left. exists w. split; [constructor|exact H].
    + intros [(w1 & H1 & H2)|[N H]]; [inversion H1; subst; exact H2|]. inversion H; subst. destruct (N eq_refl).
  - cbn. split.
    + intros H. inversion H; subst.
      * match goal with K : answers _ _ (a ++ b) _ _ |- _ => apply IH in K; destruct K as [(w1 & H1 & H2)|[N H1]] end.
        -- left. exists w1. split; [constructor; assumption|exact H2].
        -- right. split; [exact N|constructor; assumption].
      * right. split; [discriminate|constructor; assumption].
      * match goal with K : answers _ _ (a ++ b) _ _ |- _ => apply IH in K; destruct K as [(w2 & H1 & H2)|[N H1]] end.
        -- left. exists w2. split; [econstructor; eassumption|exact H2].
        -- right. split; [exact N|econstructor; eassumption].
      * right. split; [discriminate|econstructor; eassumption].
      * right. split; [discriminate|econstructor; eassumption].
    + intros [(w1 & H1 & H2)|[N H]].
      * inversion H1; subst; (econstructor; [eassumption|]; apply IH; left; eexists; split; eassumption).
      * inversion H; subst.
        -- apply is_same; [assumption|]. apply IH. right. split; assumption.
        -- apply is_different. assumption.
        -- eapply user_says_yes; [eassumption|]. apply IH. right. split; assumption.
        -- eapply user_says_no. eassumption.
        -- eapply user_panics. eassumption.
Qed.

(** A comparison that puts these questions. *)
Definition puts (m : erun) (qs : list (question E)) : Prop := forall w r w', m w = (r, w') <-> answers eq w qs r w'.

Lemma puts_pure : forall b (P : Prop), (b = true <-> P) -> puts (epure b) [Same P].
Proof.
  intros b P H w r w'. unfold epure. split.
  - intros [= <- <-]. destruct b; [apply is_same; [apply H; reflexivity|constructor]|apply is_different]. intros p. apply H in p. discriminate.
  - intros A. inversion A; subst.
    + match goal with K : answers _ _ [] _ _ |- _ => inversion K; subst end. replace b with true; [reflexivity|]. symmetry. apply H. assumption.
    + destruct b; [|reflexivity]. match goal with K : ~ P |- _ => destruct K end. apply H. reflexivity.
Qed.
Lemma puts_ask : forall x y, puts (eq x y) [Ask x y].
Proof.
  intros x y w r w'. split.
  - intros H. destruct r as [[|]|]; [eapply user_says_yes; [exact H|constructor]|eapply user_says_no; exact H|eapply user_panics; exact H].
  - intros A. inversion A; subst; try assumption. match goal with K : answers _ _ [] _ _ |- _ => inversion K; subst end. assumption.
Qed.
Lemma puts_and : forall m n a b, puts m a -> puts n b -> puts (eand m n) (a ++ b).
Proof.
  intros m n a b M N w r w'. rewrite answers_app. unfold eand. destruct (m w) as [[[|]|] w1] eqn:H; split.
  - intros K. left. exists w1. split; [apply M; exact H|apply N; exact K].
  - intros [(w2 & H1 & H2)|[D H1]].
    + apply M in H1. apply N in H2. rewrite H in H1. injection H1 as ->. exact H2.
    + apply M in H1. rewrite H in H1. injection H1 as <- <-. destruct (D eq_refl).
  - intros [= <- <-]. right. split; [discriminate|apply M; exact H].
  - intros [(w2 & H1 & H2)|[D H1]]; apply M in H1; rewrite H in H1; [discriminate|exact H1].
  - intros [= <- <-]. right. split; [discriminate|apply M; exact H].
  - intros [(w2 & H1 & H2)|[D H1]]; apply M in H1; rewrite H in H1; [discriminate|exact H1].
Qed.
Lemma puts_true : puts (epure true) [].
Proof. intros w r w'. split; [intros [= <- <-]; constructor|intros A; inversion A; reflexivity]. Qed.
Lemma puts_items : forall A (item : A -> A -> erun) about, (forall x y, puts (item x y) (about x y)) -> forall a b,
  puts (eq_items_in item a b) (flat_map (fun p => about (fst p) (snd p)) (combine a b)).
Proof.
  intros A item about H a. induction a as [|x a IH]; intros [|y b]; try exact puts_true.
  cbn [combine flat_map fst snd]. change (eq_items_in item (x :: a) (y :: b)) with (eand (item x y) (eq_items_in item a b)).
  apply puts_and; [apply H|apply IH].
Qed.
Lemma puts_Vec : forall A (item : A -> A -> erun) about, (forall x y, puts (item x y) (about x y)) -> forall a b,
  puts (eq_Vec_in item a b) (about_lists about a b).
Proof.
  intros A item about H a b. apply (puts_and _ _ [Same (length a = length b)]); [apply puts_pure, Nat.eqb_eq|]. apply puts_items. exact H.
Qed.

(** Several comparisons of data are one. *)
Lemma merge_same : forall P Q qs w r w', answers eq w (Same P :: Same Q :: qs) r w' -> answers eq w (Same (P /\ Q) :: qs) r w'.
Proof.
  intros P Q qs w r w' A. inversion A; subst.
  - match goal with K : answers _ _ (Same Q :: _) _ _ |- _ => inversion K; subst end.
    + apply is_same; [split; assumption|assumption].
    + apply is_different. tauto.
  - apply is_different. tauto.
Qed.
Lemma puts_merged : forall m P Q (b : bool), (b = true <-> P) -> forall qs, puts m (Same Q :: qs) -> puts (eand (epure b) m) (Same (P /\ Q) :: qs).
Proof.
  intros m P Q b B qs M w r w'. pose proof (puts_and _ _ _ _ (puts_pure b P B) M w r w') as H. rewrite H. cbn [app]. split; [apply merge_same|].
  intros A. destruct b.
  - assert P as p by (apply B; reflexivity). inversion A; subst.
    + apply is_same; [exact p|]. apply is_same; [tauto|assumption].
    + apply is_same; [exact p|]. apply is_different. tauto.
  - assert (~ P) as p by (intros p; apply B in p; discriminate). inversion A; subst; [tauto|]. apply is_different. exact p.
Qed.

Lemma not_both_extended : forall (a b : Core E), ~ (exists x y, a = Core_OpExtInst x /\ b = Core_OpExtInst y) ->
  (eq_Core (fun _ _ => false) a b = true <-> a = b).
Proof.
  intros a b N. rewrite (eq_Core_alike (fun _ _ => false)). split.
  - intros A. inversion A; subst; [discriminate|reflexivity].
  - intros <-. apply alike_same. intros op ->. apply N. exists op, op. split; reflexivity.
Qed.

Lemma puts_OpExtInst : forall a b, puts (eq_OpExtInst_in eq a b) (about_instructions (Core_OpExtInst a) (Core_OpExtInst b)).
Proof.
  intros [t r s x] [t' r' s' y]. unfold eq_OpExtInst_in. cbn. apply puts_merged; [apply N.eqb_eq|]. apply puts_merged; [apply N.eqb_eq|].
  apply (puts_and _ _ [Same (s = s')] [Ask x y]); [apply puts_pure, N.eqb_eq|apply puts_ask].
Qed.
Lemma both_extended_dec : forall a b : Core E, (exists x y, a = Core_OpExtInst x /\ b = Core_OpExtInst y) \/ ~ (exists x y, a = Core_OpExtInst x /\ b = Core_OpExtInst y).
Proof.
  intros a b. destruct (plain_or_extended a) as [P|(t & r & s & x & ->)]; [right; intros (x & y & -> & _); exact (P _ eq_refl)|].
  destruct (plain_or_extended b) as [P|(t' & r' & s' & x' & ->)]; [right; intros (? & y & _ & ->); exact (P _ eq_refl)|].
  left. do 2 eexists. split; reflexivity.
Qed.
Lemma about_others : forall a b : Core E, ~ (exists x y, a = Core_OpExtInst x /\ b = Core_OpExtInst y) -> about_instructions a b = [Same (a = b)].
Proof.
  intros a b N. destruct (plain_or_extended a) as [P|(t & r & s & x & ->)].
  - destruct a; try reflexivity. destruct (P _ eq_refl).
  - destruct b; try reflexivity. destruct N. do 2 eexists. split; reflexivity.
Qed.
Lemma eq_others : forall a b : Core E, ~ (exists x y, a = Core_OpExtInst x /\ b = Core_OpExtInst y) -> eq_Core_in eq a b = epure (eq_Core (fun _ _ => false) a b).
Proof.
  intros a b N. destruct (plain_or_extended a) as [P|(t & r & s & x & ->)].
  - destruct a; try reflexivity. destruct (P _ eq_refl).
  - destruct b; try reflexivity. destruct N. do 2 eexists. split; reflexivity.
Qed.
Lemma puts_Core : forall a b, puts (eq_Core_in eq a b) (about_instructions a b).
Proof.
  intros a b. destruct (both_extended_dec a b) as [(x & y & -> & ->)|N]; [apply puts_OpExtInst|].
  rewrite (about_others _ _ N), (eq_others _ _ N). apply puts_pure. apply not_both_extended. exact N.
Qed.
Lemma eq_code_in : forall a b, eq_GroupCode_in eq a b = eq_Core_in eq (core_of_code a) (core_of_code b).
Proof.
  intros a b. destruct (both_extended_dec (core_of_code a) (core_of_code b)) as [(x & y & A & B)|N].
  - destruct a; try discriminate A. destruct b; try discriminate B. reflexivity.
  - rewrite (eq_others _ _ N), eq_code. destruct a; try reflexivity. destruct b; try reflexivity. destruct N. do 2 eexists. split; reflexivity.
Qed.

Lemma combine_map : forall {A B} (f : A -> B) a b, combine (map f a) (map f b) = map (fun p => (f (fst p), f (snd p))) (combine a b).
Proof. intros A B f a. induction a as [|x a IH]; intros [|y b]; try reflexivity. cbn. rewrite IH. reflexivity. Qed.
Lemma flat_map_map : forall {A B C} (f : A -> B) (g : B -> list C) l, flat_map g (map f l) = flat_map (fun a => g (f a)) l.
Proof. intros A B C f g l. induction l as [|a l IH]; [reflexivity|]. cbn. rewrite IH. reflexivity. Qed.

Lemma puts_code : forall a b, puts (eq_Vec_in (eq_GroupCode_in eq) (BasicBlock_code a) (BasicBlock_code b)) (about_lists about_instructions (block_code a) (block_code b)).
Proof.
  intros a b. pose proof (puts_Vec _ (eq_GroupCode_in eq) (fun g h => about_instructions (core_of_code g) (core_of_code h))) as H.
  unfold about_lists, block_code. rewrite !map_length, combine_map, flat_map_map. apply H. intros x y. rewrite eq_code_in. apply puts_Core.
Qed.

Lemma puts_BasicBlock : forall a b, puts (eq_BasicBlock_in eq a b) (about_blocks a b).
Proof.
  intros a b. unfold eq_BasicBlock_in, about_blocks. apply puts_and; [apply puts_pure, exact_iff|]. apply puts_and; [apply puts_code|].
  apply puts_merged; [apply exact_iff|]. apply puts_pure, exact_iff.
Qed.
Lemma puts_FunctionDefinition : forall a b, puts (eq_FunctionDefinition_in eq a b) (about_functions a b).
Proof.
  intros a b. unfold eq_FunctionDefinition_in, about_functions. apply puts_merged; [apply exact_iff|].
  apply (puts_and _ _ [_]); [apply puts_pure, exact_iff|]. apply puts_Vec. exact puts_BasicBlock.
Qed.
Lemma puts_LogicalModule : forall a b, puts (eq_LogicalModule_in eq a b) (about_modules a b).
Proof.
  intros a b. unfold eq_LogicalModule_in, about_modules. do 9 (apply puts_merged; [apply exact_iff|]).
  apply (puts_and _ _ [_]); [apply puts_pure, exact_iff|]. apply puts_Vec. exact puts_FunctionDefinition.
Qed.
Lemma puts_RawModule : forall a b, puts (eq_RawModule_in eq a b) (about_raw_modules a b).
Proof.
  intros a b. unfold eq_RawModule_in, about_raw_modules. do 2 (apply puts_merged; [apply exact_iff|]).
  apply (puts_and _ _ [_]); [apply puts_pure, exact_iff|]. apply puts_Vec. exact puts_Core.
Qed.

Theorem compare_exact :
  (forall a b w r w', eq_Core_in eq a b w = (r, w') <-> answers eq w (about_instructions a b) r w')
  /\ (forall a b w r w', eq_RawModule_in eq a b w = (r, w') <-> answers eq w (about_raw_modules a b) r w')
  /\ (forall a b w r w', eq_FunctionDefinition_in eq a b w = (r, w') <-> answers eq w (about_functions a b) r w')
  /\ (forall a b w r w', eq_LogicalModule_in eq a b w = (r, w') <-> answers eq w (about_modules a b) r w').
Proof.
  split; [exact puts_Core|]. split; [exact puts_RawModule|]. split; [exact puts_FunctionDefinition|exact puts_LogicalModule].
Qed.

(** Which calls are made. *)
Definition fits (qs : list (question E)) (A B : list E) : Prop := forall w r w', answers eq w qs r w' ->
  exists ps rest last, combine A B = ps ++ rest /\ called eq w ps last w' /\ (r = last \/ (last = Some true /\ r = Some false))
  /\ (r = Some true -> rest = [] /\ length A = length B).

Lemma called_app : forall w ps w1 qs r w', called eq w ps (Some true) w1 -> called eq w1 qs r w' -> called eq w (ps ++ qs) r w'.
Proof.
  intros w ps w1 qs r w' H. remember (Some true) as t eqn:T. induction H as [w|w x y a w2 Q N|w x y w2 ps a w3 Q H IH]; intros K; subst.
  - exact K.
  - destruct (N eq_refl).
  - cbn. eapply next_call; [exact Q|]. apply IH; [reflexivity|exact K].
Qed.
Lemma combine_app : forall {A B} (a a' : list A) (b b' : list B), length a = length b -> combine (a ++ a') (b ++ b') = combine a b ++ combine a' b'.
Proof. intros A B a. induction a as [|x a IH]; intros a' [|y b] b' L; try discriminate; [reflexivity|]. cbn. f_equal. apply IH. injection L. trivial. Qed.
Lemma combine_app_prefix : forall {A B} (a a' : list A) (b b' : list B), exists more, combine (a ++ a') (b ++ b') = combine a b ++ more.
Proof.
  intros A B a. induction a as [|x a IH]; intros a' b b'; [eexists; reflexivity|]. destruct b as [|y b]; [eexists; reflexivity|].
  cbn. destruct (IH a' b b') as [more ->]. exists more. reflexivity.
Qed.

Lemma fits_same : forall P, fits [Same P] [] [].
Proof.
  intros P w r w' A. inversion A; subst.
  - match goal with K : answers _ _ [] _ _ |- _ => inversion K; subst end. exists [], [], (Some true). repeat split; [constructor|left; reflexivity].
  - exists [], [], (Some true). repeat split; try discriminate; [constructor|right; split; reflexivity].
Qed.
Lemma fits_app : forall a b A B A' B', fits a A B -> fits b A' B' -> fits (a ++ b) (A ++ A') (B ++ B').
Proof.
  intros a b A B A' B' H1 H2 w r w' X. apply answers_app in X. destruct X as [(w1 & X1 & X2)|[N X1]].
  - destruct (H1 _ _ _ X1) as (ps & rest & last & Q & C & D & F). destruct (F eq_refl) as [-> L].
    destruct D as [<-|[_ D]]; [|discriminate]. rewrite app_nil_r in Q.
    destruct (H2 _ _ _ X2) as (ps2 & rest2 & last2 & Q2 & C2 & D2 & F2).
    exists (ps ++ ps2), rest2, last2. rewrite (combine_app _ _ _ _ L), Q, Q2, app_assoc. split; [reflexivity|].
    split; [exact (called_app _ _ _ _ _ _ C C2)|]. split; [exact D2|]. intros T. destruct (F2 T) as [-> L2]. split; [reflexivity|].
    rewrite !app_length. congruence.
  - destruct (H1 _ _ _ X1) as (ps & rest & last & Q & C & D & F). destruct (combine_app_prefix A A' B B') as [more M].
    exists ps, (rest ++ more), last. rewrite M, Q, <- app_assoc. split; [reflexivity|]. split; [exact C|]. split; [exact D|]. intros T. destruct (N T).
Qed.
Lemma fits_nothing : forall A B, length A = length B -> A = [] -> fits [] A B.
Proof.
  intros A B L -> w r w' X. destruct B; [|discriminate]. inversion X; subst. exists [], [], (Some true). repeat split; [constructor|left; reflexivity].
Qed.
Lemma fits_lists : forall T (about : T -> T -> list (question E)) pay, (forall x y, fits (about x y) (pay x) (pay y)) ->
  forall a b, fits (about_lists about a b) (flat_map pay a) (flat_map pay b).
Proof.
  intros T about pay H a b w r w' X. inversion X; subst.
  - clear X. match goal with K : answers _ _ _ _ _, Q : length a = length b |- _ => rename K into X; rename Q into L end.
    assert (fits (flat_map (fun p => about (fst p) (snd p)) (combine a b)) (flat_map pay a) (flat_map pay b)) as F.
    { clear - H L. revert b L. induction a as [|x a IH]; intros [|y b] L; try discriminate; [apply fits_nothing; reflexivity|].
      cbn [combine flat_map fst snd]. apply fits_app; [apply H|]. apply IH. injection L. trivial. }
    exact (F _ _ _ X).
  - exists [], (combine (flat_map pay a) (flat_map pay b)), (Some true). repeat split; try discriminate; [constructor|right; split; reflexivity].
Qed.
Lemma answers_true_same_aux : forall P w w', answers eq w [Same P] (Some true) w' -> P.
Proof. intros P w w' X. inversion X; subst. assumption. Qed.
Lemma fits_instructions : forall a b, fits (about_instructions a b) (payloads [a]) (payloads [b]).
Proof.
  intros a b. destruct (both_extended_dec a b) as [([t r s x] & [t' r' s' y] & -> & ->)|N].
  - cbn. apply (fits_app [_] [_] [] [] [x] [y]); [apply fits_same|]. intros w q w' X. inversion X; subst.
    + match goal with K : answers _ _ [] _ _ |- _ => inversion K; subst end. exists [(x, y)], [], (Some true). repeat split; [|left; reflexivity].
      eapply next_call; [eassumption|constructor].
    + exists [(x, y)], [], (Some false). repeat split; try discriminate; [|left; reflexivity]. apply last_call; [assumption|discriminate].
    + exists [(x, y)], [], None. repeat split; try discriminate; [|left; reflexivity]. apply last_call; [assumption|discriminate].
  - rewrite (about_others _ _ N). intros w r w' X. destruct (fits_same _ _ _ _ X) as (ps & rest & last & Q & C & D & F).
    destruct ps; [|discriminate]. exists [], (combine (payloads [a]) (payloads [b])), last.
    split; [reflexivity|]. split; [exact C|]. split; [exact D|]. intros T. subst r. apply answers_true_same_aux in X. subst b.
    split; [|reflexivity]. destruct (plain_or_extended a) as [P|(t & i & s & x & ->)].
    + destruct a; try reflexivity. destruct (P _ eq_refl).
    + destruct N. do 2 eexists. split; reflexivity.
Qed.
Lemma payloads_flat : forall l : list (Core E), payloads l = flat_map (fun i => payloads [i]) l.
Proof. induction l as [|i l IH]; [reflexivity|]. cbn [flat_map]. rewrite <- IH. unfold payloads. cbn [flat_map]. rewrite app_nil_r. reflexivity. Qed.
Lemma payloads_app : forall l k : list (Core E), payloads (l ++ k) = payloads l ++ payloads k.
Proof. intros l k. unfold payloads. apply flat_map_app. Qed.
Lemma payloads_flat_map : forall T (f : T -> list (Core E)) l, payloads (flat_map f l) = flat_map (fun a => payloads (f a)) l.
Proof. intros T f l. induction l as [|a l IH]; [reflexivity|]. cbn [flat_map]. rewrite payloads_app, IH. reflexivity. Qed.

Lemma fits_list_of_instructions : forall a b, fits (about_lists about_instructions a b) (payloads a) (payloads b).
Proof. intros a b. rewrite (payloads_flat a), (payloads_flat b). apply fits_lists. exact fits_instructions. Qed.
Lemma fits_raw_modules : forall a b, fits (about_raw_modules a b) (payloads (RawModule_instructions a)) (payloads (RawModule_instructions b)).
Proof. intros a b. apply (fits_app [_] _ [] []); [apply fits_same|apply fits_list_of_instructions]. Qed.
Lemma fits_blocks : forall a b, fits (about_blocks a b) (payloads (block_code a)) (payloads (block_code b)).
Proof.
  intros a b. pose proof (fits_app _ _ _ _ _ _ (fits_same (BasicBlock_label a = BasicBlock_label b)) (fits_app _ _ _ _ _ _ (fits_list_of_instructions (block_code a) (block_code b))
    (fits_same (BasicBlock_merge a = BasicBlock_merge b /\ BasicBlock_branch a = BasicBlock_branch b)))) as H.
  rewrite !app_nil_r in H. exact H.
Qed.
Lemma fits_functions : forall a b, fits (about_functions a b) (payloads (function_code a)) (payloads (function_code b)).
Proof.
  intros a b. apply (fits_app [_] _ [] []); [apply fits_same|]. unfold function_code. rewrite !payloads_flat_map. apply fits_lists. exact fits_blocks.
Qed.
Lemma fits_modules : forall a b, fits (about_modules a b) (payloads (module_code a)) (payloads (module_code b)).
Proof.
  intros a b. apply (fits_app [_] _ [] []); [apply fits_same|]. unfold module_code. rewrite !payloads_flat_map. apply fits_lists. exact fits_functions.
Qed.

Theorem compare_calls :
  (forall a b w r w', eq_RawModule_in eq a b w = (r, w') -> exists ps rest last,
     combine (payloads (RawModule_instructions a)) (payloads (RawModule_instructions b)) = ps ++ rest
     /\ called eq w ps last w' /\ (r = last \/ last = Some true /\ r = Some false) /\ (r = Some true -> rest = []))
  /\ (forall f g w r w', eq_FunctionDefinition_in eq f g w = (r, w') -> exists ps rest last,
     combine (payloads (function_code f)) (payloads (function_code g)) = ps ++ rest
     /\ called eq w ps last w' /\ (r = last \/ last = Some true /\ r = Some false) /\ (r = Some true -> rest = []))
  /\ (forall a b w r w', eq_LogicalModule_in eq a b w = (r, w') -> exists ps rest last,
     combine (payloads (module_code a)) (payloads (module_code b)) = ps ++ rest
     /\ called eq w ps last w' /\ (r = last \/ last = Some true /\ r = Some false) /\ (r = Some true -> rest = [])).
Proof.
  split; [|split]; intros a b w r w' H.
  - apply puts_RawModule in H. apply fits_raw_modules in H. destruct H as (ps & rest & last & Q & C & D & F).
    exists ps, rest, last. repeat split; try assumption. intros T. apply F. exact T.
  - apply puts_FunctionDefinition in H. apply fits_functions in H. destruct H as (ps & rest & last & Q & C & D & F).
    exists ps, rest, last. repeat split; try assumption. intros T. apply F. exact T.
  - apply puts_LogicalModule in H. apply fits_modules in H. destruct H as (ps & rest & last & Q & C & D & F).
    exists ps, rest, last. repeat split; try assumption. intros T. apply F. exact T.
Qed.

(** When the answer is yes. *)
Definition equals {T} (about : T -> T -> list (question E)) (rel : T -> T -> Prop) (pay : T -> list E) : Prop := forall a b,
  (rel a b -> length (pay a) = length (pay b))
  /\ (forall w w', answers eq w (about a b) (Some true) w' <-> rel a b /\ called eq w (combine (pay a) (pay b)) (Some true) w').

Lemma called_split : forall ps qs w w', called eq w (ps ++ qs) (Some true) w' <->
  exists w1, called eq w ps (Some true) w1 /\ called eq w1 qs (Some true) w'.
Proof.
  induction ps as [|p ps IH]; intros qs w w'; cbn.
  - split; [intros H; exists w; split; [constructor|exact H]|]. intros (w1 & H1 & H2). inversion H1; subst. exact H2.
  - split.
    + intros H. inversion H; subst; [congruence|]. match goal with K : called _ _ (ps ++ qs) _ _ |- _ => apply IH in K; destruct K as (w2 & H1 & H2) end.
      exists w2. split; [eapply next_call; eassumption|exact H2].
    + intros (w1 & H1 & H2). inversion H1; subst; [congruence|]. eapply next_call; [eassumption|]. apply IH. eexists. split; eassumption.
Qed.
Lemma answers_true_app : forall a b w w', answers eq w (a ++ b) (Some true) w' <-> exists w1, answers eq w a (Some true) w1 /\ answers eq w1 b (Some true) w'.
Proof. intros a b w w'. rewrite answers_app. split; [intros [H|[N _]]; [exact H|destruct (N eq_refl)]|intros H; left; exact H]. Qed.
Lemma answers_true_same : forall P qs w w', answers eq w (Same P :: qs) (Some true) w' <-> P /\ answers eq w qs (Some true) w'.
Proof. intros P qs w w'. split; [intros H; inversion H; subst; split; assumption|intros [p H]; constructor; assumption]. Qed.
Lemma answers_none : forall w w', answers eq w [] (Some true) w' <-> w' = w.
Proof. intros w w'. split; [intros H; inversion H; reflexivity|intros ->; constructor]. Qed.
Lemma called_none : forall w w', called eq w [] (Some true) w' <-> w' = w.
Proof. intros w w'. split; [intros H; inversion H; reflexivity|intros ->; constructor]. Qed.

Lemma equals_lists : forall T about rel pay, equals (T := T) about rel pay -> equals (about_lists about) (Forall2 rel) (flat_map pay).
Proof.
  intros T about rel pay H a b.
  assert (Forall2 rel a b -> length (flat_map pay a) = length (flat_map pay b)) as Len.
  { intros F. induction F as [|x y a b R F IH]; [reflexivity|]. cbn. rewrite !app_length, IH. f_equal. apply H. exact R. }
  split; [exact Len|]. intros w w'. unfold about_lists. rewrite answers_true_same. clear Len.
  assert (forall w, length a = length b -> answers eq w (flat_map (fun p => about (fst p) (snd p)) (combine a b)) (Some true) w' <->
    Forall2 rel a b /\ called eq w (combine (flat_map pay a) (flat_map pay b)) (Some true) w') as K.
  { clear w. revert b. induction a as [|x a IH]; intros [|y b] w L; try discriminate.
    - cbn. rewrite answers_none, called_none. split; [intros ->; repeat split; constructor|tauto].
    - cbn [combine flat_map fst snd]. rewrite answers_true_app. injection L as L. split.
      + intros (w1 & A1 & A2). apply H in A1. destruct A1 as [R C]. apply (IH _ _ L) in A2. destruct A2 as [F C2].
        split; [constructor; assumption|]. rewrite combine_app; [|apply H; exact R]. apply called_split. exists w1. split; assumption.
      + intros [F C]. inversion F; subst. rewrite combine_app in C; [|apply H; assumption]. apply called_split in C. destruct C as (w1 & C1 & C2).
        exists w1. split; [apply H; split; assumption|apply (IH _ _ L); split; assumption]. }
  split.
  - intros [L A]. apply K; assumption.
  - intros [F C]. assert (length a = length b) as L by (clear - F; induction F; cbn; congruence). split; [exact L|]. apply K; [exact L|]. split; assumption.
Qed.

Definition anything (x y : E) : Prop := True.
Lemma equals_instructions : equals about_instructions (alike anything) (fun i => payloads [i]).
Proof.
  intros a b. split.
  - intros A. inversion A; subst; reflexivity.
  - intros w w'. destruct (both_extended_dec a b) as [([t r s x] & [t' r' s' y] & -> & ->)|N].
    + cbn. rewrite answers_true_same. split.
      * intros [(<- & <- & <-) A]. inversion A; subst. match goal with K : answers _ _ [] _ _ |- _ => inversion K; subst end.
        split; [constructor; exact I|]. eapply next_call; [eassumption|constructor].
      * intros [A C]. inversion A; subst.
        -- split; [repeat split|]. inversion C; subst; [congruence|]. match goal with K : called _ _ [] _ _ |- _ => inversion K; subst end.
           eapply user_says_yes; [eassumption|constructor].
        -- match goal with K : forall op, _ <> _ |- _ => destruct (K _ eq_refl) end.
    + rewrite (about_others _ _ N), answers_true_same, answers_none. split.
      * intros [<- ->]. destruct (plain_or_extended a) as [P|(t & r & s & x & ->)]; [|destruct N; do 2 eexists; split; reflexivity].
        split; [apply alike_same; exact P|]. destruct a; try exact (no_call _ _). destruct (P _ eq_refl).
      * intros [A C]. inversion A; subst; [destruct N; do 2 eexists; split; reflexivity|]. split; [reflexivity|].
        match goal with K : forall op, _ <> _ |- _ => rename K into P end. destruct b; try (inversion C; reflexivity). destruct (P _ eq_refl).
Qed.
Lemma equals_list_of_instructions : equals (about_lists about_instructions) (Forall2 (alike anything)) payloads.
Proof.
  intros a b. rewrite (payloads_flat a), (payloads_flat b). apply (equals_lists _ _ _ _ equals_instructions).
Qed.
Definition equal_blocks (a b : BasicBlock E) : Prop := same_block a b /\ Forall2 (alike anything) (block_code a) (block_code b).
Lemma equals_blocks : equals about_blocks equal_blocks (fun b => payloads (block_code b)).
Proof.
  intros a b. pose proof (equals_list_of_instructions (block_code a) (block_code b)) as [L H]. split; [intros [_ F]; apply L; exact F|].
  intros w w'. unfold about_blocks. cbn [app]. rewrite answers_true_same, answers_true_app. unfold equal_blocks, same_block. split.
  - intros (Q1 & w1 & A1 & A2). apply answers_true_same in A2. destruct A2 as [[Q2 Q3] A2]. apply answers_none in A2. subst w1.
    apply H in A1. destruct A1 as [F C]. repeat split; try assumption. clear - F. unfold block_code in F.
    assert (length (map core_of_code (BasicBlock_code a)) = length (map core_of_code (BasicBlock_code b))) as K by (induction F; cbn; congruence).
    rewrite !map_length in K. exact K.
  - intros [[(Q1 & _ & Q2 & Q3) F] C]. split; [exact Q1|]. exists w'. split; [apply H; split; assumption|]. apply answers_true_same.
    split; [split; assumption|]. constructor.
Qed.
Definition equal_functions (f g : FunctionDefinition E) : Prop := same_function f g /\ Forall2 equal_blocks (FunctionDefinition_blocks f) (FunctionDefinition_blocks g).
Lemma equals_functions : equals about_functions equal_functions (fun f => payloads (function_code f)).
Proof.
  intros a b. unfold function_code. rewrite !payloads_flat_map.
  pose proof (equals_lists _ _ _ _ equals_blocks (FunctionDefinition_blocks a) (FunctionDefinition_blocks b)) as [L H].
  split; [intros [_ F]; apply L; exact F|]. intros w w'. unfold about_functions. rewrite answers_true_same, H. unfold equal_functions, same_function.
  split; [|tauto]. intros [[Q1 Q2] [F C]]. repeat split; try assumption. clear - F. induction F as [|x y l k [S _] F IH]; constructor; assumption.
Qed.
Definition equal_modules (a b : LogicalModule E) : Prop := same_module a b
  /\ Forall2 equal_functions (LogicalModule_function_definitions a) (LogicalModule_function_definitions b).
Lemma equals_modules : equals about_modules equal_modules (fun lm => payloads (module_code lm)).
Proof.
  intros a b. unfold module_code. rewrite !payloads_flat_map.
  pose proof (equals_lists _ _ _ _ equals_functions (LogicalModule_function_definitions a) (LogicalModule_function_definitions b)) as [L H].
  split; [intros [_ F]; apply L; exact F|]. intros w w'. unfold about_modules. rewrite answers_true_same, H. unfold equal_modules, same_module.
  split; [|tauto]. intros [Q [F C]]. split; [split; [|exact F]|exact C]. repeat (split; [apply Q|]).
  clear - F. induction F as [|x y l k [S _] F IH]; constructor; assumption.
Qed.

(** Blocks with alike code are alike. *)
Lemma Forall2_flat : forall T (f : T -> list (Core E)) (R : Core E -> Core E -> Prop) a b, Forall2 (fun x y => length (f x) = length (f y)) a b ->
  (Forall2 R (flat_map f a) (flat_map f b) <-> Forall2 (fun x y => Forall2 R (f x) (f y)) a b).
Proof.
  intros T f R a b F. induction F as [|x y a b L F IH]; [split; constructor|]. cbn. split.
  - intros K. apply Forall2_app_inv_l in K. destruct K as (l1 & l2 & K1 & K2 & Q).
    assert (length l1 = length (f y)) as L1. { rewrite <- L. clear - K1. induction K1; cbn; congruence. }
    symmetry in Q. apply app_same_length in Q; [|exact L1]. destruct Q as [-> ->]. constructor; [exact K1|]. apply IH. exact K2.
  - intros K. inversion K; subst. apply Forall2_app; [assumption|]. apply IH. assumption.
Qed.
Lemma Forall2_and : forall {T U} (P Q : T -> U -> Prop) a b, Forall2 (fun x y => P x y /\ Q x y) a b <-> Forall2 P a b /\ Forall2 Q a b.
Proof.
  intros T U P Q a b. split.
  - intros F. induction F as [|x y a b [p q] F [IH1 IH2]]; split; constructor; assumption.
  - intros [F1 F2]. induction F1 as [|x y a b p F1 IH]; inversion F2; subst; constructor; [split; assumption|]. apply IH. assumption.
Qed.
Lemma same_block_length : forall a b : BasicBlock E, same_block a b -> length (block_code a) = length (block_code b).
Proof. intros a b (_ & L & _). unfold block_code. rewrite !map_length. exact L. Qed.
Lemma equal_functions_iff : forall f g, equal_functions f g <-> same_function f g /\ Forall2 (alike anything) (function_code f) (function_code g).
Proof.
  intros f g. unfold equal_functions. split; intros [S F]; (split; [exact S|]); destruct S as (_ & _ & S).
  - apply Forall2_flat; [revert S; apply Forall2_impl; exact same_block_length|]. revert F. apply Forall2_impl. intros x y [_ F]. exact F.
  - apply Forall2_flat in F; [|revert S; apply Forall2_impl; exact same_block_length]. apply Forall2_and. split; assumption.
Qed.
Lemma same_function_length : forall f g : FunctionDefinition E, same_function f g -> length (function_code f) = length (function_code g).
Proof.
  intros f g (_ & _ & S). unfold function_code. induction S as [|x y a b S F IH]; [reflexivity|]. cbn. rewrite !app_length, IH, (same_block_length _ _ S). reflexivity.
Qed.
Lemma equal_modules_iff : forall a b, equal_modules a b <-> same_module a b /\ Forall2 (alike anything) (module_code a) (module_code b).
Proof.
  intros a b. unfold equal_modules. split; intros [S F]; (split; [exact S|]);
    assert (Forall2 same_function (LogicalModule_function_definitions a) (LogicalModule_function_definitions b)) as S' by apply S.
  - apply Forall2_flat; [revert S'; apply Forall2_impl; exact same_function_length|]. revert F. apply Forall2_impl.
    intros x y F. apply equal_functions_iff in F. apply F.
  - apply Forall2_flat in F; [|revert S'; apply Forall2_impl; exact same_function_length].
    eapply Forall2_impl; [intros x y; apply equal_functions_iff|]. apply Forall2_and. split; assumption.
Qed.

Theorem compare_equal :
  (forall a b w w', eq_RawModule_in eq a b w = (Some true, w') <-> same_header a b /\ same_instructions (fun _ _ => True) a b
     /\ called eq w (combine (payloads (RawModule_instructions a)) (payloads (RawModule_instructions b))) (Some true) w')
  /\ (forall f g w w', eq_FunctionDefinition_in eq f g w = (Some true, w') <->
     same_function f g /\ Forall2 (alike (fun _ _ => True)) (function_code f) (function_code g)
     /\ called eq w (combine (payloads (function_code f)) (payloads (function_code g))) (Some true) w')
  /\ (forall a b w w', eq_LogicalModule_in eq a b w = (Some true, w') <->
     same_module a b /\ Forall2 (alike (fun _ _ => True)) (module_code a) (module_code b)
     /\ called eq w (combine (payloads (module_code a)) (payloads (module_code b))) (Some true) w').
Proof.
  split; [|split]; intros a b w w'.
  - rewrite (puts_RawModule a b w (Some true) w'). unfold about_raw_modules. rewrite answers_true_same.
    rewrite (proj2 (equals_list_of_instructions (RawModule_instructions a) (RawModule_instructions b)) w w'). unfold same_header, same_instructions. tauto.
  - rewrite (puts_FunctionDefinition a b w (Some true) w'), (proj2 (equals_functions a b) w w'), equal_functions_iff. unfold anything. tauto.
  - rewrite (puts_LogicalModule a b w (Some true) w'), (proj2 (equals_modules a b) w w'), equal_modules_iff. unfold anything. tauto.
Qed.
End Compare.

(** An eq without side effects. *)
Section Pure.
Context {E W : Type} (f : E -> E -> bool).
Let eq (x y : E) (w : W) : option bool * W := (Some (f x y), w).

Lemma pure_Vec : forall A (item : A -> A -> erun) (g : A -> A -> bool), (forall x y w, item x y w = (Some (g x y), w)) ->
  forall a b (w : W), eq_Vec_in item a b w = (Some (eq_Vec g a b), w).
Proof.
  intros A item g H a b w. unfold eq_Vec_in, eand, epure.
  assert (forall a b, length a = length b -> eq_items_in item a b w = (Some (eq_Vec g a b), w)) as K.
  { clear a b. induction a as [|x a IH]; intros [|y b] L; try discriminate; [reflexivity|]. cbn. unfold eand. rewrite H.
    destruct (g x y); [|reflexivity]. apply IH. injection L. trivial. }
  destruct (length a =? length b) eqn:L; [apply K; apply Nat.eqb_eq; exact L|].
  destruct (eq_Vec g a b) eqn:Q; [|reflexivity]. apply eq_Vec_Forall2 in Q. apply Nat.eqb_neq in L. destruct L. clear - Q. induction Q; cbn; congruence.
Qed.
Lemma pure_ext : forall x y w, eq_OpExtInst_in eq x y w = (Some (eq_OpExtInst f x y), w).
Proof.
  intros x y w. unfold eq_OpExtInst_in, eq_OpExtInst, eand, epure, eq. destruct (N.eqb _ _); [|reflexivity]. destruct (N.eqb _ _); [|reflexivity].
  destruct (N.eqb _ _); reflexivity.
Qed.
Lemma pure_Core : forall x y w, eq_Core_in eq x y w = (Some (eq_Core f x y), w).
Proof.
  intros x y w. destruct (both_extended_dec x y) as [(a & b & -> & ->)|N]; [apply pure_ext|]. rewrite (eq_others _ _ _ N). unfold epure. f_equal. f_equal.
  destruct x; try reflexivity. destruct y; try reflexivity. destruct N. do 2 eexists. split; reflexivity.
Qed.
Lemma pure_code : forall x y w, eq_GroupCode_in eq x y w = (Some (eq_GroupCode f x y), w).
Proof. intros x y w. rewrite eq_code_in, pure_Core, eq_code. reflexivity. Qed.
Lemma pure_block : forall x y w, eq_BasicBlock_in eq x y w = (Some (eq_BasicBlock f x y), w).
Proof.
  intros x y w. unfold eq_BasicBlock_in, eq_BasicBlock. unfold eand at 1. unfold epure at 1. destruct (eq_OpLabel _ _); [|reflexivity]. unfold eand at 1.
  rewrite (pure_Vec _ _ _ pure_code). cbn [andb]. destruct (eq_Vec _ _ _); [|reflexivity]. unfold eand, epure. cbn [andb]. destruct (eq_Option _ _ _); reflexivity.
Qed.
Lemma pure_function : forall x y w, eq_FunctionDefinition_in eq x y w = (Some (eq_FunctionDefinition f x y), w).
Proof.
  intros x y w. unfold eq_FunctionDefinition_in, eq_FunctionDefinition. unfold eand, epure. destruct (eq_OpFunction _ _); [|reflexivity].
  cbn [andb]. destruct (eq_Vec eq_OpFunctionParameter _ _); [|reflexivity]. apply (pure_Vec _ _ _ pure_block).
Qed.
Lemma eand_pure : forall b (m : erun) (w : W), eand (epure b) m w = if b then m w else (Some false, w).
Proof. intros [|] m w; reflexivity. Qed.
Theorem compare_pure :
  (forall a b w, eq_RawModule_in eq a b w = (Some (eq_RawModule f a b), w))
  /\ (forall a b w, eq_FunctionDefinition_in eq a b w = (Some (eq_FunctionDefinition f a b), w))
  /\ (forall a b w, eq_LogicalModule_in eq a b w = (Some (eq_LogicalModule f a b), w))
  /\ (forall a b w, eq_Core_in eq a b w = (Some (eq_Core f a b), w)).
Proof.
  split; [|split; [exact pure_function|split; [|exact pure_Core]]]; intros a b w.
  - unfold eq_RawModule_in, eq_RawModule. rewrite !eand_pure. do 3 (match goal with |- context [if ?c then _ else _] => destruct c; [|reflexivity] end).
    apply (pure_Vec _ _ _ pure_Core).
  - unfold eq_LogicalModule_in, eq_LogicalModule. rewrite !eand_pure.
    do 10 (match goal with |- context [if ?c then _ else _] => destruct c; [|reflexivity] end). apply (pure_Vec _ _ _ pure_function).
Qed.
End Pure.
