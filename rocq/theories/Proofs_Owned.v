(** Validation drops what it owns once, C120. *)
From Coq Require Import Permutation.
From Verif Require Import Base Types Ops Groups Validate ValidateState ValidateOwned Spec_Layout Spec_Copies Spec_Calls Spec_Owned Proofs_Copies.

Section Owned.
Context {E W : Type} (clone : E -> W -> option E * W) (drop : E -> W -> W).

(* a clone that writes down the copies *)
Definition noted (x : E) (wl : W * list E) : option E * (W * list E) :=
  let (w, l) := wl in
  match clone x w with
  | (Some y, w) => (Some y, (w, l ++ [y]))
  | (None, w) => (None, (w, l))
  end.

Lemma gone_app : forall a b w, gone drop (a ++ b) w = gone drop b (gone drop a w).
Proof. intros. apply fold_left_app. Qed.

(* what is in a value *)
Definition in_code (g : GroupCode E) : list E := match g with GroupCode_OpExtInst op => [OpExtInst_instruction op] | _ => [] end.
Definition in_block (b : BasicBlock E) : list E := flat_map in_code (BasicBlock_code b).
Definition in_definition (d : FunctionDefinition E) : list E := flat_map in_block (FunctionDefinition_blocks d).
Definition in_nothing {A} (_ : A) : list E := [].

(* a way of dropping is right for such contents *)
Definition drops_right {A} (drop_one : A -> W -> W) (inside : A -> list E) := forall a w, drop_one a w = gone drop (inside a) w.
Lemma each_right {A} : forall drop_one (inside : A -> list E), drops_right drop_one inside ->
  drops_right (drop_each drop_one) (flat_map inside).
Proof. intros d i H l. induction l as [|a l IH]; intros w; cbn [drop_each flat_map]; [reflexivity|]. rewrite IH, H, gone_app. reflexivity. Qed.
Lemma code_right : drops_right (drop_GroupCode drop) in_code.
Proof. intros g w. destruct g; reflexivity. Qed.
Lemma block_right : drops_right (drop_BasicBlock drop) in_block.
Proof. intros b. apply (each_right _ _ code_right). Qed.
Lemma definition_right : drops_right (drop_FunctionDefinition drop) in_definition.
Proof. intros b. apply (each_right _ _ block_right). Qed.
Lemma nothing_right {A} : drops_right (@nothing_to_drop W A) in_nothing.
Proof. intros b w. reflexivity. Qed.

(* [held] is owned at the start: if the run succeeds it is, with the new copies, in the result; otherwise it has all gone *)
Definition takes_over {A} (held : list E) (inside : A -> list E) (m : vrun (W := W) A) (m' : vrun (W := W * list E) A) : Prop :=
  forall w l, exists w1 made, snd (m' (w, l)) = (w1, l ++ made) /\ fst (m' (w, l)) = fst (m w) /\
  match fst (m w) with
  | Ok a => snd (m w) = w1 /\ Permutation (held ++ made) (inside a)
  | _ => exists ds, Permutation ds (held ++ made) /\ snd (m w) = gone drop ds w1
  end.
Lemma takes_pure {A} : forall held (inside : A -> list E) a, Permutation held (inside a) -> takes_over held inside (vpure (Ok a)) (vpure (Ok a)).
Proof. intros held inside a H w l. exists w, []. cbn. rewrite !app_nil_r. auto. Qed.
Lemma takes_then {A B} : forall held (i : A -> list E) (j : B -> list E) m m' k k', takes_over held i m m' ->
  (forall a, takes_over (i a) j (k a) (k' a)) -> takes_over held j (vthen m k) (vthen m' k').
Proof.
  intros held i j m m' k k' H K w l. destruct (H w l) as (w1 & made & S1 & F1 & R). unfold vthen.
  destruct (m w) as [r w2], (m' (w, l)) as [r' wl]. cbn in *. subst wl r'.
  destruct r as [a|e| |].
  - destruct R as [-> P]. destruct (K a w1 (l ++ made)) as (w3 & more & S2 & F2 & R2).
    exists w3, (made ++ more). rewrite S2, app_assoc. split; [reflexivity|]. split; [exact F2|].
    destruct (k a w1) as [r2 w4]. cbn in *.
    assert (Q : Permutation (i a ++ more) (held ++ made ++ more)) by (rewrite app_assoc; apply Permutation_app_tail; symmetry; exact P).
    destruct r2.
    + destruct R2 as [-> P2]. split; [reflexivity|]. rewrite <- Q. exact P2.
    + destruct R2 as (ds & P2 & ->). exists ds. rewrite <- Q. auto.
    + destruct R2 as (ds & P2 & ->). exists ds. rewrite <- Q. auto.
    + destruct R2 as (ds & P2 & ->). exists ds. rewrite <- Q. auto.
  - exists w1, made. cbn. auto.
  - exists w1, made. cbn. auto.
  - exists w1, made. cbn. auto.
Qed.
Lemma takes_holding {A} : forall go held (i j : A -> list E) m m', (forall w, go w = gone drop held w) ->
  takes_over [] i m m' -> (forall a w w1, m w = (Ok a, w1) -> Permutation (held ++ i a) (j a)) -> takes_over held j (holding go m) m'.
Proof.
  intros go held i j m m' G H P w l. destruct (H w l) as (w1 & made & S1 & F1 & R). exists w1, made.
  unfold holding. specialize (fun a => P a w). destruct (m w) as [r w2]. cbn in *. destruct r; cbn in *; (split; [exact S1|]); (split; [exact F1|]).
  - destruct R as [-> Q]. split; [reflexivity|]. rewrite Q. apply (P _ _ eq_refl).
  - destruct R as (ds & Q & ->). exists (ds ++ held). rewrite G, gone_app. split; [|reflexivity]. rewrite Permutation_app_comm. apply Permutation_app_head, Q.
  - destruct R as (ds & Q & ->). exists (ds ++ held). rewrite G, gone_app. split; [|reflexivity]. rewrite Permutation_app_comm. apply Permutation_app_head, Q.
  - destruct R as (ds & Q & ->). exists (ds ++ held). rewrite G, gone_app. split; [|reflexivity]. rewrite Permutation_app_comm. apply Permutation_app_head, Q.
Qed.
Lemma takes_plain {A} : forall r : outcome ValidationError A, takes_over [] in_nothing (vpure r) (vpure r).
Proof. intros r w l. exists w, []. cbn. rewrite app_nil_r. repeat split. destruct r; try (exists []; auto). split; reflexivity || constructor. Qed.

Definition in_result {T} (inside : T -> list E) (r : PhaseResult (E := E) T) : list E :=
  match r with PhaseOk x _ => inside x | PhaseNext _ => [] end.
Definition in_first {T} (inside : T -> list E) (r : T * OpSlice (E := E)) : list E := inside (fst r).

Lemma takes_rest {T} : forall (d : T -> W -> W) inside (f : PhaseIn T) f', drops_right d inside ->
  (forall s, takes_over [] (in_result inside) (f s) (f' s)) -> forall fuel s output,
  takes_over (flat_map inside output) (in_first (flat_map inside)) (read_rest_owned d fuel s f output) (read_rest_in fuel s f' output).
Proof.
  intros d inside f f' D F. induction fuel as [|fuel IH]; intros s output; cbn [read_rest_owned read_rest_in];
    apply (takes_then _ (fun r => flat_map inside output ++ in_result inside r)).
  1,3: apply (takes_holding _ _ (in_result inside)); [apply (each_right _ _ D)|apply F|reflexivity].
  all: intros [item next|next]; cbn [in_result].
  2,4: apply takes_pure; rewrite app_nil_r; reflexivity.
  - apply (takes_holding _ _ in_nothing).
    + intros w. rewrite (each_right _ _ D), flat_map_app. cbn [flat_map]. rewrite app_nil_r. reflexivity.
    + apply takes_plain.
    + intros a w w1 H. discriminate H.
  - specialize (IH next (output ++ [item])). rewrite flat_map_app in IH. cbn [flat_map] in IH. rewrite app_nil_r in IH. exact IH.
Qed.
Lemma takes_many {T} : forall (d : T -> W -> W) inside (f : PhaseIn T) f', drops_right d inside ->
  (forall s, takes_over [] (in_result inside) (f s) (f' s)) -> forall s,
  takes_over [] (in_first (flat_map inside)) (read_many_owned d s f) (read_many_in s f').
Proof. intros d inside f f' D F s. apply (takes_rest d inside f f' D F _ s []). Qed.
Lemma takes_weak {A} : forall held (i j : A -> list E) m m', (forall a, i a = j a) -> takes_over held i m m' -> takes_over held j m m'.
Proof.
  intros held i j m m' X H w l. destruct (H w l) as (w1 & made & S1 & F1 & R). exists w1, made. split; [exact S1|]. split; [exact F1|].
  destruct (fst (m w)); auto. rewrite <- X. exact R.
Qed.
Lemma takes_quiet {T} : forall (f : Phase (E := E) T) s,
  takes_over [] in_nothing (read_many_owned nothing_to_drop s (without_copies f)) (read_many_in s (without_copies f)).
Proof.
  intros f s. apply (takes_weak _ (in_first (flat_map in_nothing))).
  - intros [l s']. unfold in_first. cbn [fst]. induction l; cbn; auto.
  - apply takes_many; [exact nothing_right|]. intros s'. unfold without_copies.
    apply (takes_weak _ in_nothing); [|apply takes_plain]. intros [x n|n]; reflexivity.
Qed.

Lemma takes_clone : forall g, takes_over [] in_code (clone_GroupCode clone g) (clone_GroupCode noted g).
Proof.
  intros g. destruct g; try (apply takes_pure; constructor). intros w l. cbn. destruct (clone _ w) as [[y|] w1]; cbn.
  - exists w1, [y]. auto.
  - exists w1, []. rewrite app_nil_r. repeat split. exists []. auto.
Qed.
Lemma takes_code : forall s, takes_over [] (in_result in_code) (read_code_owned clone drop s) (read_code_in noted s).
Proof.
  intros s. unfold read_code_owned, read_code_in. destruct (first s) as [[]|]; try (apply takes_pure; constructor).
  eapply takes_then; [apply takes_clone|]. intros item. apply (takes_then _ (fun _ => in_code item)).
  - apply (takes_holding _ _ in_nothing); [apply code_right|apply takes_plain|]. intros. cbn. rewrite app_nil_r. reflexivity.
  - intros next. apply takes_pure. reflexivity.
Qed.
Lemma takes_block : forall s, takes_over [] (in_result in_block) (read_basic_block_owned clone drop s) (read_basic_block_in noted s).
Proof.
  intros s. unfold read_basic_block_owned, read_basic_block_in. destruct (first s) as [[]|]; try (apply takes_pure; constructor).
  eapply takes_then; [apply takes_plain|]. intros s1. eapply takes_then; [apply (takes_many _ _ _ _ code_right takes_code)|].
  intros [code s2]. unfold in_first. cbn [fst].
  eapply (takes_holding _ _ in_nothing); [apply (each_right _ _ code_right)| |].
  - eapply takes_then; [apply takes_plain|]. intros [mg s3]. eapply takes_then; [apply takes_plain|]. intros [br s4]. apply takes_plain.
  - intros a w w1 H. unfold in_nothing. rewrite app_nil_r. unfold vthen, vpure in H. destruct (read_merge s2) as [[mg s3]|e| |]; try discriminate H.
    destruct (read_branch s3) as [[br s4]|e| |]; try discriminate H. injection H as <- _. reflexivity.
Qed.
Lemma takes_definition : forall s, takes_over [] (in_result in_definition) (read_function_definition_owned clone drop s) (read_function_definition_in noted s).
Proof.
  intros s. unfold read_function_definition_owned, read_function_definition_in. destruct (get_remaining s <? 2); [apply takes_pure; constructor|].
  assert (X : forall i, takes_over [] (in_result in_definition) (vpure (Err i)) (vpure (Err i))).
  { intros e w l. exists w, []. cbn. rewrite app_nil_r. repeat split. exists []. auto. }
  destruct (first s) as [[]|]; try apply X.
  eapply takes_then; [apply takes_plain|]. intros s1. eapply takes_then; [apply takes_quiet|]. intros [params s2].
  eapply takes_then; [apply (takes_many _ _ _ _ block_right takes_block)|].
  intros [blocks s3]. unfold in_first. cbn [fst].
  eapply (takes_holding _ _ in_nothing); [apply (each_right _ _ block_right)| |].
  - destruct (first s3) as [[]|]; try apply takes_plain. eapply takes_then; [apply takes_plain|]. intros s4. apply takes_plain.
  - intros a w w1 H. unfold in_nothing. rewrite app_nil_r. destruct (first s3) as [[]|]; try discriminate H.
    unfold vthen, vpure in H. destruct (advance s3); try discriminate H. injection H as <- _. reflexivity.
Qed.

Definition in_module (m : LogicalModule E) : list E := flat_map in_definition (LogicalModule_function_definitions m).
Lemma storage_right : forall is w, drop_each (drop_OpByBlock drop) (map from_Core is) w = gone drop (extended_of is) w.
Proof.
  induction is as [|i is IH]; intros w; [reflexivity|]. cbn [map drop_each]. rewrite IH.
  replace (extended_of (i :: is)) with (extended_of [i] ++ extended_of is) by (unfold extended_of; rewrite <- flat_map_app; reflexivity). rewrite gone_app. f_equal.
  destruct i; try reflexivity. cbn. unfold from_OpVariable. destruct (OpVariable_storage_class o); reflexivity.
Qed.

Lemma owned_log : forall m w l, exists w1 made ds, validate_in noted m (w, l) = (fst (validate_owned clone drop m w), (w1, l ++ made))
  /\ snd (validate_owned clone drop m w) = gone drop (ds ++ extended_of (RawModule_instructions m)) w1
  /\ match fst (validate_owned clone drop m w) with
     | Ok lm => ds = [] /\ Permutation made (in_module lm)
     | _ => Permutation ds made
     end.
Proof.
  intros m w l. unfold validate_owned.
  match goal with |- context [let (r, w) := ?run w in _] => set (body := run) end.
  assert (H : takes_over [] in_module body (validate_in noted m)).
  { unfold body, validate_in.
    do 3 (eapply takes_then; [apply takes_quiet|]; intros [? ?]). eapply takes_then; [apply takes_plain|]; intros [? ?].
    do 6 (eapply takes_then; [apply takes_quiet|]; intros [? ?]).
    eapply takes_then; [apply (takes_many _ _ _ _ definition_right takes_definition)|].
    intros [defs s3]. unfold in_first. cbn [fst].
    eapply (takes_holding _ _ in_nothing); [apply (each_right _ _ definition_right)| |].
    - destruct (0 <? _); apply takes_plain.
    - intros a w0 w1 H. unfold in_nothing. rewrite app_nil_r. destruct (0 <? _); [discriminate H|]. injection H as <- _. reflexivity. }
  destruct (H w l) as (w1 & made & S1 & F1 & R). destruct (body w) as [r w2]. cbn [fst snd] in *.
  rewrite (surjective_pairing (validate_in noted m (w, l))), S1, F1. setoid_rewrite storage_right.
  destruct r.
  - destruct R as [-> P]. exists w1, made, []. auto.
  - destruct R as (ds & P & ->). exists w1, made, ds. rewrite gone_app. auto.
  - destruct R as (ds & P & ->). exists w1, made, ds. rewrite gone_app. auto.
  - destruct R as (ds & P & ->). exists w1, made, ds. rewrite gone_app. auto.
Qed.

Lemma noted_copied : forall wl is js wl', copied noted wl is js wl' ->
  copied clone (fst wl) is js (fst wl') /\ snd wl' = snd wl ++ extended_of js.
Proof.
  intros wl is js wl' H. induction H as [wl|wl i is js wl' N H IH|[w l] type result set x y wl1 is js wl' C H IH].
  - split; [constructor|]. cbn. rewrite app_nil_r. reflexivity.
  - destruct IH as [IH1 IH2]. split; [constructor; assumption|]. rewrite IH2. f_equal.
    destruct i; try reflexivity. exfalso. eapply N. reflexivity.
  - destruct IH as [IH1 IH2]. cbn in C. destruct (clone x w) as [[z|] w1] eqn:Q; [|discriminate C]. injection C as <- <-.
    cbn [fst snd] in *. split; [econstructor; eassumption|]. rewrite IH2, <- app_assoc. reflexivity.
Qed.
Lemma noted_panics : forall w l is wl', copying_panics noted (w, l) is wl' -> copying_panics clone w is (fst wl')
  /\ exists before type result set x after js w0, is = before ++ extended type result set x :: after
     /\ copied clone w before js w0 /\ clone x w0 = (None, fst wl') /\ snd wl' = l ++ extended_of js.
Proof.
  intros w l is wl' (before & type & result & set & x & after & js & [w1 l1] & -> & H & C).
  apply noted_copied in H. cbn [fst snd] in H. destruct H as [H ->]. cbn in C.
  destruct (clone x w1) as [[z|] w2] eqn:Q; [discriminate C|]. injection C as <-. cbn [fst snd].
  split; [repeat eexists; eassumption|]. exists before, type, result, set, x, after, js, w1. auto.
Qed.

Theorem owned_result : forall m w, fst (validate_owned clone drop m w) = fst (validate_in clone m w).
Proof.
  intros m w. destruct (owned_log m w []) as (w1 & made & ds & H & _). apply validate_copies in H.
  destruct H as [(js & H & R)|[H R]].
  - apply noted_copied in H. destruct H as [H _]. cbn [fst] in H.
    assert (Q := proj2 (validate_copies clone m w _ _) (or_introl (ex_intro _ js (conj H eq_refl)))). rewrite Q. exact R.
  - apply noted_panics in H. destruct H as [H _]. cbn [fst] in H.
    assert (Q := proj2 (validate_copies clone m w _ _) (or_intror (conj H eq_refl))). rewrite Q. exact R.
Qed.

Theorem validation_drops : forall m w r w', validate_owned clone drop m w = (r, w') ->
  exists js w1 ds, w' = gone drop (ds ++ extended_of (RawModule_instructions m)) w1 /\
  match r with
  | Ok lm => copied clone w (RawModule_instructions m) js w1 /\ js = write_module lm /\ ds = []
  | Err e => copied clone w (examined m (Err e)) js w1 /\ Permutation ds (extended_of js)
  | Panic => exists before type result set x after w0, RawModule_instructions m = before ++ extended type result set x :: after
      /\ copied clone w before js w0 /\ clone x w0 = (None, w1) /\ Permutation ds (extended_of js)
  | OutOfFuel => False
  end.
Proof.
  intros m w r w' H. destruct (owned_log m w []) as (w1 & made & ds & L & S1 & R). rewrite H in L, S1, R. cbn [fst snd app] in *.
  assert (V := verdict_without_copies noted m _ _ _ L). destruct r as [lm|e| |].
  - apply (accepted_copies noted) in L. destruct L as [L _]. apply noted_copied in L. destruct L as [L _]. cbn [fst] in L.
    exists (write_module lm), w1, ds. destruct R as [-> _]. auto.
  - apply validate_copies in L. destruct L as [(js & L & _)|[_ L]]; [|discriminate L]. rewrite V in L.
    apply noted_copied in L. destruct L as [L M]. cbn [fst snd app] in *. subst made. exists js, w1, ds. auto.
  - apply noted_panics in V. destruct V as [_ (before & type & result & set & x & after & js & w0 & X & C & P & M)].
    cbn [fst snd app] in *. subst made. exists js, w1, ds. split; [exact S1|].
    destruct (examined_prefix m) as [rest Y]. rewrite Y, X, <- app_assoc. exists before, type, result, set, x, (after ++ rest), w0. auto.
  - contradiction.
Qed.

End Owned.
