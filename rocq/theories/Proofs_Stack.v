(** Lemmas for C80: the recursion of the validator. *)
From Verif Require Import Base Types Ops Groups Validate ValidateStack Spec_Stack Spec_Tables Spec_Layout Proofs_Layout.

Section Stack.
Context {E : Type}.
Notation slice := (OpSlice (E := E)).

(** [x], if [need] calls are allowed. *)
Definition within {A} (x : outcome ValidationError A) (need n : nat) : outcome ValidationError A := if need <=? n then x else OutOfFuel.
Definition Rel {A} (X : nat -> outcome ValidationError A) (x : outcome ValidationError A) (need : nat) : Prop := forall n, X n = within x need n.

Lemma within_bind : forall {A B} n (X x : outcome ValidationError A) k (Y y : A -> outcome ValidationError B) k2 need,
  X = within x k n -> (forall v, x = Ok v -> Y v = within (y v) (k2 v) n) -> need = Nat.max k (match x with Ok v => k2 v | _ => 0 end) ->
  bind X Y = within (bind x y) need n.
Proof.
  intros A B n X x k Y y k2 need -> S ->. unfold within. destruct x as [v|e| |]; cbn [bind].
  - specialize (S v eq_refl). unfold within in S. destruct (k <=? n) eqn:K; cbn [bind].
    + rewrite S. destruct (k2 v <=? n) eqn:K2; [rewrite (proj2 (Nat.leb_le _ _)) by (apply Nat.leb_le in K, K2; lia); reflexivity|].
      rewrite (proj2 (Nat.leb_gt _ _)) by (apply Nat.leb_gt in K2; lia). reflexivity.
    + rewrite (proj2 (Nat.leb_gt _ _)) by (apply Nat.leb_gt in K; lia). reflexivity.
  - rewrite Nat.max_0_r. destruct (k <=? n); reflexivity.
  - rewrite Nat.max_0_r. destruct (k <=? n); reflexivity.
  - rewrite Nat.max_0_r. destruct (k <=? n); reflexivity.
Qed.
Lemma within_then : forall {A B} n (X x : outcome ValidationError A) k (Y : A -> outcome ValidationError B),
  X = within x k n -> bind X Y = within (bind x Y) k n.
Proof. intros A B n X x k Y ->. unfold within. destruct (k <=? n); reflexivity. Qed.
Lemma Rel_pure : forall {A} (x : outcome ValidationError A), Rel (fun _ => x) x 0.
Proof. intros A x n. reflexivity. Qed.

(** ** Lists *)
Section Many.
Context {T : Type} (f : Phase (E := E) T) (fd : PhaseWithin (E := E) T) (need : slice -> nat).

Record phase_ok : Prop := {
  phase_rel : forall s, Rel (fun n => fd n s) (f s) (need s);
  phase_less : forall s item next, f s = Ok (PhaseOk item next) -> get_remaining next < get_remaining s;
  phase_same : forall s next, f s = Ok (PhaseNext next) -> next = s;
  phase_need : forall s, need s <= get_remaining s }.

Fixpoint need_rest (fuel : nat) (s : slice) : nat :=
  S (Nat.max (need s)
    (match f s with
     | Ok (PhaseOk _ next) => match fuel with O => 0 | S fuel => need_rest fuel next end
     | _ => 0
     end)).
Definition need_many (s : slice) : nat := need_rest (get_remaining s) s.

Hypothesis P : phase_ok.

Lemma rest_rel : forall fuel s, get_remaining s <= fuel -> forall out,
  Rel (fun n => read_rest_within n s fd out) (read_rest fuel s f out) (need_rest fuel s).
Proof.
  induction fuel as [|fuel IH]; intros s L out n; (destruct n as [|n]; [reflexivity|]); cbn [read_rest_within read_rest need_rest];
    rewrite (phase_rel P s n); unfold within; cbn [Nat.leb].
  - destruct (f s) as [[item next|next]|e| |] eqn:F; cbn [bind]; try (rewrite Nat.max_0_r; destruct (need s <=? n); reflexivity).
    apply (phase_less P) in F. lia.
  - destruct (f s) as [[item next|next]|e| |] eqn:F; cbn [bind]; try (rewrite Nat.max_0_r; destruct (need s <=? n); reflexivity).
    apply (phase_less P) in F. specialize (IH next ltac:(lia) (out ++ [item]) n). unfold within in IH.
    destruct (need s <=? n) eqn:K; cbn [bind].
    + rewrite IH. destruct (need_rest fuel next <=? n) eqn:K2; [rewrite (proj2 (Nat.leb_le _ _)) by (apply Nat.leb_le in K, K2; lia); reflexivity|].
      rewrite (proj2 (Nat.leb_gt _ _)) by (apply Nat.leb_gt in K2; lia). reflexivity.
    + rewrite (proj2 (Nat.leb_gt _ _)) by (apply Nat.leb_gt in K; lia). reflexivity.
Qed.
Lemma many_rel : forall s, Rel (fun n => read_many_within n s fd) (read_many s f) (need_many s).
Proof. intros s. apply rest_rel. lia. Qed.

Lemma rest_need : forall fuel s, need_rest fuel s <= S (get_remaining s).
Proof.
  induction fuel as [|fuel IH]; intros s; cbn [need_rest]; pose proof (phase_need P s); destruct (f s) as [[item next|next]|e| |] eqn:F; try lia.
  apply (phase_less P) in F. specialize (IH next). lia.
Qed.
Lemma many_need : forall s, need_many s <= S (get_remaining s).
Proof. intros s. apply rest_need. Qed.

Lemma rest_less : forall fuel s out items s', read_rest fuel s f out = Ok (items, s') -> get_remaining s' <= get_remaining s.
Proof.
  induction fuel as [|fuel IH]; intros s out items s' H; cbn [read_rest] in H; destruct (f s) as [[item next|next]|e| |] eqn:F; cbn [bind] in H; try discriminate.
  - injection H as <- <-. apply (phase_same P) in F. subst. lia.
  - apply (phase_less P) in F. apply IH in H. lia.
  - injection H as <- <-. apply (phase_same P) in F. subst. lia.
Qed.
Lemma many_less : forall s items s', read_many s f = Ok (items, s') -> get_remaining s' <= get_remaining s.
Proof. intros s items s'. apply rest_less. Qed.

Lemma rest_calls : forall (inner : T -> nat), (forall s item next, f s = Ok (PhaseOk item next) -> need s = inner item) ->
  forall fuel s out items s', read_rest fuel s f out = Ok (items, s') ->
  exists read, items = out ++ read /\ f s' = Ok (PhaseNext s') /\ need_rest fuel s = calls inner read (need s').
Proof.
  intros inner I. induction fuel as [|fuel IH]; intros s out items s' H; cbn [read_rest] in H; cbn [need_rest]; destruct (f s) as [[item next|next]|e| |] eqn:F; cbn [bind] in H; try discriminate.
  - injection H as <- <-. pose proof (phase_same P _ _ F) as ->. exists []. rewrite app_nil_r, Nat.max_0_r. auto.
  - apply IH in H as (read & -> & N & Q). exists (item :: read). rewrite <- app_assoc. split; [reflexivity|]. split; [exact N|]. cbn [calls]. rewrite Q, (I _ _ _ F). reflexivity.
  - injection H as <- <-. pose proof (phase_same P _ _ F) as ->. exists []. rewrite app_nil_r, Nat.max_0_r. auto.
Qed.
Lemma many_calls : forall (inner : T -> nat), (forall s item next, f s = Ok (PhaseOk item next) -> need s = inner item) ->
  forall s items s', read_many s f = Ok (items, s') -> f s' = Ok (PhaseNext s') /\ need_many s = calls inner items (need s').
Proof. intros inner I s items s' H. destruct (rest_calls inner I _ _ _ _ _ H) as (read & -> & X). exact X. Qed.
Lemma rest_first : forall fuel s out items s', read_rest fuel s f out = Ok (items, s') ->
  exists read, items = out ++ read /\ match read with [] => f s = Ok (PhaseNext s) | item :: _ => exists next, f s = Ok (PhaseOk item next) end.
Proof.
  induction fuel as [|fuel IH]; intros s out items s' H; cbn [read_rest] in H; destruct (f s) as [[item next|next]|e| |] eqn:F; cbn [bind] in H; try discriminate.
  - injection H as <- <-. pose proof (phase_same P _ _ F) as ->. exists []. rewrite app_nil_r. auto.
  - apply IH in H as (read & -> & _). exists (item :: read). rewrite <- app_assoc. eauto.
  - injection H as <- <-. pose proof (phase_same P _ _ F) as ->. exists []. rewrite app_nil_r. auto.
Qed.
Lemma many_first : forall s items s', read_many s f = Ok (items, s') ->
  match items with [] => f s = Ok (PhaseNext s) | item :: _ => exists next, f s = Ok (PhaseOk item next) end.
Proof. intros s items s' H. apply rest_first in H as (read & -> & X). exact X. Qed.
End Many.

(** ** The phases *)
Lemma advance_less : forall s s' : slice, advance s = Ok s' -> S (get_remaining s') = get_remaining s.
Proof.
  intros s s'. unfold advance, get_remaining. destruct (index s <? length (insts s)) eqn:L; [|discriminate]. intros [= <-]. cbn [insts index].
  apply Nat.ltb_lt in L. lia.
Qed.

Definition nothing (s : slice) : nat := 0.
Lemma one_ok : forall {T} (pick : OpByBlock E -> option T), phase_ok (one pick) (simple (one pick)) nothing.
Proof.
  intros T pick. split.
  - intros s n. reflexivity.
  - intros s item next. unfold one. destruct (first s) as [o|]; [|discriminate]. destruct (pick o); [|discriminate].
    destruct (advance s) as [s'|e| |] eqn:A; cbn [bind]; try discriminate. intros [= _ <-]. apply advance_less in A. lia.
  - intros s next. unfold one. destruct (first s) as [o|]; [|intros [= <-]; reflexivity]. destruct (pick o).
    + destruct (advance s); cbn [bind]; discriminate.
    + intros [= <-]. reflexivity.
  - intros s. unfold nothing. lia.
Qed.
Lemma calls_plain : forall {A} (l : list A), calls (fun _ => 0) l 0 = plain_calls l.
Proof. intros A l. unfold plain_calls. induction l as [|x l IH]; cbn [calls length]; [reflexivity|]. rewrite IH. reflexivity. Qed.
Lemma one_calls : forall {T} (pick : OpByBlock E -> option T) s items s', read_many s (one pick) = Ok (items, s') ->
  need_many (one pick) nothing s = plain_calls items.
Proof.
  intros T pick s items s' H. destruct (many_calls _ _ _ (one_ok pick) (fun _ => 0) (fun _ _ _ _ => eq_refl) _ _ _ H) as [_ ->]. apply calls_plain.
Qed.
Lemma one_rel : forall {T} (pick : OpByBlock E -> option T) s,
  Rel (fun n => read_many_within n s (simple (one pick))) (read_many s (one pick)) (need_many (one pick) nothing s).
Proof. intros T pick. exact (many_rel _ _ _ (one_ok pick)). Qed.

Definition need_params : slice -> nat := need_many read_function_parameter nothing.
Definition need_decl (s : slice) : nat :=
  if get_remaining s <? 2 then 0 else
  match first s with
  | Some (OpByBlock_OpFunction _) => match advance s with Ok s => need_params s | _ => 0 end
  | _ => 0
  end.

Definition need_block (s : slice) : nat :=
  match first s with
  | Some (OpByBlock_OpLabel _) => match advance s with Ok s => need_many read_code nothing s | _ => 0 end
  | _ => 0
  end.
Definition need_def (s : slice) : nat :=
  if get_remaining s <? 2 then 0 else
  match first s with
  | Some (OpByBlock_OpFunction _) =>
      match advance s with
      | Ok s =>
          Nat.max (need_params s)
            (match read_many s read_function_parameter with Ok (_, s) => need_many read_basic_block need_block s | _ => 0 end)
      | _ => 0
      end
  | _ => 0
  end.

Lemma params_less : forall s items s', read_many s (read_function_parameter (E := E)) = Ok (items, s') -> get_remaining s' <= get_remaining s.
Proof. exact (many_less _ _ _ (one_ok _)). Qed.
Lemma code_less : forall s items s', read_many s (read_code (E := E)) = Ok (items, s') -> get_remaining s' <= get_remaining s.
Proof. exact (many_less _ _ _ (one_ok _)). Qed.
Lemma merge_less : forall (s : slice) m s', read_merge s = Ok (m, s') -> get_remaining s' <= get_remaining s.
Proof.
  intros s m s'. unfold read_merge. destruct (first s) as [[]|]; try (intros [= <- <-]; lia).
  destruct (advance s) as [s1|e| |] eqn:A; cbn [bind]; try discriminate. intros [= <- <-]. apply advance_less in A. lia.
Qed.
Lemma branch_less : forall (s : slice) b s', read_branch s = Ok (b, s') -> get_remaining s' <= get_remaining s.
Proof.
  intros s m s'. unfold read_branch. destruct (first s) as [[]|]; try discriminate.
  destruct (advance s) as [s1|e| |] eqn:A; cbn [bind]; try discriminate. intros [= <- <-]. apply advance_less in A. lia.
Qed.

Lemma decl_ok : phase_ok read_function_declaration read_function_declaration_within need_decl.
Proof.
  split.
  - intros s n. unfold read_function_declaration_within, read_function_declaration, need_decl. destruct (get_remaining s <? 2); [reflexivity|].
    destruct (first s) as [[]|]; try reflexivity. destruct (advance s) as [s1|e| |]; cbn [bind]; try reflexivity.
    apply within_then. apply (one_rel _ s1 n).
  - intros s item next. unfold read_function_declaration. destruct (get_remaining s <? 2); [discriminate|].
    destruct (first s) as [[]|]; try discriminate. destruct (advance s) as [s1|e| |] eqn:A; cbn [bind]; try discriminate.
    destruct (read_many s1 _) as [[params s2]|e| |] eqn:M; cbn [bind]; try discriminate.
    destruct (first s2) as [[]|]; try discriminate. destruct (advance s2) as [s3|e| |] eqn:A2; cbn [bind]; try discriminate.
    intros [= _ <-]. apply advance_less in A, A2. apply params_less in M. lia.
  - intros s next. unfold read_function_declaration. destruct (get_remaining s <? 2); [intros [= <-]; reflexivity|].
    destruct (first s) as [[]|]; try discriminate. destruct (advance s) as [s1|e| |] eqn:A; cbn [bind]; try discriminate.
    destruct (read_many s1 _) as [[params s2]|e| |] eqn:M; cbn [bind]; try discriminate.
    destruct (first s2) as [[]|]; try (intros [= <-]; reflexivity). destruct (advance s2) as [s3|e| |]; discriminate.
  - intros s. unfold need_decl. destruct (get_remaining s <? 2); [lia|]. destruct (first s) as [[]|]; try lia.
    destruct (advance s) as [s1|e| |] eqn:A; try lia. apply advance_less in A.
    pose proof (many_need _ _ _ (one_ok _) s1 : need_params s1 <= _). lia.
Qed.
Lemma decl_calls : forall s item next, read_function_declaration s = Ok (PhaseOk item next) -> need_decl s = declaration_calls item.
Proof.
  intros s item next. unfold read_function_declaration, need_decl. destruct (get_remaining s <? 2); [discriminate|].
  destruct (first s) as [[]|]; try discriminate. destruct (advance s) as [s1|e| |]; cbn [bind]; try discriminate.
  destruct (read_many s1 _) as [[params s2]|e| |] eqn:M; cbn [bind]; try discriminate.
  destruct (first s2) as [[]|]; try discriminate. destruct (advance s2) as [s3|e| |]; cbn [bind]; try discriminate.
  intros [= <- _]. unfold declaration_calls. cbn [FunctionDeclaration_parameters]. apply one_calls in M. exact M.
Qed.

Lemma block_ok : phase_ok read_basic_block read_basic_block_within need_block.
Proof.
  split.
  - intros s n. unfold read_basic_block_within, read_basic_block, need_block.
    destruct (first s) as [[]|]; try reflexivity. destruct (advance s) as [s1|e| |]; cbn [bind]; try reflexivity.
    apply within_then. apply (one_rel _ s1 n).
  - intros s item next. unfold read_basic_block.
    destruct (first s) as [[]|]; try discriminate. destruct (advance s) as [s1|e| |] eqn:A; cbn [bind]; try discriminate.
    destruct (read_many s1 _) as [[code s2]|e| |] eqn:M; cbn [bind]; try discriminate.
    destruct (read_merge s2) as [[m s3]|e| |] eqn:G; cbn [bind]; try discriminate.
    destruct (read_branch s3) as [[b s4]|e| |] eqn:B; cbn [bind]; try discriminate.
    intros [= _ <-]. apply advance_less in A. apply code_less in M. apply merge_less in G. apply branch_less in B. lia.
  - intros s next. unfold read_basic_block.
    destruct (first s) as [[]|]; try (intros [= <-]; reflexivity). destruct (advance s) as [s1|e| |] eqn:A; cbn [bind]; try discriminate.
    destruct (read_many s1 _) as [[code s2]|e| |] eqn:M; cbn [bind]; try discriminate.
    destruct (read_merge s2) as [[m s3]|e| |] eqn:G; cbn [bind]; try discriminate.
    destruct (read_branch s3) as [[b s4]|e| |] eqn:B; cbn [bind]; discriminate.
  - intros s. unfold need_block. destruct (first s) as [[]|]; try lia.
    destruct (advance s) as [s1|e| |] eqn:A; try lia. apply advance_less in A.
    pose proof (many_need _ _ _ (one_ok _) s1 : need_many read_code nothing s1 <= _). lia.
Qed.
Lemma block_calls_are : forall s item next, read_basic_block s = Ok (PhaseOk item next) -> need_block s = block_calls item.
Proof.
  intros s item next. unfold read_basic_block, need_block.
  destruct (first s) as [[]|]; try discriminate. destruct (advance s) as [s1|e| |]; cbn [bind]; try discriminate.
  destruct (read_many s1 _) as [[code s2]|e| |] eqn:M; cbn [bind]; try discriminate.
  destruct (read_merge s2) as [[m s3]|e| |] eqn:G; cbn [bind]; try discriminate.
  destruct (read_branch s3) as [[b s4]|e| |] eqn:B; cbn [bind]; try discriminate.
  intros [= <- _]. unfold block_calls. cbn [BasicBlock_code]. apply one_calls in M. exact M.
Qed.
Lemma block_end : forall s : slice, read_basic_block s = Ok (PhaseNext s) -> need_block s = 0.
Proof.
  intros s. unfold read_basic_block, need_block.
  destruct (first s) as [[]|]; try reflexivity. destruct (advance s) as [s1|e| |]; cbn [bind]; try discriminate.
  destruct (read_many s1 _) as [[code s2]|e| |] eqn:M; cbn [bind]; try discriminate.
  destruct (read_merge s2) as [[m s3]|e| |] eqn:G; cbn [bind]; try discriminate.
  destruct (read_branch s3) as [[b s4]|e| |] eqn:B; cbn [bind]; discriminate.
Qed.

Lemma def_ok : phase_ok read_function_definition read_function_definition_within need_def.
Proof.
  split.
  - intros s n. unfold read_function_definition_within, read_function_definition, need_def. destruct (get_remaining s <? 2); [reflexivity|].
    destruct (first s) as [[]|]; try reflexivity. destruct (advance s) as [s1|e| |]; cbn [bind]; try reflexivity.
    apply (within_bind n _ _ _ _ _ (fun v => need_many read_basic_block need_block (snd v)) _ (one_rel _ s1 n)).
    + intros [params s2] M. cbn [snd]. apply within_then. apply (many_rel _ _ _ block_ok s2 n).
    + unfold need_params. destruct (read_many s1 _) as [[params s2]|e| |]; reflexivity.
  - intros s item next. unfold read_function_definition. destruct (get_remaining s <? 2); [discriminate|].
    destruct (first s) as [[]|]; try discriminate. destruct (advance s) as [s1|e| |] eqn:A; cbn [bind]; try discriminate.
    destruct (read_many s1 _) as [[params s2]|e| |] eqn:M; cbn [bind]; try discriminate.
    destruct (read_many s2 _) as [[blocks s3]|e| |] eqn:M2; cbn [bind]; try discriminate.
    destruct (first s3) as [[]|]; try discriminate. destruct (advance s3) as [s4|e| |] eqn:A2; cbn [bind]; try discriminate.
    intros [= _ <-]. apply advance_less in A, A2. apply params_less in M. apply (many_less _ _ _ block_ok) in M2. lia.
  - intros s next. unfold read_function_definition. destruct (get_remaining s <? 2); [intros [= <-]; reflexivity|].
    destruct (first s) as [[]|]; try discriminate. destruct (advance s) as [s1|e| |] eqn:A; cbn [bind]; try discriminate.
    destruct (read_many s1 _) as [[params s2]|e| |] eqn:M; cbn [bind]; try discriminate.
    destruct (read_many s2 _) as [[blocks s3]|e| |] eqn:M2; cbn [bind]; try discriminate.
    destruct (first s3) as [[]|]; try discriminate. destruct (advance s3) as [s4|e| |]; discriminate.
  - intros s. unfold need_def. destruct (get_remaining s <? 2); [lia|]. destruct (first s) as [[]|]; try lia.
    destruct (advance s) as [s1|e| |] eqn:A; try lia. apply advance_less in A.
    pose proof (many_need _ _ _ (one_ok _) s1 : need_params s1 <= _).
    destruct (read_many s1 _) as [[params s2]|e| |] eqn:M; try lia. apply params_less in M. pose proof (many_need _ _ _ block_ok s2). lia.
Qed.
Lemma def_calls : forall s item next, read_function_definition s = Ok (PhaseOk item next) ->
  need_def s = definition_calls item /\ need_decl s = plain_calls (FunctionDefinition_parameters item).
Proof.
  intros s item next. unfold read_function_definition, need_def, need_decl. destruct (get_remaining s <? 2); [discriminate|].
  destruct (first s) as [[]|]; try discriminate. destruct (advance s) as [s1|e| |]; cbn [bind]; try discriminate.
  destruct (read_many s1 _) as [[params s2]|e| |] eqn:M; cbn [bind]; try discriminate.
  destruct (read_many s2 _) as [[blocks s3]|e| |] eqn:M2; cbn [bind]; try discriminate.
  destruct (first s3) as [[]|]; try discriminate. destruct (advance s3) as [s4|e| |]; cbn [bind]; try discriminate.
  intros [= <- _]. unfold definition_calls. cbn [FunctionDefinition_parameters FunctionDefinition_blocks]. apply one_calls in M.
  destruct (many_calls _ _ _ block_ok _ block_calls_are _ _ _ M2) as [X ->]. rewrite (block_end _ X).
  change (need_params s1) with (need_many read_function_parameter nothing s1). unfold read_function_parameter. rewrite M. auto.
Qed.
Lemma def_end : forall s : slice, read_function_definition s = Ok (PhaseNext s) -> need_def s = 0 /\ need_decl s = 0.
Proof.
  intros s. unfold read_function_definition, need_def, need_decl. destruct (get_remaining s <? 2); [auto|].
  destruct (first s) as [[]|]; try discriminate. destruct (advance s) as [s1|e| |]; cbn [bind]; try discriminate.
  destruct (read_many s1 _) as [[params s2]|e| |] eqn:M; cbn [bind]; try discriminate.
  destruct (read_many s2 _) as [[blocks s3]|e| |] eqn:M2; cbn [bind]; try discriminate.
  destruct (first s3) as [[]|]; try discriminate. destruct (advance s3) as [s4|e| |]; discriminate.
Qed.
Lemma defs_calls : forall (s : slice) defs s', read_many s read_function_definition = Ok (defs, s') ->
  need_many read_function_definition need_def s = calls definition_calls defs 0 /\
  need_decl s = match defs with [] => 0 | d :: _ => plain_calls (FunctionDefinition_parameters d) end.
Proof.
  intros s defs s' H. destruct (many_calls _ _ _ def_ok _ (fun s i n H => proj1 (def_calls s i n H)) _ _ _ H) as [X ->].
  rewrite (proj1 (def_end _ X)). split; [reflexivity|]. pose proof (many_first _ _ _ def_ok _ _ _ H) as F. destruct defs as [|d defs].
  - exact (proj2 (def_end _ F)).
  - destruct F as [next F]. exact (proj2 (def_calls _ _ _ F)).
Qed.

(** ** The module *)
(** The rest of a run: what it needs, together with the [acc] already needed, in terms of the result. *)
Definition good (X : nat -> outcome ValidationError (LogicalModule E)) (x : outcome ValidationError (LogicalModule E)) (bound acc : nat) : Prop :=
  exists need, (forall n, X n = within x need n) /\ need <= bound /\ forall lm, x = Ok lm -> Nat.max acc need = module_calls lm.

Lemma good_bind : forall {A} (X : nat -> outcome ValidationError A) x k (Y : A -> nat -> outcome ValidationError (LogicalModule E)) y bound acc,
  (forall n, X n = within x k n) -> k <= bound -> (forall v, x = Ok v -> good (Y v) (y v) bound (Nat.max acc k)) ->
  good (fun n => bind (X n) (fun v => Y v n)) (bind x y) bound acc.
Proof.
  intros A X x k Y y bound acc R L G. destruct x as [v|e| |].
  2-4: exists k; split; [intros n; exact (within_then n _ _ _ _ (R n))|]; split; [exact L|discriminate].
  destruct (G v eq_refl) as (k2 & R2 & L2 & Q). exists (Nat.max k k2). split; [|split; [lia|]].
  - intros n. apply (within_bind n _ _ _ _ _ (fun _ => k2) _ (R n)); [|reflexivity]. intros w [= <-]. apply R2.
  - intros lm H. rewrite <- (Q lm H). lia.
Qed.

Lemma validate_good : forall m : RawModule E, good (fun n => validate_within n m) (validate m) (S (length (RawModule_instructions m))) 0.
Proof.
  intros m. unfold validate_within, validate. set (s0 := slice_new _).
  assert (L0 : S (get_remaining s0) <= S (length (RawModule_instructions m))).
  { unfold s0, slice_new, get_remaining. cbn [insts index]. rewrite map_length. lia. }
  set (bound := S (length _)) in *. clearbody bound s0.
  assert (list_step : forall T (pick : OpByBlock E -> option T) s acc (Y : list T * slice -> nat -> outcome ValidationError (LogicalModule E)) y,
    S (get_remaining s) <= bound ->
    (forall l s', S (get_remaining s') <= bound -> good (Y (l, s')) (y (l, s')) bound (Nat.max acc (plain_calls l))) ->
    good (fun n => bind (read_many_within n s (simple (one pick))) (fun v => Y v n)) (bind (read_many s (one pick)) y) bound acc).
  { intros T pick s acc Y y L G. apply (good_bind _ _ (need_many (one pick) nothing s)).
    - intros n. apply (one_rel pick s n).
    - pose proof (many_need _ _ _ (one_ok pick) s). lia.
    - intros [l s'] H. rewrite (one_calls _ _ _ _ H). apply G. apply (many_less _ _ _ (one_ok pick)) in H. lia. }
  assert (mm_step : forall s acc (Y : OpMemoryModel * slice -> nat -> outcome ValidationError (LogicalModule E)) y,
    S (get_remaining s) <= bound -> (forall l s', S (get_remaining s') <= bound -> good (Y (l, s')) (y (l, s')) bound acc) ->
    good (fun n => bind (read_memory_model s) (fun v => Y v n)) (bind (read_memory_model s) y) bound acc).
  { intros s acc Y y L G. apply (good_bind _ _ 0); [reflexivity|lia|]. intros [o s'] H. rewrite Nat.max_0_r. apply G.
    unfold read_memory_model in H. destruct (first s) as [[]|]; try discriminate. destruct (advance s) as [s1|e| |] eqn:A; cbn [bind] in H; try discriminate.
    injection H as _ <-. apply advance_less in A. lia. }
  assert (decl_step : forall s acc (Y : list FunctionDeclaration * slice -> nat -> outcome ValidationError (LogicalModule E)) y,
    S (get_remaining s) <= bound ->
    (forall l s', S (get_remaining s') <= bound -> good (Y (l, s')) (y (l, s')) bound (Nat.max acc (calls declaration_calls l (need_decl s')))) ->
    good (fun n => bind (read_many_within n s read_function_declaration_within) (fun v => Y v n)) (bind (read_many s read_function_declaration) y) bound acc).
  { intros s acc Y y L G. apply (good_bind _ _ (need_many read_function_declaration need_decl s)).
    - intros n. apply (many_rel _ _ _ decl_ok s n).
    - pose proof (many_need _ _ _ decl_ok s). lia.
    - intros [l s'] H. rewrite (proj2 (many_calls _ _ _ decl_ok _ decl_calls _ _ _ H)). apply G. apply (many_less _ _ _ decl_ok) in H. lia. }
  assert (def_step : forall s acc (Y : list (FunctionDefinition E) * slice -> nat -> outcome ValidationError (LogicalModule E)) y,
    S (get_remaining s) <= bound ->
    (forall l s', need_decl s = match l with [] => 0 | d :: _ => plain_calls (FunctionDefinition_parameters d) end ->
      good (Y (l, s')) (y (l, s')) bound (Nat.max acc (calls definition_calls l 0))) ->
    good (fun n => bind (read_many_within n s read_function_definition_within) (fun v => Y v n)) (bind (read_many s read_function_definition) y) bound acc).
  { intros s acc Y y L G. apply (good_bind _ _ (need_many read_function_definition need_def s)).
    - intros n. apply (many_rel _ _ _ def_ok s n).
    - pose proof (many_need _ _ _ def_ok s). lia.
    - intros [l s'] H. destruct (defs_calls _ _ _ H) as [-> F]. apply G. exact F. }
  apply list_step; [exact L0|]. intros caps s1 L1.
  apply list_step; [exact L1|]. intros exts s2 L2.
  apply list_step; [exact L2|]. intros imps s3 L3.
  apply mm_step; [exact L3|]. intros mm s4 L4.
  apply list_step; [exact L4|]. intros eps s5 L5.
  apply list_step; [exact L5|]. intros ems s6 L6.
  apply list_step; [exact L6|]. intros dbg s7 L7.
  apply list_step; [exact L7|]. intros ann s8 L8.
  apply list_step; [exact L8|]. intros glo s9 L9.
  apply decl_step; [exact L9|]. intros decls s10 L10.
  apply def_step; [exact L10|]. intros defs s11 F.
  exists 0. split; [reflexivity|]. split; [lia|]. intros lm. destruct (0 <? get_remaining s11); [discriminate|]. intros [= <-].
  unfold module_calls, list_max.
  cbn [fold_right LogicalModule_capabilities LogicalModule_extensions LogicalModule_ext_inst_imports LogicalModule_entry_points LogicalModule_execution_modes
       LogicalModule_debug LogicalModule_annotations LogicalModule_globals LogicalModule_function_declarations LogicalModule_function_definitions].
  rewrite F. clear. rewrite !Nat.max_0_r, !Nat.max_0_l, <- !Nat.max_assoc. reflexivity.
Qed.

(** ** Statements *)
Lemma stack_exact : forall n (m : RawModule E) lm, validate_within n m = Ok lm <-> validate m = Ok lm /\ module_calls lm <= n.
Proof.
  intros n m lm. destruct (validate_good m) as (need & R & _ & Q). rewrite (R n). unfold within. split.
  - destruct (need <=? n) eqn:K; [|discriminate]. intros H. split; [exact H|]. rewrite <- (Q lm H). apply Nat.leb_le in K. exact K.
  - intros [H L]. rewrite <- (Q lm H) in L. cbn [Nat.max] in L. rewrite (proj2 (Nat.leb_le _ _) L). exact H.
Qed.
Lemma stack_transparent : forall n (m : RawModule E), validate_within n m = validate m \/ validate_within n m = OutOfFuel.
Proof. intros n m. destruct (validate_good m) as (need & R & _). rewrite (R n). unfold within. destruct (need <=? n); auto. Qed.
Lemma stack_bound : forall n (m : RawModule E), length (RawModule_instructions m) < n -> validate_within n m = validate m.
Proof.
  intros n m L. destruct (validate_good m) as (need & R & B & _). rewrite (R n). unfold within.
  rewrite (proj2 (Nat.leb_le _ _)) by lia. reflexivity.
Qed.
Lemma stack_threshold : forall m : RawModule E, exists need, need <= S (length (RawModule_instructions m)) /\
  forall n, validate_within n m = if need <=? n then validate m else OutOfFuel.
Proof. intros m. destruct (validate_good m) as (need & R & B & _). exists need. split; [exact B|exact R]. Qed.
End Stack.

(** A module of [n] capabilities. *)
Definition capable {E} (n : nat) (mm : OpMemoryModel) : LogicalModule E :=
  {| LogicalModule_capabilities := repeat Capability_Matrix n; LogicalModule_extensions := []; LogicalModule_ext_inst_imports := [];
     LogicalModule_memory_model := mm; LogicalModule_entry_points := []; LogicalModule_execution_modes := []; LogicalModule_debug := [];
     LogicalModule_annotations := []; LogicalModule_globals := []; LogicalModule_function_declarations := []; LogicalModule_function_definitions := [] |}.
Lemma stack_unbounded : forall E n v g b, exists (m : RawModule E) lm,
  m = Build_RawModule v g b (RawModule_instructions m) /\ length (RawModule_instructions m) = S n /\
  validate m = Ok lm /\ validate_within n m = OutOfFuel.
Proof.
  intros E n v g b. set (lm := capable (E := E) n (Build_OpMemoryModel AddressingModel_Logical MemoryModel_Simple)).
  set (m := Build_RawModule v g b (write_module lm)). exists m, lm. split; [reflexivity|].
  assert (V : validate m = Ok lm).
  { apply validate_iff. split; [reflexivity|]. unfold canonical, lm, capable. cbn. auto. }
  split; [|split; [exact V|]].
  - unfold m, lm, write_module, capable. cbn. rewrite app_length, map_length, repeat_length. cbn. lia.
  - destruct (stack_transparent n m) as [T|T]; [|exact T]. rewrite V in T. apply stack_exact in T as [_ L].
    unfold module_calls, lm, capable, list_max in L. cbn [fold_right LogicalModule_capabilities] in L. unfold plain_calls at 1 in L. rewrite repeat_length in L. lia.
Qed.
