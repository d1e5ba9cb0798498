(** The Debug format over several lines (C92). *)
From Coq Require Import Lia Bool.
From Verif Require Import Base Types Utf8 DisplayBase DisplayModule DebugBase DebugPretty Spec_Text Spec_Page Spec_Debug Spec_Pretty
  Proofs_Text2 Proofs_Debug Proofs_Page.
Local Open Scope string_scope.

Ltac lf := apply lf_freeb_spec; vm_compute; reflexivity.

(** ** Places *)
(** The place after a text; none if there is a line feed in a string literal. *)
Fixpoint run (p : place) (s : string) : option place :=
  match s with
  | "" => Some p
  | String c s =>
      match p with
      | Inside => if Ascii.eqb c line_feed then None
                  else run (if Ascii.eqb c quotation then Outside else if Ascii.eqb c backslash then Escaped else Inside) s
      | Escaped => if Ascii.eqb c line_feed then None else run Inside s
      | Line_start | Outside =>
          if Ascii.eqb c line_feed then run Line_start s
          else if (Ascii.eqb c " " && match p with Line_start => true | _ => false end)%bool then run Line_start s
          else run (if Ascii.eqb c quotation then Inside else Outside) s
      end
  end.
Lemma run_app : forall a p b, run p (a ++ b) = match run p a with Some q => run q b | None => None end.
Proof.
  induction a as [|c a IH]; intros p b; [reflexivity|]. cbn [append run].
  destruct p; destruct (Ascii.eqb c line_feed); try reflexivity; try apply IH; destruct (Ascii.eqb c " "); apply IH.
Qed.
Definition outer (p : place) : Prop := p = Outside \/ p = Line_start.

Lemma next_visible_app : forall a b, next_visible (a ++ b) = match next_visible a with Some c => Some c | None => next_visible b end.
Proof. induction a as [|c a IH]; intros b; [reflexivity|]. cbn [append next_visible]. destruct (_ || _)%bool; [apply IH|reflexivity]. Qed.
Lemma next_visible_pad : forall s b r, next_visible (pad_adapter b s ++ r) = next_visible (s ++ r).
Proof.
  induction s as [|c s IH]; intros b r; [reflexivity|].
  assert (K : next_visible (String c (pad_adapter (Ascii.eqb c (ascii_of_N 10)) s) ++ r) = next_visible (String c s ++ r)).
  { cbn [append next_visible]. destruct (_ || _)%bool; [apply IH|reflexivity]. }
  cbn [pad_adapter]. destruct b; [|exact K]. rewrite <- K. reflexivity.
Qed.
Lemma line_end_pad : forall s r, at_line_end (pad_adapter false s ++ r) = at_line_end (s ++ r).
Proof. intros [|c s] r; reflexivity. Qed.

(** The blanks of the adapter are not seen. *)
Lemma pad_unseen : forall s p b r, run p s <> None -> (b = true -> p = Line_start) ->
  one_line p (pad_adapter b s ++ r) = one_line p (s ++ r).
Proof.
  induction s as [|c s IH]; intros p b r R B; [reflexivity|].
  assert (K : one_line p (String c (pad_adapter (Ascii.eqb c (ascii_of_N 10)) s) ++ r) = one_line p (String c s ++ r)).
  { cbn [append one_line]. cbn [run] in R. change (ascii_of_N 10) with line_feed.
    destruct p; destruct (Ascii.eqb c line_feed) eqn:L; try (contradiction (R eq_refl));
      rewrite ?next_visible_pad, ?line_end_pad.
    - rewrite IH; [reflexivity|exact R|reflexivity].
    - destruct (Ascii.eqb c " ") eqn:S; cbn [andb] in *; [apply IH; [exact R|intros; discriminate || reflexivity]|].
      destruct (Ascii.eqb c "{" && at_line_end (s ++ r))%bool eqn:O; [apply andb_true_iff in O; destruct O as [O _]; apply Ascii.eqb_eq in O; subst c; rewrite (IH _ false r R) by (intros; discriminate); reflexivity|].
      destruct (Ascii.eqb c "," && at_line_end (s ++ r))%bool eqn:O'; [apply andb_true_iff in O'; destruct O' as [O' _]; apply Ascii.eqb_eq in O'; subst c; rewrite (IH _ false r R) by (intros; discriminate); reflexivity|].
      rewrite (IH _ false r R) by (intros; discriminate). reflexivity.
    - rewrite IH; [reflexivity|exact R|intros; discriminate || reflexivity].
    - rewrite IH; [reflexivity|exact R|intros; discriminate || reflexivity].
    - rewrite IH; [reflexivity|exact R|reflexivity].
    - rewrite andb_false_r in *. cbv beta iota in *.
      destruct (Ascii.eqb c "{" && at_line_end (s ++ r))%bool eqn:O; [apply andb_true_iff in O; destruct O as [O _]; apply Ascii.eqb_eq in O; subst c; rewrite (IH _ false r R) by (intros; discriminate); reflexivity|].
      destruct (Ascii.eqb c "," && at_line_end (s ++ r))%bool eqn:O'; [apply andb_true_iff in O'; destruct O' as [O' _]; apply Ascii.eqb_eq in O'; subst c; rewrite (IH _ false r R) by (intros; discriminate); reflexivity|].
      rewrite (IH _ false r R) by (intros; discriminate). reflexivity. }
  cbn [pad_adapter]. destruct b; [|exact K]. rewrite (B eq_refl) in *. exact K.
Qed.

(** ** Strings *)
Definition quiet (c : ascii) : bool := negb (Ascii.eqb c line_feed) && negb (Ascii.eqb c quotation) && negb (Ascii.eqb c backslash).
Lemma quiet_inside : forall s r, every quiet s = true -> one_line Inside (s ++ r) = s ++ one_line Inside r /\ run Inside (s ++ r) = run Inside r.
Proof.
  induction s as [|c s IH]; intros r Q; [split; reflexivity|]. cbn [every] in Q. apply andb_true_iff in Q. destruct Q as [C Q].
  unfold quiet in C. rewrite !andb_true_iff, !negb_true_iff in C. destruct C as [[C1 C2] C3]. destruct (IH r Q) as [I1 I2].
  cbn [append one_line run]. rewrite C1, C2, C3, I1, I2. split; reflexivity.
Qed.
Lemma every_app : forall p a b, every p (a ++ b) = (every p a && every p b)%bool.
Proof. intros p a b. induction a as [|c a IH]; [reflexivity|]. cbn [append every]. rewrite IH. apply andb_assoc. Qed.
Lemma char_quiet : forall c bytes, char_at c bytes -> (c < 0x110000)%N -> ~ short c -> small bytes -> every quiet (chars bytes) = true.
Proof.
  intros c bytes [[_ ->]|(b & -> & _)] H S Sm; [|lia].
  assert (K : Forall (fun b => b <> 10 /\ b <> 34 /\ b <> 92)%N (Spec_Unicode.utf8_char c)).
  { unfold Spec_Unicode.utf8_char. unfold short in S. destruct (c <? 128)%N eqn:X; [repeat constructor; tauto|].
    destruct (c <? 2048)%N; [repeat constructor; lia|]. destruct (c <? 65536)%N; repeat constructor; lia. }
  clear S. induction K as [|b l (K1 & K2 & K3) K IH]; [reflexivity|]. inversion Sm; subst. unfold chars, string_of_bytes in *. cbn. rewrite (IH H3), andb_true_r.
  assert (D : forall n, (n < 256)%N -> b <> n -> Ascii.eqb (ascii_of_N b) (ascii_of_N n) = false).
  { intros n L N. apply Ascii.eqb_neq. intros Q. apply (f_equal N_of_ascii) in Q. rewrite !N_ascii_embedding in Q by assumption. contradiction. }
  unfold quiet, quotation, backslash. change line_feed with (ascii_of_N 10). rewrite !D by (lia || assumption). reflexivity.
Qed.
Lemma token_inside : forall e l c b t r, small l -> next_char l = Some (c, b, t) ->
  one_line Inside (escape_char e c b ++ r) = escape_char e c b ++ one_line Inside r /\ run Inside (escape_char e c b ++ r) = run Inside r.
Proof.
  intros e l c b t r S N. apply next_char_step in N. destruct N as (-> & _ & A & _). apply Forall_app in S. destruct S as [S _].
  destruct (escape_char_cases e c b) as [(L & P & Q & ->)|[(x & X & ->)|(-> & Q & P)]].
  - apply quiet_inside. exact (char_quiet _ _ A L Q S).
  - letters X; split; reflexivity.
  - assert (K : every quiet ("{" ++ hex c ++ "}") = true).
    { rewrite !every_app. assert (hex_quiet : every quiet (hex c) = true); [|rewrite hex_quiet; reflexivity].
      assert (I : every hex_char (hex c) = true) by (apply hex_digits_every; reflexivity). revert I. induction (hex c) as [|x s IH]; intros I; [reflexivity|].
      cbn [every] in *. apply andb_true_iff in I. destruct I as [I1 I2]. rewrite (IH I2), andb_true_r. unfold quiet.
      rewrite !andb_true_iff, !negb_true_iff, !Ascii.eqb_neq. repeat split; intros ->; discriminate I1. }
    destruct (quiet_inside _ r K) as [Q1 Q2].
    replace (String backslash ("u{" ++ hex c ++ "}") ++ r) with (String backslash (String "u" (("{" ++ hex c ++ "}") ++ r))) by (cbn [append]; reflexivity).
    split; [|exact Q2]. change (one_line Inside (String backslash (String "u" (("{" ++ hex c ++ "}") ++ r))))
      with (String backslash (String "u" (one_line Inside (("{" ++ hex c ++ "}") ++ r)))). rewrite Q1. reflexivity.
Qed.
Lemma chars_inside : forall e n l r, small l ->
  one_line Inside (escape_chars e n l ++ r) = escape_chars e n l ++ one_line Inside r /\ run Inside (escape_chars e n l ++ r) = run Inside r.
Proof.
  intros e n. induction n as [|n IH]; intros l r S; [split; reflexivity|]. cbn [escape_chars]. destruct (next_char l) as [[[c b] t]|] eqn:N; [|split; reflexivity].
  rewrite !sapp_assoc. destruct (token_inside e l c b t (escape_chars e n t ++ r) S N) as [-> ->].
  apply next_char_step in N. destruct N as (-> & _). apply Forall_app in S. destruct S as [_ S]. destruct (IH t r S) as [-> ->]. split; reflexivity.
Qed.
Lemma string_outer : forall e s p r, outer p -> one_line p (dbg_str e s ++ r) = dbg_str e s ++ one_line Outside r /\ run p (dbg_str e s ++ r) = run Outside r.
Proof.
  intros e s p r O. unfold dbg_str. fold (Spec_Unicode.bytes_of_string s). generalize (List.length (Spec_Unicode.bytes_of_string s)). intros n.
  cbn [append]. rewrite !sapp_assoc. destruct (chars_inside e n (Spec_Unicode.bytes_of_string s) (String quotation "" ++ r) (bytes_small s)) as [H1 H2].
  assert (X : forall t, one_line p (String quotation t) = String quotation (one_line Inside t) /\ run p (String quotation t) = run Inside t) by (intros t; destruct O as [->| ->]; split; reflexivity).
  destruct (X (escape_chars e n (Spec_Unicode.bytes_of_string s) ++ String quotation "" ++ r)) as [-> ->]. rewrite H1, H2. split; reflexivity.
Qed.
(** No line feed in a literal. *)
Lemma quiet_free : forall s, every quiet s = true -> lf_free s.
Proof.
  induction s as [|c s IH]; intros Q; [intros []|]. cbn [every] in Q. apply andb_true_iff in Q. destruct Q as [C Q].
  intros [->|X]; [discriminate C|exact (IH Q X)].
Qed.
Lemma hex_free : forall c, lf_free (hex c).
Proof.
  intros c. assert (I : every hex_char (hex c) = true) by (apply hex_digits_every; reflexivity). revert I. induction (hex c) as [|x s IH]; intros I; [intros []|].
  cbn [every] in I. apply andb_true_iff in I. destruct I as [I1 I2]. intros [->|X]; [discriminate I1|exact (IH I2 X)].
Qed.
Lemma chars_free : forall e n l, small l -> lf_free (escape_chars e n l).
Proof.
  intros e n. induction n as [|n IH]; intros l S; [intros []|]. cbn [escape_chars]. destruct (next_char l) as [[[c b] t]|] eqn:N; [|intros []].
  apply next_char_step in N. destruct N as (-> & _ & A & _). apply Forall_app in S. destruct S as [S S2]. apply lf_app; [|apply IH; exact S2].
  destruct (escape_char_cases e c b) as [(L & P & Q & ->)|[(x & X & ->)|(-> & Q & P)]].
  - apply quiet_free. exact (char_quiet _ _ A L Q S).
  - letters X; lf.
  - change (String backslash ("u{" ++ hex c ++ "}")) with (String backslash "u{" ++ hex c ++ "}"). apply lf_app; [lf|apply lf_app; [apply hex_free|lf]].
Qed.
Lemma string_free : forall e s, lf_free (dbg_str e s).
Proof.
  intros e s. unfold dbg_str. fold (Spec_Unicode.bytes_of_string s).
  apply (lf_app (String quotation "")); [lf|]. apply lf_app; [apply chars_free; apply bytes_small|lf].
Qed.

(** ** Words *)
Lemma letters_every : forall s, word_letters s -> every word_char s = true.
Proof. induction s as [|c s IH]; intros W; [reflexivity|]. destruct W as [C W]. cbn [every]. rewrite IH by exact W. rewrite andb_true_r. exact C. Qed.
Lemma every_letters : forall s, every word_char s = true -> word_letters s.
Proof. induction s as [|c s IH]; intros W; [exact I|]. cbn [every] in W. apply andb_true_iff in W. destruct W as [C W]. split; [exact C|exact (IH W)]. Qed.
Lemma word_free : forall s, word_letters s -> lf_free s.
Proof. induction s as [|c s IH]; intros W; [intros []|]. destruct W as [C W]. intros [->|X]; [discriminate C|exact (IH W X)]. Qed.
Lemma letter_step : forall c p r, word_letter c = true -> outer p ->
  one_line p (String c r) = String c (one_line Outside r) /\ run p (String c r) = run Outside r.
Proof.
  intros c p r C O. assert (N : forall d, word_letter d = false -> Ascii.eqb c d = false) by (intros d D; apply Ascii.eqb_neq; intros ->; rewrite D in C; discriminate C).
  cbn [one_line run]. rewrite (N line_feed), (N " "%char), (N "{"%char), (N ","%char), (N quotation) by reflexivity. destruct O as [->| ->]; split; reflexivity.
Qed.
Lemma word_outside : forall w r, word_letters w -> one_line Outside (w ++ r) = w ++ one_line Outside r /\ run Outside (w ++ r) = run Outside r.
Proof.
  induction w as [|c w IH]; intros r W; [split; reflexivity|]. destruct W as [C W]. cbn [append].
  destruct (letter_step c Outside (w ++ r) C (or_introl eq_refl)) as [-> ->]. destruct (IH r W) as [-> ->]. split; reflexivity.
Qed.
Lemma word_outer : forall w p r, word_letters w -> w <> "" -> outer p -> one_line p (w ++ r) = w ++ one_line Outside r /\ run p (w ++ r) = run Outside r.
Proof.
  intros [|c w] p r W N O; [contradiction|]. destruct W as [C W]. cbn [append]. destruct (letter_step c p (w ++ r) C O) as [-> ->].
  destruct (word_outside w r W) as [-> ->]. split; reflexivity.
Qed.

(** ** Values *)
(** What is asked of a text [s] over several lines and a text [t] on one. *)
Definition visible (s : string) : Prop :=
  exists c r, s = String c r /\ Ascii.eqb c line_feed = false /\ Ascii.eqb c " " = false /\ closes (Some c) = false.
Record spread (s t : string) : Prop := {
  spread_visible : visible s;
  spread_run : forall p, outer p -> run p s = Some Outside;
  spread_line : forall p r, outer p -> one_line p (s ++ r) = t ++ one_line Outside r }.

Lemma visible_next : forall s r, visible s -> closes (next_visible (s ++ r)) = false /\ next_visible (s ++ r) <> Some "}"%char.
Proof.
  intros s r (c & s' & -> & L & B & C). cbn [append next_visible]. rewrite L, B. cbn [orb]. split; [exact C|]. intros X. injection X as ->. discriminate C.
Qed.
Lemma break_before : forall s, next_visible s <> Some "}"%char -> one_line Outside (nl ++ s) = one_line Line_start s.
Proof.
  intros s H. cbn [nl append one_line]. change (Ascii.eqb (ascii_of_N 10) line_feed) with true. cbv iota.
  destruct (next_visible s) as [[[] [] [] [] [] [] [] []]|]; try reflexivity. contradiction (H eq_refl).
Qed.
Lemma run_break : forall s, run Outside (nl ++ s) = run Line_start s.
Proof. reflexivity. Qed.

(** The closing bracket. *)
Definition bracket (k : string) : Prop := k = ")" \/ k = "]" \/ k = "}".
Definition gap (k : string) : string := if String.eqb k "}" then " " else "".
Lemma close_line : forall k r, bracket k -> one_line Outside (nl ++ k ++ r) = gap k ++ k ++ one_line Outside r.
Proof. intros k r [->|[->| ->]]; reflexivity. Qed.
Lemma close_comma : forall k r, bracket k -> one_line Outside ("," ++ nl ++ k ++ r) = gap k ++ k ++ one_line Outside r.
Proof. intros k r [->|[->| ->]]; reflexivity. Qed.
Lemma comma_break : forall s, closes (next_visible s) = false -> next_visible s <> Some "}"%char ->
  one_line Outside ("," ++ nl ++ s) = ", " ++ one_line Line_start s.
Proof.
  intros s C N. rewrite <- (break_before s N). cbn [append one_line]. change (Ascii.eqb "," line_feed) with false. change (Ascii.eqb "," " " && false)%bool with false.
  change (Ascii.eqb "," "{" && at_line_end (nl ++ s))%bool with false. change (Ascii.eqb "," "," && at_line_end (nl ++ s))%bool with true. cbv iota.
  replace (next_visible (nl ++ s)) with (next_visible s) by reflexivity. rewrite C. reflexivity.
Qed.

Section Blocks.
Variable trailing : bool.

Lemma field_run : forall s t more, spread s t -> lf_free more -> forall p, outer p -> word_letters more \/ more = "," -> run p (s ++ more ++ nl) = Some Line_start.
Proof.
  intros s t more S _ p O M. rewrite run_app, (spread_run _ _ S p O). destruct M as [M| ->]; [|reflexivity].
  destruct (word_outside more nl M) as [_ ->]. reflexivity.
Qed.

Lemma fields_line : forall items k r, bracket k -> items <> [] -> Forall (fun i => spread (fst i) (snd i)) items ->
  one_line Line_start (pretty_fields trailing (map fst items) ++ k ++ r) = separated (map snd items) ++ gap k ++ k ++ one_line Outside r.
Proof.
  intros items k r K. induction items as [|[s t] items IH]; intros N F; [contradiction|]. inversion F as [|? ? S F']; subst. cbn [fst snd] in S.
  assert (O : outer Line_start) by (right; reflexivity). destruct items as [|[s' t'] items].
  - cbn [map fst snd pretty_fields separated]. rewrite pad_unseen; [| |reflexivity].
    + rewrite !sapp_assoc, (spread_line _ _ S _ _ O). f_equal. destruct trailing; [apply close_comma|apply close_line]; exact K.
    + destruct trailing; [rewrite (field_run s t "," S) by (first [lf|exact O|right; reflexivity])|rewrite (field_run s t "" S) by (first [lf|exact O|left; exact I])]; discriminate.
  - cbn [map fst snd] in *. change (pretty_fields trailing (s :: s' :: map fst items)) with (pad_adapter true (s ++ "," ++ nl) ++ pretty_fields trailing (s' :: map fst items)).
    change (separated (t :: t' :: map snd items)) with (t ++ ", " ++ separated (t' :: map snd items)).
    rewrite sapp_assoc, pad_unseen; [| |reflexivity].
    + rewrite !sapp_assoc, (spread_line _ _ S _ _ O). f_equal.
      inversion F' as [|? ? S' F'']; subst. cbn [fst snd] in S'.
      assert (V : exists more, forall R, next_visible (pretty_fields trailing (s' :: map fst items) ++ R) = next_visible (s' ++ more ++ R)).
      { destruct (map fst items) as [|x l].
        - exists ((if trailing then "," else "") ++ nl). intros R. cbn [pretty_fields]. rewrite next_visible_pad, !sapp_assoc. reflexivity.
        - exists ("," ++ nl ++ pretty_fields trailing (x :: l)). intros R.
          change (pretty_fields trailing (s' :: x :: l)) with (pad_adapter true (s' ++ "," ++ nl) ++ pretty_fields trailing (x :: l)).
          rewrite sapp_assoc, next_visible_pad, !sapp_assoc. reflexivity. }
      destruct V as [more V]. destruct (visible_next s' (more ++ k ++ r) (spread_visible _ _ S')) as [V1 V2]. rewrite <- V in V1, V2.
      rewrite comma_break by assumption. rewrite IH by (discriminate || assumption). rewrite ?sapp_assoc. reflexivity.
    + rewrite (field_run s t "," S) by (first [lf|exact O|right; reflexivity]). discriminate.
Qed.

Lemma fields_run : forall items, items <> [] -> Forall (fun i => spread (fst i) (snd i)) items ->
  run Line_start (pretty_fields trailing (map fst items)) = Some Line_start.
Proof.
  assert (P : forall s p b, run p s <> None -> (b = true -> p = Line_start) -> run p (pad_adapter b s) = run p s).
  { induction s as [|c s IH]; intros p b R B; [reflexivity|].
    assert (K : run p (String c (pad_adapter (Ascii.eqb c (ascii_of_N 10)) s)) = run p (String c s)).
    { cbn [run] in *. change (ascii_of_N 10) with line_feed.
      destruct p; destruct (Ascii.eqb c line_feed) eqn:L; try (contradiction (R eq_refl)); try reflexivity;
        try (apply IH; [exact R|intros; discriminate || reflexivity]).
      - destruct (Ascii.eqb c " "); cbn [andb] in *; (apply IH; [exact R|intros; discriminate || reflexivity]).
      - rewrite andb_false_r in *. cbv iota in *. apply IH; [exact R|intros; discriminate]. }
    cbn [pad_adapter]. destruct b; [|exact K]. rewrite (B eq_refl) in *. exact K. }
  induction items as [|[s t] items IH]; intros N F; [contradiction|]. inversion F as [|? ? S F']; subst. cbn [fst snd] in S.
  assert (O : outer Line_start) by (right; reflexivity). destruct items as [|i items].
  - cbn [map fst pretty_fields]. assert (R : run Line_start (s ++ (if trailing then "," else "") ++ nl) = Some Line_start).
    { destruct trailing; [apply (field_run s t "," S); [lf|exact O|right; reflexivity]|apply (field_run s t "" S); [lf|exact O|left; exact I]]. }
    rewrite P; [exact R|rewrite R; discriminate|reflexivity].
  - change (map fst ((s, t) :: i :: items)) with (s :: fst i :: map fst items).
    change (pretty_fields trailing (s :: fst i :: map fst items)) with (pad_adapter true (s ++ "," ++ nl) ++ pretty_fields trailing (map fst (i :: items))).
    assert (R : run Line_start (s ++ "," ++ nl) = Some Line_start) by (apply (field_run s t "," S); [lf|exact O|right; reflexivity]).
    rewrite run_app, P by (first [rewrite R; discriminate|reflexivity]). rewrite R. apply IH; [discriminate|exact F'].
Qed.

Lemma first_field : forall items R, items <> [] -> Forall (fun i => spread (fst i) (snd i)) items ->
  next_visible (pretty_fields trailing (map fst items) ++ R) <> Some "}"%char.
Proof.
  intros [|[s t] items] R N F; [contradiction|]. inversion F as [|? ? S F']; subst. cbn [fst snd] in S.
  destruct items as [|i items].
  - cbn [map fst pretty_fields]. rewrite next_visible_pad, !sapp_assoc. apply (visible_next s _ (spread_visible _ _ S)).
  - change (map fst ((s, t) :: i :: items)) with (s :: fst i :: map fst items).
    change (pretty_fields trailing (s :: fst i :: map fst items)) with (pad_adapter true (s ++ "," ++ nl) ++ pretty_fields trailing (map fst (i :: items))).
    rewrite !sapp_assoc, next_visible_pad, !sapp_assoc. apply (visible_next s _ (spread_visible _ _ S)).
Qed.

(** A block: [o] is the opening on a line of its own, [o'] is it on one line. *)
Lemma block_spread : forall o o' items k, bracket k -> visible o ->
  (forall p, outer p -> run p o = Some Outside) ->
  (forall p r, outer p -> one_line p (o ++ nl ++ r) = o' ++ one_line Outside (nl ++ r)) ->
  Forall (fun i => spread (fst i) (snd i)) items -> items <> [] ->
  spread (pretty_block trailing o (map fst items) k) (o' ++ separated (map snd items) ++ gap k ++ k).
Proof.
  intros o o' items k K V R L F N. unfold pretty_block.
  replace (match map fst items with [] => o ++ k | _ => o ++ nl ++ pretty_fields trailing (map fst items) ++ k end)
    with (o ++ nl ++ pretty_fields trailing (map fst items) ++ k) by (destruct items; [contradiction|reflexivity]).
  constructor.
  - destruct V as (c & s & -> & V). eexists c, _. split; [reflexivity|exact V].
  - intros p O. rewrite run_app, (R p O), run_break, run_app, fields_run by assumption. destruct K as [->|[->| ->]]; reflexivity.
  - intros p r O. rewrite !sapp_assoc, (L _ _ O), break_before by (apply first_field; assumption). rewrite fields_line by assumption.
    rewrite ?sapp_assoc. reflexivity.
Qed.
End Blocks.

Lemma sapp_nil : forall s, s ++ "" = s.
Proof. induction s as [|c s IH]; [reflexivity|]. cbn. f_equal. exact IH. Qed.

(** ** Trees *)
Section Trees.
Context {E : Type} (trailing : bool) (e : escapes) (pretty_ext ext : E -> string) (Ext : forall x, spread (pretty_ext x) (ext x)).
Notation wide := (pretty_text trailing e pretty_ext).
Notation text := (debug_text e ext).

Lemma word_visible : forall w, word_letters w -> w <> "" -> visible w.
Proof.
  intros [|c w] W N; [contradiction|]. destruct W as [C _]. exists c, w. split; [reflexivity|].
  assert (D : forall d, word_letter d = false -> Ascii.eqb c d = false) by (intros d D; apply Ascii.eqb_neq; intros ->; rewrite D in C; discriminate C).
  cbn [closes]. rewrite !D by reflexivity. repeat split.
Qed.
Lemma word_spread : forall w, word_letters w -> w <> "" -> spread w w.
Proof.
  intros w W N. constructor; [apply word_visible; assumption| |].
  - intros p O. rewrite <- (sapp_nil w). apply (word_outer w p "" W N O).
  - intros p r O. apply (word_outer w p r W N O).
Qed.
Lemma decimal_letters : forall n, word_letters (disp_u32 n).
Proof.
  intros n. apply every_letters. pose proof (decimal_digits n) as H. induction (disp_u32 n) as [|c s IH]; [reflexivity|]. cbn [every] in *.
  apply andb_true_iff in H. destruct H as [H1 H2]. rewrite IH by exact H2. unfold word_char. cbv zeta. rewrite H1. reflexivity.
Qed.

Lemma tree_spread : forall t, plainly_named t -> spread (wide t) (text t).
Proof.
  assert (Items : forall l, Forall (fun t => plainly_named t -> spread (wide t) (text t)) l ->
    (fix each l := match l with [] => True | t :: l => plainly_named t /\ each l end) l ->
    Forall (fun i => spread (fst i) (snd i)) (map (fun t => (wide t, text t)) l)).
  { intros l F. induction F as [|t l T F IH]; intros P; [constructor|]. destruct P as [P1 P2]. constructor; [exact (T P1)|exact (IH P2)]. }
  assert (Pairs : forall {A} (f g : A -> string) l, map fst (map (fun t => (f t, g t)) l) = map f l /\ map snd (map (fun t => (f t, g t)) l) = map g l).
  { intros A f g l. rewrite !map_map. split; reflexivity. }
  apply (tree_ind' (E := E) (fun t => plainly_named t -> spread (wide t) (text t))).
  - intros n _. apply word_spread; [apply decimal_letters|]. pose proof (decimal_starts n) as (c & s & H & _). intros X. change (disp_u32 n = "") in X. rewrite H in X. discriminate X.
  - intros [] _; apply word_spread; cbn; repeat split; discriminate.
  - intros s _. cbn [pretty_text debug_text]. constructor.
    + eexists _, _. split; [reflexivity|]. repeat split.
    + intros p O. rewrite <- (sapp_nil (dbg_str e s)). apply (string_outer e s p "" O).
    + intros p r O. apply (string_outer e s p r O).
  - intros n [W N]. apply word_spread; assumption.
  - intros n fs F (W & N & P). cbn [pretty_text debug_text]. specialize (Items fs F P).
    destruct (Pairs _ wide text fs) as [P1 P2]. rewrite <- P1, <- P2.
    replace (n ++ "(" ++ separated (map snd (map (fun t => (wide t, text t)) fs)) ++ ")") with ((n ++ "(") ++ separated (map snd (map (fun t => (wide t, text t)) fs)) ++ gap ")" ++ ")") by (rewrite sapp_assoc; reflexivity).
    apply block_spread; [left; reflexivity| | | |exact Items|destruct fs; [contradiction|discriminate]].
    + destruct n as [|c n]; [eexists _, _; split; [reflexivity|repeat split]|]. destruct (word_visible (String c n) W) as (c' & s & Q & V); [discriminate|].
      injection Q as <- <-. eexists _, _. split; [reflexivity|exact V].
    + intros p O. destruct n as [|c n]; [destruct O as [->| ->]; reflexivity|]. apply (word_outer (String c n) p "(" W); [discriminate|exact O].
    + intros p r O. destruct n as [|c n]; [destruct O as [->| ->]; reflexivity|]. rewrite !sapp_assoc. destruct (word_outer (String c n) p ("(" ++ nl ++ r) W) as [-> _]; [discriminate|exact O|reflexivity].
  - intros n fs F (W & N & N' & P). cbn [pretty_text debug_text].
    assert (Items' : Forall (fun i => spread (fst i) (snd i)) (map (fun f => (fst f ++ ": " ++ wide (snd f), fst f ++ ": " ++ text (snd f))) fs)).
    { clear N'. induction F as [|[f t] fs T F IH]; [constructor|]. cbn [fst snd] in *. destruct P as [(P1 & P2 & P3) P4]. constructor; [|exact (IH P4)].
      cbn [fst snd]. specialize (T P3). constructor.
      - destruct (word_visible f P1 P2) as (c & s & -> & V). eexists _, _. split; [reflexivity|exact V].
      - intros p O. destruct (word_outer f p (": " ++ wide t) P1 P2 O) as [_ ->]. apply (spread_run _ _ T). left. reflexivity.
      - intros p r O. rewrite !sapp_assoc. destruct (word_outer f p (": " ++ wide t ++ r) P1 P2 O) as [-> _].
        change (one_line Outside (": " ++ wide t ++ r)) with (": " ++ one_line Outside (wide t ++ r)). rewrite (spread_line _ _ T) by (left; reflexivity). reflexivity. }
    destruct (Pairs _ (fun f => fst f ++ ": " ++ wide (snd f)) (fun f => fst f ++ ": " ++ text (snd f)) fs) as [P1 P2]. rewrite <- P1, <- P2.
    match goal with |- spread _ (n ++ " { " ++ ?s ++ " }") => replace (n ++ " { " ++ s ++ " }") with ((n ++ " { ") ++ s ++ gap "}" ++ "}") by (rewrite sapp_assoc; reflexivity) end.
    apply block_spread; [right; right; reflexivity| | | |exact Items'|destruct fs; [contradiction|discriminate]].
    + destruct (word_visible n W N) as (c & s & -> & V). eexists _, _. split; [reflexivity|exact V].
    + intros p O. destruct (word_outer n p " {" W N O) as [_ ->]. reflexivity.
    + intros p r O. rewrite !sapp_assoc. destruct (word_outer n p (" {" ++ nl ++ r) W N O) as [-> _]. reflexivity.
  - intros l F P. cbn [pretty_text debug_text]. specialize (Items l F P). destruct (Pairs _ wide text l) as [P1 P2]. rewrite <- P1, <- P2.
    destruct l as [|t l].
    { constructor; [eexists _, _; split; [reflexivity|repeat split]|intros p [->| ->]; reflexivity|intros p r [->| ->]; reflexivity]. }
    match goal with |- spread _ ("[" ++ ?s ++ "]") => change ("[" ++ s ++ "]") with ("[" ++ s ++ gap "]" ++ "]") end.
    apply block_spread; [right; left; reflexivity|eexists _, _; split; [reflexivity|repeat split]|intros p [->| ->]; reflexivity|intros p r [->| ->]; reflexivity|exact Items|discriminate].
  - intros x _. cbn [pretty_text debug_text].
    change ("ExtInstBox(" ++ ext x ++ ")") with ("ExtInstBox(" ++ separated (map snd [(pretty_ext x, ext x)]) ++ gap ")" ++ ")").
    change [pretty_ext x] with (map fst [(pretty_ext x, ext x)]).
    apply block_spread; [left; reflexivity|eexists _, _; split; [reflexivity|repeat split]|intros p [->| ->]; reflexivity|intros p r [->| ->]; reflexivity| |discriminate].
    constructor; [exact (Ext x)|constructor].
Qed.
End Trees.
