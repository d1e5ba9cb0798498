(** The Debug format with formatting options (C95). *)
From Coq Require Import Lia Bool.
From Verif Require Import Base Types Utf8 DisplayBase DisplayModule FmtBase DebugBase DebugPretty DebugOptions Spec_Text Spec_Writer Spec_Options Spec_Page Spec_Debug Spec_Pretty
  Spec_DebugOptions Proofs_Text Proofs_Text2 Proofs_Fmt Proofs_Options Proofs_Debug Proofs_Page Proofs_Pretty.
Local Open Scope string_scope.

(** ** The text *)
Lemma written_text : forall p s, prints p s -> written p = s.
Proof.
  intros p s P. unfold written. destruct (p string (fun s w => (w ++ s, true)) "") as [w r] eqn:Q. cbn [fst]. apply P in Q.
  assert (K : forall w text w', wrote (fun s w => (w ++ s, true)) w text w' -> w' = w ++ text).
  { clear. intros w text w' H. induction H as [w|w s w1 text w2 H1 H2 IH]; [rewrite sapp_nil; reflexivity|]. injection H1 as <-. rewrite IH. apply sapp_assoc. }
  destruct Q as [[_ Q]|(_ & before & failing & after & w1 & Q)]; [apply K in Q; exact Q|]. destruct Q as (_ & _ & Q). discriminate Q.
Qed.
Lemma filled_unique : forall o default s t, filled o default s t -> t = fill_around o default s.
Proof.
  intros o default s t (before & after & -> & S & A). unfold fill_around. set (n := match Options_width o with Some width => _ | None => 0 end) in *.
  assert (before = pre o default n) as B.
  { unfold pre. pose proof (Nat.div_mod n 2 ltac:(lia)) as D. pose proof (Nat.mod_upper_bound n 2 ltac:(lia)) as M.
    destruct (match Options_align o with Align_Unknown => default | a => a end); lia. }
  subst before. f_equal. f_equal. f_equal. lia.
Qed.
Lemma number_unique : forall o s t, number_with o s t -> t = fit_number o s.
Proof.
  intros o s t. unfold number_with, fit_number. destruct (Options_zero o); [intros (z & -> & ->); reflexivity|apply filled_unique].
Qed.
Lemma text_unique : forall o s t, text_with o s t -> t = fit_text o s.
Proof. intros o s t. apply filled_unique. Qed.

Definition shape {E} (layout : option bool) (e : escapes) (ext : E -> string) : dtree E -> string :=
  match layout with None => debug_text e ext | Some trailing => pretty_text trailing e ext end.
Lemma exact_text : forall {E} layout o e (ext : E -> string) number boolean, leaves_of o number boolean ->
  forall t, debug_with layout o e ext t = shape layout e ext (with_leaves number boolean t).
Proof.
  intros E layout o e ext number boolean [N B].
  assert (Items : forall l, Forall (fun t => debug_with layout o e ext t = shape layout e ext (with_leaves number boolean t)) l ->
    map (debug_with layout o e ext) l = map (shape layout e ext) (map (with_leaves number boolean) l)).
  { intros l F. induction F as [|t l T F IH]; [reflexivity|]. cbn [map]. rewrite T, IH. reflexivity. }
  apply (tree_ind' (E := E) (fun t => debug_with layout o e ext t = shape layout e ext (with_leaves number boolean t))).
  - intros n. cbn [debug_with with_leaves]. rewrite (written_text _ _ (prints_pad_integral _ o)). rewrite (number_unique _ _ _ (N n)). destruct layout; reflexivity.
  - intros b. cbn [debug_with with_leaves]. rewrite (written_text _ _ (prints_pad _ o)). rewrite (text_unique _ _ _ (B b)). destruct layout; reflexivity.
  - intros s. destruct layout; reflexivity.
  - intros n. destruct layout; reflexivity.
  - intros n fs F. cbn [debug_with with_leaves]. rewrite (Items fs F). destruct layout; [reflexivity|]. cbn [debug_block shape debug_text]. rewrite !sapp_assoc. reflexivity.
  - intros n fs F. cbn [debug_with with_leaves].
    assert (K : map (fun f => fst f ++ ": " ++ debug_with layout o e ext (snd f)) fs
      = map (fun f => fst f ++ ": " ++ shape layout e ext (snd f)) (map (fun f => (fst f, with_leaves number boolean (snd f))) fs)).
    { induction F as [|[f t] fs T F IH]; [reflexivity|]. cbn [map fst snd] in *. rewrite T, IH. reflexivity. }
    rewrite K. destruct layout; [reflexivity|]. cbn [debug_block shape debug_text]. rewrite !sapp_assoc. reflexivity.
  - intros l F. cbn [debug_with with_leaves]. rewrite (Items l F). destruct layout; reflexivity.
  - intros x. destruct layout; reflexivity.
Qed.
Lemma leaves_exist : forall o, leaves_of o (fun n => fit_number o (decimal n)) (fun b => fit_text o (if b then "true" else "false")).
Proof. intros o. split; [intros n; apply fit_number_ok|intros b; apply fit_text_ok]. Qed.

Lemma plain_leaves : forall {E} e (ext : E -> string) layout t, shape layout e ext (with_leaves decimal (fun b => if b then "true" else "false") t) = shape layout e ext t.
Proof.
  intros E e ext layout.
  assert (Items : forall l, Forall (fun t => shape layout e ext (with_leaves decimal (fun b => if b then "true" else "false") t) = shape layout e ext t) l ->
    map (shape layout e ext) (map (with_leaves decimal (fun b => if b then "true" else "false")) l) = map (shape layout e ext) l).
  { intros l F. induction F as [|t l T F IH]; [reflexivity|]. cbn [map]. rewrite T, IH. reflexivity. }
  apply (tree_ind' (E := E) (fun t => shape layout e ext (with_leaves decimal (fun b => if b then "true" else "false") t) = shape layout e ext t)).
  - intros n. destruct layout; reflexivity.
  - intros b. destruct layout; reflexivity.
  - intros s. destruct layout; reflexivity.
  - intros n. destruct layout; reflexivity.
  - intros n fs F. apply Items in F. destruct layout; cbn [shape] in *; cbn [with_leaves debug_text pretty_text]; rewrite F; reflexivity.
  - intros n fs F.
    assert (K : map (fun f => fst f ++ ": " ++ shape layout e ext (snd f)) (map (fun f => (fst f, with_leaves decimal (fun b : bool => if b then "true" else "false") (snd f))) fs)
      = map (fun f => fst f ++ ": " ++ shape layout e ext (snd f)) fs).
    { induction F as [|[f t] fs T F IH]; [reflexivity|]. cbn [map fst snd] in *. rewrite T, IH. reflexivity. }
    destruct layout; cbn [shape] in *; cbn [with_leaves debug_text pretty_text]; rewrite K; reflexivity.
  - intros l F. apply Items in F. destruct layout; cbn [shape] in *; cbn [with_leaves debug_text pretty_text]; rewrite F; reflexivity.
  - intros x. destruct layout; reflexivity.
Qed.
Lemma plain_text : forall {E} layout e (ext : E -> string) t, debug_with layout plain e ext t = shape layout e ext t.
Proof.
  intros E layout e ext t. rewrite (exact_text layout plain e ext decimal (fun b : bool => if b then "true" else "false")); [apply plain_leaves|].
  split; intros x; [change (number_with plain (decimal x) (decimal x))|]; exists 0, 0; (split; [cbn [copies append]; rewrite sapp_nil; reflexivity|split; reflexivity]).
Qed.

(** ** Places *)
Definition outside (p : spot) : Prop := p = Between \/ p = Word.
Notation bare := without_options.

(** Whether a literal is open after a text; none if there is a line feed in a literal.  Words are not told from what is between them. *)
Fixpoint walk (p : spot) (s : string) : option spot :=
  match s with
  | "" => Some p
  | String c s =>
      match p with
      | Literal => if Ascii.eqb c line_feed then None
                   else walk (if Ascii.eqb c quotation then Between else if Ascii.eqb c backslash then Escape else Literal) s
      | Escape => if Ascii.eqb c line_feed then None else walk Literal s
      | Between | Word => walk (if Ascii.eqb c quotation then Literal else Between) s
      end
  end.
Definition flat (p : spot) : spot := match p with Word => Between | p => p end.
Lemma walk_app : forall a p b, walk p (a ++ b) = match walk p a with Some q => walk q b | None => None end.
Proof.
  induction a as [|c a IH]; intros p b; [reflexivity|]. cbn [append walk]. destruct p; try destruct (Ascii.eqb c line_feed); try reflexivity; apply IH.
Qed.

Lemma numeral_pad : forall s r, numeral_next (pad_adapter false s ++ r) = numeral_next (s ++ r).
Proof. intros [|c s] r; reflexivity. Qed.
Lemma labels_pad : forall s r, labels (pad_adapter false s ++ r) = labels (s ++ r).
Proof.
  induction s as [|c s IH]; intros r; [reflexivity|]. cbn [pad_adapter append labels]. destruct (word_letter c) eqn:W; [|reflexivity].
  assert (Ascii.eqb c (ascii_of_N 10) = false) as -> by (apply Ascii.eqb_neq; intros ->; discriminate W). apply IH.
Qed.

(** The blanks of the adapter are not seen. *)
Lemma pad_lost : forall s p b r, walk (flat p) s <> None -> (b = true -> p = Between) -> bare p (pad_adapter b s ++ r) = bare p (s ++ r).
Proof.
  induction s as [|c s IH]; intros p b r R B; [reflexivity|].
  assert (K : bare p (String c (pad_adapter (Ascii.eqb c (ascii_of_N 10)) s) ++ r) = bare p (String c s ++ r)).
  { cbn [append without_options]. cbn [walk] in R. change (ascii_of_N 10) with line_feed. destruct (Ascii.eqb c line_feed) eqn:L.
    - apply Ascii.eqb_eq in L. subst c. destruct p; cbn [flat] in R; try (contradiction (R eq_refl)); cbn [orb Ascii.eqb]; rewrite (IH Between); (exact R || reflexivity).
    - assert (H : forall q, walk (flat q) s <> None -> bare q (pad_adapter false s ++ r) = bare q (s ++ r)) by (intros q Q; apply IH; [exact Q|discriminate]).
      destruct p; cbn [flat] in R.
      3: rewrite H; [reflexivity|]; destruct (Ascii.eqb c quotation); [exact R|]; destruct (Ascii.eqb c backslash); exact R.
      3: rewrite H; [reflexivity|exact R].
      all: cbn [orb]; rewrite numeral_pad, labels_pad, next_visible_pad; destruct (Ascii.eqb c quotation) eqn:Q;
        [apply Ascii.eqb_eq in Q; subst c; cbn; rewrite H by exact R; reflexivity|];
        rewrite (H Between R); repeat match goal with |- context [if ?x then _ else _] => destruct x; try reflexivity end;
        first [rewrite (H Word R)|rewrite (H Between R)]; reflexivity. }
  cbn [pad_adapter]. destruct b; [|exact K]. rewrite (B eq_refl) in *. exact K.
Qed.

(** ** Strings *)
Lemma quiet_literal : forall s r, every quiet s = true -> bare Literal (s ++ r) = s ++ bare Literal r /\ walk Literal (s ++ r) = walk Literal r.
Proof.
  induction s as [|c s IH]; intros r Q; [split; reflexivity|]. cbn [every] in Q. apply andb_true_iff in Q. destruct Q as [C Q].
  unfold quiet in C. rewrite !andb_true_iff, !negb_true_iff in C. destruct C as [[C1 C2] C3]. destruct (IH r Q) as [I1 I2].
  cbn [append without_options walk]. rewrite C1, C2, C3, I1, I2. split; reflexivity.
Qed.
Lemma token_literal : forall e l c b t r, small l -> next_char l = Some (c, b, t) ->
  bare Literal (escape_char e c b ++ r) = escape_char e c b ++ bare Literal r /\ walk Literal (escape_char e c b ++ r) = walk Literal r.
Proof.
  intros e l c b t r S N. apply next_char_step in N. destruct N as (-> & _ & A & _). apply Forall_app in S. destruct S as [S _].
  destruct (escape_char_cases e c b) as [(L & P & Q & ->)|[(x & X & ->)|(-> & Q & P)]].
  - apply quiet_literal. exact (char_quiet _ _ A L Q S).
  - letters X; split; reflexivity.
  - assert (K : every quiet ("{" ++ hex c ++ "}") = true).
    { rewrite !every_app. assert (hex_quiet : every quiet (hex c) = true); [|rewrite hex_quiet; reflexivity].
      assert (I : every hex_char (hex c) = true) by (apply hex_digits_every; reflexivity). revert I. induction (hex c) as [|x s IH]; intros I; [reflexivity|].
      cbn [every] in *. apply andb_true_iff in I. destruct I as [I1 I2]. rewrite (IH I2), andb_true_r. unfold quiet.
      rewrite !andb_true_iff, !negb_true_iff, !Ascii.eqb_neq. repeat split; intros ->; discriminate I1. }
    destruct (quiet_literal _ r K) as [Q1 Q2].
    replace (String backslash ("u{" ++ hex c ++ "}") ++ r) with (String backslash (String "u" (("{" ++ hex c ++ "}") ++ r))) by (cbn [append]; reflexivity).
    split; [|exact Q2]. change (bare Literal (String backslash (String "u" (("{" ++ hex c ++ "}") ++ r))))
      with (String backslash (String "u" (bare Literal (("{" ++ hex c ++ "}") ++ r)))). rewrite Q1. reflexivity.
Qed.
Lemma chars_literal : forall e n l r, small l ->
  bare Literal (escape_chars e n l ++ r) = escape_chars e n l ++ bare Literal r /\ walk Literal (escape_chars e n l ++ r) = walk Literal r.
Proof.
  intros e n. induction n as [|n IH]; intros l r S; [split; reflexivity|]. cbn [escape_chars]. destruct (next_char l) as [[[c b] t]|] eqn:N; [|split; reflexivity].
  rewrite !sapp_assoc. destruct (token_literal e l c b t (escape_chars e n t ++ r) S N) as [-> ->].
  apply next_char_step in N. destruct N as (-> & _). apply Forall_app in S. destruct S as [_ S]. destruct (IH t r S) as [-> ->]. split; reflexivity.
Qed.
Lemma string_between : forall e s r, bare Between (dbg_str e s ++ r) = dbg_str e s ++ bare Between r /\ walk Between (dbg_str e s ++ r) = walk Between r.
Proof.
  intros e s r. unfold dbg_str. fold (Spec_Unicode.bytes_of_string s). generalize (List.length (Spec_Unicode.bytes_of_string s)). intros n.
  cbn [append]. rewrite !sapp_assoc. destruct (chars_literal e n (Spec_Unicode.bytes_of_string s) (String quotation "" ++ r) (bytes_small s)) as [H1 H2].
  change (bare Between (String quotation (escape_chars e n (Spec_Unicode.bytes_of_string s) ++ String quotation "" ++ r)))
    with (String quotation (bare Literal (escape_chars e n (Spec_Unicode.bytes_of_string s) ++ String quotation "" ++ r))).
  change (walk Between (String quotation (escape_chars e n (Spec_Unicode.bytes_of_string s) ++ String quotation "" ++ r)))
    with (walk Literal (escape_chars e n (Spec_Unicode.bytes_of_string s) ++ String quotation "" ++ r)).
  rewrite H1, H2. split; reflexivity.
Qed.

(** ** Words *)
(** What neither goes on with a word nor makes it the name of a field. *)
Definition apart (r : string) : Prop := match r with "" => True | String c _ => word_letter c = false /\ Ascii.eqb c ":" = false end.
Lemma apart_between : forall r, apart r -> bare Word r = bare Between r.
Proof.
  intros [|c r] A; [reflexivity|]. destruct A as [A _]. cbn [without_options].
  assert (Ascii.eqb c "0" = false) as -> by (apply Ascii.eqb_neq; intros ->; discriminate A). reflexivity.
Qed.
Lemma apart_numeral : forall r, apart r -> numeral_next r = false.
Proof.
  intros [|c r] A; [reflexivity|]. destruct A as [A _]. cbn [numeral_next]. unfold word_letter in A. unfold is_numeral. cbv zeta in A. apply orb_false_iff in A. destruct A as [A _].
  apply orb_false_iff in A. destruct A as [A _]. apply orb_false_iff in A. destruct A as [A _]. exact A.
Qed.
Lemma apart_labels : forall r, apart r -> labels r = false.
Proof. intros [|c r] A; [reflexivity|]. destruct A as [A B]. cbn [labels]. rewrite A. exact B. Qed.
Lemma other_letter : forall c d, word_letter c = true -> word_letter d = false -> Ascii.eqb c d = false.
Proof. intros c d C D. apply Ascii.eqb_neq. intros ->. rewrite C in D. discriminate D. Qed.
Lemma letter_kept : forall c p r, word_letter c = true -> outside p ->
  (c = "0"%char -> p = Word \/ numeral_next r = false \/ labels r = true) -> bare p (String c r) = String c (bare Word r).
Proof.
  intros c p r C O Z. assert (D := fun d => other_letter c d C). cbn [without_options].
  rewrite (D line_feed), (D " "%char), (D "+"%char), (D ","%char), (D ":"%char), (D "{"%char), (D "}"%char), (D quotation) by reflexivity. rewrite C. cbn [orb].
  destruct O as [->| ->]; [|rewrite andb_false_r; reflexivity]. destruct (Ascii.eqb c "0") eqn:Q; [|reflexivity]. apply Ascii.eqb_eq in Q. subst c. cbn [andb].
  destruct (Z eq_refl) as [X|[-> | ->]]; [discriminate X|reflexivity|rewrite andb_false_r; reflexivity].
Qed.
Lemma letter_walk : forall c r, word_letter c = true -> walk Between (String c r) = walk Between r.
Proof. intros c r C. cbn [walk]. rewrite (other_letter c quotation C) by reflexivity. reflexivity. Qed.
Lemma word_kept : forall w r, word_letters w -> bare Word (w ++ r) = w ++ bare Word r.
Proof.
  induction w as [|c w IH]; intros r W; [reflexivity|]. destruct W as [C W]. cbn [append]. rewrite letter_kept; [|exact C|right; reflexivity|left; reflexivity].
  rewrite IH by exact W. reflexivity.
Qed.
Lemma word_walk : forall w r, word_letters w -> walk Between (w ++ r) = walk Between r.
Proof. induction w as [|c w IH]; intros r W; [reflexivity|]. destruct W as [C W]. cbn [append]. rewrite letter_walk by exact C. apply IH. exact W. Qed.
Lemma labels_word : forall w r, word_letters w -> labels (w ++ ":" ++ r) = true.
Proof. induction w as [|c w IH]; intros r W; [reflexivity|]. destruct W as [C W]. cbn [append labels]. rewrite C. apply IH. exact W. Qed.
Lemma name_kept : forall n r, identifier n -> bare Between (n ++ r) = n ++ bare Word r.
Proof.
  intros [|c n] r I; [contradiction|]. destruct I as (C & D & W). cbn [append]. rewrite letter_kept; [|exact C|left; reflexivity|intros ->; discriminate D].
  rewrite word_kept by exact W. reflexivity.
Qed.
Lemma label_kept : forall f r, word_letters f -> f <> "" -> bare Between (f ++ ":" ++ r) = f ++ ": " ++ bare Between r.
Proof.
  intros [|c f] r W N; [contradiction|]. destruct W as [C W]. change (String c f ++ ":" ++ r) with (String c (f ++ ":" ++ r)).
  rewrite letter_kept; [|exact C|left; reflexivity|intros _; right; right; apply labels_word; exact W]. rewrite word_kept by exact W. reflexivity.
Qed.

(** ** Values *)
(** What is asked of a text [s] with options and a text [t] without. *)
Record tidied (s t : string) : Prop := {
  tidied_next : forall r, closes (next_visible (s ++ r)) = false;
  tidied_walk : walk Between s = Some Between;
  tidied_bare : forall r, apart r -> bare Between (s ++ r) = t ++ bare Between r }.

Lemma blanks_lost : forall n r, bare Between (copies n " " ++ r) = bare Between r /\ walk Between (copies n " " ++ r) = walk Between r /\ next_visible (copies n " " ++ r) = next_visible r.
Proof. induction n as [|n IH]; intros r; [repeat split|]. exact (IH r). Qed.
Lemma blanks_word : forall n r, apart r -> bare Word (copies n " " ++ r) = bare Between r /\ apart (copies n " " ++ r).
Proof. intros [|n] r A; [split; [apply apart_between|]; exact A|]. split; [exact (proj1 (blanks_lost n r))|split; reflexivity]. Qed.
Lemma letter_next : forall c r, word_letter c = true -> closes (next_visible (String c r)) = false.
Proof.
  intros c r C. cbn [next_visible]. rewrite !(fun d => other_letter c d C) by reflexivity. cbn [orb closes]. rewrite !(fun d => other_letter c d C) by reflexivity. reflexivity.
Qed.
(** A word that is kept, after something that is lost and with blanks after it. *)
Lemma word_tidied : forall w, word_letters w -> w <> "" ->
  (forall r, apart r -> bare Between (w ++ r) = w ++ bare Word r) ->
  forall lost after, (forall r, closes (next_visible (lost ++ w ++ r)) = false) ->
  (forall r, walk Between (lost ++ r) = walk Between r) ->
  (forall r, apart r -> bare Between (lost ++ w ++ r) = bare Between (w ++ r)) ->
  tidied (lost ++ w ++ copies after " ") w.
Proof.
  intros w W N K lost after L1 L2 L3. constructor.
  - intros r. rewrite !sapp_assoc. apply L1.
  - rewrite L2, word_walk by exact W. rewrite <- (sapp_nil (copies after " ")). exact (proj1 (proj2 (blanks_lost after ""))).
  - intros r A. rewrite !sapp_assoc. destruct (blanks_word after r A) as [B1 B2]. rewrite L3, K, B1 by exact B2. reflexivity.
Qed.
Lemma word_next : forall w r, word_letters w -> w <> "" -> closes (next_visible (w ++ r)) = false.
Proof. intros [|c w] r W N; [contradiction|]. apply letter_next. exact (proj1 W). Qed.

Lemma decimal_between : forall n r, apart r -> bare Between (decimal n ++ r) = decimal n ++ bare Word r.
Proof.
  intros n r A. pose proof (decimal_letters n) as W. pose proof (decimal_shortest n) as (N & _ & Z). change (disp_u32 n) with (decimal n) in W.
  destruct (decimal n) as [|c s]; [contradiction (N eq_refl)|]. destruct W as [C W]. cbn [append]. rewrite letter_kept; [|exact C|left; reflexivity|].
  - rewrite word_kept by exact W. reflexivity.
  - intros ->. rewrite (Z s eq_refl). right. left. apply apart_numeral. exact A.
Qed.
Lemma zeros_lost : forall n s r, every digit_char s = true -> s <> "" -> apart r ->
  bare Between (copies n "0" ++ s ++ r) = bare Between (s ++ r).
Proof.
  intros n s r D N A. pose proof (apart_labels r A) as L. induction n as [|n IH]; [reflexivity|]. rewrite <- IH. cbn [copies append without_options].
  assert (X : numeral_next (copies n "0" ++ s ++ r) = true).
  { destruct n; [|reflexivity]. destruct s as [|c s]; [contradiction|]. cbn [every] in D. apply andb_true_iff in D. exact (proj1 D). }
  assert (Y : forall s, every digit_char s = true -> labels (s ++ r) = false).
  { clear - A L. induction s as [|c s IH]; intros D; [exact L|]. cbn [every] in D. apply andb_true_iff in D. destruct D as [C D]. cbn [append labels].
    rewrite IH by exact D. unfold word_letter. unfold digit_char in C. cbv zeta in *. rewrite C. reflexivity. }
  assert (Z : labels (copies n "0" ++ s ++ r) = false).
  { rewrite <- sapp_assoc. apply Y. rewrite every_app, D. clear. induction n as [|n IH]; [reflexivity|exact IH]. }
  rewrite X, Z. reflexivity.
Qed.

Section Leaves.
Context (o : Options) (Fill : Options_fill o = " ").
Lemma number_tidied : forall n, tidied (fit_number o (decimal n)) (decimal n).
Proof.
  intros n. assert (W : word_letters (decimal n)) by exact (decimal_letters n). assert (N : decimal n <> "") by exact (proj1 (decimal_shortest n)).
  pose proof (word_tidied (decimal n) W N (decimal_between n)) as T. set (sign := if Options_plus o then "+" else "").
  assert (S : (forall r, bare Between (sign ++ r) = bare Between r) /\ (forall r, walk Between (sign ++ r) = walk Between r)
    /\ (forall r, closes (next_visible r) = false -> closes (next_visible (sign ++ r)) = false)).
  { subst sign. destruct (Options_plus o); repeat split; intros r H; exact H. }
  destruct S as (S1 & S2 & S3). unfold fit_number. fold sign. destruct (Options_zero o).
  - set (z := match Options_width o with Some width => _ | None => 0 end). clearbody z. replace (sign ++ copies z "0" ++ decimal n) with ((sign ++ copies z "0") ++ decimal n ++ copies 0 " ") by (cbn [copies]; rewrite sapp_nil, sapp_assoc; reflexivity).
    apply T.
    + intros r. rewrite !sapp_assoc. apply S3. destruct z; [exact (word_next (decimal n) r W N)|reflexivity].
    + intros r. rewrite sapp_assoc, S2. clear. induction z as [|z IH]; [reflexivity|exact IH].
    + intros r A. rewrite sapp_assoc, S1. apply zeros_lost; [exact (decimal_digits n)|exact N|exact A].
  - unfold fill_around. rewrite Fill. rewrite <- sapp_assoc, <- sapp_assoc, sapp_assoc. apply T.
    + intros r. rewrite !sapp_assoc. rewrite (proj2 (proj2 (blanks_lost _ _))). apply S3. apply word_next; assumption.
    + intros r. rewrite !sapp_assoc. rewrite (proj1 (proj2 (blanks_lost _ _))). apply S2.
    + intros r A. rewrite !sapp_assoc. rewrite (proj1 (blanks_lost _ _)). apply S1.
Qed.
Lemma word_filled : forall w default, identifier w -> tidied (fill_around o default w) w.
Proof.
  intros w default I. assert (W : word_letters w) by (destruct w; [contradiction|]; destruct I as (A & _ & B); split; assumption).
  assert (N : w <> "") by (intros ->; exact I). unfold fill_around. rewrite Fill. apply word_tidied; try assumption.
  - intros r _. apply name_kept. exact I.
  - intros r. rewrite (proj2 (proj2 (blanks_lost _ _))). apply word_next; assumption.
  - intros r. apply (proj1 (proj2 (blanks_lost _ _))).
  - intros r _. apply (proj1 (blanks_lost _ _)).
Qed.
Lemma bool_tidied : match Options_precision o with Some p => 5 <= p | None => True end ->
  forall b : bool, let s := if b then "true" else "false" in tidied (fit_text o s) s.
Proof.
  intros P b s. unfold fit_text.
  replace (match Options_precision o with Some p => substring 0 p s | None => s end) with s.
  - apply word_filled. subst s. destruct b; cbn; repeat split.
  - subst s. destruct (Options_precision o) as [p|]; [|reflexivity]. do 5 (destruct p as [|p]; [lia|]). destruct b; reflexivity || (cbn; rewrite ?P; destruct p; reflexivity).
Qed.
End Leaves.

(** ** Blocks *)
Lemma closing_bare : forall k r, bracket k -> bare Between (k ++ r) = gap k ++ k ++ bare Between r.
Proof. intros k r [->|[->| ->]]; reflexivity. Qed.
Lemma closing_apart : forall k r, bracket k -> apart (k ++ r).
Proof. intros k r [->|[->| ->]]; split; reflexivity. Qed.
Lemma closing_comma : forall k r, bracket k -> bare Between ("," ++ nl ++ k ++ r) = gap k ++ k ++ bare Between r.
Proof. intros k r [->|[->| ->]]; reflexivity. Qed.
Lemma comma_kept : forall r, closes (next_visible r) = false -> bare Between ("," ++ r) = ", " ++ bare Between r.
Proof. intros r C. cbn [append without_options]. rewrite C. reflexivity. Qed.

Section Blocks.
Variable layout : option bool.
Let good := Forall (fun i : string * string => tidied (fst i) (snd i)).

Lemma separated_bare : forall items r, good items -> apart r ->
  bare Between (separated (map fst items) ++ r) = separated (map snd items) ++ bare Between r.
Proof.
  intros items r F A. induction F as [|[s t] items S F IH]; [reflexivity|]. cbn [fst snd] in S. destruct items as [|[s' t'] items].
  - exact (tidied_bare _ _ S r A).
  - cbn [map fst snd] in *. change (separated (s :: s' :: map fst items)) with (s ++ "," ++ " " ++ separated (s' :: map fst items)).
    change (separated (t :: t' :: map snd items)) with (t ++ ", " ++ separated (t' :: map snd items)). rewrite !sapp_assoc.
    rewrite (tidied_bare _ _ S) by (split; reflexivity). f_equal. rewrite <- IH. refine (comma_kept (" " ++ separated (s' :: map fst items) ++ r) _).
    inversion F as [|? ? S' F']; subst. cbn [fst snd] in S'. change (closes (next_visible (separated (s' :: map fst items) ++ r)) = false).
    destruct (map fst items); [exact (tidied_next _ _ S' _)|]. cbn [separated]. rewrite !sapp_assoc. exact (tidied_next _ _ S' _).
Qed.
Lemma separated_walk : forall items, good items -> walk Between (separated (map fst items)) = Some Between.
Proof.
  intros items F. induction F as [|[s t] items S F IH]; [reflexivity|]. cbn [fst snd] in S. destruct items as [|[s' t'] items]; [exact (tidied_walk _ _ S)|].
  change (separated (map fst ((s, t) :: (s', t') :: items))) with (s ++ ", " ++ separated (map fst ((s', t') :: items))). rewrite walk_app, (tidied_walk _ _ S). exact IH.
Qed.

Lemma fields_bare : forall trailing items k r, bracket k -> items <> [] -> good items ->
  bare Between (pretty_fields trailing (map fst items) ++ k ++ r) = separated (map snd items) ++ gap k ++ k ++ bare Between r.
Proof.
  intros trailing items k r K N F. induction F as [|[s t] items S F IH]; [contradiction|]. cbn [fst snd] in S.
  destruct items as [|[s' t'] items].
  - cbn [map fst snd pretty_fields separated]. rewrite pad_lost; [| |reflexivity].
    + rewrite !sapp_assoc, (tidied_bare _ _ S) by (destruct trailing; split; reflexivity). f_equal. destruct trailing; [apply closing_comma; exact K|]. exact (closing_bare k r K).
    + cbn [flat]. rewrite walk_app, (tidied_walk _ _ S). destruct trailing; discriminate.
  - cbn [map fst snd] in *. change (pretty_fields trailing (s :: s' :: map fst items)) with (pad_adapter true (s ++ "," ++ nl) ++ pretty_fields trailing (s' :: map fst items)).
    change (separated (t :: t' :: map snd items)) with (t ++ ", " ++ separated (t' :: map snd items)).
    rewrite sapp_assoc, pad_lost; [| |reflexivity].
    + rewrite !sapp_assoc, (tidied_bare _ _ S) by (split; reflexivity). f_equal. rewrite <- IH by discriminate. refine (comma_kept (nl ++ pretty_fields trailing (s' :: map fst items) ++ k ++ r) _).
      inversion F as [|? ? S' F']; subst. cbn [fst snd] in S'. change (closes (next_visible (pretty_fields trailing (s' :: map fst items) ++ k ++ r)) = false).
      destruct (map fst items) as [|x l].
      * cbn [pretty_fields]. rewrite next_visible_pad, !sapp_assoc. exact (tidied_next _ _ S' _).
      * change (pretty_fields trailing (s' :: x :: l)) with (pad_adapter true (s' ++ "," ++ nl) ++ pretty_fields trailing (x :: l)).
        rewrite sapp_assoc, next_visible_pad, !sapp_assoc. exact (tidied_next _ _ S' _).
    + cbn [flat]. rewrite walk_app, (tidied_walk _ _ S). discriminate.
Qed.
Lemma pad_walk : forall s p b, walk p s <> None -> (b = true -> p = Between) -> walk p (pad_adapter b s) = walk p s.
Proof.
  induction s as [|c s IH]; intros p b R B; [reflexivity|].
  assert (K : walk p (String c (pad_adapter (Ascii.eqb c (ascii_of_N 10)) s)) = walk p (String c s)).
  { cbn [walk] in *. change (ascii_of_N 10) with line_feed. destruct (Ascii.eqb c line_feed) eqn:L.
    - apply Ascii.eqb_eq in L. subst c. destruct p; try (contradiction (R eq_refl)); (apply IH; [exact R|reflexivity]).
    - destruct p; (apply IH; [exact R|discriminate]). }
  cbn [pad_adapter]. destruct b; [|exact K]. rewrite (B eq_refl) in *. exact K.
Qed.
Lemma fields_walk : forall trailing items, good items -> walk Between (pretty_fields trailing (map fst items)) = Some Between.
Proof.
  intros trailing items F. induction F as [|[s t] items S F IH]; [reflexivity|]. cbn [fst snd] in S.
  assert (W : forall more, walk Between more = Some Between -> walk Between (pad_adapter true (s ++ more)) = Some Between).
  { intros more M. assert (X : walk Between (s ++ more) = Some Between) by (rewrite walk_app, (tidied_walk _ _ S); exact M).
    rewrite pad_walk; [exact X|rewrite X; discriminate|reflexivity]. }
  destruct items as [|[s' t'] items]; [cbn [map fst pretty_fields]; apply W; destruct trailing; reflexivity|].
  cbn [map fst] in *. change (pretty_fields trailing (s :: s' :: map fst items)) with (pad_adapter true (s ++ "," ++ nl) ++ pretty_fields trailing (s' :: map fst items)).
  rewrite walk_app, W by reflexivity. exact IH.
Qed.

(** A block: [o] is the opening, [o'] is it without options. *)
Lemma block_tidied : forall o o' spaced items k, bracket k ->
  (forall r, closes (next_visible (o ++ r)) = false) -> walk Between o = Some Between -> (forall r, bare Between (o ++ r) = o' ++ bare Between r) ->
  good items -> items <> [] ->
  tidied (debug_block layout o spaced (map fst items) k) (o' ++ separated (map snd items) ++ gap k ++ k).
Proof.
  intros o o' spaced items k K O1 O2 O3 F N.
  assert (B : forall r, bare Between ((if spaced then " " else "") ++ r) = bare Between r) by (intros r; destruct spaced; reflexivity).
  assert (W : forall r, walk Between ((if spaced then " " else "") ++ r) = walk Between r) by (intros r; destruct spaced; reflexivity).
  assert (A : forall r, apart r -> apart ((if spaced then " " else "") ++ r)) by (intros r A; destruct spaced; [split; reflexivity|exact A]).
  assert (WK : walk Between k = Some Between) by (destruct K as [->|[->| ->]]; reflexivity).
  unfold debug_block. destruct layout as [trailing|].
  - unfold pretty_block.
    replace (match map fst items with [] => o ++ k | _ => o ++ nl ++ pretty_fields trailing (map fst items) ++ k end)
      with (o ++ nl ++ pretty_fields trailing (map fst items) ++ k) by (destruct items; [contradiction|reflexivity]).
    constructor.
    + intros r. rewrite !sapp_assoc. apply O1.
    + rewrite walk_app, O2. change (walk Between (nl ++ pretty_fields trailing (map fst items) ++ k)) with (walk Between (pretty_fields trailing (map fst items) ++ k)).
      rewrite walk_app, fields_walk by exact F. exact WK.
    + intros r _. rewrite !sapp_assoc, O3.
      change (bare Between (nl ++ pretty_fields trailing (map fst items) ++ k ++ r)) with (bare Between (pretty_fields trailing (map fst items) ++ k ++ r)).
      rewrite fields_bare by assumption. reflexivity.
  - constructor.
    + intros r. rewrite !sapp_assoc. apply O1.
    + rewrite walk_app, O2, W, walk_app, separated_walk by exact F. rewrite W. exact WK.
    + intros r _. rewrite !sapp_assoc, O3, B, separated_bare; [|exact F|apply A; apply closing_apart; exact K]. rewrite B, closing_bare by exact K. reflexivity.
Qed.
End Blocks.

(** ** Trees *)
Lemma identifier_letters : forall n, identifier n -> word_letters n /\ n <> "".
Proof. intros [|c n] I; [contradiction|]. destruct I as (A & _ & B). split; [split; assumption|discriminate]. Qed.

Section Trees.
Context {E : Type} (layout : option bool) (o : Options) (R : readable o) (e : escapes) (shown_ext ext : E -> string) (Ext : forall x, tidied (shown_ext x) (ext x)).
Notation wide := (debug_with layout o e shown_ext).
Notation text := (debug_text e ext).

Lemma tree_tidied : forall t, identified t -> tidied (wide t) (text t).
Proof.
  assert (Items : forall l, Forall (fun t => identified t -> tidied (wide t) (text t)) l ->
    (fix each l := match l with [] => True | t :: l => identified t /\ each l end) l ->
    Forall (fun i => tidied (fst i) (snd i)) (map (fun t => (wide t, text t)) l)).
  { intros l F. induction F as [|t l T F IH]; intros P; [constructor|]. destruct P as [P1 P2]. constructor; [exact (T P1)|exact (IH P2)]. }
  assert (Pairs : forall {A} (f g : A -> string) l, map fst (map (fun t => (f t, g t)) l) = map f l /\ map snd (map (fun t => (f t, g t)) l) = map g l).
  { intros A f g l. rewrite !map_map. split; reflexivity. }
  destruct R as [Fill Cut].
  apply (tree_ind' (E := E) (fun t => identified t -> tidied (wide t) (text t))).
  - intros n _. cbn [debug_with debug_text]. rewrite (written_text _ _ (prints_pad_integral _ o)). exact (number_tidied o Fill n).
  - intros b _. cbn [debug_with debug_text]. rewrite (written_text _ _ (prints_pad _ o)). exact (bool_tidied o Fill Cut b).
  - intros s _. cbn [debug_with debug_text]. constructor.
    + intros r. reflexivity.
    + rewrite <- (sapp_nil (dbg_str e s)). exact (proj2 (string_between e s "")).
    + intros r _. exact (proj1 (string_between e s r)).
  - intros n I. cbn [debug_with debug_text identified] in *. destruct (identifier_letters n I) as [W N]. constructor.
    + intros r. apply word_next; assumption.
    + rewrite <- (sapp_nil n), word_walk by exact W. reflexivity.
    + intros r A. rewrite name_kept, apart_between by assumption. reflexivity.
  - intros n fs F (I & N & P). cbn [debug_with debug_text]. specialize (Items fs F P).
    destruct (Pairs _ wide text fs) as [P1 P2]. rewrite <- P1, <- P2.
    replace (n ++ "(" ++ separated (map snd (map (fun t => (wide t, text t)) fs)) ++ ")") with ((n ++ "(") ++ separated (map snd (map (fun t => (wide t, text t)) fs)) ++ gap ")" ++ ")") by (rewrite sapp_assoc; reflexivity).
    apply block_tidied; [left; reflexivity| | | |exact Items|destruct fs; [contradiction|discriminate]]; (destruct I as [->|I]; [reflexivity|]); destruct (identifier_letters n I) as [W M].
    + intros r. rewrite sapp_assoc. apply word_next; assumption.
    + rewrite word_walk by exact W. reflexivity.
    + intros r. rewrite sapp_assoc, name_kept, sapp_assoc by exact I. reflexivity.
  - intros n fs F (I & N' & P). cbn [debug_with debug_text]. destruct (identifier_letters n I) as [W M].
    assert (Items' : Forall (fun i => tidied (fst i) (snd i)) (map (fun f => (fst f ++ ": " ++ wide (snd f), fst f ++ ": " ++ text (snd f))) fs)).
    { clear N'. induction F as [|[f t] fs T F IH]; [constructor|]. cbn [fst snd] in *. destruct P as [(P1 & P2 & P3) P4]. constructor; [|exact (IH P4)].
      cbn [fst snd]. specialize (T P3). constructor.
      - intros r. rewrite sapp_assoc. apply word_next; assumption.
      - rewrite word_walk by exact P1. exact (tidied_walk _ _ T).
      - intros r A. rewrite !sapp_assoc. change (f ++ ": " ++ wide t ++ r) with (f ++ ":" ++ " " ++ wide t ++ r). rewrite label_kept by assumption.
        change (bare Between (" " ++ wide t ++ r)) with (bare Between (wide t ++ r)). rewrite (tidied_bare _ _ T) by exact A. reflexivity. }
    destruct (Pairs _ (fun f => fst f ++ ": " ++ wide (snd f)) (fun f => fst f ++ ": " ++ text (snd f)) fs) as [P1 P2]. rewrite <- P1, <- P2.
    match goal with |- tidied _ (n ++ " { " ++ ?s ++ " }") => replace (n ++ " { " ++ s ++ " }") with ((n ++ " { ") ++ s ++ gap "}" ++ "}") by (rewrite sapp_assoc; reflexivity) end.
    apply block_tidied; [right; right; reflexivity| | | |exact Items'|destruct fs; [contradiction|discriminate]].
    + intros r. rewrite sapp_assoc. apply word_next; assumption.
    + rewrite word_walk by exact W. reflexivity.
    + intros r. rewrite sapp_assoc, name_kept, sapp_assoc by exact I. reflexivity.
  - intros l F P. cbn [debug_with debug_text]. specialize (Items l F P). destruct (Pairs _ wide text l) as [P1 P2]. rewrite <- P1, <- P2.
    destruct l as [|t l].
    { unfold debug_block. destruct layout; (constructor; [intros r; reflexivity|reflexivity|intros r _; reflexivity]). }
    match goal with |- tidied _ ("[" ++ ?s ++ "]") => change ("[" ++ s ++ "]") with ("[" ++ s ++ gap "]" ++ "]") end.
    apply block_tidied; [right; left; reflexivity|reflexivity|reflexivity|reflexivity|exact Items|discriminate].
  - intros x _. cbn [debug_with debug_text].
    change ("ExtInstBox(" ++ ext x ++ ")") with ("ExtInstBox(" ++ separated (map snd [(shown_ext x, ext x)]) ++ gap ")" ++ ")").
    change [shown_ext x] with (map fst [(shown_ext x, ext x)]).
    apply block_tidied; [left; reflexivity|reflexivity|reflexivity|reflexivity| |discriminate]. constructor; [exact (Ext x)|constructor].
Qed.
End Trees.
