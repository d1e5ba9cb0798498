(** The Debug format with hexadecimal numbers (C100). *)
From Coq Require Import Lia Bool.
From Verif Require Import Base Types Utf8 DisplayBase DisplayModule FmtBase DebugBase DebugPretty DebugOptions DebugWriter DebugHex
  Spec_Text Spec_Writer Spec_Options Spec_Page Spec_Debug Spec_Pretty Spec_DebugOptions Spec_DebugWriter Spec_DebugHex
  Proofs_Text Proofs_Text2 Proofs_Fmt Proofs_Options Proofs_Debug Proofs_Page Proofs_Pretty Proofs_DebugOptions Proofs_DebugWriter.
Local Open Scope string_scope.

(** ** Numerals *)
Lemma below : forall P : N -> Prop, P 0%N -> P 1%N -> P 2%N -> P 3%N -> P 4%N -> P 5%N -> P 6%N -> P 7%N -> P 8%N -> P 9%N -> P 10%N -> P 11%N -> P 12%N -> P 13%N -> P 14%N -> P 15%N ->
  forall d, (d < 16)%N -> P d.
Proof.
  intros P. intros. destruct d as [|p]; [assumption|]. destruct p as [p|p|]; [| |assumption]; (destruct p as [p|p|]; [| |assumption]); (destruct p as [p|p|]; [| |assumption]);
    (destruct p as [p|p|]; [lia|lia|assumption]).
Qed.
Lemma digit_back : forall upper d, (d < 16)%N -> digit_value upper (radix_digit upper d) = Some d.
Proof. intros [|]; apply below; reflexivity. Qed.
Lemma digit_zero : forall upper d, (d < 16)%N -> radix_digit upper d = "0"%char -> d = 0%N.
Proof. intros upper d D H. apply (f_equal (digit_value upper)) in H. rewrite digit_back in H by exact D. destruct upper; injection H as <-; reflexivity. Qed.
Lemma digit_value_some : forall upper c d, digit_value upper c = Some d -> (d < 16)%N /\ radix_digit upper d = c /\ hex_letter c = true /\ word_letter c = true.
Proof.
  intros upper [[] [] [] [] [] [] [] []] d H; destruct upper; try discriminate H; injection H as <-; repeat split; reflexivity.
Qed.

Lemma radix_step : forall upper f n s, radix_digits upper (S f) n s
  = if (n / 16 =? 0)%N then String (radix_digit upper (n mod 16)) s else radix_digits upper f (n / 16) (String (radix_digit upper (n mod 16)) s).
Proof. reflexivity. Qed.
Lemma radix_app : forall upper f n s, radix_digits upper f n s = radix_digits upper f n "" ++ s.
Proof.
  intros upper f. induction f as [|f IH]; intros n s; [reflexivity|]. rewrite !radix_step. destruct (n / 16 =? 0)%N; [reflexivity|].
  rewrite IH, (IH _ (String _ "")), sapp_assoc. reflexivity.
Qed.
Lemma fewer : forall f n, (n < 16 ^ N.of_nat (S f))%N -> (n / 16 < 16 ^ N.of_nat f)%N.
Proof. intros f n B. rewrite Nat2N.inj_succ, N.pow_succ_r' in B. apply N.div_lt_upper_bound; lia. Qed.
Lemma radix_fuel : forall upper f g n s, (n < 16 ^ N.of_nat f)%N -> (n < 16 ^ N.of_nat g)%N -> radix_digits upper (S f) n s = radix_digits upper (S g) n s.
Proof.
  intros upper f. induction f as [|f IH]; intros g n s F G.
  - assert (n = 0%N) as -> by (cbn in F; lia). reflexivity.
  - destruct g as [|g]; [assert (n = 0%N) as -> by (cbn in G; lia); reflexivity|].
    rewrite (radix_step upper (S f)), (radix_step upper (S g)). destruct (n / 16 =? 0)%N; [reflexivity|]. apply IH; apply fewer; assumption.
Qed.
Lemma size_bound : forall n, (n < 16 ^ N.of_nat (N.to_nat (N.size n)))%N.
Proof.
  intros n. rewrite N2Nat.id. pose proof (N.size_gt n) as H. eapply N.lt_le_trans; [exact H|]. apply N.pow_le_mono_l. lia.
Qed.
Lemma radix_small : forall upper d, (d < 16)%N -> radix upper d = String (radix_digit upper d) "".
Proof. intros upper. apply below; reflexivity. Qed.
Lemma radix_more : forall upper v d, v <> 0%N -> (d < 16)%N -> radix upper (v * 16 + d) = radix upper v ++ String (radix_digit upper d) "".
Proof.
  intros upper v d V D. unfold radix.
  assert (Q : ((v * 16 + d) / 16 = v)%N) by (symmetry; apply (N.div_unique _ _ _ d); lia).
  assert (M : ((v * 16 + d) mod 16 = d)%N) by (symmetry; apply (N.mod_unique _ _ v); lia).
  set (n := (v * 16 + d)%N) in *. pose proof (size_bound n) as B. destruct (N.to_nat (N.size n)) as [|f]; [cbn in B; lia|].
  rewrite (radix_step upper (S f) n), Q, M. destruct (v =? 0)%N eqn:Z; [apply N.eqb_eq in Z; contradiction|].
  apply fewer in B. rewrite Q in B. rewrite (radix_fuel upper f (N.to_nat (N.size v)) v _ B (size_bound v)). apply radix_app.
Qed.
Lemma numeral_radix : forall upper s v n, v <> 0%N -> digits_value upper v s = Some n -> radix upper v ++ s = radix upper n.
Proof.
  intros upper s. induction s as [|c s IH]; intros v n V H; [injection H as <-; apply sapp_nil|]. cbn [digits_value] in H.
  destruct (digit_value upper c) as [d|] eqn:C; [|discriminate H]. apply digit_value_some in C. destruct C as (D & <- & _).
  assert (V' : (v * 16 + d)%N <> 0%N) by lia. rewrite <- (IH _ _ V' H), radix_more by assumption. rewrite sapp_assoc. reflexivity.
Qed.
Lemma numeral_unique : forall upper n s, hex_numeral upper n s -> s = radix upper n.
Proof.
  intros upper n s (V & N & Z). destruct s as [|c s]; [contradiction|]. cbn [digits_value] in V. destruct (digit_value upper c) as [d|] eqn:C; [|discriminate V].
  apply digit_value_some in C. destruct C as (D & <- & _). destruct (N.eq_dec d 0) as [->|X].
  - rewrite (Z s) in * by (destruct upper; reflexivity). cbn [digits_value] in V. injection V as <-. symmetry. apply (radix_small upper 0). lia.
  - change (0 * 16 + d)%N with d in V. rewrite <- (numeral_radix upper s d n X V), radix_small by exact D. reflexivity.
Qed.
Lemma radix_numeral : forall upper n, hex_numeral upper n (radix upper n).
Proof.
  intros upper n. unfold radix. pose proof (size_bound n) as B. revert B. generalize (N.to_nat (N.size n)).
  assert (V : forall f n s, (n < 16 ^ N.of_nat f)%N -> digits_value upper 0 (radix_digits upper (S f) n s) = digits_value upper n s).
  { induction f as [|f IH]; intros m s B.
    - assert (m = 0%N) as -> by (cbn in B; lia). change (digits_value upper 0 (String (radix_digit upper 0) s) = digits_value upper 0 s). cbn [digits_value]. rewrite digit_back by lia. reflexivity.
    - rewrite radix_step. pose proof (N.mod_upper_bound m 16 ltac:(lia)) as U. pose proof (N.div_mod m 16 ltac:(lia)) as E.
      destruct (m / 16 =? 0)%N eqn:Z; [apply N.eqb_eq in Z|rewrite IH by (apply fewer; exact B)]; cbn [digits_value]; rewrite digit_back by exact U; f_equal; lia. }
  assert (Z : forall f n s, (n < 16 ^ N.of_nat f)%N -> exists c s', radix_digits upper (S f) n s = String c s' /\ (c = "0"%char -> n = 0%N /\ s' = s)).
  { induction f as [|f IH]; intros m s B.
    - assert (m = 0%N) as -> by (cbn in B; lia). eexists _, _. split; [reflexivity|]. split; reflexivity.
    - rewrite radix_step. pose proof (N.mod_upper_bound m 16 ltac:(lia)) as U. pose proof (N.div_mod m 16 ltac:(lia)) as E. destruct (m / 16 =? 0)%N eqn:Q.
      + apply N.eqb_eq in Q. eexists _, _. split; [reflexivity|]. intros H. apply digit_zero in H; [|exact U]. split; [lia|reflexivity].
      + apply N.eqb_neq in Q. destruct (IH (m / 16)%N (String (radix_digit upper (m mod 16)) s) (fewer _ _ B)) as (c & s' & -> & X). exists c, s'. split; [reflexivity|].
        intros H. destruct (X H). contradiction. }
  intros f B. split; [rewrite (V f n "" B); reflexivity|]. destruct (Z f n "" B) as (c & s' & -> & X). split; [discriminate|]. intros s'' [= -> ->]. exact (proj2 (X eq_refl)).
Qed.
Lemma numeral_letters : forall upper s v n, digits_value upper v s = Some n -> word_letters s /\ every hex_letter s = true.
Proof.
  intros upper s. induction s as [|c s IH]; intros v n H; [split; reflexivity|]. cbn [digits_value] in H. destruct (digit_value upper c) as [d|] eqn:C; [|discriminate H].
  apply digit_value_some in C. destruct C as (_ & _ & C1 & C2). destruct (IH _ _ H) as [I1 I2]. split; [split; assumption|]. cbn [every]. rewrite C1, I2. reflexivity.
Qed.
Lemma zeros_value : forall upper k s, digits_value upper 0 (copies k "0" ++ s) = digits_value upper 0 s.
Proof. intros upper k s. induction k as [|k IH]; [reflexivity|]. cbn [copies append digits_value]. destruct upper; exact IH. Qed.

(** ** Padding *)
Definition fit_prefixed (o : Options) (prefix s : string) : string :=
  let sign := (if Options_plus o then "+" else "") ++ prefix in
  if Options_zero o
  then sign ++ copies (match Options_width o with Some width => width - String.length (sign ++ s) | None => 0 end) "0" ++ s
  else fill_around o Align_Right (sign ++ s).
Lemma fit_prefixed_ok : forall o prefix s, prefixed_with o prefix s (fit_prefixed o prefix s).
Proof. intros o prefix s. unfold prefixed_with, fit_prefixed. destruct (Options_zero o); [eexists; split; reflexivity|apply fill_around_ok]. Qed.
Lemma prefixed_unique : forall o prefix s t, prefixed_with o prefix s t -> t = fit_prefixed o prefix s.
Proof. intros o prefix s t. unfold prefixed_with, fit_prefixed. destruct (Options_zero o); [intros (z & -> & ->); reflexivity|apply filled_unique]. Qed.
Lemma prints_prefixed : forall alternate prefix s o, prints (pad_integral_prefixed alternate prefix s o) (fit_prefixed o (if alternate : bool then prefix else "") s).
Proof.
  intros alternate prefix s o. unfold pad_integral_prefixed, fit_prefixed. set (sign := (if Options_plus o then "+" else "") ++ (if alternate then prefix else "")).
  assert (prints (try_ (if Options_plus o then lit "+" else done) (if alternate then lit prefix else done)) sign) as Ps.
  { subst sign. apply prints_try; [destruct (Options_plus o); [exact (prints_lit "+")|exact prints_done]|destruct alternate; [exact (prints_lit prefix)|exact prints_done]]. }
  assert (String.length s + (if Options_plus o then 1 else 0) + (if alternate then String.length prefix else 0) = String.length (sign ++ s)) as ->.
  { subst sign. rewrite !slen_app. destruct (Options_plus o), alternate; cbn; lia. }
  clearbody sign. set (write_prefix := try_ _ _) in *. clearbody write_prefix. unfold fill_around.
  destruct (Options_width o) as [width|].
  - destruct (Nat.leb width (String.length (sign ++ s))) eqn:L.
    + apply Nat.leb_le in L. replace (width - String.length (sign ++ s)) with 0 by lia. rewrite pre_0.
      eapply prints_cast; [exact (prints_try _ _ _ _ Ps (prints_lit s))|]. destruct (Options_zero o); cbn; rewrite ?snil; reflexivity.
    + destruct (Options_zero o).
      * apply prints_try; [exact Ps|]. apply prints_try; [apply prints_copies|apply prints_lit].
      * apply prints_try; [apply prints_copies|]. apply prints_try; [|apply prints_copies]. apply prints_try; [exact Ps|apply prints_lit].
  - eapply prints_cast; [exact (prints_try _ _ _ _ Ps (prints_lit s))|]. rewrite pre_0. destruct (Options_zero o); cbn; rewrite ?snil; reflexivity.
Qed.

(** ** The text *)
Definition several (layout : option bool) : bool := match layout with Some _ => true | None => false end.
Definition hex_number (upper : bool) (layout : option bool) (o : Options) (n : N) : string := fit_prefixed o (if several layout then "0x" else "") (radix upper n).
Definition bool_text (o : Options) (b : bool) : string := fit_text o (if b then "true" else "false").
Lemma hex_leaves_exist : forall upper layout o, hex_leaves_of upper (several layout) o (hex_number upper layout o) (bool_text o).
Proof.
  intros upper layout o. split; [|intros b; apply fit_text_ok]. intros n. exists (radix upper n). split; [apply radix_numeral|apply fit_prefixed_ok].
Qed.
Lemma hex_leaves_unique : forall upper layout o number boolean, hex_leaves_of upper (several layout) o number boolean ->
  (forall n, number n = hex_number upper layout o n) /\ (forall b, boolean b = bool_text o b).
Proof.
  intros upper layout o number boolean [N B]. split; [|intros b; apply text_unique; apply B]. intros n. destruct (N n) as (s & S & P). apply numeral_unique in S. subst s.
  apply prefixed_unique. exact P.
Qed.

Section Trees.
Context {E : Type} (upper : bool) (layout : option bool) (o : Options) (number : N -> string) (boolean : bool -> string)
  (Leaves : hex_leaves_of upper (several layout) o number boolean) (e : escapes) (ext : E -> Step) (ext_text : E -> string) (bad : E -> bool).
Let fine (t : dtree E) : Prop := (forall x, In x (boxed t) -> runs (bad x) (ext x) (ext_text x)) ->
  runs (existsb bad (boxed t)) (fmt_debug_hex upper layout o e ext t) (debug_with layout plain e ext_text (with_leaves number boolean t)).
Lemma runs_hex : forall t, fine t.
Proof.
  destruct (hex_leaves_unique upper layout o number boolean Leaves) as [Number Boolean].
  assert (Items : forall l, Forall fine l -> (forall x, In x (flat_map boxed l) -> runs (bad x) (ext x) (ext_text x)) ->
    all_run (existsb bad (flat_map boxed l)) (map (fmt_debug_hex upper layout o e ext) l) (map (debug_with layout plain e ext_text) (map (with_leaves number boolean) l))).
  { intros l F. induction F as [|t l T F IH]; intros X; [constructor|]. cbn [flat_map map] in *. rewrite existsb_app.
    constructor; [apply T|apply IH]; intros x I; apply X; apply in_or_app; [left|right]; exact I. }
  apply (tree_ind' (E := E) fine).
  - intros n _. cbn [fmt_debug_hex debug_with with_leaves]. rewrite Number. exact (prints_prefixed _ _ _ o).
  - intros b _. cbn [fmt_debug_hex debug_with with_leaves]. rewrite Boolean. exact (prints_pad _ o).
  - intros s _. exact (prints_debug_str e s).
  - intros n _. exact (prints_lit n).
  - intros n fs F X. apply runs_block. apply Items; assumption.
  - intros n fs F X. cbn [fmt_debug_hex debug_with with_leaves boxed] in *. apply runs_block. induction F as [|[f t] fs T F IH]; [constructor|]. cbn [map flat_map fst snd] in *. rewrite existsb_app.
    constructor; [|apply IH; intros x I; apply X; apply in_or_app; right; exact I].
    apply runs_after; [apply runs_lit|]. apply (runs_after _ _ _ _ _ (runs_lit ": ")). apply T. intros x I. apply X. apply in_or_app. left. exact I.
  - intros l F X. apply runs_block. apply Items; assumption.
  - intros x X. cbn [fmt_debug_hex debug_with with_leaves boxed existsb]. apply runs_block. constructor; [apply X; left; reflexivity|constructor].
Qed.
Lemma runs_shape : forall t, (forall x, In x (boxed t) -> runs (bad x) (ext x) (ext_text x)) ->
  runs (existsb bad (boxed t)) (fmt_debug_hex upper layout o e ext t) (shape layout e ext_text (with_leaves number boolean t)).
Proof. intros t X. rewrite <- plain_text. exact (runs_hex t X). Qed.
End Trees.

(** ** Without the options *)
Lemma kept_word : forall w, word_letters w -> w <> "" -> (forall w', w = String "0" w' -> forall r, apart r -> numeral_next (w' ++ r) = false) ->
  forall r, apart r -> without_options Between (w ++ r) = w ++ without_options Word r.
Proof.
  intros [|c w] W N Z r A; [contradiction|]. destruct W as [C W]. cbn [append]. rewrite letter_kept; [|exact C|left; reflexivity|].
  - rewrite word_kept by exact W. reflexivity.
  - intros ->. right. left. exact (Z w eq_refl r A).
Qed.
Lemma no_label : forall w r, word_letters w -> apart r -> labels (w ++ r) = false.
Proof.
  intros w r W A. induction w as [|c w IH]; [exact (apart_labels r A)|]. destruct W as [C W]. cbn [append labels]. rewrite C. exact (IH W).
Qed.
Lemma zeros_letters : forall k w, word_letters w -> word_letters (copies k "0" ++ w).
Proof. intros k w W. induction k as [|k IH]; [exact W|]. split; [reflexivity|exact IH]. Qed.
Lemma more_zeros_lost : forall k w r, word_letters w -> numeral_next w = true -> apart r ->
  without_options Between (copies k "0" ++ w ++ r) = without_options Between (w ++ r).
Proof.
  intros k w r W N A. induction k as [|k IH]; [reflexivity|]. rewrite <- IH. cbn [copies append without_options].
  assert (X : numeral_next (copies k "0" ++ w ++ r) = true) by (destruct k; [destruct w; [discriminate N|exact N]|reflexivity]).
  rewrite X. rewrite <- sapp_assoc, (no_label (copies k "0" ++ w) r) by (try apply zeros_letters; assumption). reflexivity.
Qed.
Lemma sign_lost : forall plus : bool, let sign := if plus then "+" else "" in
  (forall r, without_options Between (sign ++ r) = without_options Between r) /\ (forall r, walk Between (sign ++ r) = walk Between r)
    /\ (forall r, closes (next_visible r) = false -> closes (next_visible (sign ++ r)) = false).
Proof. intros [|]; repeat split; intros r H; exact H. Qed.
Lemma zeros_walk : forall k r, walk Between (copies k "0" ++ r) = walk Between r.
Proof. intros k r. induction k as [|k IH]; [reflexivity|exact IH]. Qed.
Lemma numeral_hex : forall upper w n, digits_value upper 0 w = Some n -> w <> "" -> hex_word upper w = Some n.
Proof.
  intros upper [|c w] n V N; [contradiction|]. cbn [hex_word]. destruct w as [|x w]; [exact V|]. destruct (Ascii.eqb c "0" && Ascii.eqb x "x")%bool eqn:Q; [|exact V].
  apply andb_true_iff in Q. destruct Q as [_ Q]. apply Ascii.eqb_eq in Q. subst x. cbn [digits_value] in V. destruct (digit_value upper c); [|discriminate V]. destruct upper; discriminate V.
Qed.

Section Numbers.
Context (upper : bool) (layout : option bool) (o : Options) (Fill : Options_fill o = " ").
Lemma hex_tidied : forall n, exists w, tidied (hex_number upper layout o n) w /\ word_letters w /\ w <> "" /\ hex_word upper w = Some n.
Proof.
  intros n. destruct (radix_numeral upper n) as (V & N & Z). destruct (numeral_letters _ _ _ _ V) as [W _].
  destruct (sign_lost (Options_plus o)) as (S1 & S2 & S3). set (sign := if Options_plus o then "+" else "") in *.
  unfold hex_number, fit_prefixed. fold sign. set (s := radix upper n) in *. clearbody s. 
  (* a word after a sign and zeros *)
  assert (T : forall k w after, word_letters w -> w <> "" -> (forall w', w = String "0" w' -> forall r, apart r -> numeral_next (w' ++ r) = false) ->
    k = 0 \/ numeral_next w = true -> tidied ((sign ++ copies k "0") ++ w ++ copies after " ") w).
  { intros k w after Ww Nw Zw K. apply word_tidied; [exact Ww|exact Nw|exact (kept_word w Ww Nw Zw)| | |].
    - intros r. rewrite !sapp_assoc. apply S3. destruct k; [exact (word_next w r Ww Nw)|reflexivity].
    - intros r. rewrite sapp_assoc, S2. apply zeros_walk.
    - intros r A. rewrite sapp_assoc, S1. destruct K as [->|K]; [reflexivity|]. apply more_zeros_lost; assumption. }
  assert (Zs : forall w', s = String "0" w' -> forall r, apart r -> numeral_next (w' ++ r) = false).
  { intros w' Q r A. rewrite (Z w' Q). apply apart_numeral. exact A. }
  destruct (several layout).
  - (* 0x is never lost *)
    assert (Zx : forall t w', "0x" ++ t = String "0" w' -> forall r, apart r -> numeral_next (w' ++ r) = false) by (intros t w' [= <-] r _; reflexivity).
    assert (X : forall t, digits_value upper 0 t = Some n -> hex_word upper ("0x" ++ t) = Some n) by (intros t H; exact H).
    destruct (Options_zero o).
    + set (z := match Options_width o with Some width => _ | None => 0 end). clearbody z. exists ("0x" ++ copies z "0" ++ s).
      split; [|split; [exact (conj eq_refl (conj eq_refl (zeros_letters z s W)))|split; [discriminate|apply X; rewrite zeros_value; exact V]]].
      pose proof (T 0 ("0x" ++ copies z "0" ++ s) 0 (conj eq_refl (conj eq_refl (zeros_letters z s W))) ltac:(discriminate) (Zx _) (or_introl eq_refl)) as H.
      cbn [copies] in H. rewrite !sapp_nil in H. rewrite (sapp_assoc sign "0x"). exact H.
    + exists ("0x" ++ s). split; [|split; [exact (conj eq_refl (conj eq_refl W))|split; [discriminate|apply X; exact V]]].
      unfold fill_around. rewrite Fill. set (a := match Options_width o with Some width => _ | None => 0 end). generalize (pre o Align_Right a), (a - pre o Align_Right a). clear a. intros b a.
      pose proof (T 0 ("0x" ++ s) a (conj eq_refl (conj eq_refl W)) ltac:(discriminate) (Zx _) (or_introl eq_refl)) as H. cbn [copies] in H. rewrite sapp_nil in H.
      rewrite (sapp_assoc sign "0x"), (sapp_assoc sign ("0x" ++ s)). destruct H as [H1 H2 H3]. constructor.
      * intros r. rewrite sapp_assoc, (proj2 (proj2 (blanks_lost b _))). apply H1.
      * rewrite (proj1 (proj2 (blanks_lost b _))). exact H2.
      * intros r A. rewrite sapp_assoc, (proj1 (blanks_lost b _)). apply H3. exact A.
  - rewrite (sapp_nil sign). destruct (Options_zero o).
    + set (z := match Options_width o with Some width => _ | None => 0 end). clearbody z.
      destruct (numeral_next s) eqn:D; [|destruct z as [|z]].
      * exists s. split; [|split; [exact W|split; [exact N|exact (numeral_hex _ _ _ V N)]]]. pose proof (T z s 0 W N Zs (or_intror D)) as H. cbn [copies] in H. rewrite sapp_nil, sapp_assoc in H. exact H.
      * exists s. split; [|split; [exact W|split; [exact N|exact (numeral_hex _ _ _ V N)]]]. pose proof (T 0 s 0 W N Zs (or_introl eq_refl)) as H. cbn [copies] in H. rewrite !sapp_nil in H. exact H.
      * exists ("0" ++ s). assert (Vz : digits_value upper 0 ("0" ++ s) = Some n) by exact (eq_trans (zeros_value upper 1 s) V).
        split; [|split; [exact (conj eq_refl W)|split; [discriminate|exact (numeral_hex _ _ _ Vz ltac:(discriminate))]]].
        assert (Z0 : forall w', "0" ++ s = String "0" w' -> forall r, apart r -> numeral_next (w' ++ r) = false).
        { intros w' [= <-] r _. destruct s; [contradiction|exact D]. }
        pose proof (T z ("0" ++ s) 0 (conj eq_refl W) ltac:(discriminate) Z0 (or_intror eq_refl)) as H. cbn [copies] in H. rewrite sapp_nil, sapp_assoc in H.
        replace (copies (S z) "0" ++ s) with (copies z "0" ++ "0" ++ s); [exact H|]. clear. induction z as [|z IH]; [reflexivity|]. cbn [copies append] in *. f_equal. exact IH.
    + exists s. split; [|split; [exact W|split; [exact N|exact (numeral_hex _ _ _ V N)]]].
      unfold fill_around. rewrite Fill. set (a := match Options_width o with Some width => _ | None => 0 end). generalize (pre o Align_Right a), (a - pre o Align_Right a). clear a. intros b a.
      pose proof (T 0 s a W N Zs (or_introl eq_refl)) as H. cbn [copies] in H. rewrite sapp_nil in H.
      rewrite (sapp_assoc sign s). destruct H as [H1 H2 H3]. constructor.
      * intros r. rewrite sapp_assoc, (proj2 (proj2 (blanks_lost b _))). apply H1.
      * rewrite (proj1 (proj2 (blanks_lost b _))). exact H2.
      * intros r A. rewrite sapp_assoc, (proj1 (blanks_lost b _)). apply H3. exact A.
Qed.
Definition hex_bare (n : N) : string := without_options Between (hex_number upper layout o n).
Lemma hex_bare_word : forall n, tidied (hex_number upper layout o n) (hex_bare n) /\ word_letters (hex_bare n) /\ hex_bare n <> "" /\ hex_word upper (hex_bare n) = Some n.
Proof.
  intros n. destruct (hex_tidied n) as (w & T & W). assert (hex_bare n = w) as ->; [|split; assumption]. unfold hex_bare.
  pose proof (tidied_bare _ _ T "" I) as H. cbn [without_options] in H. rewrite !sapp_nil in H. exact H.
Qed.
End Numbers.
