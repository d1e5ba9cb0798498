(** The Debug texts are unambiguous (C88): the texts of trees. *)
From Coq Require Import Lia ZArith ZifyNat Bool.
From Verif Require Import Base Types Utf8 DisplayBase DebugBase Spec_Text Spec_Debug Proofs_Text2.
From Verif Require Proofs_Operands.
Local Open Scope string_scope.

(** ** Strings *)
Lemma sapp_assoc : forall a b c : string, (a ++ b) ++ c = a ++ b ++ c.
Proof. induction a as [|x a IH]; intros; cbn; [reflexivity|]. f_equal. apply IH. Qed.

Fixpoint every (p : ascii -> bool) (s : string) : bool := match s with "" => true | String c s => p c && every p s end.
Definition stops (p : ascii -> bool) (r : string) : Prop := match r with "" => True | String c _ => p c = false end.

Lemma span : forall p a b r s, every p a = true -> every p b = true -> stops p r -> stops p s -> a ++ r = b ++ s -> a = b /\ r = s.
Proof.
  intros p a. induction a as [|c a IH]; intros [|d b] r s A B R S H; cbn [append every] in *.
  - auto.
  - subst r. cbn [stops] in R. rewrite R in B. discriminate B.
  - subst s. cbn [stops] in S. rewrite S in A. discriminate A.
  - injection H as -> H. apply andb_true_iff in A, B. destruct A as [_ A], B as [_ B]. destruct (IH b r s A B R S H) as [-> ->]. auto.
Qed.

(** ** What may follow a value *)
Inductive closed : string -> Prop :=
| closed_end : closed ""
| closed_comma : forall r, closed ("," ++ r)
| closed_paren : forall r, closed (")" ++ r)
| closed_bracket : forall r, closed ("]" ++ r)
| closed_brace : forall r, closed (" }" ++ r).
#[local] Hint Constructors closed : core.

Definition digit_char (c : ascii) : bool := let n := N_of_ascii c in ((48 <=? n) && (n <=? 57))%N.
Definition word_char (c : ascii) : bool :=
  let n := N_of_ascii c in (digit_char c || ((65 <=? n) && (n <=? 90)) || ((97 <=? n) && (n <=? 122)) || (n =? 95))%N.
Definition hex_char (c : ascii) : bool := let n := N_of_ascii c in (digit_char c || ((97 <=? n) && (n <=? 102)))%N.

Lemma closed_word : forall r, closed r -> stops word_char r.
Proof. intros r []; exact I || reflexivity. Qed.
Lemma closed_digit : forall r, closed r -> stops digit_char r.
Proof. intros r []; exact I || reflexivity. Qed.

(** ** Numbers *)
Lemma decimal_digits : forall n, every digit_char (disp_u32 n) = true.
Proof.
  intros n. change (disp_u32 n) with (decimal n). pose proof (decimal_chars n) as H. induction (decimal n) as [|c s IH]; [reflexivity|].
  cbn [every]. rewrite IH by (intros d X; apply H; right; exact X). rewrite andb_true_r. specialize (H c (or_introl eq_refl)).
  unfold is_digit, digit in H. unfold digit_char. cbv zeta in *. destruct ((48 <=? N_of_ascii c) && (N_of_ascii c <=? 57))%N; [reflexivity|].
  destruct H as [? H] || (exfalso; apply H; reflexivity); discriminate.
Qed.
Lemma decimal_starts : forall n, exists c s, disp_u32 n = String c s /\ digit_char c = true.
Proof.
  intros n. pose proof (decimal_digits n) as H. pose proof (proj1 (decimal_shortest n)) as X. change (decimal n) with (disp_u32 n) in X.
  destruct (disp_u32 n) as [|c s]; [contradiction|]. cbn [every] in H. apply andb_true_iff in H. destruct H. eauto.
Qed.
Lemma number_clear : forall n m r s, closed r -> closed s -> disp_u32 n ++ r = disp_u32 m ++ s -> n = m /\ r = s.
Proof.
  intros n m r s R S H. apply (span digit_char) in H; try apply decimal_digits; try (apply closed_digit; assumption).
  destruct H as [H ->]. split; [apply decimal_inj; exact H|reflexivity].
Qed.

(** ** Characters *)
Definition char_at (c : N) (bytes : list N) : Prop :=
  ((c < 0x110000 /\ bytes = Spec_Unicode.utf8_char c) \/ (exists b, c = 0x110000 + b /\ bytes = [b] /\ 0x80 <= b))%N.

Lemma some3 : forall {A B C} (a a' : A) (b b' : B) (c c' : C), Some (a, b, c) = Some (a', b', c') -> a' = a /\ b' = b /\ c' = c.
Proof. intros. injection H as -> -> ->. auto. Qed.
Lemma next_char_step : forall l c bytes rest, next_char l = Some (c, bytes, rest) ->
  l = (bytes ++ rest)%list /\ bytes <> [] /\ char_at c bytes /\ ((c < 0x110000)%N -> forall more, next_char (bytes ++ more) = Some (c, bytes, more)).
Proof.
  intros l c bytes rest H. unfold next_char in H.
  assert (Bad : forall b0 l1, (0x80 <= b0)%N -> Some ((0x110000 + b0)%N, [b0], l1) = Some (c, bytes, rest) ->
      b0 :: l1 = (bytes ++ rest)%list /\ bytes <> [] /\ char_at c bytes
      /\ ((c < 0x110000)%N -> forall more, next_char (bytes ++ more) = Some (c, bytes, more))).
  { intros b0 l1 B X. apply some3 in X. destruct X as (-> & -> & ->). split; [reflexivity|split; [discriminate|split]]; [right; exists b0; auto|intros; lia]. }
  destruct l as [|b0 l1]; [discriminate H|]. destruct (b0 <? 0x80)%N eqn:B0.
  { apply some3 in H. destruct H as (-> & -> & ->). apply N.ltb_lt in B0. split; [reflexivity|split; [discriminate|split]].
    - left. split; [lia|]. unfold Spec_Unicode.utf8_char. apply N.ltb_lt in B0. rewrite B0. reflexivity.
    - intros _ more. cbn [app next_char]. apply N.ltb_lt in B0. rewrite B0. reflexivity. }
  apply N.ltb_ge in B0. destruct l1 as [|b1 l2]; [apply Bad; assumption|].
  destruct (in_range 0xC2 0xDF b0 && is_cont b1) eqn:C2.
  { apply some3 in H. destruct H as (-> & -> & ->). split; [reflexivity|split; [discriminate|split]].
    - left. unfold in_range, is_cont in C2. apply andb_true_iff in C2. destruct C2 as [U V]. apply andb_true_iff in U, V.
      destruct U as [U1 U2], V as [V1 V2]. apply N.leb_le in U1, U2, V1, V2.
      remember ((b0 - 192) * 64 + (b1 - 128))%N as c. assert (c / 64 = b0 - 192 /\ c mod 64 = b1 - 128)%N as [D M] by (subst c; split; [rewrite N.div_add_l by lia; rewrite (N.div_small (b1 - 128)) by lia; lia|rewrite N.add_comm, N.mod_add by lia; apply N.mod_small; lia]).
      split; [lia|]. unfold Spec_Unicode.utf8_char. replace (c <? 128)%N with false by (symmetry; apply N.ltb_ge; lia).
      replace (c <? 2048)%N with true by (symmetry; apply N.ltb_lt; lia). rewrite D, M. f_equal; [lia|f_equal; lia].
    - intros _ more. unfold next_char. cbn [app]. apply N.ltb_ge in B0. rewrite B0, C2. reflexivity. }
  destruct l2 as [|b2 l3]; [apply Bad; assumption|].
  destruct (ok3 b0 b1 && is_cont b2) eqn:C3.
  { apply some3 in H. destruct H as (-> & -> & ->). split; [reflexivity|split; [discriminate|split]].
    - left. apply andb_true_iff in C3. destruct C3 as [U V]. unfold is_cont, in_range in V. apply andb_true_iff in V. destruct V as [V1 V2].
      apply N.leb_le in V1, V2.
      assert (W : (0xE0 <= b0 <= 0xEF /\ 0x80 <= b1 <= 0xBF /\ (b0 = 0xE0 -> 0xA0 <= b1))%N).
      { unfold ok3, is_cont, in_range in U. rewrite ?orb_true_iff, ?andb_true_iff, ?N.eqb_eq, ?N.leb_le in U. lia. }
      remember ((b0 - 224) * 64 + (b1 - 128))%N as d. assert (d / 64 = b0 - 224 /\ d mod 64 = b1 - 128)%N as [D M] by (subst d; split; [rewrite N.div_add_l by lia; rewrite (N.div_small (b1 - 128)) by lia; lia|rewrite N.add_comm, N.mod_add by lia; apply N.mod_small; lia]).
      remember (d * 64 + (b2 - 128))%N as c. assert (c / 64 = d /\ c mod 64 = b2 - 128)%N as [D2 M2] by (subst c; split; [rewrite N.div_add_l by lia; rewrite (N.div_small (b2 - 128)) by lia; lia|rewrite N.add_comm, N.mod_add by lia; apply N.mod_small; lia]).
      split; [lia|]. unfold Spec_Unicode.utf8_char. replace (c <? 128)%N with false by (symmetry; apply N.ltb_ge; lia).
      replace (c <? 2048)%N with false by (symmetry; apply N.ltb_ge; lia). replace (c <? 65536)%N with true by (symmetry; apply N.ltb_lt; lia).
      change 4096%N with (64 * 64)%N. rewrite <- N.div_div, D2, D, M, M2 by lia. f_equal; [lia|f_equal; [lia|f_equal; lia]].
    - intros _ more. unfold next_char. cbn [app]. apply N.ltb_ge in B0. rewrite B0, C2, C3. reflexivity. }
  destruct l3 as [|b3 l4]; [apply Bad; assumption|].
  destruct (ok4 b0 b1 && is_cont b2 && is_cont b3) eqn:C4; [|apply Bad; assumption].
  apply some3 in H. destruct H as (-> & -> & ->). split; [reflexivity|split; [discriminate|split]].
  - left. apply andb_true_iff in C4. destruct C4 as [U V]. apply andb_true_iff in U. destruct U as [U T].
    unfold is_cont, in_range in V, T. apply andb_true_iff in V, T. destruct V as [V1 V2], T as [T1 T2]. apply N.leb_le in V1, V2, T1, T2.
    assert (W : (0xF0 <= b0 <= 0xF4 /\ 0x80 <= b1 <= 0xBF /\ (b0 = 0xF0 -> 0x90 <= b1) /\ (b0 = 0xF4 -> b1 <= 0x8F))%N).
    { unfold ok4, is_cont, in_range in U. rewrite ?orb_true_iff, ?andb_true_iff, ?N.eqb_eq, ?N.leb_le in U. lia. }
    remember ((b0 - 240) * 64 + (b1 - 128))%N as d. assert (d / 64 = b0 - 240 /\ d mod 64 = b1 - 128)%N as [D M] by (subst d; split; [rewrite N.div_add_l by lia; rewrite (N.div_small (b1 - 128)) by lia; lia|rewrite N.add_comm, N.mod_add by lia; apply N.mod_small; lia]).
    remember (d * 64 + (b2 - 128))%N as e. assert (e / 64 = d /\ e mod 64 = b2 - 128)%N as [D2 M2] by (subst e; split; [rewrite N.div_add_l by lia; rewrite (N.div_small (b2 - 128)) by lia; lia|rewrite N.add_comm, N.mod_add by lia; apply N.mod_small; lia]).
    remember (e * 64 + (b3 - 128))%N as c. assert (c / 64 = e /\ c mod 64 = b3 - 128)%N as [D3 M3] by (subst c; split; [rewrite N.div_add_l by lia; rewrite (N.div_small (b3 - 128)) by lia; lia|rewrite N.add_comm, N.mod_add by lia; apply N.mod_small; lia]).
    split; [lia|]. unfold Spec_Unicode.utf8_char. replace (c <? 128)%N with false by (symmetry; apply N.ltb_ge; lia).
    replace (c <? 2048)%N with false by (symmetry; apply N.ltb_ge; lia). replace (c <? 65536)%N with false by (symmetry; apply N.ltb_ge; lia).
    change 262144%N with (64 * (64 * 64))%N. change 4096%N with (64 * 64)%N. rewrite <- !N.div_div, D3, D2, D, M, M2, M3 by lia.
    f_equal; [lia|f_equal; [lia|f_equal; [lia|f_equal; lia]]].
  - intros _ more. unfold next_char. cbn [app]. apply N.ltb_ge in B0. rewrite B0, C2, C3, C4. reflexivity.
Qed.

(** ** Hexadecimal *)
Lemma hex_digit_chars : forall d, (d < 16)%N -> hex_digit_value (hex_digit d) = Some d /\ hex_char (hex_digit d) = true.
Proof.
  intros d H. unfold hex_digit, hex_digit_value, hex_char, digit_char. destruct (d <? 10)%N eqn:X.
  - apply N.ltb_lt in X. rewrite N_ascii_embedding by lia. cbv zeta. replace ((48 <=? 48 + d) && (48 + d <=? 57))%N with true by (symmetry; apply andb_true_iff; rewrite !N.leb_le; lia).
    split; [f_equal; lia|reflexivity].
  - apply N.ltb_ge in X. rewrite N_ascii_embedding by lia. cbv zeta. replace ((48 <=? 87 + d) && (87 + d <=? 57))%N with false by (symmetry; apply andb_false_iff; rewrite !N.leb_gt; lia).
    replace ((97 <=? 87 + d) && (87 + d <=? 102))%N with true by (symmetry; apply andb_true_iff; rewrite !N.leb_le; lia).
    split; [f_equal; lia|reflexivity].
Qed.
Lemma hex_digits_value : forall f n s, (n < 16 ^ N.of_nat f)%N -> f <> O -> hex_value 0 (hex_digits f n s) = hex_value n s.
Proof.
  induction f as [|f IH]; intros n s H F; [contradiction|]. cbn [hex_digits]. cbv zeta.
  assert (M : (n mod 16 < 16)%N) by (apply N.mod_lt; lia). pose proof (proj1 (hex_digit_chars _ M)) as V. destruct (n <? 16)%N eqn:X.
  - apply N.ltb_lt in X. cbn [hex_value]. rewrite V. rewrite N.mod_small by exact X. f_equal.
  - apply N.ltb_ge in X. rewrite Nat2N.inj_succ, N.pow_succ_r' in H. rewrite IH.
    + cbn [hex_value]. rewrite V. f_equal. pose proof (N.div_mod n 16). lia.
    + apply N.div_lt_upper_bound; lia.
    + intros ->. cbn in H. lia.
Qed.
Lemma hex_digits_every : forall f n s, every hex_char s = true -> every hex_char (hex_digits f n s) = true.
Proof.
  induction f as [|f IH]; intros n s H; [exact H|]. cbn [hex_digits]. cbv zeta.
  assert (M : (n mod 16 < 16)%N) by (apply N.mod_lt; lia). pose proof (proj2 (hex_digit_chars _ M)) as V.
  assert (K : every hex_char (String (hex_digit (n mod 16)) s) = true) by (cbn [every]; rewrite V; exact H).
  destruct (n <? 16)%N; [exact K|apply IH; exact K].
Qed.
Lemma hex_digits_some : forall f n s, s <> "" -> hex_digits f n s <> "".
Proof. induction f as [|f IH]; intros n s H; [exact H|]. cbn [hex_digits]. cbv zeta. destruct (n <? 16)%N; [discriminate|apply IH; discriminate]. Qed.
Lemma hex_some : forall n, hex n <> "".
Proof. intros n. unfold hex. cbn [hex_digits]. cbv zeta. destruct (n <? 16)%N; [discriminate|]. apply (hex_digits_some 7). discriminate. Qed.
Lemma hex_read : forall n, (n < 0x100000000)%N -> hex_value 0 (hex n) = Some n.
Proof. intros n H. unfold hex. rewrite hex_digits_value; [reflexivity|exact H|discriminate]. Qed.
Lemma hex_clear : forall n m r s, (n < 0x100000000)%N -> (m < 0x100000000)%N -> hex n ++ "}" ++ r = hex m ++ "}" ++ s -> n = m /\ r = s.
Proof.
  intros n m r s N M H. apply (span hex_char) in H; try (apply hex_digits_every; reflexivity); try reflexivity.
  destruct H as [H X]. injection X as ->. split; [|reflexivity]. apply (f_equal (hex_value 0)) in H. rewrite !hex_read in H by assumption.
  injection H as ->. reflexivity.
Qed.

(** ** Strings *)
Definition small (l : list N) : Prop := Forall (fun b => (b < 256)%N) l.
Definition chars (l : list N) : string := string_of_bytes l.
Lemma chars_app : forall a b, chars (a ++ b) = chars a ++ chars b.
Proof. induction a as [|x a IH]; intros b; [reflexivity|]. unfold chars, string_of_bytes in *. cbn. f_equal. apply IH. Qed.
Lemma bytes_chars : forall l, small l -> Spec_Unicode.bytes_of_string (chars l) = l.
Proof. exact Proofs_Operands.bytes_of_string_of_bytes. Qed.
Lemma bytes_small : forall s, small (Spec_Unicode.bytes_of_string s).
Proof.
  intros s. apply Forall_forall. intros b H. unfold Spec_Unicode.bytes_of_string in H. apply in_map_iff in H. destruct H as (c & <- & _). apply N_ascii_bounded.
Qed.
Lemma bytes_app : forall a b, Spec_Unicode.bytes_of_string (a ++ b) = (Spec_Unicode.bytes_of_string a ++ Spec_Unicode.bytes_of_string b)%list.
Proof. induction a as [|x a IH]; intros b; [reflexivity|]. unfold Spec_Unicode.bytes_of_string in *. cbn. f_equal. apply IH. Qed.
Lemma bytes_inj : forall s t, Spec_Unicode.bytes_of_string s = Spec_Unicode.bytes_of_string t -> s = t.
Proof. intros s t H. rewrite <- (Proofs_Operands.string_of_bytes_of_string s), H. apply Proofs_Operands.string_of_bytes_of_string. Qed.

(** The short escapes. *)
Definition letter (c : N) (x : ascii) : Prop :=
  (c = 9%N /\ x = "t"%char) \/ (c = 10%N /\ x = "n"%char) \/ (c = 13%N /\ x = "r"%char) \/ (c = 34%N /\ x = quotation)
  \/ (c = 92%N /\ x = backslash) \/ (c = 39%N /\ x = "'"%char) \/ (c = 0%N /\ x = "0"%char).
Ltac letters H := unfold letter in H; decompose [and or] H; clear H; subst.
Lemma escape_char_cases : forall e c bytes,
  ((c < 0x110000)%N /\ printable e c = true /\ ~ short c /\ escape_char e c bytes = chars bytes)
  \/ (exists x, letter c x /\ escape_char e c bytes = String backslash (String x ""))
  \/ (escape_char e c bytes = String backslash ("u{" ++ hex c ++ "}") /\ ~ short c /\ (printable e c = false \/ (0x110000 <= c)%N)).
Proof.
  intros e c bytes. unfold escape_char, short, letter.
  destruct (N.eqb_spec c 9) as [->|?]; [right; left; eexists; split; [|reflexivity]; tauto|].
  destruct (N.eqb_spec c 10) as [->|?]; [right; left; eexists; split; [|reflexivity]; tauto|].
  destruct (N.eqb_spec c 13) as [->|?]; [right; left; eexists; split; [|reflexivity]; tauto|].
  destruct (N.eqb_spec c 34) as [->|?]; [right; left; eexists; split; [|reflexivity]; tauto|].
  destruct (N.eqb_spec c 92) as [->|?]; [right; left; eexists; split; [|reflexivity]; tauto|].
  destruct (N.eqb c 39 && escape_quote e) eqn:Q.
  { apply andb_true_iff in Q. destruct Q as [Q _]. apply N.eqb_eq in Q. subst c. right; left; eexists; split; [|reflexivity]; tauto. }
  destruct (N.eqb c 0 && escape_nul e) eqn:Z.
  { apply andb_true_iff in Z. destruct Z as [Z _]. apply N.eqb_eq in Z. subst c. right; left; eexists; split; [|reflexivity]; tauto. }
  destruct ((c <? 0x110000)%N && printable e c) eqn:P.
  - left. apply andb_true_iff in P. destruct P as [P1 P2]. apply N.ltb_lt in P1. repeat split; try assumption. intros K; decompose [or] K; contradiction.
  - right; right. split; [reflexivity|]. split; [intros K; decompose [or] K; contradiction|].
    apply andb_false_iff in P. destruct P as [P|P]; [right; apply N.ltb_ge in P; exact P|left; exact P].
Qed.
Lemma char_first : forall c bytes, char_at c bytes -> (c < 0x110000)%N -> ~ short c -> small bytes ->
  exists b more, bytes = b :: more /\ ascii_of_N b <> backslash /\ ascii_of_N b <> quotation.
Proof.
  intros c bytes [[_ ->]|(b & -> & _)] H S Sm; [|lia].
  assert (K : exists b more, Spec_Unicode.utf8_char c = b :: more /\ b <> 34%N /\ b <> 92%N).
  { unfold Spec_Unicode.utf8_char. unfold short in S. destruct (c <? 128)%N eqn:X; [exists c; eexists; repeat split; tauto|].
    destruct (c <? 2048)%N; [eexists _, _; split; [reflexivity|]; lia|]. destruct (c <? 65536)%N; eexists _, _; (split; [reflexivity|]; lia). }
  destruct K as (b & more & K & B1 & B2). exists b, more. rewrite K in Sm. inversion Sm; subst. split; [exact K|].
  split; intros X; apply (f_equal N_of_ascii) in X; rewrite N_ascii_embedding in X by assumption; cbn in X; congruence.
Qed.
Lemma char_det : forall c b1 b2, char_at c b1 -> char_at c b2 -> b1 = b2.
Proof.
  intros c b1 b2 [[L ->]|(x & -> & -> & X)] [[M ->]|(y & Y & -> & Z)]; try reflexivity; try lia. f_equal. lia.
Qed.
Lemma char_small_bound : forall c bytes, char_at c bytes -> small bytes -> (c < 0x100000000)%N.
Proof. intros c bytes [[L _]|(b & -> & -> & B)] S; [lia|]. inversion S; subst. lia. Qed.

Lemma token_clear : forall e l1 l2 c1 b1 t1 c2 b2 t2 r s, small l1 -> small l2 ->
  next_char l1 = Some (c1, b1, t1) -> next_char l2 = Some (c2, b2, t2) ->
  escape_char e c1 b1 ++ r = escape_char e c2 b2 ++ s -> b1 = b2 /\ r = s.
Proof.
  intros e l1 l2 c1 b1 t1 c2 b2 t2 r s S1 S2 N1 N2 H.
  apply next_char_step in N1, N2. destruct N1 as (-> & _ & A1 & D1), N2 as (-> & _ & A2 & D2).
  apply Forall_app in S1, S2. destruct S1 as [S1 _], S2 as [S2 _].
  destruct (escape_char_cases e c1 b1) as [(L1 & P1 & Q1 & E1)|[(x & X & E1)|(E1 & Q1 & P1)]];
  destruct (escape_char_cases e c2 b2) as [(L2 & P2 & Q2 & E2)|[(y & Y & E2)|(E2 & Q2 & P2)]]; rewrite E1, E2 in H.
  - apply (f_equal Spec_Unicode.bytes_of_string) in H. rewrite !bytes_app, !bytes_chars in H by assumption.
    pose proof (D1 L1 (Spec_Unicode.bytes_of_string r)) as M1. rewrite H, (D2 L2) in M1. apply some3 in M1. destruct M1 as (_ & -> & M).
    split; [reflexivity|apply bytes_inj; exact M].
  - destruct (char_first _ _ A1 L1 Q1 S1) as (b & more & -> & B & _). cbn in H. injection H as H _. contradiction.
  - destruct (char_first _ _ A1 L1 Q1 S1) as (b & more & -> & B & _). cbn in H. injection H as H _. contradiction.
  - destruct (char_first _ _ A2 L2 Q2 S2) as (b & more & -> & B & _). cbn in H. injection H as H _. symmetry in H. contradiction.
  - cbn [append] in H. injection H as -> ->. split; [|reflexivity].
    assert (c1 = c2) as <- by (letters X; letters Y; reflexivity || discriminate). exact (char_det _ _ _ A1 A2).
  - exfalso. cbn [append] in H. injection H as -> _. letters X; discriminate.
  - destruct (char_first _ _ A2 L2 Q2 S2) as (b & more & -> & B & _). cbn in H. injection H as H _. symmetry in H. contradiction.
  - exfalso. cbn [append] in H. injection H as <- _. letters Y; discriminate.
  - cbn [append] in H. injection H as H. rewrite !sapp_assoc in H.
    apply hex_clear in H; [|exact (char_small_bound _ _ A1 S1)|exact (char_small_bound _ _ A2 S2)]. destruct H as [<- ->].
    split; [exact (char_det _ _ _ A1 A2)|reflexivity].
Qed.
Lemma token_not_quotation : forall e l c b t r s, small l -> next_char l = Some (c, b, t) -> escape_char e c b ++ r <> String quotation s.
Proof.
  intros e l c b t r s S N H. apply next_char_step in N. destruct N as (-> & _ & A & _). apply Forall_app in S. destruct S as [S _].
  destruct (escape_char_cases e c b) as [(L & P & Q & E)|[(x & X & E)|(E & Q & P)]]; rewrite E in H; try discriminate H.
  destruct (char_first _ _ A L Q S) as (y & more & -> & _ & B). cbn in H. injection H as H _. contradiction.
Qed.
Lemma next_none : forall l, next_char l = None -> l = [].
Proof.
  intros [|b0 l] H; [reflexivity|]. unfold next_char in H. exfalso.
  repeat match type of H with (if ?b then _ else _) = _ => destruct b | (match ?l with [] => _ | _ :: _ => _ end) = _ => destruct l end; discriminate H.
Qed.
Lemma escape_chars_clear : forall e n l1 m l2 r s, (List.length l1 <= n)%nat -> (List.length l2 <= m)%nat -> small l1 -> small l2 ->
  escape_chars e n l1 ++ String quotation r = escape_chars e m l2 ++ String quotation s -> l1 = l2 /\ r = s.
Proof.
  intros e n. induction n as [|n IH]; intros l1 m l2 r s L1 L2 S1 S2 H.
  - destruct l1; [|cbn in L1; lia]. destruct m as [|m]; [destruct l2; [|cbn in L2; lia]; cbn in H; injection H as ->; auto|].
    cbn [escape_chars append] in H. destruct (next_char l2) as [[[c b] t]|] eqn:N.
    + symmetry in H. rewrite sapp_assoc in H. apply (token_not_quotation _ _ _ _ _ _ _ S2 N) in H. contradiction.
    + apply next_none in N. subst. cbn in H. injection H as ->. auto.
  - cbn [escape_chars] in H. destruct (next_char l1) as [[[c1 b1] t1]|] eqn:N1.
    + destruct m as [|m].
      { destruct l2; [|cbn in L2; lia]. cbn [escape_chars append] in H. rewrite sapp_assoc in H. apply (token_not_quotation _ _ _ _ _ _ _ S1 N1) in H. contradiction. }
      cbn [escape_chars] in H. destruct (next_char l2) as [[[c2 b2] t2]|] eqn:N2.
      * rewrite !sapp_assoc in H. destruct (token_clear _ _ _ _ _ _ _ _ _ _ _ S1 S2 N1 N2 H) as [-> H'].
        apply next_char_step in N1, N2. destruct N1 as (-> & B & _), N2 as (-> & _). apply Forall_app in S1, S2. destruct S1 as [_ S1], S2 as [_ S2].
        rewrite app_length in L1, L2. assert (1 <= List.length b2)%nat by (destruct b2; [contradiction|cbn; lia]).
        destruct (IH t1 m t2 r s ltac:(lia) ltac:(lia) S1 S2 H') as [-> ->]. auto.
      * cbn [append] in H. rewrite sapp_assoc in H. apply (token_not_quotation _ _ _ _ _ _ _ S1 N1) in H. contradiction.
    + apply next_none in N1. subst l1. destruct m as [|m]; [destruct l2; [|cbn in L2; lia]; cbn in H; injection H as ->; auto|].
      cbn [escape_chars append] in H. destruct (next_char l2) as [[[c b] t]|] eqn:N.
      * symmetry in H. rewrite sapp_assoc in H. apply (token_not_quotation _ _ _ _ _ _ _ S2 N) in H. contradiction.
      * apply next_none in N. subst. cbn in H. injection H as ->. auto.
Qed.
Lemma string_clear : forall e a b r s, dbg_str e a ++ r = dbg_str e b ++ s -> a = b /\ r = s.
Proof.
  intros e a b r s H. unfold dbg_str in H. cbn [append] in H. injection H as H. rewrite !sapp_assoc in H. cbn [append] in H.
  apply escape_chars_clear in H; try apply bytes_small; try reflexivity. destruct H as [H ->]. split; [apply bytes_inj; exact H|reflexivity].
Qed.

(** ** A string is shown as a literal that denotes it *)
Lemma scalar_next : forall c more, Spec_Unicode.scalar c -> next_char (Spec_Unicode.utf8_char c ++ more) = Some (c, Spec_Unicode.utf8_char c, more).
Proof.
  intros c more H. unfold Spec_Unicode.scalar in H. unfold Spec_Unicode.utf8_char. destruct (c <? 128)%N eqn:X; [cbn [app next_char]; rewrite X; reflexivity|].
  apply N.ltb_ge in X. destruct (c <? 2048)%N eqn:Y.
  { apply N.ltb_lt in Y. pose proof (N.div_mod c 64 ltac:(lia)) as D. pose proof (N.mod_lt c 64 ltac:(lia)) as M.
    set (q := (c / 64)%N) in *. set (m := (c mod 64)%N) in *. clearbody q m. unfold next_char. cbn [app].
    replace (192 + q <? 128)%N with false by (symmetry; apply N.ltb_ge; lia).
    replace (in_range 194 223 (192 + q) && is_cont (128 + m)) with true by (symmetry; unfold in_range, is_cont, in_range; rewrite !andb_true_iff, !N.leb_le; lia).
    do 3 f_equal. lia. }
  apply N.ltb_ge in Y. destruct (c <? 65536)%N eqn:Z.
  { apply N.ltb_lt in Z. change 4096%N with (64 * 64)%N. rewrite <- N.div_div by lia. pose proof (N.div_mod c 64 ltac:(lia)) as D. pose proof (N.mod_lt c 64 ltac:(lia)) as M.
    set (q := (c / 64)%N) in *. set (m := (c mod 64)%N) in *. pose proof (N.div_mod q 64 ltac:(lia)) as D2. pose proof (N.mod_lt q 64 ltac:(lia)) as M2.
    set (q2 := (q / 64)%N) in *. set (m2 := (q mod 64)%N) in *. clearbody q2 m2 q m. unfold next_char. cbn [app].
    replace (224 + q2 <? 128)%N with false by (symmetry; apply N.ltb_ge; lia).
    replace (in_range 194 223 (224 + q2)) with false by (symmetry; unfold in_range; rewrite andb_false_iff, !N.leb_gt; lia). cbn [andb].
    replace (ok3 (224 + q2) (128 + m2)) with true
      by (symmetry; unfold ok3, is_cont, in_range; rewrite ?orb_true_iff, ?andb_true_iff, ?N.eqb_eq, ?N.leb_le; lia).
    replace (is_cont (128 + m)) with true by (symmetry; unfold is_cont, in_range; rewrite !andb_true_iff, !N.leb_le; lia). cbn [andb].
    do 3 f_equal. lia. }
  apply N.ltb_ge in Z. change 262144%N with (64 * (64 * 64))%N. change 4096%N with (64 * 64)%N. rewrite <- !N.div_div by lia.
  pose proof (N.div_mod c 64 ltac:(lia)) as D. pose proof (N.mod_lt c 64 ltac:(lia)) as M.
  set (q := (c / 64)%N) in *. set (m := (c mod 64)%N) in *. pose proof (N.div_mod q 64 ltac:(lia)) as D2. pose proof (N.mod_lt q 64 ltac:(lia)) as M2.
  set (q2 := (q / 64)%N) in *. set (m2 := (q mod 64)%N) in *. pose proof (N.div_mod q2 64 ltac:(lia)) as D3. pose proof (N.mod_lt q2 64 ltac:(lia)) as M3.
  set (q3 := (q2 / 64)%N) in *. set (m3 := (q2 mod 64)%N) in *. clearbody q3 m3 q2 m2 q m. unfold next_char. cbn [app].
  replace (240 + q3 <? 128)%N with false by (symmetry; apply N.ltb_ge; lia).
  replace (in_range 194 223 (240 + q3)) with false by (symmetry; unfold in_range; rewrite andb_false_iff, !N.leb_gt; lia). cbn [andb].
  replace (ok3 (240 + q3) (128 + m3)) with false
    by (symmetry; unfold ok3, is_cont, in_range; rewrite ?orb_false_iff, ?andb_false_iff, ?N.eqb_neq, ?N.leb_gt; lia). cbn [andb].
  replace (ok4 (240 + q3) (128 + m3)) with true
    by (symmetry; unfold ok4, is_cont, in_range; rewrite ?orb_true_iff, ?andb_true_iff, ?N.eqb_eq, ?N.leb_le; lia).
  replace (is_cont (128 + m)) with true by (symmetry; unfold is_cont, in_range; rewrite !andb_true_iff, !N.leb_le; lia).
  replace (is_cont (128 + m2)) with true by (symmetry; unfold is_cont, in_range; rewrite !andb_true_iff, !N.leb_le; lia). cbn [andb].
  do 3 f_equal. lia.
Qed.

Lemma escape_chars_spells : forall e text n, Forall Spec_Unicode.scalar text -> (List.length (Spec_Unicode.utf8 text) <= n)%nat ->
  spells (fun c => printable e c = true) (escape_chars e n (Spec_Unicode.utf8 text)) text.
Proof.
  intros e text. induction text as [|c text IH]; intros n F L.
  - destruct n; constructor.
  - inversion F; subst. cbn [Spec_Unicode.utf8 flat_map] in *. fold (Spec_Unicode.utf8 text) in *.
    pose proof (scalar_next c (Spec_Unicode.utf8 text) H1) as N. pose proof (next_char_step _ _ _ _ N) as (_ & B & _).
    rewrite app_length in L. assert (1 <= List.length (Spec_Unicode.utf8_char c))%nat by (destruct (Spec_Unicode.utf8_char c); [contradiction|cbn; lia]).
    destruct n as [|n]; [lia|]. cbn [escape_chars]. rewrite N. specialize (IH n H2 ltac:(lia)).
    destruct (escape_char_cases e c (Spec_Unicode.utf8_char c)) as [(K & P & Q & ->)|[(x & X & ->)|(-> & Q & P)]].
    + apply spells_plain; assumption.
    + letters X; cbn [append]; constructor; exact IH.
    + unfold Spec_Unicode.scalar in H1. cbn [append]. rewrite sapp_assoc.
      apply (spells_hex (fun c => printable e c = true) c (hex c)); try assumption; [destruct P as [P|P]; [rewrite P; discriminate|lia]|apply hex_some|apply hex_read; lia].
Qed.
Lemma string_literal : forall e s text, Forall Spec_Unicode.scalar text -> Spec_Unicode.bytes_of_string s = Spec_Unicode.utf8 text ->
  exists body, dbg_str e s = """" ++ body ++ """" /\ spells (fun c => printable e c = true) body text.
Proof.
  intros e s text F B. unfold dbg_str. change (map N_of_ascii (list_ascii_of_string s)) with (Spec_Unicode.bytes_of_string s). rewrite B.
  eexists. split; [reflexivity|]. apply escape_chars_spells; [exact F|reflexivity].
Qed.

(** ** Trees *)
Section Trees.
Context {E : Type} (e : escapes) (ext : E -> string) (Ext : unambiguous ext).

Definition tree_ind' (P : dtree E -> Prop)
  (number : forall n, P (DNumber n)) (truth : forall b, P (DBool b)) (text : forall s, P (DString s)) (name : forall n, P (DName n))
  (tuple : forall n fs, Forall P fs -> P (DTuple n fs)) (struct : forall n fs, Forall (fun f => P (snd f)) fs -> P (DStruct n fs))
  (items : forall l, Forall P l -> P (DList l)) (box : forall x, P (DExtInstBox x)) : forall t, P t :=
  fix go t := match t with
    | DNumber n => number n | DBool b => truth b | DString s => text s | DName n => name n
    | DTuple n fs => tuple n fs ((fix each fs := match fs return Forall P fs with [] => Forall_nil _ | f :: fs => Forall_cons f (go f) (each fs) end) fs)
    | DStruct n fs => struct n fs ((fix each fs := match fs return Forall (fun f => P (snd f)) fs with [] => Forall_nil _ | f :: fs => Forall_cons (P := fun f => P (snd f)) f (go (snd f)) (each fs) end) fs)
    | DList l => items l ((fix each fs := match fs return Forall P fs with [] => Forall_nil _ | f :: fs => Forall_cons f (go f) (each fs) end) l)
    | DExtInstBox x => box x
    end.

(** The names are identifiers, none is taken and none looks like a hexadecimal number. *)
Definition hex_letter (c : ascii) : bool :=
  let n := N_of_ascii c in (((48 <=? n) && (n <=? 57)) || ((65 <=? n) && (n <=? 70)) || ((97 <=? n) && (n <=? 102)))%N.
Definition named (n : string) : bool :=
  match n with "" => false | String c _ => negb (digit_char c) && (every word_char n && negb (every hex_letter n)) end
  && negb (n =? "true") && negb (n =? "false") && negb (n =? "ExtInstBox").
Definition some {A} (l : list A) : bool := match l with [] => false | _ => true end.
(** A tuple may have no name. *)
Definition tuple_named (n : string) : bool := named n || (n =? "").
Fixpoint wf (t : dtree E) : bool :=
  match t with
  | DName n => named n
  | DTuple n fs => tuple_named n && some fs && forallb wf fs
  | DStruct n fs => named n && some fs && forallb (fun f => every word_char (fst f) && some (list_ascii_of_string (fst f)) && wf (snd f)) fs
  | DList l => forallb wf l
  | _ => true
  end.

Definition closer (c : ascii) : bool := (c =? ",")%char || (c =? ")")%char || (c =? "]")%char || (c =? " ")%char.
Definition head (t : dtree E) : option string :=
  match t with
  | DBool b => Some (if b then "true" else "false")
  | DName n | DTuple n _ | DStruct n _ => Some n
  | DExtInstBox _ => Some "ExtInstBox"
  | _ => None
  end.
Notation text := (debug_text e ext).
Definition field_text (f : string * dtree E) : string := fst f ++ ": " ++ text (snd f).
Definition tail (t : dtree E) : string :=
  match t with
  | DTuple _ fs => "(" ++ separated (map text fs) ++ ")"
  | DStruct _ fs => " { " ++ separated (map field_text fs) ++ " }"
  | DExtInstBox x => "(" ++ ext x ++ ")"
  | _ => ""
  end.

Lemma text_head : forall t h, head t = Some h -> text t = h ++ tail t.
Proof.
  intros [] h H; try discriminate H; cbn in H; injection H as <-; cbn [debug_text tail].
  1,2: induction (_ : string) as [|? ? IH]; [reflexivity|cbn; f_equal; exact IH].
  all: reflexivity.
Qed.
Lemma named_facts : forall n, named n = true -> n <> "true" /\ n <> "false" /\ n <> "ExtInstBox" /\ every word_char n = true /\ exists c s, n = String c s /\ digit_char c = false.
Proof.
  intros n H. unfold named in H. apply andb_true_iff in H. destruct H as [H H1]. apply andb_true_iff in H. destruct H as [H H2]. apply andb_true_iff in H. destruct H as [H H3].
  apply negb_true_iff in H1, H2, H3. apply String.eqb_neq in H1, H2, H3. destruct n as [|c s]; [discriminate H|]. apply andb_true_iff in H. destruct H as [D W].
  apply andb_true_iff in W. destruct W as [W _]. apply negb_true_iff in D. repeat split; try assumption. eauto.
Qed.
Lemma tuple_named_facts : forall n, tuple_named n = true -> n <> "true" /\ n <> "false" /\ n <> "ExtInstBox" /\ every word_char n = true
  /\ (n = "" \/ exists c s, n = String c s /\ digit_char c = false).
Proof.
  intros n H. unfold tuple_named in H. apply orb_true_iff in H. destruct H as [H|H].
  - apply named_facts in H. tauto.
  - apply String.eqb_eq in H. subst n. repeat split; try discriminate. left. reflexivity.
Qed.
Lemma wf_head : forall t h, wf t = true -> head t = Some h -> every word_char h = true
  /\ ((h = "" /\ exists s, tail t = String "(" s) \/ exists c s, h = String c s /\ digit_char c = false).
Proof.
  intros [] h W H; try discriminate H; cbn in H; injection H as <-; cbn [wf] in W.
  - destruct b; (split; [reflexivity|right; eexists _, _; split; reflexivity]).
  - apply named_facts in W. tauto.
  - apply andb_true_iff in W. destruct W as [W _]. apply andb_true_iff in W. destruct W as [W _]. apply tuple_named_facts in W.
    split; [tauto|]. destruct W as (_ & _ & _ & _ & [W|W]); [left|right; exact W]. split; [exact W|]. cbn [tail append]. eexists. reflexivity.
  - apply andb_true_iff in W. destruct W as [W _]. apply andb_true_iff in W. destruct W as [W _]. apply named_facts in W. tauto.
  - split; [reflexivity|right; eexists _, _; split; reflexivity].
Qed.
Lemma tail_stops : forall t r, closed r -> stops word_char (tail t ++ r).
Proof. intros [] r C; cbn [tail append stops]; try reflexivity; apply closed_word; exact C. Qed.

(** The first character. *)
Lemma text_first : forall t, wf t = true -> exists c s, text t = String c s /\ closer c = false
  /\ match t with DNumber _ => digit_char c = true | DString _ => c = quotation | DList _ => c = "["%char | _ => c <> quotation /\ c <> "["%char /\ digit_char c = false end.
Proof.
  intros t W. destruct (head t) as [h|] eqn:H.
  - destruct (wf_head _ _ W H) as (Ev & [(-> & s & T)|(c & s & -> & D)]); rewrite (text_head _ _ H).
    { rewrite T. exists "("%char, s. split; [reflexivity|]. split; [reflexivity|]. destruct t; try discriminate H; repeat split; discriminate. }
    cbn [append]. exists c, (s ++ tail t). split; [reflexivity|].
    cbn [every] in Ev. apply andb_true_iff in Ev. destruct Ev as [Ev _]. split.
    + destruct (closer c) eqn:X; [|reflexivity]. unfold closer in X. rewrite !orb_true_iff, !Ascii.eqb_eq in X. decompose [or] X; subst c; discriminate Ev.
    + assert (A : c <> quotation /\ c <> "["%char) by (split; intros ->; discriminate Ev). destruct t; try discriminate H; tauto.
  - destruct t; try discriminate H; cbn [debug_text].
    + destruct (decimal_starts n) as (c & s & -> & D). exists c, s. repeat split; [|exact D].
      destruct (closer c) eqn:X; [|reflexivity]. unfold closer in X. rewrite !orb_true_iff, !Ascii.eqb_eq in X. decompose [or] X; subst c; discriminate D.
    + eexists _, _. split; [reflexivity|]. split; reflexivity.
    + eexists _, _. split; [reflexivity|]. split; reflexivity.
Qed.

Definition clear (t1 : dtree E) : Prop := forall t2 r s, wf t1 = true -> wf t2 = true -> closed r -> closed s -> text t1 ++ r = text t2 ++ s -> t1 = t2 /\ r = s.

(** Lists of items between commas, closed by [k]. *)
Lemma items_clear : forall {A} (show : A -> string) (ok : A -> bool) (k : string),
  (forall r, closed (k ++ r)) ->
  (forall x s r, ok x = true -> show x ++ s <> k ++ r) ->
  (forall r s, "," ++ r <> k ++ s) ->
  (forall r s, k ++ r = k ++ s -> r = s) ->
  forall xs, Forall (fun x => forall y r s, ok x = true -> ok y = true -> closed r -> closed s -> show x ++ r = show y ++ s -> x = y /\ r = s) xs ->
  forall ys r s, forallb ok xs = true -> forallb ok ys = true ->
  separated (map show xs) ++ k ++ r = separated (map show ys) ++ k ++ s -> xs = ys /\ r = s.
Proof.
  intros A show ok k K1 K2 K3 K4 xs F. induction F as [|x xs X F IH]; intros [|y ys] r s O1 O2 H.
  - split; [reflexivity|exact (K4 _ _ H)].
  - exfalso. cbn [forallb] in O2. apply andb_true_iff in O2. destruct O2 as [O2 _]. cbn [map separated append] in H. symmetry in H.
    destruct (map show ys); [|rewrite sapp_assoc in H]; exact (K2 _ _ _ O2 H).
  - exfalso. cbn [forallb] in O1. apply andb_true_iff in O1. destruct O1 as [O1 _]. cbn [map separated append] in H.
    destruct (map show xs); [|rewrite sapp_assoc in H]; exact (K2 _ _ _ O1 H).
  - cbn [forallb] in O1, O2. apply andb_true_iff in O1, O2. destruct O1 as [O1 P1], O2 as [O2 P2]. cbn [map] in H.
    assert (S : forall s l more, separated (s :: l) ++ more = s ++ match l with [] => more | _ => ", " ++ separated l ++ more end).
    { intros s0 [|? ?] more; cbn [separated]; [reflexivity|]. rewrite !sapp_assoc. reflexivity. }
    rewrite !S in H. clear S. specialize (X y _ _ O1 O2) with (5 := H) || idtac.
    assert (C : forall l more, closed (match l with [] => k ++ more | _ :: _ => ", " ++ separated l ++ k ++ more end)) by (intros [|? ?] more; [apply K1|constructor]).
    apply X in H; [|exact O1|exact O2|apply C|apply C]. destruct H as [<- H].
    destruct xs as [|x' xs], ys as [|y' ys]; cbn [map] in H.
    + apply K4 in H. auto.
    + symmetry in H. apply K3 in H. contradiction.
    + apply K3 in H. contradiction.
    + cbn [append] in H. injection H as H. specialize (IH (y' :: ys) r s P1 P2 H). destruct IH as [-> ->]. auto.
Qed.

Lemma forall_clear : forall fs, Forall clear fs ->
  Forall (fun x => forall y r s, wf x = true -> wf y = true -> closed r -> closed s -> text x ++ r = text y ++ s -> x = y /\ r = s) fs.
Proof. intros fs F. exact F. Qed.
Definition field_ok (f : string * dtree E) : bool := every word_char (fst f) && some (list_ascii_of_string (fst f)) && wf (snd f).
Lemma field_clear : forall fs, Forall (fun f => clear (snd f)) fs ->
  Forall (fun x => forall y r s, field_ok x = true -> field_ok y = true -> closed r -> closed s -> field_text x ++ r = field_text y ++ s -> x = y /\ r = s) fs.
Proof.
  intros fs F. eapply Forall_impl; [|exact F]. intros [f t] C [g u] r s O1 O2 R S H. unfold field_ok, field_text in *. cbn [fst snd] in *.
  apply andb_true_iff in O1, O2. destruct O1 as [O1 W1], O2 as [O2 W2]. apply andb_true_iff in O1, O2. destruct O1 as [O1 _], O2 as [O2 _].
  rewrite !sapp_assoc in H. apply (span word_char) in H; [|exact O1|exact O2|reflexivity|reflexivity]. destruct H as [-> H]. cbn [append] in H. injection H as H.
  destruct (C u r s W1 W2 R S H) as [-> ->]. auto.
Qed.

Lemma tuple_items : forall fs gs r s, Forall clear fs -> forallb wf fs = true -> forallb wf gs = true ->
  separated (map text fs) ++ ")" ++ r = separated (map text gs) ++ ")" ++ s -> fs = gs /\ r = s.
Proof.
  intros fs gs r s F W1 W2 H. apply (items_clear text wf ")"); auto.
  - intros x s' r' O X. destruct (text_first x O) as (c & q & Q & K & _). rewrite Q in X. cbn in X. injection X as -> _. discriminate K.
  - intros; discriminate.
  - intros ? ? X. injection X as ->. reflexivity.
Qed.
Lemma list_items : forall fs gs r s, Forall clear fs -> forallb wf fs = true -> forallb wf gs = true ->
  separated (map text fs) ++ "]" ++ r = separated (map text gs) ++ "]" ++ s -> fs = gs /\ r = s.
Proof.
  intros fs gs r s F W1 W2 H. apply (items_clear text wf "]"); auto.
  - intros x s' r' O X. destruct (text_first x O) as (c & q & Q & K & _). rewrite Q in X. cbn in X. injection X as -> _. discriminate K.
  - intros; discriminate.
  - intros ? ? X. injection X as ->. reflexivity.
Qed.
Lemma struct_items : forall fs gs r s, Forall (fun f => clear (snd f)) fs -> forallb field_ok fs = true -> forallb field_ok gs = true ->
  separated (map field_text fs) ++ " }" ++ r = separated (map field_text gs) ++ " }" ++ s -> fs = gs /\ r = s.
Proof.
  intros fs gs r s F W1 W2 H. apply (items_clear field_text field_ok " }"); auto using field_clear.
  - intros [n x] s' r' O X. unfold field_ok, field_text in *. cbn [fst snd] in *. apply andb_true_iff in O. destruct O as [O _]. apply andb_true_iff in O. destruct O as [O N].
    destruct n as [|c n]; [discriminate N|]. cbn [every] in O. apply andb_true_iff in O. destruct O as [O _]. cbn in X. injection X as -> _. discriminate O.
  - intros; discriminate.
  - intros ? ? X. injection X as ->. reflexivity.
Qed.

Lemma wf_tuple : forall n fs, wf (DTuple n fs) = true -> tuple_named n = true /\ forallb wf fs = true.
Proof. intros n fs W. cbn [wf] in W. apply andb_true_iff in W. destruct W as [W X]. apply andb_true_iff in W. destruct W as [W _]. auto. Qed.
Lemma wf_struct : forall n fs, wf (DStruct n fs) = true -> named n = true /\ forallb field_ok fs = true.
Proof. intros n fs W. cbn [wf] in W. apply andb_true_iff in W. destruct W as [W X]. apply andb_true_iff in W. destruct W as [W _]. auto. Qed.

Lemma head_clear : forall t u h r s, head t = Some h -> wf t = true -> wf u = true -> closed r -> closed s -> text t ++ r = text u ++ s ->
  head u = Some h /\ tail t ++ r = tail u ++ s.
Proof.
  intros t u h r s T W1 W2 R S H. destruct (wf_head _ _ W1 T) as (Ev & _). destruct (head u) as [g|] eqn:U.
  - destruct (wf_head _ _ W2 U) as (Ev2 & _). rewrite (text_head _ _ T), (text_head _ _ U), !sapp_assoc in H.
    apply (span word_char) in H; try assumption; try (apply tail_stops; assumption). destruct H as [<- H]. auto.
  - exfalso. destruct (text_first t W1) as (c & q & Q & _ & L). destruct (text_first u W2) as (d & p & P & _ & K). rewrite P, Q in H.
    cbn [append] in H. injection H as <- _. destruct u; try discriminate U; destruct t; try discriminate T; destruct L as (L1 & L2 & L3); congruence.
Qed.
Lemma closed_not_tail : forall r, closed r -> (forall s, r <> "(" ++ s) /\ (forall s, r <> " { " ++ s).
Proof. intros r []; split; intros s H; discriminate H. Qed.

Lemma tree_clear : forall t, clear t.
Proof.
  intros t. apply (tree_ind' clear); clear t.
  - intros n u r s W1 W2 R S H. destruct (text_first u W2) as (c & q & Q & _ & K). cbn [debug_text] in H. destruct (decimal_starts n) as (d & p & P & D).
    pose proof H as H'. rewrite Q, P in H'. cbn [append] in H'. injection H' as -> _.
    destruct u; try (apply proj2, proj2 in K; rewrite D in K; discriminate K); try (subst; discriminate D).
    apply number_clear in H; auto. destruct H as [-> ->]. auto.
  - intros b u r s W1 W2 R S H. destruct (head_clear (DBool b) u (if b then "true" else "false") r s eq_refl W1 W2 R S H) as [U T].
    destruct u; try discriminate U; cbn [head] in U; injection U as U; cbn [tail append] in T.
    + destruct b, b0; try discriminate U; auto.
    + apply named_facts in W2. destruct b; exfalso; tauto.
    + apply wf_tuple in W2. destruct W2 as [W2 _]. apply tuple_named_facts in W2. destruct b; exfalso; tauto.
    + apply wf_struct in W2. destruct W2 as [W2 _]. apply named_facts in W2. destruct b; exfalso; tauto.
    + destruct b; discriminate U.
  - intros a u r s W1 W2 R S H. destruct (text_first u W2) as (c & q & Q & _ & K). pose proof H as H'. cbn [debug_text] in H'. unfold dbg_str in H'. rewrite Q in H'. cbn [append] in H'. injection H' as <- _.
    destruct u; try (exfalso; apply (proj1 K); reflexivity); try discriminate K. cbn [debug_text] in H. apply string_clear in H. destruct H as [-> ->]. auto.
  - intros n u r s W1 W2 R S H. destruct (head_clear (DName n) u n r s eq_refl W1 W2 R S H) as [U T]. pose proof (closed_not_tail _ R) as [R1 R2].
    destruct u; try discriminate U; cbn [head] in U; injection U as U; cbn [tail append] in T.
    + apply named_facts in W1. destruct b; exfalso; subst; tauto.
    + subst. auto.
    + apply R1 in T. contradiction.
    + apply R2 in T. contradiction.
    + apply R1 in T. contradiction.
  - intros n fs F u r s W1 W2 R S H. destruct (head_clear (DTuple n fs) u n r s eq_refl W1 W2 R S H) as [U T]. pose proof (closed_not_tail _ S) as [S1 S2].
    apply wf_tuple in W1. destruct W1 as [W1 X1]. apply tuple_named_facts in W1.
    destruct u; try discriminate U; cbn [head] in U; injection U as U; cbn [tail] in T; rewrite ?sapp_assoc in T; cbn [append] in T.
    + destruct b; exfalso; subst; tauto.
    + symmetry in T. apply S1 in T. contradiction.
    + apply wf_tuple in W2. destruct W2 as [_ X2]. injection T as T. rewrite ?sapp_assoc in T. apply tuple_items in T; auto. destruct T as [-> ->]. subst. auto.
    + discriminate T.
    + exfalso. subst. tauto.
  - intros n fs F u r s W1 W2 R S H. destruct (head_clear (DStruct n fs) u n r s eq_refl W1 W2 R S H) as [U T]. pose proof (closed_not_tail _ S) as [S1 S2].
    apply wf_struct in W1. destruct W1 as [W1 X1]. apply named_facts in W1.
    destruct u; try discriminate U; cbn [head] in U; injection U as U; cbn [tail] in T; rewrite ?sapp_assoc in T; cbn [append] in T.
    + destruct b; exfalso; subst; tauto.
    + symmetry in T. apply S2 in T. contradiction.
    + discriminate T.
    + apply wf_struct in W2. destruct W2 as [_ X2]. injection T as T. rewrite ?sapp_assoc in T. apply struct_items in T; auto. destruct T as [-> ->]. subst. auto.
    + discriminate T.
  - intros l F u r s W1 W2 R S H. destruct (text_first u W2) as (c & q & Q & _ & K). pose proof H as H'. rewrite Q in H'. cbn [debug_text append] in H'. injection H' as <- _.
    destruct u; try (exfalso; apply (proj1 (proj2 K)); reflexivity); try discriminate K. cbn [debug_text append] in H. injection H as H. rewrite !sapp_assoc in H.
    apply list_items in H; auto. destruct H as [-> ->]. auto.
  - intros x u r s W1 W2 R S H. destruct (head_clear (DExtInstBox x) u "ExtInstBox" r s eq_refl W1 W2 R S H) as [U T]. pose proof (closed_not_tail _ S) as [S1 S2].
    destruct u; try discriminate U; cbn [head] in U; apply (f_equal (fun o => match o with Some x => x | None => "" end)) in U; cbv beta iota in U; cbn [tail] in T; rewrite ?sapp_assoc in T; cbn [append] in T.
    + destruct b; discriminate U.
    + symmetry in T. apply S1 in T. contradiction.
    + apply wf_tuple in W2. destruct W2 as [W2 _]. apply tuple_named_facts in W2. exfalso. subst. tauto.
    + apply wf_struct in W2. destruct W2 as [W2 _]. apply named_facts in W2. exfalso. subst. tauto.
    + injection T as T. rewrite ?sapp_assoc in T. apply Ext in T. destruct T as [-> ->]. auto.
Qed.
Lemma tree_exact : forall t u, wf t = true -> wf u = true -> text t = text u -> t = u.
Proof.
  intros t u W1 W2 H. apply (tree_clear t u "" ""); auto. rewrite H. reflexivity.
Qed.
End Trees.
