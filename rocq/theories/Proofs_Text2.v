(** Proofs: decimal numbers, columns, lines of a disassembly. *)
From Coq Require Import DecimalString DecimalN DecimalFacts DecimalPos ZArith ZifyBool ZifyNat ZifyN.
From Verif Require Import Base Types Ops Groups Spec_Tables Spec_Opcodes Spec_Wire Spec_Names Spec_Text
  DisplayBase DisplayTypes DisplayOps DisplayModule Proofs_Text.
Local Open Scope string_scope.
Ltac Zify.zify_post_hook ::= Z.div_mod_to_equations.

(** ** Decimal numbers *)
Lemma digits_of_uint : forall u p, digits_from (Npos p) (NilEmpty.string_of_uint u) = Some (Npos (Pos.of_uint_acc u p)).
Proof.
  induction u as [|u IH|u IH|u IH|u IH|u IH|u IH|u IH|u IH|u IH|u IH]; intro p; [reflexivity|..];
    cbn [NilEmpty.string_of_uint digits_from Pos.of_uint_acc]; rewrite <- IH;
    match goal with |- match ?x with _ => _ end = _ => let y := eval vm_compute in x in change x with y end; cbv iota beta; f_equal; lia.
Qed.

Lemma digits_uint : forall u, digits_from 0 (NilEmpty.string_of_uint u) = Some (N.of_uint u).
Proof.
  induction u as [|u IH|u IH|u IH|u IH|u IH|u IH|u IH|u IH|u IH|u IH]; [reflexivity|exact IH|..];
    cbn [NilEmpty.string_of_uint digits_from]; exact (digits_of_uint u _).
Qed.

Lemma to_uint_not_nil : forall n, N.to_uint n <> Decimal.Nil.
Proof.
  intros n H. pose proof (DecimalN.Unsigned.to_of (N.to_uint n)) as Q. rewrite DecimalN.Unsigned.of_to in Q.
  rewrite H in Q. discriminate Q.
Qed.
Lemma to_uint_norm : forall n, Decimal.unorm (N.to_uint n) = N.to_uint n.
Proof. intro n. rewrite <- (DecimalN.Unsigned.to_of (N.to_uint n)). rewrite DecimalN.Unsigned.of_to. reflexivity. Qed.

Lemma decimal_empty : forall n, decimal n = NilEmpty.string_of_uint (N.to_uint n).
Proof. intro n. unfold decimal, NilZero.string_of_uint. pose proof (to_uint_not_nil n). destruct (N.to_uint n); [congruence|reflexivity..]. Qed.

Lemma decimal_value : forall n, digits_from 0 (decimal n) = Some n.
Proof. intro n. rewrite decimal_empty, digits_uint. rewrite DecimalN.Unsigned.of_to. reflexivity. Qed.

Lemma decimal_shortest : forall n, shortest_decimal (decimal n) n.
Proof.
  intro n. split; [|split; [apply decimal_value|]].
  - rewrite decimal_empty. pose proof (to_uint_not_nil n). destruct (N.to_uint n); [congruence|discriminate..].
  - rewrite decimal_empty. pose proof (to_uint_norm n) as U. intros s H. destruct (N.to_uint n) as [|u|u|u|u|u|u|u|u|u|u] eqn:Q; try discriminate H.
    unfold Decimal.unorm in U. destruct (Decimal.nzhead (Decimal.D0 u)) as [| |?|?|?|?|?|?|?|?|?] eqn:Z; try discriminate U.
    + injection U as <-. cbn in H. congruence.
    + exfalso. exact (nzhead_nonzero _ _ Z).
Qed.

Lemma digit_string : forall s v n, digits_from v s = Some n -> exists u, s = NilEmpty.string_of_uint u.
Proof.
  induction s as [|c s IH]; intros v n H; [exists Decimal.Nil; reflexivity|].
  cbn [digits_from] in H. destruct (digit c) as [k|] eqn:D; [|discriminate]. destruct (IH _ _ H) as (u & ->).
  assert (C : In c ["0";"1";"2";"3";"4";"5";"6";"7";"8";"9"]%char).
  { destruct c as [[] [] [] [] [] [] [] []]; try discriminate D; cbn; tauto. }
  cbn in C. decompose [or] C; try tauto; subst c.
  - exists (Decimal.D0 u). reflexivity.
  - exists (Decimal.D1 u). reflexivity.
  - exists (Decimal.D2 u). reflexivity.
  - exists (Decimal.D3 u). reflexivity.
  - exists (Decimal.D4 u). reflexivity.
  - exists (Decimal.D5 u). reflexivity.
  - exists (Decimal.D6 u). reflexivity.
  - exists (Decimal.D7 u). reflexivity.
  - exists (Decimal.D8 u). reflexivity.
  - exists (Decimal.D9 u). reflexivity.
Qed.

Lemma shortest_unique : forall s n, shortest_decimal s n -> s = decimal n.
Proof.
  intros s n (Ne & V & Z). destruct (digit_string _ _ _ V) as (u & ->). rewrite digits_uint in V. injection V as <-.
  rewrite decimal_empty. rewrite DecimalN.Unsigned.to_of. f_equal.
  destruct u as [|u|u|u|u|u|u|u|u|u|u]; try reflexivity; [contradiction Ne; reflexivity|].
  cbn in Z. specialize (Z _ eq_refl). destruct u; try discriminate Z. reflexivity.
Qed.

Lemma decimal_inj : forall n m, decimal n = decimal m -> n = m.
Proof. intros n m H. pose proof (decimal_value n) as V. rewrite H, decimal_value in V. congruence. Qed.

Lemma digit_bound : forall c k, digit c = Some k -> (k < 10)%N.
Proof.
  unfold digit. intros c k H. destruct ((48 <=? N_of_ascii c) && (N_of_ascii c <=? 57))%N eqn:B; [|discriminate].
  injection H as <-. lia.
Qed.
Lemma digits_lower : forall s v n, digits_from v s = Some n -> (v * 10 ^ N.of_nat (String.length s) <= n)%N.
Proof.
  induction s as [|c s IH]; intros v n H; cbn [digits_from String.length] in *.
  - injection H as ->. rewrite N.mul_1_r. lia.
  - destruct (digit c) as [k|]; [|discriminate]. specialize (IH _ _ H).
    rewrite Nnat.Nat2N.inj_succ, N.pow_succ_r'. nia.
Qed.
Lemma decimal_length : forall n, (n < 4294967296)%N -> String.length (decimal n) <= 10.
Proof.
  intros n H. destruct (decimal_shortest n) as (Ne & V & Z). destruct (decimal n) as [|c s] eqn:Q; [contradiction Ne; reflexivity|].
  cbn [String.length]. cbn [digits_from] in V. destruct (digit c) as [k|] eqn:D; [|discriminate].
  destruct (N.eq_dec k 0) as [->|K].
  - assert (c = "0"%char) as ->.
    { destruct c as [[] [] [] [] [] [] [] []]; try discriminate D; reflexivity. }
    rewrite (Z s eq_refl). cbn. lia.
  - pose proof (digits_lower _ _ _ V) as L.
    destruct (Nat.le_gt_cases (String.length s) 9) as [?|G]; [lia|].
    assert (10 ^ 10 <= 10 ^ N.of_nat (String.length s))%N by (apply N.pow_le_mono_r; lia).
    change (10 ^ 10)%N with 10000000000%N in *. nia.
Qed.

Definition is_digit (c : ascii) : Prop := digit c <> None.
Lemma digits_chars : forall s v n c, digits_from v s = Some n -> contains c s -> is_digit c.
Proof.
  induction s as [|x s IH]; intros v n c H C; [destruct C|]. cbn [digits_from] in H. destruct (digit x) as [k|] eqn:D; [|discriminate].
  destruct C as [<-|C]; [unfold is_digit; congruence|]. eauto.
Qed.
Lemma decimal_chars : forall n c, contains c (decimal n) -> is_digit c.
Proof. intros n c. apply (digits_chars _ 0 n). apply decimal_value. Qed.
Lemma decimal_not : forall n c, digit c = None -> ~ contains c (decimal n).
Proof. intros n c H C. exact (decimal_chars _ _ C H). Qed.

(** ** Columns *)
Section Columns.
Context {E : Type} (d : E -> string).

Lemma column_form : forall i : Core E, result_fits i -> result_column i (column_of i).
Proof.
  intros i F. unfold result_column, column_of, result_fits in *. destruct (result_of i) as [r|].
  - specialize (F r eq_refl). unfold word in F. pose proof (decimal_length r F) as L.
    unfold disp_Result, pad_right12, disp_OpId. change (disp_u32 r) with (decimal r). split.
    + rewrite !slength_app, spaces_blanks, blanks_length. cbn [String.length]. lia.
    + exists (12 - String.length ("%" ++ decimal r)). rewrite spaces_blanks, !sapp_assoc. reflexivity.
  - split; reflexivity.
Qed.

Lemma canonical_cases : forall i : Core E, canonical i \/ exists op, i = Core_OpSource op.
Proof. intros []; try (left; exact I). right. eexists. reflexivity. Qed.

(** Every instruction, canonical or not, is printed as column, name and blank-separated texts. *)
Lemma line_shape : forall i : Core E, exists ts, disp_Core d i = column_of i ++ name_of i ++ spaced ts.
Proof.
  intro i. destruct (canonical_cases i) as [C|(op & ->)].
  - eexists. apply (line_form d i C).
  - exists ([disp_SourceLanguage (OpSource_language op); disp_SourceVersion (OpSource_version op)]
      ++ match OpSource_file op with Some f => [disp_OpId f] | None => [] end
      ++ match OpSource_source op with Some s => [display_arg_String s] | None => [] end)%list.
    destruct op as [l v f s]. cbn [disp_Core]. unfold disp_OpSource, format_arg.
    destruct f; destruct s; cbn [app format_arg_Option spaced OpSource_language OpSource_version OpSource_file OpSource_source];
      rewrite ?sapp_assoc, ?sapp_nil; reflexivity.
Qed.

Lemma line_exact : forall i : Core E, canonical i -> result_fits i -> instruction_line d i (disp_Core d i).
Proof.
  intros i C F. exists (column_of i), (name_of i). split; [apply column_form; exact F|]. split; [apply name_of_some|].
  apply line_form. exact C.
Qed.

(** ** Lines *)
Lemma lines_one : forall a b, ~ contains line_feed a -> lines (a ++ nl ++ b) = a :: lines b.
Proof.
  induction a as [|c a IH]; intros b H; [reflexivity|]. cbn [append lines]. cbn [contains] in H.
  destruct (Ascii.eqb_spec c line_feed) as [->|_]; [tauto|]. rewrite IH by tauto. reflexivity.
Qed.

Definition lf_free (s : string) : Prop := ~ contains line_feed s.
Lemma lf_app : forall a b, lf_free a -> lf_free b -> lf_free (a ++ b).
Proof. unfold lf_free. intros a b A B. rewrite contains_app. tauto. Qed.
Lemma lf_decimal : forall n, lf_free (decimal n).
Proof. intro n. apply decimal_not. reflexivity. Qed.
Lemma lf_spaced : forall l, (forall t, In t l -> lf_free t) -> lf_free (spaced l).
Proof.
  induction l as [|t l IH]; intro H; [intros []|]. cbn [spaced]. apply lf_app; [vm_compute; intuition discriminate|].
  apply lf_app; [apply H; left; reflexivity|]. apply IH. intros x Hx. apply H. right. exact Hx.
Qed.

Fixpoint lf_freeb (s : string) : bool := match s with "" => true | String c s => negb (Ascii.eqb c line_feed) && lf_freeb s end.
Lemma lf_freeb_spec : forall s, lf_freeb s = true -> lf_free s.
Proof.
  induction s as [|c s IH]; cbn [lf_freeb]; intro H; [intros []|]. apply andb_prop in H. destruct H as [H1 H2].
  intros [Q|Q]; [subst c; discriminate H1|]. exact (IH H2 Q).
Qed.
Ltac lf := apply lf_freeb_spec; vm_compute; reflexivity.

Definition table_ok (t : names) : Prop := forallb (fun p => lf_freeb (snd p)) t = true.
Definition kind_ok (k : kind) : Prop := match k with Enum t | Mask t => table_ok t | _ => True end.

Lemma lookup_ok : forall t n s, table_ok t -> lookup t n = Some s -> lf_free s.
Proof.
  intros t n s T H. unfold lookup in H. destruct (find _ t) as [[k name]|] eqn:F; [|discriminate]. injection H as <-.
  apply find_some in F. destruct F as [F _]. unfold table_ok in T. rewrite forallb_forall in T. apply lf_freeb_spec. apply (T _ F).
Qed.
Lemma spelling_ok : forall s, lf_free s -> lf_free (spelling s).
Proof.
  intros s H. unfold spelling. destruct (find _ respelled) as [[k name]|] eqn:F; [|exact H].
  apply find_some in F. destruct F as [F _]. cbn in F. decompose [or] F; try tauto; match goal with Q : (_, _) = (_, _) |- _ => injection Q as <- <- end; lf.
Qed.
Lemma name_in_ok : forall t n, table_ok t -> lf_free (name_in t n).
Proof. intros t n T. unfold name_in. destruct (lookup t n) as [s|] eqn:L; [|lf]. apply spelling_ok. eapply lookup_ok; eassumption. Qed.
Lemma concat_ok : forall l, (forall s, In s l -> lf_free s) -> lf_free (String.concat " | " l).
Proof.
  induction l as [|s l IH]; intro H; [intros []|]. cbn [String.concat]. destruct l as [|s' l]; [apply H; left; reflexivity|].
  apply lf_app; [apply H; left; reflexivity|]. apply lf_app; [lf|]. apply IH. intros x Hx. apply H. right. exact Hx.
Qed.
Lemma mask_ok : forall t m, table_ok t -> lf_free (mask_text t m).
Proof.
  intros t m T. unfold mask_text.
  assert (S : forall s, In s (set_names t m) -> lf_free s).
  { intros s Hs. unfold set_names in Hs. apply in_map_iff in Hs. destruct Hs as ((k & x) & <- & Hf). apply filter_In in Hf.
    unfold table_ok in T. rewrite forallb_forall in T. apply lf_freeb_spec. exact (T _ (proj1 Hf)). }
  destruct (set_names t m) as [|a l]; [lf|]. apply concat_ok. exact S.
Qed.
Lemma lf_freeb_complete : forall s, lf_free s -> lf_freeb s = true.
Proof.
  induction s as [|c s IH]; intro H; [reflexivity|]. cbn [lf_freeb]. unfold lf_free in *. cbn [contains] in H.
  destruct (Ascii.eqb_spec c line_feed) as [->|_]; [tauto|]. cbn. apply IH. tauto.
Qed.
Lemma loop_flags_ok : forall o, table_ok (loop_flags o).
Proof.
  intros [n|]; [|reflexivity]. unfold table_ok, loop_flags. rewrite forallb_app. cbn [forallb snd andb].
  rewrite lf_freeb_complete; [reflexivity|]. apply lf_app; [lf|]. apply lf_app; [apply lf_decimal|lf].
Qed.

Ltac kinds := repeat (apply Forall_cons; [first [exact I|reflexivity]|]); apply Forall_nil.
Lemma decor_kinds : forall n, Forall kind_ok (decoration_operands_kinds n).
Proof.
  intro n. unfold decoration_operands_kinds.
  repeat match goal with |- context [match ?x with _ => _ end] => destruct x; try kinds end.
Qed.
Lemma mode_kinds : forall n, Forall kind_ok (mode_operands n).
Proof.
  intro n. unfold mode_operands.
  repeat match goal with |- context [match ?x with _ => _ end] => destruct x; try kinds end.
Qed.

Lemma render_ok : forall len os ks r, length os <= len -> Forall kind_ok ks -> match r with Some k => kind_ok k | None => True end ->
  (forall s, In (OStr s) os -> lf_free s) -> forall t, In t (render ks r os) -> lf_free t.
Proof.
  induction len as [|len IH]; intros os ks r L K R S t Ht.
  { destruct os; [destruct Ht|cbn in L; lia]. }
  destruct os as [|o os]; [destruct Ht|]. cbn [length] in L.
  cbn [render] in Ht.
  assert (S' : forall s, In (OStr s) os -> lf_free s) by (intros s Hs; apply S; right; exact Hs).
  destruct (match ks with k :: ks => Some (k, ks) | [] => match r with Some k => Some (k, []) | None => None end end) as [[k ks']|] eqn:Q;
    [|destruct Ht as [<-|[]]; lf].
  assert (K' : kind_ok k /\ Forall kind_ok ks').
  { destruct ks as [|k0 ks0]; [destruct r; [injection Q as <- <-; auto|discriminate]|]. injection Q as <- <-. inversion K; auto. }
  destruct K' as [Kk Ks].
  assert (Go : forall ks2, Forall kind_ok ks2 -> forall t, In t (render ks2 r os) -> lf_free t).
  { intros ks2 K2. apply (IH os ks2 r); [lia|assumption..]. }
  destruct k; destruct o; try (destruct Ht as [<-|[]]; lf); try (destruct Ht as [<-|Ht]; [|eapply Go; [|exact Ht]; first [exact Ks|apply Forall_app; split; [first [apply mode_kinds|apply decor_kinds]|exact Ks]]]).
  - apply lf_app; [lf|apply lf_decimal].
  - apply lf_decimal.
  - apply lf_app; [lf|]. apply lf_app; [apply S; left; reflexivity|lf].
  - apply S. left. reflexivity.
  - apply name_in_ok. exact Kk.
  - destruct (lookup source_languages n) as [s|] eqn:Lk; [eapply lookup_ok; [|exact Lk]; reflexivity|].
    apply lf_app; [lf|]. apply lf_app; [apply lf_decimal|lf].
  - apply mask_ok. exact Kk.
  - destruct os as [|[n| |] os]; (destruct Ht as [<-|Ht]; [apply mask_ok, loop_flags_ok|]); try (eapply Go; [|exact Ht]; exact Ks).
    eapply (IH os ks' r); try eassumption; [cbn [length] in L; lia|]. intros s Hs. apply S'. right. exact Hs.
  - apply name_in_ok. reflexivity.
  - apply name_in_ok. reflexivity.
Qed.

Lemma without_In : forall A (x : A) k l, In x (without k l) -> In x l.
Proof.
  intros A x k. induction k as [|k IH]; intros [|y l]; cbn; try tauto. intros [->|H]; [left; reflexivity|right; auto].
Qed.

Lemma column_lf : forall i : Core E, lf_free (column_of i).
Proof.
  intro i. unfold column_of. destruct (result_of i) as [r|]; [|lf]. unfold disp_Result, pad_right12.
  rewrite spaces_blanks. apply lf_app; [|lf]. apply lf_app; [apply contains_blanks; discriminate|].
  apply lf_app; [lf|apply lf_decimal].
Qed.
Lemma name_lf : forall i : Core E, lf_free (name_of i).
Proof. intros []; lf. Qed.

Lemma grammar_ok : forall i : Core E, Forall kind_ok (fst (grammar (opcode i))) /\ match snd (grammar (opcode i)) with Some k => kind_ok k | None => True end.
Proof. intros []; (split; [cbn [grammar opcode fst]; kinds|exact I]). Qed.

Lemma texts_lf : forall i : Core E, single_line d i -> forall t, In t (operand_texts d i) -> lf_free t.
Proof.
  intros i [S X] t Ht. unfold operand_texts in Ht. destruct (grammar_ok i) as [K R].
  destruct (grammar (opcode i)) as [ks r]. cbn [fst snd] in K, R. apply in_app_or in Ht. destruct Ht as [Ht|Ht].
  - eapply (render_ok (length (other_operands i))); try eassumption; [lia|]. intros s Hs. apply S. unfold strings_of.
    apply in_flat_map. exists (OStr s). split; [|left; reflexivity]. unfold other_operands in Hs.
    destruct (result_position (opcode i)); [eapply without_In; exact Hs|exact Hs].
  - destruct i; try solve [destruct Ht]. destruct Ht as [<-|[]]. exact X.
Qed.

Lemma line_lf : forall i : Core E, single_line d i -> lf_free (disp_Core d i).
Proof.
  intros i S. destruct (canonical_cases i) as [C|(op & ->)].
  - rewrite (line_form d i C). apply lf_app; [apply column_lf|]. apply lf_app; [apply name_lf|]. apply lf_spaced. apply texts_lf. exact S.
  - destruct op as [l v f s]. destruct S as [S _]. unfold strings_of in S. cbn [operands] in S. cbn [disp_Core].
    unfold disp_OpSource, format_arg. cbn [OpSource_language OpSource_version OpSource_file OpSource_source].
    repeat (apply lf_app; [lf|]). apply lf_app.
    { apply lf_app; [lf|]. destruct l; try lf. apply lf_app; [lf|]. apply lf_app; [apply lf_decimal|lf]. }
    apply lf_app; [apply lf_app; [lf|apply lf_decimal]|]. apply lf_app.
    + destruct f; [|lf]. cbn [format_arg_Option]. apply lf_app; [lf|]. apply lf_app; [lf|apply lf_decimal].
    + destruct s as [s|]; [|lf]. cbn [format_arg_Option]. apply lf_app; [lf|]. apply lf_app; [lf|].
      apply lf_app; [|lf]. apply S. apply in_flat_map. exists (OStr s). split; [|left; reflexivity].
      rewrite !in_app_iff. right. right. right. left. reflexivity.
Qed.

Lemma instructions_lines : forall l, (forall i, In i l -> single_line d i) -> lines (disp_instructions d l) = map (disp_Core d) l.
Proof.
  induction l as [|i l IH]; intro H; [reflexivity|]. cbn [disp_instructions map].
  rewrite lines_one by (apply line_lf; apply H; left; reflexivity). rewrite IH; [reflexivity|].
  intros x Hx. apply H. right. exact Hx.
Qed.

Lemma generator_ok : forall g, generator_name g = generator_text (Generator_tool g).
Proof. intros [[] ?]; reflexivity. Qed.

Lemma module_lines : forall m : RawModule E, (forall i, In i (RawModule_instructions m) -> single_line d i) ->
  lines (disp_RawModule d m) = (header_lines m ++ map (disp_Core d) (RawModule_instructions m))%list.
Proof.
  intros m H. unfold disp_RawModule, header_lines. cbn [app]. rewrite generator_ok.
  rewrite lines_one by lf. f_equal.
  assert (R : forall a b c e, a ++ b ++ c ++ e ++ nl = (a ++ b ++ c ++ e) ++ nl) by (intros; rewrite !sapp_assoc; reflexivity).
  assert (G : forall a b c e f, lf_free (a ++ b ++ c ++ e) -> lines (a ++ b ++ c ++ e ++ nl ++ f) = (a ++ b ++ c ++ e) :: lines f).
  { intros a b c e f L. rewrite <- lines_one by exact L. rewrite !sapp_assoc. reflexivity. }
  assert (G2 : forall a b f, lf_free (a ++ b) -> lines (a ++ b ++ nl ++ f) = (a ++ b) :: lines f).
  { intros a b f L. rewrite <- lines_one by exact L. rewrite !sapp_assoc. reflexivity. }
  rewrite G by (repeat apply lf_app; first [apply lf_decimal|lf]). f_equal.
  rewrite G by (repeat apply lf_app; first [apply lf_decimal|lf|destruct (Generator_tool (RawModule_generator m)); lf]). f_equal.
  rewrite G2 by (repeat apply lf_app; first [apply lf_decimal|lf]). f_equal.
  rewrite lines_one by lf. f_equal. apply instructions_lines. exact H.
Qed.

End Columns.
