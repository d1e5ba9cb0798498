(** Operand readers against the wire format. *)
From Coq Require Import ZArith ZifyBool ZifyNat ZifyN.
From Verif Require Import Base Types Ops ReadErr Utf8 ReadBase ReadOperands Spec_Wire Proofs_Utf8.
Local Open Scope N_scope.
Ltac Zify.zify_post_hook ::= Z.div_mod_to_equations.

(** ** Sequencing *)

Lemma bind_ok : forall {E A B} (x : outcome E A) (k : A -> outcome E B) b,
  bind x k = Ok b -> exists a, x = Ok a /\ k a = Ok b.
Proof. intros E A B [a|e| |] k b H; cbn in H; try discriminate. exists a; split; [reflexivity|exact H]. Qed.

Lemma wire_operands_app : forall o1 o2 ws,
  wire_operands (o1 ++ o2) ws <-> exists w1 w2, ws = w1 ++ w2 /\ wire_operands o1 w1 /\ wire_operands o2 w2.
Proof.
  induction o1 as [|o o1 IH]; intros o2 ws; cbn [app wire_operands].
  - split; [intro H; exists [], ws; auto | intros (w1 & w2 & -> & -> & H); exact H].
  - split.
    + intros (w1 & w2 & -> & Ho & H). apply IH in H. destruct H as (w3 & w4 & -> & H3 & H4).
      exists (w1 ++ w3), w4. rewrite app_assoc. split; [reflexivity|]. split; [|exact H4].
      exists w1, w3. auto.
    + intros (w1 & w2 & -> & (w3 & w4 & -> & Ho & H1) & H2). exists w3, (w4 ++ w2).
      rewrite app_assoc. split; [reflexivity|]. split; [exact Ho|]. apply IH. exists w4, w2. auto.
Qed.

Lemma wire_app_intro : forall o1 o2 w1 w2,
  wire_operands o1 w1 -> wire_operands o2 w2 -> wire_operands (o1 ++ o2) (w1 ++ w2).
Proof. intros. apply wire_operands_app. eauto. Qed.

Lemma wire_num : forall n ws, wire_operands (num n) ws <-> ws = [n].
Proof.
  intros n ws. cbn. split.
  - intros (w1 & w2 & -> & -> & ->). reflexivity.
  - intros ->. exists [n], []. auto.
Qed.

Lemma wire_one : forall o ws, wire_operands [o] ws <-> wire_operand o ws.
Proof.
  intros o ws. cbn. split.
  - intros (w1 & w2 & -> & H & ->). rewrite app_nil_r. exact H.
  - intro H. exists ws, []. rewrite app_nil_r. auto.
Qed.

(** ** Readers that consume a determined number of words *)

(** [R] reads exactly the wire forms given by [ops] of the values satisfying [wf]; a cut off
    wire form gives UnexpectedEndOfInstruction; it always returns. *)
Class Good {A} (R : Reader A) (wf : A -> Prop) (ops : A -> list operand) : Prop := {
  good_sound : forall ws rest a, Forall word ws -> R ws = Ok (rest, a) ->
    exists pre, ws = pre ++ rest /\ wf a /\ wire_operands (ops a) pre;
  good_complete : forall a pre rest, Forall word pre -> wf a -> wire_operands (ops a) pre ->
    R (pre ++ rest) = Ok (rest, a);
  good_short : forall a p1 p2, Forall word (p1 ++ p2) -> wf a -> wire_operands (ops a) (p1 ++ p2) -> p2 <> [] ->
    R p1 = Err UnexpectedEndOfInstruction;
  good_total : forall ws, match R ws with Ok _ | Err _ => True | _ => False end
}.

Definition any {A} (a : A) : Prop := True.

Lemma single_short : forall {A} (n : N) (p1 p2 : list N) (P : A -> Prop),
  p1 ++ p2 = [n] -> p2 <> [] -> p1 = [].
Proof.
  intros A n [|x p1] p2 P H Hne; [reflexivity|]. injection H as -> H.
  apply app_eq_nil in H. destruct H; contradiction.
Qed.

(** A reader decided by one word. *)
Lemma good_word : forall {A} (R : Reader A) (wf : A -> Prop) (number : A -> N),
  R [] = Err UnexpectedEndOfInstruction ->
  (forall w rest, (exists a, R (w :: rest) = Ok (rest, a) /\ number a = w /\ wf a) \/ (exists e, R (w :: rest) = Err e)) ->
  (forall a rest, wf a -> R (number a :: rest) = Ok (rest, a)) ->
  Good R wf (fun a => num (number a)).
Proof.
  intros A R wf number Hnil Hs Hc. split.
  - intros ws rest a Hw H. destruct ws as [|w ws]; [rewrite Hnil in H; discriminate|].
    destruct (Hs w ws) as [(a' & H' & Hn & Hwf)|(e & H')]; rewrite H' in H; [|discriminate].
    injection H as -> ->. exists [w]. split; [reflexivity|]. split; [exact Hwf|].
    apply wire_num. rewrite Hn. reflexivity.
  - intros a pre rest Hw Hwf H. apply wire_num in H. subst pre. apply Hc. exact Hwf.
  - intros a p1 p2 Hw Hwf H Hne. apply wire_num in H.
    assert (p1 = []) as -> by (eapply (single_short (number a) p1 p2 (fun _ : A => True)); eauto). exact Hnil.
  - intros [|w ws]; [rewrite Hnil; exact I|].
    destruct (Hs w ws) as [(a & -> & _)|(e & ->)]; exact I.
Qed.

#[export] Instance good_read_word : Good read_word any (fun n => num n).
Proof.
  apply (good_word read_word any (fun n => n)); [reflexivity| |reflexivity].
  intros w rest. left. exists w. repeat split.
Qed.
#[export] Instance good_read_u32 : Good read_u32 any (fun n => num n) := good_read_word.
#[export] Instance good_read_OpId : Good read_OpId any (fun n => num n).
Proof.
  apply (good_word read_OpId any (fun n => n)); [reflexivity| |reflexivity].
  intros w rest. left. exists w. repeat split.
Qed.
#[export] Instance good_read_ResultId : Good read_ResultId any (fun n => num n).
Proof. exact good_read_OpId. Qed.
#[export] Instance good_read_SourceVersion : Good read_SourceVersion any (fun n => num n).
Proof. exact good_read_OpId. Qed.
#[export] Instance good_read_MemberIndex : Good read_MemberIndex any (fun n => num n).
Proof. exact good_read_OpId. Qed.

(** Enumerants *)
Ltac split_word :=
  repeat match goal with
  | |- context [match ?x with _ => _ end] => is_var x; destruct x
  end.
Ltac enum R :=
  apply (good_word R any);
  [ reflexivity
  | intros w rest; unfold R; cbn [read_word bind]; split_word;
    solve [ left; eexists; split; [reflexivity|]; split; [reflexivity|exact I]
          | right; eexists; reflexivity ]
  | intros a rest _; destruct a; reflexivity ].

#[export] Instance good_AddressingModel : Good read_AddressingModel any (fun a => num (addressing_model_number a)).
Proof. enum read_AddressingModel. Qed.
#[export] Instance good_MemoryModel : Good read_MemoryModel any (fun a => num (memory_model_number a)).
Proof. enum read_MemoryModel. Qed.
#[export] Instance good_ExecutionModel : Good read_ExecutionModel any (fun a => num (execution_model_number a)).
Proof. enum read_ExecutionModel. Qed.
#[export] Instance good_Capability : Good read_Capability any (fun a => num (capability_number a)).
Proof. enum read_Capability. Qed.
#[export] Instance good_Signedness : Good read_Signedness any (fun a => num (signedness_number a)).
Proof. enum read_Signedness. Qed.
#[export] Instance good_Dim : Good read_Dim any (fun a => num (dim_number a)).
Proof. enum read_Dim. Qed.
#[export] Instance good_DepthStatus : Good read_DepthStatus any (fun a => num (depth_number a)).
Proof. enum read_DepthStatus. Qed.
#[export] Instance good_Arrayed : Good read_Arrayed any (fun a => num (arrayed_number a)).
Proof. enum read_Arrayed. Qed.
#[export] Instance good_MS : Good read_MS any (fun a => num (ms_number a)).
Proof. enum read_MS. Qed.
#[export] Instance good_SampledStatus : Good read_SampledStatus any (fun a => num (sampled_number a)).
Proof. enum read_SampledStatus. Qed.
#[export] Instance good_ImageFormat : Good read_ImageFormat any (fun a => num (image_format_number a)).
Proof. enum read_ImageFormat. Qed.
#[export] Instance good_AccessQualifier : Good read_AccessQualifier any (fun a => num (access_qualifier_number a)).
Proof. enum read_AccessQualifier. Qed.
#[export] Instance good_StorageClass : Good read_StorageClass any (fun a => num (storage_class_number a)).
Proof. enum read_StorageClass. Qed.
#[export] Instance good_BuiltIn : Good read_BuiltIn any (fun a => num (built_in_number a)).
Proof. enum read_BuiltIn. Qed.
#[export] Instance good_FunctionParameterAttribute :
  Good read_FunctionParameterAttribute any (fun a => num (function_parameter_attribute_number a)).
Proof. enum read_FunctionParameterAttribute. Qed.
#[export] Instance good_FpRoundingMode : Good read_FpRoundingMode any (fun a => num (fp_rounding_mode_number a)).
Proof. enum read_FpRoundingMode. Qed.
#[export] Instance good_LinkageType : Good read_LinkageType any (fun a => num (linkage_type_number a)).
Proof. enum read_LinkageType. Qed.

Definition language_ok (l : SourceLanguage) : Prop :=
  match l with SourceLanguage_Other n => 5 <= n | _ => True end.

#[export] Instance good_SourceLanguage : Good read_SourceLanguage language_ok (fun a => num (source_language_number a)).
Proof.
  apply (good_word read_SourceLanguage language_ok); [reflexivity| |].
  - intros w rest. left. unfold read_SourceLanguage. cbn [read_word bind].
    split_word; eexists; (split; [reflexivity|split; [reflexivity|cbn; try exact I; lia]]).
  - intros a rest Ha. destruct a; try reflexivity. cbn in Ha.
    unfold read_SourceLanguage. cbn [read_word bind source_language_number].
    split_word; try reflexivity; lia.
Qed.

(** ** Strings *)

Lemma chars_of_word_spec : forall w, word w ->
  chars_of_word w = [w mod 256; w / 256 mod 256; w / 65536 mod 256; w / 16777216].
Proof.
  unfold word, chars_of_word, as_u8. intros w Hw.
  change 0xFF with (N.ones 8).
  rewrite !N.land_ones, !N.shiftr_div_pow2.
  change (2 ^ 8) with 256. change (2 ^ 16) with 65536. change (2 ^ 24) with 16777216.
  rewrite !N.mod_mod by lia.
  rewrite (N.mod_small (w / 16777216) 256) by lia. reflexivity.
Qed.

Lemma word_bytes_app : forall a b, word_bytes (a ++ b) = word_bytes a ++ word_bytes b.
Proof. induction a as [|w a IH]; intro b; cbn [word_bytes app]; [reflexivity|]. rewrite IH. reflexivity. Qed.

Lemma word_bytes_length : forall a, List.length (word_bytes a) = (4 * List.length a)%nat.
Proof. induction a as [|w a IH]; cbn [word_bytes List.length]; [reflexivity|]. rewrite IH. lia. Qed.

Lemma word_bytes_small : forall a, Forall word a -> Forall (fun b => b < 256) (word_bytes a).
Proof.
  unfold word. induction 1 as [|w a Hw Ha IH]; cbn [word_bytes]; [constructor|].
  repeat (apply Forall_cons; [lia|]). exact IH.
Qed.

Lemma word_bytes_inj : forall a b, word_bytes a = word_bytes b -> a = b.
Proof.
  induction a as [|w a IH]; intros [|v b] H; cbn [word_bytes] in H; try discriminate; [reflexivity|].
  injection H as H0 H1 H2 H3 H. f_equal; [|apply IH; exact H]. lia.
Qed.

(* push_chars stops at the first zero *)
Lemma push_chars_spec : forall chars bytes,
  (exists bs pad, chars = bs ++ 0 :: pad /\ ~ In 0 bs /\ push_chars chars bytes = (true, bytes ++ bs))
  \/ (~ In 0 chars /\ push_chars chars bytes = (false, bytes ++ chars)).
Proof.
  induction chars as [|c chars IH]; intro bytes; cbn [push_chars].
  - right. rewrite app_nil_r. split; [intros []|reflexivity].
  - destruct (N.eqb_spec c 0) as [->|Hc].
    + left. exists [], chars. rewrite app_nil_r. repeat split. intros [].
    + destruct (IH (bytes ++ [c])) as [(bs & pad & -> & Hn & ->)|(Hn & ->)].
      * left. exists (c :: bs), pad. rewrite <- app_assoc. repeat split. intros [H|H]; [congruence|auto].
      * right. rewrite <- app_assoc. split; [intros [H|H]; [congruence|auto]|reflexivity].
Qed.

Lemma zero_split_unique : forall (b1 b2 p1 p2 : list N),
  ~ In 0 b1 -> ~ In 0 b2 -> b1 ++ 0 :: p1 = b2 ++ 0 :: p2 -> b1 = b2 /\ p1 = p2.
Proof.
  induction b1 as [|x b1 IH]; intros [|y b2] p1 p2 H1 H2 H; cbn in H.
  - injection H as ->. auto.
  - injection H as <- _. exfalso. apply H2. left. reflexivity.
  - injection H as -> _. exfalso. apply H1. left. reflexivity.
  - injection H as <- H. destruct (IH b2 p1 p2) as [-> ->]; [| |exact H|auto].
    + intro; apply H1; right; assumption.
    + intro; apply H2; right; assumption.
Qed.

Lemma push_chars_zero : forall bs pad bytes, ~ In 0 bs -> push_chars (bs ++ 0 :: pad) bytes = (true, bytes ++ bs).
Proof.
  induction bs as [|c bs IH]; intros pad bytes Hn; cbn [app push_chars].
  - rewrite app_nil_r. reflexivity.
  - destruct (N.eqb_spec c 0) as [->|Hc]; [exfalso; apply Hn; left; reflexivity|].
    rewrite IH by (intro; apply Hn; right; assumption). rewrite <- app_assoc. reflexivity.
Qed.

Lemma push_chars_nozero : forall cs bytes, ~ In 0 cs -> push_chars cs bytes = (false, bytes ++ cs).
Proof.
  induction cs as [|c bs IH]; intros bytes Hn; cbn [push_chars].
  - rewrite app_nil_r. reflexivity.
  - destruct (N.eqb_spec c 0) as [->|Hc]; [exfalso; apply Hn; left; reflexivity|].
    rewrite IH by (intro; apply Hn; right; assumption). rewrite <- app_assoc. reflexivity.
Qed.

Lemma word_bytes_cons : forall w ws, word_bytes (w :: ws) =
  [w mod 256; w / 256 mod 256; w / 65536 mod 256; w / 16777216] ++ word_bytes ws.
Proof. reflexivity. Qed.

Lemma read_bytes_sound : forall ws acc rest bytes, Forall word ws ->
  read_bytes ws acc = Ok (rest, bytes) ->
  exists pre bs pad, ws = pre ++ rest /\ bytes = acc ++ bs /\ ~ In 0 bs
    /\ word_bytes pre = bs ++ 0 :: pad /\ (List.length pad < 4)%nat.
Proof.
  induction ws as [|w ws IH]; intros acc rest bytes Hw H; cbn [read_bytes] in H; [discriminate|].
  inversion Hw as [|? ? Hw1 Hw2]; subst.
  rewrite (chars_of_word_spec w Hw1) in H.
  set (cs := [w mod 256; w / 256 mod 256; w / 65536 mod 256; w / 16777216]) in *.
  destruct (push_chars_spec cs acc) as [(bs & pad & Hcs & Hn & Hp)|(Hn & Hp)]; rewrite Hp in H.
  - injection H as <- <-. exists [w], bs, pad. repeat split; try assumption.
    apply (f_equal (@List.length N)) in Hcs. rewrite app_length in Hcs. cbn in Hcs. lia.
  - apply IH in H; [|assumption]. destruct H as (pre & bs & pad & -> & -> & Hn' & Hb & Hl).
    exists (w :: pre), (cs ++ bs), pad. rewrite <- app_assoc. repeat split; try assumption.
    + intro Hin. apply in_app_or in Hin. destruct Hin; auto.
    + rewrite word_bytes_cons, Hb, <- app_assoc. reflexivity.
Qed.


(* Splitting the bytes of one word off a terminated byte sequence. *)
Lemma first_word_cases : forall (cs rest bs pad : list N),
  List.length cs = 4%nat -> cs ++ rest = bs ++ 0 :: pad ->
  (exists pad', cs = bs ++ 0 :: pad' /\ pad = pad' ++ rest)
  \/ (exists bs', bs = cs ++ bs' /\ rest = bs' ++ 0 :: pad).
Proof.
  intros cs rest bs pad Hl H.
  destruct (Nat.lt_ge_cases (List.length bs) 4) as [Hb|Hb].
  - left. assert (Hf : firstn 4 (cs ++ rest) = cs).
    { rewrite <- Hl, firstn_app, Nat.sub_diag, firstn_all. cbn. apply app_nil_r. }
    rewrite H in Hf. rewrite firstn_app in Hf.
    rewrite firstn_all2 in Hf by lia.
    remember (4 - List.length bs)%nat as k. destruct k as [|k]; [lia|]. cbn [firstn] in Hf.
    exists (firstn k pad). split; [symmetry; exact Hf|].
    rewrite <- Hf in H. rewrite <- app_assoc in H. apply app_inv_head in H. cbn in H. injection H as H.
    symmetry. exact H.
  - right. assert (Hf : firstn 4 (cs ++ rest) = cs).
    { rewrite <- Hl, firstn_app, Nat.sub_diag, firstn_all. cbn. apply app_nil_r. }
    rewrite H in Hf. rewrite firstn_app in Hf.
    replace (4 - List.length bs)%nat with 0%nat in Hf by lia. rewrite firstn_O, app_nil_r in Hf.
    exists (skipn 4 bs). split; [rewrite <- Hf; symmetry; apply firstn_skipn|].
    rewrite <- (firstn_skipn 4 bs), Hf, <- app_assoc in H. apply app_inv_head in H. exact H.
Qed.

Lemma read_bytes_complete : forall pre acc rest bs pad, Forall word pre -> ~ In 0 bs ->
  word_bytes pre = bs ++ 0 :: pad -> (List.length pad < 4)%nat ->
  read_bytes (pre ++ rest) acc = Ok (rest, acc ++ bs).
Proof.
  induction pre as [|w pre IH]; intros acc rest bs pad Hw Hn Hb Hl.
  - cbn in Hb. destruct bs; discriminate.
  - inversion Hw as [|? ? Hw1 Hw2]; subst. cbn [app read_bytes].
    rewrite (chars_of_word_spec w Hw1). rewrite word_bytes_cons in Hb.
    apply first_word_cases in Hb; [|reflexivity].
    destruct Hb as [(pad' & Hcs & ->)|(bs' & -> & Hb)].
    + rewrite Hcs, push_chars_zero by assumption.
      assert (pre = []) as ->; [|reflexivity].
      rewrite app_length, word_bytes_length in Hl. destruct pre; [reflexivity|cbn in Hl; lia].
    + rewrite push_chars_nozero by (intro; apply Hn; apply in_or_app; left; assumption).
      rewrite (IH (acc ++ _) rest bs' pad); try assumption.
      * rewrite <- app_assoc. reflexivity.
      * intro; apply Hn; apply in_or_app; right; assumption.
Qed.

Lemma read_bytes_short : forall p1 p2 acc bs pad, Forall word (p1 ++ p2) -> ~ In 0 bs ->
  word_bytes (p1 ++ p2) = bs ++ 0 :: pad -> (List.length pad < 4)%nat -> p2 <> [] ->
  read_bytes p1 acc = Err UnexpectedEndOfInstruction.
Proof.
  induction p1 as [|w p1 IH]; intros p2 acc bs pad Hw Hn Hb Hl Hne; [reflexivity|].
  cbn [app] in *. inversion Hw as [|? ? Hw1 Hw2]; subst. cbn [read_bytes].
  rewrite (chars_of_word_spec w Hw1). rewrite word_bytes_cons in Hb.
  apply first_word_cases in Hb; [|reflexivity].
  destruct Hb as [(pad' & Hcs & ->)|(bs' & -> & Hb)].
  - exfalso. rewrite app_length, word_bytes_length, app_length in Hl.
    destruct p2; [contradiction|cbn in Hl; lia].
  - rewrite push_chars_nozero by (intro; apply Hn; apply in_or_app; left; assumption).
    apply (IH p2 _ bs' pad); try assumption.
    intro; apply Hn; apply in_or_app; right; assumption.
Qed.

Lemma bytes_of_string_of_bytes : forall l, Forall (fun b => b < 256) l -> bytes_of_string (string_of_bytes l) = l.
Proof.
  intros l H. unfold bytes_of_string, string_of_bytes. rewrite list_ascii_of_string_of_list_ascii, map_map.
  induction H as [|b l Hb Hl IH]; cbn [map]; [reflexivity|]. rewrite IH, N_ascii_embedding by exact Hb. reflexivity.
Qed.

Lemma string_of_bytes_of_string : forall s, string_of_bytes (bytes_of_string s) = s.
Proof.
  intro s. unfold bytes_of_string, string_of_bytes. rewrite map_map.
  rewrite (map_ext _ (fun x => x)) by (intro; apply ascii_N_embedding).
  rewrite map_id. apply string_of_list_ascii_of_string.
Qed.

Lemma bytes_of_string_inj : forall s t, bytes_of_string s = bytes_of_string t -> s = t.
Proof. intros s t H. rewrite <- (string_of_bytes_of_string s), H. apply string_of_bytes_of_string. Qed.

#[export] Instance good_LitString : Good read_LitString any (fun s => [OStr s]).
Proof.
  split.
  - intros ws rest s Hw H. unfold read_LitString in H. apply bind_ok in H.
    destruct H as ([b bytes] & H1 & H). apply read_bytes_sound in H1; [|assumption].
    destruct H1 as (pre & bs & pad & -> & -> & Hn & Hb & Hl). cbn [app] in H.
    unfold from_utf8 in H. destruct (valid_utf8 bs) eqn:Hv; [|discriminate]. injection H as <- <-.
    assert (Hbs : bytes_of_string (string_of_bytes bs) = bs).
    { apply bytes_of_string_of_bytes. apply Forall_app in Hw. destruct Hw as [Hw _].
      apply word_bytes_small in Hw. rewrite Hb in Hw. apply Forall_app in Hw. tauto. }
    exists pre. split; [reflexivity|]. split; [exact I|]. apply wire_one. cbn [wire_operand].
    split; [|split].
    + exists pad. rewrite Hbs. auto.
    + rewrite Hbs. apply valid_utf8_iff. exact Hv.
    + rewrite Hbs. exact Hn.
  - intros s pre rest Hw _ H. apply wire_one in H. destruct H as ((pad & Hl & Hb) & Hu & Hn).
    unfold read_LitString. rewrite (read_bytes_complete pre [] rest (bytes_of_string s) pad) by assumption.
    cbn [bind app]. unfold from_utf8. apply valid_utf8_iff in Hu. rewrite Hu.
    rewrite string_of_bytes_of_string. reflexivity.
  - intros s p1 p2 Hw _ H Hne. apply wire_one in H. destruct H as ((pad & Hl & Hb) & Hu & Hn).
    unfold read_LitString. rewrite (read_bytes_short p1 p2 [] (bytes_of_string s) pad) by assumption. reflexivity.
  - intros ws. unfold read_LitString.
    assert (Ht : forall acc, match read_bytes ws acc with Ok _ | Err _ => True | _ => False end).
    { induction ws as [|w ws IH]; intro acc; cbn [read_bytes]; [exact I|].
      destruct (push_chars _ acc) as [[|] bytes]; [exact I|apply IH]. }
    specialize (Ht []). destruct (read_bytes ws []) as [[b bs]|e| |]; cbn [bind]; try exact Ht; try exact I.
    destruct (from_utf8 bs); exact I.
Qed.

(** ** Tactics for sequences of readers *)

Lemma good_err : forall {A} {R : Reader A} {wf ops}, Good R wf ops ->
  forall ws, match R ws with Ok _ | Err _ => True | _ => False end.
Proof. intros A R wf ops H. apply (good_total (Good := H)). Qed.

Lemma split_short : forall (w1 w2 p1 p2 : list N), w1 ++ w2 = p1 ++ p2 ->
  (exists q, p1 = w1 ++ q /\ w2 = q ++ p2) \/ (exists q, w1 = p1 ++ q /\ q <> [] /\ p2 = q ++ w2).
Proof.
  induction w1 as [|x w1 IH]; intros w2 p1 p2 H; cbn in H.
  - left. exists p1. auto.
  - destruct p1 as [|y p1]; cbn in H.
    + right. exists (x :: w1). repeat split; [discriminate|]. symmetry. exact H.
    + injection H as -> H. apply IH in H. destruct H as [(q & -> & ->)|(q & -> & Hq & ->)].
      * left. exists q. auto.
      * right. exists q. auto.
Qed.

(** ** Flags *)

Lemma ldiff_keep : forall w ign keep, word w ->
  N.lor ign keep = N.ones 32 -> N.land ign keep = 0 -> N.ldiff w ign = N.land w keep.
Proof.
  intros w ign keep Hw Hor Hand. apply N.bits_inj. intro i. rewrite N.ldiff_spec, N.land_spec.
  destruct (N.lt_ge_cases i 32) as [Hi|Hi].
  - assert (H1 := f_equal (fun x => N.testbit x i) Hor). cbn beta in H1.
    rewrite N.lor_spec, N.ones_spec_low in H1 by exact Hi.
    assert (H2 := f_equal (fun x => N.testbit x i) Hand). cbn beta in H2.
    rewrite N.land_spec, N.bits_0 in H2.
    destruct (N.testbit w i), (N.testbit ign i), (N.testbit keep i); cbn in *; congruence.
  - assert (N.testbit w i = false) as ->; [|reflexivity].
    rewrite <- (N.mod_small w (2 ^ 32)) by exact Hw. apply N.mod_pow2_bits_high. exact Hi.
Qed.

Lemma land_sub : forall w m k, N.land m k = k -> N.land w k = N.land (N.land w m) k.
Proof. intros w m k H. rewrite <- N.land_assoc, H. reflexivity. Qed.

(* keep = check + low bits *)
Lemma land_low : forall w keep check low, N.lor check low = keep -> N.land w check = 0 ->
  N.land w keep = N.land w low.
Proof. intros w keep check low <- H. rewrite N.land_lor_distr_r, H. apply N.lor_0_l. Qed.

Lemma nonzero_false : forall n, nonzero n = false -> n = 0.
Proof. intros n. unfold nonzero. destruct (N.eqb_spec n 0); [auto|discriminate]. Qed.

Lemma wire_flags : forall v ign ws, wire_operands [OFlags v ign] ws <-> exists w, ws = [w] /\ N.ldiff w ign = v.
Proof. intros. apply wire_one. Qed.

Ltac masks m :=
  repeat match goal with
  | |- context [N.land ?w ?k] =>
      lazymatch w with N.land _ _ => fail | _ => idtac end;
      lazymatch k with m => fail | _ => rewrite (land_sub w m k eq_refl) end
  end.

Lemma good_flags : forall {A} (R : Reader A) (bits : A -> N) (ign : N),
  R [] = Err UnexpectedEndOfInstruction ->
  (forall w rest, word w -> (exists a, R (w :: rest) = Ok (rest, a) /\ N.ldiff w ign = bits a) \/ (exists e, R (w :: rest) = Err e)) ->
  (forall w rest, match R (w :: rest) with Ok _ | Err _ => True | _ => False end) ->
  (forall a w rest, word w -> N.ldiff w ign = bits a -> R (w :: rest) = Ok (rest, a)) ->
  Good R any (fun a => [OFlags (bits a) ign]).
Proof.
  intros A R bits ign Hnil Hs Ht Hc. split.
  - intros ws rest a Hw H. destruct ws as [|w ws]; [rewrite Hnil in H; discriminate|].
    inversion Hw; subst.
    destruct (Hs w ws) as [(a' & H' & Hn)|(e & H')]; [assumption| |]; rewrite H' in H; [|discriminate].
    injection H as -> ->. exists [w]. split; [reflexivity|]. split; [exact I|].
    apply wire_flags. exists w. auto.
  - intros a pre rest Hw _ H. apply wire_flags in H. destruct H as (w & -> & H). inversion Hw; subst.
    apply Hc; assumption.
  - intros a p1 p2 Hw _ H Hne. apply wire_flags in H. destruct H as (w & H & _).
    assert (p1 = []) as -> by (eapply (single_short w p1 p2 (fun _ : A => True)); eauto). exact Hnil.
  - intros [|w ws]; [rewrite Hnil; exact I|apply Ht].
Qed.

#[export] Instance good_FunctionControl : Good read_FunctionControl any function_control_operand.
Proof.
  apply (good_flags read_FunctionControl function_control_bits ignored_function_control); [reflexivity| | |].
  - intros w rest Hw. left. eexists. split; [reflexivity|].
    rewrite (ldiff_keep w _ 0xF Hw) by reflexivity. unfold function_control_bits. cbn [FunctionControl_inline FunctionControl_dont_inline FunctionControl_pure_function FunctionControl_const_function].
    masks 0xF.
    assert (Hv : N.land w 0xF < 16) by (change 0xF with (N.ones 4); rewrite N.land_ones; apply N.mod_lt; discriminate).
    destruct (N.land w 0xF) as [|p]; [reflexivity|].
    do 4 (destruct p as [p|p|]; try reflexivity); exfalso; lia.
  - reflexivity.
  - intros a w rest Hw H. rewrite (ldiff_keep w _ 0xF Hw) in H by reflexivity.
    unfold read_FunctionControl. cbn [read_word bind]. masks 0xF. rewrite H.
    destruct a as [[] [] [] []]; reflexivity.
Qed.

#[export] Instance good_MemoryAccess : Good read_MemoryAccess any memory_access_operand.
Proof.
  apply (good_flags read_MemoryAccess memory_access_bits ignored_high); [reflexivity| | |].
  - intros w rest Hw. unfold read_MemoryAccess. cbn [read_word bind].
    destruct (nonzero (N.land w 0xFFF8)) eqn:Hz; [right; eexists; reflexivity|]. apply nonzero_false in Hz.
    left. eexists. split; [reflexivity|].
    rewrite (ldiff_keep w _ 0xFFFF Hw) by reflexivity. rewrite (land_low w _ 0xFFF8 7) by (reflexivity || exact Hz).
    unfold memory_access_bits. cbn [MemoryAccess_volatile MemoryAccess_aligned MemoryAccess_non_temporal].
    masks 7.
    assert (Hv : N.land w 7 < 8) by (change 7 with (N.ones 3); rewrite N.land_ones; apply N.mod_lt; discriminate).
    destruct (N.land w 7) as [|p]; [reflexivity|].
    do 3 (destruct p as [p|p|]; try reflexivity); exfalso; lia.
  - intros w rest. unfold read_MemoryAccess. cbn [read_word bind]. destruct (nonzero _); exact I.
  - intros a w rest Hw H. rewrite (ldiff_keep w _ 0xFFFF Hw) in H by reflexivity.
    unfold read_MemoryAccess. cbn [read_word bind]. masks 0xFFFF. rewrite H.
    destruct a as [[] [] []]; reflexivity.
Qed.

#[export] Instance good_FpFastMathMode :
  Good read_FpFastMathMode any (fun m => [OFlags (fp_fast_math_bits m) ignored_fast_math]).
Proof.
  apply (good_flags read_FpFastMathMode fp_fast_math_bits ignored_fast_math); [reflexivity| | |].
  - intros w rest Hw. unfold read_FpFastMathMode. cbn [read_word bind].
    destruct (nonzero (N.land w 0xFFC0)) eqn:Hz; [right; eexists; reflexivity|]. apply nonzero_false in Hz.
    left. eexists. split; [reflexivity|].
    rewrite (ldiff_keep w _ 0xFFDF Hw) by reflexivity. rewrite (land_low w _ 0xFFC0 0x1F) by (reflexivity || exact Hz).
    unfold fp_fast_math_bits. cbn [FpFastMathMode_not_nan FpFastMathMode_not_inf FpFastMathMode_nsz FpFastMathMode_allow_recip FpFastMathMode_fast].
    masks 0x1F.
    assert (Hv : N.land w 0x1F < 32) by (change 0x1F with (N.ones 5); rewrite N.land_ones; apply N.mod_lt; discriminate).
    destruct (N.land w 0x1F) as [|p]; [reflexivity|].
    do 5 (destruct p as [p|p|]; try reflexivity); exfalso; lia.
  - intros w rest. unfold read_FpFastMathMode. cbn [read_word bind]. destruct (nonzero _); exact I.
  - intros a w rest Hw H. rewrite (ldiff_keep w _ 0xFFDF Hw) in H by reflexivity.
    unfold read_FpFastMathMode. cbn [read_word bind]. masks 0xFFDF. rewrite H.
    destruct a as [[] [] [] [] []]; reflexivity.
Qed.

#[export] Instance good_SelectionControl : Good read_SelectionControl any selection_control_operand.
Proof.
  apply (good_flags read_SelectionControl selection_control_bits ignored_high); [reflexivity| | |].
  - intros w rest Hw. unfold read_SelectionControl. cbn [read_word bind].
    destruct (nonzero (N.land w 0xFFFC)) eqn:Hz; [right; eexists; reflexivity|]. apply nonzero_false in Hz.
    left. eexists. split; [reflexivity|].
    rewrite (ldiff_keep w _ 0xFFFF Hw) by reflexivity. rewrite (land_low w _ 0xFFFC 3) by (reflexivity || exact Hz).
    unfold selection_control_bits. cbn [SelectionControl_flatten SelectionControl_dont_flatten].
    masks 3.
    assert (Hv : N.land w 3 < 4) by (change 3 with (N.ones 2); rewrite N.land_ones; apply N.mod_lt; discriminate).
    destruct (N.land w 3) as [|p]; [reflexivity|].
    do 2 (destruct p as [p|p|]; try reflexivity); exfalso; lia.
  - intros w rest. unfold read_SelectionControl. cbn [read_word bind]. destruct (nonzero _); exact I.
  - intros a w rest Hw H. rewrite (ldiff_keep w _ 0xFFFF Hw) in H by reflexivity.
    unfold read_SelectionControl. cbn [read_word bind]. masks 0xFFFF. rewrite H.
    destruct a as [[] []]; reflexivity.
Qed.

(* The loop control word decodes the low four bits; bit 3 announces the length *)
Lemma loop_control_word : forall w, word w -> N.land w 0xFFF0 = 0 -> forall len,
  (len = None <-> nonzero (N.land w 8) = false) ->
  N.ldiff w ignored_high = loop_control_bits (Build_LoopControl (nonzero (N.land w 1)) (nonzero (N.land w 2)) (nonzero (N.land w 4)) len).
Proof.
  intros w Hw Hz len Hlen.
  rewrite (ldiff_keep w _ 0xFFFF Hw) by reflexivity. rewrite (land_low w _ 0xFFF0 0xF) by (reflexivity || exact Hz).
  unfold loop_control_bits. cbn [LoopControl_unroll LoopControl_dont_unroll LoopControl_dependency_infinite LoopControl_dependency_length].
  replace (match len with Some _ => 8 | None => 0 end) with (bit (nonzero (N.land w 8)) 8).
  2:{ destruct len, (nonzero (N.land w 8)); try reflexivity.
      - exfalso. assert (Some n = None) by (apply Hlen; reflexivity). discriminate.
      - exfalso. assert (true = false) by (apply Hlen; reflexivity). discriminate. }
  masks 0xF.
  assert (Hv : N.land w 0xF < 16) by (change 0xF with (N.ones 4); rewrite N.land_ones; apply N.mod_lt; discriminate).
  destruct (N.land w 0xF) as [|p]; [reflexivity|].
  do 4 (destruct p as [p|p|]; try reflexivity); exfalso; lia.
Qed.

Lemma wire_loop_control : forall a ws, wire_operands (loop_control_operands a) ws <->
  exists w, N.ldiff w ignored_high = loop_control_bits a
    /\ ws = w :: match LoopControl_dependency_length a with Some n => [n] | None => [] end.
Proof.
  intros a ws. unfold loop_control_operands.
  change (OFlags (loop_control_bits a) ignored_high :: opt num (LoopControl_dependency_length a))
    with ([OFlags (loop_control_bits a) ignored_high] ++ opt num (LoopControl_dependency_length a)).
  rewrite wire_operands_app. split.
  - intros (w1 & w2 & -> & H1 & H2). apply wire_flags in H1. destruct H1 as (w & -> & H1). exists w.
    split; [exact H1|]. destruct (LoopControl_dependency_length a); cbn [opt] in H2.
    + apply wire_num in H2. subst. reflexivity.
    + cbn in H2. subst. reflexivity.
  - intros (w & H1 & ->). exists [w], (match LoopControl_dependency_length a with Some n => [n] | None => [] end).
    split; [reflexivity|]. split; [apply wire_flags; eauto|].
    destruct (LoopControl_dependency_length a); cbn [opt]; [apply wire_num; reflexivity|reflexivity].
Qed.

Lemma loop_control_read : forall w ws a, word w -> N.ldiff w ignored_high = loop_control_bits a ->
  read_LoopControl (w :: ws) =
  match LoopControl_dependency_length a with
  | None => Ok (ws, a)
  | Some _ => match ws with
              | [] => Err UnexpectedEndOfInstruction
              | n :: ws => Ok (ws, Build_LoopControl (LoopControl_unroll a) (LoopControl_dont_unroll a) (LoopControl_dependency_infinite a) (Some n))
              end
  end.
Proof.
  intros w ws a Hw H. rewrite (ldiff_keep w _ 0xFFFF Hw) in H by reflexivity.
  unfold read_LoopControl. cbn [read_word bind]. masks 0xFFFF. rewrite H.
  destruct a as [[] [] [] [n|]]; destruct ws; reflexivity.
Qed.

#[export] Instance good_LoopControl : Good read_LoopControl any loop_control_operands.
Proof.
  split.
  - intros ws rest a Hw H. destruct ws as [|w ws]; [discriminate|]. inversion Hw as [|? ? Hw1 Hw2]; subst.
    unfold read_LoopControl in H. cbn [read_word bind] in H.
    destruct (nonzero (N.land w 0xFFF0)) eqn:Hz; [discriminate|]. apply nonzero_false in Hz.
    destruct (nonzero (N.land w 8)) eqn:H8.
    + destruct ws as [|n ws]; cbn [read_word bind] in H; [discriminate|]. injection H as <- <-.
      exists [w; n]. split; [reflexivity|]. split; [exact I|]. apply wire_loop_control. exists w.
      split; [|reflexivity]. apply loop_control_word; try assumption. rewrite H8. split; discriminate.
    + cbn [bind] in H. injection H as <- <-.
      exists [w]. split; [reflexivity|]. split; [exact I|]. apply wire_loop_control. exists w.
      split; [|reflexivity]. apply loop_control_word; try assumption. rewrite H8. split; reflexivity.
  - intros a pre rest Hw _ H. apply wire_loop_control in H. destruct H as (w & H & ->).
    cbn [app]. inversion Hw; subst. rewrite (loop_control_read w _ a) by assumption.
    destruct a as [u d i [n|]]; reflexivity.
  - intros a p1 p2 Hw _ H Hne. apply wire_loop_control in H. destruct H as (w & H & Hp).
    destruct p1 as [|x p1]; [reflexivity|]. injection Hp as -> Hp. inversion Hw; subst.
    rewrite (loop_control_read w _ a) by assumption.
    destruct (LoopControl_dependency_length a) as [n|].
    + destruct p1 as [|y p1]; [reflexivity|]. injection Hp as -> Hp. apply app_eq_nil in Hp. destruct Hp; contradiction.
    + apply app_eq_nil in Hp. destruct Hp; contradiction.
  - intros [|w ws]; [exact I|]. unfold read_LoopControl. cbn [read_word bind].
    destruct (nonzero (N.land w 0xFFF0)); [exact I|]. destruct (nonzero (N.land w 8)); [|exact I].
    destruct ws; exact I.
Qed.
