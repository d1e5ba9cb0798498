(** The canonical encoding is a wire form, and every wire form can be normalised. *)
From Coq Require Import ZArith ZifyBool ZifyNat ZifyN.
From Verif Require Import Base Types Ops ReadErr Utf8 ReadBase ReadOperands ExtSet ReadOps Reader Spec_Wire
  Proofs_Operands Proofs_Composite Proofs_Ops Proofs_Instr Proofs_Stream.
Local Open Scope N_scope.
Ltac Zify.zify_post_hook ::= Z.div_mod_to_equations.

(** ** Strings *)

Lemma pack_spec : forall n bytes, (List.length bytes <= n)%nat -> Forall (fun b => b < 256) bytes ->
  Forall word (pack bytes)
  /\ exists k, (k < 4)%nat /\ word_bytes (pack bytes) = bytes ++ repeat 0 k.
Proof.
  unfold word. induction n as [|n IH]; intros bytes Hn Hb.
  - destruct bytes; [|cbn in Hn; lia]. split; [constructor|]. exists 0%nat. split; [lia|reflexivity].
  - destruct bytes as [|a [|b [|c [|d bytes]]]].
    + split; [constructor|]. exists 0%nat. split; [lia|reflexivity].
    + inversion Hb; subst. split; [repeat constructor; lia|]. exists 3%nat. split; [lia|].
      cbn [pack word_bytes app repeat]. repeat (f_equal; try lia).
    + inversion Hb as [|? ? ? Hb1]; subst. inversion Hb1; subst. split; [repeat constructor; lia|]. exists 2%nat. split; [lia|].
      cbn [pack word_bytes app repeat]. repeat (f_equal; try lia).
    + inversion Hb as [|? ? ? Hb1]; subst. inversion Hb1 as [|? ? ? Hb2]; subst. inversion Hb2; subst.
      split; [repeat constructor; lia|]. exists 1%nat. split; [lia|].
      cbn [pack word_bytes app repeat]. repeat (f_equal; try lia).
    + inversion Hb as [|? ? ? Hb1]; subst. inversion Hb1 as [|? ? ? Hb2]; subst. inversion Hb2 as [|? ? ? Hb3]; subst.
      inversion Hb3; subst. cbn [List.length] in Hn.
      destruct (IH bytes ltac:(lia) ltac:(assumption)) as (W1 & k & Hk & W2).
      split; [cbn [pack]; constructor; [lia|exact W1]|]. exists k. split; [exact Hk|].
      cbn [pack word_bytes app]. rewrite W2. f_equal; [lia|]. f_equal; [lia|]. f_equal; [lia|]. f_equal; lia.
Qed.

Lemma string_bytes_small : forall s, Forall (fun b => b < 256) (bytes_of_string s).
Proof.
  intro s. unfold bytes_of_string. apply Forall_map. apply Forall_forall. intros a _. apply N_ascii_bounded.
Qed.

Lemma encode_string_wire : forall s, wire_string s (encode_string s) /\ Forall word (encode_string s).
Proof.
  intro s. unfold encode_string, wire_string.
  destruct (pack_spec _ (bytes_of_string s ++ [0]) (le_n _)) as (H1 & k & Hk & H2).
  { apply Forall_app. split; [apply string_bytes_small|]. constructor; [reflexivity|constructor]. }
  split; [|exact H1]. exists (repeat 0 k). rewrite repeat_length. split; [exact Hk|].
  rewrite H2, <- app_assoc. reflexivity.
Qed.

Lemma wire_string_length : forall s ws ws', wire_string s ws -> wire_string s ws' -> List.length ws = List.length ws'.
Proof.
  intros s ws ws' (p & Hp & H) (p' & Hp' & H').
  apply (f_equal (@List.length N)) in H, H'. rewrite word_bytes_length, app_length in H, H'. cbn [List.length] in H, H'. lia.
Qed.

(** ** Operands *)

Definition flags_ok (o : operand) : Prop :=
  match o with OFlags v ignored => N.ldiff v ignored = v /\ word v | _ => True end.

Lemma flags_num : forall n, Forall flags_ok (num n).
Proof. intro n. repeat constructor. Qed.

Lemma flags_opt : forall {A} (f : A -> list operand) x, (forall a, Forall flags_ok (f a)) -> Forall flags_ok (opt f x).
Proof. intros A f [a|] H; [apply H|constructor]. Qed.

Lemma flags_many : forall {A} (f : A -> list operand) l, (forall a, Forall flags_ok (f a)) -> Forall flags_ok (many f l).
Proof. intros A f l H. induction l as [|a l IH]; [constructor|]. unfold many. cbn [flat_map]. apply Forall_app. auto. Qed.

Ltac flags_bits := repeat match goal with b : bool |- _ => destruct b | o : option _ |- _ => destruct o end; split; reflexivity.

Lemma flags_memory : forall x, Forall flags_ok (memory_access_operand x).
Proof. intros []. unfold memory_access_operand. constructor; [|constructor]. flags_bits. Qed.
Lemma flags_function : forall x, Forall flags_ok (function_control_operand x).
Proof. intros []. unfold function_control_operand. constructor; [|constructor]. flags_bits. Qed.
Lemma flags_selection : forall x, Forall flags_ok (selection_control_operand x).
Proof. intros []. unfold selection_control_operand. constructor; [|constructor]. flags_bits. Qed.
Lemma flags_loop : forall x, Forall flags_ok (loop_control_operands x).
Proof.
  intros x. unfold loop_control_operands. constructor; [|apply flags_opt, flags_num]. destruct x. flags_bits.
Qed.
Lemma flags_mode : forall x, Forall flags_ok (execution_mode_operands x).
Proof. intros []; repeat constructor. Qed.
Lemma flags_decoration : forall x, Forall flags_ok (decoration_operands x).
Proof.
  intros []; try (repeat constructor; fail). unfold decoration_operands. constructor; [exact I|]. constructor; [|constructor].
  match goal with m : FpFastMathMode |- _ => destruct m end. flags_bits.
Qed.

Lemma operands_flags : forall {E} (i : Core E), Forall flags_ok (operands i).
Proof.
  intros E i. destruct i; match goal with o : _ |- _ => destruct o end; cbn [operands]; unfold unary, binary;
  repeat first
    [ apply Forall_app; split
    | apply flags_num | apply flags_memory | apply flags_function | apply flags_selection | apply flags_loop
    | apply flags_mode | apply flags_decoration
    | apply flags_opt; intros | apply flags_many; intros
    | apply Forall_nil | apply Forall_cons; [exact I|] ].
Qed.

Lemma encode_operand_wire : forall o, operand_ok o -> flags_ok o -> wire_operand o (encode_operand o) /\ Forall word (encode_operand o).
Proof.
  intros [n|s|v ig] Ho Hf; cbn [wire_operand encode_operand operand_ok flags_ok] in *.
  - repeat constructor; assumption.
  - destruct (encode_string_wire s). auto.
  - destruct Hf. split; [exists v; auto|]. constructor; [assumption|constructor].
Qed.

Lemma encode_operands_wire : forall os, Forall operand_ok os -> Forall flags_ok os ->
  wire_operands os (encode_operands os) /\ Forall word (encode_operands os).
Proof.
  intros os Ho. induction Ho as [|o os Ho Hos IH]; intro Hf; [split; [reflexivity|constructor]|].
  inversion Hf; subst. destruct (IH ltac:(assumption)) as [W1 W2].
  destruct (encode_operand_wire o) as [V1 V2]; try assumption. unfold encode_operands. cbn [flat_map wire_operands]. split.
  - eauto.
  - apply Forall_app. auto.
Qed.

Lemma wire_operands_normal : forall os ws, wire_operands os ws -> Forall word ws ->
  Forall operand_ok os /\ List.length (encode_operands os) = List.length ws.
Proof.
  induction os as [|o os IH]; intros ws H Hw; cbn [wire_operands] in H.
  - subst. split; [constructor|reflexivity].
  - destruct H as (ws1 & ws2 & -> & H1 & H2). apply Forall_app in Hw. destruct Hw as [Hw1 Hw2].
    destruct (IH _ H2 Hw2) as [A1 A2]. unfold encode_operands in *. cbn [flat_map]. rewrite !app_length, A2.
    destruct o as [n|s|v ig]; cbn [wire_operand encode_operand operand_ok] in *.
    + subst. split; [|reflexivity]. constructor; [|exact A1]. inversion Hw1; assumption.
    + destruct H1 as [H1 Ht]. split; [constructor; assumption|]. f_equal.
      eapply wire_string_length; [apply encode_string_wire|exact H1].
    + destruct H1 as (w & -> & _). split; [constructor; [exact I|exact A1]|reflexivity].
Qed.

(** ** Instructions *)

Section Encode.
Context {E : Type}.
Implicit Types (known : list (ExtInstSet E)) (earlier is : list (Core E)).

Lemma encode_body_wire : forall known earlier (i : Core E) p, encodable_instruction known earlier i p ->
  wire_instruction known earlier i (encode_body i p) /\ Forall word (encode_body i p).
Proof.
  intros known earlier i p (Hr & Ho & _ & Hx).
  destruct (encode_operands_wire _ Ho (operands_flags i)) as [W1 W2].
  destruct i as [| | | | | | | | | op | op | | | | | | | | | | | | | | | | | | | | | | | | | | | | | | | | | | | | | | | | | | | | | | | | | | | | | | | | | | | | | | | | | | | | | | | | | | | | | | | | | | | | | | | ]; try (split; [exact (conj Hr W1)|exact W2]).
  - cbn [wire_instruction encode_body] in *. tauto.
  - destruct Hx as (number & rest & p' & r & -> & Hn & Hrest & Hi & Hd).
    cbn [wire_instruction encode_body operands] in *. split.
    + exists number, rest, r. auto.
    + apply Forall_app. auto.
Qed.

Lemma wire_body_encodable : forall known earlier (i : Core E) body wc, wire_instruction known earlier i body -> Forall word body ->
  wc = 1 + N.of_nat (List.length body) \/ (wc = 0 /\ body = []) -> wc < 65536 ->
  forall q, exists p, encodable_instruction known earlier i p /\ next_payloads i p = q /\ List.length (encode_body i p) = List.length body.
Proof.
  intros known earlier i body wc H Hw Hwc Hsmall q.
  assert (Hl : N.of_nat (List.length body) < 65535) by (destruct Hwc as [->|[-> ->]]; cbn [List.length]; lia).
  assert (G : match i with Core_OpExtInst _ => False | _ => True end -> representable i -> wire_operands (operands i) body ->
    match i with
     | Core_OpExtInst op => False
     | Core_OpExtInstImport op =>
         (exists r, set_named known (OpExtInstImport_name op) r)
         /\ (forall name, ~ In (Core_OpExtInstImport (Build_OpExtInstImport (OpExtInstImport_result_id op) name)) earlier)
     | _ => True
     end ->
    exists p, encodable_instruction known earlier i p /\ next_payloads i p = q /\ List.length (encode_body i p) = List.length body).
  { intros Hne Hr Ho Hi. destruct (wire_operands_normal _ _ Ho Hw) as [A1 A2]. exists q.
    assert (B : encode_body i q = encode_operands (operands i)) by (destruct i; try reflexivity; destruct Hne).
    rewrite B, A2. split; [|split; [destruct i; try reflexivity; destruct Hne|reflexivity]].
    repeat split; try assumption; try apply Hr. { rewrite B, A2. exact Hl. } destruct i; try exact I; try exact Hi. destruct Hi. }
  destruct i; try (apply G; [exact I|apply H|apply H|exact I]).
  - apply G; [exact I|split; exact I|apply H|apply H].
  - clear G. destruct H as (number & rest & r & -> & Hi & Hd).
    apply Forall_app in Hw. destruct Hw as [Hw1 Hrest]. 
    inversion Hw1 as [|? ? X1 Y1]; subst. inversion Y1 as [|? ? X2 Y2]; subst. inversion Y2 as [|? ? X3 Y3]; subst. inversion Y3 as [|? ? X4 _]; subst.
    exists ((number, rest) :: q). split; [|split; reflexivity].
    split; [split; exact I|]. split; [|split].
    + cbn [operands]. repeat constructor; assumption.
    + exact Hl.
    + exists number, rest, q, r. auto.
Qed.

Lemma encode_instructions_wire : forall known is earlier p, encodable_instructions known earlier is p ->
  wire_instructions known earlier is (encode_instructions is p) /\ Forall word (encode_instructions is p).
Proof.
  intros known is. induction is as [|i is IH]; intros earlier p H; cbn [encodable_instructions encode_instructions] in *.
  - split; constructor.
  - destruct H as [Hi His]. destruct (IH _ _ His) as [A1 A2]. destruct (encode_body_wire _ _ _ _ Hi) as [B1 B2].
    destruct Hi as (_ & _ & Hl & _).
    unfold encode_instruction. split.
    + cbn [app]. apply wire_cons; [exact B1|left; reflexivity|lia|exact A1].
    + cbn [app]. constructor; [|apply Forall_app; auto]. unfold word. pose proof (opcode_small i). lia.
Qed.

Lemma wire_instructions_encodable : forall known earlier is ws, wire_instructions known earlier is ws -> Forall word ws ->
  exists p, encodable_instructions known earlier is p /\ List.length (encode_instructions is p) = List.length ws.
Proof.
  intros known earlier is ws H. induction H as [earlier|earlier i is wc body ws Hi Hwc Hs Hws IH]; intro Hw.
  - exists []. split; [exact I|reflexivity].
  - inversion Hw as [|? ? _ Hw']; subst. apply Forall_app in Hw'. destruct Hw' as [Hb Hw'].
    destruct (IH Hw') as (q & Q1 & Q2).
    destruct (wire_body_encodable _ _ _ _ _ Hi Hb Hwc Hs q) as (p & P1 & P2 & P3).
    exists p. cbn [encodable_instructions encode_instructions]. rewrite P2. split; [auto|].
    unfold encode_instruction. cbn [app List.length]. rewrite !app_length, P3, Q2. reflexivity.
Qed.

(** ** Modules *)

Lemma encode_module_wire : forall known o m p, encodable known m p -> wire_module known (encode_module o m p) m.
Proof.
  intros known o m p (Hv & Hg1 & Hg2 & Hg3 & Hb & Hi).
  destruct (encode_instructions_wire _ _ _ _ Hi) as [W1 W2].
  exists o, 0x00010000, (Generator_version (RawModule_generator m) + 65536 * tool_number (Generator_tool (RawModule_generator m))),
    (encode_instructions (RawModule_instructions m) p).
  split; [reflexivity|]. split; [constructor; [reflexivity|]; constructor; assumption|].
  split; [repeat split; reflexivity|]. split; [exact Hv|]. split; [|exact W1]. repeat split; assumption.
Qed.

Lemma encode_module_length : forall o (m : RawModule E) p,
  List.length (encode_module o m p) = (20 + 4 * List.length (encode_instructions (RawModule_instructions m) p))%nat.
Proof. intros. unfold encode_module. rewrite bytes_of_words_length, app_length. cbn [encode_header List.length]. lia. Qed.

Theorem read_encoded : forall known o m p, encodable known m p -> read_module (encode_module o m p) known = Ok m.
Proof. intros. apply read_module_complete, encode_module_wire. assumption. Qed.

Theorem accepted_normalises : forall data known m, read_module data known = Ok m ->
  exists p, encodable known m p /\ forall o, read_module (encode_module o m p) known = Ok m
    /\ List.length (encode_module o m p) = List.length data.
Proof.
  intros data known m H. apply read_module_sound in H.
  destruct H as (o & v & g & ws & -> & Hw & Hv & Hver & (Hg & Hg1 & Hg2 & Hg3) & Hwire).
  inversion Hw as [|? ? Hvw Hw1]; subst. inversion Hw1 as [|? ? Hbd Hws]; subst.
  destruct (wire_instructions_encodable _ _ _ _ Hwire Hws) as (p & P1 & P2). exists p.
  assert (He : encodable known m p) by (repeat split; assumption). split; [exact He|]. intro o'. split.
  - apply read_encoded. exact He.
  - rewrite encode_module_length, P2, bytes_of_words_length, app_length. cbn [List.length]. lia.
Qed.

End Encode.
