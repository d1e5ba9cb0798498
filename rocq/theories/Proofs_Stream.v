(** The word stream, read_instruction and read_module against the wire format. *)
From Coq Require Import ZArith ZifyBool ZifyNat ZifyN.
From Verif Require Import Base Types Ops ReadErr Utf8 ReadBase ReadOperands ExtSet ReadOps Reader Spec_Wire
  Proofs_Operands Proofs_Composite Proofs_Ops Proofs_Instr.
Local Open Scope N_scope.
Ltac Zify.zify_post_hook ::= Z.div_mod_to_equations.

(** ** Words and bytes *)

Definition le_of (o : byte_order) : bool := match o with LittleEndian => true | BigEndian => false end.
Definition order_of (le : bool) : byte_order := if le then LittleEndian else BigEndian.

Lemma le_order : forall le, le_of (order_of le) = le. Proof. intros []; reflexivity. Qed.

Lemma bytes_of_word_form : forall o w, exists a b c d, bytes_of_word o w = [a; b; c; d].
Proof. intros [] w; repeat eexists. Qed.

Lemma bytes_of_word_length : forall o w, List.length (bytes_of_word o w) = 4%nat.
Proof. intros o w. destruct (bytes_of_word_form o w) as (a & b & c & d & ->). reflexivity. Qed.

Lemma bytes_of_words_length : forall o ws, List.length (bytes_of_words o ws) = (4 * List.length ws)%nat.
Proof.
  induction ws as [|w ws IH]; [reflexivity|]. unfold bytes_of_words in *. cbn [flat_map].
  rewrite app_length, bytes_of_word_length, IH. cbn [List.length]. lia.
Qed.

Lemma bytes_of_words_app : forall o a b, bytes_of_words o (a ++ b) = bytes_of_words o a ++ bytes_of_words o b.
Proof. intros. apply flat_map_app. Qed.

Lemma bytes_of_words_cons : forall o w ws, bytes_of_words o (w :: ws) = bytes_of_word o w ++ bytes_of_words o ws.
Proof. reflexivity. Qed.

Lemma le_u32_bytes : forall w, word w ->
  le_u32 (ascii_of_N (w mod 256)) (ascii_of_N (w / 256 mod 256)) (ascii_of_N (w / 65536 mod 256)) (ascii_of_N (w / 16777216 mod 256)) = w.
Proof. unfold word, le_u32. intros w Hw. rewrite !N_ascii_embedding by lia. lia. Qed.

Lemma le_u32_word : forall a b c d, word (le_u32 a b c d).
Proof.
  intros a b c d. unfold word, le_u32.
  pose proof (N_ascii_bounded a). pose proof (N_ascii_bounded b). pose proof (N_ascii_bounded c). pose proof (N_ascii_bounded d).
  lia.
Qed.

Lemma bytes_le_u32 : forall a b c d, bytes_of_word LittleEndian (le_u32 a b c d) = [a; b; c; d].
Proof.
  intros a b c d. cbn [bytes_of_word map].
  pose proof (N_ascii_bounded a). pose proof (N_ascii_bounded b). pose proof (N_ascii_bounded c). pose proof (N_ascii_bounded d).
  unfold le_u32.
  replace ((_ + _ + _ + _) mod 256) with (N_of_ascii a) by lia.
  replace (_ / 256 mod 256) with (N_of_ascii b) by lia.
  replace (_ / 65536 mod 256) with (N_of_ascii c) by lia.
  replace (_ / 16777216 mod 256) with (N_of_ascii d) by lia.
  rewrite !ascii_N_embedding. reflexivity.
Qed.

Lemma bytes_be_u32 : forall a b c d, bytes_of_word BigEndian (be_u32 a b c d) = [a; b; c; d].
Proof.
  intros a b c d. pose proof (bytes_le_u32 d c b a) as H. cbn [bytes_of_word] in *. unfold be_u32. rewrite H. reflexivity.
Qed.

Lemma stream_read_word_ok : forall o w rest, word w ->
  stream_read_word (Build_Stream (bytes_of_word o w ++ rest) (le_of o)) = Ok (Build_Stream rest (le_of o), w).
Proof.
  intros [] w rest Hw; cbn [bytes_of_word map rev app stream_read_word Stream_source Stream_is_le le_of];
    unfold stream_read_word; cbn [Stream_source Stream_is_le]; unfold be_u32; rewrite (le_u32_bytes w Hw); reflexivity.
Qed.

Lemma stream_read_word_inv : forall o src s' w,
  stream_read_word (Build_Stream src (le_of o)) = Ok (s', w) ->
  word w /\ exists rest, s' = Build_Stream rest (le_of o) /\ src = bytes_of_word o w ++ rest.
Proof.
  intros o src s' w H. unfold stream_read_word in H. cbn [Stream_source Stream_is_le] in H.
  destruct src as [|a [|b [|c [|d rest]]]]; try discriminate. injection H as <- <-. split.
  - destruct o; cbn [le_of]; [|unfold be_u32]; apply le_u32_word.
  - exists rest. split; [reflexivity|]. destruct o; cbn [le_of]; [rewrite bytes_le_u32|rewrite bytes_be_u32]; reflexivity.
Qed.

Lemma read_words_ok : forall o ws rest, Forall word ws ->
  read_words (List.length ws) (Build_Stream (bytes_of_words o ws ++ rest) (le_of o)) = Ok (Build_Stream rest (le_of o), ws).
Proof.
  intros o ws rest Hw. induction Hw as [|w ws Hw Hws IH]; [reflexivity|].
  rewrite bytes_of_words_cons, <- app_assoc. cbn [List.length read_words].
  rewrite stream_read_word_ok by exact Hw. cbn [bind]. rewrite IH. reflexivity.
Qed.

Lemma read_words_inv : forall o n src s' ws,
  read_words n (Build_Stream src (le_of o)) = Ok (s', ws) ->
  List.length ws = n /\ Forall word ws /\ exists rest, s' = Build_Stream rest (le_of o) /\ src = bytes_of_words o ws ++ rest.
Proof.
  intros o n. induction n as [|n IH]; intros src s' ws H; cbn [read_words] in H.
  - injection H as <- <-. repeat split; [constructor|]. exists src. auto.
  - apply bind_ok in H. destruct H as ([s1 w] & H1 & H). apply stream_read_word_inv in H1.
    destruct H1 as (Hw & rest1 & -> & ->). apply bind_ok in H. destruct H as ([s2 ws2] & H2 & H).
    injection H as <- <-. apply IH in H2. destruct H2 as (<- & Hws & rest2 & -> & ->).
    repeat split; [constructor; assumption|]. exists rest2. rewrite bytes_of_words_cons, <- app_assoc. auto.
Qed.

(** ** One instruction *)

Lemma head_low : forall h, as_u16 (N.land h 0xFFFF) = h mod 65536.
Proof. intro h. unfold as_u16. change 0xFFFF with (N.ones 16). rewrite N.land_ones. change (2 ^ 16) with 65536. apply N.mod_mod. discriminate. Qed.
Lemma head_high : forall h, word h -> as_u16 (N.shiftr h 16) = h / 65536.
Proof. intros h Hh. unfold as_u16, word in *. rewrite N.shiftr_div_pow2. change (2 ^ 16) with 65536. apply N.mod_small. lia. Qed.

Lemma Ok_inj : forall {X A} (a b : A), @Ok X A a = Ok b -> a = b.
Proof. intros X A a b H. inversion H. reflexivity. Qed.

Section Module.
Context {E : Type}.
Implicit Types (known : list (ExtInstSet E)) (earlier : list (Core E)) (bound : bound_sets E).

(* the part of read_instruction after the words have been fetched *)
Definition decode (id wc : N) (block : list N) known bound : outcome ReadError (Core E * bound_sets E) :=
  let! read_fn := dispatch id wc in
  let! (block, inst, bound) := read_fn block known bound in
  match block with
  | [] => Ok (inst, bound)
  | _ :: _ => Err InstructionHadExcessData
  end.

Lemma read_instruction_decode : forall stream known bound,
  read_instruction stream known bound =
  let! (stream, head) := stream_read_word stream in
  let! (stream, block) := read_words (N.to_nat (as_u16 (N.shiftr head 16) - 1)) stream in
  let! (inst, bound) := decode (as_u16 (N.land head 0xFFFF)) (as_u16 (N.shiftr head 16)) block known bound in
  Ok (stream, inst, bound).
Proof.
  intros. unfold read_instruction, decode. destruct (stream_read_word stream) as [[s head]|?| |]; cbn [bind]; try reflexivity.
  destruct (read_words _ s) as [[s' block]|?| |]; cbn [bind]; try reflexivity.
  destruct (dispatch _ _) as [f|?| |]; cbn [bind]; try reflexivity.
  destruct (f block known bound) as [[[b i] bd]|?| |]; cbn [bind]; try reflexivity. destruct b; reflexivity.
Qed.

Lemma decode_sound : forall id wc block known earlier bound i bound',
  bound_inv known earlier bound -> Forall word block -> decode id wc block known bound = Ok (i, bound') ->
  opcode i = id /\ wire_instruction known earlier i block /\ bound_inv known (earlier ++ [i]) bound'.
Proof.
  intros id wc block known earlier bound i bound' Hi Hb H. unfold decode in H.
  apply bind_ok in H. destruct H as (f & Hd & H). apply bind_ok in H. destruct H as ([[b i'] bd] & Hf & H).
  destruct b; [|discriminate]. injection H as <- <-. eapply dispatch_reads; eassumption.
Qed.

Lemma decode_complete : forall wc block known earlier bound (i : Core E),
  bound_inv known earlier bound -> Forall word block -> wire_instruction known earlier i block ->
  exists bound', decode (opcode i) wc block known bound = Ok (i, bound') /\ next_bound known i bound bound'
    /\ bound_inv known (earlier ++ [i]) bound'.
Proof.
  intros wc block known earlier bound i Hi Hb H.
  destruct (reader_complete _ _ _ _ _ Hi Hb H) as (bound' & Hr & Hn & Hi'). exists bound'.
  split; [|auto]. unfold decode. rewrite dispatch_opcode by (eapply wire_readable; eassumption). cbn [bind].
  rewrite Hr. reflexivity.
Qed.

Lemma opcode_small : forall (i : Core E), opcode i < 65536.
Proof. intros []; reflexivity. Qed.

Lemma read_instruction_sound : forall o src known earlier bound s' i bound',
  bound_inv known earlier bound ->
  read_instruction (Build_Stream src (le_of o)) known bound = Ok (s', i, bound') ->
  exists wc body rest, s' = Build_Stream rest (le_of o)
    /\ src = bytes_of_words o ((opcode i + 65536 * wc) :: body) ++ rest
    /\ (wc = 1 + N.of_nat (List.length body) \/ (wc = 0 /\ body = [])) /\ wc < 65536
    /\ Forall word ((opcode i + 65536 * wc) :: body)
    /\ wire_instruction known earlier i body /\ bound_inv known (earlier ++ [i]) bound'.
Proof.
  intros o src known earlier bound s' i bound' Hi H. rewrite read_instruction_decode in H.
  apply bind_ok in H. destruct H as ([s1 h] & H1 & H). apply stream_read_word_inv in H1.
  destruct H1 as (Hh & rest1 & -> & ->). apply bind_ok in H. destruct H as ([s2 body] & H2 & H).
  apply read_words_inv in H2. destruct H2 as (Hlen & Hb & rest & -> & ->).
  apply bind_ok in H. destruct H as ([i' b'] & H3 & H). injection H as <- <- <-.
  apply (decode_sound _ _ _ _ earlier) in H3; [|assumption|assumption]. destruct H3 as (Hop & Hw & Hi').
  rewrite head_low in Hop. rewrite (head_high h Hh) in Hlen. unfold word in Hh.
  exists (h / 65536), body, rest.
  assert (Eh : opcode i' + 65536 * (h / 65536) = h) by lia. rewrite Eh.
  split; [reflexivity|]. split; [rewrite bytes_of_words_cons, <- app_assoc; reflexivity|].
  split; [|split; [lia|split; [constructor; [exact Hh|assumption]|auto]]].
  destruct body; [|cbn [List.length] in *; left; lia]. cbn [List.length] in *.
  assert (h / 65536 = 0 \/ h / 65536 = 1) as [->| ->] by lia; auto.
Qed.

Lemma read_instruction_complete : forall o known earlier bound (i : Core E) wc body rest,
  bound_inv known earlier bound ->
  (wc = 1 + N.of_nat (List.length body) \/ (wc = 0 /\ body = [])) -> wc < 65536 ->
  Forall word body -> wire_instruction known earlier i body ->
  exists bound',
    read_instruction (Build_Stream (bytes_of_words o ((opcode i + 65536 * wc) :: body) ++ rest) (le_of o)) known bound
      = Ok (Build_Stream rest (le_of o), i, bound')
    /\ next_bound known i bound bound' /\ bound_inv known (earlier ++ [i]) bound'.
Proof.
  intros o known earlier bound i wc body rest Hi Hwc Hsmall Hb H.
  destruct (decode_complete wc body _ _ _ _ Hi Hb H) as (bound' & Hd & Hn & Hi'). exists bound'. split; [|auto].
  rewrite read_instruction_decode. rewrite bytes_of_words_cons, <- app_assoc.
  pose proof (opcode_small i) as Ho.
  assert (Hh : word (opcode i + 65536 * wc)) by (unfold word; lia).
  rewrite stream_read_word_ok by exact Hh. cbn [bind]. rewrite head_low, (head_high _ Hh).
  replace ((opcode i + 65536 * wc) mod 65536) with (opcode i) by lia.
  replace ((opcode i + 65536 * wc) / 65536) with wc by lia.
  replace (N.to_nat (wc - 1)) with (List.length body).
  2:{ destruct Hwc as [->|[-> ->]]; [lia|reflexivity]. }
  rewrite read_words_ok by assumption. cbn [bind]. rewrite Hd. reflexivity.
Qed.

(** ** The instruction loop *)

Lemma read_instructions_sound : forall o fuel src known bound earlier l,
  bound_inv known earlier bound ->
  read_instructions fuel (Build_Stream src (le_of o)) known bound earlier = Ok l ->
  exists is ws, l = earlier ++ is /\ src = bytes_of_words o ws /\ Forall word ws /\ wire_instructions known earlier is ws.
Proof.
  intros o fuel. induction fuel as [|fuel IH]; intros src known bound earlier l Hi H; cbn [read_instructions] in H;
    unfold stream_is_end in H; cbn [Stream_source] in H; destruct src as [|a src];
    try (injection H as <-; exists [], []; rewrite app_nil_r; repeat split; constructor); try discriminate.
  apply bind_ok in H. destruct H as ([[s i] b] & H1 & H).
  apply (read_instruction_sound o (a :: src) known earlier) in H1; [|assumption].
  destruct H1 as (wc & body & rest & -> & Hsrc & Hwc & Hsmall & Hw & Hwi & Hi').
  apply IH in H; [|assumption]. destruct H as (is & ws & -> & Hrest & Hws & Hwire). rewrite Hsrc, Hrest.
  exists (i :: is), ((opcode i + 65536 * wc) :: body ++ ws).
  rewrite <- app_assoc. split; [reflexivity|]. split.
  - rewrite <- bytes_of_words_app. reflexivity.
  - split; [|constructor; assumption]. inversion Hw; subst. constructor; [assumption|]. apply Forall_app. auto.
Qed.

Lemma read_instructions_complete : forall o known earlier is ws, wire_instructions known earlier is ws ->
  forall bound fuel, bound_inv known earlier bound -> Forall word ws -> (List.length ws <= fuel)%nat ->
  read_instructions fuel (Build_Stream (bytes_of_words o ws) (le_of o)) known bound earlier = Ok (earlier ++ is).
Proof.
  intros o known earlier is ws H. induction H as [earlier|earlier i is wc body ws Hwi Hwc Hsmall Hws IH];
    intros bound fuel Hi Hw Hf.
  - destruct fuel; cbn; rewrite app_nil_r; reflexivity.
  - destruct fuel as [|fuel]; [cbn in Hf; lia|].
    inversion Hw as [|? ? Hh Hbw]; subst. apply Forall_app in Hbw. destruct Hbw as [Hb Hw'].
    destruct (read_instruction_complete o _ _ _ _ _ _ (bytes_of_words o ws) Hi Hwc Hsmall Hb Hwi) as (bound' & Hr & _ & Hi').
    cbn [read_instructions].
    replace (bytes_of_words o ((opcode i + 65536 * wc) :: body ++ ws))
      with (bytes_of_words o ((opcode i + 65536 * wc) :: body) ++ bytes_of_words o ws)
      by (rewrite <- bytes_of_words_app; reflexivity).
    assert (Hne : stream_is_end (Build_Stream (bytes_of_words o ((opcode i + 65536 * wc) :: body) ++ bytes_of_words o ws) (le_of o)) = false).
    { rewrite bytes_of_words_cons. destruct (bytes_of_word_form o (opcode i + 65536 * wc)) as (? & ? & ? & ? & ->). reflexivity. }
    rewrite Hne, Hr. cbn [bind]. rewrite (IH bound' fuel); [rewrite <- app_assoc; reflexivity|assumption|assumption|].
    cbn [List.length] in Hf. rewrite app_length in Hf. lia.
Qed.

(** ** The header *)

Lemma version_ok : forall w, word w -> (read_version w = Ok (Build_Version 1 0) <-> version_word_accepted w).
Proof.
  intros w Hw. unfold read_version, version_word_accepted, as_u8, word in *.
  change 0xF with (N.ones 4). rewrite !N.land_ones, !N.shiftr_div_pow2.
  change (2 ^ 24) with 16777216. change (2 ^ 16) with 65536. change (2 ^ 8) with 256. change (2 ^ 4) with 16.
  rewrite (N.mod_small (w / 16777216) 256) by lia.
  rewrite (N.mod_small (_ mod 16) 256) by lia. rewrite (N.mod_small (w / 256 mod 16) 256) by lia.
  rewrite (N.mod_small (w mod 16) 256) by lia.
  split.
  - intro H.
    destruct (w / 16777216) as [|p3] eqn:E3; [|discriminate].
    destruct (w / 65536 mod 16) as [|[p2|p2|]] eqn:E2; try discriminate.
    destruct (w / 256 mod 16) as [|p1] eqn:E1; [|discriminate].
    destruct (w mod 16) as [|p0] eqn:E0; [|discriminate]. auto.
  - intros (-> & -> & -> & ->). reflexivity.
Qed.

Lemma read_version_cases : forall w, word w ->
  (version_word_accepted w /\ read_version w = Ok (Build_Version 1 0))
  \/ (~ version_word_accepted w
      /\ read_version w = Err (UnknownVersionBytes (w / 16777216) (w / 65536 mod 16) (w / 256 mod 16) (w mod 16))).
Proof.
  intros w Hw. pose proof (version_ok w Hw) as V.
  assert (D : read_version w = Ok (Build_Version 1 0)
    \/ read_version w = Err (UnknownVersionBytes (w / 16777216) (w / 65536 mod 16) (w / 256 mod 16) (w mod 16))).
  { unfold read_version, as_u8, word in *.
    change 0xF with (N.ones 4). rewrite !N.land_ones, !N.shiftr_div_pow2.
    change (2 ^ 24) with 16777216. change (2 ^ 16) with 65536. change (2 ^ 8) with 256. change (2 ^ 4) with 16.
    rewrite (N.mod_small (w / 16777216) 256) by lia.
    rewrite (N.mod_small (_ mod 16) 256) by lia. rewrite (N.mod_small (w / 256 mod 16) 256) by lia.
    rewrite (N.mod_small (w mod 16) 256) by lia.
    destruct (w / 16777216) as [|p3]; [|right; reflexivity].
    destruct (w / 65536 mod 16) as [|[p2|p2|]]; try (right; reflexivity).
    destruct (w / 256 mod 16) as [|p1]; [|right; reflexivity].
    destruct (w mod 16) as [|p0]; [left|right]; reflexivity. }
  destruct D as [D|D].
  - left. split; [apply V; exact D|exact D].
  - right. split; [|exact D]. intro Hv. apply V in Hv. congruence.
Qed.

Lemma tool_inverse : forall n, tool_number (tool_of_id n) = n.
Proof. intro n. unfold tool_of_id. split_word; reflexivity. Qed.

Lemma tool_of_number : forall t, match t with Tool_Other n => 12 <= n | _ => True end -> tool_of_id (tool_number t) = t.
Proof.
  intros t H. destruct t; try reflexivity. cbn [tool_number]. unfold tool_of_id. split_word; try reflexivity; lia.
Qed.

Lemma tool_of_id_other : forall n, match tool_of_id n with Tool_Other m => 12 <= m | _ => True end.
Proof. intro n. unfold tool_of_id. split_word; try exact I; lia. Qed.

Lemma magic_be : bytes_of_word BigEndian magic_number = bytes_of_word LittleEndian SPIRV_MAGIC_NUMBER_OTHER_ENDIAN.
Proof. reflexivity. Qed.

Lemma header_magic : forall o rest,
  (let! (stream, magic) := stream_read_word (Build_Stream (bytes_of_word o magic_number ++ rest) true) in check_magic magic stream)
  = Ok (Build_Stream rest (le_of o)).
Proof.
  intros [] rest.
  - rewrite (stream_read_word_ok LittleEndian) by reflexivity. reflexivity.
  - rewrite magic_be. rewrite (stream_read_word_ok LittleEndian) by reflexivity. reflexivity.
Qed.

Lemma header_magic_inv : forall src s,
  (let! (stream, magic) := stream_read_word (Build_Stream src true) in check_magic magic stream) = Ok s ->
  exists o rest, src = bytes_of_word o magic_number ++ rest /\ s = Build_Stream rest (le_of o).
Proof.
  intros src s H. apply bind_ok in H. destruct H as ([s1 magic] & H1 & H).
  apply (stream_read_word_inv LittleEndian) in H1. destruct H1 as (Hw & rest & -> & ->).
  unfold check_magic in H. destruct (N.eqb_spec magic SPIRV_MAGIC_NUMBER) as [->|_].
  - injection H as <-. exists LittleEndian, rest. auto.
  - destruct (N.eqb_spec magic SPIRV_MAGIC_NUMBER_OTHER_ENDIAN) as [->|_]; [|discriminate].
    injection H as <-. exists BigEndian, rest. auto.
Qed.

(* read_module, with the magic number check grouped *)
Definition read_after_magic (stream : Stream) known : outcome ReadError (RawModule E) :=
  let! (stream, ver_word) := stream_read_word stream in
  let! version := read_version ver_word in
  let! _ := check_version version in
  let! (stream, generator_word) := stream_read_word stream in
  let generator := Build_Generator (tool_of_id (as_u16 (N.shiftr generator_word 16))) (as_u16 (N.land generator_word 0xFFFF)) in
  let! (stream, bound) := stream_read_word stream in
  let! (stream, zero) := stream_read_word stream in
  if negb (N.eqb zero 0) then Err UnknownReservedSchema else
  let! instructions := read_instructions (List.length (Stream_source stream)) stream known [] [] in
  Ok (Build_RawModule version generator bound instructions).

Lemma read_module_magic : forall data known,
  read_module data known =
  let! stream := (let! (stream, magic) := stream_read_word (Build_Stream data true) in check_magic magic stream) in
  read_after_magic stream known.
Proof.
  intros. unfold read_module, read_after_magic.
  destruct (stream_read_word (Build_Stream data true)) as [[s m]|?| |]; cbn [bind]; reflexivity.
Qed.

Theorem read_module_sound : forall data known m, read_module data known = Ok m -> wire_module known data m.
Proof.
  intros data known m H. rewrite read_module_magic in H.
  apply bind_ok in H. destruct H as (s & H1 & H). apply header_magic_inv in H1. destruct H1 as (o & rest0 & -> & ->).
  unfold read_after_magic in H.
  apply bind_ok in H. destruct H as ([s1 v] & H1 & H). apply stream_read_word_inv in H1. destruct H1 as (Hv & rest1 & -> & ->).
  apply bind_ok in H. destruct H as (ver & Hver & H). apply bind_ok in H. destruct H as ([] & _ & H).
  apply bind_ok in H. destruct H as ([s2 g] & H1 & H). apply stream_read_word_inv in H1. destruct H1 as (Hg & rest2 & -> & ->).
  apply bind_ok in H. destruct H as ([s3 bd] & H1 & H). apply stream_read_word_inv in H1. destruct H1 as (Hbd & rest3 & -> & ->).
  apply bind_ok in H. destruct H as ([s4 z] & H1 & H). apply stream_read_word_inv in H1. destruct H1 as (Hz & rest4 & -> & ->).
  destruct (N.eqb_spec z 0) as [->|]; [|discriminate]. cbn [negb] in H.
  apply bind_ok in H. destruct H as (l & Hl & H). apply Ok_inj in H. subst m.
  apply read_instructions_sound in Hl; [|apply bound_inv_nil]. destruct Hl as (is & ws & -> & -> & Hws & Hwire).
  destruct (read_version_cases v Hv) as [[Ha Hr]|[_ Hr]]; rewrite Hr in Hver; [|discriminate]. injection Hver as <-.
  exists o, v, g, ws. cbn [RawModule_bound RawModule_version RawModule_generator RawModule_instructions app].
  split; [|split; [|split; [|split; [|split]]]].
  - rewrite !bytes_of_words_cons. reflexivity.
  - repeat (constructor; try assumption).
  - exact Ha.
  - reflexivity.
  - unfold generator_word. cbn [Generator_version Generator_tool]. rewrite head_low, (head_high g Hg), tool_inverse.
    unfold word in Hg. repeat split; try lia. apply tool_of_id_other.
  - exact Hwire.
Qed.

Theorem read_module_complete : forall data known m, wire_module known data m -> read_module data known = Ok m.
Proof.
  intros data known [ver gen bd is] (o & v & g & ws & -> & Hw & Hv & Hver & Hg & Hwire).
  cbn [RawModule_bound RawModule_version RawModule_generator RawModule_instructions] in *. subst ver.
  inversion Hw as [|? ? Hvw Hw1]; subst. inversion Hw1 as [|? ? Hbd Hws]; subst. clear Hw Hw1.
  rewrite read_module_magic. cbn [app]. rewrite bytes_of_words_cons, header_magic. cbn [bind].
  unfold read_after_magic. rewrite bytes_of_words_cons, stream_read_word_ok by exact Hvw. cbn [bind].
  rewrite (proj2 (version_ok v Hvw) Hv). cbn [bind check_version].
  destruct Hg as (Hgw & Hg1 & Hg2 & Hg3). destruct gen as [tool gv]. cbn [Generator_version Generator_tool] in *.
  assert (Hg : word g) by (unfold word; lia).
  rewrite bytes_of_words_cons, stream_read_word_ok by exact Hg. cbn [bind].
  rewrite bytes_of_words_cons, stream_read_word_ok by exact Hbd. cbn [bind].
  rewrite bytes_of_words_cons, stream_read_word_ok by reflexivity. cbn [bind N.eqb negb Stream_source].
  rewrite (read_instructions_complete o known [] is ws Hwire); [| apply bound_inv_nil|exact Hws|].
  - cbn [bind app]. rewrite head_low, (head_high g Hg).
    replace (g / 65536) with (tool_number tool) by lia. rewrite (tool_of_number tool Hg3).
    replace (g mod 65536) with gv by lia. reflexivity.
  - rewrite bytes_of_words_length. lia.
Qed.

End Module.
