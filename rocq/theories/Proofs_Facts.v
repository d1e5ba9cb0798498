(** Facts about read_module used by the property theorems. *)
From Coq Require Import ZArith ZifyBool ZifyNat ZifyN.
From Verif Require Import Base Types Ops ReadErr Utf8 ReadBase ReadOperands ExtSet ReadOps Reader Spec_Wire Spec_Opcodes
  Proofs_Utf8 Proofs_Operands Proofs_Composite Proofs_Ops Proofs_Instr Proofs_Stream Proofs_Errors Proofs_Reader Proofs_Encode
  Proofs_Next.
Local Open Scope N_scope.
Ltac Zify.zify_post_hook ::= Z.div_mod_to_equations.

(** ** Byte order (C03) *)

Definition flip (s : Stream) : Stream := Build_Stream (swap_words (Stream_source s)) (negb (Stream_is_le s)).

Definition on_stream {A} (f : Stream -> Stream) (r : outcome ReadError (Stream * A)) : outcome ReadError (Stream * A) :=
  match r with Ok (s, a) => Ok (f s, a) | Err e => Err e | Panic => Panic | OutOfFuel => OutOfFuel end.

Lemma swap_words_length : forall n data, (List.length data <= n)%nat -> List.length (swap_words data) = List.length data.
Proof.
  induction n as [|n IH]; intros data H; (destruct data as [|a [|b [|c [|d data]]]]; try reflexivity); cbn [List.length] in H; [lia|].
  cbn [swap_words List.length]. rewrite IH by lia. reflexivity.
Qed.

Lemma flip_word : forall s, stream_read_word (flip s) = on_stream flip (stream_read_word s).
Proof.
  intros [src le]. unfold stream_read_word, flip. cbn [Stream_source Stream_is_le].
  destruct src as [|a [|b [|c [|d src]]]]; try reflexivity. cbn [swap_words on_stream]. destruct le; reflexivity.
Qed.

Lemma flip_words : forall n s, read_words n (flip s) = on_stream flip (read_words n s).
Proof.
  induction n as [|n IH]; intro s; cbn [read_words]; [reflexivity|].
  rewrite flip_word. destruct (stream_read_word s) as [[s1 w]|?| |]; cbn [on_stream bind]; try reflexivity.
  rewrite IH. destruct (read_words n s1) as [[s2 ws]|?| |]; reflexivity.
Qed.

Section Facts.
Context {E : Type}.
Implicit Types (known : list (ExtInstSet E)) (earlier : list (Core E)) (bound : bound_sets E) (m : RawModule E).

Lemma flip_instruction : forall s known bound,
  read_instruction (flip s) known bound =
  match read_instruction s known bound with
  | Ok (s', i, b) => Ok (flip s', i, b) | Err e => Err e | Panic => Panic | OutOfFuel => OutOfFuel
  end.
Proof.
  intros s known bound. rewrite !read_instruction_decode, flip_word.
  destruct (stream_read_word s) as [[s1 h]|?| |]; cbn [on_stream bind]; try reflexivity.
  rewrite flip_words. destruct (read_words _ s1) as [[s2 ws]|?| |]; cbn [on_stream bind]; try reflexivity.
  destruct (decode _ _ ws known bound) as [[i b]|?| |]; reflexivity.
Qed.

Lemma flip_end : forall s, stream_is_end (flip s) = stream_is_end s.
Proof. intros [[|a [|b [|c [|d src]]]] le]; reflexivity. Qed.

Lemma flip_instructions : forall fuel s known bound acc,
  read_instructions fuel (flip s) known bound acc = read_instructions fuel s known bound acc.
Proof.
  induction fuel as [|fuel IH]; intros s known bound acc; cbn [read_instructions]; rewrite flip_end; [reflexivity|].
  destruct (stream_is_end s); [reflexivity|]. rewrite flip_instruction.
  destruct (read_instruction s known bound) as [[[s' i] b]|?| |]; cbn [bind]; try reflexivity. apply IH.
Qed.

Lemma flip_after_magic : forall s known, read_after_magic (flip s) known = read_after_magic s known.
Proof.
  intros s known. unfold read_after_magic. rewrite flip_word.
  destruct (stream_read_word s) as [[s1 v]|?| |]; cbn [on_stream bind]; try reflexivity.
  destruct (read_version v); cbn [bind]; try reflexivity. destruct (check_version _); cbn [bind]; try reflexivity.
  rewrite flip_word. destruct (stream_read_word s1) as [[s2 g]|?| |]; cbn [on_stream bind]; try reflexivity.
  rewrite flip_word. destruct (stream_read_word s2) as [[s3 b]|?| |]; cbn [on_stream bind]; try reflexivity.
  rewrite flip_word. destruct (stream_read_word s3) as [[s4 z]|?| |]; cbn [on_stream bind]; try reflexivity.
  destruct (negb (N.eqb z 0)); [reflexivity|]. rewrite flip_instructions.
  unfold flip at 1. cbn [Stream_source]. rewrite (swap_words_length _ _ (le_n _)). reflexivity.
Qed.

Lemma magic_bytes : forall a b c d, le_u32 a b c d = SPIRV_MAGIC_NUMBER ->
  [a; b; c; d] = bytes_of_word LittleEndian magic_number.
Proof. intros a b c d H. rewrite <- bytes_le_u32, H. reflexivity. Qed.
Lemma other_magic_bytes : forall a b c d, le_u32 a b c d = SPIRV_MAGIC_NUMBER_OTHER_ENDIAN ->
  [a; b; c; d] = bytes_of_word BigEndian magic_number.
Proof. intros a b c d H. rewrite <- bytes_le_u32, H. reflexivity. Qed.

Theorem swap_same : forall data known, read_module (swap_words data) known = read_module data known.
Proof.
  intros data known. rewrite !read_module_magic.
  destruct data as [|a [|b [|c [|d data]]]]; try reflexivity.
  cbn [swap_words]. unfold stream_read_word. cbn [Stream_source Stream_is_le bind]. unfold check_magic.
  destruct (N.eqb_spec (le_u32 a b c d) SPIRV_MAGIC_NUMBER) as [E1|N1].
  - apply magic_bytes in E1. injection E1 as -> -> -> ->. cbn [bind].
    change (read_after_magic (flip (Build_Stream data true)) known = read_after_magic (Build_Stream data true) known).
    apply flip_after_magic.
  - destruct (N.eqb_spec (le_u32 a b c d) SPIRV_MAGIC_NUMBER_OTHER_ENDIAN) as [E2|N2].
    + apply other_magic_bytes in E2. injection E2 as -> -> -> ->. cbn [bind].
      change (read_after_magic (Build_Stream (swap_words data) true) known = read_after_magic (Build_Stream data false) known).
      change (read_after_magic (flip (Build_Stream data false)) known = read_after_magic (Build_Stream data false) known).
      apply flip_after_magic.
    + destruct (N.eqb_spec (le_u32 d c b a) SPIRV_MAGIC_NUMBER) as [E3|_].
      { apply magic_bytes in E3. injection E3 as -> -> -> ->. exfalso. apply N2. reflexivity. }
      destruct (N.eqb_spec (le_u32 d c b a) SPIRV_MAGIC_NUMBER_OTHER_ENDIAN) as [E4|_]; [|reflexivity].
      apply other_magic_bytes in E4. injection E4 as -> -> -> ->. exfalso. apply N1. reflexivity.
Qed.

(** ** Length, truncation, extension (C07, C08, C09) *)

Lemma accepted_length : forall data known m, read_module data known = Ok m ->
  exists k, List.length data = (20 + 4 * k)%nat.
Proof.
  intros data known m H. apply read_module_sound in H. destruct H as (o & v & g & ws & -> & _).
  exists (List.length ws). rewrite bytes_of_words_length, app_length. cbn [List.length]. lia.
Qed.

Lemma accepted_order : forall data known m, read_module data known = Ok m -> exists o, in_order o data.
Proof.
  intros data known m H. apply read_module_sound in H. destruct H as (o & v & g & ws & -> & _). exists o.
  eexists. reflexivity.
Qed.

Lemma loop_more : forall o src known bound acc l, src <> [] ->
  loop (Build_Stream src (le_of o)) known bound acc = Ok l -> exists i l', l = acc ++ i :: l'.
Proof.
  intros o src known bound acc l Hne H. rewrite loop_unfold in H.
  destruct src as [|a src]; [contradiction|]. change (stream_is_end (Build_Stream (a :: src) (le_of o))) with false in H.
  cbv iota in H. apply bind_ok in H. destruct H as ([[s i] b] & _ & H). apply loop_prefix in H. destruct H as (l' & ->).
  exists i, l'. rewrite <- app_assoc. reflexivity.
Qed.

Theorem read_extended : forall data x known m m', read_module data known = Ok m -> x <> [] ->
  read_module (data ++ x) known = Ok m' ->
  same_header m m' /\ exists i l, RawModule_instructions m' = RawModule_instructions m ++ i :: l.
Proof.
  intros data x known m m' H Hx H'. destruct (accepted_order _ _ _ H) as (o & Ho).
  destruct (read_continue _ _ _ _ Ho H) as (bound & _ & Hc). rewrite Hc in H'.
  apply bind_ok in H'. destruct H' as (l & H1 & H2). apply Ok_inj in H2. subst m'. split; [repeat split|].
  eapply loop_more; eassumption.
Qed.

Theorem read_truncated : forall data known m k, read_module data known = Ok m -> (k < List.length data)%nat ->
  match read_module (firstn k data) known with
  | Ok m' => (k mod 4 = 0)%nat /\ same_header m m'
      /\ exists n, (n < List.length (RawModule_instructions m))%nat /\ RawModule_instructions m' = firstn n (RawModule_instructions m)
  | Err e => if Nat.eqb (k mod 4) 0 then e = UnexpectedEndOfStream else e = UnexpectedStreamAlignment
  | _ => False
  end.
Proof.
  intros data known m k H Hk. pose proof (read_module_ext (firstn k data) (skipn k data) known) as X.
  rewrite firstn_skipn, H in X. assert (Hl : List.length (firstn k data) = k) by (rewrite firstn_length; lia).
  assert (Hne : skipn k data <> []) by (intro Z; apply (f_equal (@List.length ascii)) in Z; rewrite skipn_length in Z; cbn in Z; lia).
  destruct (read_module (firstn k data) known) as [m'|e| |] eqn:Hr.
  - destruct X as [X _]. rewrite Hl in X. split; [exact X|].
    destruct (read_extended _ (skipn k data) _ _ m Hr Hne) as ((V & G & B) & i & l & Hi); [rewrite firstn_skipn; exact H|].
    split; [repeat split; congruence|]. exists (List.length (RawModule_instructions m')). rewrite Hi. split.
    + rewrite app_length. cbn [List.length]. lia.
    + rewrite firstn_app, Nat.sub_diag, firstn_all. cbn [firstn]. rewrite app_nil_r. reflexivity.
  - destruct X as [X|X]; [|discriminate]. rewrite Hl in X. destruct X as [[-> X]|[-> X]].
    + rewrite X. reflexivity.
    + destruct (Nat.eqb_spec (k mod 4) 0); [contradiction|reflexivity].
  - discriminate.
  - discriminate.
Qed.

Theorem error_stable : forall data x known e, read_module data known = Err e ->
  e <> UnexpectedEndOfStream -> e <> UnexpectedStreamAlignment -> read_module (data ++ x) known = Err e.
Proof.
  intros data x known e H N1 N2. pose proof (read_module_ext data x known) as X. rewrite H in X.
  destruct X as [[[-> _]|[-> _]]|X]; [contradiction|contradiction|exact X].
Qed.

Lemma wire_split_at : forall known is1 earlier is2 ws, wire_instructions known earlier (is1 ++ is2) ws ->
  exists ws1 ws2, ws = ws1 ++ ws2 /\ wire_instructions known earlier is1 ws1
    /\ wire_instructions known (earlier ++ is1) is2 ws2.
Proof.
  intros known is1. induction is1 as [|i is1 IH]; intros earlier is2 ws H; cbn [app] in H.
  - exists [], ws. rewrite app_nil_r. split; [reflexivity|]. split; [constructor|exact H].
  - inversion H as [|? ? ? wc body ws' Hi Hwc Hs Hws]; subst.
    destruct (IH _ _ _ Hws) as (ws1 & ws2 & -> & W1 & W2).
    exists ((opcode i + 65536 * wc) :: body ++ ws1), ws2. split; [cbn [app]; rewrite app_assoc; reflexivity|].
    split; [constructor; assumption|]. rewrite <- app_assoc in W2. exact W2.
Qed.

(* every prefix of the instructions is what some cut reads *)
Theorem read_prefix : forall data known m n, read_module data known = Ok m ->
  exists k m', read_module (firstn k data) known = Ok m' /\ same_header m m'
    /\ RawModule_instructions m' = firstn n (RawModule_instructions m).
Proof.
  intros data known m n H. apply read_module_sound in H.
  destruct H as (o & v & g & ws & -> & Hw & Hv & Hver & Hg & Hwire).
  rewrite <- (firstn_skipn n (RawModule_instructions m)) in Hwire.
  apply wire_split_at in Hwire. destruct Hwire as (ws1 & ws2 & -> & W1 & W2).
  exists (List.length (bytes_of_words o ([magic_number; v; g; RawModule_bound m; 0] ++ ws1))),
    (with_instructions m (firstn n (RawModule_instructions m))).
  split; [|split; [repeat split|reflexivity]].
  rewrite (app_assoc [magic_number; v; g; RawModule_bound m; 0] ws1 ws2).
  rewrite (bytes_of_words_app o ([magic_number; v; g; RawModule_bound m; 0] ++ ws1) ws2).
  rewrite firstn_app, Nat.sub_diag, firstn_all, firstn_O, app_nil_r.
  apply read_module_complete. exists o, v, g, ws1. cbn [with_instructions RawModule_bound RawModule_version RawModule_generator RawModule_instructions].
  split; [reflexivity|]. split; [|auto].
  inversion Hw as [|? ? A Hw1]; subst. inversion Hw1 as [|? ? B Hws]; subst. apply Forall_app in Hws.
  constructor; [exact A|]. constructor; [exact B|]. apply Hws.
Qed.

(** ** Extended instruction sets (C12, C13) *)

Theorem ext_inst_resolved : forall data known m before op after, read_module data known = Ok m ->
  RawModule_instructions m = before ++ Core_OpExtInst op :: after ->
  exists name r number words, In (Core_OpExtInstImport (Build_OpExtInstImport (OpExtInst_set op) name)) before
    /\ set_named known name r /\ r number words = Ok ([], OpExtInst_instruction op)
    /\ exists o ws1 ws2, data = bytes_of_words o (ws1
         ++ instruction_words 12 ([OpExtInst_result_type op; OpExtInst_result_id op; OpExtInst_set op; number] ++ words) ++ ws2)
       /\ exists m1, read_module (bytes_of_words o ws1) known = Ok m1 /\ RawModule_instructions m1 = before.
Proof.
  intros data known m before op after H Hi. apply read_module_sound in H.
  destruct H as (o & v & g & ws & -> & Hw & Hv & Hver & Hg & Hwire). rewrite Hi in Hwire.
  apply wire_split_at in Hwire. destruct Hwire as (ws1 & ws2 & -> & W1 & W2). cbn [app] in W2.
  inversion W2 as [|? ? ? wc body ws' Hwi Hwc Hs Hws]; subst.
  destruct Hwi as (number & rest & r & -> & (name & Hin & Hsn) & Hd).
  exists name, r, number, rest. split; [exact Hin|]. split; [exact Hsn|]. split; [exact Hd|].
  exists o, ([magic_number; v; g; RawModule_bound m; 0] ++ ws1), ws'. split.
  - f_equal. rewrite <- (app_assoc _ ws1). apply (f_equal (app _)). apply (f_equal (app ws1)). unfold instruction_words. change (opcode (Core_OpExtInst op)) with 12.
    destruct Hwc as [->|[_ Z]]; [|discriminate]. reflexivity.
  - exists (with_instructions m before). split; [|reflexivity].
    apply read_module_complete. exists o, v, g, ws1. cbn [with_instructions RawModule_bound RawModule_version RawModule_generator RawModule_instructions].
    split; [reflexivity|]. split; [|auto].
    inversion Hw as [|? ? A Hw1]; subst. inversion Hw1 as [|? ? B Hws']; subst. apply Forall_app in Hws'.
    constructor; [exact A|]. constructor; [exact B|]. apply Hws'.
Qed.

(* the result ids of the imports of a module *)
Definition import_ids (is : list (Core E)) : list N :=
  flat_map (fun i => match i with Core_OpExtInstImport op => [OpExtInstImport_result_id op] | _ => [] end) is.

Lemma import_ids_in : forall is id, In id (import_ids is) -> exists name, In (Core_OpExtInstImport (Build_OpExtInstImport id name)) is.
Proof.
  intros is id H. unfold import_ids in H. apply in_flat_map in H. destruct H as (i & Hin & H).
  destruct i; try (solve [destruct H]). destruct o as [r name]. destruct H as [<-|[]]. exists name. exact Hin.
Qed.

Lemma NoDup_app_one : forall (l : list N) x, NoDup l -> ~ In x l -> NoDup (l ++ [x]).
Proof.
  intros l x Hl Hx. induction Hl as [|y l Hy Hl IH]; cbn [app]; [constructor; [auto|constructor]|].
  constructor; [|apply IH; cbn in Hx; tauto]. intro Hin. apply in_app_or in Hin. destruct Hin as [Hin|[->|[]]]; [contradiction|].
  apply Hx. left. reflexivity.
Qed.

Lemma wire_import_ids : forall known earlier is ws, wire_instructions known earlier is ws -> NoDup (import_ids earlier) ->
  NoDup (import_ids (earlier ++ is)).
Proof.
  intros known earlier is ws H. induction H as [earlier|earlier i is wc body ws Hi Hwc Hs Hws IH]; intro Hn.
  - rewrite app_nil_r. exact Hn.
  - replace (earlier ++ i :: is) with ((earlier ++ [i]) ++ is) by (rewrite <- app_assoc; reflexivity). apply IH.
    unfold import_ids. rewrite flat_map_app. fold (import_ids earlier). cbn [flat_map]. rewrite app_nil_r.
    destruct i; try (rewrite app_nil_r; exact Hn). destruct Hi as (_ & _ & Hf).
    apply NoDup_app_one; [exact Hn|]. intro Hin. apply import_ids_in in Hin. destruct Hin as (name & Hin). exact (Hf name Hin).
Qed.

Lemma wire_import_names : forall known earlier is ws, wire_instructions known earlier is ws ->
  forall id name, In (Core_OpExtInstImport (Build_OpExtInstImport id name)) is -> exists s, In s known /\ get_name s = name.
Proof.
  intros known earlier is ws H. induction H as [earlier|earlier i is wc body ws Hi Hwc Hs Hws IH]; intros id name Hin; [destruct Hin|].
  destruct Hin as [->|Hin]; [|eapply IH; exact Hin].
  destruct Hi as (_ & (r & b & s & a & -> & Hn & _) & _). exists s. split; [apply in_elt|exact Hn].
Qed.

Theorem imports_unique : forall data known m, read_module data known = Ok m ->
  NoDup (import_ids (RawModule_instructions m))
  /\ forall id name, In (Core_OpExtInstImport (Build_OpExtInstImport id name)) (RawModule_instructions m) ->
     exists s, In s known /\ get_name s = name.
Proof.
  intros data known m H. apply read_module_sound in H. destruct H as (o & v & g & ws & _ & _ & _ & _ & _ & Hwire).
  split; [apply (wire_import_ids known [] _ ws Hwire); constructor|]. eapply wire_import_names. exact Hwire.
Qed.

Lemma read_import : forall id name (ws : list N) known bound, wire_string name ws -> text name -> Forall word ws ->
  read_core_OpExtInstImport (id :: ws) known bound = import_loop id name [] bound known.
Proof.
  intros id name ws known bound Hs Ht Hw.
  assert (R : read_LitString ws = Ok ([], name)).
  { rewrite <- (app_nil_r ws). apply (good_complete (R := read_LitString) name ws [] Hw I). apply wire_one. split; assumption. }
  unfold read_core_OpExtInstImport, read_ResultId, read_word, bind. rewrite R. reflexivity.
Qed.

Theorem import_duplicate : forall o data known m id name name' ws rest, in_order o data -> read_module data known = Ok m ->
  In (Core_OpExtInstImport (Build_OpExtInstImport id name')) (RawModule_instructions m) ->
  (exists s, In s known /\ get_name s = name) ->
  word id -> wire_string name ws -> text name -> Forall word ws -> 2 + N.of_nat (List.length ws) < 65536 ->
  read_module (data ++ bytes_of_words o (instruction_words 11 (id :: ws)) ++ rest) known = Err (DuplicateResultId id).
Proof.
  intros o data known m id name name' ws rest Ho H Hin (s & Hs & Hn) Hid Hws Ht Hw Hl.
  destruct (read_next_words _ _ _ _ Ho H) as (bound & Hi & Hx).
  rewrite Hx; [|reflexivity|constructor; assumption|cbn [List.length]; lia].
  unfold decode. change (dispatch 11 _) with (@Ok ReadError _ (@read_core_OpExtInstImport E)). cbn [bind].
  rewrite (read_import _ _ _ _ _ Hws Ht Hw).
  destruct (proj2 Hi _ _ Hin) as (r & Hg & _).
  assert (Hsn : exists r', set_named known name r').
  { clear - Hs Hn. subst name. induction known as [|x known IH]; [destruct Hs|].
    destruct (string_dec (get_name x) (get_name s)) as [Eq|Ne].
    - exists (duplicate x). rewrite <- Eq. apply set_named_here.
    - destruct Hs as [->|Hs]; [contradiction|]. destruct (IH Hs) as (r' & Hr). exists r'. apply set_named_skip; assumption. }
  destruct Hsn as (r' & Hsn). rewrite (import_loop_duplicate _ _ _ _ _ _ _ Hsn Hg). reflexivity.
Qed.

Theorem import_unknown : forall o data known m id name ws rest, in_order o data -> read_module data known = Ok m ->
  (forall s, In s known -> get_name s <> name) ->
  word id -> wire_string name ws -> text name -> Forall word ws -> 2 + N.of_nat (List.length ws) < 65536 ->
  read_module (data ++ bytes_of_words o (instruction_words 11 (id :: ws)) ++ rest) known = Err (UnknownInstSet name).
Proof.
  intros o data known m id name ws rest Ho H Hun Hid Hws Ht Hw Hl.
  destruct (read_next_words _ _ _ _ Ho H) as (bound & Hi & Hx).
  rewrite Hx; [|reflexivity|constructor; assumption|cbn [List.length]; lia].
  unfold decode. change (dispatch 11 _) with (@Ok ReadError _ (@read_core_OpExtInstImport E)). cbn [bind].
  rewrite (read_import _ _ _ _ _ Hws Ht Hw).
  rewrite import_loop_unknown; [reflexivity|]. apply Forall_forall. exact Hun.
Qed.

Theorem ext_inst_unknown_set : forall o data known m (t r set number : N) (words : list N) rest, in_order o data -> read_module data known = Ok m ->
  (forall name, ~ In (Core_OpExtInstImport (Build_OpExtInstImport set name)) (RawModule_instructions m)) ->
  Forall word (t :: r :: set :: number :: words) -> 5 + N.of_nat (List.length words) < 65536 ->
  read_module (data ++ bytes_of_words o (instruction_words 12 (t :: r :: set :: number :: words)) ++ rest) known
    = Err (UnknownInstSetId set).
Proof.
  intros o data known m t r set number words rest Ho H Hn Hw Hl.
  destruct (read_next_words _ _ _ _ Ho H) as (bound & Hi & Hx).
  rewrite Hx; [|reflexivity|exact Hw|cbn [List.length]; lia].
  unfold decode. change (dispatch 12 _) with (@Ok ReadError _ (@read_core_OpExtInst E)). cbn [bind].
  unfold read_core_OpExtInst. cbn [read_OpId read_ResultId read_u32 read_word bind].
  rewrite (proj2 (bound_inv_none _ _ _ _ Hi) Hn). reflexivity.
Qed.

(** ** Header words (C16, C19, C22) *)

Lemma after_header : forall o v g b x known, word v -> word g -> word b ->
  read_module (bytes_of_words o [magic_number; v; g; b; 0] ++ x) known =
  let! ver := read_version v in
  let! _ := check_version ver in
  let! l := loop (Build_Stream x (le_of o)) known [] [] in
  Ok (Build_RawModule ver (Build_Generator (tool_of_id (g / 65536)) (g mod 65536)) b l).
Proof.
  intros o v g b x known Hv Hg Hb. rewrite read_module_magic.
  rewrite bytes_of_words_cons, <- app_assoc, header_magic. cbn [bind].
  unfold read_after_magic. rewrite bytes_of_words_cons, <- app_assoc, stream_read_word_ok by exact Hv. cbn [bind].
  destruct (read_version v) as [ver|?| |]; cbn [bind]; try reflexivity.
  destruct (check_version ver); cbn [bind]; try reflexivity.
  rewrite bytes_of_words_cons, <- app_assoc, stream_read_word_ok by exact Hg. cbn [bind].
  rewrite bytes_of_words_cons, <- app_assoc, stream_read_word_ok by exact Hb. cbn [bind].
  rewrite bytes_of_words_cons, <- app_assoc, stream_read_word_ok by reflexivity. cbn [bind N.eqb negb].
  change (bytes_of_words o [] ++ x) with x. rewrite head_low, (head_high g Hg). reflexivity.
Qed.

Theorem version_rejected : forall o v x known, word v -> ~ version_word_accepted v ->
  read_module (bytes_of_words o [magic_number; v] ++ x) known
  = Err (UnknownVersionBytes (v / 16777216) (v / 65536 mod 16) (v / 256 mod 16) (v mod 16)).
Proof.
  intros o v x known Hv Hn. rewrite read_module_magic. rewrite bytes_of_words_cons, <- app_assoc, header_magic. cbn [bind].
  unfold read_after_magic. rewrite bytes_of_words_cons, <- app_assoc, stream_read_word_ok by exact Hv. cbn [bind].
  destruct (read_version_cases v Hv) as [[A _]|[_ ->]]; [contradiction|]. reflexivity.
Qed.

Theorem version_accepted : forall o v x known, word v -> version_word_accepted v ->
  read_module (bytes_of_words o [magic_number; v] ++ x) known
  = read_module (bytes_of_words o [magic_number; 0x00010000] ++ x) known.
Proof.
  intros o v x known Hv Ha. rewrite !read_module_magic, !bytes_of_words_cons, <- !app_assoc, !header_magic. cbn [bind].
  unfold read_after_magic. rewrite !stream_read_word_ok by (exact Hv || reflexivity). cbn [bind].
  rewrite (proj2 (version_ok v Hv) Ha). reflexivity.
Qed.

Theorem bound_only_reported : forall o v g b1 b2 x known, word b1 -> word b2 ->
  read_module (bytes_of_words o [magic_number; v; g; b2] ++ x) known =
  match read_module (bytes_of_words o [magic_number; v; g; b1] ++ x) known with
  | Ok m => Ok (Build_RawModule (RawModule_version m) (RawModule_generator m) b2 (RawModule_instructions m))
  | failure => failure
  end.
Proof.
  intros o v g b1 b2 x known H1 H2. rewrite !read_module_magic, !bytes_of_words_cons, <- !app_assoc, !header_magic. cbn [bind].
  unfold read_after_magic.
  assert (Gen : forall w, exists n, forall rest,
    stream_read_word (Build_Stream (bytes_of_word o w ++ rest) (le_of o)) = Ok (Build_Stream rest (le_of o), n)).
  { intros w. destruct (bytes_of_word_form o w) as (a & b & c & d & ->).
    exists (if le_of o then le_u32 a b c d else be_u32 a b c d). intro rest. reflexivity. }
  destruct (Gen v) as (nv & Rv). destruct (Gen g) as (ng & Rg). clear Gen.
  rewrite !Rv. cbn [bind]. destruct (read_version nv) as [ver|?| |]; cbn [bind]; try reflexivity.
  destruct (check_version ver); cbn [bind]; try reflexivity. rewrite !Rg. cbn [bind].
  rewrite !stream_read_word_ok by assumption. cbn [bind].
  destruct (stream_read_word _) as [[s z]|?| |]; cbn [bind]; try reflexivity.
  destruct (negb (N.eqb z 0)); [reflexivity|]. destruct (read_instructions _ s known [] []); reflexivity.
Qed.

Theorem generator_decoded : forall o v g b x known m, word g ->
  read_module (bytes_of_words o [magic_number; v; g; b] ++ x) known = Ok m -> generator_word (RawModule_generator m) g.
Proof.
  intros o v g b x known m Hg H. apply read_module_sound in H.
  destruct H as (o' & v' & g' & ws & Hd & _ & _ & _ & Hgen & _).
  assert (Ho : o' = o).
  { apply (order_unique o' o (bytes_of_words o [magic_number; v; g; b] ++ x)).
    - rewrite Hd. eexists. reflexivity.
    - eexists. cbn [bytes_of_words flat_map]. rewrite <- !app_assoc. reflexivity. }
  subst o'. assert (Hgw : word g') by (destruct Hgen as (-> & A & B & _); unfold word; lia).
  assert (Eq : g' = g).
  { cbn [bytes_of_words flat_map app] in Hd. rewrite <- !app_assoc in Hd.
    apply app_inv_head in Hd.
    assert (L : forall (a b x y : list ascii), List.length a = List.length b -> a ++ x = b ++ y -> a = b /\ x = y).
    { clear. induction a as [|p a IH]; intros [|q b] x y Hl H; try discriminate; [auto|].
      injection H as -> H. injection Hl as Hl. destruct (IH _ _ _ Hl H) as [-> ->]. auto. }
    apply L in Hd; [|rewrite !bytes_of_word_length; reflexivity]. destruct Hd as [_ Hd].
    apply L in Hd; [|rewrite !bytes_of_word_length; reflexivity]. destruct Hd as [Hd _].
    pose proof (stream_read_word_ok o g [] Hg) as R1. pose proof (stream_read_word_ok o g' [] Hgw) as R2.
    rewrite Hd in R1. rewrite R1 in R2. apply Ok_inj in R2. congruence. }
  subst g'. exact Hgen.
Qed.

Theorem generator_word_injective : forall g1 g2 w1 w2, generator_word g1 w1 -> generator_word g2 w2 -> (g1 = g2 <-> w1 = w2).
Proof.
  intros [t1 v1] [t2 v2] w1 w2 (-> & A1 & B1 & C1) (-> & A2 & B2 & C2). cbn [Generator_tool Generator_version] in *. split.
  - intro H. injection H as -> ->. reflexivity.
  - intro H. assert (v1 = v2) by lia. assert (T : tool_number t1 = tool_number t2) by lia. subst v2. f_equal.
    rewrite <- (tool_of_number t1 C1), <- (tool_of_number t2 C2), T. reflexivity.
Qed.

(** ** Word count zero (C20) *)

Lemma dispatch_wc : forall op wc1 wc2, (@dispatch E op wc1 = @dispatch E op wc2)
  \/ (@dispatch E op wc1 = Err (UnknownOp op wc1) /\ @dispatch E op wc2 = Err (UnknownOp op wc2)).
Proof. intros op wc1 wc2. unfold dispatch. split_word; (left; reflexivity) || (right; split; reflexivity). Qed.

Theorem word_count_zero : forall o data known m op rest, in_order o data -> read_module data known = Ok m -> op < 65536 ->
  (read_module (data ++ bytes_of_words o [op] ++ rest) known
   = read_module (data ++ bytes_of_words o [op + 65536] ++ rest) known)
  \/ (read_module (data ++ bytes_of_words o [op] ++ rest) known = Err (UnknownOp op 0)
      /\ read_module (data ++ bytes_of_words o [op + 65536] ++ rest) known = Err (UnknownOp op 1)).
Proof.
  intros o data known m op rest Ho H Hop. destruct (read_next _ _ _ _ Ho H) as (bound & _ & Hx).
  rewrite (Hx op [] rest); [|unfold word; lia|constructor|rewrite N.div_small by lia; reflexivity].
  rewrite (Hx (op + 65536) [] rest); [|unfold word; lia|constructor|
    replace ((op + 65536) / 65536) with 1 by lia; reflexivity].
  replace ((op + 65536) / 65536) with 1 by lia. replace ((op + 65536) mod 65536) with op by lia.
  replace (op mod 65536) with op by lia. replace (op / 65536) with 0 by lia.
  unfold decode. destruct (dispatch_wc op 0 1) as [Eq|[E0 E1]].
  - left. rewrite Eq. reflexivity.
  - right. rewrite E0, E1. split; reflexivity.
Qed.

(** ** Aligned accesses (C21) *)

Lemma aligned_wire : forall mask, mask < 8 ->
  exists a, MemoryAccess_aligned a = N.testbit mask 1 /\ memory_access_bits a = mask.
Proof.
  intros mask H. exists (Build_MemoryAccess (N.testbit mask 0) (N.testbit mask 1) (N.testbit mask 2)). split; [reflexivity|].
  destruct mask as [|[[[]|[]|]|[[]|[]|]|]]; try reflexivity; lia.
Qed.

Theorem aligned_load_rejected : forall o data known m t r p mask alignment rest, in_order o data -> read_module data known = Ok m ->
  mask < 8 -> N.testbit mask 1 = true -> Forall word [t; r; p; alignment] ->
  read_module (data ++ bytes_of_words o (instruction_words 61 [t; r; p; mask; alignment]) ++ rest) known = Err InstructionHadExcessData
  /\ exists m', read_module (data ++ bytes_of_words o (instruction_words 61 [t; r; p; mask])) known = Ok m'.
Proof.
  intros o data known m t r p mask alignment rest Ho H Hm Ha Hw.
  destruct (aligned_wire mask Hm) as (acc & A1 & A2).
  inversion Hw as [|? ? W1 Hw1]; subst. inversion Hw1 as [|? ? W2 Hw2]; subst. inversion Hw2 as [|? ? W3 Hw3]; subst. inversion Hw3 as [|? ? W4 _]; subst.
  assert (Hmw : word (memory_access_bits acc)) by (unfold word; lia).
  assert (Hwi : forall known l, wire_instruction known l (Core_OpLoad (E := E) (Build_OpLoad t r p (Some acc))) [t; r; p; memory_access_bits acc]).
  { intros. split; [split; exact I|]. cbn [operands opt app num memory_access_operand wire_operands wire_operand].
    exists [t], [r; p; memory_access_bits acc]. split; [reflexivity|]. split; [reflexivity|].
    exists [r], [p; memory_access_bits acc]. split; [reflexivity|]. split; [reflexivity|].
    exists [p], [memory_access_bits acc]. split; [reflexivity|]. split; [reflexivity|].
    exists [memory_access_bits acc], []. split; [reflexivity|]. split; [|reflexivity].
    exists (memory_access_bits acc). split; [reflexivity|]. destruct acc as [[] [] []]; reflexivity. }
  split.
  - apply (next_excess o data known m (Core_OpLoad (Build_OpLoad t r p (Some acc))) [t; r; p; memory_access_bits acc] [alignment]); try assumption.
    + apply Hwi.
    + discriminate.
    + discriminate.
    + repeat (constructor; try assumption).
    + reflexivity.
  - destruct (read_next_words _ _ _ _ Ho H) as (bound & Hb & Hx).
    specialize (Hx 61 [t; r; p; memory_access_bits acc] [] ltac:(reflexivity)). rewrite app_nil_r in Hx.
    rewrite Hx; [|repeat (constructor; try assumption)|reflexivity].
    assert (Hf : Forall word [t; r; p; memory_access_bits acc]) by (repeat (constructor; try assumption)).
    destruct (decode_complete (1 + N.of_nat (List.length [t; r; p; memory_access_bits acc])) _ _ _ _ _ Hb Hf (Hwi known (RawModule_instructions m))) as (b' & Hd & _).
    change (opcode (Core_OpLoad (E := E) (Build_OpLoad t r p (Some acc)))) with 61 in Hd. rewrite Hd. cbn [bind]. rewrite loop_end. eexists. reflexivity.
Qed.

Theorem aligned_store_rejected : forall o data known m p v mask alignment rest, in_order o data -> read_module data known = Ok m ->
  mask < 8 -> N.testbit mask 1 = true -> Forall word [p; v; alignment] ->
  read_module (data ++ bytes_of_words o (instruction_words 62 [p; v; mask; alignment]) ++ rest) known = Err InstructionHadExcessData
  /\ exists m', read_module (data ++ bytes_of_words o (instruction_words 62 [p; v; mask])) known = Ok m'.
Proof.
  intros o data known m p v mask alignment rest Ho H Hm Ha Hw.
  destruct (aligned_wire mask Hm) as (acc & A1 & A2).
  inversion Hw as [|? ? W1 Hw1]; subst. inversion Hw1 as [|? ? W2 Hw2]; subst. inversion Hw2 as [|? ? W3 _]; subst.
  assert (Hmw : word (memory_access_bits acc)) by (unfold word; lia).
  assert (Hwi : forall known l, wire_instruction known l (Core_OpStore (E := E) (Build_OpStore p v (Some acc))) [p; v; memory_access_bits acc]).
  { intros. split; [split; exact I|]. cbn [operands opt app num memory_access_operand wire_operands wire_operand].
    exists [p], [v; memory_access_bits acc]. split; [reflexivity|]. split; [reflexivity|].
    exists [v], [memory_access_bits acc]. split; [reflexivity|]. split; [reflexivity|].
    exists [memory_access_bits acc], []. split; [reflexivity|]. split; [|reflexivity].
    exists (memory_access_bits acc). split; [reflexivity|]. destruct acc as [[] [] []]; reflexivity. }
  split.
  - apply (next_excess o data known m (Core_OpStore (Build_OpStore p v (Some acc))) [p; v; memory_access_bits acc] [alignment]); try assumption.
    + apply Hwi.
    + discriminate.
    + discriminate.
    + repeat (constructor; try assumption).
    + reflexivity.
  - destruct (read_next_words _ _ _ _ Ho H) as (bound & Hb & Hx).
    specialize (Hx 62 [p; v; memory_access_bits acc] [] ltac:(reflexivity)). rewrite app_nil_r in Hx.
    rewrite Hx; [|repeat (constructor; try assumption)|reflexivity].
    assert (Hf : Forall word [p; v; memory_access_bits acc]) by (repeat (constructor; try assumption)).
    destruct (decode_complete (1 + N.of_nat (List.length [p; v; memory_access_bits acc])) _ _ _ _ _ Hb Hf (Hwi known (RawModule_instructions m))) as (b' & Hd & _).
    change (opcode (Core_OpStore (E := E) (Build_OpStore p v (Some acc)))) with 62 in Hd. rewrite Hd. cbn [bind]. rewrite loop_end. eexists. reflexivity.
Qed.

(** ** Undispatched variants (C23) *)

Theorem accepted_readable : forall data known m, read_module data known = Ok m -> Forall readable (RawModule_instructions m).
Proof.
  intros data known m H. apply read_module_sound in H. destruct H as (o & v & g & ws & _ & _ & _ & _ & _ & Hwire).
  clear - Hwire. induction Hwire; constructor; [eapply wire_readable; eassumption|assumption].
Qed.

End Facts.
