(** Property theorems about read_module, C01-C24 and C61.  Every proof is one lemma from
    the Proofs files; the vocabulary of the statements is in Spec_Wire, Spec_Tables,
    Spec_Opcodes, Spec_Operands and Spec_Unicode. *)
From Verif Require Import Base Types Ops ReadErr ReadBase ReadOperands ExtSet ReadOps Reader Glsl450
  Spec_Unicode Spec_Tables Spec_Wire Spec_Opcodes Spec_Operands Samples
  Proofs_Reader Proofs_Encode Proofs_Next Proofs_Facts Proofs_Facts2.
Local Open Scope N_scope.

(** ** C01 *)
Theorem C01_little_endian_round_trip : forall E (known : list (ExtInstSet E)) m p,
  encodable known m p -> read_module (encode_module LittleEndian m p) known = Ok m.
Proof. intros E known m p. exact (read_encoded known LittleEndian m p). Qed.
Print Assumptions C01_little_endian_round_trip.

Example C01_example : exists p, encodable [InstSet] sample p.
Proof. destruct (accepted_normalises _ _ _ (sample_read LittleEndian)) as (p & H & _). exists p. exact H. Qed.

(** ** C02 *)
Theorem C02_big_endian_round_trip : forall E (known : list (ExtInstSet E)) m p,
  encodable known m p -> read_module (encode_module BigEndian m p) known = Ok m.
Proof. intros E known m p. exact (read_encoded known BigEndian m p). Qed.
Print Assumptions C02_big_endian_round_trip.

Example C02_example : exists p, encodable [InstSet] sample p.
Proof. exact C01_example. Qed.

(** ** C03 *)
Theorem C03_byte_order_irrelevant : forall E (known : list (ExtInstSet E)) data,
  read_module (swap_words data) known = read_module data known.
Proof. intros E known data. exact (swap_same data known). Qed.
Print Assumptions C03_byte_order_irrelevant.

Example C03_example : swap_words (sample_bytes LittleEndian) = sample_bytes BigEndian
  /\ sample_bytes LittleEndian <> sample_bytes BigEndian.
Proof. split; [vm_compute; reflexivity|]. intro H. apply (f_equal (hd zero)) in H. vm_compute in H. discriminate H. Qed.

(** ** C04 *)
Theorem C04_exact_acceptance : forall E (known : list (ExtInstSet E)) data m,
  read_module data known = Ok m <-> wire_module known data m.
Proof. intros E known data m. exact (read_exact data known m). Qed.
Print Assumptions C04_exact_acceptance.

Example C04_example : wire_module [InstSet] (sample_bytes BigEndian) sample.
Proof. apply C04_exact_acceptance, sample_read. Qed.

(** ** C05 *)
Theorem C05_accepted_input_normalises : forall E (known : list (ExtInstSet E)) data m,
  read_module data known = Ok m ->
  exists p, encodable known m p
    /\ forall o, read_module (encode_module o m p) known = Ok m
       /\ List.length (encode_module o m p) = List.length data.
Proof. intros E known data m. exact (accepted_normalises data known m). Qed.
Print Assumptions C05_accepted_input_normalises.

Example C05_example : read_module (sample_bytes LittleEndian) [InstSet] = Ok sample.
Proof. exact (sample_read LittleEndian). Qed.

(** ** C06 *)
Theorem C06_reader_returns : forall E (known : list (ExtInstSet E)) data,
  (forall s n ws, In s known -> (exists r, duplicate s n ws = Ok r) \/ (exists e, duplicate s n ws = Err e)) ->
  (exists m, read_module data known = Ok m) \/ (exists e, read_module data known = Err e).
Proof. intros E known data. exact (read_returns data known). Qed.
Print Assumptions C06_reader_returns.

Example C06_example : forall s n ws, In s [InstSet] -> (exists r, duplicate s n ws = Ok r) \/ (exists e, duplicate s n ws = Err e).
Proof.
  intros s n ws [<-|[]]. cbn [duplicate InstSet]. unfold glsl450_read_instruction.
  destruct (N.eq_dec n 13) as [->|N1]; [destruct ws; [right|left]; eexists; reflexivity|].
  destruct (N.eq_dec n 14) as [->|N2]; [destruct ws; [right|left]; eexists; reflexivity|].
  right. exists (UnknownExtInstOp glsl450_name n).
  repeat match goal with |- context [match ?x with _ => _ end] => is_var x; destruct x; try reflexivity; try congruence end.
Qed.

(** ** C07 *)
Theorem C07_whole_words_only : forall E (known : list (ExtInstSet E)) data m,
  read_module data known = Ok m -> (List.length data mod 4 = 0)%nat /\ (20 <= List.length data)%nat.
Proof. intros E known data m. exact (accepted_whole_words data known m). Qed.
Print Assumptions C07_whole_words_only.

Example C07_example : read_module (empty_bytes BigEndian) [InstSet] = Ok empty_module /\ List.length (empty_bytes BigEndian) = 20%nat.
Proof. split; vm_compute; reflexivity. Qed.

(** ** C08 *)
Theorem C08_truncation : forall E (known : list (ExtInstSet E)) data m k,
  read_module data known = Ok m -> (k < List.length data)%nat ->
  match read_module (firstn k data) known with
  | Ok m' => (k mod 4 = 0)%nat /\ same_header m m'
      /\ exists n, (n < List.length (RawModule_instructions m))%nat /\ RawModule_instructions m' = firstn n (RawModule_instructions m)
  | Err e => if Nat.eqb (k mod 4) 0 then e = UnexpectedEndOfStream else e = UnexpectedStreamAlignment
  | _ => False
  end.
Proof. intros E known data m k. exact (read_truncated data known m k). Qed.
Print Assumptions C08_truncation.

Theorem C08_every_prefix_is_a_cut : forall E (known : list (ExtInstSet E)) data m n,
  read_module data known = Ok m ->
  exists k m', read_module (firstn k data) known = Ok m' /\ same_header m m'
    /\ RawModule_instructions m' = firstn n (RawModule_instructions m).
Proof. intros E known data m n. exact (read_prefix data known m n). Qed.
Print Assumptions C08_every_prefix_is_a_cut.

Example C08_example :
  read_module (firstn 28 (sample_bytes BigEndian)) [InstSet]
    = Ok (Build_RawModule (Build_Version 1 0) (Build_Generator (Tool_Other 77) 3) 11 (firstn 1 sample_instructions))
  /\ read_module (firstn 36 (sample_bytes BigEndian)) [InstSet] = Err UnexpectedEndOfStream
  /\ read_module (firstn 37 (sample_bytes BigEndian)) [InstSet] = Err UnexpectedStreamAlignment.
Proof. repeat split; vm_compute; reflexivity. Qed.

(** ** C09 *)
Theorem C09_error_is_final : forall E (known : list (ExtInstSet E)) data x e,
  read_module data known = Err e -> e <> UnexpectedEndOfStream -> e <> UnexpectedStreamAlignment ->
  read_module (data ++ x) known = Err e.
Proof. intros E known data x e. exact (error_stable data x known e). Qed.
Print Assumptions C09_error_is_final.

Theorem C09_success_only_extends : forall E (known : list (ExtInstSet E)) data x m m',
  read_module data known = Ok m -> x <> [] -> read_module (data ++ x) known = Ok m' ->
  same_header m m' /\ exists i l, RawModule_instructions m' = RawModule_instructions m ++ i :: l.
Proof. intros E known data x m m'. exact (read_extended data x known m m'). Qed.
Print Assumptions C09_success_only_extends.

Example C09_example :
  read_module (sample_bytes LittleEndian ++ bytes_of_words LittleEndian [0x0002FFFF; 7]) [InstSet] = Err (UnknownOp 65535 2)
  /\ (exists m', read_module (sample_bytes LittleEndian ++ bytes_of_words LittleEndian [0x00010000; 0x00010000]) [InstSet] = Ok m').
Proof. split; [vm_compute; reflexivity|eexists; vm_compute; reflexivity]. Qed.

(** ** C10 *)
Theorem C10_unknown_opcode : forall E (known : list (ExtInstSet E)) o data m op body rest,
  in_order o data -> read_module data known = Ok m ->
  op < 65536 -> Forall word body -> 1 + N.of_nat (List.length body) < 65536 ->
  opcode_support op = Unknown ->
  read_module (data ++ bytes_of_words o (instruction_words op body) ++ rest) known
    = Err (UnknownOp op (1 + N.of_nat (List.length body))).
Proof. intros E known o data m op body rest. exact (next_unknown o data known m op body rest). Qed.
Print Assumptions C10_unknown_opcode.

Theorem C10_unimplemented_opcode : forall E (known : list (ExtInstSet E)) o data m op body rest name,
  in_order o data -> read_module data known = Ok m ->
  op < 65536 -> Forall word body -> 1 + N.of_nat (List.length body) < 65536 ->
  opcode_support op = Unimplemented name ->
  read_module (data ++ bytes_of_words o (instruction_words op body) ++ rest) known = Err (UnimplementedOp name).
Proof. intros E known o data m op body rest name. exact (next_unimplemented o data known m op body rest name). Qed.
Print Assumptions C10_unimplemented_opcode.

(** For OpExtInst (12) the set's own reader may return any error. *)
Theorem C10_decoded_opcode : forall E (known : list (ExtInstSet E)) o data m op body name,
  in_order o data -> read_module data known = Ok m ->
  op < 65536 -> Forall word body -> 1 + N.of_nat (List.length body) < 65536 ->
  opcode_support op = Decoded name ->
  match read_module (data ++ bytes_of_words o (instruction_words op body)) known with
  | Ok m' => same_header m m' /\ exists i, RawModule_instructions m' = RawModule_instructions m ++ [i] /\ opcode i = op
  | Err (UnknownOp _ _) | Err (UnimplementedOp _) => op = 12
  | _ => True
  end.
Proof. intros E known o data m op body name. exact (next_decoded o data known m op body name). Qed.
Print Assumptions C10_decoded_opcode.

Example C10_example :
  opcode_support 400 = Unknown /\ opcode_support 86 = Unimplemented "OpSampledImage"%string /\ opcode_support 61 = Decoded "OpLoad"%string.
Proof. repeat split; vm_compute; reflexivity. Qed.
(** All hypotheses of the three theorems for one file and one body. *)
Example C10_met : forall o, in_order o (sample_bytes o) /\ read_module (sample_bytes o) [InstSet] = Ok sample
  /\ 400 < 65536 /\ Forall word [7; 4294967295] /\ 1 + N.of_nat (List.length [7; 4294967295]) < 65536.
Proof. intro o. split; [apply sample_in_order|]. split; [apply sample_read|]. split; [reflexivity|]. split; [repeat constructor|reflexivity]. Qed.

(** ** C11 *)
Theorem C11_excess_words : forall E (known : list (ExtInstSet E)) o data m i body extra rest,
  in_order o data -> read_module data known = Ok m ->
  wire_instruction known (RawModule_instructions m) i body -> complete i -> extra <> [] ->
  Forall word (body ++ extra) -> 1 + N.of_nat (List.length (body ++ extra)) < 65536 ->
  read_module (data ++ bytes_of_words o (instruction_words (opcode i) (body ++ extra)) ++ rest) known
    = Err InstructionHadExcessData.
Proof. intros E known o data m i body extra rest. exact (next_excess o data known m i body extra rest). Qed.
Print Assumptions C11_excess_words.

Theorem C11_excess_words_extended : forall E (known : list (ExtInstSet E)) o data m t r set number words left x rd rest,
  in_order o data -> read_module data known = Ok m ->
  imported known (RawModule_instructions m) set rd -> rd number words = Ok (left, x) -> left <> [] ->
  Forall word (t :: r :: set :: number :: words) -> 5 + N.of_nat (List.length words) < 65536 ->
  read_module (data ++ bytes_of_words o (instruction_words 12 (t :: r :: set :: number :: words)) ++ rest) known
    = Err InstructionHadExcessData.
Proof.
  intros E known o data m t r set number words left x rd rest.
  exact (next_ext_excess o data known m t r set number words left x rd rest).
Qed.
Print Assumptions C11_excess_words_extended.

Theorem C11_missing_words : forall E (known : list (ExtInstSet E)) o data m (i : Core E) p1 p2 rest,
  in_order o data -> read_module data known = Ok m ->
  representable i -> wire_operands (required i) (p1 ++ p2) -> p2 <> [] ->
  Forall word (p1 ++ p2) -> 1 + N.of_nat (List.length p1) < 65536 ->
  read_module (data ++ bytes_of_words o (instruction_words (opcode i) p1) ++ rest) known = Err UnexpectedEndOfInstruction.
Proof. intros E known o data m i p1 p2 rest. exact (next_short o data known m i p1 p2 rest). Qed.
Print Assumptions C11_missing_words.

Theorem C11_next_instruction_not_consulted : forall E (known : list (ExtInstSet E)) o data m op body,
  in_order o data -> read_module data known = Ok m ->
  op < 65536 -> Forall word body -> 1 + N.of_nat (List.length body) < 65536 ->
  match read_module (data ++ bytes_of_words o (instruction_words op body)) known with
  | Ok m1 => exists i, RawModule_instructions m1 = RawModule_instructions m ++ [i] /\ opcode i = op /\
      wire_instruction known (RawModule_instructions m) i body /\
      forall rest m2, read_module (data ++ bytes_of_words o (instruction_words op body) ++ rest) known = Ok m2 ->
      same_header m m2 /\ exists l, RawModule_instructions m2 = RawModule_instructions m ++ i :: l
  | failure => forall rest, read_module (data ++ bytes_of_words o (instruction_words op body) ++ rest) known = failure
  end.
Proof. intros E known o data m op body. exact (next_local o data known m op body). Qed.
Print Assumptions C11_next_instruction_not_consulted.

Example C11_example :
  read_module (sample_bytes BigEndian ++ bytes_of_words BigEndian (instruction_words 17 [1; 1])) [InstSet] = Err InstructionHadExcessData
  /\ read_module (sample_bytes BigEndian ++ bytes_of_words BigEndian (instruction_words 17 [])) [InstSet] = Err UnexpectedEndOfInstruction
  /\ wire_instruction [InstSet] sample_instructions (Core_OpCapability (Build_OpCapability Capability_Shader)) [1]
  /\ complete (Core_OpCapability (E := Inst) (Build_OpCapability Capability_Shader)).
Proof.
  split; [vm_compute; reflexivity|]. split; [vm_compute; reflexivity|]. split; [|intros []].
  split; [split; exact I|]. exists [1], []. repeat split.
Qed.
(** An extended instruction with a word that the set does not take. *)
Example C11_extended_met : imported [InstSet] (RawModule_instructions sample) 1 (duplicate InstSet)
  /\ duplicate InstSet 13 [8; 9] = Ok ([9], Inst_Sin (Build_Sin 8)) /\ Forall word [4; 12; 1; 13; 8; 9]
  /\ read_module (sample_bytes BigEndian ++ bytes_of_words BigEndian (instruction_words 12 [4; 12; 1; 13; 8; 9])) [InstSet] = Err InstructionHadExcessData.
Proof.
  split; [|split; [reflexivity|split; [repeat constructor|vm_compute; reflexivity]]].
  exists "GLSL.std.450"%string. split; [right; left; reflexivity|]. exists [], InstSet, []. repeat split. constructor.
Qed.
(** A load that lacks its pointer. *)
Example C11_missing_met : let i := Core_OpLoad (E := Inst) (Build_OpLoad 4 12 9 (Some (Build_MemoryAccess true false false))) in
  representable i /\ wire_operands (required i) ([4; 12] ++ [9]) /\ Forall word ([4; 12] ++ [9])
  /\ read_module (sample_bytes LittleEndian ++ bytes_of_words LittleEndian (instruction_words 61 [4; 12])) [InstSet] = Err UnexpectedEndOfInstruction.
Proof.
  split; [split; exact I|]. split; [|split; [repeat constructor|vm_compute; reflexivity]].
  exists [4], [12; 9]. split; [reflexivity|]. split; [reflexivity|]. exists [12], [9]. split; [reflexivity|]. split; [reflexivity|].
  exists [9], []. repeat split.
Qed.

(** ** C12 *)
Theorem C12_extended_instruction_resolves : forall E (known : list (ExtInstSet E)) data m before op after,
  read_module data known = Ok m -> RawModule_instructions m = before ++ Core_OpExtInst op :: after ->
  exists name r number words,
    In (Core_OpExtInstImport (Build_OpExtInstImport (OpExtInst_set op) name)) before
    /\ set_named known name r /\ r number words = Ok ([], OpExtInst_instruction op)
    /\ exists o ws1 ws2, data = bytes_of_words o (ws1
         ++ instruction_words 12 ([OpExtInst_result_type op; OpExtInst_result_id op; OpExtInst_set op; number] ++ words) ++ ws2)
       /\ exists m1, read_module (bytes_of_words o ws1) known = Ok m1 /\ RawModule_instructions m1 = before.
Proof. intros E known data m before op after. exact (ext_inst_resolved data known m before op after). Qed.
Print Assumptions C12_extended_instruction_resolves.

Theorem C12_unimported_set : forall E (known : list (ExtInstSet E)) o data m t r set number words rest,
  in_order o data -> read_module data known = Ok m ->
  (forall name, ~ In (Core_OpExtInstImport (Build_OpExtInstImport set name)) (RawModule_instructions m)) ->
  Forall word (t :: r :: set :: number :: words) -> 5 + N.of_nat (List.length words) < 65536 ->
  read_module (data ++ bytes_of_words o (instruction_words 12 (t :: r :: set :: number :: words)) ++ rest) known
    = Err (UnknownInstSetId set).
Proof.
  intros E known o data m t r set number words rest. exact (ext_inst_unknown_set o data known m t r set number words rest).
Qed.
Print Assumptions C12_unimported_set.

Example C12_example : exists before op after, RawModule_instructions sample = before ++ Core_OpExtInst op :: after.
Proof. exists (firstn 11 sample_instructions). eexists _, _. reflexivity. Qed.
(** Only the set 1 is imported. *)
Example C12_unimported_met : (forall name, ~ In (Core_OpExtInstImport (Build_OpExtInstImport 2 name)) (RawModule_instructions sample))
  /\ Forall word [4; 12; 2; 13; 8]
  /\ read_module (sample_bytes BigEndian ++ bytes_of_words BigEndian (instruction_words 12 [4; 12; 2; 13; 8])) [InstSet] = Err (UnknownInstSetId 2).
Proof.
  split; [intros name H; cbn in H; repeat (destruct H as [H|H]; [discriminate H|]); destruct H|].
  split; [repeat constructor|vm_compute; reflexivity].
Qed.

(** ** C13 *)
Theorem C13_imports_unique_and_known : forall E (known : list (ExtInstSet E)) data m,
  read_module data known = Ok m ->
  NoDup (map OpExtInstImport_result_id (imports_of (RawModule_instructions m)))
  /\ forall id name, In (Core_OpExtInstImport (Build_OpExtInstImport id name)) (RawModule_instructions m) ->
     exists s, In s known /\ get_name s = name.
Proof. intros E known data m. exact (imports_unique' data known m). Qed.
Print Assumptions C13_imports_unique_and_known.

Theorem C13_duplicate_import : forall E (known : list (ExtInstSet E)) o data m id name name' ws rest,
  in_order o data -> read_module data known = Ok m ->
  In (Core_OpExtInstImport (Build_OpExtInstImport id name')) (RawModule_instructions m) ->
  (exists s, In s known /\ get_name s = name) ->
  word id -> wire_string name ws -> text name -> Forall word ws -> 2 + N.of_nat (List.length ws) < 65536 ->
  read_module (data ++ bytes_of_words o (instruction_words 11 (id :: ws)) ++ rest) known = Err (DuplicateResultId id).
Proof. intros E known o data m id name name' ws rest. exact (import_duplicate o data known m id name name' ws rest). Qed.
Print Assumptions C13_duplicate_import.

Theorem C13_unknown_import : forall E (known : list (ExtInstSet E)) o data m id name ws rest,
  in_order o data -> read_module data known = Ok m ->
  (forall s, In s known -> get_name s <> name) ->
  word id -> wire_string name ws -> text name -> Forall word ws -> 2 + N.of_nat (List.length ws) < 65536 ->
  read_module (data ++ bytes_of_words o (instruction_words 11 (id :: ws)) ++ rest) known = Err (UnknownInstSet name).
Proof. intros E known o data m id name ws rest. exact (import_unknown o data known m id name ws rest). Qed.
Print Assumptions C13_unknown_import.

Example C13_example : In (Core_OpExtInstImport (Build_OpExtInstImport 1 "GLSL.std.450"%string)) (RawModule_instructions sample)
  /\ wire_string "abc" [0x00636261] /\ read_LitString [0x00636261] = Ok ([], "abc"%string).
Proof. split; [right; left; reflexivity|]. split; [exists []; split; [repeat constructor|vm_compute; reflexivity]|vm_compute; reflexivity]. Qed.
(** A second import with the id of the first, and one of a set that is not known. *)
Example C13_met : let name := "GLSL.std.450"%string in
  (exists s, In s [InstSet] /\ get_name s = name) /\ wire_string name (encode_string name) /\ text name /\ Forall word (encode_string name)
  /\ read_module (sample_bytes BigEndian ++ bytes_of_words BigEndian (instruction_words 11 (1 :: encode_string name))) [InstSet] = Err (DuplicateResultId 1)
  /\ (forall s, In s [InstSet] -> get_name s <> "abc"%string) /\ text "abc"
  /\ read_module (sample_bytes BigEndian ++ bytes_of_words BigEndian (instruction_words 11 [2; 0x00636261])) [InstSet] = Err (UnknownInstSet "abc").
Proof.
  intro name. split; [exists InstSet; split; [left; reflexivity|reflexivity]|].
  split; [exists [0; 0; 0]; split; [repeat constructor|vm_compute; reflexivity]|].
  split; [split; [exists (bytes_of_string name); split; [repeat constructor|vm_compute; reflexivity]|vm_compute; intuition discriminate]|].
  split; [let l := eval vm_compute in (encode_string name) in change (Forall word l); repeat constructor|]. split; [vm_compute; reflexivity|].
  split; [intros s [<-|[]]; discriminate|]. split; [split; [exists [97; 98; 99]; split; [repeat constructor|vm_compute; reflexivity]|vm_compute; intuition discriminate]|].
  vm_compute; reflexivity.
Qed.

(** ** C14 *)
Theorem C14_string_round_trip : forall s rest, text s -> read_LitString (encode_string s ++ rest) = Ok (rest, s).
Proof. exact string_round_trip. Qed.
Print Assumptions C14_string_round_trip.

Theorem C14_string_is_the_bytes_before_nul : forall ws rest s, Forall word ws -> read_LitString ws = Ok (rest, s) ->
  exists pre padding, ws = pre ++ rest /\ word_bytes pre = bytes_of_string s ++ 0 :: padding
    /\ ~ In 0 (bytes_of_string s) /\ (List.length padding < 4)%nat.
Proof. exact string_read_bytes. Qed.
Print Assumptions C14_string_is_the_bytes_before_nul.

Example C14_example : text "naïve"%string /\ encode_string "naïve"%string = [0xAFC3616E; 0x00006576].
Proof.
  split; [split|vm_compute; reflexivity].
  - exists [110; 97; 239; 118; 101]. split; [repeat constructor|vm_compute; reflexivity].
  - vm_compute. intuition discriminate.
Qed.

(** ** C15 *)
Theorem C15_string_iff_unicode : forall ws rest bytes padding,
  Forall word ws -> ~ In 0 bytes -> (List.length padding < 4)%nat -> word_bytes ws = bytes ++ 0 :: padding ->
  (is_utf8 bytes -> exists s, bytes_of_string s = bytes /\ read_LitString (ws ++ rest) = Ok (rest, s))
  /\ (~ is_utf8 bytes -> read_LitString (ws ++ rest) = Err InvalidString).
Proof. exact string_decision. Qed.
Print Assumptions C15_string_iff_unicode.

Theorem C15_unterminated_string : forall ws, Forall word ws -> ~ In 0 (word_bytes ws) ->
  read_LitString ws = Err UnexpectedEndOfInstruction.
Proof. exact string_unterminated. Qed.
Print Assumptions C15_unterminated_string.

(** ED A0 80 would be the surrogate D800; C0 80 an overlong form. *)
Example C15_example : word_bytes [0x0080A0ED] = [0xED; 0xA0; 0x80] ++ 0 :: [] /\ read_LitString [0x0080A0ED] = Err InvalidString
  /\ read_LitString [0x000080C0] = Err InvalidString.
Proof. repeat split; vm_compute; reflexivity. Qed.

(** ** C16 *)
Theorem C16_version_accepted : forall E (known : list (ExtInstSet E)) o v x, word v -> version_word_accepted v ->
  read_module (bytes_of_words o [magic_number; v] ++ x) known
  = read_module (bytes_of_words o [magic_number; 0x00010000] ++ x) known.
Proof. intros E known o v x. exact (version_accepted o v x known). Qed.
Print Assumptions C16_version_accepted.

Theorem C16_version_rejected : forall E (known : list (ExtInstSet E)) o v x, word v -> ~ version_word_accepted v ->
  read_module (bytes_of_words o [magic_number; v] ++ x) known
  = Err (UnknownVersionBytes (v / 16777216) (v / 65536 mod 16) (v / 256 mod 16) (v mod 16)).
Proof. intros E known o v x. exact (version_rejected o v x known). Qed.
Print Assumptions C16_version_rejected.

(** The expectation that only the version word of SPIR-V 1.0 passes does not hold. *)
Theorem C16_only_1_0_refuted : exists v m, word v /\ v <> 0x00010000
  /\ read_module (bytes_of_words LittleEndian [magic_number; v; 0; 1; 0]) [InstSet] = Ok m.
Proof. exists 0x00F1F0F0. eexists. split; [reflexivity|]. split; [discriminate|]. vm_compute. reflexivity. Qed.
Print Assumptions C16_only_1_0_refuted.

Example C16_example : version_word_accepted 0x00F1F0F0 /\ ~ version_word_accepted 0x00010100.
Proof. split; [repeat split; reflexivity|]. intros (_ & _ & H & _). vm_compute in H. discriminate H. Qed.

(** ** C17 *)
Theorem C17_memory_access : decodes_mask read_MemoryAccess 0xFFF8 memory_access_of UnknownMemoryAccess.
Proof. exact mask_MemoryAccess. Qed.
Print Assumptions C17_memory_access.
Theorem C17_fp_fast_math : decodes_mask read_FpFastMathMode 0xFFC0 fp_fast_math_of UnknownFpFastMathMode.
Proof. exact mask_FpFastMathMode. Qed.
Print Assumptions C17_fp_fast_math.
Theorem C17_selection_control : decodes_mask read_SelectionControl 0xFFFC selection_control_of UnknownSelectionControl.
Proof. exact mask_SelectionControl. Qed.
Print Assumptions C17_selection_control.
Theorem C17_function_control : forall w rest, read_FunctionControl (w :: rest) = Ok (rest, function_control_of w).
Proof. exact mask_FunctionControl. Qed.
Print Assumptions C17_function_control.
Theorem C17_loop_control : forall w rest,
  read_LoopControl (w :: rest) =
  if negb (N.land w 0xFFF0 =? 0) then Err (UnknownLoopControl w)
  else if N.testbit w 3
    then match rest with [] => Err UnexpectedEndOfInstruction | n :: rest' => Ok (rest', loop_control_of w (Some n)) end
    else Ok (rest, loop_control_of w None).
Proof. exact mask_LoopControl. Qed.
Print Assumptions C17_loop_control.

(** Unknown flags are not always rejected. *)
Theorem C17_all_unknown_flags_rejected_refuted :
  (exists w, word w /\ 8 <= w /\ read_MemoryAccess [w] = read_MemoryAccess [0])
  /\ (exists w, word w /\ w < 65536 /\ 32 <= w /\ read_FpFastMathMode [w] = read_FpFastMathMode [0])
  /\ (exists w, word w /\ w < 65536 /\ 16 <= w /\ read_FunctionControl [w] = read_FunctionControl [0]).
Proof.
  split; [exists 0x10000|split; [exists 0x20|exists 0x8000]]; repeat split; discriminate.
Qed.
Print Assumptions C17_all_unknown_flags_rejected_refuted.

Example C17_example : read_MemoryAccess [5; 9] = Ok ([9], Build_MemoryAccess true false true)
  /\ read_LoopControl [9; 4] = Ok ([], Build_LoopControl true false false (Some 4))
  /\ read_SelectionControl [4] = Err (UnknownSelectionControl 4).
Proof. repeat split. Qed.

(** ** C18 *)
Theorem C18_enumerants :
  decodes read_AddressingModel addressing_model_number UnknownAddressingModel
  /\ decodes read_MemoryModel memory_model_number UnknownMemoryModel
  /\ decodes read_ExecutionModel execution_model_number UnknownExecutionModel
  /\ decodes read_Capability capability_number UnknownCapability
  /\ decodes read_Signedness signedness_number UnknownSignedness
  /\ decodes read_Dim dim_number UnknownDim
  /\ decodes read_DepthStatus depth_number UnknownDepthStatus
  /\ decodes read_Arrayed arrayed_number UnknownArrayed
  /\ decodes read_MS ms_number UnknownMS
  /\ decodes read_SampledStatus sampled_number UnknownSampledStatus
  /\ decodes read_ImageFormat image_format_number UnknownImageFormat
  /\ decodes read_AccessQualifier access_qualifier_number UnknownAccessQualifier
  /\ decodes read_StorageClass storage_class_number UnknownStorageClass
  /\ decodes read_BuiltIn built_in_number UnknownBuiltIn
  /\ decodes read_FunctionParameterAttribute function_parameter_attribute_number UnknownFunctionParameterAttribute
  /\ decodes read_FpRoundingMode fp_rounding_mode_number UnknownFpRoundingMode
  /\ decodes read_LinkageType linkage_type_number UnknownLinkageType.
Proof. exact all_enumerants. Qed.
Print Assumptions C18_enumerants.

Theorem C18_execution_mode :
  decodes_with read_ExecutionMode execution_mode_number execution_mode_operands UnknownExecutionMode.
Proof. exact dec_ExecutionMode. Qed.
Print Assumptions C18_execution_mode.

Theorem C18_decoration : decodes_with read_Decoration decoration_number decoration_operands UnknownDecoration.
Proof. exact dec_Decoration. Qed.
Print Assumptions C18_decoration.

Theorem C18_source_language : forall w rest, exists l, read_SourceLanguage (w :: rest) = Ok (rest, l)
  /\ source_language_number l = w /\ match l with SourceLanguage_Other n => 5 <= n | _ => True end.
Proof. exact dec_SourceLanguage. Qed.
Print Assumptions C18_source_language.

Theorem C18_unknown_enumerant_in_module : forall E (known : list (ExtInstSet E)) o data m op body e rest,
  in_order o data -> read_module data known = Ok m ->
  bad_operand op body e -> Forall word body -> 1 + N.of_nat (List.length body) < 65536 ->
  read_module (data ++ bytes_of_words o (instruction_words op body) ++ rest) known = Err e.
Proof. intros E known o data m op body e rest. exact (bad_operand_rejected o data known m op body e rest). Qed.
Print Assumptions C18_unknown_enumerant_in_module.

Example C18_example : bad_operand 17 [16] (UnknownCapability 16) /\ bad_operand 71 [3; 11; 2] (UnknownBuiltIn 2)
  /\ read_Capability [1; 5] = Ok ([5], Capability_Shader).
Proof.
  split; [constructor; intros []; discriminate|]. split; [|reflexivity].
  constructor. constructor. intros []; discriminate.
Qed.

(** ** C19 *)
Theorem C19_bound_is_only_reported : forall E (known : list (ExtInstSet E)) o v g b1 b2 x, word b1 -> word b2 ->
  read_module (bytes_of_words o [magic_number; v; g; b2] ++ x) known =
  match read_module (bytes_of_words o [magic_number; v; g; b1] ++ x) known with
  | Ok m => Ok (Build_RawModule (RawModule_version m) (RawModule_generator m) b2 (RawModule_instructions m))
  | failure => failure
  end.
Proof. intros E known o v g b1 b2 x. exact (bound_only_reported o v g b1 b2 x known). Qed.
Print Assumptions C19_bound_is_only_reported.

(** src/spv/raw/mod.rs documents that every id is below the bound. *)
Theorem C19_ids_below_bound_refuted : exists data m i,
  read_module data [InstSet] = Ok m /\ In (Core_OpTypeVoid (Build_OpTypeVoid i)) (RawModule_instructions m) /\ RawModule_bound m <= i.
Proof.
  exists (bytes_of_words LittleEndian [magic_number; 0x00010000; 0; 1; 0; 0x00020013; 7]). eexists _, 7.
  split; [vm_compute; reflexivity|]. split; [left; reflexivity|]. cbn [RawModule_bound]. discriminate.
Qed.
Print Assumptions C19_ids_below_bound_refuted.

Example C19_example : exists m, read_module (bytes_of_words BigEndian [magic_number; 0x00010000; 0; 5]
    ++ bytes_of_words BigEndian [0; 0x00020013; 7]) [InstSet] = Ok m.
Proof. eexists. vm_compute. reflexivity. Qed.

(** ** C20 *)
Theorem C20_word_count_zero : forall E (known : list (ExtInstSet E)) o data m op rest,
  in_order o data -> read_module data known = Ok m -> op < 65536 ->
  (read_module (data ++ bytes_of_words o [op] ++ rest) known
   = read_module (data ++ bytes_of_words o [op + 65536] ++ rest) known)
  \/ (read_module (data ++ bytes_of_words o [op] ++ rest) known = Err (UnknownOp op 0)
      /\ read_module (data ++ bytes_of_words o [op + 65536] ++ rest) known = Err (UnknownOp op 1)).
Proof. intros E known o data m op rest. exact (word_count_zero o data known m op rest). Qed.
Print Assumptions C20_word_count_zero.

(** So an instruction with the invalid word count 0 can be accepted. *)
Theorem C20_zero_rejected_refuted : exists data m, read_module data [InstSet] = Ok m
  /\ data = bytes_of_words LittleEndian [magic_number; 0x00010000; 0; 1; 0; 0]
  /\ RawModule_instructions m = [Core_OpNop Build_OpNop].
Proof. eexists _, _. split; [|split; [reflexivity|]]; vm_compute; reflexivity. Qed.
Print Assumptions C20_zero_rejected_refuted.

Example C20_example : in_order LittleEndian (sample_bytes LittleEndian) /\ read_module (sample_bytes LittleEndian) [InstSet] = Ok sample.
Proof. split; [apply sample_in_order|apply sample_read]. Qed.

(** ** C21 *)
Theorem C21_aligned_load : forall E (known : list (ExtInstSet E)) o data m t r p mask alignment rest,
  in_order o data -> read_module data known = Ok m ->
  mask < 8 -> N.testbit mask 1 = true -> Forall word [t; r; p; alignment] ->
  read_module (data ++ bytes_of_words o (instruction_words 61 [t; r; p; mask; alignment]) ++ rest) known = Err InstructionHadExcessData
  /\ exists m', read_module (data ++ bytes_of_words o (instruction_words 61 [t; r; p; mask])) known = Ok m'.
Proof. intros E known o data m t r p mask alignment rest. exact (aligned_load_rejected o data known m t r p mask alignment rest). Qed.
Print Assumptions C21_aligned_load.

Theorem C21_aligned_store : forall E (known : list (ExtInstSet E)) o data m p v mask alignment rest,
  in_order o data -> read_module data known = Ok m ->
  mask < 8 -> N.testbit mask 1 = true -> Forall word [p; v; alignment] ->
  read_module (data ++ bytes_of_words o (instruction_words 62 [p; v; mask; alignment]) ++ rest) known = Err InstructionHadExcessData
  /\ exists m', read_module (data ++ bytes_of_words o (instruction_words 62 [p; v; mask])) known = Ok m'.
Proof. intros E known o data m p v mask alignment rest. exact (aligned_store_rejected o data known m p v mask alignment rest). Qed.
Print Assumptions C21_aligned_store.

Example C21_example : 3 < 8 /\ N.testbit 3 1 = true
  /\ read_module (sample_bytes LittleEndian ++ bytes_of_words LittleEndian (instruction_words 61 [4; 12; 9; 3; 16])) [InstSet]
     = Err InstructionHadExcessData.
Proof. repeat split; vm_compute; reflexivity. Qed.

(** ** C22 *)
Theorem C22_generator : forall E (known : list (ExtInstSet E)) o v g b x m, word g ->
  read_module (bytes_of_words o [magic_number; v; g; b] ++ x) known = Ok m -> generator_word (RawModule_generator m) g.
Proof. intros E known o v g b x m. exact (generator_decoded o v g b x known m). Qed.
Print Assumptions C22_generator.

Theorem C22_generator_words_distinct : forall g1 g2 w1 w2, generator_word g1 w1 -> generator_word g2 w2 -> (g1 = g2 <-> w1 = w2).
Proof. exact generator_word_injective. Qed.
Print Assumptions C22_generator_words_distinct.

Example C22_example : generator_word (Build_Generator (Tool_Other 77) 3) 0x004D0003 /\ generator_word (Build_Generator Tool_KhronosGlslang 1) 0x00080001.
Proof. repeat split; reflexivity || discriminate. Qed.

(** ** C23 *)
Theorem C23_never_undispatched : forall E (known : list (ExtInstSet E)) data m i,
  read_module data known = Ok m -> In i (RawModule_instructions m) ->
  match i with
  | Core_OpTypeEvent _ | Core_OpTypeDeviceEvent _ | Core_OpTypeQueue _ | Core_OpTypePipe _ | Core_OpTypeForwardPointer _ => False
  | _ => True
  end.
Proof. intros E known data m i. exact (accepted_dispatched data known m i). Qed.
Print Assumptions C23_never_undispatched.

Theorem C23_opcodes_unknown : forall E (known : list (ExtInstSet E)) o data m op body rest,
  in_order o data -> read_module data known = Ok m ->
  In op [34; 35; 36; 37; 38; 39] -> Forall word body -> 1 + N.of_nat (List.length body) < 65536 ->
  read_module (data ++ bytes_of_words o (instruction_words op body) ++ rest) known
    = Err (UnknownOp op (1 + N.of_nat (List.length body))).
Proof. intros E known o data m op body rest. exact (undispatched_unknown o data known m op body rest). Qed.
Print Assumptions C23_opcodes_unknown.

Example C23_example : opcode (Core_OpTypeQueue (E := Inst) (Build_OpTypeQueue 3)) = 37
  /\ read_module (sample_bytes LittleEndian ++ bytes_of_words LittleEndian (instruction_words 37 [3])) [InstSet] = Err (UnknownOp 37 2).
Proof. split; vm_compute; reflexivity. Qed.

(** ** C24 *)
Theorem C24_compositional : forall E (known : list (ExtInstSet E)) o data1 data2 m1 m2 x,
  in_order o data1 -> in_order o data2 ->
  read_module data1 known = Ok m1 -> read_module data2 known = Ok m2 ->
  imports_of (RawModule_instructions m1) = imports_of (RawModule_instructions m2) ->
  match read_module (data1 ++ x) known, read_module (data2 ++ x) known with
  | Ok m1', Ok m2' => same_header m1 m1' /\ same_header m2 m2' /\ exists l,
      RawModule_instructions m1' = RawModule_instructions m1 ++ l /\ RawModule_instructions m2' = RawModule_instructions m2 ++ l
  | Err e1, Err e2 => e1 = e2
  | Panic, Panic | OutOfFuel, OutOfFuel => True
  | _, _ => False
  end.
Proof. intros E known o data1 data2 m1 m2 x. exact (read_composes o known data1 data2 m1 m2 x). Qed.
Print Assumptions C24_compositional.

(** The sample and the module consisting of nothing but its import. *)
Example C24_example : let import := Build_RawModule (Build_Version 1 0) (Build_Generator Tool_Valve 0) 2
    [Core_OpExtInstImport (Build_OpExtInstImport 1 "GLSL.std.450"%string)] in
  read_module (encode_module LittleEndian import []) [InstSet] = Ok import
  /\ imports_of (RawModule_instructions import) = imports_of (RawModule_instructions sample).
Proof. split; vm_compute; reflexivity. Qed.

(** ** C61 *)
Theorem C61_unused_errors : forall E (known : list (ExtInstSet E)) data e, read_module data known = Err e ->
  (forall s n ws, In s known -> duplicate s n ws <> Err e) ->
  e <> WrongWordCountForOp /\ forall v, e <> UnknownVersion v.
Proof. intros E known data e. exact (never_without_sets data known e). Qed.
Print Assumptions C61_unused_errors.

Example C61_example : read_module (firstn 19 (sample_bytes LittleEndian)) [InstSet] = Err UnexpectedStreamAlignment
  /\ forall s n ws, In s [InstSet] -> duplicate s n ws <> Err UnexpectedStreamAlignment.
Proof.
  split; [vm_compute; reflexivity|]. intros s n ws [<-|[]] H. cbn [duplicate InstSet] in H. unfold glsl450_read_instruction in H.
  repeat match type of H with context [match ?x with _ => _ end] => is_var x; destruct x; try discriminate H end;
  destruct ws; discriminate H.
Qed.
