(** SPECIFICATION: which error a module that is not accepted must be rejected with.  Operand words are read from left
    to right by a table of the instructions' operands; the first thing wrong decides. *)
From Verif Require Import Base Types Ops ReadErr ExtSet Spec_Wire Spec_Names Spec_Opcodes.
Local Open Scope N_scope.

(** ** Operands *)

(** Reading operand words leaves some words over or fails. *)
Inductive scanned : Type :=
| Left (rest : list N)
| Fails (e : ReadError).

(** One operand: any word, a literal string, an enumerant with one of the given numbers, a mask without reserved bits. *)
Inductive simple : Type :=
| AWord
| AString
| AnEnum (numbers : list N) (unknown : N -> ReadError)
| AMask (reserved : N) (unknown : N -> ReadError).

Inductive scans : simple -> list N -> scanned -> Prop :=
| scans_missing : forall s, s <> AString -> scans s [] (Fails UnexpectedEndOfInstruction)
| scans_word : forall w rest, scans AWord (w :: rest) (Left rest)
| scans_enum : forall numbers unknown w rest, In w numbers -> scans (AnEnum numbers unknown) (w :: rest) (Left rest)
| scans_enum_unknown : forall numbers unknown w rest, ~ In w numbers ->
    scans (AnEnum numbers unknown) (w :: rest) (Fails (unknown w))
| scans_mask : forall reserved unknown w rest, N.land w reserved = 0 -> scans (AMask reserved unknown) (w :: rest) (Left rest)
| scans_mask_reserved : forall reserved unknown w rest, N.land w reserved <> 0 ->
    scans (AMask reserved unknown) (w :: rest) (Fails (unknown w))
| scans_string : forall s ws rest, wire_string s ws -> text s -> scans AString (ws ++ rest) (Left rest)
| scans_string_not_utf8 : forall ws bytes padding rest,
    word_bytes ws = bytes ++ 0 :: padding -> ~ In 0 bytes -> (List.length padding < 4)%nat -> ~ is_utf8 bytes ->
    scans AString (ws ++ rest) (Fails InvalidString)
| scans_string_unterminated : forall ws, ~ In 0 (word_bytes ws) -> scans AString ws (Fails UnexpectedEndOfInstruction).

(** One thing and then another: the first failure decides. *)
Definition andthen (first second : list N -> scanned -> Prop) (ws : list N) (v : scanned) : Prop :=
  (exists e, first ws (Fails e) /\ v = Fails e) \/ (exists rest, first ws (Left rest) /\ second rest v).

Fixpoint scans_all (l : list simple) : list N -> scanned -> Prop :=
  match l with
  | [] => fun ws v => v = Left ws
  | s :: l => andthen (scans s) (scans_all l)
  end.

(** An operand that may bring further operands with it. *)
Inductive item : Type :=
| One (s : simple)
| Variant (numbers : list N) (more : N -> list simple) (unknown : N -> ReadError)
| LoopFlags.

Definition scans_item (i : item) : list N -> scanned -> Prop :=
  match i with
  | One s => scans s
  | Variant numbers more unknown => fun ws v =>
      match ws with
      | [] => v = Fails UnexpectedEndOfInstruction
      | w :: rest => (In w numbers /\ scans_all (more w) rest v) \/ (~ In w numbers /\ v = Fails (unknown w))
      end
  | LoopFlags =>
      (* flag 3 brings the dependency length *)
      fun ws v =>
      match ws with
      | [] => v = Fails UnexpectedEndOfInstruction
      | w :: rest =>
          if N.eqb (N.land w 0xFFF0) 0 then scans_all (if N.testbit w 3 then [AWord] else []) rest v
          else v = Fails (UnknownLoopControl w)
      end
  end.

(** What follows the fixed operands: nothing, groups that are present if any words remain, or a group repeated as
    long as any words remain. *)
Inductive tail : Type :=
| Nothing
| Optional (groups : list (list simple))
| Repeated (group : list simple).

Fixpoint scans_optional (groups : list (list simple)) (ws : list N) (v : scanned) : Prop :=
  match groups, ws with
  | [], _ => v = Left ws
  | _, [] => v = Left []
  | g :: groups, _ => andthen (scans_all g) (scans_optional groups) ws v
  end.
Inductive scans_repeated (group : list simple) : list N -> scanned -> Prop :=
| repeated_end : scans_repeated group [] (Left [])
| repeated_more : forall w ws v, andthen (scans_all group) (scans_repeated group) (w :: ws) v -> scans_repeated group (w :: ws) v.

Definition scans_tail (t : tail) : list N -> scanned -> Prop :=
  match t with
  | Nothing => fun ws v => v = Left ws
  | Optional groups => scans_optional groups
  | Repeated group => scans_repeated group
  end.

Fixpoint scans_operands (items : list item) (t : tail) : list N -> scanned -> Prop :=
  match items with
  | [] => scans_tail t
  | i :: items => andthen (scans_item i) (scans_operands items t)
  end.

(** ** Instructions *)

(** Decorations and execution modes with operands of their own, SPIR-V 3.20 and 3.6. *)
Definition decoration_more (n : N) : list simple :=
  match n with
  | 1 | 6 | 7 | 29 | 30 | 31 | 32 | 33 | 34 | 35 | 36 | 37 | 43 | 44 => [AWord]
  | 11 => [AnEnum (map fst built_ins) UnknownBuiltIn]
  | 38 => [AnEnum (map fst function_parameter_attributes) UnknownFunctionParameterAttribute]
  | 39 => [AnEnum (map fst fp_rounding_modes) UnknownFpRoundingMode]
  | 40 => [AMask 0xFFC0 UnknownFpFastMathMode]
  | 41 => [AString; AnEnum (map fst linkage_types) UnknownLinkageType]
  | _ => []
  end.
Definition mode_more (n : N) : list simple :=
  match n with
  | 0 | 26 | 30 => [AWord]
  | 17 | 18 => [AWord; AWord; AWord]
  | _ => []
  end.

(** The operands of the supported instructions, SPIR-V 3.32 (OpExtInst is treated below).  As the reader does, the
    bits of a function control are not checked. *)
Definition syntax (opcode : N) : list item * tail :=
  let w := One AWord in
  let s := One AString in
  let storage := One (AnEnum (map fst storage_classes) UnknownStorageClass) in
  let decoration := Variant (map fst decorations) decoration_more UnknownDecoration in
  let access := Optional [[AMask 0xFFF8 UnknownMemoryAccess]] in
  match opcode with
  | 0 | 56 | 253 => ([], Nothing)
  | 19 | 20 | 26 | 248 | 249 => ([w], Nothing)
  | 1 | 22 | 27 | 29 | 55 => ([w; w], Nothing)
  | 23 | 24 | 28 => ([w; w; w], Nothing)
  | 2 | 4 | 10 => ([s], Nothing)
  | 5 | 7 | 11 | 31 => ([w; s], Nothing)
  | 6 => ([w; w; s], Nothing)
  | 3 => ([w; w], Optional [[AWord]; [AString]])
  | 14 => ([One (AnEnum (map fst addressing_models) UnknownAddressingModel);
            One (AnEnum (map fst memory_models) UnknownMemoryModel)], Nothing)
  | 15 => ([One (AnEnum (map fst execution_models) UnknownExecutionModel); w; s], Repeated [AWord])
  | 16 => ([w; Variant (map fst execution_modes) mode_more UnknownExecutionMode], Nothing)
  | 17 => ([One (AnEnum (map fst capabilities) UnknownCapability)], Nothing)
  | 21 => ([w; w; One (AnEnum [0; 1] UnknownSignedness)], Nothing)
  | 25 => ([w; w; One (AnEnum (map fst dims) UnknownDim); One (AnEnum [0; 1; 2] UnknownDepthStatus);
            One (AnEnum [0; 1] UnknownArrayed); One (AnEnum [0; 1] UnknownMS); One (AnEnum [0; 1; 2] UnknownSampledStatus);
            One (AnEnum (map fst image_formats) UnknownImageFormat)],
           Optional [[AnEnum (map fst access_qualifiers) UnknownAccessQualifier]])
  | 30 => ([w], Repeated [AWord])
  | 33 | 43 | 44 => ([w; w], Repeated [AWord])
  | 65 => ([w; w; w], Repeated [AWord])
  | 32 => ([w; storage; w], Nothing)
  | 54 => ([w; w; w; w], Nothing)
  | 59 => ([w; w; storage], Optional [[AWord]])
  | 61 => ([w; w; w], access)
  | 62 => ([w; w], access)
  | 71 => ([w; decoration], Nothing)
  | 72 => ([w; w; decoration], Nothing)
  | 112 | 124 => ([w; w; w], Nothing)
  | 245 => ([w; w], Repeated [AWord; AWord])
  | 246 => ([w; w; LoopFlags], Nothing)
  | 247 => ([w; One (AMask 0xFFFC UnknownSelectionControl)], Nothing)
  | 250 => ([w; w; w], Optional [[AWord; AWord]])
  | _ => ([w; w; w; w], Nothing)
  end.
Definition scans_instruction (opcode : N) (body : list N) (v : scanned) : Prop :=
  scans_operands (fst (syntax opcode)) (snd (syntax opcode)) body v.

Section Modules.
Context {E : Type} (known : list (ExtInstSet E)).

Definition not_imported (earlier : list (Core E)) (id : N) : Prop :=
  forall name, ~ In (Core_OpExtInstImport (Build_OpExtInstImport id name)) earlier.

(** The instruction with this opcode, declared word count and operand words, after the instructions [earlier], is
    rejected with the error. *)
Inductive instruction_fails (earlier : list (Core E)) (opcode word_count : N) (body : list N) : ReadError -> Prop :=
| fails_unknown : opcode_support opcode = Unknown ->
    instruction_fails earlier opcode word_count body (UnknownOp opcode word_count)
| fails_unimplemented : forall name, opcode_support opcode = Unimplemented name ->
    instruction_fails earlier opcode word_count body (UnimplementedOp name)
| fails_operand : forall name e, opcode_support opcode = Decoded name -> opcode <> 12 ->
    scans_instruction opcode body (Fails e) -> instruction_fails earlier opcode word_count body e
| fails_excess : forall name w rest, opcode_support opcode = Decoded name -> opcode <> 11 -> opcode <> 12 ->
    scans_instruction opcode body (Left (w :: rest)) -> instruction_fails earlier opcode word_count body InstructionHadExcessData
(* imports: the name must be known, the id new; only then is the rest looked at *)
| fails_import_unknown : forall id name chars rest, opcode = 11 -> body = id :: chars ++ rest ->
    wire_string name chars -> text name -> (forall s, In s known -> get_name s <> name) ->
    instruction_fails earlier opcode word_count body (UnknownInstSet name)
| fails_import_duplicate : forall id name chars rest, opcode = 11 -> body = id :: chars ++ rest ->
    wire_string name chars -> text name -> (exists s, In s known /\ get_name s = name) -> ~ not_imported earlier id ->
    instruction_fails earlier opcode word_count body (DuplicateResultId id)
| fails_import_excess : forall id name chars w rest, opcode = 11 -> body = id :: chars ++ w :: rest ->
    wire_string name chars -> text name -> (exists s, In s known /\ get_name s = name) -> not_imported earlier id ->
    instruction_fails earlier opcode word_count body InstructionHadExcessData
(* extended instructions: type, result, set and number, then the set decides *)
| fails_extended_short : opcode = 12 -> (List.length body < 4)%nat ->
    instruction_fails earlier opcode word_count body UnexpectedEndOfInstruction
| fails_extended_set : forall type result set number words, opcode = 12 -> body = type :: result :: set :: number :: words ->
    not_imported earlier set -> instruction_fails earlier opcode word_count body (UnknownInstSetId set)
| fails_extended_instruction : forall type result set number words reader e,
    opcode = 12 -> body = type :: result :: set :: number :: words ->
    imported known earlier set reader -> reader number words = Err e -> instruction_fails earlier opcode word_count body e
| fails_extended_excess : forall type result set number words reader w rest x,
    opcode = 12 -> body = type :: result :: set :: number :: words ->
    imported known earlier set reader -> reader number words = Ok (w :: rest, x) ->
    instruction_fails earlier opcode word_count body InstructionHadExcessData.

(** ** Modules *)

(** The input ended within a word, or between words. *)
Definition ran_out_of (rest : list ascii) : ReadError :=
  if Nat.eqb (List.length rest mod 4) 0 then UnexpectedEndOfStream else UnexpectedStreamAlignment.

Inductive module_fails : list ascii -> ReadError -> Prop :=
(* the header: magic number, version, generator, bound, schema *)
| fails_no_magic : forall data, (List.length data < 4)%nat -> module_fails data (ran_out_of data)
| fails_bad_magic : forall data, (4 <= List.length data)%nat -> (forall o, ~ in_order o data) -> module_fails data BadMagic
| fails_no_version : forall o rest, (List.length rest < 4)%nat ->
    module_fails (bytes_of_word o magic_number ++ rest) (ran_out_of rest)
| fails_version : forall o version rest, word version -> ~ version_word_accepted version ->
    module_fails (bytes_of_words o [magic_number; version] ++ rest)
      (UnknownVersionBytes (version / 16777216) (version / 65536 mod 16) (version / 256 mod 16) (version mod 16))
| fails_header : forall o version rest, word version -> version_word_accepted version -> (List.length rest < 12)%nat ->
    module_fails (bytes_of_words o [magic_number; version] ++ rest) (ran_out_of rest)
| fails_schema : forall o version generator bound schema rest, word version -> version_word_accepted version ->
    word generator -> word bound -> word schema -> schema <> 0 ->
    module_fails (bytes_of_words o [magic_number; version; generator; bound; schema] ++ rest) UnknownReservedSchema
(* after an accepted module: part of an instruction *)
| fails_partial_word : forall before m rest, wire_module known before m -> (0 < List.length rest < 4)%nat ->
    module_fails (before ++ rest) UnexpectedStreamAlignment
| fails_partial_instruction : forall o before m head rest, in_order o before -> wire_module known before m -> word head ->
    (List.length rest < 4 * (N.to_nat (head / 65536) - 1))%nat ->
    module_fails (before ++ bytes_of_word o head ++ rest) (ran_out_of rest)
(* after an accepted module: an instruction that is rejected *)
| fails_instruction : forall o before m head body rest e, in_order o before -> wire_module known before m ->
    word head -> Forall word body -> List.length body = (N.to_nat (head / 65536) - 1)%nat ->
    instruction_fails (RawModule_instructions m) (head mod 65536) (head / 65536) body e ->
    module_fails (before ++ bytes_of_words o (head :: body) ++ rest) e.

End Modules.
