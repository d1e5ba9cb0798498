(** What the reader asks of the allocator before it knows that the words are there: the calls of
    Vec::with_capacity in src/spv/raw/reader.rs:132 and src/spv/raw/mod.rs:414,443, in order, each
    as a number of bytes.  Simplified: later growth of a vector (push) is left to the standard
    library, and what a user's extended set reserves while it reads is the user's. *)
From Verif Require Import Base Types Ops ReadErr ReadBase ReadOperands ReadOps ExtSet Reader.
Local Open Scope N_scope.

(* Vec::<T>::with_capacity(capacity): capacity items of [size_of] bytes *)
Definition with_capacity (size_of capacity : N) : N := size_of * capacity.

(* an operand read after another, src/spv/raw/reader.rs:444-448: nothing more is asked for once a
   read has failed *)
Definition after {A} (read : Reader A) (more : list N -> list N) (block : list N) : list N :=
  match read block with
  | Ok (block, _) => more block
  | _ => []
  end.

(* an operand list that asks for nothing more *)
Definition nothing (block : list N) : list N := [].

(* src/spv/raw/mod.rs:443: Vec::with_capacity(16) of u8, then the string is read *)
Definition string_then (more : list N -> list N) (block : list N) : list N :=
  with_capacity 1 16 :: after read_LitString more block.

(* src/spv/raw/mod.rs:412-414: the items of a list, the last operand wherever it is used; the
   words left divided by the words of an item.  The items themselves (ids, numbers, pairs of ids)
   ask for nothing. *)
Definition vec (size_of : N) (block : list N) : list N :=
  let item_word_size := N.min 1 (size_of / 4) in
  if N.eqb item_word_size 0 then [] (* the division panics *)
  else [with_capacity size_of (N.of_nat (List.length block) / item_word_size)].

(* src/spv/raw/mod.rs:424-433 with LitString *)
Definition option_string_then (more : list N -> list N) (block : list N) : list N :=
  match block with
  | _ :: _ => string_then more block
  | [] => more block
  end.

(* src/spv/raw/mod.rs:968-1077: of the decorations only LinkageAttributes has a string *)
Definition requests_Decoration (block : list N) : list N :=
  match read_word block with
  | Ok (block, 41) => string_then nothing block
  | _ => []
  end.

(* src/spv/raw/reader.rs:488 *)
Definition requests_OpSourceContinued : list N -> list N := string_then nothing.
(* src/spv/raw/reader.rs:489 *)
Definition requests_OpSource : list N -> list N :=
  after read_SourceLanguage (after read_SourceVersion (after (read_Option read_OpId) (option_string_then nothing))).
(* src/spv/raw/reader.rs:490 *)
Definition requests_OpSourceExtension : list N -> list N := string_then nothing.
(* src/spv/raw/reader.rs:491 *)
Definition requests_OpName : list N -> list N := after read_OpId (string_then nothing).
(* src/spv/raw/reader.rs:492 *)
Definition requests_OpMemberName : list N -> list N := after read_OpId (after read_MemberIndex (string_then nothing)).
(* src/spv/raw/reader.rs:493 *)
Definition requests_OpString : list N -> list N := after read_ResultId (string_then nothing).
(* src/spv/raw/reader.rs:496 *)
Definition requests_OpDecorate : list N -> list N := after read_OpId requests_Decoration.
(* src/spv/raw/reader.rs:497 *)
Definition requests_OpMemberDecorate : list N -> list N := after read_OpId (after read_MemberIndex requests_Decoration).
(* src/spv/raw/reader.rs:500 *)
Definition requests_OpExtension : list N -> list N := string_then nothing.
(* src/spv/raw/reader.rs:502-524 *)
Definition requests_OpExtInstImport : list N -> list N := after read_ResultId (string_then nothing).
(* src/spv/raw/reader.rs:552 *)
Definition requests_OpEntryPoint : list N -> list N :=
  after read_ExecutionModel (after read_OpId (string_then (vec size_of_OpId))).
(* src/spv/raw/reader.rs:578 *)
Definition requests_OpTypeStruct : list N -> list N := after read_ResultId (vec size_of_OpId).
(* src/spv/raw/reader.rs:579 *)
Definition requests_OpTypeOpaque : list N -> list N := after read_ResultId (string_then nothing).
(* src/spv/raw/reader.rs:581 *)
Definition requests_OpTypeFunction : list N -> list N := after read_ResultId (after read_OpId (vec size_of_OpId)).
(* src/spv/raw/reader.rs:584 *)
Definition requests_OpConstant : list N -> list N := after read_OpId (after read_ResultId (vec size_of_u32)).
(* src/spv/raw/reader.rs:585 *)
Definition requests_OpConstantComposite : list N -> list N := after read_OpId (after read_ResultId (vec size_of_OpId)).
(* src/spv/raw/reader.rs:598 *)
Definition requests_OpAccessChain : list N -> list N :=
  after read_OpId (after read_ResultId (after read_OpId (vec size_of_OpId))).
(* src/spv/raw/reader.rs:656 *)
Definition requests_OpPhi : list N -> list N := after read_OpId (after read_ResultId (vec size_of_PhiArg)).

(* src/spv/raw/reader.rs:138-426: the read_core of each instruction; those left out have neither a
   string nor a list *)
Definition requests_of (id : N) : list N -> list N :=
  match id with
  | 2 => requests_OpSourceContinued
  | 3 => requests_OpSource
  | 4 => requests_OpSourceExtension
  | 5 => requests_OpName
  | 6 => requests_OpMemberName
  | 7 => requests_OpString
  | 10 => requests_OpExtension
  | 11 => requests_OpExtInstImport
  | 15 => requests_OpEntryPoint
  | 30 => requests_OpTypeStruct
  | 31 => requests_OpTypeOpaque
  | 33 => requests_OpTypeFunction
  | 43 => requests_OpConstant
  | 44 => requests_OpConstantComposite
  | 65 => requests_OpAccessChain
  | 71 => requests_OpDecorate
  | 72 => requests_OpMemberDecorate
  | 245 => requests_OpPhi
  | _ => nothing
  end.

(* src/spv/raw/reader.rs:125-431: room for all the words of the instruction, then its operands *)
Definition instruction_requests (stream : Stream) : list N :=
  match stream_read_word stream with
  | Ok (stream, head) =>
      let id := as_u16 (N.land head 0xFFFF) in
      let wc := as_u16 (N.shiftr head 16) in
      with_capacity size_of_u32 wc ::
      match read_words (N.to_nat (wc - 1)) stream with
      | Ok (_, block) => requests_of id block
      | _ => []
      end
  | _ => []
  end.

Section Alloc.
Context {E : Type}.

(* src/spv/raw/reader.rs:74-77: the while loop *)
Fixpoint instructions_requests (fuel : nat) (stream : Stream) (known : list (ExtInstSet E))
    (bound : bound_sets E) : list N :=
  if stream_is_end stream then []
  else match fuel with
       | O => []
       | S fuel =>
           instruction_requests stream ++
           match read_instruction stream known bound with
           | Ok (stream, _, bound) => instructions_requests fuel stream known bound
           | _ => []
           end
       end.

(* src/spv/raw/reader.rs:15-85: the header asks for nothing (Vec::new and HashMap::new reserve
   nothing), and a refused header ends the reading *)
Definition module_requests (data : list ascii) (known_inst_sets : list (ExtInstSet E)) : list N :=
  let read :=
    let stream := Build_Stream data true in
    let! (stream, magic) := stream_read_word stream in
    let! stream := check_magic magic stream in
    let! (stream, ver_word) := stream_read_word stream in
    let! version := read_version ver_word in
    let! _ := check_version version in
    let! (stream, _) := stream_read_word stream in
    let! (stream, _) := stream_read_word stream in
    let! (stream, zero) := stream_read_word stream in
    if negb (N.eqb zero 0) then Err UnknownReservedSchema else Ok stream in
  match read with
  | Ok stream => instructions_requests (List.length (Stream_source stream)) stream known_inst_sets []
  | _ => []
  end.

End Alloc.
