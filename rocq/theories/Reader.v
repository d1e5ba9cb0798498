(** read_instruction and read_module, src/spv/raw/reader.rs:15-431. *)
From Verif Require Import Base Types Ops ReadErr ReadBase ExtSet ReadOps.
Local Open Scope N_scope.

(* src/spv/raw/reader.rs:11 *)
Definition SPIRV_MAGIC_NUMBER : N := 0x07230203.
(* src/spv/raw/reader.rs:13 *)
Definition SPIRV_MAGIC_NUMBER_OTHER_ENDIAN : N := 0x03022307.

(* src/spv/raw/reader.rs:134-136: for _ in 1..wc { words.push(try!(stream.read_word())) };
   the pushed words are returned in order *)
Fixpoint read_words (n : nat) (stream : Stream) : outcome ReadError (Stream * list N) :=
  match n with
  | O => Ok (stream, [])
  | S n =>
      let! (stream, word) := stream_read_word stream in
      let! (stream, words) := read_words n stream in
      Ok (stream, word :: words)
  end.

Section Reader.
Context {E : Type}.

(* src/spv/raw/reader.rs:125-431 *)
Definition read_instruction (stream : Stream) (known : list (ExtInstSet E)) (bound : bound_sets E)
  : outcome ReadError (Stream * Core E * bound_sets E) :=
  let! (stream, head) := stream_read_word stream in
  let id := as_u16 (N.land head 0xFFFF) in
  let wc := as_u16 (N.shiftr head 16) in
  let! (stream, block) := read_words (N.to_nat (wc - 1)) stream in
  let! read_fn := dispatch id wc in
  let! (block, inst, bound) := read_fn block known bound in
  match block with
  | [] => Ok (stream, inst, bound)
  | _ :: _ => Err InstructionHadExcessData
  end.

(* src/spv/raw/reader.rs:74-77: the while loop; [fuel] bounds the iterations *)
Fixpoint read_instructions (fuel : nat) (stream : Stream) (known : list (ExtInstSet E))
    (bound : bound_sets E) (instructions : list (Core E)) : outcome ReadError (list (Core E)) :=
  if stream_is_end stream then Ok instructions
  else match fuel with
       | O => OutOfFuel
       | S fuel =>
           let! (stream, instr, bound) := read_instruction stream known bound in
           read_instructions fuel stream known bound (instructions ++ [instr])
       end.

(* src/spv/raw/reader.rs:28-35 *)
Definition read_version (ver_word : N) : outcome ReadError Version :=
  let ver_high := as_u8 (N.shiftr ver_word 24) in
  let ver_major := as_u8 (N.land (N.shiftr ver_word 16) 0xF) in
  let ver_minor := as_u8 (N.land (N.shiftr ver_word 8) 0xF) in
  let ver_low := as_u8 (N.land ver_word 0xF) in
  match ver_high, ver_major, ver_minor, ver_low with
  | 0, 1, 0, 0 => Ok (Build_Version ver_major ver_minor)
  | v3, v2, v1, v0 => Err (UnknownVersionBytes v3 v2 v1 v0)
  end.

(* src/spv/raw/reader.rs:36-39 *)
Definition check_version (version : Version) : outcome ReadError unit :=
  match version with
  | Build_Version 1 0 => Ok tt
  | v => Err (UnknownVersion v)
  end.

(* src/spv/raw/reader.rs:43-57 *)
Definition tool_of_id (generator_id : N) : Tool :=
  match generator_id with
  | 0 => Tool_KhronosReserved
  | 1 => Tool_LunarG
  | 2 => Tool_Valve
  | 3 => Tool_Codeplay
  | 4 => Tool_Nvidia
  | 5 => Tool_Arm
  | 6 => Tool_KhronosLLvmTranslator
  | 7 => Tool_KhronosAssembler
  | 8 => Tool_KhronosGlslang
  | 9 => Tool_Qualcomm
  | 10 => Tool_Amd
  | 11 => Tool_Intel
  | id => Tool_Other id
  end.

(* src/spv/raw/reader.rs:21-25 *)
Definition check_magic (magic : N) (stream : Stream) : outcome ReadError Stream :=
  if N.eqb magic SPIRV_MAGIC_NUMBER then Ok stream
  else if N.eqb magic SPIRV_MAGIC_NUMBER_OTHER_ENDIAN then Ok (invert_endianness stream)
  else Err BadMagic.

(* src/spv/raw/reader.rs:15-85 *)
Definition read_module (data : list ascii) (known_inst_sets : list (ExtInstSet E))
  : outcome ReadError (RawModule E) :=
  let stream := Build_Stream data true in
  let! (stream, magic) := stream_read_word stream in
  let! stream := check_magic magic stream in
  let! (stream, ver_word) := stream_read_word stream in
  let! version := read_version ver_word in
  let! _ := check_version version in
  let! (stream, generator_word) := stream_read_word stream in
  let generator_id := as_u16 (N.shiftr generator_word 16) in
  let tool := tool_of_id generator_id in
  let generator_version := as_u16 (N.land generator_word 0xFFFF) in
  let generator := Build_Generator tool generator_version in
  let! (stream, bound) := stream_read_word stream in
  let! (stream, zero) := stream_read_word stream in
  if negb (N.eqb zero 0) then Err UnknownReservedSchema else
  let! instructions :=
    read_instructions (List.length (Stream_source stream)) stream known_inst_sets [] [] in
  Ok (Build_RawModule version generator bound instructions).

End Reader.
