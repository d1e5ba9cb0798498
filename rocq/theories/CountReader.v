(** read_instruction and read_module with their steps (CountBase.v), src/spv/raw/reader.rs:15-431. *)
From Verif Require Import Base Types Ops ReadErr ReadBase ExtSet ReadOps Reader CountBase CountOperands CountOps.
Local Open Scope N_scope.

(* src/spv/raw/reader.rs:134-136 *)
Fixpoint count_words (n : nat) (stream : Stream) : counted (Stream * list N) :=
  match n with
  | O => count_Ok (stream, [])
  | S n =>
      let+ (stream, word) := count_stream_word stream in
      let+ (stream, words) := count_words n stream in
      count_Ok (stream, word :: words)
  end.

Section CountReader.
Context {E : Type}.

(* src/spv/raw/reader.rs:125-431 *)
Definition count_instruction (stream : Stream) (known : list (ExtInstSet E)) (bound : bound_sets E)
  : counted (Stream * Core E * bound_sets E) :=
  let+ (stream, head) := count_stream_word stream in
  let id := as_u16 (N.land head 0xFFFF) in
  let wc := as_u16 (N.shiftr head 16) in
  let+ (stream, block) := count_words (N.to_nat (wc - 1)) stream in
  let+ read_fn := (O, count_dispatch id wc) in
  let+ (block, inst, bound) := read_fn block known bound in
  match block with
  | [] => count_Ok (stream, inst, bound)
  | _ :: _ => count_Err InstructionHadExcessData
  end.

(* src/spv/raw/reader.rs:74-77: the while loop, with a step for the push; [fuel] bounds the iterations *)
Fixpoint count_instructions (fuel : nat) (stream : Stream) (known : list (ExtInstSet E))
    (bound : bound_sets E) (instructions : list (Core E)) : counted (list (Core E)) :=
  if stream_is_end stream then count_Ok instructions
  else match fuel with
       | O => (O, OutOfFuel)
       | S fuel =>
           let+ (stream, instr, bound) := count_instruction stream known bound in
           let+ _ := step in
           count_instructions fuel stream known bound (instructions ++ [instr])
       end.

(* src/spv/raw/reader.rs:15-85 *)
Definition count_module (data : list ascii) (known_inst_sets : list (ExtInstSet E)) : counted (RawModule E) :=
  let stream := Build_Stream data true in
  let+ (stream, magic) := count_stream_word stream in
  let+ stream := (O, check_magic magic stream) in
  let+ (stream, ver_word) := count_stream_word stream in
  let+ version := (O, read_version ver_word) in
  let+ _ := (O, check_version version) in
  let+ (stream, generator_word) := count_stream_word stream in
  let generator_id := as_u16 (N.shiftr generator_word 16) in
  let tool := tool_of_id generator_id in
  let generator_version := as_u16 (N.land generator_word 0xFFFF) in
  let generator := Build_Generator tool generator_version in
  let+ (stream, bound) := count_stream_word stream in
  let+ (stream, zero) := count_stream_word stream in
  if negb (N.eqb zero 0) then count_Err UnknownReservedSchema else
  let+ instructions :=
    count_instructions (List.length (Stream_source stream)) stream known_inst_sets [] [] in
  count_Ok (Build_RawModule version generator bound instructions).

End CountReader.
