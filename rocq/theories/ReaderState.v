(** read_module with extended instruction sets whose methods have side effects, src/spv/raw/reader.rs:15-85, 125-150, 426-549.
    ExtSet.v takes the methods of a set for functions.  Behind [&self] an implementation may use Cell or RefCell, count
    its calls, do I/O or panic; here the methods are state transformers of a world [W]. *)
From Verif Require Import Base Types Ops ReadErr ReadBase ReadOperands ExtSet ReadOps Reader.
Local Open Scope N_scope.

(* src/spv/mod.rs:77-90, the trait ExtInstSet; [Obj] are the objects that implement it.  get_name and duplicate cannot
   fail, but they can panic ([None]).  For a Drop implementation of the objects see ReaderOwned.v. *)
Record SetMethods (Obj E W : Type) : Type := Build_SetMethods {
  call_get_name : Obj -> W -> option string * W;
  call_duplicate : Obj -> W -> option Obj * W;
  call_read_instruction : Obj -> N -> list N -> W -> outcome ReadError (list N * E) * W
}.
Arguments Build_SetMethods {Obj E W}.
Arguments call_get_name {Obj E W}.
Arguments call_duplicate {Obj E W}.
Arguments call_read_instruction {Obj E W}.

Section State.
Context {Obj E W : Type} (methods : SetMethods Obj E W).

(* a computation that ends in a result and a world *)
(* the Result of src/spv/raw/mod.rs:357, with a world *)
Definition run (A : Type) := W -> outcome ReadError A * W.
(* the Result of src/spv/raw/mod.rs:357, with a world *)
Definition pure {A} (r : outcome ReadError A) : run A := fun w => (r, w).
(* try!, e.g. src/spv/raw/reader.rs:75 *)
Definition and_then {A B} (m : run A) (f : A -> run B) : run B := fun w =>
  match m w with
  | (Ok a, w) => f a w
  | (Err e, w) => (Err e, w)
  | (Panic, w) => (Panic, w)
  | (OutOfFuel, w) => (OutOfFuel, w)
  end.
(* a call that panics ends everything *)
(* calls of src/spv/mod.rs:80, 89 *)
Definition or_panic {A} (m : W -> option A * W) : run A := fun w =>
  match m w with (Some a, w) => (Ok a, w) | (None, w) => (Panic, w) end.

(* HashMap<OpId, Box<ExtInstSet>>, src/spv/raw/reader.rs:73 *)
Definition bound_objects := list (OpId * Obj).
(* the type of src/spv/raw/reader.rs:434-437 *)
Definition CoreReaderIn := list N -> list Obj -> bound_objects -> run (list N * Core E * bound_objects).

(* src/spv/raw/reader.rs:509-522: the for loop of OpExtInstImport::read_core; the argument of insert is evaluated first *)
Fixpoint import_loop_in (result_id : ResultId) (name : LitString) (block : list N) (bound : bound_objects)
    (sets : list Obj) : run (list N * Core E * bound_objects) :=
  match sets with
  | [] => pure (Err (UnknownInstSet name))
  | inst_set :: rest =>
      and_then (or_panic (call_get_name methods inst_set)) (fun set_name =>
      if String.eqb set_name name then
        and_then (or_panic (call_duplicate methods inst_set)) (fun copy =>
        let '(old, bound) := map_insert result_id copy bound in
        match old with
        | Some _ => pure (Err (DuplicateResultId result_id))
        | None => pure (Ok (block, Core_OpExtInstImport
            {| OpExtInstImport_result_id := result_id; OpExtInstImport_name := name |}, bound))
        end)
      else import_loop_in result_id name block bound rest)
  end.

(* src/spv/raw/reader.rs:502-524 *)
Definition read_core_OpExtInstImport_in : CoreReaderIn := fun block known bound =>
  and_then (pure (read_ResultId block)) (fun '(block, result_id) =>
  and_then (pure (read_LitString block)) (fun '(block, name) =>
  import_loop_in result_id name block bound known)).

(* src/spv/raw/reader.rs:526-549 *)
Definition read_core_OpExtInst_in : CoreReaderIn := fun block _ bound =>
  and_then (pure (read_OpId block)) (fun '(block, result_type) =>
  and_then (pure (read_ResultId block)) (fun '(block, result_id) =>
  and_then (pure (read_OpId block)) (fun '(block, set_id) =>
  and_then (pure (read_u32 block)) (fun '(block, inst) =>
  match map_get set_id bound with
  | Some set =>
      and_then (call_read_instruction methods set inst block) (fun '(block, extinst) =>
      pure (Ok (block, Core_OpExtInst {| OpExtInst_result_type := result_type; OpExtInst_result_id := result_id;
                                         OpExtInst_set := set_id; OpExtInst_instruction := extinst |}, bound)))
  | None => pure (Err (UnknownInstSetId set_id))
  end)))).

(* src/spv/raw/reader.rs:457-464: the read_core of def_op_read! ignores both sets of instruction sets *)
Definition ignoring_sets (read_fn : @CoreReader E) : CoreReaderIn := fun block _ bound =>
  pure (let! (block, inst, _) := read_fn block [] [] in Ok (block, inst, bound)).

(* src/spv/raw/reader.rs:138-425; the table of the other opcodes is that of ReadOps.v *)
Definition dispatch_in (id wc : N) : outcome ReadError CoreReaderIn :=
  match id with
  | 11 => Ok read_core_OpExtInstImport_in
  | 12 => Ok read_core_OpExtInst_in
  | _ => let! read_fn := dispatch id wc in Ok (ignoring_sets read_fn)
  end.

(* src/spv/raw/reader.rs:125-431 *)
Definition read_instruction_in (stream : Stream) (known : list Obj) (bound : bound_objects)
  : run (Stream * Core E * bound_objects) :=
  and_then (pure (stream_read_word stream)) (fun '(stream, head) =>
  let id := as_u16 (N.land head 0xFFFF) in
  let wc := as_u16 (N.shiftr head 16) in
  and_then (pure (read_words (N.to_nat (wc - 1)) stream)) (fun '(stream, block) =>
  and_then (pure (dispatch_in id wc)) (fun read_fn =>
  and_then (read_fn block known bound) (fun '(block, inst, bound) =>
  match block with
  | [] => pure (Ok (stream, inst, bound))
  | _ :: _ => pure (Err InstructionHadExcessData)
  end)))).

(* src/spv/raw/reader.rs:74-77: the while loop; [fuel] bounds the iterations *)
Fixpoint read_instructions_in (fuel : nat) (stream : Stream) (known : list Obj)
    (bound : bound_objects) (instructions : list (Core E)) : run (list (Core E)) :=
  if stream_is_end stream then pure (Ok instructions)
  else match fuel with
       | O => pure OutOfFuel
       | S fuel =>
           and_then (read_instruction_in stream known bound) (fun '(stream, instr, bound) =>
           read_instructions_in fuel stream known bound (instructions ++ [instr]))
       end.

(* src/spv/raw/reader.rs:15-85 *)
Definition read_module_in (data : list ascii) (known_inst_sets : list Obj) : run (RawModule E) :=
  let stream := Build_Stream data true in
  and_then (pure (stream_read_word stream)) (fun '(stream, magic) =>
  and_then (pure (check_magic magic stream)) (fun stream =>
  and_then (pure (stream_read_word stream)) (fun '(stream, ver_word) =>
  and_then (pure (read_version ver_word)) (fun version =>
  and_then (pure (check_version version)) (fun _ =>
  and_then (pure (stream_read_word stream)) (fun '(stream, generator_word) =>
  let generator_id := as_u16 (N.shiftr generator_word 16) in
  let tool := tool_of_id generator_id in
  let generator_version := as_u16 (N.land generator_word 0xFFFF) in
  let generator := Build_Generator tool generator_version in
  and_then (pure (stream_read_word stream)) (fun '(stream, bound) =>
  and_then (pure (stream_read_word stream)) (fun '(stream, zero) =>
  if negb (N.eqb zero 0) then pure (Err UnknownReservedSchema) else
  and_then (read_instructions_in (List.length (Stream_source stream)) stream known_inst_sets [] []) (fun instructions =>
  pure (Ok (Build_RawModule version generator bound instructions))))))))))).

End State.
