(** read_module with the ends of the lives of the objects it owns, src/spv/raw/reader.rs:15-85, 125-150, 426-549.
    It owns the vector of known sets, which is passed by value, the duplicates in its map, and the instructions it has read
    so far.  A user's sets and extended instructions may implement Drop, so when they go is an effect.

    The known sets and the map are dropped when read_module is left in any way: local variables go in the reverse order of
    their declaration, then the arguments; a panic of a method unwinds in the same order.  Not modelled: a Drop that panics,
    and a build in which panics abort. *)
From Verif Require Import Base Types Ops ReadErr ReadBase ReadOperands ExtSet ReadOps Reader ReaderState HashTable.
Local Open Scope N_scope.

(* the Drop implementations behind Box<ExtInstSet> and Box<ExtInst>, src/spv/mod.rs:22-90 *)
Record Drops (Obj E W : Type) : Type := Build_Drops {
  drop_set : Obj -> W -> W;
  drop_instruction : E -> W -> W
}.
Arguments Build_Drops {Obj E W}.
Arguments drop_set {Obj E W}.
Arguments drop_instruction {Obj E W}.

Section Owned.
Context {Obj E W : Type} (methods : SetMethods Obj E W) (drops : Drops Obj E W) (hashing : Hashing).

(* HashMap<OpId, Box<ExtInstSet>>, src/spv/raw/reader.rs:73 *)
Definition bound_boxes := Table (A := Obj).

(* a computation that has the map by &mut: the map is still there if it fails *)
(* src/spv/raw/reader.rs:125-128, 434-437 *)
Definition owning (A : Type) := bound_boxes -> W -> outcome ReadError A * bound_boxes * W.
(* src/spv/raw/mod.rs:357 *)
Definition own_pure {A} (r : outcome ReadError A) : owning A := fun bound w => (r, bound, w).
(* try!, e.g. src/spv/raw/reader.rs:426 *)
Definition own_then {A B} (m : owning A) (f : A -> owning B) : owning B := fun bound w =>
  match m bound w with
  | (Ok a, bound, w) => f a bound w
  | (Err e, bound, w) => (Err e, bound, w)
  | (Panic, bound, w) => (Panic, bound, w)
  | (OutOfFuel, bound, w) => (OutOfFuel, bound, w)
  end.

(* the type of src/spv/raw/reader.rs:434-437 *)
Definition CoreReaderOwned := list N -> list Obj -> owning (list N * Core E).

(* src/spv/raw/reader.rs:509-522: the for loop of OpExtInstImport::read_core.  The set that insert returns goes at the
   end of the match *)
Fixpoint import_loop_owned (result_id : ResultId) (name : LitString) (block : list N) (sets : list Obj)
  : owning (list N * Core E) := fun bound w =>
  match sets with
  | [] => (Err (UnknownInstSet name), bound, w)
  | inst_set :: rest =>
      match call_get_name methods inst_set w with
      | (None, w) => (Panic, bound, w)
      | (Some set_name, w) =>
          if String.eqb set_name name then
            match call_duplicate methods inst_set w with
            | (None, w) => (Panic, bound, w)
            | (Some copy, w) =>
                let (old, bound) := table_insert hashing (hash_OpId (hasher hashing)) result_id copy bound in
                match old with
                | Some previous => (Err (DuplicateResultId result_id), bound, drop_set drops previous w)
                | None => (Ok (block, Core_OpExtInstImport
                    {| OpExtInstImport_result_id := result_id; OpExtInstImport_name := name |}), bound, w)
                end
            end
          else import_loop_owned result_id name block rest bound w
      end
  end.

(* src/spv/raw/reader.rs:502-524 *)
Definition read_core_OpExtInstImport_owned : CoreReaderOwned := fun block known =>
  own_then (own_pure (read_ResultId block)) (fun '(block, result_id) =>
  own_then (own_pure (read_LitString block)) (fun '(block, name) =>
  import_loop_owned result_id name block known)).

(* src/spv/raw/reader.rs:526-549 *)
Definition read_core_OpExtInst_owned : CoreReaderOwned := fun block _ =>
  own_then (own_pure (read_OpId block)) (fun '(block, result_type) =>
  own_then (own_pure (read_ResultId block)) (fun '(block, result_id) =>
  own_then (own_pure (read_OpId block)) (fun '(block, set_id) =>
  own_then (own_pure (read_u32 block)) (fun '(block, inst) => fun bound w =>
  match table_get hashing (hash_OpId (hasher hashing)) set_id bound with
  | Some set =>
      let (answer, w) := call_read_instruction methods set inst block w in
      (let! (block, extinst) := answer in
       Ok (block, Core_OpExtInst {| OpExtInst_result_type := result_type; OpExtInst_result_id := result_id;
                                    OpExtInst_set := set_id; OpExtInst_instruction := extinst |}), bound, w)
  | None => (Err (UnknownInstSetId set_id), bound, w)
  end)))).

(* src/spv/raw/reader.rs:457-464: the read_core of def_op_read! ignores both sets of instruction sets *)
Definition owning_nothing (read_fn : @CoreReader E) : CoreReaderOwned := fun block _ =>
  own_pure (let! (block, inst, _) := read_fn block [] [] in Ok (block, inst)).

(* src/spv/raw/reader.rs:138-425; the table of the other opcodes is that of ReadOps.v *)
Definition dispatch_owned (id wc : N) : outcome ReadError CoreReaderOwned :=
  match id with
  | 11 => Ok read_core_OpExtInstImport_owned
  | 12 => Ok read_core_OpExtInst_owned
  | _ => let! read_fn := dispatch id wc in Ok (owning_nothing read_fn)
  end.

(* dropping an instruction; only ExtInstBox holds an object of the user, src/spv/op.rs:146-152 *)
Definition drop_core (inst : Core E) (w : W) : W :=
  match inst with
  | Core_OpExtInst op => drop_instruction drops (OpExtInst_instruction op) w
  | _ => w
  end.

(* src/spv/raw/reader.rs:125-431; an instruction with words left over is dropped *)
Definition read_instruction_owned (stream : Stream) (known : list Obj) : owning (Stream * Core E) :=
  own_then (own_pure (stream_read_word stream)) (fun '(stream, head) =>
  let id := as_u16 (N.land head 0xFFFF) in
  let wc := as_u16 (N.shiftr head 16) in
  own_then (own_pure (read_words (N.to_nat (wc - 1)) stream)) (fun '(stream, block) =>
  own_then (own_pure (dispatch_owned id wc)) (fun read_fn =>
  own_then (read_fn block known) (fun '(block, inst) => fun bound w =>
  match block with
  | [] => (Ok (stream, inst), bound, w)
  | _ :: _ => (Err InstructionHadExcessData, bound, drop_core inst w)
  end)))).

(* src/spv/raw/reader.rs:74-77: the while loop; [fuel] bounds the iterations.  The instructions are there if it fails *)
Fixpoint read_instructions_owned (fuel : nat) (stream : Stream) (known : list Obj) (instructions : list (Core E))
    (bound : bound_boxes) (w : W) : outcome ReadError unit * list (Core E) * bound_boxes * W :=
  if stream_is_end stream then (Ok tt, instructions, bound, w)
  else match fuel with
       | O => (OutOfFuel, instructions, bound, w)
       | S fuel =>
           match read_instruction_owned stream known bound w with
           | (Ok (stream, instr), bound, w) => read_instructions_owned fuel stream known (instructions ++ [instr]) bound w
           | (Err e, bound, w) => (Err e, instructions, bound, w)
           | (Panic, bound, w) => (Panic, instructions, bound, w)
           | (OutOfFuel, bound, w) => (OutOfFuel, instructions, bound, w)
           end
       end.

(* dropping a Vec: from the first element to the last *)
(* src/spv/raw/reader.rs:16, 72 *)
Fixpoint drop_vec {A} (drop : A -> W -> W) (l : list A) (w : W) : W :=
  match l with
  | [] => w
  | x :: l => drop_vec drop l (drop x w)
  end.

(* dropping the map: bucket by bucket *)
(* src/spv/raw/reader.rs:73 *)
Definition drop_table (bound : bound_boxes) (w : W) : W :=
  drop_vec (drop_vec (fun entry => drop_set drops (snd entry))) bound w.

(* src/spv/raw/reader.rs:15-85 *)
Definition read_module_owned (data : list ascii) (known_inst_sets : list Obj) (w : W)
  : outcome ReadError (RawModule E) * W :=
  let header :=
    let stream := Build_Stream data true in
    let! (stream, magic) := stream_read_word stream in
    let! stream := check_magic magic stream in
    let! (stream, ver_word) := stream_read_word stream in
    let! version := read_version ver_word in
    let! _ := check_version version in
    let! (stream, generator_word) := stream_read_word stream in
    let generator_id := as_u16 (N.shiftr generator_word 16) in
    let tool := tool_of_id generator_id in
    let generator_version := as_u16 (N.land generator_word 0xFFFF) in
    let generator := Build_Generator tool generator_version in
    let! (stream, bound) := stream_read_word stream in
    let! (stream, zero) := stream_read_word stream in
    if negb (N.eqb zero 0) then Err UnknownReservedSchema else Ok (stream, version, generator, bound) in
  match header with
  | Ok (stream, version, generator, bound) =>
      let '(r, instructions, bound_inst_sets, w) :=
        read_instructions_owned (List.length (Stream_source stream)) stream known_inst_sets [] table_new w in
      let w := drop_table bound_inst_sets w in
      match r with
      | Ok tt => (Ok (Build_RawModule version generator bound instructions), drop_vec (drop_set drops) known_inst_sets w)
      | Err e => (Err e, drop_vec (drop_set drops) known_inst_sets (drop_vec drop_core instructions w))
      | Panic => (Panic, drop_vec (drop_set drops) known_inst_sets (drop_vec drop_core instructions w))
      | OutOfFuel => (OutOfFuel, drop_vec (drop_set drops) known_inst_sets (drop_vec drop_core instructions w))
      end
  | Err e => (Err e, drop_vec (drop_set drops) known_inst_sets w)
  | Panic => (Panic, drop_vec (drop_set drops) known_inst_sets w)
  | OutOfFuel => (OutOfFuel, drop_vec (drop_set drops) known_inst_sets w)
  end.

End Owned.
