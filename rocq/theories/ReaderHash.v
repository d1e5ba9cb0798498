(** read_module with the hash table of HashTable.v for the imported instruction sets,
    src/spv/raw/reader.rs:15-85, 125-150, 426-549.  Everything else is as in ReadOps.v and Reader.v. *)
From Verif Require Import Base Types Ops ReadErr ReadBase ReadOperands ExtSet ReadOps Reader HashTable.
Local Open Scope N_scope.

Section ReaderHash.
Context {E : Type} (hashing : Hashing).

(* HashMap<OpId, Box<ExtInstSet>>, src/spv/raw/reader.rs:73 *)
Definition bound_table := Table (A := ExtReader E).

(* the type of src/spv/raw/reader.rs:434-437 *)
Definition CoreReaderHashed := list N -> list (ExtInstSet E) -> bound_table ->
  outcome ReadError (list N * Core E * bound_table).

(* src/spv/raw/reader.rs:509-523: the for loop of OpExtInstImport::read_core *)
Fixpoint import_loop_hashed (result_id : ResultId) (name : LitString) (block : list N) (bound : bound_table)
    (sets : list (ExtInstSet E)) : outcome ReadError (list N * Core E * bound_table) :=
  match sets with
  | [] => Err (UnknownInstSet name)
  | inst_set :: rest =>
      if String.eqb (get_name inst_set) name then
        let '(old, bound) := table_insert hashing (hash_OpId (hasher hashing)) result_id (duplicate inst_set) bound in
        match old with
        | Some _ => Err (DuplicateResultId result_id)
        | None => Ok (block, Core_OpExtInstImport
            {| OpExtInstImport_result_id := result_id; OpExtInstImport_name := name |}, bound)
        end
      else import_loop_hashed result_id name block bound rest
  end.

(* src/spv/raw/reader.rs:502-524 *)
Definition read_core_OpExtInstImport_hashed : CoreReaderHashed := fun block known bound =>
  let! (block, result_id) := read_ResultId block in
  let! (block, name) := read_LitString block in
  import_loop_hashed result_id name block bound known.

(* src/spv/raw/reader.rs:526-549 *)
Definition read_core_OpExtInst_hashed : CoreReaderHashed := fun block _ bound =>
  let! (block, result_type) := read_OpId block in
  let! (block, result_id) := read_ResultId block in
  let! (block, set_id) := read_OpId block in
  let! (block, inst) := read_u32 block in
  match table_get hashing (hash_OpId (hasher hashing)) set_id bound with
  | Some read_instruction =>
      let! (block, extinst) := read_instruction inst block in
      Ok (block, Core_OpExtInst {| OpExtInst_result_type := result_type; OpExtInst_result_id := result_id;
                                   OpExtInst_set := set_id; OpExtInst_instruction := extinst |}, bound)
  | None => Err (UnknownInstSetId set_id)
  end.

(* src/spv/raw/reader.rs:457-464: the read_core of def_op_read! ignores both sets of instruction sets *)
Definition without_sets (read_fn : @CoreReader E) : CoreReaderHashed := fun block _ bound =>
  let! (block, inst, _) := read_fn block [] [] in Ok (block, inst, bound).

(* src/spv/raw/reader.rs:138-425; the table of the other opcodes is that of ReadOps.v *)
Definition dispatch_hashed (id wc : N) : outcome ReadError CoreReaderHashed :=
  match id with
  | 11 => Ok read_core_OpExtInstImport_hashed
  | 12 => Ok read_core_OpExtInst_hashed
  | _ => let! read_fn := dispatch id wc in Ok (without_sets read_fn)
  end.

(* src/spv/raw/reader.rs:125-431 *)
Definition read_instruction_hashed (stream : Stream) (known : list (ExtInstSet E)) (bound : bound_table)
  : outcome ReadError (Stream * Core E * bound_table) :=
  let! (stream, head) := stream_read_word stream in
  let id := as_u16 (N.land head 0xFFFF) in
  let wc := as_u16 (N.shiftr head 16) in
  let! (stream, block) := read_words (N.to_nat (wc - 1)) stream in
  let! read_fn := dispatch_hashed id wc in
  let! (block, inst, bound) := read_fn block known bound in
  match block with
  | [] => Ok (stream, inst, bound)
  | _ :: _ => Err InstructionHadExcessData
  end.

(* src/spv/raw/reader.rs:74-77: the while loop; [fuel] bounds the iterations *)
Fixpoint read_instructions_hashed (fuel : nat) (stream : Stream) (known : list (ExtInstSet E))
    (bound : bound_table) (instructions : list (Core E)) : outcome ReadError (list (Core E)) :=
  if stream_is_end stream then Ok instructions
  else match fuel with
       | O => OutOfFuel
       | S fuel =>
           let! (stream, instr, bound) := read_instruction_hashed stream known bound in
           read_instructions_hashed fuel stream known bound (instructions ++ [instr])
       end.

(* src/spv/raw/reader.rs:15-85 *)
Definition read_module_hashed (data : list ascii) (known_inst_sets : list (ExtInstSet E))
  : outcome ReadError (RawModule E) :=
  let stream := Build_Stream data true in
  let! (stream, magic) := stream_read_word stream in
  let! stream := check_magic magic stream in
  let! (stream, ver_word) := stream_read_word stream in
  let! version := read_version ver_word in
  let! _ := check_version version in
  let! (stream, generator_word) := stream_read_word stream in
  let generator_id := as_u16 (N.shiftr generator_word 16) in
  let tool := tool_of_id generator_id in
  let generator_version := as_u16 (N.land generator_word 0xFFFF) in
  let generator := Build_Generator tool generator_version in
  let! (stream, bound) := stream_read_word stream in
  let! (stream, zero) := stream_read_word stream in
  if negb (N.eqb zero 0) then Err UnknownReservedSchema else
  let! instructions :=
    read_instructions_hashed (List.length (Stream_source stream)) stream known_inst_sets table_new [] in
  Ok (Build_RawModule version generator bound instructions).

End ReaderHash.
