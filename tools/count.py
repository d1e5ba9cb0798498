#!/usr/bin/env python3
"""Writes CountOperands.v and CountOps.v: the readers of ReadOperands.v and ReadOps.v, definition by
definition, over outcomes that carry a number of steps (CountBase.v)."""
import os
import re

HERE = os.path.dirname(os.path.abspath(__file__))
TH = os.path.join(HERE, "..", "rocq", "theories")


def load(name):
    with open(os.path.join(TH, name)) as f:
        return f.read()


def count(text):
    text = re.sub(r"\bread_(?=[A-Za-z])", "count_", text)
    text = re.sub(r"\bReader\b", "CountReader", text)
    text = re.sub(r"\bOk \(", "count_Ok (", text)
    text = re.sub(r"\bErr \(", "count_Err (", text)
    return text.replace("let!", "let+")


HEAD = "(* GENERATED by tools/count.py from %s; do not edit by hand. *)\n"

operands = load("ReadOperands.v").split("\n", 3)
body = count(operands[3][:operands[3].index("(* std::mem::size_of of")].rstrip() + "\n")
body = body.replace("(** MemoryBlockRead implementations of src/spv/raw/mod.rs. *)",
                    "(** The readers of ReadOperands.v with their steps. *)")
with open(os.path.join(TH, "CountOperands.v"), "w") as f:
    f.write(HEAD % "ReadOperands.v"
            + "From Verif Require Import Base Types ReadErr ReadBase CountBase.\nLocal Open Scope N_scope.\n" + body)

ops = load("ReadOps.v").split("\n", 3)[3]
start = ops.index("(** def_op_read!")
section = ops.index("Section ReadCore.")
core = ops.index("(* src/spv/raw/reader.rs:484 *)\nDefinition read_core_OpNop")
imports = ops.index("(* src/spv/raw/reader.rs:502-524 *)\nFixpoint import_loop")
dispatch = ops.index("(* src/spv/raw/reader.rs:138-425 *)\nDefinition dispatch")
plain = ops[core:imports].replace(": CoreReader :=", ": CountCoreReader :=")
plain = plain.replace(":= plain read_", ":= count_plain count_")
plain = plain.replace("Definition read_core_", "Definition count_core_")
table = ops[dispatch:].replace("Definition dispatch", "Definition count_dispatch")
table = table.replace("CoreReader", "CountCoreReader").replace("read_core_", "count_core_")
table = table.replace("End ReadCore.", "End CountCore.")

MIDDLE = '''Section CountCore.
Context {E : Type}.

(* src/spv/raw/reader.rs:433-438 *)
Definition CountCoreReader := list N -> list (ExtInstSet E) -> bound_sets E ->
  counted (list N * Core E * bound_sets E).

(* src/spv/raw/reader.rs:457-465 *)
Definition count_plain {A} (read : CountReader A) (wrap : A -> Core E) : CountCoreReader := fun block _ bound =>
  let+ (block, item) := read block in count_Ok (block, wrap item, bound).

'''

SETS = '''(* src/spv/raw/reader.rs:509-523: a step for every known set whose name is asked for, one for the insertion *)
Fixpoint count_import_loop (result_id : ResultId) (name : LitString) (block : list N) (bound : bound_sets E)
    (sets : list (ExtInstSet E)) : counted (list N * Core E * bound_sets E) :=
  match sets with
  | [] => count_Err (UnknownInstSet name)
  | inst_set :: rest =>
      let+ _ := step in
      if String.eqb (get_name inst_set) name then
        let+ _ := step in
        let '(old, bound) := map_insert result_id (duplicate inst_set) bound in
        match old with
        | Some _ => count_Err (DuplicateResultId result_id)
        | None => count_Ok (block, Core_OpExtInstImport
            {| OpExtInstImport_result_id := result_id; OpExtInstImport_name := name |}, bound)
        end
      else count_import_loop result_id name block bound rest
  end.

(* src/spv/raw/reader.rs:502-524 *)
Definition count_core_OpExtInstImport : CountCoreReader := fun block known bound =>
  let+ (block, result_id) := count_ResultId block in
  let+ (block, name) := count_LitString block in
  count_import_loop result_id name block bound known.

(* src/spv/raw/reader.rs:526-549: a step for the look-up, one for the call; what the set does in the call is
   not counted *)
Definition count_core_OpExtInst : CountCoreReader := fun block _ bound =>
  let+ (block, result_type) := count_OpId block in
  let+ (block, result_id) := count_ResultId block in
  let+ (block, set_id) := count_OpId block in
  let+ (block, inst) := count_u32 block in
  let+ _ := step in
  match map_get set_id bound with
  | Some read_instruction =>
      let+ _ := step in
      let+ (block, extinst) := (O, read_instruction inst block) in
      count_Ok (block, Core_OpExtInst {| OpExtInst_result_type := result_type; OpExtInst_result_id := result_id;
                                         OpExtInst_set := set_id; OpExtInst_instruction := extinst |}, bound)
  | None => count_Err (UnknownInstSetId set_id)
  end.

'''

with open(os.path.join(TH, "CountOps.v"), "w") as f:
    f.write(HEAD % "ReadOps.v"
            + "From Verif Require Import Base Types Ops ReadErr ReadBase ReadOperands ExtSet CountBase CountOperands.\n"
            + "Local Open Scope N_scope.\n\n"
            + count(ops[start:section]) + MIDDLE + plain + SETS + table)
