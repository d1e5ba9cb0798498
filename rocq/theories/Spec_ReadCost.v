(** The instructions that make read_module ask the known sets for their names (C126). *)
From Verif Require Import Base Types Ops.

Definition is_import {E} (inst : Core E) : bool :=
  match inst with Core_OpExtInstImport _ => true | _ => false end.

(* how many instructions import a set *)
Definition imports {E} (instructions : list (Core E)) : nat := length (filter is_import instructions).
