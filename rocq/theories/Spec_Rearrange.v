(** SPECIFICATION: files made of the instructions of another file, C133. *)
From Verif Require Import Base Types Ops Reader ExtSet Spec_Operands Spec_Layout.

(** Every extended instruction comes after an import of its set. *)
Definition imports_first {E} (is : list (Core E)) : Prop := forall before op behind, is = before ++ Core_OpExtInst op :: behind ->
  exists name, In (Core_OpExtInstImport (Build_OpExtInstImport (OpExtInst_set op) name)) before.

(** No two imports have the same id. *)
Definition imports_differ {E} (is : list (Core E)) : Prop := NoDup (map OpExtInstImport_result_id (imports_of is)).

(** There is a file that is read as the module with other instructions. *)
Definition can_be_read {E} (known : list (ExtInstSet E)) (m : RawModule E) (is : list (Core E)) : Prop :=
  exists data, read_module data known = Ok (with_instructions m is).

(** [i] is the import of the set of the extended instruction [j]. *)
Definition imports_for {E} (i j : Core E) : Prop :=
  exists op x, i = Core_OpExtInstImport op /\ j = Core_OpExtInst x /\ OpExtInst_set x = OpExtInstImport_result_id op.
