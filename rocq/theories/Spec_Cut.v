(** SPECIFICATION: instruction lists that are cut short or made longer, C128. *)
From Verif Require Import Base Types Ops Groups Validate Spec_Tables Spec_Layout.

(** How many instructions of an opcode there are. *)
Definition how_many {E} (op : N) (is : list (Core E)) : nat := length (filter (fun i => N.eqb (opcode i) op) is).

(** One memory model (14), and as many OpFunctionEnd (56) as OpFunction (54). *)
Definition complete {E} (is : list (Core E)) : Prop := how_many 14 is = 1 /\ how_many 54 is = how_many 56 is.

Definition starts_with {A} (l start : list A) : Prop := exists rest, l = start ++ rest.

(** Every part of [small] is the start of the part of [lm]. *)
Record begins {E} (lm small : LogicalModule E) : Prop := Build_begins {
  begins_capabilities : starts_with (LogicalModule_capabilities lm) (LogicalModule_capabilities small);
  begins_extensions : starts_with (LogicalModule_extensions lm) (LogicalModule_extensions small);
  begins_imports : starts_with (LogicalModule_ext_inst_imports lm) (LogicalModule_ext_inst_imports small);
  begins_memory_model : LogicalModule_memory_model lm = LogicalModule_memory_model small;
  begins_entry_points : starts_with (LogicalModule_entry_points lm) (LogicalModule_entry_points small);
  begins_execution_modes : starts_with (LogicalModule_execution_modes lm) (LogicalModule_execution_modes small);
  begins_debug : starts_with (LogicalModule_debug lm) (LogicalModule_debug small);
  begins_annotations : starts_with (LogicalModule_annotations lm) (LogicalModule_annotations small);
  begins_globals : starts_with (LogicalModule_globals lm) (LogicalModule_globals small);
  begins_declarations : starts_with (LogicalModule_function_declarations lm) (LogicalModule_function_declarations small);
  begins_definitions : starts_with (LogicalModule_function_definitions lm) (LogicalModule_function_definitions small) }.

(** The module with more functions. *)
Definition with_more {E} (lm : LogicalModule E) (more : list (FunctionDefinition E)) : LogicalModule E :=
  Build_LogicalModule (LogicalModule_capabilities lm) (LogicalModule_extensions lm) (LogicalModule_ext_inst_imports lm) (LogicalModule_memory_model lm)
    (LogicalModule_entry_points lm) (LogicalModule_execution_modes lm) (LogicalModule_debug lm) (LogicalModule_annotations lm) (LogicalModule_globals lm)
    (LogicalModule_function_declarations lm) (LogicalModule_function_definitions lm ++ more).
