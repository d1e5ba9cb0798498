(** SPECIFICATION: instruction lists in another order, C130. *)
From Coq Require Export Permutation.
From Verif Require Import Base Types Ops Groups Validate Spec_Layout.

(** The parts before the functions hold the same things, maybe in another order. *)
Record same_parts {E} (m m' : LogicalModule E) : Prop := Build_same_parts {
  same_capabilities : Permutation (LogicalModule_capabilities m) (LogicalModule_capabilities m');
  same_extensions : Permutation (LogicalModule_extensions m) (LogicalModule_extensions m');
  same_imports : Permutation (LogicalModule_ext_inst_imports m) (LogicalModule_ext_inst_imports m');
  same_memory_model : LogicalModule_memory_model m = LogicalModule_memory_model m';
  same_entry_points : Permutation (LogicalModule_entry_points m) (LogicalModule_entry_points m');
  same_execution_modes : Permutation (LogicalModule_execution_modes m) (LogicalModule_execution_modes m');
  same_debug : Permutation (LogicalModule_debug m) (LogicalModule_debug m');
  same_annotations : Permutation (LogicalModule_annotations m) (LogicalModule_annotations m');
  same_globals : Permutation (LogicalModule_globals m) (LogicalModule_globals m') }.

(** The functions too. *)
Definition same_functions {E} (m m' : LogicalModule E) : Prop :=
  Permutation (LogicalModule_function_declarations m) (LogicalModule_function_declarations m')
  /\ Permutation (LogicalModule_function_definitions m) (LogicalModule_function_definitions m').

(** The functions of a module, with and without body. *)
Definition functions {E} (m : LogicalModule E) : list OpFunction :=
  map FunctionDeclaration_function (LogicalModule_function_declarations m) ++ map FunctionDefinition_function (LogicalModule_function_definitions m).

(** The first function of the definitions has a body. *)
Definition first_has_body {E} (m : LogicalModule E) : Prop :=
  match LogicalModule_function_definitions m with [] => True | d :: _ => FunctionDefinition_blocks d <> [] end.
