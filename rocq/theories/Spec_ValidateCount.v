(** What C98 says: how often validation looks at an instruction, in terms of the module it returns. *)
From Verif Require Import Base Types Ops Groups.

(** Each entry of a list is looked at once, and so is what comes after the list. *)
Definition list_looks {A} (l : list A) : nat := length l + 1.
(** A block: its label, its code, then once for a merge instruction, there or not, and once for the branch. *)
Definition block_looks {E} (b : BasicBlock E) : nat := 1 + list_looks (BasicBlock_code b) + 1 + 1.
(** The head of a function, its parameters and the one instruction behind them. *)
Definition head_looks (parameters : list OpFunctionParameter) : nat := 1 + list_looks parameters + 1.
(** A definition: OpFunction, parameters, blocks, the one look that finds no further block, OpFunctionEnd. *)
Definition definition_looks {E} (d : FunctionDefinition E) : nat :=
  1 + list_looks (FunctionDefinition_parameters d) + list_sum (map block_looks (FunctionDefinition_blocks d)) + 1 + 1.

(** The whole module.  The head of the first definition is read twice, the first time as if it were a declaration. *)
Definition module_looks {E} (m : LogicalModule E) : nat :=
  list_looks (LogicalModule_capabilities m) + list_looks (LogicalModule_extensions m) + list_looks (LogicalModule_ext_inst_imports m) +
  1 +
  list_looks (LogicalModule_entry_points m) + list_looks (LogicalModule_execution_modes m) + list_looks (LogicalModule_debug m) +
  list_looks (LogicalModule_annotations m) + list_looks (LogicalModule_globals m) +
  list_sum (map (fun d => head_looks (FunctionDeclaration_parameters d)) (LogicalModule_function_declarations m)) +
  match LogicalModule_function_definitions m with
  | [] => 0
  | d :: _ => head_looks (FunctionDefinition_parameters d)
  end +
  list_sum (map definition_looks (LogicalModule_function_definitions m)).
