(** How many calls of the validator's recursive list reader are active at the same time, in terms of the module it
    returns. *)
From Verif Require Import Base Types Ops Groups.

(** Reading a list item by item by recursion: the call for an item is active while the item is read, which takes
    [inner] calls, and while the rest of the list is read.  [last] calls are made by the attempt that finds the end. *)
Fixpoint calls {A} (inner : A -> nat) (l : list A) (last : nat) : nat :=
  match l with
  | [] => S last
  | x :: l => S (Nat.max (inner x) (calls inner l last))
  end.

(** A list of single instructions. *)
Definition plain_calls {A} (l : list A) : nat := S (length l).

Section Stack.
Context {E : Type}.

Definition block_calls (b : BasicBlock E) : nat := plain_calls (BasicBlock_code b).
Definition declaration_calls (d : FunctionDeclaration) : nat := plain_calls (FunctionDeclaration_parameters d).
Definition definition_calls (d : FunctionDefinition E) : nat :=
  Nat.max (plain_calls (FunctionDefinition_parameters d)) (calls block_calls (FunctionDefinition_blocks d) 0).

(** The section that takes most.  The first definition ends the declarations: its parameters are read to see that. *)
Definition module_calls (m : LogicalModule E) : nat :=
  list_max
    [ plain_calls (LogicalModule_capabilities m); plain_calls (LogicalModule_extensions m); plain_calls (LogicalModule_ext_inst_imports m);
      plain_calls (LogicalModule_entry_points m); plain_calls (LogicalModule_execution_modes m); plain_calls (LogicalModule_debug m);
      plain_calls (LogicalModule_annotations m); plain_calls (LogicalModule_globals m);
      calls declaration_calls (LogicalModule_function_declarations m)
        (match LogicalModule_function_definitions m with [] => 0 | d :: _ => plain_calls (FunctionDefinition_parameters d) end);
      calls definition_calls (LogicalModule_function_definitions m) 0 ].
End Stack.
