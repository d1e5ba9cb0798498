(** C109: the default values of the flag operands are the values without flags.  [plain_value] is in Spec_Default; its
    number has the bits of the flags the reader knows. *)
From Verif Require Import Base Types ReadErr ReadBase ReadOperands DisplayBase DisplayTypes EqBase Equality Spec_Default Proofs_Default.
Local Open Scope N_scope.

Theorem C109_memory : plain_value read_MemoryAccess disp_MemoryAccess eq_MemoryAccess 7 MemoryAccess_default.
Proof. exact memory_plain. Qed.
Print Assumptions C109_memory.

Theorem C109_function : plain_value read_FunctionControl disp_FunctionControl eq_FunctionControl 15 FunctionControl_default.
Proof. exact function_plain. Qed.
Print Assumptions C109_function.

Theorem C109_loop : plain_value read_LoopControl disp_LoopControl eq_LoopControl 15 LoopControl_default.
Proof. exact loop_plain. Qed.
Print Assumptions C109_loop.

Theorem C109_selection : plain_value read_SelectionControl disp_SelectionControl eq_SelectionControl 3 SelectionControl_default.
Proof. exact selection_plain. Qed.
Print Assumptions C109_selection.

(** Words with flags and without are read, and flags show. *)
Example C109_example :
  read_FunctionControl [0xF0; 9] = Ok ([9], FunctionControl_default)
  /\ read_LoopControl [8; 5] = Ok ([], Build_LoopControl false false false (Some 5))
  /\ disp_LoopControl (Build_LoopControl false false false (Some 5)) = "DependencyLength(5)"%string
  /\ read_SelectionControl [0x10000] = Ok ([], SelectionControl_default)
  /\ eq_MemoryAccess (Build_MemoryAccess true false false) MemoryAccess_default = false.
Proof. repeat split. Qed.
