(** Property theorems about how large a chain can be in terms of the blocks of the function, C112.  The vocabulary of the
    statements is in Spec_Flow; ControlFlowCount models the search with a count of its calls. *)
From Verif Require Import Base Types Ops Groups ControlFlow ControlFlowCount Spec_Flow Samples_Flow Proofs_ChainSize.

(** ** C112 *)
(** The chain of a function of n blocks names at most 2^(n-1) blocks. *)
Theorem C112_size : forall E (f : FunctionDefinition E) chain, returns f (Ok chain) ->
  length (chain_ids chain) <= 2 ^ (length (FunctionDefinition_blocks f) - 1).
Proof. exact @size_at_most. Qed.
Print Assumptions C112_size.

(** Finding it takes at most 3 * 2^(n-1) - 2 calls. *)
Theorem C112_calls : forall E (f : FunctionDefinition E) depth chain calls, find_control_flow_counted depth f = (Ok chain, calls) ->
  calls <= 3 * 2 ^ (length (FunctionDefinition_blocks f) - 1) - 2.
Proof. exact @calls_at_most. Qed.
Print Assumptions C112_calls.

(** For every n both are reached, by one function. *)
Theorem C112_reached : forall E n, exists (f : FunctionDefinition E) chain depth, length (FunctionDefinition_blocks f) = S n /\
  find_control_flow_counted depth f = (Ok chain, 3 * 2 ^ n - 2) /\ length (chain_ids chain) = 2 ^ n.
Proof. exact size_reached. Qed.
Print Assumptions C112_reached.

Example C112_example : returns loop_function (Ok loop_chain) /\ length (FunctionDefinition_blocks loop_function) = 8 /\ length (chain_ids loop_chain) = 8.
Proof. split; [split; [discriminate|exists 6; vm_compute; reflexivity]|]. split; vm_compute; reflexivity. Qed.
