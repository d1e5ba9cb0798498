(** Property theorems about how much find_control_flow does whether or not it finds a chain, C113.  The vocabulary of the
    statements is in Spec_Flow; ControlFlowCount models the search with a count of its calls. *)
From Verif Require Import Base Types Ops Groups Glsl450 ControlFlow ControlFlowCount Spec_Flow Samples_Flow Proofs_AnyCalls.

(** ** C113 *)
(** Within a depth of recursion the search of a function of n blocks makes at most 6 * 2^n - 3 calls for each level, no matter how it ends. *)
Theorem C113_calls_at_depth : forall E (f : FunctionDefinition E) depth,
  snd (find_control_flow_counted depth f) <= depth * (6 * 2 ^ length (FunctionDefinition_blocks f) - 3).
Proof. exact @calls_at_depth. Qed.
Print Assumptions C113_calls_at_depth.

(** So if it returns a chain or an error, or panics, then after at most (n(n+1)/2 + 1)(6 * 2^n - 3) calls. *)
Theorem C113_calls_when_returns : forall E (f : FunctionDefinition E) depth r calls, find_control_flow_counted depth f = (r, calls) -> r <> OutOfFuel ->
  let n := length (FunctionDefinition_blocks f) in calls <= (n * (n + 1) / 2 + 1) * (6 * 2 ^ n - 3).
Proof. exact @calls_when_returns. Qed.
Print Assumptions C113_calls_when_returns.

(** An error can take twice as many calls as the dearest chain of as many blocks. *)
Theorem C113_error_reached : forall E n, exists (f : FunctionDefinition E) depth, length (FunctionDefinition_blocks f) = S n /\
  find_control_flow_counted depth f = (Err (UnknownBlockId 0%N), 3 * 2 ^ S n - 2).
Proof. exact error_reached. Qed.
Print Assumptions C113_error_reached.

(** A function whose search does not return makes only so many calls before a stack of so many levels is used up. *)
Example C113_example : find_control_flow_counted 7 (torn_function (E := Inst) 3) = (Err (UnknownBlockId 0%N), 22)
  /\ (forall E, length (FunctionDefinition_blocks (torn_function (E := E) 3)) = 3)
  /\ find_control_flow_counted 40 (function_of [simple_block 1%N None (branch_to 1%N)]) = (OutOfFuel, 40).
Proof. repeat split; vm_compute; reflexivity. Qed.
