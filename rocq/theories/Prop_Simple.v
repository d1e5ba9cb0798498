(** Property theorems about which functions that obey the rules of the standard the control-flow search understands, C115.
    The vocabulary of the statements is in Spec_Flow, Spec_Standard, Spec_Returns and Spec_Simple. *)
From Verif Require Import Base Types Ops Groups Glsl450 ControlFlow Spec_Flow Samples Samples_Flow Spec_Standard Spec_Returns Spec_Simple
  Proofs_Simple Proofs_Simple2 Samples_Returns Samples_Simple.

(** ** C115 *)
(** Exactly the functions that are simple. *)
Theorem C115_understood : forall E (f : FunctionDefinition E), merge_rules f -> construct_rules f -> loops_close f -> merges_reached f ->
  ((exists chain, returns f (Ok chain)) <-> NoDup (labels f) /\ FunctionDefinition_blocks f <> [] /\ simple f).
Proof. exact @simple_iff. Qed.
Print Assumptions C115_understood.

(** Obeying the rules is not enough: [while (a) { if (b) { break; } }] obeys them all, and the break is not understood. *)
Theorem C115_break_refuted : exists f : FunctionDefinition Inst, NoDup (labels f) /\ obeys f /\ loops_close f /\ merges_reached f
  /\ returns f (Err (InvalidConvergePrediction ControlType_Selection 4%N)) /\ ~ simple f.
Proof. exact (ex_intro _ break_function break_rules). Qed.
Print Assumptions C115_break_refuted.

(** loop_function meets the conditions and is simple: a loop with an exit, and a selection in it. *)
Example C115_example : merge_rules loop_function /\ construct_rules loop_function /\ loops_close loop_function /\ merges_reached loop_function
  /\ simple loop_function /\ returns loop_function (Ok loop_chain).
Proof.
  destruct loop_obeys as ((M & _ & K) & C & R). split; [exact M|]. split; [exact K|]. split; [exact C|]. split; [exact R|]. split; [exact loop_simple|].
  split; [discriminate|]. exists 9. vm_compute. reflexivity.
Qed.
