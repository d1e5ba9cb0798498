(** Property theorems about which functions the control-flow search comes to an end on, C114.  The vocabulary of the
    statements is in Spec_Flow, Spec_Standard and Spec_Returns. *)
From Verif Require Import Base Types Ops Groups Glsl450 ControlFlow ControlFlowCount Spec_Flow Samples Samples_Flow Spec_Standard Spec_Returns
  Proofs_Returns Samples_Returns Proofs_ReturnsCalls.

(** ** C114 *)
(** One result, reached with a call stack of at most one frame per block and one more. *)
Theorem C114_returns : forall E (f : FunctionDefinition E), merge_rules f -> construct_rules f -> loops_close f -> merges_reached f ->
  exists r, r <> OutOfFuel /\ forall depth, length (FunctionDefinition_blocks f) < depth -> find_control_flow depth f = r.
Proof. exact @rules_return. Qed.
Print Assumptions C114_returns.

(** And after at most (n + 1)(6 * 2^n - 3) calls, whatever the depth allowed. *)
Theorem C114_calls : forall E (f : FunctionDefinition E), merge_rules f -> construct_rules f -> loops_close f -> merges_reached f ->
  let n := length (FunctionDefinition_blocks f) in
  forall depth, n < depth -> fst (find_control_flow_counted depth f) <> OutOfFuel /\ snd (find_control_flow_counted depth f) <= (n + 1) * (6 * 2 ^ n - 3).
Proof. exact @rules_calls. Qed.
Print Assumptions C114_calls.

(** The one frame more is needed. *)
Theorem C114_depth_needed : exists f : FunctionDefinition Inst, NoDup (labels f) /\ obeys f /\ loops_close f /\ merges_reached f
  /\ find_control_flow (length (FunctionDefinition_blocks f)) f = OutOfFuel.
Proof. exact (ex_intro _ missing_function missing_needs). Qed.
Print Assumptions C114_depth_needed.

(** The rules of the standard alone do not make the search end: neither if what comes after a loop cannot be reached... *)
Theorem C114_unreached_refuted : exists f : FunctionDefinition Inst, NoDup (labels f) /\ obeys f /\ loops_close f /\ ~ exists r, returns f r.
Proof. exact (ex_intro _ endless_function endless_obeys). Qed.
Print Assumptions C114_unreached_refuted.

(** ... nor if a loop starts again from after it... *)
Theorem C114_late_refuted : exists f : FunctionDefinition Inst, NoDup (labels f) /\ obeys f /\ merges_reached f /\ ~ exists r, returns f r.
Proof. exact (ex_intro _ late_function late_obeys). Qed.
Print Assumptions C114_late_refuted.

(** ... and the two conditions do not do without the rules for constructs. *)
Theorem C114_crossed_refuted : exists f : FunctionDefinition Inst, NoDup (labels f) /\ merge_rules f /\ loops_close f /\ merges_reached f /\ ~ exists r, returns f r.
Proof. exact (ex_intro _ crossed_function crossed_rules). Qed.
Print Assumptions C114_crossed_refuted.

(** loop_function meets the conditions: a loop with an exit, and a selection in it. *)
Example C114_example : merge_rules loop_function /\ construct_rules loop_function /\ loops_close loop_function /\ merges_reached loop_function
  /\ length (FunctionDefinition_blocks loop_function) = 8 /\ find_control_flow 9 loop_function = Ok loop_chain.
Proof.
  destruct loop_obeys as ((M & _ & K) & C & R). split; [exact M|]. split; [exact K|]. split; [exact C|]. split; [exact R|]. split; vm_compute; reflexivity.
Qed.
