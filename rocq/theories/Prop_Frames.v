(** Property theorems about how deep find_control_flow goes in terms of the blocks of the function, C110, and about how
    deeply the constructs of a chain nest, C111.  The vocabulary of the statements is in Spec_Flow and Spec_Frames. *)
From Verif Require Import Base Types Ops Groups ControlFlow Spec_Flow Spec_Frames Samples_Flow Proofs_Frames Proofs_Nesting.

(** ** C110 *)
(** For a function of n blocks that has a chain, n(n-1)/2 + 1 levels are enough. *)
Theorem C110_levels_enough : forall E (f : FunctionDefinition E) chain, returns f (Ok chain) ->
  find_control_flow (frames (length (FunctionDefinition_blocks f))) f = Ok chain.
Proof. exact @frames_enough. Qed.
Print Assumptions C110_levels_enough.

(** For every n there is one that needs them all. *)
Theorem C110_levels_needed : forall E n, exists f : FunctionDefinition E, length (FunctionDefinition_blocks f) = S n /\
  (exists chain, returns f (Ok chain)) /\ forall depth, depth < frames (S n) -> find_control_flow depth f = OutOfFuel.
Proof. exact frames_needed. Qed.
Print Assumptions C110_levels_needed.

(** So no number of levels that is linear in the number of blocks is enough for all of them. *)
Theorem C110_linear_refuted : forall E factor, exists (f : FunctionDefinition E) chain, returns f (Ok chain) /\
  find_control_flow (factor * length (FunctionDefinition_blocks f)) f = OutOfFuel.
Proof. exact frames_not_linear. Qed.
Print Assumptions C110_linear_refuted.

Example C110_example : returns loop_function (Ok loop_chain) /\ length (FunctionDefinition_blocks loop_function) = 8 /\ frames 8 = 29
  /\ frames 1 = 1 /\ frames 2 = 2 /\ frames 3 = 4 /\ frames 100 = 4951.
Proof. split; [split; [discriminate|exists 6; vm_compute; reflexivity]|]. repeat split. Qed.

(** ** C111 *)
Theorem C111_not_in_itself : forall E (f : FunctionDefinition E) chain, returns f (Ok chain) -> everywhere (fun _ => not_in_itself) None chain.
Proof. exact @construct_not_in_itself. Qed.
Print Assumptions C111_not_in_itself.

(** A selection that is an exit from a loop can contain its block again. *)
Theorem C111_exit_not_in_itself_refuted : forall E, exists (f : FunctionDefinition E) inner,
  returns f (Ok (Block [Loop 0%N (Selection 1%N inner Continue SelectionControl_default None) LoopControl_default None; Atom 3%N])) /\ In 1%N (chain_ids inner).
Proof. exact exit_in_itself. Qed.
Print Assumptions C111_exit_not_in_itself_refuted.

Theorem C111_nesting : forall E (f : FunctionDefinition E) chain, returns f (Ok chain) -> constructs chain <= length (merging f).
Proof. exact @constructs_at_most. Qed.
Print Assumptions C111_nesting.

Theorem C111_nesting_reached : forall E n, exists (f : FunctionDefinition E) chain, returns f (Ok chain) /\ length (merging f) = n /\ constructs chain = n.
Proof. exact constructs_reached. Qed.
Print Assumptions C111_nesting_reached.

Example C111_example : returns loop_function (Ok loop_chain) /\ length (merging loop_function) = 2 /\ constructs loop_chain = 2.
Proof. split; [split; [discriminate|exists 6; vm_compute; reflexivity]|]. split; vm_compute; reflexivity. Qed.
