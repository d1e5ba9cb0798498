(** Property theorems about what find_control_flow costs, C81 and C82.  The vocabulary of the statements is in Spec_Flow,
    Spec_Structured and Spec_Cost; ControlFlowCount models the search with a count of its calls. *)
From Verif Require Import Base Types Ops Groups ControlFlow ControlFlowCount Spec_Flow Spec_Structured Spec_Cost Samples_Flow Prop_Structured Proofs_Cost.

(** ** C81 *)
(** The depth of the recursion is a function of the program. *)
Theorem C81_exact_depth : forall E (f : FunctionDefinition E) program last merge, NoDup (labels f) -> placed_program program last ->
  incl (lower_program program last merge) (map skeleton (FunctionDefinition_blocks f)) -> entry f (first_of program last) ->
  forall n, find_control_flow n f = if program_depth program <=? n then Ok (program_chain program last) else OutOfFuel.
Proof. intros E f program last merge ND PL IN EN. exact (depth_exact f ND program last merge PL IN EN). Qed.
Print Assumptions C81_exact_depth.

(** Whenever there is a chain, one number decides, and it is at most the number of blocks named in the chain. *)
Theorem C81_depth_of_chain : forall E (f : FunctionDefinition E) chain, returns f (Ok chain) -> exists need, need <= length (chain_ids chain) /\
  forall n, find_control_flow n f = if need <=? n then Ok chain else OutOfFuel.
Proof. exact @chain_depth. Qed.
Print Assumptions C81_depth_of_chain.

(** No fixed limit is enough, and the bound is met. *)
Theorem C81_depth_grows_with_function : forall E n, exists f : FunctionDefinition E, length (FunctionDefinition_blocks f) = S n /\
  (exists chain, returns f (Ok chain)) /\ find_control_flow n f = OutOfFuel.
Proof. exact depth_unbounded. Qed.
Print Assumptions C81_depth_grows_with_function.

Example C81_example : program_depth loop_program = 6 /\ find_control_flow 6 loop_function = Ok loop_chain /\ find_control_flow 5 loop_function = OutOfFuel.
Proof. split; [reflexivity|]. split; vm_compute; reflexivity. Qed.

(** ** C82 *)
(** Counting does not change the result. *)
Theorem C82_counting_is_faithful : forall E n (f : FunctionDefinition E), fst (find_control_flow_counted n f) = find_control_flow n f.
Proof. exact @counted_find. Qed.
Print Assumptions C82_counting_is_faithful.

(** The number of calls is a function of the program. *)
Theorem C82_exact_calls : forall E (f : FunctionDefinition E) program last merge, NoDup (labels f) -> placed_program program last ->
  incl (lower_program program last merge) (map skeleton (FunctionDefinition_blocks f)) -> entry f (first_of program last) ->
  forall n, program_depth program <= n -> find_control_flow_counted n f = (Ok (program_chain program last), program_calls program).
Proof. intros E f program last merge ND PL IN EN. exact (calls_exact f ND program last merge PL IN EN). Qed.
Print Assumptions C82_exact_calls.

(** It is proportional to the size of the chain. *)
Theorem C82_calls_of_chain : forall E (f : FunctionDefinition E) chain, returns f (Ok chain) ->
  exists calls, length (chain_ids chain) <= calls <= 3 * length (chain_ids chain) - 2 /\
  forall n, find_control_flow n f = Ok chain -> find_control_flow_counted n f = (Ok chain, calls).
Proof. exact @chain_calls. Qed.
Print Assumptions C82_calls_of_chain.

(** For a function whose blocks are those of a program, each once, that is the number of blocks. *)
Theorem C82_calls_of_written_function : forall E (f : FunctionDefinition E) program last, written_from f program last ->
  exists calls, calls <= 3 * length (FunctionDefinition_blocks f) - 2 /\
  forall n, length (FunctionDefinition_blocks f) <= n -> find_control_flow_counted n f = (Ok (program_chain program last), calls).
Proof. exact @written_calls. Qed.
Print Assumptions C82_calls_of_written_function.

(** Otherwise it can be exponential in the number of blocks. *)
Theorem C82_linear_in_blocks_refuted : forall E n, exists (f : FunctionDefinition E) chain depth calls,
  length (FunctionDefinition_blocks f) = 2 * n + 1 /\ find_control_flow_counted depth f = (Ok chain, calls) /\ (2 ^ N.of_nat n <= N.of_nat calls)%N.
Proof. exact calls_exponential. Qed.
Print Assumptions C82_linear_in_blocks_refuted.

Example C82_example : program_calls loop_program = 11 /\ find_control_flow_counted 9 loop_function = (Ok loop_chain, 11).
Proof. split; vm_compute; reflexivity. Qed.
