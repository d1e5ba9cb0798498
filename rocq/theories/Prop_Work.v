(** Property theorems about the work find_control_flow does within its calls, C103.  The vocabulary of the statements is
    in Spec_Flow, Spec_Structured, Spec_Cost and Spec_Work; ControlFlowWork models the search with counts of its calls, of
    the surrounding constructs it looks at and of the parts of chains it moves. *)
From Verif Require Import Base Types Ops Groups ControlFlow ControlFlowCount ControlFlowWork Spec_Flow Spec_Structured Spec_Cost Spec_Work Samples_Flow Prop_Structured Proofs_Work.

(** ** C103 *)
(** Counting does not change the result, and the calls are those of C82. *)
Theorem C103_counting_is_faithful : forall E n (f : FunctionDefinition E),
  fst (find_control_flow_worked n f) = find_control_flow n f /\ Work_calls (snd (find_control_flow_worked n f)) = snd (find_control_flow_counted n f).
Proof. intros E n f. exact (worked_faithful f n). Qed.
Print Assumptions C103_counting_is_faithful.

(** The work is a function of the program. *)
Theorem C103_exact_work : forall E (f : FunctionDefinition E) program last merge, NoDup (labels f) -> placed_program program last ->
  incl (lower_program program last merge) (map skeleton (FunctionDefinition_blocks f)) -> entry f (first_of program last) ->
  forall n, program_depth program <= n -> find_control_flow_worked n f
    = (Ok (program_chain program last), Build_Work (program_calls program) (program_looks program) (program_moves program)).
Proof. intros E f program last merge ND PL IN EN. exact (work_exact f ND program last merge PL IN EN). Qed.
Print Assumptions C103_exact_work.

(** Whenever there is a chain, the work is at most quadratic in the number of blocks named in the chain. *)
Theorem C103_work_of_chain : forall E (f : FunctionDefinition E) chain, returns f (Ok chain) -> let k := length (chain_ids chain) in
  exists calls looks moves, k <= calls <= 3 * k - 2 /\ looks <= k * (k - 1) /\ 2 * moves <= (k - 1) * (k + 2) /\
  forall n, find_control_flow n f = Ok chain -> find_control_flow_worked n f = (Ok chain, Build_Work calls looks moves).
Proof. intros E f. exact (chain_work f). Qed.
Print Assumptions C103_work_of_chain.

(** For a function whose blocks are those of a program, each once, that is the number of blocks. *)
Theorem C103_work_of_written_function : forall E (f : FunctionDefinition E) program last, written_from f program last -> let k := length (FunctionDefinition_blocks f) in
  exists calls looks moves, calls <= 3 * k - 2 /\ looks <= k * (k - 1) /\ 2 * moves <= (k - 1) * (k + 2) /\
  forall n, k <= n -> find_control_flow_worked n f = (Ok (program_chain program last), Build_Work calls looks moves).
Proof. intros E f. exact (written_work f). Qed.
Print Assumptions C103_work_of_written_function.

(** The bound for the moves is met by blocks that just follow one another: the work is not proportional to their number. *)
Theorem C103_moves_linear_refuted : forall E n, exists (f : FunctionDefinition E) chain moves, length (FunctionDefinition_blocks f) = n + 1 /\
  2 * moves = n * (n + 3) /\ forall depth, n + 1 <= depth -> find_control_flow_worked depth f = (Ok chain, Build_Work (n + 1) 0 moves).
Proof. exact moves_met. Qed.
Print Assumptions C103_moves_linear_refuted.

(** Selections inside of one another take a quadratic number of looks. *)
Theorem C103_looks_linear_refuted : forall E n, exists (f : FunctionDefinition E) chain looks moves, length (FunctionDefinition_blocks f) = n + 1 /\
  2 * looks = n * (n + 3) /\ moves <= n + 1 /\ forall depth, n + 1 <= depth -> find_control_flow_worked depth f = (Ok chain, Build_Work (3 * n + 1) looks moves).
Proof. exact looks_met. Qed.
Print Assumptions C103_looks_linear_refuted.

(** Whatever the function and however the search ends, the calls made within depth [n] bound the rest of the work. *)
Theorem C103_work_of_any_function : forall E n (f : FunctionDefinition E), let w := snd (find_control_flow_worked n f) in
  Work_looks w <= 2 * (n - 1) * Work_calls w /\ 2 * Work_moves w <= Work_calls w * (Work_calls w + 1).
Proof. intros E n f. exact (work_any n f). Qed.
Print Assumptions C103_work_of_any_function.

Example C103_example : find_control_flow_worked 9 loop_function = (Ok loop_chain, Build_Work 11 (program_looks loop_program) (program_moves loop_program))
  /\ program_looks loop_program = 11 /\ program_moves loop_program = 10.
Proof. split; [|split]; vm_compute; reflexivity. Qed.
