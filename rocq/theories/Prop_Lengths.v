(** Property theorems about the length and the number of executions, C131. *)
From Verif Require Import Base Types Ops Groups ControlFlow Spec_Flow Spec_Lengths Samples_Flow Glsl450 Proofs_Lengths.
Local Open Scope N_scope.

(** ** C131 *)
(** The longest execution that returns: there is none, it has so many blocks, or there are arbitrarily long ones. *)
Theorem C131_longest : forall E (f : FunctionDefinition E) depth chain, find_control_flow depth f = Ok chain ->
  forall a, at_most (lengths f) a <-> longest chain Normal = a.
Proof. intros E f depth chain R. exact (longest_iff f depth chain R). Qed.
Print Assumptions C131_longest.

(** The shortest one. *)
Theorem C131_shortest : forall E (f : FunctionDefinition E) depth chain, find_control_flow depth f = Ok chain ->
  forall a, at_least (lengths f) a <-> shortest chain Normal = a.
Proof. intros E f depth chain R. exact (shortest_iff f depth chain R). Qed.
Print Assumptions C131_shortest.

(** The number of executions that return. *)
Theorem C131_number : forall E (f : FunctionDefinition E) depth chain, find_control_flow depth f = Ok chain ->
  forall a, so_many (complete_run f) a <-> number chain Normal = a.
Proof. intros E f depth chain R. exact (number_iff f depth chain R). Qed.
Print Assumptions C131_number.

(** There are infinitely many exactly if there are arbitrarily long ones. *)
Theorem C131_infinite : forall E (f : FunctionDefinition E) depth chain, find_control_flow depth f = Ok chain ->
  (so_many (complete_run f) Infinite <-> forall n, exists k, lengths f k /\ (n <= k)%nat).
Proof. exact infinite_iff. Qed.
Print Assumptions C131_infinite.

(** A loop that is left in its first block or starts again, a selection, and a loop that is never left. *)
Definition choice_chain : ControlFlowChain := Block [Selection 12 (Block [Atom 15; Atom 18]) (Block []) flatten None; Atom 13].
Definition choice_function : FunctionDefinition Inst := function_of
  [ simple_block 12 (Some (GroupMerge_OpSelectionMerge (Build_OpSelectionMerge 13 flatten))) (branch_on 15 13 None);
    simple_block 15 None (branch_to 18); simple_block 18 None (branch_to 13); simple_block 13 None (GroupBranch_OpReturn Build_OpReturn) ].
Example C131_example :
  find_control_flow 9 loop_function = Ok loop_chain
  /\ longest loop_chain Normal = NoLimit /\ shortest loop_chain Normal = Some 4%nat /\ number loop_chain Normal = Infinite
  /\ find_control_flow 9 choice_function = Ok choice_chain
  /\ longest choice_chain Normal = UpTo 4 /\ shortest choice_chain Normal = Some 2%nat /\ number choice_chain Normal = Exactly 2
  /\ exists chain, find_control_flow 9 endless_function = Ok chain
       /\ longest chain Normal = Never /\ shortest chain Normal = None /\ number chain Normal = Exactly 0.
Proof. repeat (split; [vm_compute; reflexivity|]). eexists. repeat (split; [vm_compute; reflexivity|]). vm_compute. reflexivity. Qed.
