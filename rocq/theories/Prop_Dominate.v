(** Property theorems about the blocks an execution has to come through, C127.  Executions are in Spec_Flow, dominators in
    Spec_Standard, what is computed along the chain in Spec_Dominate. *)
From Verif Require Import Base Types Ops Groups ControlFlow Spec_Flow Spec_Standard Spec_Dominate Samples_Flow Samples_Dominate Prop_Structured Proofs_Dominate2.
Local Open Scope N_scope.

(** ** C127 *)
(** Which blocks can be reached. *)
Theorem C127_reachable : forall E (f : FunctionDefinition E) depth chain, find_control_flow depth f = Ok chain ->
  forall b, reachable f b <-> arrives nothing_avoided b chain = true.
Proof. intros E f depth chain R. exact (reached f depth chain R). Qed.
Print Assumptions C127_reachable.

(** Which blocks every execution has come through when it gets to a block. *)
Theorem C127_dominators : forall E (f : FunctionDefinition E) depth chain, find_control_flow depth f = Ok chain ->
  forall a b, dominates f a b <-> a = b \/ arrives (N.eqb a) b chain = false.
Proof. intros E f depth chain R. exact (dominators f depth chain R). Qed.
Print Assumptions C127_dominators.

(** Which blocks every execution comes through that gets from a block to the end. *)
Theorem C127_post_dominators : forall E (f : FunctionDefinition E) depth chain, find_control_flow depth f = Ok chain ->
  forall a b, reachable f a -> (post_dominates f b a <-> leaves (N.eqb b) a chain Normal = false).
Proof. intros E f depth chain R. exact (post_dominators f depth chain R). Qed.
Print Assumptions C127_post_dominators.

(** A block that stands only in constructs of [h] is not reached but through [h]. *)
Theorem C127_header_dominates : forall E (f : FunctionDefinition E) depth chain, find_control_flow depth f = Ok chain ->
  forall h b, only_inside h b chain -> dominates f h b.
Proof. intros E f depth chain R. exact (header_dominates f depth chain R). Qed.
Print Assumptions C127_header_dominates.

(** For a block that also stands elsewhere this fails. *)
Theorem C127_any_header_refuted : exists depth,
  find_control_flow depth shared_function = Ok (Block
    [ Selection 1 (Block [Selection 2 (Block [Atom 4]) (Block [Atom 5]) flatten None; Atom 6])
                  (Block [Atom 3; Atom 4; Atom 6]) flatten None;
      Atom 7 ])
  /\ ~ dominates shared_function 2 4.
Proof. exact shared_not_dominated. Qed.
Print Assumptions C127_any_header_refuted.

(** In the sample loop block 13 is reached through the blocks 9 to 12, and every execution goes on from 12 through the
    blocks 13, 10, 11 and 14. *)
Example C127_example : find_control_flow 9 loop_function = Ok loop_chain
  /\ filter (fun a => negb (arrives (N.eqb a) 13 loop_chain)) (chain_ids loop_chain) = [9; 10; 11; 12]
  /\ filter (fun b => negb (leaves (N.eqb b) 12 loop_chain Normal)) (chain_ids loop_chain) = [10; 11; 12; 13; 14]
  /\ only_inside 10 15 loop_chain /\ ~ only_inside 12 13 loop_chain.
Proof. split; [vm_compute; reflexivity|]. split; [vm_compute; reflexivity|]. split; [vm_compute; reflexivity|]. split; vm_compute; intuition discriminate. Qed.
