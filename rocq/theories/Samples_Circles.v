(** A loop that can be entered besides its header, C129. *)
From Verif Require Import Base Types Ops Groups ControlFlow Spec_Flow Spec_Standard Spec_Dominate Spec_Circles Glsl450 Samples_Flow Proofs_Dominate2.
Local Open Scope N_scope.

Definition entered_function : FunctionDefinition Inst := function_of
  [ simple_block 1 (Some (GroupMerge_OpSelectionMerge (Build_OpSelectionMerge 2 flatten))) (branch_on 2 3 None);
    simple_block 2 (Some (GroupMerge_OpLoopMerge (Build_OpLoopMerge 5 3 unroll))) (branch_to 4);
    simple_block 3 None (branch_to 2);
    simple_block 4 None (branch_on 3 5 None);
    simple_block 5 None (GroupBranch_OpReturn Build_OpReturn) ].
Definition entered_chain : ControlFlowChain :=
  Block [ Selection 1 (Block []) (Block [Atom 3]) flatten None;
          Loop 2 (Selection 4 (Block [Atom 3]) Break (Build_SelectionControl false false) None) unroll None;
          Atom 5 ].
Lemma entered_read : find_control_flow 9 entered_function = Ok entered_chain.
Proof. vm_compute. reflexivity. Qed.
Definition around : list event := [(2, None); (4, Some true); (3, None)].
Lemma entered_circle : circle entered_function 2 around.
Proof.
  split.
  - apply (reached _ _ _ entered_read). reflexivity.
  - split; [discriminate|]. eapply walk_branch; [split; [right; left; reflexivity|reflexivity]|reflexivity|]. cbn.
    eapply walk_true; [split; [do 3 right; left; reflexivity|reflexivity]|reflexivity|]. cbn.
    eapply walk_branch; [split; [do 2 right; left; reflexivity|reflexivity]|reflexivity|]. apply walk_here.
Qed.
Lemma entered_irreducible : circle entered_function 2 around /\ ~ (exists h, In h (map fst around) /\ forall x, In x (map fst around) -> dominates entered_function h x).
Proof.
  split; [exact entered_circle|]. intros (h & I & D). cbn in I.
  assert (A : h = 2 \/ arrives (N.eqb h) 2 entered_chain = false) by (apply (dominators _ _ _ entered_read); apply D; left; reflexivity).
  assert (B : h = 3 \/ arrives (N.eqb h) 3 entered_chain = false) by (apply (dominators _ _ _ entered_read); apply D; do 2 right; left; reflexivity).
  destruct I as [<-|[<-|[<-|[]]]]; cbn in A, B; destruct A, B; discriminate.
Qed.
