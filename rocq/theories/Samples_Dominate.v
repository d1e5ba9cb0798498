(** A selection whose arms share a block that is in a construct in one of them only (C127). *)
From Verif Require Import Base Types Ops Groups ControlFlow Spec_Flow Spec_Standard Spec_Dominate Glsl450 Samples_Flow Proofs_Dominate2.
Local Open Scope N_scope.

Definition shared_function : FunctionDefinition Inst := function_of
  [ simple_block 1 (Some (GroupMerge_OpSelectionMerge (Build_OpSelectionMerge 7 flatten))) (branch_on 2 3 None);
    simple_block 2 (Some (GroupMerge_OpSelectionMerge (Build_OpSelectionMerge 6 flatten))) (branch_on 4 5 None);
    simple_block 3 None (branch_to 4);
    simple_block 4 None (branch_to 6);
    simple_block 5 None (branch_to 6);
    simple_block 6 None (branch_to 7);
    simple_block 7 None (GroupBranch_OpReturn Build_OpReturn) ].
Lemma shared_not_dominated : exists depth,
  find_control_flow depth shared_function = Ok (Block
    [ Selection 1 (Block [Selection 2 (Block [Atom 4]) (Block [Atom 5]) flatten None; Atom 6])
                  (Block [Atom 3; Atom 4; Atom 6]) flatten None;
      Atom 7 ])
  /\ ~ dominates shared_function 2 4.
Proof.
  exists 9%nat. assert (R : find_control_flow 9 shared_function = Ok (Block
    [ Selection 1 (Block [Selection 2 (Block [Atom 4]) (Block [Atom 5]) flatten None; Atom 6])
                  (Block [Atom 3; Atom 4; Atom 6]) flatten None;
      Atom 7 ])) by (vm_compute; reflexivity).
  split; [exact R|]. intros D. apply (dominators _ _ _ R) in D. vm_compute in D. destruct D; discriminate.
Qed.
