(** A function whose loop names as its continue target a block that there is only after a cut, C121. *)
From Verif Require Import Base Types Ops Groups ControlFlow Glsl450 Spec_Flow Spec_Structured Spec_Standard Spec_Split Samples Samples_Flow Samples_Split Samples_Returns Proofs_Rules.
Local Open Scope N_scope.

Definition early_block : BasicBlock Inst := simple_block 13 None (branch_to 10).
Definition early_with (blocks : list (BasicBlock Inst)) : FunctionDefinition Inst := function_of
  ([ simple_block 9 None (branch_to 10);
     simple_block 10 (Some (GroupMerge_OpLoopMerge (Build_OpLoopMerge 14 20 unroll))) (branch_to 11);
     simple_block 11 None (branch_on 13 14 None) ] ++ blocks ++ [ simple_block 14 None (GroupBranch_OpReturn Build_OpReturn) ]).
Definition early_function : FunctionDefinition Inst := early_with [early_block].
Definition early_cut : FunctionDefinition Inst := early_with [simple_block 13 None (branch_to 20); simple_block 20 None (branch_to 10)].
Definition early_order (id : BlockId) : nat := match id with 14 => 30 | x => N.to_nat x end.

Lemma early_obeys : exists (f g : FunctionDefinition Inst) cut n, cut_at f g cut n /\ NoDup (labels f) /\ ~ starts_loop cut /\ obeys g /\ ~ obeys f.
Proof.
  exists early_function, early_cut, early_block, 20. split; [|split; [|split; [|split]]].
  - eexists _, _, [], []. split; [exact (eq_refl : FunctionDefinition_blocks early_function = firstn 3 (FunctionDefinition_blocks early_function) ++ early_block :: skipn 4 (FunctionDefinition_blocks early_function))|].
    split; [reflexivity|]. split; [reflexivity|]. apply fresh_in. vm_compute. reflexivity.
  - repeat constructor; cbn; intros H; repeat destruct H as [H|H]; first [discriminate H|exact H].
  - intros [op X]. discriminate X.
  - pose proof (entry_1 _ _ : entry early_cut 9) as En. apply (check_obeys _ 9 En early_order). vm_compute. reflexivity.
  - intros (_ & C & _). pose proof (entry_1 _ _ : entry early_function 9) as En.
    assert (R : reachable early_function 13).
    { exists 9, [(9, None); (10, None); (11, Some true)]. split; [exact En|]. eapply walk_branch; [split; [left; reflexivity|reflexivity]|reflexivity|]. eapply walk_branch; [split; [right; left; reflexivity|reflexivity]|reflexivity|].
      eapply walk_true; [split; [right; right; left; reflexivity|reflexivity]|reflexivity|]. constructor. }
    destruct (C 10 14 20 13 0%nat) as (_ & D & _).
    + eexists _, unroll. split; [split; [right; left; reflexivity|reflexivity]|reflexivity].
    + split; [eexists; split; [split; [right; right; right; left; reflexivity|reflexivity]|reflexivity]|]. split; [exact R|]. apply (domb_ok _ 9 En). vm_compute. reflexivity.
    + revert D. apply (ndomb_ok _ 9 En). vm_compute. reflexivity.
Qed.
