(** What find_control_flow sees of a block. *)
From Verif Require Import Base Types Ops Groups ControlFlow Spec_Flow.

(** The merge instruction and the branch, without the continue target of a loop and the condition of a branch (here
    0 for all); of a block that returns, only that it does. *)
Definition without_continue_target (m : GroupMerge) : GroupMerge :=
  match m with
  | GroupMerge_OpLoopMerge m => GroupMerge_OpLoopMerge (Build_OpLoopMerge (OpLoopMerge_merge_block m) 0%N (OpLoopMerge_loop_control m))
  | m => m
  end.
Definition visible_of (merge : option GroupMerge) (branch : GroupBranch) : option GroupMerge * GroupBranch :=
  match branch with
  | GroupBranch_OpReturn r => (None, GroupBranch_OpReturn r)
  | GroupBranch_OpBranch b => (option_map without_continue_target merge, GroupBranch_OpBranch b)
  | GroupBranch_OpBranchConditional b =>
      (option_map without_continue_target merge,
       GroupBranch_OpBranchConditional (Build_OpBranchConditional 0%N (OpBranchConditional_true_label b) (OpBranchConditional_false_label b)
                                          (OpBranchConditional_weights b)))
  end.
Definition visible {E} (b : BasicBlock E) : option GroupMerge * GroupBranch := visible_of (BasicBlock_merge b) (BasicBlock_branch b).
