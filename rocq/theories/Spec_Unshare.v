(** SPECIFICATION: functions in which every block is used once, C138. *)
From Verif Require Import Base Types Ops Groups ControlFlow Spec_Flow Spec_Invariance Spec_Structured.

Section Origin.
Context (origin : BlockId -> BlockId).

(** Label, merge instruction and terminator of a block with the labels in them replaced by those of the blocks they are copies of; a merge instruction in a block that returns is of no consequence and stays. *)
Definition origin_merge (m : GroupMerge) : GroupMerge :=
  match m with
  | GroupMerge_OpLoopMerge op =>
      GroupMerge_OpLoopMerge (Build_OpLoopMerge (origin (OpLoopMerge_merge_block op)) (OpLoopMerge_continue_target op) (OpLoopMerge_loop_control op))
  | GroupMerge_OpSelectionMerge op =>
      GroupMerge_OpSelectionMerge (Build_OpSelectionMerge (origin (OpSelectionMerge_merge_block op)) (OpSelectionMerge_selection_control op))
  end.
Definition origin_skeleton (s : BlockId * option GroupMerge * GroupBranch) : BlockId * option GroupMerge * GroupBranch :=
  let '(label, merge, branch) := s in
  match branch with
  | GroupBranch_OpBranch op => (origin label, option_map origin_merge merge, GroupBranch_OpBranch (Build_OpBranch (origin (OpBranch_target_label op))))
  | GroupBranch_OpBranchConditional op => (origin label, option_map origin_merge merge,
      GroupBranch_OpBranchConditional (Build_OpBranchConditional (OpBranchConditional_condition op)
        (origin (OpBranchConditional_true_label op)) (origin (OpBranchConditional_false_label op)) (OpBranchConditional_weights op)))
  | GroupBranch_OpReturn op => (origin label, merge, GroupBranch_OpReturn op)
  end.

(** Every block of [f'] is a copy of one of [f]: the same instructions, condition, hints and weights, and it goes to copies of the blocks that one goes to. *)
Definition made_of_copies {E} (f f' : FunctionDefinition E) : Prop := forall b', In b' (FunctionDefinition_blocks f') ->
  exists b, In b (FunctionDefinition_blocks f) /\ BasicBlock_code b' = BasicBlock_code b /\ skeleton b = origin_skeleton (skeleton b').

(** What is executed, in terms of the blocks that were copied. *)
Definition origin_events (t : list event) : list event := map (fun e => (origin (fst e), snd e)) t.
End Origin.

(** The [n] numbers from [first] on. *)
Definition numbers_from (first : BlockId) (n : nat) : list BlockId := map (fun k : nat => first + N.of_nat k)%N (seq 0 n).
