(** What the results do not depend on: vocabulary for renamed functions. *)
From Verif Require Import Base Types Ops Groups ControlFlow Spec_Flow.

(** A function with other ids: labels, merge blocks, continue targets, branch targets and conditions go through [r]. *)
Section Renaming.
Context (r : N -> N).

Definition rename_merge (m : GroupMerge) : GroupMerge :=
  match m with
  | GroupMerge_OpLoopMerge op =>
      GroupMerge_OpLoopMerge (Build_OpLoopMerge (r (OpLoopMerge_merge_block op)) (r (OpLoopMerge_continue_target op)) (OpLoopMerge_loop_control op))
  | GroupMerge_OpSelectionMerge op =>
      GroupMerge_OpSelectionMerge (Build_OpSelectionMerge (r (OpSelectionMerge_merge_block op)) (OpSelectionMerge_selection_control op))
  end.
Definition rename_branch (b : GroupBranch) : GroupBranch :=
  match b with
  | GroupBranch_OpBranch op => GroupBranch_OpBranch (Build_OpBranch (r (OpBranch_target_label op)))
  | GroupBranch_OpBranchConditional op =>
      GroupBranch_OpBranchConditional (Build_OpBranchConditional (r (OpBranchConditional_condition op))
        (r (OpBranchConditional_true_label op)) (r (OpBranchConditional_false_label op)) (OpBranchConditional_weights op))
  | GroupBranch_OpReturn op => GroupBranch_OpReturn op
  end.
(** label, merge instruction and terminator of a block *)
Definition rename_skeleton (s : BlockId * option GroupMerge * GroupBranch) : BlockId * option GroupMerge * GroupBranch :=
  (r (fst (fst s)), option_map rename_merge (snd (fst s)), rename_branch (snd s)).

Fixpoint rename_chain (c : ControlFlowChain) : ControlFlowChain :=
  match c with
  | Atom id => Atom (r id)
  | Block l => Block (map rename_chain l)
  | Selection id yes no hint weights => Selection (r id) (rename_chain yes) (rename_chain no) hint weights
  | Loop id body hint weights => Loop (r id) (rename_chain body) hint weights
  | Break => Break
  | Continue => Continue
  end.
Definition rename_error (e : ControlFlowError) : ControlFlowError :=
  match e with
  | DuplicateBlockId id => DuplicateBlockId (r id)
  | NoBlocks => NoBlocks
  | UnknownBlockId id => UnknownBlockId (r id)
  | CouldNotPredictConverge id => CouldNotPredictConverge (r id)
  | InvalidConvergePrediction t id => InvalidConvergePrediction t (r id)
  | Failed => Failed
  end.
Definition rename_result (x : outcome ControlFlowError ControlFlowChain) : outcome ControlFlowError ControlFlowChain :=
  match x with Ok c => Ok (rename_chain c) | Err e => Err (rename_error e) | Panic => Panic | OutOfFuel => OutOfFuel end.
End Renaming.

(** The blocks a function has or refers to. *)
Definition mentions (s : BlockId * option GroupMerge * GroupBranch) : list BlockId :=
  fst (fst s)
  :: match snd (fst s) with
     | Some (GroupMerge_OpLoopMerge op) => [OpLoopMerge_merge_block op]
     | Some (GroupMerge_OpSelectionMerge op) => [OpSelectionMerge_merge_block op]
     | None => []
     end
  ++ match snd s with
     | GroupBranch_OpBranch op => [OpBranch_target_label op]
     | GroupBranch_OpBranchConditional op => [OpBranchConditional_true_label op; OpBranchConditional_false_label op]
     | GroupBranch_OpReturn _ => []
     end.
Definition mentioned {E} (f : FunctionDefinition E) : list BlockId := flat_map mentions (map skeleton (FunctionDefinition_blocks f)).
