(** Functions with the arms of selections exchanged, C123.  Nothing here knows how find_control_flow works. *)
From Verif Require Import Base Types Ops Groups ControlFlow Spec_Flow.

Definition turned (w : BranchWeights) : BranchWeights := Build_BranchWeights (BranchWeights_false_weight w) (BranchWeights_true_weight w).

Section Mirror.
Context {E : Type} (chosen : BlockId -> bool).

(** The conditional branch of a block that starts a selection goes the other way, with the weights exchanged and on any condition. *)
Definition exchanged (b b' : BasicBlock E) : Prop :=
  exists sel op op', BasicBlock_merge b = Some (GroupMerge_OpSelectionMerge sel)
    /\ BasicBlock_branch b = GroupBranch_OpBranchConditional op /\ BasicBlock_branch b' = GroupBranch_OpBranchConditional op'
    /\ OpBranchConditional_true_label op' = OpBranchConditional_false_label op
    /\ OpBranchConditional_false_label op' = OpBranchConditional_true_label op
    /\ OpBranchConditional_weights op' = option_map turned (OpBranchConditional_weights op).
(** The chosen blocks have their arms exchanged, the others keep the branch; the instructions in the blocks may be any. *)
Definition mirrored (b b' : BasicBlock E) : Prop :=
  label_of b' = label_of b /\ BasicBlock_merge b' = BasicBlock_merge b
  /\ (if chosen (label_of b) then exchanged b b' else BasicBlock_branch b' = BasicBlock_branch b).
Definition mirror_of (f g : FunctionDefinition E) : Prop := Forall2 mirrored (FunctionDefinition_blocks f) (FunctionDefinition_blocks g).
End Mirror.

(** The selections at the chosen blocks have their arms exchanged. *)
Fixpoint mirror_chain (chosen : BlockId -> bool) (c : ControlFlowChain) : ControlFlowChain :=
  match c with
  | Block l => Block (map (mirror_chain chosen) l)
  | Selection id lhs rhs hint weights =>
      if chosen id then Selection id (mirror_chain chosen rhs) (mirror_chain chosen lhs) hint (option_map turned weights)
      else Selection id (mirror_chain chosen lhs) (mirror_chain chosen rhs) hint weights
  | Loop id inner hint weights => Loop id (mirror_chain chosen inner) hint weights
  | Atom id => Atom id
  | Break => Break
  | Continue => Continue
  end.
