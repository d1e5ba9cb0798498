(** Functions whose constructs are left in the ways that find_control_flow understands (C115).  In terms of the
    constructs of Spec_Standard; independent of how find_control_flow works. *)
From Verif Require Import Base Types Ops Groups ControlFlow Spec_Flow Spec_Standard.

Section Simple.
Context {E : Type} (f : FunctionDefinition E).

(** [h] and [m] are the header and the merge block of the innermost construct around [b]. *)
Definition innermost (b h m : BlockId) : Prop := declares f h m /\ construct f h m b
  /\ forall h' m', declares f h' m' -> construct f h' m' b -> construct f h' m' h.

(** - Branches go to blocks that exist.
    - A selection starts with a conditional branch and a loop with an unconditional one.
    - A block that returns is in no construct.
    - A conditional branch that does not start a selection is in a loop, not in another construct in this loop, and
      its second target is the merge block of the loop.
    - A construct is left to its merge block, not out of another construct in it, and a loop only by the second target
      of a conditional branch. *)
Definition simple : Prop :=
  (forall u n v, branches f u n v -> reachable f u -> exists b, has_block f v b)
  /\ (forall u b, has_block f u b -> reachable f u -> match BasicBlock_branch b, BasicBlock_merge b with
        | GroupBranch_OpBranch _, Some (GroupMerge_OpSelectionMerge _) => False
        | GroupBranch_OpBranchConditional _, Some (GroupMerge_OpLoopMerge _) => False
        | _, _ => True
        end)
  /\ (forall u b op h m, has_block f u b -> BasicBlock_branch b = GroupBranch_OpReturn op -> declares f h m -> ~ construct f h m u)
  /\ (forall u b op, has_block f u b -> reachable f u -> BasicBlock_branch b = GroupBranch_OpBranchConditional op -> BasicBlock_merge b = None ->
        exists h m ct, heads_loop f h m ct /\ innermost u h m /\ OpBranchConditional_false_label op = m)
  /\ (forall h m u n v, declares f h m -> branches f u n v -> construct f h m u -> ~ construct f h m v ->
        v = m /\ innermost u h m /\ forall ct, heads_loop f h m ct -> n = 1).
End Simple.
