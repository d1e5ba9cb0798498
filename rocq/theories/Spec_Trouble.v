(** Functions find_control_flow does not understand: which error it reports for them, where it has no implementation,
    and for which it never returns.  Uses the structured programs of Spec_Structured, nothing of the search. *)
From Verif Require Import Base Types Ops Groups ControlFlow Spec_Flow Spec_Structured.

Inductive trouble : Type :=
| Reported (error : ControlFlowError)
| NotImplemented.

Section Trouble.
Context {E : Type} (f : FunctionDefinition E).

(** [f] has a block with this label, merge instruction and terminator. *)
Definition has (id : BlockId) (merge : option GroupMerge) (branch : GroupBranch) : Prop :=
  In (id, merge, branch) (map skeleton (FunctionDefinition_blocks f)).

(** Terminators and merge instructions, for short. *)
Definition branch (target : BlockId) : GroupBranch := GroupBranch_OpBranch (Build_OpBranch target).
Definition conditional_branch (condition : OpId) (yes no : BlockId) (weights : option BranchWeights) : GroupBranch :=
  GroupBranch_OpBranchConditional (Build_OpBranchConditional condition yes no weights).
Definition loop_merge (merge : BlockId) (continue_target : OpId) (hint : LoopControl) : option GroupMerge :=
  Some (GroupMerge_OpLoopMerge (Build_OpLoopMerge merge continue_target hint)).
Definition selection_merge (merge : BlockId) (hint : SelectionControl) : option GroupMerge :=
  Some (GroupMerge_OpSelectionMerge (Build_OpSelectionMerge merge hint)).

(** Statement [s], followed by block [next], is part of [f].  The surrounding constructs go on at [stops]; [loop] is
    the header and the merge block of the innermost loop. *)
Definition contains (stops : list BlockId) (loop : option (BlockId * BlockId)) (s : statement) (next : BlockId) : Prop :=
  placed stops loop s next /\ incl (lower loop s next) (map skeleton (FunctionDefinition_blocks f)).

(** The statements that begin with block [from] lead to block [d] of [stops] ([Some d]) or to a return ([None]). *)
Definition leads_to (stops : list BlockId) (loop : option (BlockId * BlockId)) (from : BlockId) (destination : option BlockId) : Prop :=
  exists program last, from = first_of program last /\ each (contains stops loop) program last
    /\ match destination with
       | Some d => d = last /\ In last stops
       | None => ~ In last stops /\ exists merge, has last merge (GroupBranch_OpReturn Build_OpReturn)
       end.

(** [goes_wrong stops loop id t]: reading statements from block [id] on meets trouble [t]. *)
Inductive goes_wrong : list BlockId -> option (BlockId * BlockId) -> BlockId -> trouble -> Prop :=
(* behind a statement *)
| wrong_later : forall stops loop s next t, contains stops loop s next -> goes_wrong stops loop next t -> goes_wrong stops loop (start s) t
(* a block that does not exist *)
| wrong_unknown : forall stops loop id, ~ In id stops -> ~ In id (labels f) -> goes_wrong stops loop id (Reported (UnknownBlockId id))
(* a merge instruction that does not fit the terminator *)
| wrong_selection_branch : forall stops loop id merge hint target, ~ In id stops ->
    has id (selection_merge merge hint) (branch target) -> goes_wrong stops loop id NotImplemented
| wrong_loop_conditional : forall stops loop id merge ct hint c yes no w, ~ In id stops ->
    has id (loop_merge merge ct hint) (conditional_branch c yes no w) -> goes_wrong stops loop id NotImplemented
(* a loop: in its body, or its body does not lead back to the header *)
| wrong_body : forall stops loop id merge ct hint body t, ~ In id stops ->
    has id (loop_merge merge ct hint) (branch body) -> goes_wrong (id :: stops) (Some (id, merge)) body t -> goes_wrong stops loop id t
| wrong_loop : forall stops loop id merge ct hint body d, ~ In id stops ->
    has id (loop_merge merge ct hint) (branch body) -> leads_to (id :: stops) (Some (id, merge)) body d -> d <> Some id ->
    goes_wrong stops loop id (Reported (InvalidConvergePrediction ControlType_Loop id))
(* a selection: in its first arm, in its second arm, or an arm does not lead to the merge block *)
| wrong_yes : forall stops loop id merge hint c yes no w t, ~ In id stops ->
    has id (selection_merge merge hint) (conditional_branch c yes no w) -> goes_wrong (merge :: stops) loop yes t -> goes_wrong stops loop id t
| wrong_no : forall stops loop id merge hint c yes no w d t, ~ In id stops ->
    has id (selection_merge merge hint) (conditional_branch c yes no w) -> leads_to (merge :: stops) loop yes d ->
    goes_wrong (merge :: stops) loop no t -> goes_wrong stops loop id t
| wrong_selection : forall stops loop id merge hint c yes no w d1 d2, ~ In id stops ->
    has id (selection_merge merge hint) (conditional_branch c yes no w) -> leads_to (merge :: stops) loop yes d1 ->
    leads_to (merge :: stops) loop no d2 -> ~ (d1 = Some merge /\ d2 = Some merge) ->
    goes_wrong stops loop id (Reported (InvalidConvergePrediction ControlType_Selection id))
(* a condition without merge instruction that is not an exit from a loop *)
| wrong_condition : forall stops loop id c yes no w, ~ In id stops -> has id None (conditional_branch c yes no w) ->
    (forall head merge, loop = Some (head, merge) -> no <> head /\ no <> merge) ->
    goes_wrong stops loop id (Reported (CouldNotPredictConverge id))
(* an exit from a loop: in what follows, or that does not lead back to the header *)
| wrong_rest : forall stops head merge id c yes no w t, ~ In id stops -> has id None (conditional_branch c yes no w) ->
    no = head \/ no = merge -> goes_wrong stops (Some (head, merge)) yes t -> goes_wrong stops (Some (head, merge)) id t
| wrong_exit : forall stops head merge id c yes no w d, ~ In id stops -> has id None (conditional_branch c yes no w) ->
    no = head \/ no = merge -> leads_to stops (Some (head, merge)) yes d -> d <> Some head ->
    goes_wrong stops (Some (head, merge)) id (Reported (InvalidConvergePrediction ControlType_Loop id)).

(** [endless stops loop id]: reading statements from block [id] on never ends. *)
CoInductive endless : list BlockId -> option (BlockId * BlockId) -> BlockId -> Prop :=
| endless_later : forall stops loop s next, contains stops loop s next -> endless stops loop next -> endless stops loop (start s)
| endless_body : forall stops loop id merge ct hint body, ~ In id stops ->
    has id (loop_merge merge ct hint) (branch body) -> endless (id :: stops) (Some (id, merge)) body -> endless stops loop id
| endless_yes : forall stops loop id merge hint c yes no w, ~ In id stops ->
    has id (selection_merge merge hint) (conditional_branch c yes no w) -> endless (merge :: stops) loop yes -> endless stops loop id
| endless_no : forall stops loop id merge hint c yes no w d, ~ In id stops ->
    has id (selection_merge merge hint) (conditional_branch c yes no w) -> leads_to (merge :: stops) loop yes d ->
    endless (merge :: stops) loop no -> endless stops loop id
| endless_rest : forall stops head merge id c yes no w, ~ In id stops -> has id None (conditional_branch c yes no w) ->
    no = head \/ no = merge -> endless stops (Some (head, merge)) yes -> endless stops (Some (head, merge)) id.

(** The trouble with a function: a label that occurred before, no blocks, or what reading from the entry meets. *)
Inductive trouble_with : trouble -> Prop :=
| trouble_duplicate : forall before b after, FunctionDefinition_blocks f = before ++ b :: after -> NoDup (map label_of before) ->
    In (label_of b) (map label_of before) -> trouble_with (Reported (DuplicateBlockId (label_of b)))
| trouble_empty : FunctionDefinition_blocks f = [] -> trouble_with (Reported NoBlocks)
| trouble_reading : forall id t, NoDup (labels f) -> entry f id -> goes_wrong [] None id t -> trouble_with t.

Definition never_ends : Prop := NoDup (labels f) /\ exists id, entry f id /\ endless [] None id.

End Trouble.
