(** What executions of a function and of a structured chain are.  Independent of how find_control_flow
    works: only the data types of the model are used. *)
From Verif Require Import Base Types Ops Groups ControlFlow.

(** ** Executions of a function *)

(** Executing a block is observed as the block's label, with the outcome of the condition if the block ends in a
    conditional branch. *)
Definition event : Type := BlockId * option bool.

Section Graph.
Context {E : Type}.

Definition label_of (b : BasicBlock E) : BlockId := OpLabel_result_id (BasicBlock_label b).

Definition labels (f : FunctionDefinition E) : list BlockId := map label_of (FunctionDefinition_blocks f).

(** [f] has a block [b] labelled [id]. *)
Definition has_block (f : FunctionDefinition E) (id : BlockId) (b : BasicBlock E) : Prop :=
  In b (FunctionDefinition_blocks f) /\ label_of b = id.

(** [walk f id t d]: starting at block [id], the function can execute the blocks [t]; afterwards it has returned
    ([d] is None) or is about to execute block [j] ([d] is Some j). *)
Inductive walk (f : FunctionDefinition E) : BlockId -> list event -> option BlockId -> Prop :=
| walk_here : forall id, walk f id [] (Some id)
| walk_return : forall id b op,
    has_block f id b -> BasicBlock_branch b = GroupBranch_OpReturn op ->
    walk f id [(id, None)] None
| walk_branch : forall id b op t d,
    has_block f id b -> BasicBlock_branch b = GroupBranch_OpBranch op ->
    walk f (OpBranch_target_label op) t d ->
    walk f id ((id, None) :: t) d
| walk_true : forall id b op t d,
    has_block f id b -> BasicBlock_branch b = GroupBranch_OpBranchConditional op ->
    walk f (OpBranchConditional_true_label op) t d ->
    walk f id ((id, Some true) :: t) d
| walk_false : forall id b op t d,
    has_block f id b -> BasicBlock_branch b = GroupBranch_OpBranchConditional op ->
    walk f (OpBranchConditional_false_label op) t d ->
    walk f id ((id, Some false) :: t) d.

(** The first block is the entry. *)
Definition entry (f : FunctionDefinition E) (id : BlockId) : Prop :=
  exists b rest, FunctionDefinition_blocks f = b :: rest /\ label_of b = id.

Definition complete_run (f : FunctionDefinition E) (t : list event) : Prop :=
  exists id, entry f id /\ walk f id t None.

Definition unfinished_run (f : FunctionDefinition E) (t : list event) : Prop :=
  exists id j, entry f id /\ walk f id t (Some j).

Definition reachable (f : FunctionDefinition E) (j : BlockId) : Prop :=
  exists id t, entry f id /\ walk f id t (Some j).

(** The ids a block names in its terminator and in its merge instruction. *)
Definition branch_targets (b : BasicBlock E) : list BlockId :=
  match BasicBlock_branch b with
  | GroupBranch_OpBranch op => [OpBranch_target_label op]
  | GroupBranch_OpBranchConditional op => [OpBranchConditional_true_label op; OpBranchConditional_false_label op]
  | GroupBranch_OpReturn _ => []
  end.
Definition merge_targets (b : BasicBlock E) : list BlockId :=
  match BasicBlock_merge b with
  | Some (GroupMerge_OpSelectionMerge op) => [OpSelectionMerge_merge_block op]
  | Some (GroupMerge_OpLoopMerge op) => [OpLoopMerge_merge_block op]
  | None => []
  end.

End Graph.

(** ** Executions of a structured chain *)

(** How the execution of (a part of) a chain ends: it runs off its end, it breaks out of or continues the
    surrounding loop, or it is interrupted after some blocks. *)
Inductive exit : Type := Normal | Broke | Continued | Interrupted.

(** [exec c t e]: chain [c] can execute the blocks [t] and end with [e].
    - an atom executes its block;
    - a block executes its elements in order;
    - a selection executes its block and then the left part if the condition is true, the right part otherwise;
    - a loop executes its header block and then its body, and starts again when the body ends normally or
      continues; it ends when the body breaks.
    Every execution can be interrupted. *)
Inductive exec : ControlFlowChain -> list event -> exit -> Prop :=
| exec_interrupted : forall c, exec c [] Interrupted
| exec_atom : forall id, exec (Atom id) [(id, None)] Normal
| exec_block : forall l t e, exec_list l t e -> exec (Block l) t e
| exec_selection : forall id lhs rhs hint weights (taken : bool) t e,
    exec (if taken then lhs else rhs) t e ->
    exec (Selection id lhs rhs hint weights) ((id, Some taken) :: t) e
| exec_loop_leave : forall id inner hint weights t,
    exec inner t Broke ->
    exec (Loop id inner hint weights) ((id, None) :: t) Normal
| exec_loop_interrupted : forall id inner hint weights t,
    exec inner t Interrupted ->
    exec (Loop id inner hint weights) ((id, None) :: t) Interrupted
| exec_loop_again : forall id inner hint weights t1 e1 t2 e,
    exec inner t1 e1 -> (e1 = Normal \/ e1 = Continued) ->
    exec (Loop id inner hint weights) t2 e ->
    exec (Loop id inner hint weights) ((id, None) :: t1 ++ t2) e
| exec_break : exec Break [] Broke
| exec_continue : exec Continue [] Continued
with exec_list : list ControlFlowChain -> list event -> exit -> Prop :=
| exec_nil : exec_list [] [] Normal
| exec_cons : forall c l t1 t2 e, exec c t1 Normal -> exec_list l t2 e -> exec_list (c :: l) (t1 ++ t2) e
| exec_exit : forall c l t e, exec c t e -> e <> Normal -> exec_list (c :: l) t e.

(** ** Structure of chains *)

(** The block ids a chain mentions, in printing order. *)
Fixpoint chain_ids (c : ControlFlowChain) : list BlockId :=
  match c with
  | Atom id => [id]
  | Block l => flat_map chain_ids l
  | Selection id lhs rhs _ _ => id :: chain_ids lhs ++ chain_ids rhs
  | Loop id inner _ _ => id :: chain_ids inner
  | Break | Continue => []
  end.

(** [everywhere P c]: [P] holds of every sub-chain of [c], together with the header of the innermost loop of [c]
    around it ([around] if there is none). *)
Fixpoint everywhere (P : option BlockId -> ControlFlowChain -> Prop) (around : option BlockId) (c : ControlFlowChain) : Prop :=
  P around c /\
  match c with
  | Block l => fold_right (fun c rest => everywhere P around c /\ rest) True l
  | Selection _ lhs rhs _ _ => everywhere P around lhs /\ everywhere P around rhs
  | Loop id inner _ _ => everywhere P (Some id) inner
  | _ => True
  end.

(** No Block directly inside a Block. *)
Definition flat (c : ControlFlowChain) : Prop :=
  match c with
  | Block l => forall x, In x l -> match x with Block _ => False | _ => True end
  | _ => True
  end.

Section Nodes.
Context {E : Type} (f : FunctionDefinition E).

(** Block [h] starts a loop whose merge block is [m]. *)
Definition loop_header (h m : BlockId) (control : LoopControl) : Prop :=
  exists b op, has_block f h b /\ BasicBlock_merge b = Some (GroupMerge_OpLoopMerge op)
    /\ OpLoopMerge_merge_block op = m /\ OpLoopMerge_loop_control op = control.

Definition conditional (id t e : BlockId) (weights : option BranchWeights) (merge : option GroupMerge) : Prop :=
  exists b op, has_block f id b /\ BasicBlock_branch b = GroupBranch_OpBranchConditional op
    /\ OpBranchConditional_true_label op = t /\ OpBranchConditional_false_label op = e
    /\ OpBranchConditional_weights op = weights /\ BasicBlock_merge b = merge.

(** Breaks and continues stand only as the right part of a selection inside a loop [h]; the selection's block is a
    conditional branch without merge instruction whose false target is the merge block of [h] (break) or [h] itself
    (continue). *)
Definition well_scoped (around : option BlockId) (c : ControlFlowChain) : Prop :=
  match c with
  | Block l => ~ In Break l /\ ~ In Continue l
  | Loop _ inner _ _ => inner <> Break /\ inner <> Continue
  | Selection id lhs rhs _ _ =>
      lhs <> Break /\ lhs <> Continue
      /\ (rhs = Break -> exists h m t control weights,
            around = Some h /\ loop_header h m control /\ conditional id t m weights None)
      /\ (rhs = Continue -> exists h m t control weights,
            around = Some h /\ loop_header h m control /\ conditional id t h weights None)
  | _ => True
  end.

(** Where hints and weights of the nodes come from. *)
Definition carries (_ : option BlockId) (c : ControlFlowChain) : Prop :=
  match c with
  | Selection id lhs rhs hint weights =>
      (exists t e op, conditional id t e weights (Some (GroupMerge_OpSelectionMerge op))
         /\ hint = OpSelectionMerge_selection_control op)
      \/ (exists t e, conditional id t e weights None /\ (rhs = Break \/ rhs = Continue)
         /\ hint = Build_SelectionControl false false)
  | Loop id _ hint weights => weights = None /\ exists m, loop_header id m hint
  | _ => True
  end.

End Nodes.

(** ** Sizes, ranks, skeletons *)

Fixpoint occurrences (id : BlockId) (l : list BlockId) : N :=
  match l with
  | [] => 0
  | x :: l => (if N.eqb x id then 1 else 0) + occurrences id l
  end%N.

Section Functions.
Context {E : Type}.

(** find_control_flow returns [r] on [f]: some recursion depth suffices. *)
Definition returns (f : FunctionDefinition E) (r : outcome ControlFlowError ControlFlowChain) : Prop :=
  r <> OutOfFuel /\ exists depth, find_control_flow depth f = r.

(** The recursion depth that suffices if any does. *)
Definition depth_limit (f : FunctionDefinition E) : nat :=
  let n := length (FunctionDefinition_blocks f) in n * (n + 1) / 2 + 1.

(** Block shapes for which find_control_flow has no implementation. *)
Definition unimplemented (b : BasicBlock E) : Prop :=
  (exists op sm, BasicBlock_branch b = GroupBranch_OpBranch op /\ BasicBlock_merge b = Some (GroupMerge_OpSelectionMerge sm))
  \/ (exists op lm, BasicBlock_branch b = GroupBranch_OpBranchConditional op /\ BasicBlock_merge b = Some (GroupMerge_OpLoopMerge lm)).

(** [rank] and [inside] certify that [f] only jumps forward, except back to headers of loops the jumping block is
    inside of: every target has a smaller rank, or it is the header of a loop around the block. [inside b h] says
    that block [b] is inside the loop started by [h]. *)
Definition forward (f : FunctionDefinition E) (rank : BlockId -> nat) (inside : BlockId -> BlockId -> Prop) : Prop :=
  (forall id h, entry f id -> ~ inside id h)
  /\ forall id b, has_block f id b ->
     (forall t, In t (branch_targets b) ->
        rank t < rank id /\ (forall h, inside t h -> inside id h \/ (h = id /\ exists m control, loop_header f id m control))
        \/ inside id t \/ (t = id /\ exists m control, loop_header f id m control))
     /\ (forall t, In t (merge_targets b) ->
        rank t < rank id /\ (forall h, inside t h -> inside id h) \/ inside id t).

(** What control flow is supposed to depend on. *)
Definition skeleton (b : BasicBlock E) : BlockId * option GroupMerge * GroupBranch :=
  (label_of b, BasicBlock_merge b, BasicBlock_branch b).

End Functions.
