(** A function inlined into another one, C122.  Nothing here knows how find_control_flow works. *)
From Verif Require Import Base Types Ops Groups ControlFlow Spec_Flow.

Section Inline.
Context {E : Type}.

(** The ids that control flow of [f] consists of. *)
Definition used (f : FunctionDefinition E) (id : BlockId) : Prop :=
  exists b, In b (FunctionDefinition_blocks f) /\ (id = label_of b \/ In id (branch_targets b) \/ In id (merge_targets b)).

(** A block that goes on at [n] instead of returning. *)
Definition going_on (n : BlockId) (b : BasicBlock E) : BlockId * option GroupMerge * GroupBranch :=
  match BasicBlock_branch b with
  | GroupBranch_OpReturn _ => (label_of b, None, GroupBranch_OpBranch (Build_OpBranch n))
  | _ => skeleton b
  end.

(** [g] is [f] with [h] inlined at the block [cut].  The block is cut in two; the first part keeps the label and branches to the
    first block of [h], the blocks of [h] that returned branch to the second part, which has the new label [n], the
    merge instruction and the branch of the block.  No label is used twice.  The instructions in the blocks may be any. *)
Definition inlined_at (f h g : FunctionDefinition E) (cut : BasicBlock E) (n : BlockId) : Prop :=
  exists before after start,
    FunctionDefinition_blocks f = before ++ cut :: after /\ entry h start
    /\ map skeleton (FunctionDefinition_blocks g)
       = map skeleton before
         ++ (label_of cut, None, GroupBranch_OpBranch (Build_OpBranch start))
         :: map (going_on n) (FunctionDefinition_blocks h)
         ++ (n, BasicBlock_merge cut, BasicBlock_branch cut)
         :: map skeleton after
    /\ ~ used f n /\ ~ used h n /\ (forall id, used f id -> ~ used h id).

(** The block starts a loop. *)
Definition begins_loop (b : BasicBlock E) : Prop := exists op, BasicBlock_merge b = Some (GroupMerge_OpLoopMerge op).

End Inline.

(** What becomes of a chain.  Where block [b] stood there are now [b], the chain [body] of the inlined function and [n]; where a
    selection started with block [b], there are now [b], [body] and a selection that starts with [n]. *)
Section Chain.
Context (b n : BlockId) (body : ControlFlowChain).

(* a chain as a sequence, and a sequence as a chain *)
Definition steps_of (c : ControlFlowChain) : list ControlFlowChain := match c with Block l => l | c => [c] end.
Definition together (c : ControlFlowChain) (parts : list ControlFlowChain) : ControlFlowChain :=
  match c, parts with
  | Block _, _ => Block parts
  | _, [part] => part
  | _, _ => Block parts
  end.
Fixpoint inline_parts (c : ControlFlowChain) : list ControlFlowChain :=
  match c with
  | Atom id => if N.eqb id b then Atom b :: steps_of body ++ [Atom n] else [Atom id]
  | Block l => flat_map inline_parts l
  | Selection id lhs rhs hint weights =>
      let lhs' := together lhs (inline_parts lhs) in
      let rhs' := together rhs (inline_parts rhs) in
      if N.eqb id b then Atom b :: steps_of body ++ [Selection n lhs' rhs' hint weights] else [Selection id lhs' rhs' hint weights]
  | Loop id inner hint weights => [Loop id (together inner (inline_parts inner)) hint weights]
  | Break => [Break]
  | Continue => [Continue]
  end.
Definition inline_chain (c : ControlFlowChain) : ControlFlowChain := together c (inline_parts c).

(** What becomes of an error: what was wrong with the branch of [b] is now wrong with that of [n]. *)
Definition moved (id : BlockId) : BlockId := if N.eqb id b then n else id.
Definition inline_error (e : ControlFlowError) : ControlFlowError :=
  match e with
  | CouldNotPredictConverge id => CouldNotPredictConverge (moved id)
  | InvalidConvergePrediction t id => InvalidConvergePrediction t (moved id)
  | e => e
  end.
Definition inline_answer (r : outcome ControlFlowError ControlFlowChain) : outcome ControlFlowError ControlFlowChain :=
  match r with
  | Ok c => Ok (inline_chain c)
  | Err e => Err (inline_error e)
  | Panic => Panic
  | OutOfFuel => OutOfFuel
  end.
End Chain.
