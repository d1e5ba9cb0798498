(** A block cut in two, C121.  Nothing here knows how find_control_flow works. *)
From Verif Require Import Base Types Ops Groups ControlFlow Spec_Flow.

Section Split.
Context {E : Type}.

(** No instruction of [f] that control flow consists of mentions [n]. *)
Definition fresh (f : FunctionDefinition E) (n : BlockId) : Prop :=
  Forall (fun b => label_of b <> n /\ ~ In n (branch_targets b) /\ ~ In n (merge_targets b)) (FunctionDefinition_blocks f).

(** In [g] the block [cut] of [f] is cut in two: the first part keeps its label and its first instructions and branches to the
    second part, which has the new label [n], the other instructions, the merge instruction and the branch. *)
Definition cut_at (f g : FunctionDefinition E) (cut : BasicBlock E) (n : BlockId) : Prop :=
  exists before after code1 code2,
    FunctionDefinition_blocks f = before ++ cut :: after
    /\ BasicBlock_code cut = code1 ++ code2
    /\ FunctionDefinition_blocks g
       = before ++ Build_BasicBlock (BasicBlock_label cut) code1 None (GroupBranch_OpBranch (Build_OpBranch n))
                :: Build_BasicBlock (Build_OpLabel n) code2 (BasicBlock_merge cut) (BasicBlock_branch cut) :: after
    /\ fresh f n.

(** The block starts a loop. *)
Definition starts_loop (b : BasicBlock E) : Prop := exists op, BasicBlock_merge b = Some (GroupMerge_OpLoopMerge op).

End Split.

(** What becomes of a chain.  Where block [b] stood there are now [b] and [n]; where a selection started with block [b], there
    are now [b] and a selection that starts with [n]. *)
Section Chain.
Context (b n : BlockId).

(* the parts put together as one chain *)
Definition as_one (c : ControlFlowChain) (parts : list ControlFlowChain) : ControlFlowChain :=
  match c, parts with
  | Block _, _ => Block parts
  | _, [part] => part
  | _, _ => Block parts
  end.
Fixpoint cut_parts (c : ControlFlowChain) : list ControlFlowChain :=
  match c with
  | Atom id => if N.eqb id b then [Atom b; Atom n] else [Atom id]
  | Block l => flat_map cut_parts l
  | Selection id lhs rhs hint weights =>
      let lhs' := as_one lhs (cut_parts lhs) in
      let rhs' := as_one rhs (cut_parts rhs) in
      if N.eqb id b then [Atom b; Selection n lhs' rhs' hint weights] else [Selection id lhs' rhs' hint weights]
  | Loop id inner hint weights => [Loop id (as_one inner (cut_parts inner)) hint weights]
  | Break => [Break]
  | Continue => [Continue]
  end.
Definition cut_chain (c : ControlFlowChain) : ControlFlowChain := as_one c (cut_parts c).

(** What becomes of an error: what was wrong with the branch of [b] is now wrong with that of [n]. *)
Definition cut_id (id : BlockId) : BlockId := if N.eqb id b then n else id.
Definition cut_error (e : ControlFlowError) : ControlFlowError :=
  match e with
  | CouldNotPredictConverge id => CouldNotPredictConverge (cut_id id)
  | InvalidConvergePrediction t id => InvalidConvergePrediction t (cut_id id)
  | e => e
  end.
Definition cut_answer (r : outcome ControlFlowError ControlFlowChain) : outcome ControlFlowError ControlFlowChain :=
  match r with
  | Ok c => Ok (cut_chain c)
  | Err e => Err (cut_error e)
  | Panic => Panic
  | OutOfFuel => OutOfFuel
  end.
End Chain.
