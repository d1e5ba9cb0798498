(** Structured programs and their lowering to basic blocks: which functions find_control_flow understands, and what
    it makes of them.  Independent of how the search works. *)
From Coq Require Import Permutation.
From Verif Require Import Base Types Ops Groups ControlFlow Spec_Flow.

(** A statement names the block it starts with.
    - [Step]: a block.
    - [Choose]: a block that evaluates [condition] and continues with [yes] or [no].
    - [Repeat]: a header block, then [body], again and again.
    - [LeaveUnless]: a block that evaluates [condition]; if it holds [rest] follows, otherwise the innermost loop is left.
    - [RestartUnless]: the same, but otherwise the innermost loop starts again. *)
Inductive statement : Type :=
| Step (id : BlockId)
| Choose (id : BlockId) (condition : OpId) (yes no : list statement) (hint : SelectionControl) (weights : option BranchWeights)
| Repeat (id : BlockId) (continue_target : OpId) (body : list statement) (hint : LoopControl)
| LeaveUnless (id : BlockId) (condition : OpId) (rest : list statement) (weights : option BranchWeights)
| RestartUnless (id : BlockId) (condition : OpId) (rest : list statement) (weights : option BranchWeights).

Definition start (s : statement) : BlockId :=
  match s with Step id | Choose id _ _ _ _ _ | Repeat id _ _ _ | LeaveUnless id _ _ _ | RestartUnless id _ _ _ => id end.

(** The first block of [l] followed by block [next]. *)
Definition first_of (l : list statement) (next : BlockId) : BlockId :=
  match l with [] => next | s :: _ => start s end.

(** The blocks of a sequence, where [one s next] are those of statement [s] followed by block [next]. *)
Section Sequence.
Context {A : Type} (one : statement -> BlockId -> list A).
Fixpoint sequence (l : list statement) (next : BlockId) : list A :=
  match l with
  | [] => []
  | s :: l => one s (first_of l next) ++ sequence l next
  end.
End Sequence.

(** ** Lowering *)

(** The label, merge instruction and terminator of every block of [s] followed by block [next], inside a loop with
    the header and merge block [loop]. *)
Fixpoint lower (loop : option (BlockId * BlockId)) (s : statement) (next : BlockId) : list (BlockId * option GroupMerge * GroupBranch) :=
  match s with
  | Step id => [(id, None, GroupBranch_OpBranch (Build_OpBranch next))]
  | Choose id condition yes no hint weights =>
      (id, Some (GroupMerge_OpSelectionMerge (Build_OpSelectionMerge next hint)),
       GroupBranch_OpBranchConditional (Build_OpBranchConditional condition (first_of yes next) (first_of no next) weights))
      :: sequence (lower loop) yes next ++ sequence (lower loop) no next
  | Repeat id continue_target body hint =>
      (id, Some (GroupMerge_OpLoopMerge (Build_OpLoopMerge next continue_target hint)),
       GroupBranch_OpBranch (Build_OpBranch (first_of body id)))
      :: sequence (lower (Some (id, next))) body id
  | LeaveUnless id condition rest weights =>
      (id, None, GroupBranch_OpBranchConditional (Build_OpBranchConditional condition (first_of rest next)
         (match loop with Some (_, merge) => merge | None => next end) weights))
      :: sequence (lower loop) rest next
  | RestartUnless id condition rest weights =>
      (id, None, GroupBranch_OpBranchConditional (Build_OpBranchConditional condition (first_of rest next)
         (match loop with Some (head, _) => head | None => next end) weights))
      :: sequence (lower loop) rest next
  end.

(** A program: statements, then the block [last] that returns.  A merge instruction [merge] in that block is of no
    consequence. *)
Definition lower_program (l : list statement) (last : BlockId) (merge : option GroupMerge)
  : list (BlockId * option GroupMerge * GroupBranch) :=
  sequence (lower None) l last ++ [(last, merge, GroupBranch_OpReturn Build_OpReturn)].

(** ** The chain of a program *)

(** A sequence is a Block, except that an exit from a loop on its own stands for itself. *)
Definition is_exit (s : statement) : bool :=
  match s with LeaveUnless _ _ _ _ | RestartUnless _ _ _ _ => true | _ => false end.
Definition arm (chain_of : statement -> ControlFlowChain) (l : list statement) : ControlFlowChain :=
  match l with
  | [s] => if is_exit s then chain_of s else Block [chain_of s]
  | _ => Block (map chain_of l)
  end.
Fixpoint chain_of (s : statement) : ControlFlowChain :=
  match s with
  | Step id => Atom id
  | Choose id _ yes no hint weights => Selection id (arm chain_of yes) (arm chain_of no) hint weights
  | Repeat id _ body hint => Loop id (arm chain_of body) hint None
  | LeaveUnless id _ rest weights => Selection id (arm chain_of rest) Break (Build_SelectionControl false false) weights
  | RestartUnless id _ rest weights => Selection id (arm chain_of rest) Continue (Build_SelectionControl false false) weights
  end.
Definition program_chain (l : list statement) (last : BlockId) : ControlFlowChain :=
  match l with
  | [] => Atom last
  | _ => Block (map chain_of l ++ [Atom last])
  end.

(** ** Well-placed statements *)

(** All of [P s next] for the statements of a sequence. *)
Section Each.
Context (P : statement -> BlockId -> Prop).
Fixpoint each (l : list statement) (next : BlockId) : Prop :=
  match l with
  | [] => True
  | s :: l => P s (first_of l next) /\ each l next
  end.
End Each.

(** [placed stops loop s next]: no block of [s] is where a surrounding construct goes on ([stops]), and exits stand
    inside a loop where otherwise the loop would start again. *)
Fixpoint placed (stops : list BlockId) (loop : option (BlockId * BlockId)) (s : statement) (next : BlockId) : Prop :=
  ~ In (start s) stops /\
  match s with
  | Step _ => True
  | Choose _ _ yes no _ _ => each (placed (next :: stops) loop) yes next /\ each (placed (next :: stops) loop) no next
  | Repeat id _ body _ => each (placed (id :: stops) (Some (id, next))) body id
  | LeaveUnless _ _ rest _ => (exists merge, loop = Some (next, merge)) /\ each (placed stops loop) rest next
  | RestartUnless _ _ rest _ =>
      (exists merge, loop = Some (next, merge) /\ merge <> next) /\ each (placed stops loop) rest next
  end.
Definition placed_program (l : list statement) (last : BlockId) : Prop := each (placed [] None) l last.

(** ** Ordinary programs: every block once *)

Fixpoint blocks_of (s : statement) : list BlockId :=
  match s with
  | Step id => [id]
  | Choose id _ yes no _ _ => id :: flat_map blocks_of yes ++ flat_map blocks_of no
  | Repeat id _ body _ => id :: flat_map blocks_of body
  | LeaveUnless id _ rest _ | RestartUnless id _ rest _ => id :: flat_map blocks_of rest
  end.

(** Exits only at the end of a loop body, or at the end of an arm of a selection there: [tail] says whether the loop
    starts again after the statement. *)
Section Tail.
Context (P : bool -> statement -> Prop).
Fixpoint tail_last (tail : bool) (l : list statement) : Prop :=
  match l with
  | [] => True
  | [s] => P tail s
  | s :: l => P false s /\ tail_last tail l
  end.
End Tail.
Fixpoint exits_last (tail : bool) (s : statement) : Prop :=
  match s with
  | Step _ => True
  | Choose _ _ yes no _ _ => tail_last exits_last tail yes /\ tail_last exits_last tail no
  | Repeat _ _ body _ => tail_last exits_last true body
  | LeaveUnless _ _ rest _ | RestartUnless _ _ rest _ => tail = true /\ tail_last exits_last true rest
  end.

(** ** Functions written from a program *)

(** The blocks of [f] are those of the program, the first one first, with any instructions in them: every block of the
    program once, exits from loops only where the loop would start again anyway. *)
Definition written_from {E} (f : FunctionDefinition E) (program : list statement) (last : BlockId) : Prop :=
  tail_last exits_last false program /\ NoDup (flat_map blocks_of program ++ [last])
  /\ (exists merge, Permutation (map skeleton (FunctionDefinition_blocks f)) (lower_program program last merge))
  /\ entry f (first_of program last).
