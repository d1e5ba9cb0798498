(** The rules of the SPIR-V standard for structured control flow (section 2.11), in terms of the executions and the
    merge instructions of a function, and the programs that obey them.  Independent of how find_control_flow works. *)
From Coq Require Import Permutation Relation_Operators.
From Verif Require Import Base Types Ops Groups ControlFlow Spec_Flow Spec_Structured.

Section Rules.
Context {E : Type} (f : FunctionDefinition E).

(** No execution gets to [b] without having come through [a]. *)
Definition dominates (a b : BlockId) : Prop := forall first t, entry f first -> walk f first t (Some b) -> In a (map fst t ++ [b]).
(** No execution gets from [a] to its end without coming through [b]. *)
Definition post_dominates (b a : BlockId) : Prop := forall t, walk f a t None -> In b (map fst t).

(** Block [h] is the header of a construct with the merge block [m]; of a loop with the continue target [ct]. *)
Definition declares (h m : BlockId) : Prop := exists b, has_block f h b /\ In m (merge_targets b).
Definition heads_loop (h m ct : BlockId) : Prop := exists b hint, has_block f h b
  /\ BasicBlock_merge b = Some (GroupMerge_OpLoopMerge (Build_OpLoopMerge m ct hint)).

(** Branch number [n] of block [u] goes to [v]. *)
Definition branches (u : BlockId) (n : nat) (v : BlockId) : Prop := exists b, has_block f u b /\ nth_error (branch_targets b) n = Some v.
(** A back edge returns to a block the execution must have come through.  The standard says: to an ancestor in a depth-first
    search; that is the same if the other branches form no cycle, which is one of the rules below. *)
Definition back_edge (u : BlockId) (n : nat) (v : BlockId) : Prop := branches u n v /\ reachable f u /\ dominates v u.
Definition onward (u v : BlockId) : Prop := exists n, branches u n v /\ reachable f u /\ ~ dominates v u.

(** - The first block is not the target of a branch.
    - A merge block has one header, which strictly dominates it if it can be reached.
    - Cycles consist of back edges to loop headers, and each loop header has exactly one. *)
Definition merge_rules : Prop :=
  (forall first u n, entry f first -> ~ branches u n first)
  /\ (forall h1 h2 m, declares h1 m -> declares h2 m -> h1 = h2)
  /\ (forall h m, declares h m -> reachable f m -> dominates h m /\ h <> m)
  /\ (forall u, ~ clos_trans BlockId onward u u)
  /\ (forall u n v, back_edge u n v -> exists m ct, heads_loop v m ct)
  /\ (forall h m ct, heads_loop h m ct -> reachable f h ->
        exists u n, back_edge u n h /\ forall u' n', back_edge u' n' h -> u' = u /\ n' = n).

(** A loop header dominates its continue target, that dominates the block with the back edge, and this one
    post-dominates the continue target. *)
Definition continue_rules : Prop := forall h m ct u n, heads_loop h m ct -> back_edge u n h ->
  dominates h ct /\ dominates ct u /\ post_dominates u ct.

(** The blocks of a construct: those its header dominates and its merge block does not.  For a loop this is what the
    standard calls the loop construct and the continue construct, taken together. *)
Definition construct (h m b : BlockId) : Prop := reachable f b /\ dominates h b /\ ~ dominates m b.
Definition innermost_loop (b h m ct : BlockId) : Prop := heads_loop h m ct /\ construct h m b
  /\ forall h' m' ct', heads_loop h' m' ct' -> construct h' m' b -> construct h' m' h.

(** - A construct that contains a header contains its merge block, if that can be reached.
    - A construct is entered at its header only.
    - It is left to its merge block, or to the merge block or the continue target of the innermost loop. *)
Definition construct_rules : Prop := forall h m, declares h m -> reachable f h ->
  (forall h' m', construct h m h' -> h' <> h -> declares h' m' -> reachable f m' -> construct h m m')
  /\ (forall u n v, branches u n v -> reachable f u -> ~ construct h m u -> construct h m v -> v = h)
  /\ (forall u n v, branches u n v -> construct h m u -> ~ construct h m v ->
        v = m \/ exists lh lm ct, innermost_loop u lh lm ct /\ (v = lm \/ v = ct)).
Definition obeys : Prop := merge_rules /\ continue_rules /\ construct_rules.
End Rules.

(** ** Programs *)

(** Every, some statement of a sequence. *)
Section Quantifiers.
Context (P : statement -> Prop).
Fixpoint every (l : list statement) : Prop := match l with [] => True | s :: l => P s /\ every l end.
Fixpoint some (l : list statement) : Prop := match l with [] => False | s :: l => P s \/ some l end.
End Quantifiers.

(** The statement can leave the loop around it; every loop in the statement can be left. *)
Fixpoint leaves (s : statement) : Prop :=
  match s with
  | Step _ | Repeat _ _ _ _ => False
  | Choose _ _ yes no _ _ => some leaves yes \/ some leaves no
  | LeaveUnless _ _ _ _ => True
  | RestartUnless _ _ rest _ => some leaves rest
  end.
Fixpoint loops_end (s : statement) : Prop :=
  match s with
  | Step _ => True
  | Choose _ _ yes no _ _ => every loops_end yes /\ every loops_end no
  | Repeat _ _ body _ => some leaves body /\ every loops_end body
  | LeaveUnless _ _ rest _ | RestartUnless _ _ rest _ => every loops_end rest
  end.

(** The sequence does not end with a construct, which would have no merge block of its own. *)
Definition is_construct (s : statement) : bool := match s with Choose _ _ _ _ _ _ | Repeat _ _ _ _ => true | _ => false end.
Definition ends_plainly (l : list statement) : Prop := forall l' s, l = l' ++ [s] -> is_construct s = false.

(** Loops start again only at their end, and every sequence inside the statement ends plainly. *)
Fixpoint neat (s : statement) : Prop :=
  match s with
  | Step _ => True
  | Choose _ _ yes no _ _ => (ends_plainly yes /\ ends_plainly no) /\ every neat yes /\ every neat no
  | Repeat _ _ body _ => ends_plainly body /\ every neat body
  | LeaveUnless _ _ rest _ => ends_plainly rest /\ every neat rest
  | RestartUnless _ _ _ _ => False
  end.
(** And the program does not start with a loop. *)
Definition neat_program (program : list statement) : Prop :=
  (forall id ct body hint rest, program <> Repeat id ct body hint :: rest) /\ every neat program.

(** [closes ct l]: the sequence [l] begins at block [ct] and runs to its end: there, and only there, the loop may be left. *)
Inductive closes (ct : BlockId) : list statement -> Prop :=
| closes_intro : forall l s, first_of (l ++ [s]) ct = ct -> every (exits_last false) l ->
    (s = Step (start s) \/ exists c w, s = LeaveUnless (start s) c [] w) -> closes ct (l ++ [s]).
(** [continues_at ct body]: the end of the loop body [body], from some place on, is such a sequence. *)
Inductive continues_at (ct : BlockId) : list statement -> Prop :=
| continues_here : forall l, closes ct l -> continues_at ct l
| continues_later : forall s l, continues_at ct l -> continues_at ct (s :: l)
| continues_rest : forall id c rest w, continues_at ct rest -> continues_at ct [LeaveUnless id c rest w].
(** The continue target of every loop of the statement is such a place. *)
Fixpoint continue_placed (s : statement) : Prop :=
  match s with
  | Step _ => True
  | Choose _ _ yes no _ _ => every continue_placed yes /\ every continue_placed no
  | Repeat _ ct body _ => continues_at ct body /\ every continue_placed body
  | LeaveUnless _ _ rest _ | RestartUnless _ _ rest _ => every continue_placed rest
  end.

(** The function is written from the program, and the returning block has no merge instruction. *)
Definition written_plainly {E} (f : FunctionDefinition E) (program : list statement) (last : BlockId) : Prop :=
  tail_last exits_last false program /\ NoDup (flat_map blocks_of program ++ [last])
  /\ Permutation (map skeleton (FunctionDefinition_blocks f)) (lower_program program last None)
  /\ entry f (first_of program last).

(** ** Related functions *)

(** The two targets of a conditional branch exchanged, as if its condition were negated. *)
Definition negate (branch : GroupBranch) : GroupBranch :=
  match branch with
  | GroupBranch_OpBranchConditional op => GroupBranch_OpBranchConditional (Build_OpBranchConditional (OpBranchConditional_condition op)
      (OpBranchConditional_false_label op) (OpBranchConditional_true_label op)
      (option_map (fun w => Build_BranchWeights (BranchWeights_false_weight w) (BranchWeights_true_weight w)) (OpBranchConditional_weights op)))
  | _ => branch
  end.
(** [g] is [f] with some of its conditions negated. *)
Definition negated {E} (f g : FunctionDefinition E) : Prop :=
  Forall2 (fun a b => label_of b = label_of a /\ BasicBlock_merge b = BasicBlock_merge a
    /\ (BasicBlock_branch b = BasicBlock_branch a \/ BasicBlock_branch b = negate (BasicBlock_branch a)))
    (FunctionDefinition_blocks f) (FunctionDefinition_blocks g).

(** Block [id] ends the function. *)
Definition ends_function {E} (f : FunctionDefinition E) (id : BlockId) : Prop := exists b op, has_block f id b /\ BasicBlock_branch b = GroupBranch_OpReturn op.

(** The chain starts a loop again somewhere else than at its end. *)
Fixpoint continues (c : ControlFlowChain) : Prop :=
  match c with
  | Atom _ | Break => False
  | Block l => fold_right (fun c r => continues c \/ r) False l
  | Selection _ lhs rhs _ _ => continues lhs \/ continues rhs
  | Loop _ inner _ _ => continues inner
  | Continue => True
  end.
