(** How deep finding the control flow of a function of so many blocks may have to go, and how deeply constructs nest. *)
From Verif Require Import Base Types Ops Groups ControlFlow Spec_Flow.

(** The levels of a recursion that, for a function of [blocks] blocks, suffice whenever there is a chain at all. *)
Definition frames (blocks : nat) : nat := blocks * (blocks - 1) / 2 + 1.

(** A loop, or a selection between two arms, does not contain the block that starts it. *)
Definition not_in_itself (c : ControlFlowChain) : Prop :=
  match c with
  | Loop id inner _ _ => ~ In id (chain_ids inner)
  | Selection id lhs rhs _ _ => rhs <> Break -> rhs <> Continue -> ~ In id (chain_ids lhs) /\ ~ In id (chain_ids rhs)
  | _ => True
  end.

(** The number of loops and of selections between two arms around one another. *)
Fixpoint constructs (c : ControlFlowChain) : nat :=
  match c with
  | Block l => list_max (map constructs l)
  | Selection _ lhs Break _ _ | Selection _ lhs Continue _ _ => constructs lhs
  | Selection _ lhs rhs _ _ => 1 + Nat.max (constructs lhs) (constructs rhs)
  | Loop _ inner _ _ => 1 + constructs inner
  | Atom _ | Break | Continue => 0
  end.

(** The blocks of a function that have a merge instruction. *)
Definition merging {E} (f : FunctionDefinition E) : list (BasicBlock E) :=
  filter (fun b => match BasicBlock_merge b with Some _ => true | None => false end) (FunctionDefinition_blocks f).
