(** How deeply a chain is nested. *)
From Verif Require Import Base Types Ops Groups ControlFlow.

(** The number of chains on the longest way inwards. *)
Fixpoint nesting (c : ControlFlowChain) : nat :=
  match c with
  | Block l => 1 + list_max (map nesting l)
  | Selection _ lhs rhs _ _ => 1 + Nat.max (nesting lhs) (nesting rhs)
  | Loop _ inner _ _ => 1 + nesting inner
  | Atom _ | Break | Continue => 1
  end.

(** The number of selections and loops around one another. *)
Fixpoint indentation (c : ControlFlowChain) : nat :=
  match c with
  | Block l => list_max (map indentation l)
  | Selection _ lhs rhs _ _ => 1 + Nat.max (indentation lhs) (indentation rhs)
  | Loop _ inner _ _ => 1 + indentation inner
  | Atom _ | Break | Continue => 0
  end.
