(** How large a chain is, for the length of its text. *)
From Verif Require Import Base Types Ops Groups ControlFlow Spec_Wire.

(** The number of blocks, selections, loops, breaks and continues; sequencing does not count. *)
Fixpoint parts (c : ControlFlowChain) : nat :=
  match c with
  | Block l => list_sum (map parts l)
  | Selection _ lhs rhs _ _ => 1 + parts lhs + parts rhs
  | Loop _ inner _ _ => 1 + parts inner
  | Atom _ | Break | Continue => 1
  end.

(** All numbers in the chain: block ids, dependency lengths and branch weights. *)
Definition weight_numbers (w : option BranchWeights) : list N :=
  match w with Some w => [BranchWeights_true_weight w; BranchWeights_false_weight w] | None => [] end.
Fixpoint numbers_of (c : ControlFlowChain) : list N :=
  match c with
  | Atom id => [id]
  | Block l => flat_map numbers_of l
  | Selection id lhs rhs _ w => id :: weight_numbers w ++ numbers_of lhs ++ numbers_of rhs
  | Loop id inner h w =>
      id :: match LoopControl_dependency_length h with Some n => [n] | None => [] end ++ weight_numbers w ++ numbers_of inner
  | Break | Continue => []
  end.
(** They are u32 in the program. *)
Definition u32_only (c : ControlFlowChain) : Prop := Forall word (numbers_of c).
