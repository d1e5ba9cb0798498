(** SPECIFICATION: executions that go in circles, C129. *)
From Verif Require Import Base Types Groups ControlFlow Spec_Flow Spec_Dominate.

(** The header blocks of the loops of a chain. *)
Fixpoint loop_headers (c : ControlFlowChain) : list BlockId :=
  match c with
  | Atom _ | Break | Continue => []
  | Block l => flat_map loop_headers l
  | Selection _ lhs rhs _ _ => loop_headers lhs ++ loop_headers rhs
  | Loop id inner _ _ => id :: loop_headers inner
  end.

(** Executing the blocks [t] leads from block [b] back to it. *)
Definition circle {E} (f : FunctionDefinition E) (b : BlockId) (t : list event) : Prop := reachable f b /\ t <> [] /\ walk f b t (Some b).

(** A loop that is arrived at has a body that can be executed such that the loop starts again, and block [b] is its header or is
    executed in the body.  Computed along the chain. *)
Fixpoint comes_around (b : BlockId) (c : ControlFlowChain) : bool :=
  match c with
  | Atom _ | Break | Continue => false
  | Block l => arrives_list (ends nothing_avoided) (comes_around b) l
  | Selection _ lhs rhs _ _ => comes_around b lhs || comes_around b rhs
  | Loop id inner _ _ =>
      N.eqb id b && (ends nothing_avoided inner Normal || ends nothing_avoided inner Continued)
      || leaves nothing_avoided b inner Normal || leaves nothing_avoided b inner Continued || comes_around b inner
  end.
