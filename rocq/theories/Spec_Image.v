(** Functions that are structured as graphs, without a program in sight (C117). *)
From Verif Require Import Base Types Ops Groups ControlFlow Spec_Flow Spec_Standard Spec_Returns Spec_Simple Spec_Occurs.

(** Labels are unique and every block can be reached; the function obeys the rules of the standard about merge blocks and
    constructs (Spec_Standard) with the two conditions of Spec_Returns; constructs are left in simple ways (Spec_Simple);
    branches come together at merge blocks only (Spec_Occurs). *)
Definition structured_graph {E} (f : FunctionDefinition E) : Prop :=
  FunctionDefinition_blocks f <> [] /\ NoDup (labels f) /\ (forall b, In b (FunctionDefinition_blocks f) -> reachable f (label_of b))
  /\ merge_rules f /\ construct_rules f /\ loops_close f /\ merges_reached f /\ simple f /\ one_way f.
