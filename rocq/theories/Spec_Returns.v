(** Two conditions on structured functions that the rules of the SPIR-V standard (Spec_Standard) do not contain. *)
From Verif Require Import Base Types Ops Groups ControlFlow Spec_Flow Spec_Standard.

Section Conditions.
Context {E : Type} (f : FunctionDefinition E).

(** The block from which a loop starts again does not come after the loop. *)
Definition loops_close : Prop := forall h m ct u n, heads_loop f h m ct -> back_edge f u n h -> ~ dominates f m u.
(** What comes after a construct can be reached. *)
Definition merges_reached : Prop := forall h m, declares f h m -> reachable f h -> reachable f m.
End Conditions.
