(** SPECIFICATION: executions of a function with a block cut in two, C121. *)
From Verif Require Import Base Types ControlFlow Spec_Flow.

(** Wherever block [b] was executed, its first part and the second part [n] are, and the second part decides. *)
Definition with_halves (b n : BlockId) (t : list event) : list event :=
  flat_map (fun e => if N.eqb (fst e) b then [(b, None); (n, snd e)] else [e]) t.
