(** The end of the lives of extended instructions, C120. *)
From Verif Require Import Base.

(** They go one after the other. *)
Definition gone {E W} (drop : E -> W -> W) (xs : list E) (w : W) : W := fold_left (fun w x => drop x w) xs w.
