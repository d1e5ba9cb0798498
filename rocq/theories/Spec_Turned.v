(** SPECIFICATION: executions of a function with arms exchanged, C123. *)
From Verif Require Import Base Types ControlFlow Spec_Flow.

(** The chosen blocks decide the other way. *)
Definition turned_events (chosen : BlockId -> bool) (t : list event) : list event :=
  map (fun e => (fst e, if chosen (fst e) then option_map negb (snd e) else snd e)) t.
