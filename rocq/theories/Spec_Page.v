(** SPECIFICATION: a text given by its lines. *)
From Verif Require Import Base Spec_Text.
Local Open Scope string_scope.

(** Every line, also the last, is followed by one line feed; the lines may contain line feeds themselves. *)
Fixpoint page (ls : list string) : string :=
  match ls with [] => "" | l :: ls => l ++ String line_feed (page ls) end.
