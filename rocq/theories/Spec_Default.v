(** What it means that a value of a flag operand is the one without flags. *)
From Verif Require Import Base Types ReadErr ReadBase.
Local Open Scope N_scope.

(** It is read from the word 0; of the words that can be read it is read from exactly those with none of [flags] set; it
    is the only value that prints as None; only it compares equal to it. *)
Definition plain_value {A} (read : Reader A) (text : A -> string) (equal : A -> A -> bool) (flags : N) (default : A) : Prop :=
  (forall rest, read (0 :: rest) = Ok (rest, default))
  /\ (forall word rest rest' v, read (word :: rest) = Ok (rest', v) -> (v = default <-> N.land word flags = 0))
  /\ (forall v, text v = "None"%string <-> v = default)
  /\ (forall v, equal v default = true <-> v = default).
