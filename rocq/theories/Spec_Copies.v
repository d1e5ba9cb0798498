(** What happens to the extended instructions of a module when it is validated: they are copied, C90.  Nothing here knows
    how the copying or the validator work. *)
From Verif Require Import Base Types Ops Groups Spec_Layout Validate.

(** How much of a module is looked at for good: everything if it is accepted, otherwise the instructions before the one the
    error points at. *)
Definition examined {E} (m : RawModule E) (verdict : outcome ValidationError (LogicalModule E)) : list (Core E) :=
  match verdict with
  | Err e => match error_index e with Some n => firstn n (RawModule_instructions m) | None => [] end
  | _ => RawModule_instructions m
  end.

Section Copies.
Context {E W : Type} (clone : E -> W -> option E * W).

Definition extended (type result set : N) (x : E) : Core E := Core_OpExtInst (Build_OpExtInst type result set x).
Definition plain (i : Core E) : Prop := forall op, i <> Core_OpExtInst op.

(** Starting in world [w], the extended instructions among [is] are copied one after the other.  This gives [js] and ends in
    world [w']. *)
Inductive copied : W -> list (Core E) -> list (Core E) -> W -> Prop :=
| copied_none : forall w, copied w [] [] w
| copied_plain : forall w i is js w', plain i -> copied w is js w' -> copied w (i :: is) (i :: js) w'
| copied_extended : forall w type result set x y w1 is js w', clone x w = (Some y, w1) -> copied w1 is js w' ->
    copied w (extended type result set x :: is) (extended type result set y :: js) w'.

(** One of the copies panics; no copies are made after that. *)
Definition copying_panics (w : W) (is : list (Core E)) (w' : W) : Prop :=
  exists before type result set x after js w1,
    is = before ++ extended type result set x :: after /\ copied w before js w1 /\ clone x w1 = (None, w').

End Copies.
