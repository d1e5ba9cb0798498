(** SPECIFICATION of the Debug format into a writer, C96. *)
From Verif Require Import Base FmtBase DebugBase Spec_Writer.

(** The extended instructions in a value, in the order in which they are shown. *)
Fixpoint boxed {E} (t : dtree E) : list E :=
  match t with
  | DTuple _ fields => flat_map boxed fields
  | DStruct _ fields => flat_map (fun f => boxed (snd f)) fields
  | DList items => flat_map boxed items
  | DExtInstBox x => [x]
  | _ => []
  end.

(** [p] prints a beginning of [text], and then panics unless the writer failed before. *)
Definition panics_within (p : Step) (text : string) : Prop :=
  exists beginning rest, text = (beginning ++ rest)%string /\ prints_then_panics p beginning.
