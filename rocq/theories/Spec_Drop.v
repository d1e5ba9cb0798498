(** The ends of the lives of a user's objects: which were made in a conversation with the sets, and which were dropped. *)
From Verif Require Import Base Types Ops ReadErr ReaderState ReaderOwned Spec_Calls.

Section Drop.
Context {Obj E : Type}.

(** The copies that the calls returned, and the extended instructions. *)
Definition copies_made (calls : list (call Obj E)) : list Obj :=
  flat_map (fun c => match c with AskCopy _ (Some copy) => [copy] | _ => [] end) calls.
Definition instructions_made (calls : list (call Obj E)) : list E :=
  flat_map (fun c => match c with AskInstruction _ _ _ (Ok (_, x)) => [x] | _ => [] end) calls.

(** An object goes. *)
Inductive drop : Type :=
| DropSet (set : Obj)
| DropInstruction (x : E).
Definition sets_dropped (ds : list drop) : list Obj := flat_map (fun d => match d with DropSet s => [s] | _ => [] end) ds.
Definition instructions_dropped (ds : list drop) : list E := flat_map (fun d => match d with DropInstruction x => [x] | _ => [] end) ds.

(** The effect of the drops, one after the other. *)
Context {W : Type} (drops : Drops Obj E W).
Fixpoint after_drops (ds : list drop) (w : W) : W :=
  match ds with
  | [] => w
  | DropSet s :: ds => after_drops ds (drop_set drops s w)
  | DropInstruction x :: ds => after_drops ds (drop_instruction drops x w)
  end.

End Drop.
Arguments drop : clear implicits.
