(** SPECIFICATION of equality, C73-C75: what two equal modules have in common, given what equality of extended
    instructions means. *)
From Verif Require Import Base Types Ops Groups.

Section Alike.
Context {E : Type} (same_ext : E -> E -> Prop).

(** Extended instructions with the same types and ids and with corresponding payloads; any other instruction only
    resembles itself. *)
Inductive alike : Core E -> Core E -> Prop :=
| alike_ext : forall result_type result_id set x y, same_ext x y ->
    alike (Core_OpExtInst (Build_OpExtInst result_type result_id set x)) (Core_OpExtInst (Build_OpExtInst result_type result_id set y))
| alike_same : forall i, (forall op, i <> Core_OpExtInst op) -> alike i i.

Definition same_header (a b : RawModule E) : Prop :=
  RawModule_version a = RawModule_version b /\ RawModule_generator a = RawModule_generator b /\ RawModule_bound a = RawModule_bound b.

Definition same_instructions (a b : RawModule E) : Prop := Forall2 alike (RawModule_instructions a) (RawModule_instructions b).
End Alike.
