(** Extended instruction sets, src/spv/mod.rs:77-90, and the map of imported sets. *)
From Verif Require Import Base Types ReadErr ReadBase.

(* src/spv/mod.rs:83-86: ExtInstSet::read_instruction *)
Definition ExtReader (E : Type) := N -> list N -> outcome ReadError (list N * E).

(* src/spv/mod.rs:77-90.  A user-supplied trait object, so its methods are arbitrary
   functions.  The reader only calls get_name on the object it was given and only calls
   read_instruction on the object returned by duplicate, so [duplicate] is the
   read_instruction of the duplicate.  For sets with internal mutable state see
   ReaderState.v. *)
Record ExtInstSet (E : Type) : Type := Build_ExtInstSet {
  get_name : string;
  duplicate : ExtReader E
}.
Arguments Build_ExtInstSet {E}.
Arguments get_name {E}.
Arguments duplicate {E}.

(* HashMap<OpId, Box<ExtInstSet>>, src/spv/raw/reader.rs:73; std::collections::HashMap is
   modelled as an association list (iteration order is never used) *)
Definition bound_sets (E : Type) := list (OpId * ExtReader E).

(* HashMap::get *)
(* src/spv/raw/reader.rs:535, src/spv/logical/control_flow.rs:281 *)
Fixpoint map_get {A} (k : N) (m : list (N * A)) : option A :=
  match m with
  | [] => None
  | (k', v) :: m => if N.eqb k k' then Some v else map_get k m
  end.

(* HashMap::insert: returns the previous value and the updated map *)
(* src/spv/raw/reader.rs:511, src/spv/logical/control_flow.rs:167 *)
Definition map_insert {A} (k : N) (v : A) (m : list (N * A)) : option A * list (N * A) :=
  (map_get k m, (k, v) :: m).
