(** What a map is, without hashing. *)
From Verif Require Import Base Types HashTable.

(* the value that was inserted last under a key *)
Definition last_value {A} (k : N) (insertions : list (N * A)) : option A :=
  option_map snd (find (fun e => N.eqb (fst e) k) (rev insertions)).

(* inserts one after the other into a table, and collects what each call returns *)
Fixpoint insert_all {A} (hashing : Hashing) hash (l : list (N * A)) (t : Table (A := A))
  : list (option A) * Table (A := A) :=
  match l with
  | [] => ([], t)
  | (k, v) :: l =>
      let (old, t) := table_insert hashing hash k v t in
      let (olds, t) := insert_all hashing hash l t in
      (old :: olds, t)
  end.
