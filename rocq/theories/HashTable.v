(** The hash maps of the library with their hashing: derive(Hash) of the two types of ids, and
    std::collections::HashMap as a table of buckets.  ExtSet.v takes a HashMap for an association
    list; here the hash function is arbitrary, as it is with the randomly seeded RandomState that
    HashMap::new uses, and so is the time at which the table is enlarged.

    Simplified: the real table probes for a free slot instead of keeping a list for each slot,
    and a table that is enlarged beyond memory aborts. *)
From Verif Require Import Base Types ControlFlow.
Local Open Scope N_scope.

(* std::hash::Hasher, with the state that BuildHasher::build_hasher starts from; an id only ever
   calls write_u32 *)
(* the default of src/spv/raw/reader.rs:73 and src/spv/logical/control_flow.rs:161 *)
Record Hasher : Type := Build_Hasher {
  hasher_state : Type;
  build_hasher : hasher_state;
  write_u32 : N -> hasher_state -> hasher_state;
  finish : hasher_state -> N
}.

(* derive(Hash), src/spv/types.rs:8-9: the only field is hashed, a u32 *)
Definition hash_OpId (h : Hasher) (id : OpId) (state : hasher_state h) : hasher_state h :=
  write_u32 h id state.

(* derive(Hash), src/spv/logical/control_flow.rs:10-11 *)
Definition hash_BlockId (h : Hasher) (id : BlockId) (state : hasher_state h) : hasher_state h :=
  write_u32 h id state.

(* std::collections::HashMap<K, V, S>, src/spv/raw/reader.rs:73, src/spv/logical/control_flow.rs:154:
   what the map does with a key, K: Hash + Eq, and when it is enlarged: [grow] gets the number of
   entries and of buckets *)
Record Hashing : Type := Build_Hashing {
  hasher : Hasher;
  grow : nat -> nat -> nat
}.

Section Table.
(* [hash] is K::hash, either of the two above *)
Context {A : Type} (hashing : Hashing)
  (hash : N -> hasher_state (hasher hashing) -> hasher_state (hasher hashing)).

(* src/spv/raw/reader.rs:73, src/spv/logical/control_flow.rs:154: the buckets of the map *)
Definition Table := list (list (N * A)).

(* the bucket of a key among [n] *)
(* used by src/spv/raw/reader.rs:511, 535, src/spv/logical/control_flow.rs:167, 281 *)
Definition slot (n : nat) (k : N) : nat :=
  N.to_nat (finish (hasher hashing) (hash k (build_hasher (hasher hashing))) mod N.of_nat n).

(* the keys of a bucket are compared with ==, src/spv/types.rs:8, src/spv/logical/control_flow.rs:10 *)
Fixpoint bucket_get (k : N) (bucket : list (N * A)) : option A :=
  match bucket with
  | [] => None
  | (k', v) :: bucket => if N.eqb k k' then Some v else bucket_get k bucket
  end.

(* an equal key keeps its place and gets the new value, see above *)
(* src/spv/raw/reader.rs:511, src/spv/logical/control_flow.rs:167 *)
Fixpoint bucket_put (k : N) (v : A) (bucket : list (N * A)) : list (N * A) :=
  match bucket with
  | [] => [(k, v)]
  | (k', v') :: bucket => if N.eqb k k' then (k', v) :: bucket else (k', v') :: bucket_put k v bucket
  end.

(* replaces the element at [i] *)
(* src/spv/raw/reader.rs:511, src/spv/logical/control_flow.rs:167 *)
Fixpoint update {B} (i : nat) (f : B -> B) (l : list B) : list B :=
  match l, i with
  | [], _ => []
  | x :: l, O => f x :: l
  | x :: l, S i => x :: update i f l
  end.

(* HashMap::get *)
(* src/spv/raw/reader.rs:535, src/spv/logical/control_flow.rs:281 *)
Definition table_get (k : N) (t : Table) : option A :=
  match nth_error t (slot (List.length t) k) with
  | None => None
  | Some bucket => bucket_get k bucket
  end.

(* the entry goes to its bucket *)
(* src/spv/raw/reader.rs:511, src/spv/logical/control_flow.rs:167 *)
Definition table_put (k : N) (v : A) (t : Table) : Table :=
  update (slot (List.length t) k) (bucket_put k v) t.

(* a table with [n] buckets and the same entries; the order in which they move is not modelled *)
(* within src/spv/raw/reader.rs:511, src/spv/logical/control_flow.rs:167 *)
Definition rehash (n : nat) (t : Table) : Table :=
  fold_right (fun e t => table_put (fst e) (snd e) t) (repeat [] n) (List.concat t).

(* HashMap::insert: returns the previous value and the updated map *)
(* src/spv/raw/reader.rs:511, src/spv/logical/control_flow.rs:167 *)
Definition table_insert (k : N) (v : A) (t : Table) : option A * Table :=
  let n := S (grow hashing (List.length (List.concat t)) (List.length t)) in
  let t := if Nat.eqb n (List.length t) then t else rehash n t in
  (table_get k t, table_put k v t).

(* HashMap::new: no memory is taken before the first insertion *)
(* src/spv/raw/reader.rs:73, src/spv/logical/control_flow.rs:161 *)
Definition table_new : Table := [].

End Table.
