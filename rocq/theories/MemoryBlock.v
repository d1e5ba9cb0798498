(** Code written against the public interface of MemoryBlock, src/spv/raw/mod.rs:359-394: the read_instruction of an ExtInstSet
    (src/spv/mod.rs:83-86), or the read of a MemoryBlockRead. *)
From Verif Require Import Base Types ReadErr ReadBase.

(* src/spv/raw/mod.rs:378-380 *)
Definition remaining (block : list N) : nat := List.length block.
(* src/spv/raw/mod.rs:382-384 *)
Definition is_end (block : list N) : bool := Nat.eqb (List.length block) 0.

(** Other ways for user code to end than with Ok. *)
(* the Err of src/spv/raw/mod.rs:363, a panic, no end *)
Inductive failure : Type := Returns_error (e : ReadError) | Panics | Hangs.
(* the Err of src/spv/raw/mod.rs:363, a panic, no end *)
Definition fail {A} (f : failure) : outcome ReadError A :=
  match f with Returns_error e => Err e | Panics => Panic | Hangs => OutOfFuel end.

(** The code, as what it does with its block.  MemoryBlock has no public constructor, is neither Copy nor Clone, and read_word
    takes it by value: at any time there is one block, and none after a failed read_word, so that then Ok is out of reach.
    Loops are unrolled, which is possible up to the number of words if remaining is asked for first; code that goes on for
    ever without reading is [Hangs]. *)
(* the interface src/spv/raw/mod.rs:366-390 *)
Inductive Program (A : Type) : Type :=
| Finish (value : A)                                              (* Ok((block, value)) *)
| Give_up (f : failure)
| Read_word (on_error : ReadError -> failure) (next : N -> Program A)
| Read_op_id (on_error : ReadError -> failure) (next : OpId -> Program A)
| Ask_remaining (next : nat -> Program A)
| Ask_end (next : bool -> Program A).
Arguments Finish {A}. Arguments Give_up {A}. Arguments Read_word {A}. Arguments Read_op_id {A}.
Arguments Ask_remaining {A}. Arguments Ask_end {A}.

(* The methods: src/spv/raw/mod.rs:370-389 *)
Fixpoint run {A} (p : Program A) (block : list N) : outcome ReadError (list N * A) :=
  let next_of {B} (r : outcome ReadError (list N * B)) on_error (next : list N -> B -> outcome ReadError (list N * A)) :=
    match r with
    | Ok (block, x) => next block x
    | Err e => fail (on_error e)
    | Panic => Panic
    | OutOfFuel => OutOfFuel
    end in
  match p with
  | Finish value => Ok (block, value)
  | Give_up f => fail f
  | Read_word on_error next => next_of (read_word block) on_error (fun block w => run (next w) block)
  | Read_op_id on_error next => next_of (read_op_id block) on_error (fun block id => run (next id) block)
  | Ask_remaining next => run (next (remaining block)) block
  | Ask_end next => run (next (is_end block)) block
  end.
