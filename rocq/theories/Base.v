(** Common vocabulary of the model: outcomes, sequencing, casts. *)
From Coq Require Export String Ascii NArith Arith Lia Bool List.
Export ListNotations.
#[global] Open Scope list_scope.

(** The outcome of a Rust call.  [Ok]/[Err] are Rust's Result, [Panic] is an unwinding
    panic (assert!, unimplemented!, expect, slice index, division by zero), [OutOfFuel]
    is the model running out of the recursion budget it was given; it is not a Rust
    outcome and is shown unreachable wherever the budget is a length. *)
(* the Results of src/spv/raw/mod.rs:357, src/spv/logical/parser/parser.rs:17, src/spv/logical/control_flow.rs:152 *)
Inductive outcome (E A : Type) : Type :=
| Ok (a : A)
| Err (e : E)
| Panic
| OutOfFuel.
Arguments Ok {E A} a.
Arguments Err {E A} e.
Arguments Panic {E A}.
Arguments OutOfFuel {E A}.

(** Rust's try!(..) *)
(* try!, e.g. src/spv/raw/reader.rs:20 *)
Definition bind {E A B} (x : outcome E A) (k : A -> outcome E B) : outcome E B :=
  match x with
  | Ok a => k a
  | Err e => Err e
  | Panic => Panic
  | OutOfFuel => OutOfFuel
  end.

Notation "'let!' p ':=' e 'in' k" := (bind e (fun p => k))
  (at level 200, p pattern, e at level 200, k at level 200, right associativity).

(** [x as u8], [x as u16] on a wider unsigned number *)
(* src/spv/raw/reader.rs:28-31 *)
Definition as_u8 (n : N) : N := (n mod 256)%N.
(* src/spv/raw/reader.rs:42, 58, 130-131 *)
Definition as_u16 (n : N) : N := (n mod 65536)%N.

(** [x != 0] *)
(* e.g. src/spv/raw/mod.rs:832 *)
Definition nonzero (n : N) : bool := negb (N.eqb n 0).
