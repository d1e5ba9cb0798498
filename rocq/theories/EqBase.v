(** Equality of containers, and of extended instructions. *)
From Verif Require Import Base.

(* PartialEq of Vec<T>: slices of the same length with equal elements *)
(* used by derive(PartialEq), e.g. src/spv/raw/mod.rs:15 *)
Definition eq_Vec {A} (eq : A -> A -> bool) : list A -> list A -> bool :=
  fix go (a b : list A) : bool :=
    match a, b with
    | [], [] => true
    | x :: a, y :: b => eq x y && go a b
    | _, _ => false
    end.

(* PartialEq of Option<T> *)
(* used by derive(PartialEq), e.g. of the struct src/spv/op.rs:34-39 *)
Definition eq_Option {A} (eq : A -> A -> bool) (a b : option A) : bool :=
  match a, b with
  | Some x, Some y => eq x y
  | None, None => true
  | _, _ => false
  end.
