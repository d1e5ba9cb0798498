(** String::from_utf8 of Rust's standard library, called at src/spv/raw/mod.rs:458.
    The model follows core::str::run_utf8_validation: the accepted second-byte ranges
    depend on the first byte, further bytes are continuation bytes. *)
From Verif Require Import Base.
Local Open Scope N_scope.

(* core::str::run_utf8_validation (Rust std; called from src/spv/raw/mod.rs:458) *)
Definition in_range (lo hi b : N) : bool := (lo <=? b) && (b <=? hi).

(* core::str::run_utf8_validation; a byte of the form 10xxxxxx *)
(* String::from_utf8, src/spv/raw/mod.rs:458 *)
Definition is_cont (b : N) : bool := in_range 0x80 0xBF b.

(* core::str::run_utf8_validation: (first, second) pairs allowed for three byte sequences *)
(* String::from_utf8, src/spv/raw/mod.rs:458 *)
Definition ok3 (b0 b1 : N) : bool :=
  (N.eqb b0 0xE0 && in_range 0xA0 0xBF b1)
  || (in_range 0xE1 0xEC b0 && in_range 0x80 0xBF b1)
  || (N.eqb b0 0xED && in_range 0x80 0x9F b1)
  || (in_range 0xEE 0xEF b0 && in_range 0x80 0xBF b1).

(* core::str::run_utf8_validation: (first, second) pairs allowed for four byte sequences *)
(* String::from_utf8, src/spv/raw/mod.rs:458 *)
Definition ok4 (b0 b1 : N) : bool :=
  (N.eqb b0 0xF0 && in_range 0x90 0xBF b1)
  || (in_range 0xF1 0xF3 b0 && in_range 0x80 0xBF b1)
  || (N.eqb b0 0xF4 && in_range 0x80 0x8F b1).

(* core::str::run_utf8_validation *)
(* String::from_utf8, src/spv/raw/mod.rs:458 *)
Fixpoint valid_utf8 (l : list N) : bool :=
  match l with
  | [] => true
  | b0 :: l1 =>
      if b0 <? 0x80 then valid_utf8 l1
      else if in_range 0xC2 0xDF b0 then
        match l1 with
        | b1 :: l2 => is_cont b1 && valid_utf8 l2
        | [] => false
        end
      else if in_range 0xE0 0xEF b0 then
        match l1 with
        | b1 :: b2 :: l3 => ok3 b0 b1 && is_cont b2 && valid_utf8 l3
        | _ => false
        end
      else if in_range 0xF0 0xF4 b0 then
        match l1 with
        | b1 :: b2 :: b3 :: l4 => ok4 b0 b1 && is_cont b2 && is_cont b3 && valid_utf8 l4
        | _ => false
        end
      else false
  end.

(* A Rust String is modelled as the Coq string of its bytes. *)
(* String::from_utf8, src/spv/raw/mod.rs:458 *)
Definition string_of_bytes (l : list N) : string :=
  string_of_list_ascii (map ascii_of_N l).

(* String::from_utf8, src/spv/raw/mod.rs:458-462 *)
Definition from_utf8 (l : list N) : option string :=
  if valid_utf8 l then Some (string_of_bytes l) else None.
