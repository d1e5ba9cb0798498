(** Formatting helpers: src/spv/dis.rs and the printers of the u32 newtypes. *)
From Coq Require Import DecimalString.
From Verif Require Import Base Types.
Local Open Scope string_scope.

(* core::fmt Display for u32/u16/u8: decimal digits *)
(* used from src/spv/types.rs:13 and elsewhere *)
Definition disp_u32 (n : N) : string := NilZero.string_of_uint (N.to_uint n).

(* src/spv/types.rs:11-15 with no width *)
Definition disp_OpId (id : OpId) : string := "%" ++ disp_u32 id.
(* src/spv/types.rs:118-122 *)
Definition disp_SourceVersion (v : SourceVersion) : string := disp_u32 v.
(* src/spv/types.rs:360-364 *)
Definition disp_MemberIndex (m : MemberIndex) : string := disp_u32 m.

(* n spaces *)
(* the alignment of src/spv/dis.rs:12 *)
Fixpoint spaces (n : nat) : string :=
  match n with O => "" | S n => " " ++ spaces n end.

(* Formatter::pad with {:>12}, used by src/spv/dis.rs:12 on OpId (src/spv/types.rs:11-15).
   The text is ASCII, so characters and bytes agree. *)
Definition pad_right12 (s : string) : string := spaces (12 - String.length s) ++ s.

(* src/spv/dis.rs:10-14 *)
Definition disp_Result (id : ResultId) : string := pad_right12 (disp_OpId id) ++ " = ".

(* src/spv/dis.rs:19-24 *)
Definition disp_NoResult : string := "               ".

(* src/spv/dis.rs:72-76 *)
Definition display_arg_String (s : string) : string := """" ++ s ++ """".

(* src/spv/dis.rs:32-39 *)
Definition format_arg {A} (display_arg : A -> string) (x : A) : string := " " ++ display_arg x.

(* src/spv/dis.rs:41-53 *)
Definition format_arg_Option {A} (display_arg : A -> string) (x : option A) : string :=
  match x with Some t => " " ++ display_arg t | None => "" end.

(* src/spv/dis.rs:55-65 *)
Fixpoint format_arg_Vec {A} (display_arg : A -> string) (l : list A) : string :=
  match l with
  | [] => ""
  | element :: l => " " ++ display_arg element ++ format_arg_Vec display_arg l
  end.
