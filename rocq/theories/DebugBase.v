(** The Debug format: the builders of core::fmt, and Debug of numbers, booleans, strings and containers of Rust's
    standard library.  Only the plain form, [{:?}] without options, is modelled.

    derive(Debug) writes a call of debug_tuple or debug_struct for each type; the calls are modelled as trees. *)
From Verif Require Import Base Utf8 DisplayBase.
Local Open Scope string_scope.

(* core::fmt: what the Debug implementations ask for *)
(* derive(Debug), e.g. src/spv/raw/mod.rs:15 *)
Inductive dtree {E : Type} : Type :=
| DNumber (n : N)
| DBool (b : bool)
| DString (s : string)
| DName (name : string)                                      (* a variant or struct without fields *)
| DTuple (name : string) (fields : list dtree)               (* debug_tuple *)
| DStruct (name : string) (fields : list (string * dtree))   (* debug_struct *)
| DList (items : list dtree)                                 (* debug_list *)
| DExtInstBox (x : E).                                       (* src/spv/mod.rs:53-55: debug_tuple around a user's instruction *)
Arguments dtree : clear implicits.

(* Debug of Vec<T> and Option<T> *)
(* derive(Debug), e.g. src/spv/raw/mod.rs:15 *)
Definition dbg_Vec {E A} (dbg : A -> dtree E) (l : list A) : dtree E := DList (map dbg l).
(* derive(Debug), e.g. src/spv/raw/mod.rs:15 *)
Definition dbg_Option {E A} (dbg : A -> dtree E) (x : option A) : dtree E :=
  match x with Some x => DTuple "Some" [dbg x] | None => DName "None" end.

(** ** Strings *)
(* core::str::next_code_point: the first character, its bytes and what follows.  A Rust string is valid UTF-8; the
   model gives a byte that is not part of a character a number that no character has. *)
(* Debug of String, the LitString of src/spv/types.rs:27 *)
Definition next_char (l : list N) : option (N * list N * list N) :=
  (match l with
   | [] => None
   | b0 :: l1 =>
       let bad := Some (0x110000 + b0, [b0], l1) in
       if b0 <? 0x80 then Some (b0, [b0], l1)
       else match l1 with
       | [] => bad
       | b1 :: l2 =>
           if in_range 0xC2 0xDF b0 && is_cont b1 then Some ((b0 - 0xC0) * 64 + (b1 - 0x80), [b0; b1], l2)
           else match l2 with
           | [] => bad
           | b2 :: l3 =>
               if ok3 b0 b1 && is_cont b2 then Some (((b0 - 0xE0) * 64 + (b1 - 0x80)) * 64 + (b2 - 0x80), [b0; b1; b2], l3)
               else match l3 with
               | [] => bad
               | b3 :: l4 =>
                   if ok4 b0 b1 && is_cont b2 && is_cont b3
                   then Some ((((b0 - 0xF0) * 64 + (b1 - 0x80)) * 64 + (b2 - 0x80)) * 64 + (b3 - 0x80), [b0; b1; b2; b3], l4)
                   else bad
               end
           end
       end
   end)%N.

(* core::fmt LowerHex for u32: hexadecimal digits *)
(* Debug of String, the LitString of src/spv/types.rs:27 *)
Definition hex_digit (d : N) : ascii := ascii_of_N (if (d <? 10)%N then 48 + d else 87 + d)%N.
(* Debug of String, the LitString of src/spv/types.rs:27 *)
Fixpoint hex_digits (fuel : nat) (n : N) (s : string) : string :=
  match fuel with
  | O => s
  | S fuel =>
      let s := String (hex_digit (n mod 16)) s in
      if (n <? 16)%N then s else hex_digits fuel (n / 16) s
  end.
(* eight digits are enough for u32 *)
(* Debug of String, the LitString of src/spv/types.rs:27 *)
Definition hex (n : N) : string := hex_digits 8 n "".

(** What differs between releases of the standard library: which characters are printable, and whether there is a short
    escape for the single quote (escape_default) and for NUL (escape_debug). *)
(* Debug of String, the LitString of src/spv/types.rs:27 *)
Record escapes := { printable : N -> bool; escape_quote : bool; escape_nul : bool }.

(* Debug of String, the LitString of src/spv/types.rs:27 *)
Definition quotation : ascii := ascii_of_N 34.
(* Debug of String, the LitString of src/spv/types.rs:27 *)
Definition backslash : ascii := ascii_of_N 92.

(* char::escape_debug or char::escape_default, for a character of a string *)
(* Debug of String, the LitString of src/spv/types.rs:27 *)
Definition escape_char (e : escapes) (c : N) (bytes : list N) : string :=
  (if N.eqb c 9 then String backslash "t"
   else if N.eqb c 10 then String backslash "n"
   else if N.eqb c 13 then String backslash "r"
   else if N.eqb c 34 then String backslash (String quotation "")
   else if N.eqb c 92 then String backslash (String backslash "")
   else if N.eqb c 39 && escape_quote e then String backslash "'"
   else if N.eqb c 0 && escape_nul e then String backslash "0"
   else if (c <? 0x110000)%N && printable e c then string_of_bytes bytes
   else String backslash ("u{" ++ hex c ++ "}")).

(* Debug of String, the LitString of src/spv/types.rs:27 *)
Fixpoint escape_chars (e : escapes) (fuel : nat) (l : list N) : string :=
  match fuel with
  | O => ""
  | S fuel =>
      match next_char l with
      | None => ""
      | Some (c, bytes, l) => escape_char e c bytes ++ escape_chars e fuel l
      end
  end.

(* impl Debug for str *)
(* Debug of String, the LitString of src/spv/types.rs:27 *)
Definition dbg_str (e : escapes) (s : string) : string :=
  let l := map N_of_ascii (list_ascii_of_string s) in
  String quotation (escape_chars e (List.length l) l ++ String quotation "").

(** ** The builders *)
(* fields and items are separated by a comma and a blank *)
(* derive(Debug), e.g. src/spv/raw/mod.rs:15 *)
Fixpoint separated (l : list string) : string :=
  match l with
  | [] => ""
  | [s] => s
  | s :: l => s ++ ", " ++ separated l
  end.

(* [ext] is the Debug implementation of the extended instructions *)
(* derive(Debug), e.g. src/spv/raw/mod.rs:15 *)
Fixpoint debug_text {E} (e : escapes) (ext : E -> string) (t : dtree E) : string :=
  match t with
  | DNumber n => disp_u32 n
  | DBool b => if b then "true" else "false"
  | DString s => dbg_str e s
  | DName name => name
  | DTuple name fields => name ++ "(" ++ separated (map (debug_text e ext) fields) ++ ")"
  | DStruct name fields => name ++ " { " ++ separated (map (fun f => fst f ++ ": " ++ debug_text e ext (snd f)) fields) ++ " }"
  | DList items => "[" ++ separated (map (debug_text e ext) items) ++ "]"
  | DExtInstBox x => "ExtInstBox(" ++ ext x ++ ")"
  end.
