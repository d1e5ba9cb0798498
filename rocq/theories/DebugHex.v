(** The Debug format with the flags for hexadecimal numbers, [{:x?}] and [{:X?}], with or without line breaks ([{:#x?}]) and with any
    options.  Debug of u32, u16, u8 and usize asks the Formatter for the flags and goes on to LowerHex or UpperHex; everything else
    is as in DebugWriter.v. *)
From Verif Require Import Base FmtBase DebugBase DebugWriter.
Local Open Scope string_scope.

(* core::fmt::num::GenericRadix of LowerHex and UpperHex *)
(* derive(Debug), e.g. src/spv/types.rs:8-9 *)
Definition radix_digit (upper : bool) (d : N) : ascii := ascii_of_N (if (d <? 10)%N then 48 + d else (if upper then 55 else 87) + d)%N.
(* GenericRadix::fmt_int: the digits from the right, until the rest is 0 *)
(* derive(Debug), e.g. src/spv/types.rs:8-9 *)
Fixpoint radix_digits (upper : bool) (fuel : nat) (n : N) (s : string) : string :=
  match fuel with
  | O => s
  | S fuel =>
      let s := String (radix_digit upper (n mod 16)) s in
      if (n / 16 =? 0)%N then s else radix_digits upper fuel (n / 16) s
  end.
(* there are at most as many digits as bits *)
(* derive(Debug), e.g. src/spv/types.rs:8-9 *)
Definition radix (upper : bool) (n : N) : string := radix_digits upper (S (N.to_nat (N.size n))) n "".

(* Formatter::pad_integral of a non-negative number with digits [s] and a prefix, which is written if [alternate] *)
(* core::fmt, e.g. for src/spv/types.rs:8-9 *)
Definition pad_integral_prefixed (alternate : bool) (prefix s : string) (o : Options) : Step :=
  let write_prefix := try_ (if Options_plus o then lit "+" else done) (if alternate then lit prefix else done) in
  let size := String.length s + (if Options_plus o then 1 else 0) + (if alternate then String.length prefix else 0) in
  match Options_width o with
  | None => try_ write_prefix (lit s)
  | Some width =>
      if Nat.leb width size then try_ write_prefix (lit s)
      else if Options_zero o then try_ write_prefix (try_ (repeat_fill "0" (width - size)) (lit s))
      else padding o (width - size) Align_Right (try_ write_prefix (lit s))
  end.

(* LowerHex and UpperHex of a number; {:#?} sets the flag for the prefix *)
(* derive(Debug), e.g. src/spv/types.rs:8-9 *)
Definition fmt_hex_number (upper : bool) (layout : option bool) (n : N) (o : Options) : Step :=
  pad_integral_prefixed (match layout with Some _ => true | None => false end) "0x" (radix upper n) o.

(* [ext] is the Debug implementation of the extended instructions, called with the same options *)
(* derive(Debug), e.g. src/spv/raw/mod.rs:15 *)
Fixpoint fmt_debug_hex {E} (upper : bool) (layout : option bool) (o : Options) (e : escapes) (ext : E -> Step) (t : dtree E) : Step :=
  match t with
  | DNumber n => fmt_hex_number upper layout n o
  | DBool b => pad (if b then "true" else "false") o
  | DString s => fmt_debug_str e s
  | DName name => lit name
  | DTuple name fields => fmt_block layout (name ++ "(") false (map (fmt_debug_hex upper layout o e ext) fields) ")"
  | DStruct name fields =>
      fmt_block layout (name ++ " {") true (map (fun f => try_ (lit (fst f)) (try_ (lit ": ") (fmt_debug_hex upper layout o e ext (snd f)))) fields) "}"
  | DList items => fmt_block layout "[" false (map (fmt_debug_hex upper layout o e ext) items) "]"
  | DExtInstBox x => fmt_block layout "ExtInstBox(" false [ext x] ")"
  end.
