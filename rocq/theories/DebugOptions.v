(** The Debug format with formatting options, e.g. [{:4?}], [{:+?}], [{:#06?}].  The builders of core::fmt hand the options of their Formatter
    to every field; of what this crate shows only numbers (pad_integral) and booleans (pad) look at them.  Names, brackets and
    the literals of strings are written as they are.

    Simplification: builders of old releases format their fields with [{:?}] or [{:#?}]; for these the options are [plain].
    The flags for hexadecimal numbers, [{:x?}] and [{:X?}], are in DebugHex.v. *)
From Verif Require Import Base DisplayBase FmtBase DebugBase DebugPretty.
Local Open Scope string_scope.

(* what code writes to a String *)
(* derive(Debug), e.g. src/spv/raw/mod.rs:15 *)
Definition written (p : Step) : string := fst (p string (fun s w => (w ++ s, true)) "").

(* DebugTuple, DebugStruct (with [spaced]) and DebugList; [layout] is the flag for pretty printing together with what differs
   between releases: None is {:?}, Some trailing is {:#?} *)
(* derive(Debug), e.g. src/spv/raw/mod.rs:15 *)
Definition debug_block (layout : option bool) (opening : string) (spaced : bool) (items : list string) (closing : string) : string :=
  let blank := if spaced then " " else "" in
  match layout with
  | None => opening ++ blank ++ separated items ++ blank ++ closing
  | Some trailing => pretty_block trailing opening items closing
  end.

(* [ext] is the Debug implementation of the extended instructions, called with the same options *)
(* derive(Debug), e.g. src/spv/raw/mod.rs:15 *)
Fixpoint debug_with {E} (layout : option bool) (o : Options) (e : escapes) (ext : E -> string) (t : dtree E) : string :=
  match t with
  | DNumber n => written (pad_integral (disp_u32 n) o)
  | DBool b => written (pad (if b then "true" else "false") o)
  | DString s => dbg_str e s
  | DName name => name
  | DTuple name fields => debug_block layout (name ++ "(") false (map (debug_with layout o e ext) fields) ")"
  | DStruct name fields =>
      debug_block layout (name ++ " {") true (map (fun f => fst f ++ ": " ++ debug_with layout o e ext (snd f)) fields) "}"
  | DList items => debug_block layout "[" false (map (debug_with layout o e ext) items) "]"
  | DExtInstBox x => debug_block layout "ExtInstBox(" false [ext x] ")"
  end.
