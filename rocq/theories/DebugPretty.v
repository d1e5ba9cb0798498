(** The Debug format over several lines, [{:#?}]: the builders of core::fmt with the flag for pretty printing.
    derive(Debug) makes the same calls for [{:#?}] as for [{:?}], so the trees are those of Debug.v, DebugMore.v, DebugOps.v and PlainOps.v. *)
From Verif Require Import Base DisplayBase DisplayModule DebugBase.
Local Open Scope string_scope.

(* core::fmt::builders::PadAdapter: four blanks before what is written at the start of a line; [fresh] is its on_newline *)
(* derive(Debug), e.g. src/spv/raw/mod.rs:15 *)
Fixpoint pad_adapter (fresh : bool) (s : string) : string :=
  match s with
  | "" => ""
  | String c s => (if fresh then "    " else "") ++ String c (pad_adapter (Ascii.eqb c (ascii_of_N 10)) s)
  end.

(* DebugStruct, DebugTuple, DebugList: [opening] is written before the first field; each field has its own PadAdapter and
   is followed by a comma and a line end.  Older releases write the comma with the next field, so that there is none after
   the last one: [trailing] says whether there is.  Simplification: empty tuples and structs, which these builders show as
   a bare name, do not occur (DName). *)
(* derive(Debug), e.g. src/spv/raw/mod.rs:15 *)
Fixpoint pretty_fields (trailing : bool) (items : list string) : string :=
  match items with
  | [] => ""
  | [s] => pad_adapter true (s ++ (if trailing then "," else "") ++ nl)
  | s :: items => pad_adapter true (s ++ "," ++ nl) ++ pretty_fields trailing items
  end.
(* derive(Debug), e.g. src/spv/raw/mod.rs:15 *)
Definition pretty_block (trailing : bool) (opening : string) (items : list string) (closing : string) : string :=
  match items with
  | [] => opening ++ closing
  | _ => opening ++ nl ++ pretty_fields trailing items ++ closing
  end.

(* [ext] is the Debug implementation of the extended instructions, called with the flag.  The flag has no effect on
   numbers, booleans and strings. *)
(* derive(Debug), e.g. src/spv/raw/mod.rs:15 *)
Fixpoint pretty_text {E} (trailing : bool) (e : escapes) (ext : E -> string) (t : dtree E) : string :=
  match t with
  | DNumber n => disp_u32 n
  | DBool b => if b then "true" else "false"
  | DString s => dbg_str e s
  | DName name => name
  | DTuple name fields => pretty_block trailing (name ++ "(") (map (pretty_text trailing e ext) fields) ")"
  | DStruct name fields =>
      pretty_block trailing (name ++ " {") (map (fun f => fst f ++ ": " ++ pretty_text trailing e ext (snd f)) fields) "}"
  | DList items => pretty_block trailing "[" (map (pretty_text trailing e ext) items) "]"
  | DExtInstBox x => pretty_block trailing "ExtInstBox(" [ext x] ")"
  end.
