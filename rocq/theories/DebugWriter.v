(** The Debug format into a writer that may fail: the builders of core::fmt with every write and every early return, as FmtBase.v has them
    for Display.  DebugOptions.v models the same code as functions to strings. *)
From Verif Require Import Base DisplayBase DisplayModule FmtBase DebugBase.
Local Open Scope string_scope.

(* core::fmt::builders::PadAdapter, itself a fmt::Write around a writer: the lines of [s] one by one, four blanks before each
   that begins at the start of a line.  [line] is what has been seen of the current line, the boolean is on_newline. *)
(* derive(Debug), e.g. src/spv/raw/mod.rs:15 *)
Definition pad_line_write {W} (write_str : string -> W -> W * bool) (line : string) (ends : bool) (st : W * bool) : (W * bool) * bool :=
  let (w, fresh) := st in
  let (w, ok) := if fresh then write_str "    " w else (w, true) in
  if ok then let (w, ok) := write_str line w in ((w, ends), ok) else ((w, fresh), false).
(* derive(Debug), e.g. src/spv/raw/mod.rs:15 *)
Fixpoint pad_write_from {W} (write_str : string -> W -> W * bool) (line s : string) (st : W * bool) : (W * bool) * bool :=
  match s with
  | "" => if String.eqb line "" then (st, true) else pad_line_write write_str line false st
  | String c s =>
      if Ascii.eqb c (ascii_of_N 10) then
        let (st, ok) := pad_line_write write_str (line ++ String c "") true st in
        if ok then pad_write_from write_str "" s st else (st, false)
      else pad_write_from write_str (line ++ String c "") s st
  end.
(* derive(Debug), e.g. src/spv/raw/mod.rs:15 *)
Definition pad_write {W} (write_str : string -> W -> W * bool) : string -> W * bool -> (W * bool) * bool := pad_write_from write_str "".
(* PadAdapter::wrap: [p] writes through a new adapter *)
(* derive(Debug), e.g. src/spv/raw/mod.rs:15 *)
Definition through_pad (p : Step) : Step := fun W write_str w =>
  let '((w, _), r) := p (W * bool)%type (pad_write write_str) (w, true) in (w, r).

(* impl Debug for str.  Simplification: characters that need no escape are written together, those of an escape one by one;
   here every character of the string is one write. *)
(* derive(Debug), e.g. src/spv/raw/mod.rs:15 *)
Fixpoint fmt_escape_chars (e : escapes) (fuel : nat) (l : list N) : Step :=
  match fuel with
  | O => done
  | S fuel =>
      match next_char l with
      | None => done
      | Some (c, bytes, l) => try_ (lit (escape_char e c bytes)) (fmt_escape_chars e fuel l)
      end
  end.
(* derive(Debug), e.g. src/spv/raw/mod.rs:15 *)
Definition fmt_debug_str (e : escapes) (s : string) : Step :=
  let l := map N_of_ascii (list_ascii_of_string s) in
  try_ (lit (String quotation "")) (try_ (fmt_escape_chars e (List.length l) l) (lit (String quotation ""))).

(* DebugTuple::field, DebugStruct::field, DebugInner::entry, and the finish methods.  After a failure the builders do not
   write any more and finish returns it.  Simplification: old releases write a comma together with the next field. *)
(* derive(Debug), e.g. src/spv/raw/mod.rs:15 *)
Fixpoint fmt_separated (l : list Step) : Step :=
  match l with
  | [] => done
  | [s] => s
  | s :: l => try_ s (try_ (lit ", ") (fmt_separated l))
  end.
(* derive(Debug), e.g. src/spv/raw/mod.rs:15 *)
Fixpoint fmt_pretty_fields (trailing : bool) (items : list Step) : Step :=
  match items with
  | [] => done
  | [s] => through_pad (try_ s (try_ (if trailing then lit "," else done) (lit nl)))
  | s :: items => try_ (through_pad (try_ s (try_ (lit ",") (lit nl)))) (fmt_pretty_fields trailing items)
  end.
(* derive(Debug), e.g. src/spv/raw/mod.rs:15 *)
Definition fmt_block (layout : option bool) (opening : string) (spaced : bool) (items : list Step) (closing : string) : Step :=
  let blank := if spaced then lit " " else done in
  match layout with
  | None => try_ (lit opening) (try_ blank (try_ (fmt_separated items) (try_ blank (lit closing))))
  | Some trailing =>
      match items with
      | [] => try_ (lit opening) (lit closing)
      | _ => try_ (lit opening) (try_ (lit nl) (try_ (fmt_pretty_fields trailing items) (lit closing)))
      end
  end.

(* [ext] is the Debug implementation of the extended instructions, called with the same options *)
(* derive(Debug), e.g. src/spv/raw/mod.rs:15 *)
Fixpoint fmt_debug {E} (layout : option bool) (o : Options) (e : escapes) (ext : E -> Step) (t : dtree E) : Step :=
  match t with
  | DNumber n => pad_integral (disp_u32 n) o
  | DBool b => pad (if b then "true" else "false") o
  | DString s => fmt_debug_str e s
  | DName name => lit name
  | DTuple name fields => fmt_block layout (name ++ "(") false (map (fmt_debug layout o e ext) fields) ")"
  | DStruct name fields =>
      fmt_block layout (name ++ " {") true (map (fun f => try_ (lit (fst f)) (try_ (lit ": ") (fmt_debug layout o e ext (snd f)))) fields) "}"
  | DList items => fmt_block layout "[" false (map (fmt_debug layout o e ext) items) "]"
  | DExtInstBox x => fmt_block layout "ExtInstBox(" false [ext x] ")"
  end.
