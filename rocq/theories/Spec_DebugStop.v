(** What the Debug format has written when the Debug implementation of an extended instruction ends it: the text as pieces at
    their levels of indentation. *)
From Verif Require Import Base FmtBase DebugBase Spec_Text.
Local Open Scope string_scope.

Section Pieces.
(** The texts of numbers, booleans, strings and names; [layout] is None for [{:?}], Some for [{:#?}], with or without a comma
    after the last field. *)
Context {E : Type} (leaf : dtree E -> string) (layout : option bool).

(** Text of the crate's own, or an extended instruction, at a level. *)
Inductive piece : Type := Text (level : nat) (s : string) | Shown (level : nat) (x : E).

(** One line: the items with commas between them.  Several lines: each item on lines of its own, one level deeper. *)
Fixpoint in_line (level : nat) (items : list (list piece)) : list piece :=
  match items with
  | [] => []
  | [item] => item
  | item :: items => item ++ Text level ", " :: in_line level items
  end%list.
Fixpoint in_lines (trailing : bool) (level : nat) (items : list (list piece)) : list piece :=
  match items with
  | [] => []
  | [item] => item ++ [Text level (if trailing then "," ++ String line_feed "" else String line_feed "")]
  | item :: items => item ++ Text level ("," ++ String line_feed "") :: in_lines trailing level items
  end%list.
Definition enclosed (level : nat) (opening blank : string) (items : nat -> list (list piece)) (closing : string) : list piece :=
  match layout with
  | None => (Text level (opening ++ blank) :: in_line level (items level) ++ [Text level (blank ++ closing)])%list
  | Some trailing =>
      match items (S level) with
      | [] => [Text level (opening ++ closing)]
      | l => (Text level (opening ++ String line_feed "") :: in_lines trailing (S level) l ++ [Text level closing])%list
      end
  end.
Fixpoint pieces (level : nat) (t : dtree E) : list piece :=
  match t with
  | DTuple name fields => enclosed level (name ++ "(") "" (fun n => map (pieces n) fields) ")"
  | DStruct name fields =>
      enclosed level (name ++ " {") " " (fun n => map (fun f => Text n (fst f ++ ": ") :: pieces n (snd f)) fields) "}"
  | DList items => enclosed level "[" "" (fun n => map (pieces n) items) "]"
  | DExtInstBox x => enclosed level "ExtInstBox(" "" (fun n => [[Shown n x]]) ")"
  | _ => [Text level (leaf t)]
  end.

(** Four blanks for each level before what begins a line. *)
Fixpoint set_at (level : nat) (line_begins : bool) (s : string) : string :=
  match s with
  | "" => ""
  | String c s => (if line_begins then blanks (4 * level) else "") ++ String c (set_at level (Ascii.eqb c line_feed) s)
  end.
Fixpoint begins_after (line_begins : bool) (s : string) : bool :=
  match s with "" => line_begins | String c s => begins_after (Ascii.eqb c line_feed) s end.

(** The pieces in turn, up to the first instruction that does not end well.  [ext_text] is what the Debug implementation
    of an instruction writes, [ext_end] how it ends then. *)
Context (ext_text : E -> string) (ext_end : E -> fmt_result).
Fixpoint displayed (line_begins : bool) (l : list piece) : string * fmt_result :=
  match l with
  | [] => ("", Fmt_Ok)
  | Text level s :: l => let (text, r) := displayed (begins_after line_begins s) l in (set_at level line_begins s ++ text, r)
  | Shown level x :: l =>
      match ext_end x with
      | Fmt_Ok => let (text, r) := displayed (begins_after line_begins (ext_text x)) l in (set_at level line_begins (ext_text x) ++ text, r)
      | r => (set_at level line_begins (ext_text x), r)
      end
  end.
End Pieces.
Arguments Text {E} level s.
