(** What printers have written when something on the way ends them: the Display implementation of an extended instruction
    that fails or panics, or a block that is not there or is there twice. *)
From Verif Require Import Base Types Ops Groups ControlFlow FmtBase Spec_Layout Spec_Flow Spec_Text Spec_Writer Spec_Page.
Local Open Scope string_scope.

(** [p] writes [text] and then ends with [r]; or the writer failed on the way, and that is reported. *)
Definition ends (p : Step) (text : string) (r : fmt_result) : Prop :=
  forall W (write_str : string -> W -> W * bool) w w' r', p W write_str w = (w', r') ->
    (r' = r /\ wrote write_str w text w') \/ (r' = Fmt_Err /\ broke_off write_str w text w').

Section Stop.
(** What is written of an extended instruction, and how its Display implementation ends then. *)
Context {E : Type} (line_of : Core E -> string) (ext_end : E -> fmt_result).
Definition end_of (i : Core E) : fmt_result := match i with Core_OpExtInst op => ext_end (OpExtInst_instruction op) | _ => Fmt_Ok end.

(** A text in the making: whole lines, lines that end with an instruction, and the place of a block that cannot be shown. *)
Inductive item : Type :=
| Full (line : string)
| Showing (before : string) (i : Core E)
| Impossible.

(** The items in turn, up to the first that does not end well. *)
Fixpoint performed (l : list item) : string * fmt_result :=
  match l with
  | [] => ("", Fmt_Ok)
  | Full line :: l => let (text, r) := performed l in (line ++ String line_feed text, r)
  | Showing before i :: l =>
      match end_of i with
      | Fmt_Ok => let (text, r) := performed l in (before ++ line_of i ++ String line_feed text, r)
      | r => (before ++ line_of i, r)
      end
  | Impossible :: _ => ("", Fmt_Panic)
  end.

Definition module_items (m : RawModule E) : list item := (map Full (header_lines m) ++ map (Showing "") (RawModule_instructions m))%list.

(** A function along a chain, as in Spec_Text. *)
Context (f : FunctionDefinition E).
Definition block_items (depth : nat) (id : N) : list item :=
  (match block_of f id with
  | Some b =>
      if Nat.eqb (count_occ N.eq_dec (labels f) id) 1 then
        [Full (indented depth ("> Begin " ++ decimal id))]
        ++ map (Showing (indented depth ">>> ")) (map core_of_code (BasicBlock_code b) ++ [core_of_branch (BasicBlock_branch b)])
        ++ [Full (indented depth ("> End " ++ decimal id))]
      else [Impossible]
  | None => [Impossible]
  end)%list.
Fixpoint function_items (depth : nat) (c : ControlFlowChain) : list item :=
  (match c with
  | Atom id => block_items depth id
  | Block l => flat_map (function_items depth) l
  | Selection id lhs rhs hint weights =>
      block_items depth id
      ++ [Full (selection_note hint ++ weights_note weights ++ indented depth "{")]
      ++ function_items (S depth) lhs
      ++ (match rhs with Block [] => [] | _ => Full (indented depth "} else {") :: function_items (S depth) rhs end)
      ++ [Full (indented depth "}")]
  | Loop id inner hint weights =>
      block_items depth id
      ++ [Full (loop_note hint ++ weights_note weights ++ indented depth "{")]
      ++ function_items (S depth) inner
      ++ [Full (indented depth "}")]
  | Break => [Full (indented depth "break;")]
  | Continue => [Full (indented depth "continue;")]
  end)%list.
End Stop.
Arguments Full {E} line.
Arguments Impossible {E}.
