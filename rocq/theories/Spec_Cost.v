(** What finding the control flow of a structured program costs: how deep the recursion goes and how many calls it takes. *)
From Verif Require Import Base Types Ops Groups ControlFlow Spec_Flow Spec_Structured.

(** ** Depth *)
(** Each statement of a sequence is one level below the one before it; [inside] a statement the sequences in it are one
    level below it.  After the last statement a further call sees the end of the sequence. *)
Section Depth.
Context (inside : statement -> nat).
Fixpoint sequence_depth (l : list statement) : nat :=
  match l with
  | [] => 1
  | s :: l => 1 + Nat.max (inside s) (sequence_depth l)
  end.
End Depth.
Fixpoint inside_depth (s : statement) : nat :=
  match s with
  | Step _ => 0
  | Choose _ _ yes no _ _ => Nat.max (sequence_depth inside_depth yes) (sequence_depth inside_depth no)
  | Repeat _ _ body _ => sequence_depth inside_depth body
  | LeaveUnless _ _ rest _ | RestartUnless _ _ rest _ => sequence_depth inside_depth rest
  end.
(** For the program itself, the call after the last statement is for the block that returns. *)
Definition program_depth (program : list statement) : nat := sequence_depth inside_depth program.

(** ** Calls *)
(** One call for every block, and one for the end of every sequence that does not end with an exit from a loop. *)
Section Calls.
Context (calls : statement -> nat).
Fixpoint sequence_calls (l : list statement) : nat :=
  match l with
  | [] => 1
  | [s] => calls s + (if is_exit s then 0 else 1)
  | s :: l => calls s + sequence_calls l
  end.
End Calls.
Fixpoint statement_calls (s : statement) : nat :=
  match s with
  | Step _ => 1
  | Choose _ _ yes no _ _ => 1 + sequence_calls statement_calls yes + sequence_calls statement_calls no
  | Repeat _ _ body _ => 1 + sequence_calls statement_calls body
  | LeaveUnless _ _ rest _ | RestartUnless _ _ rest _ => 1 + sequence_calls statement_calls rest
  end.
Definition program_calls (program : list statement) : nat := sequence_calls statement_calls program.
