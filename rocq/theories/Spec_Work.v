(** The work that finding the control flow of a structured program takes between the calls: how many surrounding
    constructs are looked at, and how many parts of chains are moved. *)
From Verif Require Import Base Types Ops Groups ControlFlow Spec_Flow Spec_Structured.

(** ** Looks *)
(** For every block all constructs [around] it are looked at.  The end of a sequence is seen at first look.  A block that
    may leave or restart the loop also looks for that loop, past the [choices] inside of it that are around the block. *)
Section Looks.
Context (looks : statement -> nat) (at_end : nat).
Fixpoint sequence_looks (l : list statement) : nat :=
  match l with
  | [] => at_end
  | [s] => looks s + (if is_exit s then 0 else at_end)
  | s :: l => looks s + sequence_looks l
  end.
End Looks.
Fixpoint statement_looks (around choices : nat) (s : statement) : nat :=
  match s with
  | Step _ => around
  | Choose _ _ yes no _ _ => around + sequence_looks (statement_looks (S around) (S choices)) 1 yes + sequence_looks (statement_looks (S around) (S choices)) 1 no
  | Repeat _ _ body _ => around + sequence_looks (statement_looks (S around) 0) 1 body
  | LeaveUnless _ _ rest _ | RestartUnless _ _ rest _ => around + S choices + sequence_looks (statement_looks around choices) 1 rest
  end.
(** Nothing is around the block that returns. *)
Definition program_looks (program : list statement) : nat := sequence_looks (statement_looks 0 0) 0 program.

(** ** Moves *)
(** Each statement is put before those that follow it in its sequence, and all of these are moved; for the program
    itself the block that returns is one more ([last]).  An exit from a loop ends its sequence. *)
Section Moves.
Context (moves : statement -> nat) (last : nat).
Fixpoint sequence_moves (l : list statement) : nat :=
  match l with
  | [] => 0
  | s :: l => moves s + (if is_exit s then 0 else 1 + List.length l + last) + sequence_moves l
  end.
End Moves.
Fixpoint inside_moves (s : statement) : nat :=
  match s with
  | Step _ => 0
  | Choose _ _ yes no _ _ => sequence_moves inside_moves 0 yes + sequence_moves inside_moves 0 no
  | Repeat _ _ body _ => sequence_moves inside_moves 0 body
  | LeaveUnless _ _ rest _ | RestartUnless _ _ rest _ => sequence_moves inside_moves 0 rest
  end.
Definition program_moves (program : list statement) : nat := sequence_moves inside_moves 1 program.
