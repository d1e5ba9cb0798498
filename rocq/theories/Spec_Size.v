(** How many words the standard needs for an instruction. *)
From Verif Require Import Base Types Ops Spec_Wire.

(** One word for a number, an id or a mask; for a string its bytes and a NUL, in words of four. *)
Definition operand_words (o : operand) : nat :=
  match o with OWord _ | OFlags _ _ => 1 | OStr s => String.length s / 4 + 1 end.

(** The head word and the operands; an extended instruction has a number and its own operands, [own] words. *)
Definition words_of {E} (i : Core E) (own : nat) : nat :=
  1 + list_sum (map operand_words (operands i)) + match i with Core_OpExtInst _ => 1 + own | _ => 0 end.

Definition is_extended {E} (i : Core E) : Prop := match i with Core_OpExtInst _ => True | _ => False end.

(** What an instruction of the module keeps: a unit for itself, for each operand, and for each byte of a string. *)
Definition operand_kept (o : operand) : nat := match o with OWord _ | OFlags _ _ => 1 | OStr s => 1 + String.length s end.
Definition kept {E} (i : Core E) : nat := 1 + list_sum (map operand_kept (operands i)).
