(** SPECIFICATION: formatting options (documentation of std::fmt) and what they do to the line of an instruction, C69. *)
From Verif Require Import Base Types Ops FmtBase Spec_Wire Spec_Names Spec_Opcodes Spec_Text.
Local Open Scope string_scope.

Fixpoint copies (n : nat) (s : string) : string := match n with O => "" | S n => s ++ copies n s end.

(** Missing characters are added before and after a text: after it if it is aligned to the left, before it if it is aligned
    to the right, on both sides if it is centred, one more after it if the number is odd.  Nothing is added to a text that is
    long enough or if no width was asked for. *)
Definition filled (o : Options) (default : Alignment) (s t : string) : Prop :=
  exists before after,
    t = copies before (Options_fill o) ++ s ++ copies after (Options_fill o)
    /\ before + after = match Options_width o with Some width => width - String.length s | None => 0 end
    /\ match match Options_align o with Align_Unknown => default | a => a end with
       | Align_Left | Align_Unknown => before = 0
       | Align_Right => after = 0
       | Align_Center => before <= after <= S before
       end.

(** A text is cut off at the precision and aligned to the left unless told otherwise. *)
Definition text_with (o : Options) (s t : string) : Prop :=
  filled o Align_Left (match Options_precision o with Some p => substring 0 p s | None => s end) t.
(** A number is aligned to the right unless told otherwise; with the option for zeros these are filled in after the sign.  The
    precision has no meaning. *)
Definition number_with (o : Options) (s t : string) : Prop :=
  let sign := if Options_plus o then "+" else "" in
  if Options_zero o
  then exists zeros, t = sign ++ copies zeros "0" ++ s
       /\ zeros = match Options_width o with Some width => width - String.length (sign ++ s) | None => 0 end
  else filled o Align_Right (sign ++ s) t.

(** What the options of an instruction do to its operands. *)
Inductive effect : Type := Unchanged | AsText | AsNumber.
Definition has_effect (o : Options) (e : effect) (s t : string) : Prop :=
  match e with Unchanged => t = s | AsText => text_with o s t | AsNumber => number_with o s t end.
Fixpoint have_effects (o : Options) (es : list effect) (rest : effect) (ss ts : list string) : Prop :=
  match ss, ts with
  | [], [] => True
  | s :: ss, t :: ts => has_effect o (hd rest es) s t /\ have_effects o (tl es) rest ss ts
  | _, _ => False
  end.

(** Ids are changed like texts, except the arguments of OpPhi; of the numbers only the width of a scalar type, the size of a vector or matrix
    type and the words of a constant are changed. *)
Definition effects (opcode : N) : list effect * effect :=
  match opcode with
  | 21 | 22 => ([AsNumber], Unchanged)
  | 23 | 24 => ([AsText; AsNumber], Unchanged)
  | 43 => ([AsText], AsNumber)
  | 245 => ([AsText], Unchanged)
  | _ =>
      let on := fun k => match k with Id => AsText | _ => Unchanged end in
      let (ks, rest) := grammar opcode in
      (map on ks, match rest with Some k => on k | None => Unchanged end)
  end%N.
