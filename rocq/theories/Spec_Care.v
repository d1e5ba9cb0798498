(** SPECIFICATION: which bits of an input matter. *)
From Verif Require Import Base Types Ops ReadErr ExtSet Spec_Wire.
Local Open Scope N_scope.

Definition every_bit : N := 0xFFFFFFFF.

(** For every word of an operand, the bits that matter: of masks all but the ignored ones, of the last word of a string
    all but the padding. *)
Definition care_operand (o : operand) : list N :=
  match o with
  | OWord _ => [every_bit]
  | OStr s => pack (map (fun _ => 0xFF) (bytes_of_string s ++ [0]))
  | OFlags _ ignored => [N.ldiff every_bit ignored]
  end.
Definition care_operands (os : list operand) : list N := flat_map care_operand os.

(** In an instruction without operands the lowest bit of the word count does not matter. *)
Definition care_head (operand_words : list N) : N := match operand_words with [] => 0xFFFEFFFF | _ => every_bit end.

(** Of an extended instruction all words matter; [sizes] says how many operands the user's code read for each of them. *)
Definition care_body {E} (i : Core E) (sizes : list nat) : list N :=
  match i with
  | Core_OpExtInst _ => repeat every_bit (4 + hd 0%nat sizes)
  | _ => care_operands (operands i)
  end.
Fixpoint care_instructions {E} (is : list (Core E)) (sizes : list nat) : list N :=
  match is with
  | [] => []
  | i :: is =>
      let body := care_body i sizes in
      care_head body :: body ++ care_instructions is (match i with Core_OpExtInst _ => tl sizes | _ => sizes end)
  end.

(** In the version word the high halves of the three lower bytes do not matter. *)
Definition care_module {E} (m : RawModule E) (sizes : list nat) : list N :=
  [every_bit; 0xFF0F0F0F; every_bit; every_bit; every_bit] ++ care_instructions (RawModule_instructions m) sizes.

(** The words are the same in all bits that matter. *)
Fixpoint agree (masks ws ws' : list N) : Prop :=
  match masks, ws, ws' with
  | [], [], [] => True
  | mask :: masks, w :: ws, w' :: ws' => N.land w mask = N.land w' mask /\ agree masks ws ws'
  | _, _, _ => False
  end.

(** Two different instructions of a set are not read as the same value. *)
Definition tells_apart {E} (r : ExtReader E) : Prop :=
  forall number words number' words' i, r number words = Ok ([], i) -> r number' words' = Ok ([], i) -> number = number' /\ words = words'.
