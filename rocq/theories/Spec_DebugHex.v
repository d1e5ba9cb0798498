(** SPECIFICATION of the Debug format with hexadecimal numbers, C100. *)
From Verif Require Import Base FmtBase DebugBase Spec_Text Spec_Options Spec_Debug Spec_Pretty Spec_DebugOptions.
Local Open Scope string_scope.

(** The shortest hexadecimal numeral of a number, in small or in capital letters. *)
Definition digit_value (upper : bool) (c : ascii) : option N :=
  let n := N_of_ascii c in
  (if (48 <=? n) && (n <=? 57) then Some (n - 48)
   else if upper then if (65 <=? n) && (n <=? 70) then Some (n - 55) else None
   else if (97 <=? n) && (n <=? 102) then Some (n - 87) else None)%N.
Fixpoint digits_value (upper : bool) (v : N) (s : string) : option N :=
  match s with
  | "" => Some v
  | String c s => match digit_value upper c with Some d => digits_value upper (v * 16 + d)%N s | None => None end
  end.
Definition hex_numeral (upper : bool) (n : N) (s : string) : Prop :=
  digits_value upper 0 s = Some n /\ s <> "" /\ forall s', s = String "0" s' -> s' = "".

(** As [number_with] (Spec_Options), with a prefix that goes with the sign. *)
Definition prefixed_with (o : Options) (prefix s t : string) : Prop :=
  let sign := (if Options_plus o then "+" else "") ++ prefix in
  if Options_zero o
  then exists zeros, t = sign ++ copies zeros "0" ++ s
       /\ zeros = match Options_width o with Some width => width - String.length (sign ++ s) | None => 0 end
  else filled o Align_Right (sign ++ s) t.

(** What the options make of a number and of a boolean; over several lines, numbers get the prefix 0x. *)
Definition hex_leaves_of (upper several_lines : bool) (o : Options) (number : N -> string) (boolean : bool -> string) : Prop :=
  (forall n, exists s, hex_numeral upper n s /\ prefixed_with o (if several_lines then "0x" else "") s (number n))
  /\ (forall b : bool, text_with o (if b then "true" else "false") (boolean b)).

(** ** Back to decimal numbers *)
(** A word that is a hexadecimal number. *)
Definition hex_word (upper : bool) (w : string) : option N :=
  match w with
  | "" => None
  | String c w' =>
      match w' with
      | String x s => if (Ascii.eqb c "0" && Ascii.eqb x "x")%bool then digits_value upper 0 s else digits_value upper 0 w
      | "" => digits_value upper 0 w
      end
  end.
Definition in_decimal (upper : bool) (w : string) : string := match hex_word upper w with Some n => decimal n | None => w end.
(** Outside of string literals, every word that is a hexadecimal number is replaced by a decimal number, unless it is the name of a
    field.  [w] is the word before [s]. *)
Fixpoint decimals (upper : bool) (p : spot) (w s : string) : string :=
  match s with
  | "" => in_decimal upper w
  | String c s =>
      match p with
      | Literal => String c (decimals upper (if Ascii.eqb c quotation then Between else if Ascii.eqb c backslash then Escape else Literal) "" s)
      | Escape => String c (decimals upper Literal "" s)
      | Between | Word =>
          if word_letter c then decimals upper Between (w ++ String c "") s
          else (if Ascii.eqb c ":" then w else in_decimal upper w)
               ++ String c (decimals upper (if Ascii.eqb c quotation then Literal else Between) "" s)
      end
  end.

(** No name is a hexadecimal number. *)
Fixpoint spoken {E} (upper : bool) (t : dtree E) : Prop :=
  match t with
  | DName n => hex_word upper n = None
  | DTuple n fields => hex_word upper n = None /\ (fix each l := match l with [] => True | t :: l => spoken upper t /\ each l end) fields
  | DStruct n fields => hex_word upper n = None /\ (fix each l := match l with [] => True | f :: l => spoken upper (snd f) /\ each l end) fields
  | DList items => (fix each l := match l with [] => True | t :: l => spoken upper t /\ each l end) items
  | _ => True
  end.
