(** SPECIFICATION of the Debug format with formatting options, C95. *)
From Verif Require Import Base FmtBase DebugBase Spec_Text Spec_Options Spec_Pretty.
Local Open Scope string_scope.

(** A value in which every number and every boolean has been replaced by the name that is to be shown in its place. *)
Fixpoint with_leaves {E} (number : N -> string) (boolean : bool -> string) (t : dtree E) : dtree E :=
  match t with
  | DNumber n => DName (number n)
  | DBool b => DName (boolean b)
  | DString s => DString s
  | DName name => DName name
  | DTuple name fields => DTuple name (map (with_leaves number boolean) fields)
  | DStruct name fields => DStruct name (map (fun f => (fst f, with_leaves number boolean (snd f))) fields)
  | DList items => DList (map (with_leaves number boolean) items)
  | DExtInstBox x => DExtInstBox x
  end.
(** What the options make of a number and of a boolean. *)
Definition leaves_of (o : Options) (number : N -> string) (boolean : bool -> string) : Prop :=
  (forall n, number_with o (decimal n) (number n)) /\ (forall b : bool, text_with o (if b then "true" else "false") (boolean b)).

(** Options that fill with blanks and do not cut booleans off. *)
Definition readable (o : Options) : Prop :=
  Options_fill o = " " /\ match Options_precision o with Some p => 5 <= p | None => True end.

(** ** Without the options *)
(** Where in the text one is: between two words, in a word, in a string literal, behind a backslash in one. *)
Inductive spot := Between | Word | Literal | Escape.

Definition is_numeral (c : ascii) : bool := ((48 <=? N_of_ascii c) && (N_of_ascii c <=? 57))%N%bool.
Definition numeral_next (s : string) : bool := match s with String c _ => is_numeral c | "" => false end.
(** The word that goes on here is the name of a field. *)
Fixpoint labels (s : string) : bool :=
  match s with "" => false | String c s => if word_letter c then labels s else Ascii.eqb c ":" end.

(** Outside of string literals blanks, line feeds, plus signs and leading zeros are left out, and so are commas before
    closing brackets.  Then commas, colons and braces get the blanks of [{:?}]. *)
Fixpoint without_options (p : spot) (s : string) : string :=
  match s with
  | "" => ""
  | String c s =>
      match p with
      | Literal => String c (without_options (if Ascii.eqb c quotation then Between else if Ascii.eqb c backslash then Escape else Literal) s)
      | Escape => String c (without_options Literal s)
      | Between | Word =>
          if (Ascii.eqb c line_feed || Ascii.eqb c " " || Ascii.eqb c "+")%bool then without_options Between s
          else if (Ascii.eqb c "0" && match p with Word => false | _ => true end && numeral_next s && negb (labels s))%bool
          then without_options Between s
          else if Ascii.eqb c "," then (if closes (next_visible s) then "" else ", ") ++ without_options Between s
          else if Ascii.eqb c ":" then ": " ++ without_options Between s
          else if Ascii.eqb c "{" then " { " ++ without_options Between s
          else if Ascii.eqb c "}" then " }" ++ without_options Between s
          else String c (without_options (if Ascii.eqb c quotation then Literal else if word_letter c then Word else Between) s)
      end
  end.

(** Names are identifiers; tuples may be nameless, what has no fields is shown by its name. *)
Definition identifier (s : string) : Prop :=
  match s with "" => False | String c s => word_letter c = true /\ is_numeral c = false /\ word_letters s end.
Fixpoint identified {E} (t : dtree E) : Prop :=
  match t with
  | DName n => identifier n
  | DTuple n fields => (n = "" \/ identifier n) /\ fields <> []
      /\ (fix each l := match l with [] => True | t :: l => identified t /\ each l end) fields
  | DStruct n fields => identifier n /\ fields <> []
      /\ (fix each l := match l with [] => True | f :: l => (word_letters (fst f) /\ fst f <> "" /\ identified (snd f)) /\ each l end) fields
  | DList items => (fix each l := match l with [] => True | t :: l => identified t /\ each l end) items
  | _ => True
  end.
