(** SPECIFICATION of the Debug format over several lines, C92. *)
From Verif Require Import Base DebugBase Spec_Text.
Local Open Scope string_scope.

(** ** The lines *)
(** A text added to the last, or before the first, of some lines. *)
Fixpoint add_last (more : string) (ls : list string) : list string :=
  match ls with [] => [more] | [l] => [l ++ more] | l :: ls => l :: add_last more ls end.
Definition add_first (before : string) (ls : list string) : list string :=
  match ls with [] => [before] | l :: ls => (before ++ l) :: ls end.

(** Items on lines of their own, four blanks further right, with a comma after each; whether after the last one too depends
    on the release of Rust. *)
Fixpoint comma_lines (trailing : bool) (items : list (list string)) : list string :=
  match items with
  | [] => []
  | [ls] => add_last (if trailing then "," else "") ls
  | ls :: items => (add_last "," ls ++ comma_lines trailing items)%list
  end.
Definition enclosed (trailing : bool) (opening : string) (items : list (list string)) (closing : string) : list string :=
  match items with
  | [] => [opening ++ closing]
  | _ => (opening :: map (append (blanks 4)) (comma_lines trailing items) ++ [closing])%list
  end.

(** [ext_lines] are the lines that the extended instructions show. *)
Fixpoint pretty_lines {E} (trailing : bool) (e : escapes) (ext_lines : E -> list string) (t : dtree E) : list string :=
  match t with
  | DNumber n => [decimal n]
  | DBool b => [if b then "true" else "false"]
  | DString s => [dbg_str e s]
  | DName name => [name]
  | DTuple name fields => enclosed trailing (name ++ "(") (map (pretty_lines trailing e ext_lines) fields) ")"
  | DStruct name fields =>
      enclosed trailing (name ++ " {") (map (fun f => add_first (fst f ++ ": ") (pretty_lines trailing e ext_lines (snd f))) fields) "}"
  | DList items => enclosed trailing "[" (map (pretty_lines trailing e ext_lines) items) "]"
  | DExtInstBox x => enclosed trailing "ExtInstBox(" [ext_lines x] ")"
  end.

(** Lines with a line feed between any two. *)
Definition joined (ls : list string) : string := String.concat (String line_feed "") ls.

(** ** Back to one line *)
(** The first character that is neither blank nor line feed. *)
Fixpoint next_visible (s : string) : option ascii :=
  match s with
  | "" => None
  | String c s => if (Ascii.eqb c line_feed || Ascii.eqb c " ")%bool then next_visible s else Some c
  end.
Definition at_line_end (s : string) : bool := match s with String c _ => Ascii.eqb c line_feed | "" => false end.

(** Where in the text one is: at the start of a line, in a string literal, behind a backslash in one, or elsewhere. *)
Inductive place := Line_start | Inside | Escaped | Outside.

(** On one line, a line break together with the indentation after it is a blank before a closing brace and nothing otherwise, a brace
    before a line break is followed by a blank, and a comma before a line break is followed by a blank too, or left out if
    a bracket of any kind is closed next. *)
Definition closes (c : option ascii) : bool :=
  match c with Some c => (Ascii.eqb c ")" || Ascii.eqb c "]" || Ascii.eqb c "}")%bool | None => false end.
Fixpoint one_line (p : place) (s : string) : string :=
  match s with
  | "" => ""
  | String c s =>
      match p with
      | Inside => String c (one_line (if Ascii.eqb c quotation then Outside else if Ascii.eqb c backslash then Escaped else Inside) s)
      | Escaped => String c (one_line Inside s)
      | Line_start | Outside =>
          if Ascii.eqb c line_feed then
            match next_visible s with Some "}"%char => " " | _ => "" end ++ one_line Line_start s
          else if (Ascii.eqb c " " && match p with Line_start => true | _ => false end)%bool then one_line Line_start s
          else if (Ascii.eqb c "{" && at_line_end s)%bool then "{ " ++ one_line Outside s
          else if (Ascii.eqb c "," && at_line_end s)%bool then (if closes (next_visible s) then "" else ", ") ++ one_line Outside s
          else String c (one_line (if Ascii.eqb c quotation then Inside else Outside) s)
      end
  end.

(** Names are made of letters, digits and underscores; tuples may be nameless, what has no fields is shown by its name. *)
Definition word_letter (c : ascii) : bool :=
  let n := N_of_ascii c in
  (((48 <=? n) && (n <=? 57)) || ((65 <=? n) && (n <=? 90)) || ((97 <=? n) && (n <=? 122)) || (n =? 95))%N%bool.
Fixpoint word_letters (s : string) : Prop := match s with "" => True | String c s => word_letter c = true /\ word_letters s end.
Fixpoint plainly_named {E} (t : dtree E) : Prop :=
  match t with
  | DName n => word_letters n /\ n <> ""
  | DTuple n fields => word_letters n /\ fields <> [] /\ (fix each l := match l with [] => True | t :: l => plainly_named t /\ each l end) fields
  | DStruct n fields => word_letters n /\ n <> "" /\ fields <> []
      /\ (fix each l := match l with [] => True | f :: l => (word_letters (fst f) /\ fst f <> "" /\ plainly_named (snd f)) /\ each l end) fields
  | DList items => (fix each l := match l with [] => True | t :: l => plainly_named t /\ each l end) items
  | _ => True
  end.
