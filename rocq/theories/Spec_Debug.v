(** SPECIFICATION of the Debug format, C88 and C89: Rust's string literals, and what is asked of user code. *)
From Verif Require Import Base Types Ops DebugBase Spec_Unicode Spec_Wire Spec_Names Spec_Opcodes Spec_Text.
Local Open Scope string_scope.

(** Debug of the user's extended instructions: the closing parenthesis after a text shows where it ends. *)
Definition unambiguous {E} (ext : E -> string) : Prop :=
  forall x y r s, ext x ++ ")" ++ r = ext y ++ ")" ++ s -> x = y /\ r = s.

(** No extended instructions. *)
Definition no_ext (x : Empty_set) : string := match x with end.

(** The number that some hexadecimal digits stand for, after the digits of [v]. *)
Definition hex_digit_value (c : ascii) : option N :=
  (let n := N_of_ascii c in
   if (48 <=? n) && (n <=? 57) then Some (n - 48) else if (97 <=? n) && (n <=? 102) then Some (n - 87) else None)%N.
Fixpoint hex_value (v : N) (s : string) : option N :=
  match s with
  | "" => Some v
  | String c s => match hex_digit_value c with Some d => hex_value (v * 16 + d)%N s | None => None end
  end.

(** A string literal of Rust (Rust reference, Tokens): what stands between the quotation marks, and the text it
    denotes.  Characters for which [plain] holds stand for themselves, except that a tab, a line end, a carriage return, a quotation mark
    and a backslash always have a backslash of their own; all others are written in hexadecimal. *)
Definition short (c : N) : Prop := (c = 9 \/ c = 10 \/ c = 13 \/ c = 34 \/ c = 92)%N.
Inductive spells (plain : N -> Prop) : string -> list N -> Prop :=
| spells_end : spells plain "" []
| spells_plain : forall c s text, scalar c -> ~ short c -> plain c -> spells plain s text ->
    spells plain (string_of_list_ascii (map ascii_of_N (utf8_char c)) ++ s) (c :: text)
| spells_tab : forall s text, spells plain s text -> spells plain ("\t" ++ s) (9%N :: text)
| spells_line : forall s text, spells plain s text -> spells plain ("\n" ++ s) (10%N :: text)
| spells_return : forall s text, spells plain s text -> spells plain ("\r" ++ s) (13%N :: text)
| spells_quotation : forall s text, spells plain s text -> spells plain ("\""" ++ s) (34%N :: text)
| spells_backslash : forall s text, spells plain s text -> spells plain ("\\" ++ s) (92%N :: text)
| spells_quote : forall s text, spells plain s text -> spells plain ("\'" ++ s) (39%N :: text)
| spells_nul : forall s text, spells plain s text -> spells plain ("\0" ++ s) (0%N :: text)
| spells_hex : forall c h s text, scalar c -> ~ short c -> ~ plain c -> h <> "" -> hex_value 0 h = Some c -> spells plain s text ->
    spells plain ("\u{" ++ h ++ "}" ++ s) (c :: text).

(** ** Instructions *)
(** The fields of the crate's structures, in the order of the operands. *)
Definition field_names (opcode : N) : list string :=
  match opcode with
  | 0 | 56 | 253 => []
  | 1 | 55 => ["result_type"; "result_id"]
  | 2 => ["continued_source"]
  | 3 => ["language"; "version"; "file"; "source"]
  | 4 => ["extension"]
  | 5 => ["target"; "name"]
  | 6 => ["struct_type"; "member"; "name"]
  | 7 => ["result_id"; "string"]
  | 10 => ["name"]
  | 11 | 31 => ["result_id"; "name"]
  | 12 => ["result_type"; "result_id"; "set"; "instruction"]
  | 14 => ["addressing_model"; "memory_model"]
  | 15 => ["execution_model"; "entry_point"; "name"; "interface"]
  | 16 => ["entry_point"; "mode"]
  | 17 => ["capability"]
  | 19 | 20 | 26 | 34 | 35 | 36 | 37 | 248 => ["result_id"]
  | 21 => ["result_id"; "width"; "signedness"]
  | 22 => ["result_id"; "width"]
  | 23 => ["result_id"; "component_type"; "component_count"]
  | 24 => ["result_id"; "column_type"; "column_count"]
  | 25 => ["result_id"; "sampled_type"; "dim"; "depth"; "arrayed"; "ms"; "sampled"; "format"; "access_qualifier"]
  | 27 => ["result_id"; "image_type"]
  | 28 => ["result_id"; "element_type"; "length"]
  | 29 => ["result_id"; "element_type"]
  | 30 => ["result_id"; "member_types"]
  | 32 => ["result_id"; "storage_class"; "pointed_type"]
  | 33 => ["result_id"; "return_type"; "parameter_types"]
  | 38 => ["result_id"; "access_qualifier"]
  | 39 => ["pointer_type"; "storage_class"]
  | 43 => ["result_type"; "result_id"; "value"]
  | 44 => ["result_type"; "result_id"; "constituents"]
  | 54 => ["result_type"; "result_id"; "function_control"; "function_type"]
  | 59 => ["result_type"; "result_id"; "storage_class"; "initializer"]
  | 61 => ["result_type"; "result_id"; "pointer"; "memory_access"]
  | 62 => ["pointer"; "object"; "memory_access"]
  | 65 => ["result_type"; "result_id"; "base"; "indexes"]
  | 71 => ["target"; "decoration"]
  | 72 => ["structure_type"; "member"; "decoration"]
  | 112 => ["result_type"; "result_id"; "unsigned_value"]
  | 124 => ["result_type"; "result_id"; "operand"]
  | 245 => ["result_type"; "result_id"; "variables"]
  | 246 => ["merge_block"; "continue_target"; "loop_control"]
  | 247 => ["merge_block"; "selection_control"]
  | 249 => ["target_label"]
  | 250 => ["condition"; "true_label"; "false_label"; "weights"]
  | _ => ["result_type"; "result_id"; "operand1"; "operand2"]
  end%N.

(** The numbers and strings in a Debug output, from left to right. *)
Fixpoint leaves {E} (t : dtree E) : list operand :=
  match t with
  | DNumber n => [OWord n]
  | DString s => [OStr s]
  | DTuple _ fields | DList fields => flat_map leaves fields
  | DStruct _ fields => flat_map (fun f => leaves (snd f)) fields
  | DBool _ | DName _ | DExtInstBox _ => []
  end.

(** Of the operands [os] with kinds [ks] and [rest], those that are not shown by a name. *)
Fixpoint unnamed (ks : list kind) (rest : option kind) (os : list operand) : list operand :=
  match os with
  | [] => []
  | o :: os =>
      match (match ks with k :: ks => Some (k, ks) | [] => match rest with Some k => Some (k, []) | None => None end end) with
      | None => [o]
      | Some (k, ks) =>
          match k, o with
          | (Id | Number | Quoted | Bare), _ => o :: unnamed ks rest os
          | (Enum _ | Mask _), _ => unnamed ks rest os
          | Language, OWord n => (if (n <? 5)%N then [] else [o]) ++ unnamed ks rest os
          | LoopMask, _ => unnamed (Number :: ks) rest os
          | Mode, OWord n => unnamed (mode_operands n ++ ks) rest os
          | Decor, OWord n => unnamed (decoration_operands_kinds n ++ ks) rest os
          | _, _ => [o]
          end
      end
  end%list.
(** The kinds of all operands of an instruction, the result id included.  The signedness of an integer type and four
    operands of image types are numbers in the standard, but enumerations in the crate. *)
Definition all_kinds (opcode : N) : list kind * option kind :=
  match opcode with
  | 21%N => ([Id; Number; Enum []], None)
  | 25%N => ([Id; Id; Enum []; Enum []; Enum []; Enum []; Enum []; Enum []; Enum []], None)
  | _ =>
      let (ks, rest) := grammar opcode in
      match result_position opcode with
      | None => (ks, rest)
      | Some k => ((firstn k ks ++ Id :: skipn k ks)%list, rest)
      end
  end.
