(** SPECIFICATION: what the printed text of modules and of control flow should look like.  Only the model's data types
    and the tables of the standard are used. *)
From Coq Require Import DecimalString.
From Verif Require Import Base Types Ops Groups ControlFlow Spec_Tables Spec_Opcodes Spec_Wire Spec_Layout Spec_Names.
Local Open Scope string_scope.

(** ** Characters, numbers, lines *)

Definition line_feed : ascii := ascii_of_nat 10.

Fixpoint contains (c : ascii) (s : string) : Prop :=
  match s with "" => False | String c' s => c' = c \/ contains c s end.

(** The value of a decimal digit, and of a digit string. *)
Definition digit (c : ascii) : option N :=
  let n := N_of_ascii c in if ((48 <=? n) && (n <=? 57))%N then Some (n - 48)%N else None.
Fixpoint digits_from (value : N) (s : string) : option N :=
  match s with
  | "" => Some value
  | String c s => match digit c with Some d => digits_from (10 * value + d)%N s | None => None end
  end.
(** [s] is the shortest decimal form of [n]: digits only, no superfluous leading zero. *)
Definition shortest_decimal (s : string) (n : N) : Prop :=
  s <> "" /\ digits_from 0 s = Some n /\ (forall s', s = String "0" s' -> s' = "").

(** The same as a function (the standard library's). *)
Definition decimal (n : N) : string := NilZero.string_of_uint (N.to_uint n).

(** The lines of a text; a final line feed does not start another line. *)
Fixpoint lines (s : string) : list string :=
  match s with
  | "" => []
  | String c s =>
      if Ascii.eqb c line_feed then "" :: lines s
      else match lines s with [] => [String c ""] | l :: ls => String c l :: ls end
  end.

Fixpoint blanks (n : nat) : string := match n with O => "" | S n => String " " (blanks n) end.

(** Texts preceded by a blank each. *)
Fixpoint spaced (l : list string) : string := match l with [] => "" | t :: l => " " ++ t ++ spaced l end.

(** ** Instructions *)

Definition lookup (table : names) (n : N) : option string :=
  match find (fun p => N.eqb (fst p) n) table with Some (_, name) => Some name | None => None end.

(** How the crate spells a name of the standard. *)
Definition spelling (name : string) : string :=
  match find (fun p => String.eqb (fst p) name) respelled with Some (_, s) => s | None => name end.

Definition name_in (table : names) (n : N) : string :=
  match lookup table n with Some name => spelling name | None => "?" end.

(** The names of the set bits in bit order, joined by bars; "None" if there are none. *)
Definition set_names (table : names) (mask : N) : list string :=
  map snd (filter (fun p => N.testbit mask (fst p)) table).
Definition mask_text (table : names) (mask : N) : string :=
  match set_names table mask with [] => "None" | l => String.concat " | " l end.
Definition loop_flags (length : option N) : names :=
  (loop_control_flags ++ match length with Some n => [(3%N, ("DependencyLength(" ++ decimal n ++ ")")%string)] | None => [] end)%list.

(** Every value has a name in the table, and is printed as the crate spells it. *)
Definition printed_by_name {A} (disp : A -> string) (number : A -> N) (table : names) : Prop :=
  forall x, exists name, lookup table (number x) = Some name /\ disp x = spelling name.

(** The texts of the operands [os] whose kinds are [ks], then [rest] for any further ones. *)
Fixpoint render (ks : list kind) (rest : option kind) (os : list operand) : list string :=
  match os with
  | [] => []
  | o :: os =>
      match (match ks with k :: ks => Some (k, ks) | [] => match rest with Some k => Some (k, []) | None => None end end) with
      | None => ["?"]
      | Some (k, ks) =>
          match k, o with
          | Id, OWord n => ("%" ++ decimal n) :: render ks rest os
          | Number, OWord n => decimal n :: render ks rest os
          | Quoted, OStr s => ("""" ++ s ++ """") :: render ks rest os
          | Bare, OStr s => s :: render ks rest os
          | Enum table, OWord n => name_in table n :: render ks rest os
          | Language, OWord n =>
              match lookup source_languages n with Some name => name | None => "Unknown(" ++ decimal n ++ ")" end
              :: render ks rest os
          | Mask table, OFlags mask _ => mask_text table mask :: render ks rest os
          | LoopMask, OFlags mask _ =>
              match os with
              | OWord n :: os => mask_text (loop_flags (Some n)) mask :: render ks rest os
              | _ => mask_text (loop_flags None) mask :: render ks rest os
              end
          | Mode, OWord n => name_in execution_modes n :: render (mode_operands n ++ ks) rest os
          | Decor, OWord n => name_in decorations n :: render (decoration_operands_kinds n ++ ks) rest os
          | _, _ => ["?"]
          end
      end
  end.

Fixpoint without {A} (k : nat) (l : list A) : list A :=
  match k, l with
  | _, [] => []
  | O, _ :: l => l
  | S k, x :: l => x :: without k l
  end.

Section Instructions.
Context {E : Type} (ext_text : E -> string).

Definition result_of (i : Core E) : option N :=
  match result_position (opcode i) with
  | Some k => match nth_error (operands i) k with Some (OWord r) => Some r | _ => None end
  | None => None
  end.
Definition other_operands (i : Core E) : list operand :=
  match result_position (opcode i) with Some k => without k (operands i) | None => operands i end.

(** The texts of the operands, in the order of the standard; for an extended instruction, the text of the
    instruction of the set is the last. *)
Definition operand_texts (i : Core E) : list string :=
  let (ks, rest) := grammar (opcode i) in
  (render ks rest (other_operands i)
   ++ match i with Core_OpExtInst op => [ext_text (OpExtInst_instruction op)] | _ => [] end)%list.

(** The first fifteen columns: the result id right-aligned to column 12 and an equals sign, or nothing. *)
Definition result_column (i : Core E) (column : string) : Prop :=
  String.length column = 15 /\
  match result_of i with
  | Some r => exists k, column = blanks k ++ "%" ++ decimal r ++ " = "
  | None => column = blanks 15
  end.

Definition instruction_line (i : Core E) (line : string) : Prop :=
  exists column name,
    result_column i column /\ opcode_name (opcode i) = Some name
    /\ line = column ++ name ++ spaced (operand_texts i).

Definition result_fits (i : Core E) : Prop := forall r, result_of i = Some r -> word r.

(** As read from a module: the source text of OpSource only comes with a file, and the number of an unnamed source
    language is not that of a named one. *)
Definition canonical (i : Core E) : Prop :=
  match i with
  | Core_OpSource op =>
      (OpSource_file op = None -> OpSource_source op = None)
      /\ match OpSource_language op with SourceLanguage_Other n => (5 <= n)%N | _ => True end
  | _ => True
  end.

(** The strings among the operands of an instruction. *)
Definition strings_of (i : Core E) : list string :=
  flat_map (fun o => match o with OStr s => [s] | _ => [] end) (operands i).
(** No line feed in a string operand or in the text of an extended instruction. *)
Definition single_line (i : Core E) : Prop :=
  (forall s, In s (strings_of i) -> ~ contains line_feed s)
  /\ match i with Core_OpExtInst op => ~ contains line_feed (ext_text (OpExtInst_instruction op)) | _ => True end.

End Instructions.

(** The registered generators: vendor and tool. *)
Definition generators : list (N * string) :=
  [(0%N, "Khronos"); (1%N, "LunarG"); (2%N, "Valve"); (3%N, "Codeplay"); (4%N, "NVIDIA"); (5%N, "ARM");
   (6%N, "Khronos LLVM/SPIR-V Translator"); (7%N, "Khronos SPIR-V Tools Assembler");
   (8%N, "Khronos Glslang Reference Front End"); (9%N, "Qualcomm"); (10%N, "AMD"); (11%N, "Intel")].
Definition generator_text (t : Tool) : string :=
  match t with
  | Tool_Other _ => "Unknown"
  | _ => match lookup generators (tool_number t) with Some text => text | None => "Unknown" end
  end.

Definition header_lines {E} (m : RawModule E) : list string :=
  [ "; SPIR-V";
    "; Version: " ++ decimal (Version_0 (RawModule_version m)) ++ "." ++ decimal (Version_1 (RawModule_version m));
    "; Generator: " ++ generator_text (Generator_tool (RawModule_generator m))
       ++ "; " ++ decimal (Generator_version (RawModule_generator m));
    "; Bound: " ++ decimal (RawModule_bound m);
    "; Schema: 0" ].

(** Equal, or both unregistered: the number of an unregistered tool is not printed. *)
Definition same_tool (t t' : Tool) : Prop := t = t' \/ exists n n', t = Tool_Other n /\ t' = Tool_Other n'.

Definition printed_alike {E} (m m' : RawModule E) : Prop :=
  RawModule_version m = RawModule_version m'
  /\ same_tool (Generator_tool (RawModule_generator m)) (Generator_tool (RawModule_generator m'))
  /\ Generator_version (RawModule_generator m) = Generator_version (RawModule_generator m')
  /\ RawModule_bound m = RawModule_bound m' /\ RawModule_instructions m = RawModule_instructions m'.

(** ** Control-flow text *)

(** A line that starts (after its indentation) with a closing brace is at the outer depth; a line that ends with an
    opening brace makes the following lines one deeper. *)
Definition closing (body : string) : bool :=
  match body with String c _ => Ascii.eqb c "}" | "" => false end.
Fixpoint opening (body : string) : bool :=
  match body with
  | "" => false
  | String c "" => Ascii.eqb c "{"
  | String _ s => opening s
  end.

(** [nested depth ls]: the lines, starting at brace depth [depth], are indented by four blanks per enclosing brace and
    end at depth zero. *)
Fixpoint nested (depth : nat) (ls : list string) : Prop :=
  match ls with
  | [] => depth = 0
  | l :: ls =>
      exists outer body,
        (if closing body then depth = S outer else depth = outer)
        /\ l = blanks (4 * outer) ++ body
        /\ (forall s, body <> String " " s)
        /\ nested (if opening body then S outer else outer) ls
  end.

(** The brace depth after a text, if no closing brace comes too early. *)
Fixpoint brace_depth (depth : nat) (s : string) : option nat :=
  match s with
  | "" => Some depth
  | String c s =>
      if Ascii.eqb c "{" then brace_depth (S depth) s
      else if Ascii.eqb c "}" then match depth with O => None | S depth => brace_depth depth s end
      else brace_depth depth s
  end.

(** A chain without its sequencing blocks: the list of what it executes in order, where the parts of selections and
    loops are such lists again. *)
Fixpoint steps (c : ControlFlowChain) : list ControlFlowChain :=
  match c with
  | Block l => flat_map steps l
  | Selection id lhs rhs hint weights => [Selection id (Block (steps lhs)) (Block (steps rhs)) hint weights]
  | Loop id inner hint weights => [Loop id (Block (steps inner)) hint weights]
  | _ => [c]
  end.

(** The exact lines of a chain.  Hints are shown in brackets if any is set, branch weights if there are any; the else
    part is left out if the second arm is the empty block. *)
Definition indented (depth : nat) (s : string) : string := blanks (4 * depth) ++ s.
Definition hint_note (table : names) (mask : N) : string :=
  match set_names table mask with [] => "" | _ => " [" ++ mask_text table mask ++ "]" end.
Definition selection_note (h : SelectionControl) : string := hint_note selection_control_flags (selection_control_bits h).
Definition loop_note (h : LoopControl) : string := hint_note (loop_flags (LoopControl_dependency_length h)) (loop_control_bits h).
Definition weights_note (w : option BranchWeights) : string :=
  match w with
  | Some w => " [" ++ decimal (BranchWeights_true_weight w) ++ " " ++ decimal (BranchWeights_false_weight w) ++ "]"
  | None => ""
  end.
Definition else_part (rhs : ControlFlowChain) (l : list string) : list string := match rhs with Block [] => [] | _ => l end.
Fixpoint chain_lines (depth : nat) (c : ControlFlowChain) : list string :=
  (match c with
  | Atom id => [indented depth ("%" ++ decimal id)]
  | Block l => flat_map (chain_lines depth) l
  | Selection id lhs rhs hint weights =>
      [indented depth ("selection %" ++ decimal id ++ selection_note hint ++ weights_note weights ++ " {")]
      ++ chain_lines (S depth) lhs
      ++ else_part rhs (indented depth "} else {" :: chain_lines (S depth) rhs)
      ++ [indented depth "}"]
  | Loop id inner hint weights =>
      [indented depth ("loop %" ++ decimal id ++ loop_note hint ++ weights_note weights ++ " {")]
      ++ chain_lines (S depth) inner
      ++ [indented depth "}"]
  | Break => [indented depth "break;"]
  | Continue => [indented depth "continue;"]
  end)%list.

(** The exact lines of a function printed along a chain: every block is shown with its instructions and its branch.
    Hints and weights come before the indentation of the opening brace. *)
Section Function.
Context {E : Type} (line_of : Core E -> string) (f : FunctionDefinition E).
Definition block_of (id : N) : option (BasicBlock E) :=
  find (fun b => N.eqb (OpLabel_result_id (BasicBlock_label b)) id) (FunctionDefinition_blocks f).
Definition block_lines (depth : nat) (id : N) : list string :=
  (match block_of id with
  | Some b =>
      [indented depth ("> Begin " ++ decimal id)]
      ++ map (fun i => indented depth (">>> " ++ line_of i)) (map core_of_code (BasicBlock_code b) ++ [core_of_branch (BasicBlock_branch b)])
      ++ [indented depth ("> End " ++ decimal id)]
  | None => []
  end)%list.
Fixpoint function_lines (depth : nat) (c : ControlFlowChain) : list string :=
  (match c with
  | Atom id => block_lines depth id
  | Block l => flat_map (function_lines depth) l
  | Selection id lhs rhs hint weights =>
      block_lines depth id
      ++ [(selection_note hint ++ weights_note weights ++ indented depth "{")%string]
      ++ function_lines (S depth) lhs
      ++ else_part rhs (indented depth "} else {" :: function_lines (S depth) rhs)
      ++ [indented depth "}"]
  | Loop id inner hint weights =>
      block_lines depth id
      ++ [(loop_note hint ++ weights_note weights ++ indented depth "{")%string]
      ++ function_lines (S depth) inner
      ++ [indented depth "}"]
  | Break => [indented depth "break;"]
  | Continue => [indented depth "continue;"]
  end)%list.
End Function.
