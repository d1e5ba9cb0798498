(** Property theorems about the printed text, C52-C60 and C62-C64.  The vocabulary of the statements is in Spec_Text,
    Spec_Names and Spec_Flow. *)
From Coq Require Import ZArith.
From Verif Require Import Base Types Ops ReadErr ExtSet Reader Groups Glsl450 ControlFlow DisplayBase DisplayTypes DisplayOps DisplayModule
  DisplayFlow Spec_Tables Spec_Opcodes Spec_Wire Spec_Layout Spec_Flow Spec_Names Spec_Text Spec_Page Samples Samples_Flow
  Proofs_Text Proofs_Text2 Proofs_Text3 Proofs_Text4 Proofs_Text5 Proofs_Text6 Proofs_Text7 Proofs_Text8 Proofs_Page Proofs_Glsl.
Local Open Scope string_scope.

(** ** C52 *)
Theorem C52_one_line_per_instruction : forall E (ext_text : E -> string) (m : RawModule E),
  (forall i, In i (RawModule_instructions m) -> single_line ext_text i) ->
  lines (disp_RawModule ext_text m) = (header_lines m ++ map (disp_Core ext_text) (RawModule_instructions m))%list.
Proof. intros E ext_text m. exact (module_lines ext_text m). Qed.
Print Assumptions C52_one_line_per_instruction.
(** Whatever the strings contain, the text is the header lines and the instructions' texts, each ended by a line feed. *)
Theorem C52_text : forall E (ext_text : E -> string) (m : RawModule E),
  disp_RawModule ext_text m = page (header_lines m ++ map (disp_Core ext_text) (RawModule_instructions m)).
Proof. exact module_page. Qed.
Print Assumptions C52_text.

Example C52_example : (forall i, In i (RawModule_instructions sample) -> single_line disp_Inst i)
  /\ firstn 5 (lines (disp_RawModule disp_Inst sample)) = ["; SPIR-V"; "; Version: 1.0"; "; Generator: Unknown; 3"; "; Bound: 11"; "; Schema: 0"]
  /\ nth_error (lines (disp_RawModule disp_Inst sample)) 15 = Some "          %8 = OpLoad %4 %9 Volatile".
Proof.
  split; [|vm_compute; split; reflexivity]. intros i M. cbn in M.
  repeat (destruct M as [<-|M];
    [split; [intros s S; cbn in S; repeat (destruct S as [<-|S]; [apply lf_freeb_spec; reflexivity|]); contradiction S
            |first [exact I|apply lf_freeb_spec; reflexivity]]|]). contradiction M.
Qed.
(** With a line feed in a string the instruction takes two lines. *)
Example C52_line_feed : List.length (lines (disp_Core disp_Inst (Core_OpName (Build_OpName 1%N ("a" ++ String line_feed "b"))))) = 2.
Proof. vm_compute. reflexivity. Qed.

(** ** C53 *)
Theorem C53_columns : forall E (ext_text : E -> string) (i : Core E), result_fits i ->
  exists column name operands, result_column i column /\ opcode_name (opcode i) = Some name
    /\ disp_Core ext_text i = column ++ name ++ spaced operands.
Proof. intros E ext_text i. exact (columns E ext_text i). Qed.
Print Assumptions C53_columns.

Example C53_example : result_fits (E := Inst) (Core_OpTypeFloat (Build_OpTypeFloat 4294967295%N 32%N))
  /\ disp_Core disp_Inst (Core_OpTypeFloat (Build_OpTypeFloat 4294967295%N 32%N)) = " %4294967295 = OpTypeFloat 32".
Proof. split; [intros r H; injection H as <-; reflexivity|vm_compute; reflexivity]. Qed.

(** ** C54 *)
Theorem C54_instruction_faithful : forall E (ext_text : E -> string) (i j : Core E),
  (forall a b, ext_text a = ext_text b -> a = b) -> result_fits i -> result_fits j ->
  disp_Core ext_text i = disp_Core ext_text j -> i = j.
Proof. intros E ext_text i j I. exact (core_inj ext_text I i j). Qed.
Print Assumptions C54_instruction_faithful.

Theorem C54_module_faithful : forall E (ext_text : E -> string) (m m' : RawModule E),
  (forall a b, ext_text a = ext_text b -> a = b) ->
  (forall i, In i (RawModule_instructions m) \/ In i (RawModule_instructions m') -> result_fits i /\ single_line ext_text i) ->
  disp_RawModule ext_text m = disp_RawModule ext_text m' -> printed_alike m m'.
Proof. intros E ext_text m m' I. exact (module_faithful ext_text I m m'). Qed.
Print Assumptions C54_module_faithful.

(** For modules that were read, with the built-in instruction set. *)
Theorem C54_accepted_faithful : forall data data' known known' m m',
  read_module data known = Ok m -> read_module data' known' = Ok m' ->
  (forall i, In i (RawModule_instructions m) \/ In i (RawModule_instructions m') -> single_line disp_Inst i) ->
  disp_RawModule disp_Inst m = disp_RawModule disp_Inst m' -> printed_alike m m'.
Proof. exact accepted_faithful. Qed.
Print Assumptions C54_accepted_faithful.

Example C54_example : (forall a b, disp_Inst a = disp_Inst b -> a = b) /\ forall o, read_module (sample_bytes o) [InstSet] = Ok sample.
Proof. split; [exact glsl_inj|exact sample_read]. Qed.

(** With line feeds in strings different modules can print the same text. *)
Theorem C54_line_feeds_refuted : exists m m' : RawModule Inst,
  disp_RawModule disp_Inst m = disp_RawModule disp_Inst m'
  /\ List.length (RawModule_instructions m) <> List.length (RawModule_instructions m').
Proof. exact line_feed_forgery. Qed.
Print Assumptions C54_line_feeds_refuted.

(** The number of an unregistered generator is not printed. *)
Theorem C54_unregistered_generator_refuted : forall n n' v bound (l : list (Core Inst)),
  disp_RawModule disp_Inst (Build_RawModule (Build_Version 1 0) (Build_Generator (Tool_Other n) v) bound l)
  = disp_RawModule disp_Inst (Build_RawModule (Build_Version 1 0) (Build_Generator (Tool_Other n') v) bound l).
Proof. exact unregistered_generator. Qed.
Print Assumptions C54_unregistered_generator_refuted.

(** ** C55 *)
Theorem C55_shortest_decimal : forall n,
  shortest_decimal (disp_u32 n) n /\ (forall s, shortest_decimal s n -> s = disp_u32 n) /\ disp_OpId n = "%" ++ disp_u32 n.
Proof. exact number_text. Qed.
Print Assumptions C55_shortest_decimal.
Theorem C55_distinct : forall n m, (disp_u32 n = disp_u32 m -> n = m) /\ (disp_OpId n = disp_OpId m -> n = m).
Proof. exact number_text_inj. Qed.
Print Assumptions C55_distinct.
Example C55_example : disp_u32 4294967295%N = "4294967295" /\ disp_OpId 0%N = "%0" /\ shortest_decimal "1070" 1070%N /\ ~ shortest_decimal "01070" 1070%N.
Proof. repeat split; try reflexivity; try discriminate; intros; try discriminate. intros (_ & _ & H). discriminate (H _ eq_refl). Qed.

(** ** C56 *)
Theorem C56_flags : (forall x, disp_FpFastMathMode x = mask_text fp_fast_math_flags (fp_fast_math_bits x))
  /\ (forall x, disp_MemoryAccess x = mask_text memory_access_flags (memory_access_bits x))
  /\ (forall x, disp_FunctionControl x = mask_text function_control_flags (function_control_bits x))
  /\ (forall x, disp_SelectionControl x = mask_text selection_control_flags (selection_control_bits x))
  /\ (forall x, disp_LoopControl x = mask_text (loop_flags (LoopControl_dependency_length x)) (loop_control_bits x)).
Proof. exact flags_text. Qed.
Print Assumptions C56_flags.
Theorem C56_none : (forall x, disp_FpFastMathMode x = "None" <-> fp_fast_math_bits x = 0%N)
  /\ (forall x, disp_MemoryAccess x = "None" <-> memory_access_bits x = 0%N)
  /\ (forall x, disp_FunctionControl x = "None" <-> function_control_bits x = 0%N)
  /\ (forall x, disp_SelectionControl x = "None" <-> selection_control_bits x = 0%N)
  /\ (forall x, disp_LoopControl x = "None" <-> loop_control_bits x = 0%N).
Proof. exact flags_none. Qed.
Print Assumptions C56_none.
Theorem C56_distinct : (forall x y, disp_FpFastMathMode x = disp_FpFastMathMode y -> x = y)
  /\ (forall x y, disp_MemoryAccess x = disp_MemoryAccess y -> x = y)
  /\ (forall x y, disp_FunctionControl x = disp_FunctionControl y -> x = y)
  /\ (forall x y, disp_SelectionControl x = disp_SelectionControl y -> x = y)
  /\ (forall x y, disp_LoopControl x = disp_LoopControl y -> x = y).
Proof. exact flags_distinct. Qed.
Print Assumptions C56_distinct.
Example C56_example : disp_LoopControl (Build_LoopControl true false false (Some 7%N)) = "Unroll | DependencyLength(7)"
  /\ disp_MemoryAccess (Build_MemoryAccess true false true) = "Volatile | Nontemporal".
Proof. vm_compute. split; reflexivity. Qed.

(** ** C57 *)
Theorem C57_nesting : forall c, brace_depth 0 (disp_ControlFlowChain c) = Some 0 /\ nested 0 (lines (disp_ControlFlowChain c)).
Proof. exact chain_nesting. Qed.
Print Assumptions C57_nesting.
Example C57_example : ~ nested 0 ["selection %1 {"; "%2"; "}"] /\ ~ nested 0 ["selection %1 {"] /\ brace_depth 0 "}{" = None.
Proof.
  split; [|split; [|reflexivity]].
  - intros (o & b & C & L & B & N). destruct b as [|x b]; [destruct o; discriminate L|]. destruct o; [|destruct (B "electio"); discriminate L].
    cbn in L. injection L as <- <-. cbn in C, N. destruct N as (o' & b' & C' & L' & B' & _). destruct b' as [|x' b'].
    + cbn in C'. subst o'. discriminate L'.
    + destruct o' as [|o']; [|discriminate L']. cbn in L'. injection L' as <- <-. discriminate C'.
  - intros (o & b & C & L & B & N). destruct b as [|x b]; [destruct o; discriminate L|]. destruct o; [|discriminate L].
    cbn in L. injection L as <- <-. discriminate N.
Qed.

(** ** C58 *)
Theorem C58_faithful : forall E E' (f : FunctionDefinition E) (f' : FunctionDefinition E') depth depth' c c',
  find_control_flow depth f = Ok c -> find_control_flow depth' f' = Ok c' ->
  disp_ControlFlowChain c = disp_ControlFlowChain c' -> c = c'.
Proof. exact chain_text_faithful. Qed.
Print Assumptions C58_faithful.
(** For any two chains, up to sequencing blocks. *)
Theorem C58_steps : forall c c', disp_ControlFlowChain c = disp_ControlFlowChain c' -> steps c = steps c'.
Proof. exact chain_text_steps. Qed.
Print Assumptions C58_steps.
Example C58_example : find_control_flow 20 loop_function = Ok loop_chain
  /\ disp_ControlFlowChain (Block [Atom 1%N]) = disp_ControlFlowChain (Atom 1%N).
Proof. vm_compute. split; reflexivity. Qed.

(** ** C59 *)
Theorem C59_built_in_set : forall o data known m (t r set number : N) (words : list N),
  in_order o data -> read_module data known = Ok m ->
  set_named known "GLSL.std.450" (duplicate InstSet) ->
  In (Core_OpExtInstImport (Build_OpExtInstImport set "GLSL.std.450")) (RawModule_instructions m) ->
  Forall word (t :: r :: set :: number :: words) -> (5 + N.of_nat (List.length words) < 65536)%N ->
  read_module (data ++ bytes_of_words o (instruction_words 12 (t :: r :: set :: number :: words)))%list known
    = if ((number =? 13) || (number =? 14))%N then
        match words with
        | [] => Err UnexpectedEndOfInstruction
        | [x] => Ok (Build_RawModule (RawModule_version m) (RawModule_generator m) (RawModule_bound m)
                  (RawModule_instructions m
                   ++ [Core_OpExtInst (Build_OpExtInst t r set (if number =? 13 then Inst_Sin (Build_Sin x) else Inst_Cos (Build_Cos x)))])%N%list)
        | _ => Err InstructionHadExcessData
        end
      else Err (UnknownExtInstOp "GLSL.std.450" number).
Proof. exact glsl_exact. Qed.
Print Assumptions C59_built_in_set.
(** The op of an instruction that was read has the name the GLSL.std.450 specification gives its number, and its text and
    that of the instruction are that name and the operand. *)
Theorem C59_op : forall number words rest i, duplicate InstSet number words = Ok (rest, i) ->
  exists x, words = x :: rest /\ In (number, Op_get_name (get_op i)) glsl_names
    /\ Op_text (get_op i) = Op_get_name (get_op i) ++ " %" ++ decimal x /\ disp_Inst i = Op_text (get_op i).
Proof. exact glsl_op. Qed.
Print Assumptions C59_op.
Example C59_example : forall o, in_order o (sample_bytes o) /\ read_module (sample_bytes o) [InstSet] = Ok sample
  /\ set_named [InstSet] "GLSL.std.450" (duplicate InstSet)
  /\ In (Core_OpExtInstImport (Build_OpExtInstImport 1%N "GLSL.std.450")) (RawModule_instructions sample)
  /\ duplicate InstSet 14%N [8%N; 9%N] = Ok ([9%N], Inst_Cos (Build_Cos 8%N)).
Proof.
  intro o. split; [apply sample_in_order|]. split; [apply sample_read|]. split; [|split; [right; left; reflexivity|reflexivity]].
  exists [], InstSet, []. repeat split. constructor.
Qed.

(** ** C60 *)
Theorem C60_function_printer : forall E (ext_text : E -> string) (f : FunctionDefinition E) c,
  ((forall id, In id (chain_ids c) -> count_occ N.eq_dec (labels f) id = 1) ->
     exists text, disp_ControlFlowFunctionPrinter ext_text f c = Ok text
     /\ ((forall b g, In b (FunctionDefinition_blocks f) -> In g (BasicBlock_code b) -> ~ contains line_feed (disp_Core ext_text (core_of_code g))) ->
         lines text = function_lines (disp_Core ext_text) f 0 c))
  /\ ((exists id, In id (chain_ids c) /\ count_occ N.eq_dec (labels f) id <> 1) -> disp_ControlFlowFunctionPrinter ext_text f c = Panic).
Proof. intros E ext_text f c. exact (printer_exact ext_text f c). Qed.
Print Assumptions C60_function_printer.
(** Whatever the strings contain, the text is those lines, each ended by a line feed. *)
Theorem C60_text : forall E (ext_text : E -> string) (f : FunctionDefinition E) c,
  disp_ControlFlowFunctionPrinter ext_text f c = Ok (page (function_lines (disp_Core ext_text) f 0 c))
  <-> (forall id, In id (chain_ids c) -> count_occ N.eq_dec (labels f) id = 1).
Proof. intros E ext_text f c. exact (printer_page ext_text f c). Qed.
Print Assumptions C60_text.
Example C60_example : (forall id, In id (chain_ids loop_chain) -> count_occ N.eq_dec (labels loop_function) id = 1)
  /\ (forall b g, In b (FunctionDefinition_blocks loop_function) -> In g (BasicBlock_code b) -> ~ contains line_feed (disp_Core disp_Inst (core_of_code g))).
Proof.
  split.
  - intros id I. vm_compute in I. repeat (destruct I as [<-|I]; [vm_compute; reflexivity|]). contradiction I.
  - intros b g B. cbn in B. repeat (destruct B as [<-|B]; [intros []|]). contradiction B.
Qed.

(** ** C62 *)
Theorem C62_line : forall E (ext_text : E -> string) (i : Core E), canonical i -> result_fits i ->
  instruction_line ext_text i (disp_Core ext_text i).
Proof. intros E ext_text i. exact (line_exact ext_text i). Qed.
Print Assumptions C62_line.
(** The hypotheses hold of every instruction that was read. *)
Theorem C62_accepted : forall E data (known : list (ExtInstSet E)) m i, read_module data known = Ok m -> In i (RawModule_instructions m) ->
  result_fits i /\ canonical i.
Proof. exact accepted_fits. Qed.
Print Assumptions C62_accepted.
Example C62_example : forall o, read_module (sample_bytes o) [InstSet] = Ok sample.
Proof. exact sample_read. Qed.

(** ** C63 *)
Theorem C63_names :
  printed_by_name disp_ExecutionModel execution_model_number execution_models
  /\ printed_by_name disp_AddressingModel addressing_model_number addressing_models
  /\ printed_by_name disp_MemoryModel memory_model_number memory_models
  /\ printed_by_name disp_StorageClass storage_class_number storage_classes
  /\ printed_by_name disp_Dim dim_number dims
  /\ printed_by_name disp_ImageFormat image_format_number image_formats
  /\ printed_by_name disp_FpRoundingMode fp_rounding_mode_number fp_rounding_modes
  /\ printed_by_name disp_LinkageType linkage_type_number linkage_types
  /\ printed_by_name disp_AccessQualifier access_qualifier_number access_qualifiers
  /\ printed_by_name disp_FunctionParameterAttribute function_parameter_attribute_number function_parameter_attributes
  /\ printed_by_name disp_BuiltIn built_in_number built_ins
  /\ printed_by_name disp_Capability capability_number capabilities.
Proof. exact all_named. Qed.
Print Assumptions C63_names.
Theorem C63_names_with_operands :
  (forall x, exists n rest name more, execution_mode_operands x = OWord n :: rest /\ lookup execution_modes n = Some name
     /\ disp_ExecutionMode x = spelling name ++ more /\ (more = "" \/ exists s, more = " " ++ s))
  /\ (forall x, exists n rest name more, decoration_operands x = OWord n :: rest /\ lookup decorations n = Some name
     /\ disp_Decoration x = spelling name ++ more /\ (more = "" \/ exists s, more = " " ++ s)).
Proof. exact (conj named_execution_mode named_decoration). Qed.
Print Assumptions C63_names_with_operands.
(** The names the crate spells differently. *)
Theorem C63_respelled : forall name, spelling name <> name <->
  In name ["TessellationControl"; "TessellationEvaluation"; "OutputVertices"; "PatchVertices"; "FPRoundingMode"; "FPFastMathMode"].
Proof. exact respelled_exactly. Qed.
Print Assumptions C63_respelled.
Example C63_example : disp_ExecutionModel ExecutionModel_GlCompute = "GLCompute" /\ lookup execution_models 5%N = Some "GLCompute".
Proof. vm_compute. split; reflexivity. Qed.

(** ** C64 *)
Theorem C64_chain_lines : forall c, lines (disp_ControlFlowChain c) = chain_lines 0 c.
Proof. exact chain_exact. Qed.
Print Assumptions C64_chain_lines.
Theorem C64_text : forall c, disp_ControlFlowChain c = page (chain_lines 0 c).
Proof. exact chain_page. Qed.
Print Assumptions C64_text.
Example C64_example : chain_lines 0 loop_chain = lines (disp_ControlFlowChain loop_chain) /\ 5 <= List.length (chain_lines 0 loop_chain).
Proof. vm_compute. split; [reflexivity|]. repeat constructor. Qed.
