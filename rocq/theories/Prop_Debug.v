(** Property theorems about the Debug format, C88 and C89.  The vocabulary of the statements is in Spec_Debug; [e] is
    the table of printable characters of the standard library in use, [ext] is the Debug of the extended instructions. *)
From Coq Require Import Lia.
From Verif Require Import Base Types Ops ReadErr Groups Validate ControlFlow Glsl450 EqBase Equality EqMore DebugBase Debug DebugMore
  Spec_Unicode Spec_Wire Spec_Names Spec_Opcodes Spec_Text Spec_Debug
  Spec_Writer Spec_Shown Spec_ShownResults Samples Samples_Equality Proofs_Equality Proofs_Debug Proofs_Debug2 Proofs_Debug3 Proofs_Shown Proofs_ShownResults.

(** ** C88 *)
Theorem C88_modules : forall E e (ext : E -> string), unambiguous ext ->
  (forall a b : RawModule E, debug_text e ext (dbg_RawModule a) = debug_text e ext (dbg_RawModule b) <-> a = b)
  /\ (forall a b : LogicalModule E, debug_text e ext (dbg_LogicalModule a) = debug_text e ext (dbg_LogicalModule b) <-> a = b)
  /\ (forall a b : FunctionDefinition E, debug_text e ext (dbg_FunctionDefinition a) = debug_text e ext (dbg_FunctionDefinition b) <-> a = b)
  /\ (forall a b : Core E, debug_text e ext (dbg_Core a) = debug_text e ext (dbg_Core b) <-> a = b).
Proof.
  intros E e ext U.
  exact (conj (shown_exact _ _ e ext U) (conj (shown_exact _ _ e ext U) (conj (shown_exact _ _ e ext U) (shown_exact _ _ e ext U)))).
Qed.
Print Assumptions C88_modules.

Theorem C88_results : forall e,
  (forall a b : ReadError, debug_text e no_ext (dbg_ReadError a) = debug_text e no_ext (dbg_ReadError b) <-> a = b)
  /\ (forall a b : ValidationError, debug_text e no_ext (dbg_ValidationError a) = debug_text e no_ext (dbg_ValidationError b) <-> a = b)
  /\ (forall a b : ControlFlowError, debug_text e no_ext (dbg_ControlFlowError a) = debug_text e no_ext (dbg_ControlFlowError b) <-> a = b)
  /\ (forall a b : ControlFlowChain, debug_text e no_ext (dbg_ControlFlowChain a) = debug_text e no_ext (dbg_ControlFlowChain b) <-> a = b).
Proof.
  intros e. pose proof no_ext_unambiguous as U.
  exact (conj (shown_exact _ _ e no_ext U) (conj (shown_exact _ _ e no_ext U) (conj (shown_exact _ _ e no_ext U) (shown_exact _ _ e no_ext U)))).
Qed.
Print Assumptions C88_results.

(** The instructions of GLSL.std.450 meet the hypothesis. *)
Theorem C88_glsl : forall e, unambiguous (fun i => debug_text e no_ext (dbg_Inst i)).
Proof. intros e. exact (glsl_unambiguous e). Qed.
Print Assumptions C88_glsl.

(** Without it, two modules can look alike. *)
Theorem C88_user_text_refuted : exists E e (ext : E -> string) (a b : RawModule E),
  a <> b /\ debug_text e ext (dbg_RawModule a) = debug_text e ext (dbg_RawModule b).
Proof.
  exists N, (Build_escapes (fun _ => true) false false), parity_text, (called 0%N 3%N), (called 0%N 5%N).
  split; [discriminate|vm_compute; reflexivity].
Qed.
Print Assumptions C88_user_text_refuted.

Example C88_example : forall e, let ext := fun i => debug_text e no_ext (dbg_Inst i) in
  unambiguous ext
  /\ debug_text e ext (dbg_RawModule (called 0%N (Inst_Sin (Build_Sin 7%N)))) <> debug_text e ext (dbg_RawModule (called 0%N (Inst_Cos (Build_Cos 7%N))))
  /\ debug_text e no_ext (dbg_ReadError (UnknownOp 34%N 2%N)) = "UnknownOp(34, 2)"%string
  /\ debug_text e no_ext (dbg_ControlFlowChain (Block [Atom 1%N; Break])) = "Block([Atom(BlockId(1)), Break])"%string.
Proof.
  intros e ext. split; [exact (glsl_unambiguous e)|]. split; [|split; reflexivity].
  intros H. apply (C88_modules _ e ext (glsl_unambiguous e)) in H. discriminate H.
Qed.

(** ** C89 *)
Theorem C89_string : forall e s text, Forall scalar text -> bytes_of_string s = utf8 text ->
  exists body, dbg_str e s = ("""" ++ body ++ """")%string /\ spells (fun c => printable e c = true) body text.
Proof. intros e s text F B. exact (string_literal e s text F B). Qed.
Print Assumptions C89_string.

(** A literal denotes one text. *)
Theorem C89_string_exact : forall e s t, dbg_str e s = dbg_str e t <-> s = t.
Proof. intros e s t. exact (string_exact e s t). Qed.
Print Assumptions C89_string_exact.

Theorem C89_instruction : forall E (i : Core E), canonical i -> exists name fields,
  opcode_name (opcode i) = Some name
  /\ dbg_Core i = DTuple name [match fields with [] => DName name | _ => DStruct name fields end]
  /\ map fst fields = field_names (opcode i)
  /\ flat_map (fun f => leaves (snd f)) fields = (let (ks, rest) := all_kinds (opcode i) in unnamed ks rest (operands i)).
Proof. intros E i C. exact (instruction_shown i C). Qed.
Print Assumptions C89_instruction.

(** The whole text, from the tables of the standard: which ids are shown as results, the names of enumerants, the flags... *)
Theorem C89_instruction_exact : forall E (i : Core E), canonical i -> dbg_Core i = show_instruction i.
Proof. intros E i C. exact (instruction_shown_exactly i C). Qed.
Print Assumptions C89_instruction_exact.

(** A raw module shows its header and its instructions. *)
Theorem C89_module : forall E (m : RawModule E), Forall canonical (RawModule_instructions m) ->
  match Generator_tool (RawModule_generator m) with Tool_Other n => (12 <= n)%N | _ => True end ->
  dbg_RawModule m = DStruct "RawModule"
    [("version", DTuple "Version" [DNumber (Version_0 (RawModule_version m)); DNumber (Version_1 (RawModule_version m))]);
     ("generator", DStruct "Generator" [("tool", show_one (OtherNamed tools) (OWord (tool_number (Generator_tool (RawModule_generator m)))));
                                        ("version", DNumber (Generator_version (RawModule_generator m)))]);
     ("bound", DNumber (RawModule_bound m));
     ("instructions", DList (map show_instruction (RawModule_instructions m)))]%string.
Proof. intros E m C T. exact (module_shown m C T). Qed.
Print Assumptions C89_module.

(** A logical module shows the structures that the instructions it stands for show, in the same order. *)
Theorem C89_logical_module : forall E (lm : LogicalModule E), exists rest,
  dbg_LogicalModule lm = DStruct "LogicalModule"
    (("capabilities"%string, DList (map (fun c => Spec_Shown.named capabilities (capability_number c)) (LogicalModule_capabilities lm)))
     :: ("extensions"%string, DList (map DString (LogicalModule_extensions lm))) :: rest)
  /\ map fst rest = ["ext_inst_imports"; "memory_model"; "entry_points"; "execution_modes"; "debug"; "annotations"; "globals";
       "function_declarations"; "function_definitions"]%string
  /\ flat_map (fun f => structures (snd f)) rest
     = flat_map (fun i => structures (dbg_Core i)) (filter whole (Spec_Layout.write_module lm)).
Proof. intros E lm. exact (logical_shown lm). Qed.
Print Assumptions C89_logical_module.

(** The sample of a shader meets the conditions, and so does the module it is validated to. *)
Example C89_module_example : Forall canonical (RawModule_instructions sample)
  /\ show_instruction (E := Inst) (Core_OpDecorate (Build_OpDecorate 9%N (Decoration_BuiltIn BuiltIn_PatchVerticies)))
     = DTuple "OpDecorate" [DStruct "OpDecorate" [("target", DTuple "OpId" [DNumber 9%N]);
         ("decoration", DTuple "BuiltIn" [DName "PatchVerticies"])]]%string
  /\ (exists lm, validate sample = Ok lm /\ length (flat_map structures [dbg_LogicalModule lm]) = 12).
Proof.
  split; [repeat constructor|]. split; [reflexivity|]. eexists. split; vm_compute; reflexivity.
Qed.

(** Errors show their case and payload, chains their whole structure, the instructions of GLSL.std.450 their operand. *)
Theorem C89_results : forall e E (ext : E -> string),
  (forall x, exists name, nth_error error_names (error_kind x) = Some name
     /\ debug_text e ext (dbg_ReadError x) = case_text name (payload (dbg_str e) x))
  /\ (forall x, debug_text e ext (dbg_ValidationError x) = validation_error_text x)
  /\ (forall x, debug_text e ext (dbg_ControlFlowError x) = flow_error_text x)
  /\ (forall c, debug_text e ext (dbg_ControlFlowChain c) = chain_text c)
  /\ (forall id, debug_text e ext (dbg_Inst (Inst_Sin (Build_Sin id))) = "Sin(Sin { x: OpId(" ++ decimal id ++ ") })"
       /\ debug_text e ext (dbg_Inst (Inst_Cos (Build_Cos id))) = "Cos(Cos { x: OpId(" ++ decimal id ++ ") })")%string.
Proof.
  intros e E ext.
  exact (conj (read_error_text e ext) (conj (validation_error_shown e ext) (conj (flow_error_shown e ext)
    (conj (chain_shown e ext) (glsl_shown e ext))))).
Qed.
Print Assumptions C89_results.

Local Open Scope string_scope.
Example C89_results_example : let e := Build_escapes (fun c => N.leb 32 c && N.leb c 126)%bool true false in
  case_text "UnknownExtInstOp" (payload (dbg_str e) (UnknownExtInstOp "GLSL" 99%N)) = "UnknownExtInstOp(""GLSL"", 99)"
  /\ flow_error_text (InvalidConvergePrediction ControlType_Loop 4%N) = "InvalidConvergePrediction(Loop, BlockId(4))"
  /\ chain_text (Block [Selection 1%N (Atom 2%N) Break (Build_SelectionControl true false) None; Continue])
     = "Block([Selection(BlockId(1), Atom(BlockId(2)), Break, SelectionControl { flatten: true, dont_flatten: false }, None), Continue])".
Proof. repeat split; vm_compute; reflexivity. Qed.
Example C89_example : let e := Build_escapes (fun c => N.leb 32 c && N.leb c 126)%bool true false in
  debug_text e no_ext (dbg_Core (Core_OpName (Build_OpName 5%N (String (ascii_of_N 10) "a""b'")))) =
    "OpName(OpName { target: OpId(5), name: ""\na\""b\'"" })"
  /\ debug_text e no_ext (dbg_Core (Core_OpLoad (Build_OpLoad 1%N 2%N 3%N (Some (Build_MemoryAccess true false false))))) =
    "OpLoad(OpLoad { result_type: OpId(1), result_id: ResultId(2), pointer: OpId(3), memory_access: Some(MemoryAccess { volatile: true, aligned: false, non_temporal: false }) })"
  /\ dbg_str e (string_of_list_ascii (map ascii_of_N (utf8 [233%N; 8364%N; 9%N]))) = """\u{e9}\u{20ac}\t"""
  /\ debug_text e no_ext (dbg_Core (Core_OpReturn Build_OpReturn)) = "OpReturn(OpReturn)".
Proof. repeat split; vm_compute; reflexivity. Qed.
