(** The Debug format, continued, C89. *)
From Coq Require Import Lia.
From Verif Require Import Base Types Ops ReadErr Groups Spec_Layout EqBase DebugBase Debug DebugMore
  Spec_Unicode Spec_Tables Spec_Wire Spec_Names Spec_Opcodes Spec_Text Spec_Debug Spec_Shown.
Local Open Scope string_scope.

Lemma shown_words : forall {E} s (f : N -> dtree E) l, (forall n, show_one s (OWord n) = f n) -> map (show_one s) (many num l) = map f l.
Proof. intros E s f l H. induction l as [|x l IH]; [reflexivity|]. cbn [many flat_map num app map]. rewrite H. f_equal. exact IH. Qed.
Lemma shown_pairs : forall {E} l, show_pairs (E := E) "PhiArg" "variable" "parent" (Wrapped "OpId") (many (fun a => num (PhiArg_variable a) ++ num (PhiArg_parent a))%list l) = map dbg_PhiArg l.
Proof. induction l as [|x l IH]; [reflexivity|]. cbn [map]. rewrite <- IH. reflexivity. Qed.

Lemma name_of_other : forall n, (5 <= n)%N -> name_in source_languages n = None.
Proof.
  intros n H. cbn [name_in source_languages]. repeat match goal with |- context [N.eqb n ?k] => destruct (N.eqb_spec n k); [lia|] end. reflexivity.
Qed.

Lemma source_shown : forall {E} x, canonical (Core_OpSource (E := E) x) -> dbg_Core (Core_OpSource (E := E) x) = show_instruction (Core_OpSource x).
Proof.
  intros E [l v f s] [C0 C]. cbn in C0, C.
  assert (show_one (E := E) (OtherNamed source_languages) (OWord (source_language_number l)) = dbg_SourceLanguage l) as L.
  { destruct l; try reflexivity. cbn -[name_in]. rewrite name_of_other by exact C. reflexivity. }
  unfold show_instruction. destruct f as [f|]; [|rewrite (C0 eq_refl)]; cbn -[show_one source_languages]; rewrite L; [destruct s|]; reflexivity.
Qed.
Lemma instruction_shown_exactly : forall {E} (i : Core E), canonical i -> dbg_Core i = show_instruction i.
Proof.
  intros E i C. destruct i as [x|x|x|x|x|x|x|x|x|x|x|x|x|x|x|x|x|x|x|x|x|x|x|x|x|x|x|x|x|x|x|x|x|x|x|x|x|x|x|x|x|x|x|x|x|x|x|x|x|x|x|x|x|x|x|x|x|x|x|x|x|x|x|x|x|x|x|x|x|x|x|x|x|x|x|x|x|x|x|x|x|x|x|x|x|x|x|x|x|x|x|x|x|x|x|x|x|x]; destruct x.
  all: try reflexivity.
  all: try match goal with |- dbg_Core (Core_OpSource ?x) = _ => exact (source_shown x C) end.
  all: repeat match goal with x : option MemoryAccess |- _ => destruct x | x : option AccessQualifier |- _ => destruct x | x : option BranchWeights |- _ => destruct x
    | x : option OpId |- _ => destruct x | x : option string |- _ => destruct x | x : BranchWeights |- _ => destruct x end; try reflexivity.
  all: try match goal with x : AddressingModel, y : MemoryModel |- _ => destruct x, y; reflexivity end.
  all: try match goal with x : Capability |- _ => destruct x; reflexivity end.
  all: try match goal with x : StorageClass |- _ => destruct x; reflexivity end.
  all: try match goal with x : Signedness |- _ => destruct x; reflexivity end.
  all: try match goal with x : ExecutionMode |- _ => destruct x; reflexivity end.
  all: try match goal with x : MemoryAccess |- _ => destruct x as [[] [] []]; reflexivity end.
  all: try match goal with x : FunctionControl |- _ => destruct x as [[] [] [] []]; reflexivity end.
  all: try match goal with x : SelectionControl |- _ => destruct x as [[] []]; reflexivity end.
  all: try match goal with x : LoopControl |- _ => destruct x as [[] [] [] [n|]]; reflexivity end.
  all: try match goal with x : Decoration |- _ => destruct x; try reflexivity;
    repeat match goal with x : BuiltIn |- _ => destruct x | x : FunctionParameterAttribute |- _ => destruct x | x : FpRoundingMode |- _ => destruct x
      | x : FpFastMathMode |- _ => destruct x as [[] [] [] [] []] | x : LinkageType |- _ => destruct x end; reflexivity end.
  all: try match goal with |- dbg_Core (Core_OpSource ?x) = _ => exact (source_shown x C) end.
  all: try match goal with d : Dim, dp : DepthStatus, a : Arrayed, m : MS, p : SampledStatus, f : ImageFormat |- _ =>
    unfold show_instruction, dbg_Core, dbg_OpTypeImage; cbn -[named];
    replace (named (E := E) dims (dim_number d)) with (dbg_Dim (E := E) d) by (destruct d; reflexivity);
    replace (named (E := E) depths (depth_number dp)) with (dbg_DepthStatus (E := E) dp) by (destruct dp; reflexivity);
    replace (named (E := E) arrayednesses (arrayed_number a)) with (dbg_Arrayed (E := E) a) by (destruct a; reflexivity);
    replace (named (E := E) multisamplings (ms_number m)) with (dbg_MS (E := E) m) by (destruct m; reflexivity);
    replace (named (E := E) samplings (sampled_number p)) with (dbg_SampledStatus (E := E) p) by (destruct p; reflexivity);
    replace (named (E := E) image_formats (image_format_number f)) with (dbg_ImageFormat (E := E) f) by (destruct f; reflexivity) end.
  all: try reflexivity.
  all: try match goal with q : AccessQualifier |- _ => destruct q; reflexivity end.
  all: try match goal with x : ExecutionModel |- _ => destruct x end.
  all: unfold show_instruction; cbn -[named show_one show_pairs many].
  all: rewrite ?(shown_words _ DNumber), ?(shown_words _ dbg_OpId), ?shown_pairs by reflexivity; try reflexivity.
Qed.
Lemma tool_shown : forall {E} t, match t with Tool_Other n => (12 <= n)%N | _ => True end ->
  dbg_Tool (E := E) t = show_one (OtherNamed tools) (OWord (tool_number t)).
Proof.
  intros E t H. destruct t; try reflexivity. cbn [show_one tool_number]. replace (name_in tools n) with (@None string); [reflexivity|].
  cbn [name_in tools]. repeat match goal with |- context [N.eqb n ?k] => destruct (N.eqb_spec n k); [lia|] end. reflexivity.
Qed.
Lemma module_shown : forall {E} (m : RawModule E), Forall Spec_Text.canonical (RawModule_instructions m) ->
  match Generator_tool (RawModule_generator m) with Tool_Other n => (12 <= n)%N | _ => True end ->
  dbg_RawModule m = DStruct "RawModule"
    [("version", DTuple "Version" [DNumber (Version_0 (RawModule_version m)); DNumber (Version_1 (RawModule_version m))]);
     ("generator", DStruct "Generator" [("tool", show_one (OtherNamed tools) (OWord (tool_number (Generator_tool (RawModule_generator m)))));
                                        ("version", DNumber (Generator_version (RawModule_generator m)))]);
     ("bound", DNumber (RawModule_bound m));
     ("instructions", DList (map show_instruction (RawModule_instructions m)))].
Proof.
  intros E m C T. rewrite <- (tool_shown _ T). unfold dbg_RawModule, dbg_Version, dbg_Generator, dbg_Vec.
  replace (map show_instruction (RawModule_instructions m)) with (map dbg_Core (RawModule_instructions m)); [reflexivity|].
  induction C as [|i l C _ IH]; [reflexivity|]. cbn [map]. rewrite IH, (instruction_shown_exactly i C). reflexivity.
Qed.

Lemma structures_vec : forall {E A} (f : A -> dtree E) (g : A -> Core E) l, (forall x, structures (f x) = structures (dbg_Core (g x))) -> (forall x, whole (g x) = true) ->
  structures (dbg_Vec f l) = flat_map (fun i => structures (dbg_Core i)) (filter whole (map g l)).
Proof.
  intros E A f g l H W. unfold dbg_Vec. cbn [structures]. induction l as [|x l IH]; [reflexivity|]. cbn [map flat_map filter]. rewrite W, H, IH. reflexivity.
Qed.
Lemma structures_none : forall {E A} (f : A -> dtree E) l, (forall x, structures (f x) = []) -> structures (dbg_Vec f l) = [].
Proof. intros E A f l H. unfold dbg_Vec. cbn [structures]. induction l as [|x l IH]; [reflexivity|]. cbn [map flat_map]. rewrite H, IH. reflexivity. Qed.
Lemma filter_none : forall {E A} (g : A -> Core E) l, (forall x, whole (g x) = false) -> filter whole (map g l) = [].
Proof. intros E A g l H. induction l as [|x l IH]; [reflexivity|]. cbn [map filter]. rewrite H. exact IH. Qed.
Lemma structures_groups : forall {E A} (f : A -> dtree E) (g : A -> list (Core E)) l,
  (forall x, structures (f x) = flat_map (fun i => structures (dbg_Core i)) (filter whole (g x))) ->
  structures (dbg_Vec f l) = flat_map (fun i => structures (dbg_Core i)) (filter whole (flat_map g l)).
Proof.
  intros E A f g l H. unfold dbg_Vec. cbn [structures]. induction l as [|x l IH]; [reflexivity|]. cbn [map flat_map].
  rewrite filter_app, flat_map_app, H, IH. reflexivity.
Qed.
Lemma code_structures : forall {E} (g : GroupCode E), dbg_GroupCode g = dbg_Core (core_of_code g) /\ whole (core_of_code g) = true.
Proof. intros E g. destruct g; split; reflexivity. Qed.
Lemma global_structures : forall {E} (g : GroupGlobal), structures (dbg_GroupGlobal g) = structures (dbg_Core (core_of_global (E := E) g)) /\ whole (core_of_global (E := E) g) = true.
Proof. intros E g. destruct g as [g|g|x]; try (split; reflexivity); destruct g; split; reflexivity. Qed.
Lemma debug_structures : forall {E} (g : GroupDebug), dbg_GroupDebug g = dbg_Core (core_of_debug (E := E) g) /\ whole (core_of_debug (E := E) g) = true.
Proof. intros E g. destruct g; split; reflexivity. Qed.
Lemma annotation_structures : forall {E} (g : GroupAnnotation), dbg_GroupAnnotation g = dbg_Core (core_of_annotation (E := E) g) /\ whole (core_of_annotation (E := E) g) = true.
Proof. intros E g. destruct g; split; reflexivity. Qed.
Lemma merge_structures : forall {E} (g : GroupMerge), dbg_GroupMerge g = dbg_Core (core_of_merge (E := E) g) /\ whole (core_of_merge (E := E) g) = true.
Proof. intros E g. destruct g; split; reflexivity. Qed.
Lemma branch_structures : forall {E} (g : GroupBranch), dbg_GroupBranch g = dbg_Core (core_of_branch (E := E) g) /\ whole (core_of_branch (E := E) g) = true.
Proof. intros E g. destruct g; split; reflexivity. Qed.

Lemma block_structures : forall {E} (b : BasicBlock E), structures (dbg_BasicBlock b) = flat_map (fun i => structures (dbg_Core i)) (filter whole (write_block b)).
Proof.
  intros E [lb code merge br]. unfold write_block, dbg_BasicBlock. cbn [BasicBlock_label BasicBlock_code BasicBlock_merge BasicBlock_branch].
  rewrite app_comm_cons, !filter_app, !flat_map_app.
  transitivity (structures (dbg_OpLabel lb) ++ structures (dbg_Vec dbg_GroupCode code) ++ structures ((dbg_Option dbg_GroupMerge) merge) ++ structures (dbg_GroupBranch (E := E) br) ++ [])%list; [reflexivity|].
  rewrite (structures_vec dbg_GroupCode core_of_code code) by (intros x; first [apply code_structures | rewrite (proj1 (code_structures x)); reflexivity]).
  cbn [filter whole flat_map map]. rewrite (proj2 (branch_structures br)), (proj1 (branch_structures br)), app_nil_r. cbn [flat_map]. rewrite app_nil_r, <- app_assoc.
  f_equal. f_equal. f_equal. destruct merge as [g|]; [|reflexivity]. cbn [dbg_Option structures flat_map filter].
  rewrite (proj2 (merge_structures g)), (proj1 (merge_structures g)). reflexivity.
Qed.
Lemma declaration_structures : forall {E} (d : FunctionDeclaration), structures (dbg_FunctionDeclaration (E := E) d) = flat_map (fun i => structures (dbg_Core (E := E) i)) (filter whole (write_declaration d)).
Proof.
  intros E [f ps]. unfold write_declaration, dbg_FunctionDeclaration. cbn [FunctionDeclaration_function FunctionDeclaration_parameters].
  rewrite app_comm_cons, !filter_app, !flat_map_app.
  transitivity (structures (dbg_OpFunction (E := E) f) ++ structures (dbg_Vec (dbg_OpFunctionParameter (E := E)) ps) ++ [])%list; [reflexivity|].
  rewrite (structures_vec dbg_OpFunctionParameter Core_OpFunctionParameter ps) by reflexivity. cbn [filter whole flat_map map]. rewrite !app_nil_r. reflexivity.
Qed.
Lemma definition_structures : forall {E} (d : FunctionDefinition E), structures (dbg_FunctionDefinition d) = flat_map (fun i => structures (dbg_Core i)) (filter whole (write_definition d)).
Proof.
  intros E [f ps bs]. unfold write_definition, dbg_FunctionDefinition. cbn [FunctionDefinition_function FunctionDefinition_parameters FunctionDefinition_blocks].
  rewrite app_comm_cons, !filter_app, !flat_map_app.
  transitivity (structures (dbg_OpFunction (E := E) f) ++ structures (dbg_Vec (dbg_OpFunctionParameter (E := E)) ps) ++ structures (dbg_Vec dbg_BasicBlock bs) ++ [])%list; [reflexivity|].
  rewrite (structures_vec dbg_OpFunctionParameter Core_OpFunctionParameter ps) by reflexivity.
  rewrite (structures_groups dbg_BasicBlock write_block bs) by apply block_structures. cbn [filter whole flat_map map]. rewrite !app_nil_r. rewrite <- app_assoc. reflexivity.
Qed.
Lemma logical_shown : forall {E} (lm : LogicalModule E), exists rest,
  dbg_LogicalModule lm = DStruct "LogicalModule"
    (("capabilities", DList (map (fun c => named capabilities (capability_number c)) (LogicalModule_capabilities lm)))
     :: ("extensions", DList (map DString (LogicalModule_extensions lm))) :: rest)
  /\ map fst rest = ["ext_inst_imports"; "memory_model"; "entry_points"; "execution_modes"; "debug"; "annotations"; "globals";
       "function_declarations"; "function_definitions"]
  /\ flat_map (fun f => structures (snd f)) rest = flat_map (fun i => structures (dbg_Core i)) (filter whole (write_module lm)).
Proof.
  intros E lm. eexists. split; [|split].
  - unfold dbg_LogicalModule. f_equal. f_equal. f_equal. unfold dbg_Vec. f_equal. apply map_ext. intros c. destruct c; reflexivity.
  - reflexivity.
  - cbn [flat_map snd]. unfold write_module. rewrite !filter_app, !flat_map_app.
    rewrite !(filter_none _ _) by reflexivity. cbn [flat_map app].
    rewrite (structures_vec dbg_OpExtInstImport Core_OpExtInstImport) by reflexivity.
    rewrite (structures_vec dbg_OpEntryPoint Core_OpEntryPoint) by reflexivity.
    rewrite (structures_vec dbg_OpExecutionMode Core_OpExecutionMode) by reflexivity.
    rewrite (structures_vec dbg_GroupDebug core_of_debug) by (intros x; first [apply debug_structures | rewrite (proj1 (debug_structures x)); reflexivity]).
    rewrite (structures_vec dbg_GroupAnnotation core_of_annotation) by (intros x; first [apply annotation_structures | rewrite (proj1 (annotation_structures x)); reflexivity]).
    rewrite (structures_vec dbg_GroupGlobal core_of_global) by (intros x; first [apply global_structures | exact (proj1 (global_structures x))]).
    rewrite (structures_groups dbg_FunctionDeclaration write_declaration) by apply declaration_structures.
    rewrite (structures_groups dbg_FunctionDefinition write_definition) by apply definition_structures.
    rewrite !app_nil_r. reflexivity.
Qed.
