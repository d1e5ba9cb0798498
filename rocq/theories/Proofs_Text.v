(** Proofs about the printed text of instructions: numbers, enumerants, masks, lines. *)
From Coq Require Import DecimalString DecimalN DecimalNat DecimalFacts DecimalPos ZArith ZifyBool ZifyNat ZifyN.
From Verif Require Import Base Types Ops Groups Spec_Tables Spec_Opcodes Spec_Wire Spec_Names Spec_Text
  DisplayBase DisplayTypes DisplayOps DisplayModule.
Local Open Scope string_scope.
Ltac Zify.zify_post_hook ::= Z.div_mod_to_equations.

Ltac unfold_ops := unfold disp_OpNop, disp_OpUndef, disp_OpSourceContinued, disp_OpSource, disp_OpSourceExtension, disp_OpName, disp_OpMemberName, disp_OpString, disp_OpExtension, disp_OpExtInstImport, disp_OpExtInst, disp_OpMemoryModel, disp_OpEntryPoint, disp_OpExecutionMode, disp_OpCapability, disp_OpTypeVoid, disp_OpTypeBool, disp_OpTypeInt, disp_OpTypeFloat, disp_OpTypeVector, disp_OpTypeMatrix, disp_OpTypeImage, disp_OpTypeSampler, disp_OpTypeSampledImage, disp_OpTypeArray, disp_OpTypeRuntimeArray, disp_OpTypeStruct, disp_OpTypeOpaque, disp_OpTypePointer, disp_OpTypeFunction, disp_OpTypeEvent, disp_OpTypeDeviceEvent, disp_OpTypeQueue, disp_OpTypePipe, disp_OpTypeForwardPointer, disp_OpConstant, disp_OpConstantComposite, disp_OpFunction, disp_OpFunctionParameter, disp_OpFunctionEnd, disp_OpVariable, disp_OpLoad, disp_OpStore, disp_OpAccessChain, disp_OpDecorate, disp_OpMemberDecorate, disp_OpConvertUToF, disp_OpBitcast, disp_OpIAdd, disp_OpFAdd, disp_OpISub, disp_OpFSub, disp_OpIMul, disp_OpFMul, disp_OpUDiv, disp_OpSDiv, disp_OpFDiv, disp_OpUMod, disp_OpSRem, disp_OpSMod, disp_OpFRem, disp_OpFMod, disp_OpIAddCarry, disp_OpISubBorrow, disp_OpUMulExtended, disp_OpSMulExtended, disp_OpBitwiseOr, disp_OpBitwiseXor, disp_OpBitwiseAnd, disp_OpIEqual, disp_OpINotEqual, disp_OpUGreaterThan, disp_OpSGreaterThan, disp_OpUGreaterThanEqual, disp_OpSGreaterThanEqual, disp_OpULessThan, disp_OpSLessThan, disp_OpULessThanEqual, disp_OpSLessThanEqual, disp_OpFOrdEqual, disp_OpFUnordEqual, disp_OpFOrdNotEqual, disp_OpFUnordNotEqual, disp_OpFOrdLessThan, disp_OpFUnordLessThan, disp_OpFOrdGreaterThan, disp_OpFUnordGreaterThan, disp_OpFOrdLessThanEqual, disp_OpFUnordLessThanEqual, disp_OpFOrdGreaterThanEqual, disp_OpFUnordGreaterThanEqual, disp_OpPhi, disp_OpLoopMerge, disp_OpSelectionMerge, disp_OpLabel, disp_OpBranch, disp_OpBranchConditional, disp_OpReturn.

(** ** Strings *)
Lemma sapp_assoc : forall a b c : string, (a ++ b) ++ c = a ++ b ++ c.
Proof. induction a as [|x a IH]; intros b c; [reflexivity|]. cbn. rewrite IH. reflexivity. Qed.
Lemma sapp_nil : forall a : string, a ++ "" = a.
Proof. induction a as [|x a IH]; [reflexivity|]. cbn. rewrite IH. reflexivity. Qed.
Lemma slength_app : forall a b : string, String.length (a ++ b) = String.length a + String.length b.
Proof. induction a as [|x a IH]; intros b; [reflexivity|]. cbn. rewrite IH. reflexivity. Qed.
Lemma sapp_cancel : forall a b c : string, a ++ b = a ++ c -> b = c.
Proof. induction a as [|x a IH]; intros b c H; [exact H|]. injection H as H. auto. Qed.
Lemma sapp_same_length : forall a b c d : string, String.length a = String.length b -> a ++ c = b ++ d -> a = b /\ c = d.
Proof.
  induction a as [|x a IH]; intros [|y b] c d L H; try discriminate; [split; [reflexivity|exact H]|].
  injection H as -> H. injection L as L. destruct (IH b c d L H) as [-> ->]. split; reflexivity.
Qed.
Lemma contains_app : forall c a b, contains c (a ++ b) <-> contains c a \/ contains c b.
Proof. intros c a b. induction a as [|x a IH]; cbn; [tauto|]. rewrite IH. tauto. Qed.

Lemma contains_blanks : forall c n, c <> " "%char -> ~ contains c (blanks n).
Proof. intros c n H. induction n as [|n IH]; cbn; [tauto|]. intros [Q|Q]; [congruence|tauto]. Qed.
Lemma spaces_blanks : forall n, spaces n = blanks n.
Proof. induction n as [|n IH]; [reflexivity|]. cbn. rewrite IH. reflexivity. Qed.
Lemma blanks_length : forall n, String.length (blanks n) = n.
Proof. induction n as [|n IH]; [reflexivity|]. cbn. rewrite IH. reflexivity. Qed.

(** ** The enumerations *)
Lemma source_language_text : forall x,
  match x with SourceLanguage_Other n => (5 <= n)%N | _ => True end ->
  disp_SourceLanguage x = match lookup source_languages (source_language_number x) with
    Some name => name | None => "Unknown(" ++ decimal (source_language_number x) ++ ")" end.
Proof.
  intros [| | | | |n] H; try reflexivity. cbn [source_language_number disp_SourceLanguage].
  unfold lookup, source_languages. cbn [find fst].
  repeat match goal with |- context [N.eqb ?a n] => destruct (N.eqb_spec a n); [lia|] end. reflexivity.
Qed.
Lemma execution_model_text : forall x, disp_ExecutionModel x = name_in execution_models (execution_model_number x).
Proof. intros []; reflexivity. Qed.
Lemma addressing_model_text : forall x, disp_AddressingModel x = name_in addressing_models (addressing_model_number x).
Proof. intros []; reflexivity. Qed.
Lemma memory_model_text : forall x, disp_MemoryModel x = name_in memory_models (memory_model_number x).
Proof. intros []; reflexivity. Qed.
Lemma storage_class_text : forall x, disp_StorageClass x = name_in storage_classes (storage_class_number x).
Proof. intros []; reflexivity. Qed.
Lemma dim_text : forall x, disp_Dim x = name_in dims (dim_number x).
Proof. intros []; reflexivity. Qed.
Lemma image_format_text : forall x, disp_ImageFormat x = name_in image_formats (image_format_number x).
Proof. intros []; reflexivity. Qed.
Lemma fp_rounding_mode_text : forall x, disp_FpRoundingMode x = name_in fp_rounding_modes (fp_rounding_mode_number x).
Proof. intros []; reflexivity. Qed.
Lemma linkage_type_text : forall x, disp_LinkageType x = name_in linkage_types (linkage_type_number x).
Proof. intros []; reflexivity. Qed.
Lemma access_qualifier_text : forall x, disp_AccessQualifier x = name_in access_qualifiers (access_qualifier_number x).
Proof. intros []; reflexivity. Qed.
Lemma function_parameter_attribute_text : forall x,
  disp_FunctionParameterAttribute x = name_in function_parameter_attributes (function_parameter_attribute_number x).
Proof. intros []; reflexivity. Qed.
Lemma built_in_text : forall x, disp_BuiltIn x = name_in built_ins (built_in_number x).
Proof. intros []; reflexivity. Qed.
Lemma capability_text : forall x, disp_Capability x = name_in capabilities (capability_number x).
Proof. intros []; reflexivity. Qed.
Lemma signedness_text : forall x, disp_Signedness x = decimal (signedness_number x).
Proof. intros []; reflexivity. Qed.
Lemma depth_text : forall x, disp_DepthStatus x = decimal (depth_number x).
Proof. intros []; reflexivity. Qed.
Lemma arrayed_text : forall x, disp_Arrayed x = decimal (arrayed_number x).
Proof. intros []; reflexivity. Qed.
Lemma ms_text : forall x, disp_MS x = decimal (ms_number x).
Proof. intros []; reflexivity. Qed.
Lemma sampled_text : forall x, disp_SampledStatus x = decimal (sampled_number x).
Proof. intros []; reflexivity. Qed.

(** ** The masks *)
Lemma fp_fast_math_text : forall x, disp_FpFastMathMode x = mask_text fp_fast_math_flags (fp_fast_math_bits x).
Proof. intros [[] [] [] [] []]; reflexivity. Qed.
Lemma memory_access_text : forall x, disp_MemoryAccess x = mask_text memory_access_flags (memory_access_bits x).
Proof. intros [[] [] []]; reflexivity. Qed.
Lemma function_control_text : forall x, disp_FunctionControl x = mask_text function_control_flags (function_control_bits x).
Proof. intros [[] [] [] []]; reflexivity. Qed.
Lemma selection_control_text : forall x, disp_SelectionControl x = mask_text selection_control_flags (selection_control_bits x).
Proof. intros [[] []]; reflexivity. Qed.
Lemma loop_control_text : forall x, disp_LoopControl x = mask_text (loop_flags (LoopControl_dependency_length x)) (loop_control_bits x).
Proof. intros [[] [] [] [n|]]; reflexivity. Qed.

(** ** Operand lists *)
Lemma ids_text : forall l, format_arg_Vec disp_OpId l = spaced (render [] (Some Id) (many num l)).
Proof.
  induction l as [|x l IH]; [reflexivity|]. cbn [format_arg_Vec]. rewrite IH. unfold many, num. cbn [flat_map app render].
  reflexivity.
Qed.
Lemma numbers_text : forall l, format_arg_Vec disp_u32 l = spaced (render [] (Some Number) (many num l)).
Proof.
  induction l as [|x l IH]; [reflexivity|]. cbn [format_arg_Vec]. rewrite IH. unfold many, num. cbn [flat_map app render].
  reflexivity.
Qed.
Lemma phi_text : forall l, format_arg_Vec disp_PhiArg l =
  spaced (render [] (Some Id) (many (fun a => num (PhiArg_variable a) ++ num (PhiArg_parent a))%list l)).
Proof.
  induction l as [|x l IH]; [reflexivity|]. cbn [format_arg_Vec]. rewrite IH. unfold many, num. cbn [flat_map app render].
  unfold disp_PhiArg. cbn [spaced]. rewrite !sapp_assoc. reflexivity.
Qed.
Lemma mode_text : forall x, " " ++ disp_ExecutionMode x = spaced (render [Mode] None (execution_mode_operands x)).
Proof.
  intro x. rewrite <- (sapp_nil (disp_ExecutionMode x)). destruct x; cbn [disp_ExecutionMode]; rewrite ?sapp_assoc; reflexivity.
Qed.
Lemma decoration_text : forall x, " " ++ disp_Decoration x = spaced (render [Decor] None (decoration_operands x)).
Proof.
  intro x. rewrite <- (sapp_nil (disp_Decoration x)). destruct x; try reflexivity; unfold decoration_operands, num;
    cbn [render app decoration_number decoration_operands_kinds disp_Decoration].
  all: rewrite <- ?built_in_text, <- ?function_parameter_attribute_text, <- ?fp_rounding_mode_text, <- ?fp_fast_math_text, <- ?linkage_type_text.
  all: rewrite ?sapp_assoc; reflexivity.
Qed.

Section Lines.
Context {E : Type} (d : E -> string).

Definition name_of (i : Core E) : string := match opcode_name (opcode i) with Some name => name | None => "" end.
Definition column_of (i : Core E) : string := match result_of i with Some r => disp_Result r | None => disp_NoResult end.

Lemma name_of_some : forall i : Core E, opcode_name (opcode i) = Some (name_of i).
Proof. intro i. unfold name_of. destruct i; reflexivity. Qed.

Lemma operand_texts_core : forall i : Core E, (forall op, i <> Core_OpExtInst op) ->
  operand_texts d i = render (fst (grammar (opcode i))) (snd (grammar (opcode i))) (other_operands i).
Proof.
  intros i H. unfold operand_texts. destruct (grammar (opcode i)) as [ks r]. cbn [fst snd].
  destruct i; try apply app_nil_r. exfalso. eapply H. reflexivity.
Qed.

Lemma line_form : forall i : Core E, canonical i -> disp_Core d i = column_of i ++ name_of i ++ spaced (operand_texts d i).
Proof.
  intros i C. rewrite <- (sapp_nil (disp_Core d i)).
  destruct i; match goal with |- disp_Core _ (_ ?o) ++ _ = _ => rename o into op end.
  all: cbn [disp_Core]; unfold_ops; unfold format_arg; rewrite ?sapp_assoc.
  all: try (destruct op; reflexivity).
  all: rewrite operand_texts_core by (intros ? ?; discriminate).
  all: rewrite ?addressing_model_text, ?memory_model_text, ?execution_model_text, ?capability_text, ?signedness_text,
    ?dim_text, ?depth_text, ?arrayed_text, ?ms_text, ?sampled_text, ?image_format_text, ?storage_class_text, ?access_qualifier_text,
    ?function_control_text, ?loop_control_text, ?selection_control_text, ?ids_text, ?numbers_text, ?phi_text.
  all: try (destruct op; reflexivity).
  all: rewrite ?sapp_nil, ?mode_text, ?decoration_text.
  all: try (destruct op; reflexivity).
  all: try rewrite <- (sapp_nil (format_arg_Option _ _)).
  - (* OpSource *) destruct op as [language version file source]. destruct C as [C1 C2]. cbn in C1, C2.
    cbn [OpSource_language OpSource_version OpSource_file OpSource_source format_arg_Option].
    rewrite source_language_text by exact C2.
    destruct file as [f|]; [destruct source as [t|]; cbn [format_arg_Option]; [rewrite <- (sapp_nil (display_arg_String t))|]; rewrite ?sapp_assoc; reflexivity|].
    rewrite (C1 eq_refl). reflexivity.
  - destruct op as [? ? ? ? ? ? ? ? []]; cbn [OpTypeImage_access_qualifier format_arg_Option]; rewrite ?access_qualifier_text; reflexivity.
  - destruct op as [? ? ? []]; reflexivity.
  - destruct op as [? ? ? []]; cbn [format_arg_Option OpLoad_memory_access]; rewrite ?memory_access_text; reflexivity.
  - destruct op as [? ? []]; cbn [format_arg_Option OpStore_memory_access]; rewrite ?memory_access_text; reflexivity.
  - (* OpLoopMerge *) destruct op as [m c [u1 u2 u3 [len|]]]; rewrite <- (sapp_nil (mask_text _ _)); reflexivity.
  - (* OpBranchConditional *) destruct op as [c t e [[w1 w2]|]]; cbn [format_arg_Option OpBranchConditional_weights]; [|reflexivity].
    unfold disp_BranchWeights. rewrite ?sapp_assoc. reflexivity.
Qed.
End Lines.
