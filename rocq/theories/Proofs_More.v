(** Proofs about the op structs that are printed but not decoded. *)
From Coq Require Import ZArith ZifyBool ZifyNat ZifyN.
From Verif Require Import Base Types Ops EqBase Equality MoreOps Spec_Tables Spec_Opcodes Spec_Wire Spec_Names Spec_Text Spec_More
  Spec_Equality Spec_Writer FmtBase FmtTypes DisplayBase DisplayTypes DisplayOps Proofs_Text Proofs_Text2 Proofs_Text3 Proofs_Fmt Proofs_Equality.
Local Open Scope string_scope.

Definition more_name (i : MoreOp) : string := match opcode_name (more_opcode i) with Some name => name | None => "" end.
Definition more_column_of (i : MoreOp) : string := match more_result i with Some r => disp_Result r | None => disp_NoResult end.

Lemma more_name_some : forall i, opcode_name (more_opcode i) = Some (more_name i).
Proof. intro i. unfold more_name. destruct i; reflexivity. Qed.

Lemma more_column_form : forall i, more_result_fits i -> more_column i (more_column_of i).
Proof.
  intros i F. unfold more_column, more_column_of, more_result_fits in *. destruct (more_result i) as [r|].
  - specialize (F r eq_refl). unfold word in F. pose proof (decimal_length r F) as L.
    unfold disp_Result, pad_right12, disp_OpId. change (disp_u32 r) with (decimal r). split.
    + rewrite !slength_app, spaces_blanks, blanks_length. cbn [String.length]. lia.
    + exists (12 - String.length ("%" ++ decimal r)). rewrite spaces_blanks, !sapp_assoc. reflexivity.
  - split; reflexivity.
Qed.

Lemma sampler_addressing_mode_text : forall x,
  disp_SamplerAddressingMode x = name_in sampler_addressing_modes (sampler_addressing_mode_number x).
Proof. intros []; reflexivity. Qed.
Lemma sampler_filter_mode_text : forall x, disp_SamplerFilterMode x = name_in sampler_filter_modes (sampler_filter_mode_number x).
Proof. intros []; reflexivity. Qed.
Lemma sampler_param_text : forall x, disp_SamplerParam x = decimal (sampler_param_number x).
Proof. intros []; reflexivity. Qed.

Definition more_texts (i : MoreOp) : list string :=
  render (fst (more_grammar (more_opcode i))) (snd (more_grammar (more_opcode i))) (more_other_operands i).

Lemma members_text : forall l, format_arg_Vec disp_MemberIndex l = spaced (render [] (Some Number) (many num l)).
Proof. exact numbers_text. Qed.

Lemma more_form : forall i, ~ composite_construct i -> disp_MoreOp i = more_column_of i ++ more_name i ++ spaced (more_texts i).
Proof.
  intros i C. rewrite <- (sapp_nil (disp_MoreOp i)).
  destruct i; try (exfalso; apply C; reflexivity); clear C.
  all: cbn [disp_MoreOp]; match goal with |- ?f ?o ++ "" = _ => unfold f; rename o into op end; unfold format_arg; rewrite ?sapp_assoc.
  all: rewrite ?sampler_addressing_mode_text, ?sampler_filter_mode_text, ?sampler_param_text, ?storage_class_text, ?ids_text, ?numbers_text, ?members_text.
  all: try (destruct op; reflexivity).
  all: rewrite ?sapp_nil.
  all: try (destruct op; reflexivity).
  all: try rewrite <- (sapp_nil (format_arg_Option _ _)).
  - destruct op as [? ? []]; cbn [format_arg_Option OpCopyMemory_memory_access]; rewrite ?memory_access_text; reflexivity.
  - destruct op as [? ? ? []]; cbn [format_arg_Option OpCopyMemorySized_memory_access]; rewrite ?memory_access_text; reflexivity.
Qed.

Lemma more_line_exact : forall i, ~ composite_construct i -> more_result_fits i -> more_line i (disp_MoreOp i).
Proof.
  intros i C F. unfold more_line. rewrite (surjective_pairing (more_grammar (more_opcode i))).
  exists (more_column_of i), (more_name i). split; [apply more_column_form; exact F|]. split; [apply more_name_some|].
  apply more_form. exact C.
Qed.

Lemma composite_line : forall i, composite_construct i -> more_result_fits i ->
  more_line_with i (render [Id] (Some Number) (more_other_operands i)) (disp_MoreOp i).
Proof.
  intros i C F. exists (more_column_of i), (more_name i). split; [apply more_column_form; exact F|]. split; [apply more_name_some|].
  destruct i; try discriminate C. cbn [disp_MoreOp]. unfold disp_OpCompositeConstruct. unfold format_arg. rewrite ?sapp_assoc, members_text.
  match goal with |- context [disp_Result (_ ?o)] => destruct o end. reflexivity.
Qed.

(** ** Into a writer *)
Lemma prints_Line : forall v f, prints (fmt_Line v f) (disp_Line v).
Proof. intros v f. apply prints_fmt1, prints_u32. Qed.
Lemma prints_Column : forall v f, prints (fmt_Column v f) (disp_Column v).
Proof. intros v f. apply prints_fmt1, prints_u32. Qed.
Lemma prints_SamplerAddressingMode : forall x f, prints (fmt_SamplerAddressingMode x f) (disp_SamplerAddressingMode x).
Proof. enum. Qed.
Lemma prints_SamplerFilterMode : forall x f, prints (fmt_SamplerFilterMode x f) (disp_SamplerFilterMode x).
Proof. enum. Qed.
Lemma prints_SamplerParam : forall x f, prints (fmt_SamplerParam x f) (disp_SamplerParam x).
Proof. intros [] f; apply prints_fmt1, prints_u32. Qed.

Ltac more_lemma := lazymatch goal with
  | |- forall x, prints (fmt_Line x ?o) _ => exact (fun x => prints_Line x o)
  | |- forall x, prints (fmt_Column x ?o) _ => exact (fun x => prints_Column x o)
  | |- forall x, prints (fmt_SamplerAddressingMode x ?o) _ => exact (fun x => prints_SamplerAddressingMode x o)
  | |- forall x, prints (fmt_SamplerFilterMode x ?o) _ => exact (fun x => prints_SamplerFilterMode x o)
  | |- forall x, prints (fmt_SamplerParam x ?o) _ => exact (fun x => prints_SamplerParam x o)
  | |- _ => arg_lemma
  end.
Ltac more_args := lazymatch goal with
  | |- prints done _ => exact prints_done
  | |- prints (try_ _ _) _ => eapply prints_try;
      [lazymatch goal with
       | |- prints (fmt_arg _ _ _) _ => eapply prints_arg; more_lemma
       | |- prints (fmt_arg_Option _ _ _) _ => eapply prints_arg_Option; more_lemma
       | |- prints (fmt_arg_Vec _ _ _) _ => eapply prints_arg_Vec; more_lemma
       end|more_args]
  end.
Lemma prints_MoreOp : forall i f, quiet f -> prints (fmt_MoreOp i f) (disp_MoreOp i).
Proof.
  intros i f Hq. destruct i; cbn [fmt_MoreOp disp_MoreOp].
  all: lazymatch goal with |- prints ?p ?t => let h := head p in let h' := head t in unfold h, h' end.
  all: eapply prints_cast;
    [eapply prints_try; [apply prints_fmt2; [first [apply prints_Result|apply prints_NoResult]|apply prints_lit]|more_args]
    |rewrite ?sassoc, ?snil; reflexivity].
Qed.

(** ** Faithfulness *)
Lemma more_shape : forall i, exists ts, disp_MoreOp i = more_column_of i ++ more_name i ++ spaced ts.
Proof.
  intro i. destruct (N.eq_dec (more_opcode i) 80) as [C|C].
  - exists (render [Id] (Some Number) (more_other_operands i)). destruct i; try discriminate C.
    cbn [disp_MoreOp]. unfold disp_OpCompositeConstruct. unfold format_arg. rewrite ?sapp_assoc, members_text.
    match goal with |- context [disp_Result (_ ?o)] => destruct o end. reflexivity.
  - eexists. apply more_form. exact C.
Qed.
Lemma more_blankless : forall i, ~ contains " " (more_name i).
Proof. intros []; apply blankless_spec; vm_compute; reflexivity. Qed.

Lemma more_same_opcode : forall i j, more_result_fits i -> more_result_fits j -> disp_MoreOp i = disp_MoreOp j -> more_opcode i = more_opcode j.
Proof.
  intros i j Fi Fj H. destruct (more_shape i) as (ti & Hi), (more_shape j) as (tj & Hj). rewrite Hi, Hj in H.
  apply sapp_same_length in H.
  - destruct H as [_ H]. apply blank_split in H; try apply more_blankless; try apply stop_spaced. destruct H as [H _].
    eapply opcode_name_inj; [apply more_name_some|]. rewrite H. apply more_name_some.
  - destruct (more_column_form i Fi) as [-> _], (more_column_form j Fj) as [-> _]. reflexivity.
Qed.

Definition more_opcodes : list N := [8; 36; 41; 42; 45; 46; 48; 49; 50; 51; 57; 60; 63; 64; 66; 67; 68; 69; 70; 73; 74; 77; 78; 79; 80; 81; 82; 83; 84; 86; 109; 110; 111; 113; 114; 115; 116; 117; 118; 119; 120; 121; 122; 123; 126; 127; 142; 143; 144; 145; 146; 147; 148; 194; 195; 196; 200; 317]%N.
Lemma more_not_core : forall E (d : E -> string) (i : Core E) j, result_fits i -> more_result_fits j -> disp_Core d i <> disp_MoreOp j.
Proof.
  intros E d i j Fi Fj H. destruct (line_shape d i) as (ti & Hi), (more_shape j) as (tj & Hj). rewrite Hi, Hj in H.
  apply sapp_same_length in H.
  - destruct H as [_ H]. apply blank_split in H; try apply more_blankless; try apply name_blankless; try apply stop_spaced. destruct H as [H _].
    assert (O : opcode i = more_opcode j).
    { eapply opcode_name_inj; [apply name_of_some|]. rewrite H. apply more_name_some. }
    assert (A : existsb (N.eqb (opcode i)) more_opcodes = false) by (destruct i; reflexivity).
    assert (B : existsb (N.eqb (more_opcode j)) more_opcodes = true) by (destruct j; reflexivity). congruence.
  - destruct (column_form i Fi) as [-> _], (more_column_form j Fj) as [-> _]. reflexivity.
Qed.

Lemma addressing_mode_token : token disp_SamplerAddressingMode.
Proof. apply token_word; [intros []; apply blankless_spec; reflexivity|intros [] []; (reflexivity || discriminate)]. Qed.
Lemma filter_mode_token : token disp_SamplerFilterMode.
Proof. apply token_word; [intros []; apply blankless_spec; reflexivity|intros [] []; (reflexivity || discriminate)]. Qed.
Lemma param_token : token disp_SamplerParam.
Proof. apply token_word; [intros []; apply blankless_spec; reflexivity|intros [] []; (reflexivity || discriminate)]. Qed.
Lemma line_token : token disp_Line. Proof. exact u32_token. Qed.
Lemma column_token : token disp_Column. Proof. exact u32_token. Qed.

Ltac stops := match goal with
  | |- stop (format_arg _ _ ++ _) => apply stop_arg
  | |- stop (format_arg _ _) => apply stop_arg_last
  | |- stop (format_arg_Option _ _) => apply stop_option
  | |- stop (format_arg_Vec _ _) => apply stop_vec
  end.
Ltac tokens := match goal with
  | |- token disp_u32 => exact u32_token
  | |- token disp_OpId => exact id_token
  | |- token disp_MemberIndex => exact member_token
  | |- token disp_StorageClass => exact storage_class_token
  | |- token disp_Line => exact line_token
  | |- token disp_Column => exact column_token
  | |- token disp_SamplerAddressingMode => exact addressing_mode_token
  | |- token disp_SamplerFilterMode => exact filter_mode_token
  | |- token disp_SamplerParam => exact param_token
  end.
Ltac injs := match goal with
  | |- forall x y, disp_MemoryAccess x = _ -> _ => exact memory_access_inj
  | |- _ => apply token_inj; tokens
  end.
Ltac peel H := repeat (match type of H with
  | format_arg ?f _ ++ _ = _ => apply (arg_cancel f ltac:(tokens)) in H; [|stops..]
  | format_arg ?f _ = _ => apply (arg_last f ltac:(injs)) in H
  | format_arg_Option ?f _ = _ => apply (option_last f ltac:(injs)) in H
  | format_arg_Vec ?f _ = _ => apply (vec_last f ltac:(tokens)) in H
  end;
  repeat match type of H with _ /\ _ => let Q := fresh "Q" in destruct H as [Q H] end).
Ltac column H Li Lj := match type of H with
  | disp_NoResult ++ _ = _ => apply sapp_cancel in H
  | disp_Result ?r ++ _ = disp_Result ?r' ++ _ =>
      let Q := fresh "Q" in
      apply (result_inj r r' ltac:(match type of Li with _ (_ (_ ?o)) = _ => clear H; destruct o; exact Li end)
                             ltac:(match type of Lj with _ (_ (_ ?o)) = _ => clear H; destruct o; exact Lj end)) in H; destruct H as [Q H]
  end; try (apply sapp_cancel in H).

Lemma more_inj : forall i j, more_result_fits i -> more_result_fits j -> disp_MoreOp i = disp_MoreOp j -> i = j.
Proof.
  intros i j Fi Fj H. pose proof (more_same_opcode i j Fi Fj H) as O.
  assert (Li : String.length (more_column_of i) = 15) by apply (more_column_form i Fi).
  assert (Lj : String.length (more_column_of j) = 15) by apply (more_column_form j Fj).
  destruct i; destruct j; try discriminate O; clear O Fi Fj; revert H; cbn [disp_MoreOp];
    match goal with |- ?f _ = _ -> _ => unfold f end; intro H.
  all: column H Li Lj.
  all: peel H; clear Li Lj; match goal with |- _ ?x = _ ?y => destruct x, y end; cbn in *; try congruence.
Qed.

(** ** Equality *)
Ltac exact_more u :=
  let a := fresh "a" in let b := fresh "b" in intros a b; u;
  destruct a, b; cbv beta iota;
  repeat match goal with x : OpNoLine |- _ => destruct x end;
  try (split; discriminate); try (split; reflexivity); cbn;
  rewrite ?andb_true_iff; rewrite ?exact_iff;
  let H := fresh "H" in
  (split; [intros H; decompose [and] H; subst; reflexivity|intros H; injection H; intros; subst; repeat split; reflexivity]).
#[local] Arguments eq_Vec : simpl never.
#[local] Arguments eq_Option : simpl never.
#[local] Arguments eq_MemoryAccess : simpl never.
#[local] Arguments eq_StorageClass : simpl never.
#[local] Arguments eq_SamplerAddressingMode : simpl never.
#[export] Instance exact_SamplerAddressingMode : Exact eq_SamplerAddressingMode.
Proof. exact_more ltac:(unfold eq_SamplerAddressingMode). Qed.
#[local] Arguments eq_SamplerParam : simpl never.
#[export] Instance exact_SamplerParam : Exact eq_SamplerParam.
Proof. exact_more ltac:(unfold eq_SamplerParam). Qed.
#[local] Arguments eq_SamplerFilterMode : simpl never.
#[export] Instance exact_SamplerFilterMode : Exact eq_SamplerFilterMode.
Proof. exact_more ltac:(unfold eq_SamplerFilterMode). Qed.
#[local] Arguments eq_OpLine : simpl never.
#[export] Instance exact_OpLine : Exact eq_OpLine.
Proof. exact_more ltac:(unfold eq_OpLine). Qed.
#[local] Arguments eq_OpNoLine : simpl never.
#[export] Instance exact_OpNoLine : Exact eq_OpNoLine.
Proof. exact_more ltac:(unfold eq_OpNoLine). Qed.
#[local] Arguments eq_OpDecorationGroup : simpl never.
#[export] Instance exact_OpDecorationGroup : Exact eq_OpDecorationGroup.
Proof. exact_more ltac:(unfold eq_OpDecorationGroup). Qed.
#[local] Arguments eq_OpGroupDecorate : simpl never.
#[export] Instance exact_OpGroupDecorate : Exact eq_OpGroupDecorate.
Proof. exact_more ltac:(unfold eq_OpGroupDecorate). Qed.
#[local] Arguments eq_OpTypeReserveId : simpl never.
#[export] Instance exact_OpTypeReserveId : Exact eq_OpTypeReserveId.
Proof. exact_more ltac:(unfold eq_OpTypeReserveId). Qed.
#[local] Arguments eq_OpConstantTrue : simpl never.
#[export] Instance exact_OpConstantTrue : Exact eq_OpConstantTrue.
Proof. exact_more ltac:(unfold eq_OpConstantTrue). Qed.
#[local] Arguments eq_OpConstantFalse : simpl never.
#[export] Instance exact_OpConstantFalse : Exact eq_OpConstantFalse.
Proof. exact_more ltac:(unfold eq_OpConstantFalse). Qed.
#[local] Arguments eq_OpConstantSampler : simpl never.
#[export] Instance exact_OpConstantSampler : Exact eq_OpConstantSampler.
Proof. exact_more ltac:(unfold eq_OpConstantSampler). Qed.
#[local] Arguments eq_OpConstantNull : simpl never.
#[export] Instance exact_OpConstantNull : Exact eq_OpConstantNull.
Proof. exact_more ltac:(unfold eq_OpConstantNull). Qed.
#[local] Arguments eq_OpSpecConstantTrue : simpl never.
#[export] Instance exact_OpSpecConstantTrue : Exact eq_OpSpecConstantTrue.
Proof. exact_more ltac:(unfold eq_OpSpecConstantTrue). Qed.
#[local] Arguments eq_OpSpecConstantFalse : simpl never.
#[export] Instance exact_OpSpecConstantFalse : Exact eq_OpSpecConstantFalse.
Proof. exact_more ltac:(unfold eq_OpSpecConstantFalse). Qed.
#[local] Arguments eq_OpSpecConstant : simpl never.
#[export] Instance exact_OpSpecConstant : Exact eq_OpSpecConstant.
Proof. exact_more ltac:(unfold eq_OpSpecConstant). Qed.
#[local] Arguments eq_OpSpecConstantComposite : simpl never.
#[export] Instance exact_OpSpecConstantComposite : Exact eq_OpSpecConstantComposite.
Proof. exact_more ltac:(unfold eq_OpSpecConstantComposite). Qed.
#[local] Arguments eq_OpImageTexelPointer : simpl never.
#[export] Instance exact_OpImageTexelPointer : Exact eq_OpImageTexelPointer.
Proof. exact_more ltac:(unfold eq_OpImageTexelPointer). Qed.
#[local] Arguments eq_OpCopyMemory : simpl never.
#[export] Instance exact_OpCopyMemory : Exact eq_OpCopyMemory.
Proof. exact_more ltac:(unfold eq_OpCopyMemory). Qed.
#[local] Arguments eq_OpCopyMemorySized : simpl never.
#[export] Instance exact_OpCopyMemorySized : Exact eq_OpCopyMemorySized.
Proof. exact_more ltac:(unfold eq_OpCopyMemorySized). Qed.
#[local] Arguments eq_OpInBoundsAccessChain : simpl never.
#[export] Instance exact_OpInBoundsAccessChain : Exact eq_OpInBoundsAccessChain.
Proof. exact_more ltac:(unfold eq_OpInBoundsAccessChain). Qed.
#[local] Arguments eq_OpPtrAccessChain : simpl never.
#[export] Instance exact_OpPtrAccessChain : Exact eq_OpPtrAccessChain.
Proof. exact_more ltac:(unfold eq_OpPtrAccessChain). Qed.
#[local] Arguments eq_OpArrayLength : simpl never.
#[export] Instance exact_OpArrayLength : Exact eq_OpArrayLength.
Proof. exact_more ltac:(unfold eq_OpArrayLength). Qed.
#[local] Arguments eq_OpGenericPtrMemSemantics : simpl never.
#[export] Instance exact_OpGenericPtrMemSemantics : Exact eq_OpGenericPtrMemSemantics.
Proof. exact_more ltac:(unfold eq_OpGenericPtrMemSemantics). Qed.
#[local] Arguments eq_OpInBoundsPtrAccessChain : simpl never.
#[export] Instance exact_OpInBoundsPtrAccessChain : Exact eq_OpInBoundsPtrAccessChain.
Proof. exact_more ltac:(unfold eq_OpInBoundsPtrAccessChain). Qed.
#[local] Arguments eq_OpFunctionCall : simpl never.
#[export] Instance exact_OpFunctionCall : Exact eq_OpFunctionCall.
Proof. exact_more ltac:(unfold eq_OpFunctionCall). Qed.
#[local] Arguments eq_OpSampledImage : simpl never.
#[export] Instance exact_OpSampledImage : Exact eq_OpSampledImage.
Proof. exact_more ltac:(unfold eq_OpSampledImage). Qed.
#[local] Arguments eq_OpConvertFToU : simpl never.
#[export] Instance exact_OpConvertFToU : Exact eq_OpConvertFToU.
Proof. exact_more ltac:(unfold eq_OpConvertFToU). Qed.
#[local] Arguments eq_OpConvertFToS : simpl never.
#[export] Instance exact_OpConvertFToS : Exact eq_OpConvertFToS.
Proof. exact_more ltac:(unfold eq_OpConvertFToS). Qed.
#[local] Arguments eq_OpConvertSToF : simpl never.
#[export] Instance exact_OpConvertSToF : Exact eq_OpConvertSToF.
Proof. exact_more ltac:(unfold eq_OpConvertSToF). Qed.
#[local] Arguments eq_OpUConvert : simpl never.
#[export] Instance exact_OpUConvert : Exact eq_OpUConvert.
Proof. exact_more ltac:(unfold eq_OpUConvert). Qed.
#[local] Arguments eq_OpSConvert : simpl never.
#[export] Instance exact_OpSConvert : Exact eq_OpSConvert.
Proof. exact_more ltac:(unfold eq_OpSConvert). Qed.
#[local] Arguments eq_OpFConvert : simpl never.
#[export] Instance exact_OpFConvert : Exact eq_OpFConvert.
Proof. exact_more ltac:(unfold eq_OpFConvert). Qed.
#[local] Arguments eq_OpQuantizeToF16 : simpl never.
#[export] Instance exact_OpQuantizeToF16 : Exact eq_OpQuantizeToF16.
Proof. exact_more ltac:(unfold eq_OpQuantizeToF16). Qed.
#[local] Arguments eq_OpConvertPtrToU : simpl never.
#[export] Instance exact_OpConvertPtrToU : Exact eq_OpConvertPtrToU.
Proof. exact_more ltac:(unfold eq_OpConvertPtrToU). Qed.
#[local] Arguments eq_OpSatConvertSToU : simpl never.
#[export] Instance exact_OpSatConvertSToU : Exact eq_OpSatConvertSToU.
Proof. exact_more ltac:(unfold eq_OpSatConvertSToU). Qed.
#[local] Arguments eq_OpSatConvertUToS : simpl never.
#[export] Instance exact_OpSatConvertUToS : Exact eq_OpSatConvertUToS.
Proof. exact_more ltac:(unfold eq_OpSatConvertUToS). Qed.
#[local] Arguments eq_OpConvertUToPtr : simpl never.
#[export] Instance exact_OpConvertUToPtr : Exact eq_OpConvertUToPtr.
Proof. exact_more ltac:(unfold eq_OpConvertUToPtr). Qed.
#[local] Arguments eq_OpPtrCastToGeneric : simpl never.
#[export] Instance exact_OpPtrCastToGeneric : Exact eq_OpPtrCastToGeneric.
Proof. exact_more ltac:(unfold eq_OpPtrCastToGeneric). Qed.
#[local] Arguments eq_OpGenericCastToPtr : simpl never.
#[export] Instance exact_OpGenericCastToPtr : Exact eq_OpGenericCastToPtr.
Proof. exact_more ltac:(unfold eq_OpGenericCastToPtr). Qed.
#[local] Arguments eq_OpGenericCastToPtrExplicit : simpl never.
#[export] Instance exact_OpGenericCastToPtrExplicit : Exact eq_OpGenericCastToPtrExplicit.
Proof. exact_more ltac:(unfold eq_OpGenericCastToPtrExplicit). Qed.
#[local] Arguments eq_OpVectorExtractDynamic : simpl never.
#[export] Instance exact_OpVectorExtractDynamic : Exact eq_OpVectorExtractDynamic.
Proof. exact_more ltac:(unfold eq_OpVectorExtractDynamic). Qed.
#[local] Arguments eq_OpVectorInsertDynamic : simpl never.
#[export] Instance exact_OpVectorInsertDynamic : Exact eq_OpVectorInsertDynamic.
Proof. exact_more ltac:(unfold eq_OpVectorInsertDynamic). Qed.
#[local] Arguments eq_OpVectorShuffle : simpl never.
#[export] Instance exact_OpVectorShuffle : Exact eq_OpVectorShuffle.
Proof. exact_more ltac:(unfold eq_OpVectorShuffle). Qed.
#[local] Arguments eq_OpCompositeConstruct : simpl never.
#[export] Instance exact_OpCompositeConstruct : Exact eq_OpCompositeConstruct.
Proof. exact_more ltac:(unfold eq_OpCompositeConstruct). Qed.
#[local] Arguments eq_OpCompositeExtract : simpl never.
#[export] Instance exact_OpCompositeExtract : Exact eq_OpCompositeExtract.
Proof. exact_more ltac:(unfold eq_OpCompositeExtract). Qed.
#[local] Arguments eq_OpCompositeInsert : simpl never.
#[export] Instance exact_OpCompositeInsert : Exact eq_OpCompositeInsert.
Proof. exact_more ltac:(unfold eq_OpCompositeInsert). Qed.
#[local] Arguments eq_OpCopyObject : simpl never.
#[export] Instance exact_OpCopyObject : Exact eq_OpCopyObject.
Proof. exact_more ltac:(unfold eq_OpCopyObject). Qed.
#[local] Arguments eq_OpTranspose : simpl never.
#[export] Instance exact_OpTranspose : Exact eq_OpTranspose.
Proof. exact_more ltac:(unfold eq_OpTranspose). Qed.
#[local] Arguments eq_OpSNegate : simpl never.
#[export] Instance exact_OpSNegate : Exact eq_OpSNegate.
Proof. exact_more ltac:(unfold eq_OpSNegate). Qed.
#[local] Arguments eq_OpFNegate : simpl never.
#[export] Instance exact_OpFNegate : Exact eq_OpFNegate.
Proof. exact_more ltac:(unfold eq_OpFNegate). Qed.
#[local] Arguments eq_OpVectorTimesScalar : simpl never.
#[export] Instance exact_OpVectorTimesScalar : Exact eq_OpVectorTimesScalar.
Proof. exact_more ltac:(unfold eq_OpVectorTimesScalar). Qed.
#[local] Arguments eq_OpMatrixTimesScalar : simpl never.
#[export] Instance exact_OpMatrixTimesScalar : Exact eq_OpMatrixTimesScalar.
Proof. exact_more ltac:(unfold eq_OpMatrixTimesScalar). Qed.
#[local] Arguments eq_OpVectorTimesMatrix : simpl never.
#[export] Instance exact_OpVectorTimesMatrix : Exact eq_OpVectorTimesMatrix.
Proof. exact_more ltac:(unfold eq_OpVectorTimesMatrix). Qed.
#[local] Arguments eq_OpMatrixTimesVector : simpl never.
#[export] Instance exact_OpMatrixTimesVector : Exact eq_OpMatrixTimesVector.
Proof. exact_more ltac:(unfold eq_OpMatrixTimesVector). Qed.
#[local] Arguments eq_OpMatrixTimesMatrix : simpl never.
#[export] Instance exact_OpMatrixTimesMatrix : Exact eq_OpMatrixTimesMatrix.
Proof. exact_more ltac:(unfold eq_OpMatrixTimesMatrix). Qed.
#[local] Arguments eq_OpOuterProduct : simpl never.
#[export] Instance exact_OpOuterProduct : Exact eq_OpOuterProduct.
Proof. exact_more ltac:(unfold eq_OpOuterProduct). Qed.
#[local] Arguments eq_OpDot : simpl never.
#[export] Instance exact_OpDot : Exact eq_OpDot.
Proof. exact_more ltac:(unfold eq_OpDot). Qed.
#[local] Arguments eq_OpShiftRightLogical : simpl never.
#[export] Instance exact_OpShiftRightLogical : Exact eq_OpShiftRightLogical.
Proof. exact_more ltac:(unfold eq_OpShiftRightLogical). Qed.
#[local] Arguments eq_OpShiftRightArithmetic : simpl never.
#[export] Instance exact_OpShiftRightArithmetic : Exact eq_OpShiftRightArithmetic.
Proof. exact_more ltac:(unfold eq_OpShiftRightArithmetic). Qed.
#[local] Arguments eq_OpShiftLeftLogical : simpl never.
#[export] Instance exact_OpShiftLeftLogical : Exact eq_OpShiftLeftLogical.
Proof. exact_more ltac:(unfold eq_OpShiftLeftLogical). Qed.
#[local] Arguments eq_OpNot : simpl never.
#[export] Instance exact_OpNot : Exact eq_OpNot.
Proof. exact_more ltac:(unfold eq_OpNot). Qed.
#[local] Arguments eq_MoreOp : simpl never.
#[export] Instance exact_MoreOp : Exact eq_MoreOp.
Proof. exact_more ltac:(unfold eq_MoreOp). Qed.

(** ** Composite construction *)
Definition construct_sample : MoreOp := More_OpCompositeConstruct (Build_OpCompositeConstruct 3%N 7%N [5%N; 6%N]).
Lemma construct_not_ids : more_result_fits construct_sample /\ ~ more_line construct_sample (disp_MoreOp construct_sample).
Proof.
  split; [intros r [= <-]; unfold word; lia|]. intros (column & name & (L & k & C) & N & H).
  injection N as <-. change (more_result construct_sample) with (Some 7%N) in *.
  change (disp_MoreOp construct_sample) with (("          %7 = ") ++ "OpCompositeConstruct %3 5 6") in H.
  apply sapp_same_length in H; [|rewrite L; reflexivity]. destruct H as [_ H]. vm_compute in H. discriminate H.
Qed.
Lemma more_eq : forall i j, eq_MoreOp i j = true <-> i = j.
Proof. intros i j. apply exact_iff. Qed.
