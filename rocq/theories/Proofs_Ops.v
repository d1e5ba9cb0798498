(** Op readers against the wire format. *)
From Coq Require Import ZArith ZifyBool ZifyNat ZifyN.
From Verif Require Import Base Types Ops ReadErr Utf8 ReadBase ReadOperands ReadOps Spec_Wire
  Proofs_Operands Proofs_Composite.
Local Open Scope N_scope.

(** What is needed of a plain op reader: [fixed] says the operands are not open ended. *)
Record OpReads {A} (R : Reader A) (repr : A -> Prop) (fixed : Prop) (ops req : A -> list operand) : Prop := {
  op_sound : forall ws rest a, Forall word ws -> R ws = Ok (rest, a) ->
    exists pre, ws = pre ++ rest /\ repr a /\ wire_operands (ops a) pre;
  op_complete : forall a ws, Forall word ws -> repr a -> wire_operands (ops a) ws -> R ws = Ok ([], a);
  op_short : forall a p1 p2, Forall word (p1 ++ p2) -> repr a -> wire_operands (req a) (p1 ++ p2) -> p2 <> [] ->
    R p1 = Err UnexpectedEndOfInstruction;
  op_total : forall ws, match R ws with Ok _ | Err _ => True | _ => False end;
  op_excess : fixed -> forall a ws rest, Forall word ws -> repr a -> wire_operands (ops a) ws ->
    R (ws ++ rest) = Ok (rest, a)
}.

Lemma op_of_good : forall {A} (R : Reader A) repr fixed ops, Good R repr ops -> OpReads R repr fixed ops ops.
Proof.
  intros A R repr fixed ops G. split.
  - apply good_sound.
  - intros a ws Hw Hr H. pose proof (good_complete a ws [] Hw Hr H) as E. rewrite app_nil_r in E. exact E.
  - apply good_short.
  - apply good_total.
  - intros _ a ws rest Hw Hr H. apply (good_complete a ws rest Hw Hr H).
Qed.

Ltac op_complete_tac R :=
  let a := fresh "a" in let ws := fresh "ws" in
  let Hw := fresh "Hw" in let H := fresh "H" in
  intros a ws Hw _ H; destruct a; unfold_ops_in H; wire_inv; words_inv; unfold R;
  rewrite <- ?app_assoc; repeat complete_step; reflexivity.
Ltac tail_op R :=
  split; [good_sound_tac R|op_complete_tac R|good_short_tac R|good_total_tac R|intros []].

Section Ops.
Context {E : Type}.

Lemma op_OpNop : OpReads read_OpNop any True
  (fun a => operands (E := E) (Core_OpNop a)) (fun a => required (E := E) (Core_OpNop a)).
Proof. apply (op_of_good read_OpNop any). good read_OpNop. Qed.
Lemma op_OpUndef : OpReads read_OpUndef any True
  (fun a => operands (E := E) (Core_OpUndef a)) (fun a => required (E := E) (Core_OpUndef a)).
Proof. apply (op_of_good read_OpUndef any). good read_OpUndef. Qed.
Lemma op_OpSourceContinued : OpReads read_OpSourceContinued any True
  (fun a => operands (E := E) (Core_OpSourceContinued a)) (fun a => required (E := E) (Core_OpSourceContinued a)).
Proof. apply (op_of_good read_OpSourceContinued any). good read_OpSourceContinued. Qed.
Definition source_ok (op : OpSource) : Prop :=
  (OpSource_file op = None -> OpSource_source op = None) /\ language_ok (OpSource_language op).
Lemma op_OpSource : OpReads read_OpSource source_ok False
  (fun a => operands (E := E) (Core_OpSource a)) (fun a => required (E := E) (Core_OpSource a)).
Proof.
  split.
  - intros ws rest a Hw H. unfold read_OpSource in H. do 2 sound_step H.
    apply bind_ok in H. destruct H as ([b3 file] & H5 & H). apply bind_ok in H. destruct H as ([b4 source] & H6 & H).
    injection H as <- <-.
    assert (Hf : file = None -> source = None).
    { intros ->. assert (b3 = []) as ->; [|injection H6 as _ <-; reflexivity].
      unfold read_Option in H5. destruct l0; [injection H5 as <-; reflexivity|].
      apply bind_ok in H5. destruct H5 as ([? ?] & _ & H5). discriminate. }
    apply (@tail_sound _ (read_Option read_OpId) _ _) in H5; [|assumption]. destruct H5 as (p3 & -> & H5).
    apply Forall_app in Hw. destruct Hw as [_ Hw].
    apply (@tail_sound _ (read_Option read_LitString) _ _) in H6; [|assumption]. destruct H6 as (p4 & -> & H6).
    finish_sound. split; [split; assumption|]. unfold_ops. wire_split; eassumption.
  - intros a ws Hw [Hf Hl] H. destruct a as [lang ver file source]. unfold_ops_in H. wire_inv; words_inv.
    cbn [OpSource_language OpSource_file OpSource_source] in *. unfold read_OpSource. do 2 complete_step.
    destruct file as [f|].
    + match goal with H : wire_operands (opt num (Some f)) ?x |- _ => apply (wire_num f x) in H; subst x end.
      cbn [app read_Option read_OpId read_word bind]. complete_step. reflexivity.
    + rewrite (Hf eq_refl) in *. cbn [opt wire_operands] in *. subst. reflexivity.
  - intros a p1 p2 Hw [_ Hl] H Hne. destruct a as [lang ver file source]. unfold_ops_in H. wire_inv.
    cbn [OpSource_language] in Hl. unfold read_OpSource. short_start p1 p2 Hw.
  - good_total_tac read_OpSource.
  - intros [].
Qed.
Lemma op_OpSourceExtension : OpReads read_OpSourceExtension any True
  (fun a => operands (E := E) (Core_OpSourceExtension a)) (fun a => required (E := E) (Core_OpSourceExtension a)).
Proof. apply (op_of_good read_OpSourceExtension any). good read_OpSourceExtension. Qed.
Lemma op_OpName : OpReads read_OpName any True
  (fun a => operands (E := E) (Core_OpName a)) (fun a => required (E := E) (Core_OpName a)).
Proof. apply (op_of_good read_OpName any). good read_OpName. Qed.
Lemma op_OpMemberName : OpReads read_OpMemberName any True
  (fun a => operands (E := E) (Core_OpMemberName a)) (fun a => required (E := E) (Core_OpMemberName a)).
Proof. apply (op_of_good read_OpMemberName any). good read_OpMemberName. Qed.
Lemma op_OpString : OpReads read_OpString any True
  (fun a => operands (E := E) (Core_OpString a)) (fun a => required (E := E) (Core_OpString a)).
Proof. apply (op_of_good read_OpString any). good read_OpString. Qed.
Lemma op_OpExtension : OpReads read_OpExtension any True
  (fun a => operands (E := E) (Core_OpExtension a)) (fun a => required (E := E) (Core_OpExtension a)).
Proof. apply (op_of_good read_OpExtension any). good read_OpExtension. Qed.
Lemma op_OpMemoryModel : OpReads read_OpMemoryModel any True
  (fun a => operands (E := E) (Core_OpMemoryModel a)) (fun a => required (E := E) (Core_OpMemoryModel a)).
Proof. apply (op_of_good read_OpMemoryModel any). good read_OpMemoryModel. Qed.
Lemma op_OpEntryPoint : OpReads read_OpEntryPoint any False
  (fun a => operands (E := E) (Core_OpEntryPoint a)) (fun a => required (E := E) (Core_OpEntryPoint a)).
Proof. tail_op read_OpEntryPoint. Qed.
Lemma op_OpExecutionMode : OpReads read_OpExecutionMode any True
  (fun a => operands (E := E) (Core_OpExecutionMode a)) (fun a => required (E := E) (Core_OpExecutionMode a)).
Proof. apply (op_of_good read_OpExecutionMode any). good read_OpExecutionMode. Qed.
Lemma op_OpCapability : OpReads read_OpCapability any True
  (fun a => operands (E := E) (Core_OpCapability a)) (fun a => required (E := E) (Core_OpCapability a)).
Proof. apply (op_of_good read_OpCapability any). good read_OpCapability. Qed.
Lemma op_OpTypeVoid : OpReads read_OpTypeVoid any True
  (fun a => operands (E := E) (Core_OpTypeVoid a)) (fun a => required (E := E) (Core_OpTypeVoid a)).
Proof. apply (op_of_good read_OpTypeVoid any). good read_OpTypeVoid. Qed.
Lemma op_OpTypeBool : OpReads read_OpTypeBool any True
  (fun a => operands (E := E) (Core_OpTypeBool a)) (fun a => required (E := E) (Core_OpTypeBool a)).
Proof. apply (op_of_good read_OpTypeBool any). good read_OpTypeBool. Qed.
Lemma op_OpTypeInt : OpReads read_OpTypeInt any True
  (fun a => operands (E := E) (Core_OpTypeInt a)) (fun a => required (E := E) (Core_OpTypeInt a)).
Proof. apply (op_of_good read_OpTypeInt any). good read_OpTypeInt. Qed.
Lemma op_OpTypeFloat : OpReads read_OpTypeFloat any True
  (fun a => operands (E := E) (Core_OpTypeFloat a)) (fun a => required (E := E) (Core_OpTypeFloat a)).
Proof. apply (op_of_good read_OpTypeFloat any). good read_OpTypeFloat. Qed.
Lemma op_OpTypeVector : OpReads read_OpTypeVector any True
  (fun a => operands (E := E) (Core_OpTypeVector a)) (fun a => required (E := E) (Core_OpTypeVector a)).
Proof. apply (op_of_good read_OpTypeVector any). good read_OpTypeVector. Qed.
Lemma op_OpTypeMatrix : OpReads read_OpTypeMatrix any True
  (fun a => operands (E := E) (Core_OpTypeMatrix a)) (fun a => required (E := E) (Core_OpTypeMatrix a)).
Proof. apply (op_of_good read_OpTypeMatrix any). good read_OpTypeMatrix. Qed.
Lemma op_OpTypeImage : OpReads read_OpTypeImage any False
  (fun a => operands (E := E) (Core_OpTypeImage a)) (fun a => required (E := E) (Core_OpTypeImage a)).
Proof. tail_op read_OpTypeImage. Qed.
Lemma op_OpTypeSampler : OpReads read_OpTypeSampler any True
  (fun a => operands (E := E) (Core_OpTypeSampler a)) (fun a => required (E := E) (Core_OpTypeSampler a)).
Proof. apply (op_of_good read_OpTypeSampler any). good read_OpTypeSampler. Qed.
Lemma op_OpTypeSampledImage : OpReads read_OpTypeSampledImage any True
  (fun a => operands (E := E) (Core_OpTypeSampledImage a)) (fun a => required (E := E) (Core_OpTypeSampledImage a)).
Proof. apply (op_of_good read_OpTypeSampledImage any). good read_OpTypeSampledImage. Qed.
Lemma op_OpTypeArray : OpReads read_OpTypeArray any True
  (fun a => operands (E := E) (Core_OpTypeArray a)) (fun a => required (E := E) (Core_OpTypeArray a)).
Proof. apply (op_of_good read_OpTypeArray any). good read_OpTypeArray. Qed.
Lemma op_OpTypeRuntimeArray : OpReads read_OpTypeRuntimeArray any True
  (fun a => operands (E := E) (Core_OpTypeRuntimeArray a)) (fun a => required (E := E) (Core_OpTypeRuntimeArray a)).
Proof. apply (op_of_good read_OpTypeRuntimeArray any). good read_OpTypeRuntimeArray. Qed.
Lemma op_OpTypeStruct : OpReads read_OpTypeStruct any False
  (fun a => operands (E := E) (Core_OpTypeStruct a)) (fun a => required (E := E) (Core_OpTypeStruct a)).
Proof. tail_op read_OpTypeStruct. Qed.
Lemma op_OpTypeOpaque : OpReads read_OpTypeOpaque any True
  (fun a => operands (E := E) (Core_OpTypeOpaque a)) (fun a => required (E := E) (Core_OpTypeOpaque a)).
Proof. apply (op_of_good read_OpTypeOpaque any). good read_OpTypeOpaque. Qed.
Lemma op_OpTypePointer : OpReads read_OpTypePointer any True
  (fun a => operands (E := E) (Core_OpTypePointer a)) (fun a => required (E := E) (Core_OpTypePointer a)).
Proof. apply (op_of_good read_OpTypePointer any). good read_OpTypePointer. Qed.
Lemma op_OpTypeFunction : OpReads read_OpTypeFunction any False
  (fun a => operands (E := E) (Core_OpTypeFunction a)) (fun a => required (E := E) (Core_OpTypeFunction a)).
Proof. tail_op read_OpTypeFunction. Qed.
Lemma op_OpConstant : OpReads read_OpConstant any False
  (fun a => operands (E := E) (Core_OpConstant a)) (fun a => required (E := E) (Core_OpConstant a)).
Proof. tail_op read_OpConstant. Qed.
Lemma op_OpConstantComposite : OpReads read_OpConstantComposite any False
  (fun a => operands (E := E) (Core_OpConstantComposite a)) (fun a => required (E := E) (Core_OpConstantComposite a)).
Proof. tail_op read_OpConstantComposite. Qed.
Lemma op_OpFunction : OpReads read_OpFunction any True
  (fun a => operands (E := E) (Core_OpFunction a)) (fun a => required (E := E) (Core_OpFunction a)).
Proof. apply (op_of_good read_OpFunction any). good read_OpFunction. Qed.
Lemma op_OpFunctionParameter : OpReads read_OpFunctionParameter any True
  (fun a => operands (E := E) (Core_OpFunctionParameter a)) (fun a => required (E := E) (Core_OpFunctionParameter a)).
Proof. apply (op_of_good read_OpFunctionParameter any). good read_OpFunctionParameter. Qed.
Lemma op_OpFunctionEnd : OpReads read_OpFunctionEnd any True
  (fun a => operands (E := E) (Core_OpFunctionEnd a)) (fun a => required (E := E) (Core_OpFunctionEnd a)).
Proof. apply (op_of_good read_OpFunctionEnd any). good read_OpFunctionEnd. Qed.
Lemma op_OpVariable : OpReads read_OpVariable any False
  (fun a => operands (E := E) (Core_OpVariable a)) (fun a => required (E := E) (Core_OpVariable a)).
Proof. tail_op read_OpVariable. Qed.
Lemma op_OpLoad : OpReads read_OpLoad any False
  (fun a => operands (E := E) (Core_OpLoad a)) (fun a => required (E := E) (Core_OpLoad a)).
Proof. tail_op read_OpLoad. Qed.
Lemma op_OpStore : OpReads read_OpStore any False
  (fun a => operands (E := E) (Core_OpStore a)) (fun a => required (E := E) (Core_OpStore a)).
Proof. tail_op read_OpStore. Qed.
Lemma op_OpAccessChain : OpReads read_OpAccessChain any False
  (fun a => operands (E := E) (Core_OpAccessChain a)) (fun a => required (E := E) (Core_OpAccessChain a)).
Proof. tail_op read_OpAccessChain. Qed.
Lemma op_OpDecorate : OpReads read_OpDecorate any True
  (fun a => operands (E := E) (Core_OpDecorate a)) (fun a => required (E := E) (Core_OpDecorate a)).
Proof. apply (op_of_good read_OpDecorate any). good read_OpDecorate. Qed.
Lemma op_OpMemberDecorate : OpReads read_OpMemberDecorate any True
  (fun a => operands (E := E) (Core_OpMemberDecorate a)) (fun a => required (E := E) (Core_OpMemberDecorate a)).
Proof. apply (op_of_good read_OpMemberDecorate any). good read_OpMemberDecorate. Qed.
Lemma op_OpConvertUToF : OpReads read_OpConvertUToF any True
  (fun a => operands (E := E) (Core_OpConvertUToF a)) (fun a => required (E := E) (Core_OpConvertUToF a)).
Proof. apply (op_of_good read_OpConvertUToF any). good read_OpConvertUToF. Qed.
Lemma op_OpBitcast : OpReads read_OpBitcast any True
  (fun a => operands (E := E) (Core_OpBitcast a)) (fun a => required (E := E) (Core_OpBitcast a)).
Proof. apply (op_of_good read_OpBitcast any). good read_OpBitcast. Qed.
Lemma op_OpIAdd : OpReads read_OpIAdd any True
  (fun a => operands (E := E) (Core_OpIAdd a)) (fun a => required (E := E) (Core_OpIAdd a)).
Proof. apply (op_of_good read_OpIAdd any). good read_OpIAdd. Qed.
Lemma op_OpFAdd : OpReads read_OpFAdd any True
  (fun a => operands (E := E) (Core_OpFAdd a)) (fun a => required (E := E) (Core_OpFAdd a)).
Proof. apply (op_of_good read_OpFAdd any). good read_OpFAdd. Qed.
Lemma op_OpISub : OpReads read_OpISub any True
  (fun a => operands (E := E) (Core_OpISub a)) (fun a => required (E := E) (Core_OpISub a)).
Proof. apply (op_of_good read_OpISub any). good read_OpISub. Qed.
Lemma op_OpFSub : OpReads read_OpFSub any True
  (fun a => operands (E := E) (Core_OpFSub a)) (fun a => required (E := E) (Core_OpFSub a)).
Proof. apply (op_of_good read_OpFSub any). good read_OpFSub. Qed.
Lemma op_OpIMul : OpReads read_OpIMul any True
  (fun a => operands (E := E) (Core_OpIMul a)) (fun a => required (E := E) (Core_OpIMul a)).
Proof. apply (op_of_good read_OpIMul any). good read_OpIMul. Qed.
Lemma op_OpFMul : OpReads read_OpFMul any True
  (fun a => operands (E := E) (Core_OpFMul a)) (fun a => required (E := E) (Core_OpFMul a)).
Proof. apply (op_of_good read_OpFMul any). good read_OpFMul. Qed.
Lemma op_OpUDiv : OpReads read_OpUDiv any True
  (fun a => operands (E := E) (Core_OpUDiv a)) (fun a => required (E := E) (Core_OpUDiv a)).
Proof. apply (op_of_good read_OpUDiv any). good read_OpUDiv. Qed.
Lemma op_OpSDiv : OpReads read_OpSDiv any True
  (fun a => operands (E := E) (Core_OpSDiv a)) (fun a => required (E := E) (Core_OpSDiv a)).
Proof. apply (op_of_good read_OpSDiv any). good read_OpSDiv. Qed.
Lemma op_OpFDiv : OpReads read_OpFDiv any True
  (fun a => operands (E := E) (Core_OpFDiv a)) (fun a => required (E := E) (Core_OpFDiv a)).
Proof. apply (op_of_good read_OpFDiv any). good read_OpFDiv. Qed.
Lemma op_OpUMod : OpReads read_OpUMod any True
  (fun a => operands (E := E) (Core_OpUMod a)) (fun a => required (E := E) (Core_OpUMod a)).
Proof. apply (op_of_good read_OpUMod any). good read_OpUMod. Qed.
Lemma op_OpSRem : OpReads read_OpSRem any True
  (fun a => operands (E := E) (Core_OpSRem a)) (fun a => required (E := E) (Core_OpSRem a)).
Proof. apply (op_of_good read_OpSRem any). good read_OpSRem. Qed.
Lemma op_OpSMod : OpReads read_OpSMod any True
  (fun a => operands (E := E) (Core_OpSMod a)) (fun a => required (E := E) (Core_OpSMod a)).
Proof. apply (op_of_good read_OpSMod any). good read_OpSMod. Qed.
Lemma op_OpFRem : OpReads read_OpFRem any True
  (fun a => operands (E := E) (Core_OpFRem a)) (fun a => required (E := E) (Core_OpFRem a)).
Proof. apply (op_of_good read_OpFRem any). good read_OpFRem. Qed.
Lemma op_OpFMod : OpReads read_OpFMod any True
  (fun a => operands (E := E) (Core_OpFMod a)) (fun a => required (E := E) (Core_OpFMod a)).
Proof. apply (op_of_good read_OpFMod any). good read_OpFMod. Qed.
Lemma op_OpIAddCarry : OpReads read_OpIAddCarry any True
  (fun a => operands (E := E) (Core_OpIAddCarry a)) (fun a => required (E := E) (Core_OpIAddCarry a)).
Proof. apply (op_of_good read_OpIAddCarry any). good read_OpIAddCarry. Qed.
Lemma op_OpISubBorrow : OpReads read_OpISubBorrow any True
  (fun a => operands (E := E) (Core_OpISubBorrow a)) (fun a => required (E := E) (Core_OpISubBorrow a)).
Proof. apply (op_of_good read_OpISubBorrow any). good read_OpISubBorrow. Qed.
Lemma op_OpUMulExtended : OpReads read_OpUMulExtended any True
  (fun a => operands (E := E) (Core_OpUMulExtended a)) (fun a => required (E := E) (Core_OpUMulExtended a)).
Proof. apply (op_of_good read_OpUMulExtended any). good read_OpUMulExtended. Qed.
Lemma op_OpSMulExtended : OpReads read_OpSMulExtended any True
  (fun a => operands (E := E) (Core_OpSMulExtended a)) (fun a => required (E := E) (Core_OpSMulExtended a)).
Proof. apply (op_of_good read_OpSMulExtended any). good read_OpSMulExtended. Qed.
Lemma op_OpBitwiseOr : OpReads read_OpBitwiseOr any True
  (fun a => operands (E := E) (Core_OpBitwiseOr a)) (fun a => required (E := E) (Core_OpBitwiseOr a)).
Proof. apply (op_of_good read_OpBitwiseOr any). good read_OpBitwiseOr. Qed.
Lemma op_OpBitwiseXor : OpReads read_OpBitwiseXor any True
  (fun a => operands (E := E) (Core_OpBitwiseXor a)) (fun a => required (E := E) (Core_OpBitwiseXor a)).
Proof. apply (op_of_good read_OpBitwiseXor any). good read_OpBitwiseXor. Qed.
Lemma op_OpBitwiseAnd : OpReads read_OpBitwiseAnd any True
  (fun a => operands (E := E) (Core_OpBitwiseAnd a)) (fun a => required (E := E) (Core_OpBitwiseAnd a)).
Proof. apply (op_of_good read_OpBitwiseAnd any). good read_OpBitwiseAnd. Qed.
Lemma op_OpIEqual : OpReads read_OpIEqual any True
  (fun a => operands (E := E) (Core_OpIEqual a)) (fun a => required (E := E) (Core_OpIEqual a)).
Proof. apply (op_of_good read_OpIEqual any). good read_OpIEqual. Qed.
Lemma op_OpINotEqual : OpReads read_OpINotEqual any True
  (fun a => operands (E := E) (Core_OpINotEqual a)) (fun a => required (E := E) (Core_OpINotEqual a)).
Proof. apply (op_of_good read_OpINotEqual any). good read_OpINotEqual. Qed.
Lemma op_OpUGreaterThan : OpReads read_OpUGreaterThan any True
  (fun a => operands (E := E) (Core_OpUGreaterThan a)) (fun a => required (E := E) (Core_OpUGreaterThan a)).
Proof. apply (op_of_good read_OpUGreaterThan any). good read_OpUGreaterThan. Qed.
Lemma op_OpSGreaterThan : OpReads read_OpSGreaterThan any True
  (fun a => operands (E := E) (Core_OpSGreaterThan a)) (fun a => required (E := E) (Core_OpSGreaterThan a)).
Proof. apply (op_of_good read_OpSGreaterThan any). good read_OpSGreaterThan. Qed.
Lemma op_OpUGreaterThanEqual : OpReads read_OpUGreaterThanEqual any True
  (fun a => operands (E := E) (Core_OpUGreaterThanEqual a)) (fun a => required (E := E) (Core_OpUGreaterThanEqual a)).
Proof. apply (op_of_good read_OpUGreaterThanEqual any). good read_OpUGreaterThanEqual. Qed.
Lemma op_OpSGreaterThanEqual : OpReads read_OpSGreaterThanEqual any True
  (fun a => operands (E := E) (Core_OpSGreaterThanEqual a)) (fun a => required (E := E) (Core_OpSGreaterThanEqual a)).
Proof. apply (op_of_good read_OpSGreaterThanEqual any). good read_OpSGreaterThanEqual. Qed.
Lemma op_OpULessThan : OpReads read_OpULessThan any True
  (fun a => operands (E := E) (Core_OpULessThan a)) (fun a => required (E := E) (Core_OpULessThan a)).
Proof. apply (op_of_good read_OpULessThan any). good read_OpULessThan. Qed.
Lemma op_OpSLessThan : OpReads read_OpSLessThan any True
  (fun a => operands (E := E) (Core_OpSLessThan a)) (fun a => required (E := E) (Core_OpSLessThan a)).
Proof. apply (op_of_good read_OpSLessThan any). good read_OpSLessThan. Qed.
Lemma op_OpULessThanEqual : OpReads read_OpULessThanEqual any True
  (fun a => operands (E := E) (Core_OpULessThanEqual a)) (fun a => required (E := E) (Core_OpULessThanEqual a)).
Proof. apply (op_of_good read_OpULessThanEqual any). good read_OpULessThanEqual. Qed.
Lemma op_OpSLessThanEqual : OpReads read_OpSLessThanEqual any True
  (fun a => operands (E := E) (Core_OpSLessThanEqual a)) (fun a => required (E := E) (Core_OpSLessThanEqual a)).
Proof. apply (op_of_good read_OpSLessThanEqual any). good read_OpSLessThanEqual. Qed.
Lemma op_OpFOrdEqual : OpReads read_OpFOrdEqual any True
  (fun a => operands (E := E) (Core_OpFOrdEqual a)) (fun a => required (E := E) (Core_OpFOrdEqual a)).
Proof. apply (op_of_good read_OpFOrdEqual any). good read_OpFOrdEqual. Qed.
Lemma op_OpFUnordEqual : OpReads read_OpFUnordEqual any True
  (fun a => operands (E := E) (Core_OpFUnordEqual a)) (fun a => required (E := E) (Core_OpFUnordEqual a)).
Proof. apply (op_of_good read_OpFUnordEqual any). good read_OpFUnordEqual. Qed.
Lemma op_OpFOrdNotEqual : OpReads read_OpFOrdNotEqual any True
  (fun a => operands (E := E) (Core_OpFOrdNotEqual a)) (fun a => required (E := E) (Core_OpFOrdNotEqual a)).
Proof. apply (op_of_good read_OpFOrdNotEqual any). good read_OpFOrdNotEqual. Qed.
Lemma op_OpFUnordNotEqual : OpReads read_OpFUnordNotEqual any True
  (fun a => operands (E := E) (Core_OpFUnordNotEqual a)) (fun a => required (E := E) (Core_OpFUnordNotEqual a)).
Proof. apply (op_of_good read_OpFUnordNotEqual any). good read_OpFUnordNotEqual. Qed.
Lemma op_OpFOrdLessThan : OpReads read_OpFOrdLessThan any True
  (fun a => operands (E := E) (Core_OpFOrdLessThan a)) (fun a => required (E := E) (Core_OpFOrdLessThan a)).
Proof. apply (op_of_good read_OpFOrdLessThan any). good read_OpFOrdLessThan. Qed.
Lemma op_OpFUnordLessThan : OpReads read_OpFUnordLessThan any True
  (fun a => operands (E := E) (Core_OpFUnordLessThan a)) (fun a => required (E := E) (Core_OpFUnordLessThan a)).
Proof. apply (op_of_good read_OpFUnordLessThan any). good read_OpFUnordLessThan. Qed.
Lemma op_OpFOrdGreaterThan : OpReads read_OpFOrdGreaterThan any True
  (fun a => operands (E := E) (Core_OpFOrdGreaterThan a)) (fun a => required (E := E) (Core_OpFOrdGreaterThan a)).
Proof. apply (op_of_good read_OpFOrdGreaterThan any). good read_OpFOrdGreaterThan. Qed.
Lemma op_OpFUnordGreaterThan : OpReads read_OpFUnordGreaterThan any True
  (fun a => operands (E := E) (Core_OpFUnordGreaterThan a)) (fun a => required (E := E) (Core_OpFUnordGreaterThan a)).
Proof. apply (op_of_good read_OpFUnordGreaterThan any). good read_OpFUnordGreaterThan. Qed.
Lemma op_OpFOrdLessThanEqual : OpReads read_OpFOrdLessThanEqual any True
  (fun a => operands (E := E) (Core_OpFOrdLessThanEqual a)) (fun a => required (E := E) (Core_OpFOrdLessThanEqual a)).
Proof. apply (op_of_good read_OpFOrdLessThanEqual any). good read_OpFOrdLessThanEqual. Qed.
Lemma op_OpFUnordLessThanEqual : OpReads read_OpFUnordLessThanEqual any True
  (fun a => operands (E := E) (Core_OpFUnordLessThanEqual a)) (fun a => required (E := E) (Core_OpFUnordLessThanEqual a)).
Proof. apply (op_of_good read_OpFUnordLessThanEqual any). good read_OpFUnordLessThanEqual. Qed.
Lemma op_OpFOrdGreaterThanEqual : OpReads read_OpFOrdGreaterThanEqual any True
  (fun a => operands (E := E) (Core_OpFOrdGreaterThanEqual a)) (fun a => required (E := E) (Core_OpFOrdGreaterThanEqual a)).
Proof. apply (op_of_good read_OpFOrdGreaterThanEqual any). good read_OpFOrdGreaterThanEqual. Qed.
Lemma op_OpFUnordGreaterThanEqual : OpReads read_OpFUnordGreaterThanEqual any True
  (fun a => operands (E := E) (Core_OpFUnordGreaterThanEqual a)) (fun a => required (E := E) (Core_OpFUnordGreaterThanEqual a)).
Proof. apply (op_of_good read_OpFUnordGreaterThanEqual any). good read_OpFUnordGreaterThanEqual. Qed.
Lemma op_OpPhi : OpReads read_OpPhi any False
  (fun a => operands (E := E) (Core_OpPhi a)) (fun a => required (E := E) (Core_OpPhi a)).
Proof. tail_op read_OpPhi. Qed.
Lemma op_OpLoopMerge : OpReads read_OpLoopMerge any True
  (fun a => operands (E := E) (Core_OpLoopMerge a)) (fun a => required (E := E) (Core_OpLoopMerge a)).
Proof. apply (op_of_good read_OpLoopMerge any). good read_OpLoopMerge. Qed.
Lemma op_OpSelectionMerge : OpReads read_OpSelectionMerge any True
  (fun a => operands (E := E) (Core_OpSelectionMerge a)) (fun a => required (E := E) (Core_OpSelectionMerge a)).
Proof. apply (op_of_good read_OpSelectionMerge any). good read_OpSelectionMerge. Qed.
Lemma op_OpLabel : OpReads read_OpLabel any True
  (fun a => operands (E := E) (Core_OpLabel a)) (fun a => required (E := E) (Core_OpLabel a)).
Proof. apply (op_of_good read_OpLabel any). good read_OpLabel. Qed.
Lemma op_OpBranch : OpReads read_OpBranch any True
  (fun a => operands (E := E) (Core_OpBranch a)) (fun a => required (E := E) (Core_OpBranch a)).
Proof. apply (op_of_good read_OpBranch any). good read_OpBranch. Qed.
Lemma op_OpBranchConditional : OpReads read_OpBranchConditional any False
  (fun a => operands (E := E) (Core_OpBranchConditional a)) (fun a => required (E := E) (Core_OpBranchConditional a)).
Proof. tail_op read_OpBranchConditional. Qed.
Lemma op_OpReturn : OpReads read_OpReturn any True
  (fun a => operands (E := E) (Core_OpReturn a)) (fun a => required (E := E) (Core_OpReturn a)).
Proof. apply (op_of_good read_OpReturn any). good read_OpReturn. Qed.
End Ops.
