(** How many steps an instruction takes for its words (C126). *)
From Verif Require Import Base Types Ops ReadErr Utf8 ReadBase ReadOperands ExtSet ReadOps Reader CountBase CountOperands CountOps.
From Verif Require Import Proofs_ReadCost.
Local Open Scope nat_scope.

Lemma takes_word : takes read_word.
Proof. intros [|w block] rest a H; cbn in H; inversion H; subst. cbn. lia. Qed.

Lemma takes_OpId : takes read_OpId.
Proof. intros [|w block] rest a H; cbn in H; inversion H; subst. cbn. lia. Qed.

Lemma takes_u32 : takes read_u32.
Proof. exact takes_word. Qed.

Lemma takes_PhiArg : takes read_PhiArg.
Proof. intros [|w [|v block]] rest a H; cbn in H; inversion H; subst. cbn. lia. Qed.

Lemma linear_OpId_8 : linear 8 count_OpId read_OpId.
Proof. price. Qed.

Lemma linear_u32_8 : linear 8 count_u32 read_u32.
Proof. price. Qed.

#[global] Hint Resolve linear_OpId_8 linear_u32_8 : price.

Lemma linear_PhiArg_8 : linear 8 count_PhiArg read_PhiArg.
Proof. price. Qed.

Lemma linear_Vec_8 : forall A size (c : CountReader A) r, linear 8 c r -> takes r ->
  linear 9 (count_Vec size c) (read_Vec size r).
Proof. intros. change 9 with (8 + 1). apply linear_Vec; assumption. Qed.

#[global] Hint Resolve takes_OpId takes_u32 takes_PhiArg linear_PhiArg_8 linear_Vec_8 linear_Option : price.

Lemma linear_OpNop : linear 9 count_OpNop read_OpNop.
Proof. price. Qed.
#[global] Hint Resolve linear_OpNop : price.

Lemma linear_OpUndef : linear 9 count_OpUndef read_OpUndef.
Proof. price. Qed.
#[global] Hint Resolve linear_OpUndef : price.

Lemma linear_OpSourceContinued : linear 9 count_OpSourceContinued read_OpSourceContinued.
Proof. price. Qed.
#[global] Hint Resolve linear_OpSourceContinued : price.

Lemma linear_OpSource : linear 9 count_OpSource read_OpSource.
Proof. price. Qed.
#[global] Hint Resolve linear_OpSource : price.

Lemma linear_OpSourceExtension : linear 9 count_OpSourceExtension read_OpSourceExtension.
Proof. price. Qed.
#[global] Hint Resolve linear_OpSourceExtension : price.

Lemma linear_OpName : linear 9 count_OpName read_OpName.
Proof. price. Qed.
#[global] Hint Resolve linear_OpName : price.

Lemma linear_OpMemberName : linear 9 count_OpMemberName read_OpMemberName.
Proof. price. Qed.
#[global] Hint Resolve linear_OpMemberName : price.

Lemma linear_OpString : linear 9 count_OpString read_OpString.
Proof. price. Qed.
#[global] Hint Resolve linear_OpString : price.

Lemma linear_OpExtension : linear 9 count_OpExtension read_OpExtension.
Proof. price. Qed.
#[global] Hint Resolve linear_OpExtension : price.

Lemma linear_OpMemoryModel : linear 9 count_OpMemoryModel read_OpMemoryModel.
Proof. price. Qed.
#[global] Hint Resolve linear_OpMemoryModel : price.

Lemma linear_OpEntryPoint : linear 9 count_OpEntryPoint read_OpEntryPoint.
Proof. price. Qed.
#[global] Hint Resolve linear_OpEntryPoint : price.

Lemma linear_OpExecutionMode : linear 9 count_OpExecutionMode read_OpExecutionMode.
Proof. price. Qed.
#[global] Hint Resolve linear_OpExecutionMode : price.

Lemma linear_OpCapability : linear 9 count_OpCapability read_OpCapability.
Proof. price. Qed.
#[global] Hint Resolve linear_OpCapability : price.

Lemma linear_OpTypeVoid : linear 9 count_OpTypeVoid read_OpTypeVoid.
Proof. price. Qed.
#[global] Hint Resolve linear_OpTypeVoid : price.

Lemma linear_OpTypeBool : linear 9 count_OpTypeBool read_OpTypeBool.
Proof. price. Qed.
#[global] Hint Resolve linear_OpTypeBool : price.

Lemma linear_OpTypeInt : linear 9 count_OpTypeInt read_OpTypeInt.
Proof. price. Qed.
#[global] Hint Resolve linear_OpTypeInt : price.

Lemma linear_OpTypeFloat : linear 9 count_OpTypeFloat read_OpTypeFloat.
Proof. price. Qed.
#[global] Hint Resolve linear_OpTypeFloat : price.

Lemma linear_OpTypeVector : linear 9 count_OpTypeVector read_OpTypeVector.
Proof. price. Qed.
#[global] Hint Resolve linear_OpTypeVector : price.

Lemma linear_OpTypeMatrix : linear 9 count_OpTypeMatrix read_OpTypeMatrix.
Proof. price. Qed.
#[global] Hint Resolve linear_OpTypeMatrix : price.

Lemma linear_OpTypeImage : linear 9 count_OpTypeImage read_OpTypeImage.
Proof. price. Qed.
#[global] Hint Resolve linear_OpTypeImage : price.

Lemma linear_OpTypeSampler : linear 9 count_OpTypeSampler read_OpTypeSampler.
Proof. price. Qed.
#[global] Hint Resolve linear_OpTypeSampler : price.

Lemma linear_OpTypeSampledImage : linear 9 count_OpTypeSampledImage read_OpTypeSampledImage.
Proof. price. Qed.
#[global] Hint Resolve linear_OpTypeSampledImage : price.

Lemma linear_OpTypeArray : linear 9 count_OpTypeArray read_OpTypeArray.
Proof. price. Qed.
#[global] Hint Resolve linear_OpTypeArray : price.

Lemma linear_OpTypeRuntimeArray : linear 9 count_OpTypeRuntimeArray read_OpTypeRuntimeArray.
Proof. price. Qed.
#[global] Hint Resolve linear_OpTypeRuntimeArray : price.

Lemma linear_OpTypeStruct : linear 9 count_OpTypeStruct read_OpTypeStruct.
Proof. price. Qed.
#[global] Hint Resolve linear_OpTypeStruct : price.

Lemma linear_OpTypeOpaque : linear 9 count_OpTypeOpaque read_OpTypeOpaque.
Proof. price. Qed.
#[global] Hint Resolve linear_OpTypeOpaque : price.

Lemma linear_OpTypePointer : linear 9 count_OpTypePointer read_OpTypePointer.
Proof. price. Qed.
#[global] Hint Resolve linear_OpTypePointer : price.

Lemma linear_OpTypeFunction : linear 9 count_OpTypeFunction read_OpTypeFunction.
Proof. price. Qed.
#[global] Hint Resolve linear_OpTypeFunction : price.

Lemma linear_OpConstant : linear 9 count_OpConstant read_OpConstant.
Proof. price. Qed.
#[global] Hint Resolve linear_OpConstant : price.

Lemma linear_OpConstantComposite : linear 9 count_OpConstantComposite read_OpConstantComposite.
Proof. price. Qed.
#[global] Hint Resolve linear_OpConstantComposite : price.

Lemma linear_OpFunction : linear 9 count_OpFunction read_OpFunction.
Proof. price. Qed.
#[global] Hint Resolve linear_OpFunction : price.

Lemma linear_OpFunctionParameter : linear 9 count_OpFunctionParameter read_OpFunctionParameter.
Proof. price. Qed.
#[global] Hint Resolve linear_OpFunctionParameter : price.

Lemma linear_OpFunctionEnd : linear 9 count_OpFunctionEnd read_OpFunctionEnd.
Proof. price. Qed.
#[global] Hint Resolve linear_OpFunctionEnd : price.

Lemma linear_OpVariable : linear 9 count_OpVariable read_OpVariable.
Proof. price. Qed.
#[global] Hint Resolve linear_OpVariable : price.

Lemma linear_OpLoad : linear 9 count_OpLoad read_OpLoad.
Proof. price. Qed.
#[global] Hint Resolve linear_OpLoad : price.

Lemma linear_OpStore : linear 9 count_OpStore read_OpStore.
Proof. price. Qed.
#[global] Hint Resolve linear_OpStore : price.

Lemma linear_OpAccessChain : linear 9 count_OpAccessChain read_OpAccessChain.
Proof. price. Qed.
#[global] Hint Resolve linear_OpAccessChain : price.

Lemma linear_OpDecorate : linear 9 count_OpDecorate read_OpDecorate.
Proof. price. Qed.
#[global] Hint Resolve linear_OpDecorate : price.

Lemma linear_OpMemberDecorate : linear 9 count_OpMemberDecorate read_OpMemberDecorate.
Proof. price. Qed.
#[global] Hint Resolve linear_OpMemberDecorate : price.

Lemma linear_OpConvertUToF : linear 9 count_OpConvertUToF read_OpConvertUToF.
Proof. price. Qed.
#[global] Hint Resolve linear_OpConvertUToF : price.

Lemma linear_OpBitcast : linear 9 count_OpBitcast read_OpBitcast.
Proof. price. Qed.
#[global] Hint Resolve linear_OpBitcast : price.

Lemma linear_OpIAdd : linear 9 count_OpIAdd read_OpIAdd.
Proof. price. Qed.
#[global] Hint Resolve linear_OpIAdd : price.

Lemma linear_OpFAdd : linear 9 count_OpFAdd read_OpFAdd.
Proof. price. Qed.
#[global] Hint Resolve linear_OpFAdd : price.

Lemma linear_OpISub : linear 9 count_OpISub read_OpISub.
Proof. price. Qed.
#[global] Hint Resolve linear_OpISub : price.

Lemma linear_OpFSub : linear 9 count_OpFSub read_OpFSub.
Proof. price. Qed.
#[global] Hint Resolve linear_OpFSub : price.

Lemma linear_OpIMul : linear 9 count_OpIMul read_OpIMul.
Proof. price. Qed.
#[global] Hint Resolve linear_OpIMul : price.

Lemma linear_OpFMul : linear 9 count_OpFMul read_OpFMul.
Proof. price. Qed.
#[global] Hint Resolve linear_OpFMul : price.

Lemma linear_OpUDiv : linear 9 count_OpUDiv read_OpUDiv.
Proof. price. Qed.
#[global] Hint Resolve linear_OpUDiv : price.

Lemma linear_OpSDiv : linear 9 count_OpSDiv read_OpSDiv.
Proof. price. Qed.
#[global] Hint Resolve linear_OpSDiv : price.

Lemma linear_OpFDiv : linear 9 count_OpFDiv read_OpFDiv.
Proof. price. Qed.
#[global] Hint Resolve linear_OpFDiv : price.

Lemma linear_OpUMod : linear 9 count_OpUMod read_OpUMod.
Proof. price. Qed.
#[global] Hint Resolve linear_OpUMod : price.

Lemma linear_OpSRem : linear 9 count_OpSRem read_OpSRem.
Proof. price. Qed.
#[global] Hint Resolve linear_OpSRem : price.

Lemma linear_OpSMod : linear 9 count_OpSMod read_OpSMod.
Proof. price. Qed.
#[global] Hint Resolve linear_OpSMod : price.

Lemma linear_OpFRem : linear 9 count_OpFRem read_OpFRem.
Proof. price. Qed.
#[global] Hint Resolve linear_OpFRem : price.

Lemma linear_OpFMod : linear 9 count_OpFMod read_OpFMod.
Proof. price. Qed.
#[global] Hint Resolve linear_OpFMod : price.

Lemma linear_OpIAddCarry : linear 9 count_OpIAddCarry read_OpIAddCarry.
Proof. price. Qed.
#[global] Hint Resolve linear_OpIAddCarry : price.

Lemma linear_OpISubBorrow : linear 9 count_OpISubBorrow read_OpISubBorrow.
Proof. price. Qed.
#[global] Hint Resolve linear_OpISubBorrow : price.

Lemma linear_OpUMulExtended : linear 9 count_OpUMulExtended read_OpUMulExtended.
Proof. price. Qed.
#[global] Hint Resolve linear_OpUMulExtended : price.

Lemma linear_OpSMulExtended : linear 9 count_OpSMulExtended read_OpSMulExtended.
Proof. price. Qed.
#[global] Hint Resolve linear_OpSMulExtended : price.

Lemma linear_OpBitwiseOr : linear 9 count_OpBitwiseOr read_OpBitwiseOr.
Proof. price. Qed.
#[global] Hint Resolve linear_OpBitwiseOr : price.

Lemma linear_OpBitwiseXor : linear 9 count_OpBitwiseXor read_OpBitwiseXor.
Proof. price. Qed.
#[global] Hint Resolve linear_OpBitwiseXor : price.

Lemma linear_OpBitwiseAnd : linear 9 count_OpBitwiseAnd read_OpBitwiseAnd.
Proof. price. Qed.
#[global] Hint Resolve linear_OpBitwiseAnd : price.

Lemma linear_OpIEqual : linear 9 count_OpIEqual read_OpIEqual.
Proof. price. Qed.
#[global] Hint Resolve linear_OpIEqual : price.

Lemma linear_OpINotEqual : linear 9 count_OpINotEqual read_OpINotEqual.
Proof. price. Qed.
#[global] Hint Resolve linear_OpINotEqual : price.

Lemma linear_OpUGreaterThan : linear 9 count_OpUGreaterThan read_OpUGreaterThan.
Proof. price. Qed.
#[global] Hint Resolve linear_OpUGreaterThan : price.

Lemma linear_OpSGreaterThan : linear 9 count_OpSGreaterThan read_OpSGreaterThan.
Proof. price. Qed.
#[global] Hint Resolve linear_OpSGreaterThan : price.

Lemma linear_OpUGreaterThanEqual : linear 9 count_OpUGreaterThanEqual read_OpUGreaterThanEqual.
Proof. price. Qed.
#[global] Hint Resolve linear_OpUGreaterThanEqual : price.

Lemma linear_OpSGreaterThanEqual : linear 9 count_OpSGreaterThanEqual read_OpSGreaterThanEqual.
Proof. price. Qed.
#[global] Hint Resolve linear_OpSGreaterThanEqual : price.

Lemma linear_OpULessThan : linear 9 count_OpULessThan read_OpULessThan.
Proof. price. Qed.
#[global] Hint Resolve linear_OpULessThan : price.

Lemma linear_OpSLessThan : linear 9 count_OpSLessThan read_OpSLessThan.
Proof. price. Qed.
#[global] Hint Resolve linear_OpSLessThan : price.

Lemma linear_OpULessThanEqual : linear 9 count_OpULessThanEqual read_OpULessThanEqual.
Proof. price. Qed.
#[global] Hint Resolve linear_OpULessThanEqual : price.

Lemma linear_OpSLessThanEqual : linear 9 count_OpSLessThanEqual read_OpSLessThanEqual.
Proof. price. Qed.
#[global] Hint Resolve linear_OpSLessThanEqual : price.

Lemma linear_OpFOrdEqual : linear 9 count_OpFOrdEqual read_OpFOrdEqual.
Proof. price. Qed.
#[global] Hint Resolve linear_OpFOrdEqual : price.

Lemma linear_OpFUnordEqual : linear 9 count_OpFUnordEqual read_OpFUnordEqual.
Proof. price. Qed.
#[global] Hint Resolve linear_OpFUnordEqual : price.

Lemma linear_OpFOrdNotEqual : linear 9 count_OpFOrdNotEqual read_OpFOrdNotEqual.
Proof. price. Qed.
#[global] Hint Resolve linear_OpFOrdNotEqual : price.

Lemma linear_OpFUnordNotEqual : linear 9 count_OpFUnordNotEqual read_OpFUnordNotEqual.
Proof. price. Qed.
#[global] Hint Resolve linear_OpFUnordNotEqual : price.

Lemma linear_OpFOrdLessThan : linear 9 count_OpFOrdLessThan read_OpFOrdLessThan.
Proof. price. Qed.
#[global] Hint Resolve linear_OpFOrdLessThan : price.

Lemma linear_OpFUnordLessThan : linear 9 count_OpFUnordLessThan read_OpFUnordLessThan.
Proof. price. Qed.
#[global] Hint Resolve linear_OpFUnordLessThan : price.

Lemma linear_OpFOrdGreaterThan : linear 9 count_OpFOrdGreaterThan read_OpFOrdGreaterThan.
Proof. price. Qed.
#[global] Hint Resolve linear_OpFOrdGreaterThan : price.

Lemma linear_OpFUnordGreaterThan : linear 9 count_OpFUnordGreaterThan read_OpFUnordGreaterThan.
Proof. price. Qed.
#[global] Hint Resolve linear_OpFUnordGreaterThan : price.

Lemma linear_OpFOrdLessThanEqual : linear 9 count_OpFOrdLessThanEqual read_OpFOrdLessThanEqual.
Proof. price. Qed.
#[global] Hint Resolve linear_OpFOrdLessThanEqual : price.

Lemma linear_OpFUnordLessThanEqual : linear 9 count_OpFUnordLessThanEqual read_OpFUnordLessThanEqual.
Proof. price. Qed.
#[global] Hint Resolve linear_OpFUnordLessThanEqual : price.

Lemma linear_OpFOrdGreaterThanEqual : linear 9 count_OpFOrdGreaterThanEqual read_OpFOrdGreaterThanEqual.
Proof. price. Qed.
#[global] Hint Resolve linear_OpFOrdGreaterThanEqual : price.

Lemma linear_OpFUnordGreaterThanEqual : linear 9 count_OpFUnordGreaterThanEqual read_OpFUnordGreaterThanEqual.
Proof. price. Qed.
#[global] Hint Resolve linear_OpFUnordGreaterThanEqual : price.

Lemma linear_OpPhi : linear 9 count_OpPhi read_OpPhi.
Proof. price. Qed.
#[global] Hint Resolve linear_OpPhi : price.

Lemma linear_OpLoopMerge : linear 9 count_OpLoopMerge read_OpLoopMerge.
Proof. price. Qed.
#[global] Hint Resolve linear_OpLoopMerge : price.

Lemma linear_OpSelectionMerge : linear 9 count_OpSelectionMerge read_OpSelectionMerge.
Proof. price. Qed.
#[global] Hint Resolve linear_OpSelectionMerge : price.

Lemma linear_OpLabel : linear 9 count_OpLabel read_OpLabel.
Proof. price. Qed.
#[global] Hint Resolve linear_OpLabel : price.

Lemma linear_OpBranch : linear 9 count_OpBranch read_OpBranch.
Proof. price. Qed.
#[global] Hint Resolve linear_OpBranch : price.

Lemma linear_OpBranchConditional : linear 9 count_OpBranchConditional read_OpBranchConditional.
Proof. price. Qed.
#[global] Hint Resolve linear_OpBranchConditional : price.

Lemma linear_OpReturn : linear 9 count_OpReturn read_OpReturn.
Proof. price. Qed.
#[global] Hint Resolve linear_OpReturn : price.
