(** Derived equality is structural equality (C73-C75). *)
From Verif Require Import Base Types Ops ReadErr Groups Validate ControlFlow Glsl450 EqBase Equality EqMore.

Class Exact {A} (eq : A -> A -> bool) : Prop := exact_iff : forall a b, eq a b = true <-> a = b.

#[export] Instance exact_N : Exact N.eqb.
Proof. intros a b. apply N.eqb_eq. Qed.
#[export] Instance exact_nat : Exact Nat.eqb.
Proof. intros a b. apply Nat.eqb_eq. Qed.
#[export] Instance exact_bool : Exact Bool.eqb.
Proof. intros a b. apply Bool.eqb_true_iff. Qed.
#[export] Instance exact_string : Exact String.eqb.
Proof. intros a b. apply String.eqb_eq. Qed.
#[export] Instance exact_Vec : forall {A} (eq : A -> A -> bool), Exact eq -> Exact (eq_Vec eq).
Proof.
  intros A eq X a. induction a as [|x a IH]; intros [|y b]; cbn; try (split; [discriminate|discriminate]); [split; reflexivity|].
  fold (eq_Vec eq). rewrite andb_true_iff, (exact_iff x y), IH. split; [intros [-> ->]; reflexivity|intros [= -> ->]; split; reflexivity].
Qed.
#[export] Instance exact_Option : forall {A} (eq : A -> A -> bool), Exact eq -> Exact (eq_Option eq).
Proof.
  intros A eq X [x|] [y|]; cbn [eq_Option]; try (split; [discriminate|discriminate]); [|split; reflexivity].
  rewrite (exact_iff x y). split; [intros ->; reflexivity|intros [= ->]; reflexivity].
Qed.

#[local] Arguments eq_Vec : simpl never.
#[local] Arguments eq_Option : simpl never.

(** Values with the same constructor and equal fields, or different constructors. *)
Ltac exact_with u :=
  let a := fresh "a" in let b := fresh "b" in intros a b; u;
  destruct a, b; cbv beta iota;
  repeat match goal with x : OpNop |- _ => destruct x | x : OpReturn |- _ => destruct x | x : OpFunctionEnd |- _ => destruct x end;
  try (split; discriminate); try (split; reflexivity); cbn;
  rewrite ?andb_true_iff; rewrite ?exact_iff;
  let H := fresh "H" in
  (split; [intros H; decompose [and] H; subst; reflexivity|intros H; injection H; intros; subst; repeat split; reflexivity]).

#[local] Arguments eq_Version : simpl never.
#[export] Instance exact_Version : Exact eq_Version.
Proof. exact_with ltac:(unfold eq_Version). Qed.
#[local] Arguments eq_Tool : simpl never.
#[export] Instance exact_Tool : Exact eq_Tool.
Proof. exact_with ltac:(unfold eq_Tool). Qed.
#[local] Arguments eq_SourceLanguage : simpl never.
#[export] Instance exact_SourceLanguage : Exact eq_SourceLanguage.
Proof. exact_with ltac:(unfold eq_SourceLanguage). Qed.
#[local] Arguments eq_BuiltIn : simpl never.
#[export] Instance exact_BuiltIn : Exact eq_BuiltIn.
Proof. exact_with ltac:(unfold eq_BuiltIn). Qed.
#[local] Arguments eq_FunctionParameterAttribute : simpl never.
#[export] Instance exact_FunctionParameterAttribute : Exact eq_FunctionParameterAttribute.
Proof. exact_with ltac:(unfold eq_FunctionParameterAttribute). Qed.
#[local] Arguments eq_FpRoundingMode : simpl never.
#[export] Instance exact_FpRoundingMode : Exact eq_FpRoundingMode.
Proof. exact_with ltac:(unfold eq_FpRoundingMode). Qed.
#[local] Arguments eq_LinkageType : simpl never.
#[export] Instance exact_LinkageType : Exact eq_LinkageType.
Proof. exact_with ltac:(unfold eq_LinkageType). Qed.
#[local] Arguments eq_AddressingModel : simpl never.
#[export] Instance exact_AddressingModel : Exact eq_AddressingModel.
Proof. exact_with ltac:(unfold eq_AddressingModel). Qed.
#[local] Arguments eq_MemoryModel : simpl never.
#[export] Instance exact_MemoryModel : Exact eq_MemoryModel.
Proof. exact_with ltac:(unfold eq_MemoryModel). Qed.
#[local] Arguments eq_ExecutionModel : simpl never.
#[export] Instance exact_ExecutionModel : Exact eq_ExecutionModel.
Proof. exact_with ltac:(unfold eq_ExecutionModel). Qed.
#[local] Arguments eq_ExecutionMode : simpl never.
#[export] Instance exact_ExecutionMode : Exact eq_ExecutionMode.
Proof. exact_with ltac:(unfold eq_ExecutionMode). Qed.
#[local] Arguments eq_Capability : simpl never.
#[export] Instance exact_Capability : Exact eq_Capability.
Proof. exact_with ltac:(unfold eq_Capability). Qed.
#[local] Arguments eq_Signedness : simpl never.
#[export] Instance exact_Signedness : Exact eq_Signedness.
Proof. exact_with ltac:(unfold eq_Signedness). Qed.
#[local] Arguments eq_StorageClass : simpl never.
#[export] Instance exact_StorageClass : Exact eq_StorageClass.
Proof. exact_with ltac:(unfold eq_StorageClass). Qed.
#[local] Arguments eq_Dim : simpl never.
#[export] Instance exact_Dim : Exact eq_Dim.
Proof. exact_with ltac:(unfold eq_Dim). Qed.
#[local] Arguments eq_DepthStatus : simpl never.
#[export] Instance exact_DepthStatus : Exact eq_DepthStatus.
Proof. exact_with ltac:(unfold eq_DepthStatus). Qed.
#[local] Arguments eq_Arrayed : simpl never.
#[export] Instance exact_Arrayed : Exact eq_Arrayed.
Proof. exact_with ltac:(unfold eq_Arrayed). Qed.
#[local] Arguments eq_MS : simpl never.
#[export] Instance exact_MS : Exact eq_MS.
Proof. exact_with ltac:(unfold eq_MS). Qed.
#[local] Arguments eq_SampledStatus : simpl never.
#[export] Instance exact_SampledStatus : Exact eq_SampledStatus.
Proof. exact_with ltac:(unfold eq_SampledStatus). Qed.
#[local] Arguments eq_ImageFormat : simpl never.
#[export] Instance exact_ImageFormat : Exact eq_ImageFormat.
Proof. exact_with ltac:(unfold eq_ImageFormat). Qed.
#[local] Arguments eq_AccessQualifier : simpl never.
#[export] Instance exact_AccessQualifier : Exact eq_AccessQualifier.
Proof. exact_with ltac:(unfold eq_AccessQualifier). Qed.
#[local] Arguments eq_Generator : simpl never.
#[export] Instance exact_Generator : Exact eq_Generator.
Proof. exact_with ltac:(unfold eq_Generator). Qed.
#[local] Arguments eq_FpFastMathMode : simpl never.
#[export] Instance exact_FpFastMathMode : Exact eq_FpFastMathMode.
Proof. exact_with ltac:(unfold eq_FpFastMathMode). Qed.
#[local] Arguments eq_MemoryAccess : simpl never.
#[export] Instance exact_MemoryAccess : Exact eq_MemoryAccess.
Proof. exact_with ltac:(unfold eq_MemoryAccess). Qed.
#[local] Arguments eq_FunctionControl : simpl never.
#[export] Instance exact_FunctionControl : Exact eq_FunctionControl.
Proof. exact_with ltac:(unfold eq_FunctionControl). Qed.
#[local] Arguments eq_LoopControl : simpl never.
#[export] Instance exact_LoopControl : Exact eq_LoopControl.
Proof. exact_with ltac:(unfold eq_LoopControl). Qed.
#[local] Arguments eq_SelectionControl : simpl never.
#[export] Instance exact_SelectionControl : Exact eq_SelectionControl.
Proof. exact_with ltac:(unfold eq_SelectionControl). Qed.
#[local] Arguments eq_PhiArg : simpl never.
#[export] Instance exact_PhiArg : Exact eq_PhiArg.
Proof. exact_with ltac:(unfold eq_PhiArg). Qed.
#[local] Arguments eq_BranchWeights : simpl never.
#[export] Instance exact_BranchWeights : Exact eq_BranchWeights.
Proof. exact_with ltac:(unfold eq_BranchWeights). Qed.
#[local] Arguments eq_Decoration : simpl never.
#[export] Instance exact_Decoration : Exact eq_Decoration.
Proof. exact_with ltac:(unfold eq_Decoration). Qed.
#[local] Arguments eq_OpNop : simpl never.
#[export] Instance exact_OpNop : Exact eq_OpNop.
Proof. exact_with ltac:(unfold eq_OpNop). Qed.
#[local] Arguments eq_OpUndef : simpl never.
#[export] Instance exact_OpUndef : Exact eq_OpUndef.
Proof. exact_with ltac:(unfold eq_OpUndef). Qed.
#[local] Arguments eq_OpSourceContinued : simpl never.
#[export] Instance exact_OpSourceContinued : Exact eq_OpSourceContinued.
Proof. exact_with ltac:(unfold eq_OpSourceContinued). Qed.
#[local] Arguments eq_OpSource : simpl never.
#[export] Instance exact_OpSource : Exact eq_OpSource.
Proof. exact_with ltac:(unfold eq_OpSource). Qed.
#[local] Arguments eq_OpSourceExtension : simpl never.
#[export] Instance exact_OpSourceExtension : Exact eq_OpSourceExtension.
Proof. exact_with ltac:(unfold eq_OpSourceExtension). Qed.
#[local] Arguments eq_OpName : simpl never.
#[export] Instance exact_OpName : Exact eq_OpName.
Proof. exact_with ltac:(unfold eq_OpName). Qed.
#[local] Arguments eq_OpMemberName : simpl never.
#[export] Instance exact_OpMemberName : Exact eq_OpMemberName.
Proof. exact_with ltac:(unfold eq_OpMemberName). Qed.
#[local] Arguments eq_OpString : simpl never.
#[export] Instance exact_OpString : Exact eq_OpString.
Proof. exact_with ltac:(unfold eq_OpString). Qed.
#[local] Arguments eq_OpExtension : simpl never.
#[export] Instance exact_OpExtension : Exact eq_OpExtension.
Proof. exact_with ltac:(unfold eq_OpExtension). Qed.
#[local] Arguments eq_OpExtInstImport : simpl never.
#[export] Instance exact_OpExtInstImport : Exact eq_OpExtInstImport.
Proof. exact_with ltac:(unfold eq_OpExtInstImport). Qed.
#[local] Arguments eq_OpMemoryModel : simpl never.
#[export] Instance exact_OpMemoryModel : Exact eq_OpMemoryModel.
Proof. exact_with ltac:(unfold eq_OpMemoryModel). Qed.
#[local] Arguments eq_OpEntryPoint : simpl never.
#[export] Instance exact_OpEntryPoint : Exact eq_OpEntryPoint.
Proof. exact_with ltac:(unfold eq_OpEntryPoint). Qed.
#[local] Arguments eq_OpExecutionMode : simpl never.
#[export] Instance exact_OpExecutionMode : Exact eq_OpExecutionMode.
Proof. exact_with ltac:(unfold eq_OpExecutionMode). Qed.
#[local] Arguments eq_OpCapability : simpl never.
#[export] Instance exact_OpCapability : Exact eq_OpCapability.
Proof. exact_with ltac:(unfold eq_OpCapability). Qed.
#[local] Arguments eq_OpTypeVoid : simpl never.
#[export] Instance exact_OpTypeVoid : Exact eq_OpTypeVoid.
Proof. exact_with ltac:(unfold eq_OpTypeVoid). Qed.
#[local] Arguments eq_OpTypeBool : simpl never.
#[export] Instance exact_OpTypeBool : Exact eq_OpTypeBool.
Proof. exact_with ltac:(unfold eq_OpTypeBool). Qed.
#[local] Arguments eq_OpTypeInt : simpl never.
#[export] Instance exact_OpTypeInt : Exact eq_OpTypeInt.
Proof. exact_with ltac:(unfold eq_OpTypeInt). Qed.
#[local] Arguments eq_OpTypeFloat : simpl never.
#[export] Instance exact_OpTypeFloat : Exact eq_OpTypeFloat.
Proof. exact_with ltac:(unfold eq_OpTypeFloat). Qed.
#[local] Arguments eq_OpTypeVector : simpl never.
#[export] Instance exact_OpTypeVector : Exact eq_OpTypeVector.
Proof. exact_with ltac:(unfold eq_OpTypeVector). Qed.
#[local] Arguments eq_OpTypeMatrix : simpl never.
#[export] Instance exact_OpTypeMatrix : Exact eq_OpTypeMatrix.
Proof. exact_with ltac:(unfold eq_OpTypeMatrix). Qed.
#[local] Arguments eq_OpTypeImage : simpl never.
#[export] Instance exact_OpTypeImage : Exact eq_OpTypeImage.
Proof. exact_with ltac:(unfold eq_OpTypeImage). Qed.
#[local] Arguments eq_OpTypeSampler : simpl never.
#[export] Instance exact_OpTypeSampler : Exact eq_OpTypeSampler.
Proof. exact_with ltac:(unfold eq_OpTypeSampler). Qed.
#[local] Arguments eq_OpTypeSampledImage : simpl never.
#[export] Instance exact_OpTypeSampledImage : Exact eq_OpTypeSampledImage.
Proof. exact_with ltac:(unfold eq_OpTypeSampledImage). Qed.
#[local] Arguments eq_OpTypeArray : simpl never.
#[export] Instance exact_OpTypeArray : Exact eq_OpTypeArray.
Proof. exact_with ltac:(unfold eq_OpTypeArray). Qed.
#[local] Arguments eq_OpTypeRuntimeArray : simpl never.
#[export] Instance exact_OpTypeRuntimeArray : Exact eq_OpTypeRuntimeArray.
Proof. exact_with ltac:(unfold eq_OpTypeRuntimeArray). Qed.
#[local] Arguments eq_OpTypeStruct : simpl never.
#[export] Instance exact_OpTypeStruct : Exact eq_OpTypeStruct.
Proof. exact_with ltac:(unfold eq_OpTypeStruct). Qed.
#[local] Arguments eq_OpTypeOpaque : simpl never.
#[export] Instance exact_OpTypeOpaque : Exact eq_OpTypeOpaque.
Proof. exact_with ltac:(unfold eq_OpTypeOpaque). Qed.
#[local] Arguments eq_OpTypePointer : simpl never.
#[export] Instance exact_OpTypePointer : Exact eq_OpTypePointer.
Proof. exact_with ltac:(unfold eq_OpTypePointer). Qed.
#[local] Arguments eq_OpTypeFunction : simpl never.
#[export] Instance exact_OpTypeFunction : Exact eq_OpTypeFunction.
Proof. exact_with ltac:(unfold eq_OpTypeFunction). Qed.
#[local] Arguments eq_OpTypeEvent : simpl never.
#[export] Instance exact_OpTypeEvent : Exact eq_OpTypeEvent.
Proof. exact_with ltac:(unfold eq_OpTypeEvent). Qed.
#[local] Arguments eq_OpTypeDeviceEvent : simpl never.
#[export] Instance exact_OpTypeDeviceEvent : Exact eq_OpTypeDeviceEvent.
Proof. exact_with ltac:(unfold eq_OpTypeDeviceEvent). Qed.
#[local] Arguments eq_OpTypeQueue : simpl never.
#[export] Instance exact_OpTypeQueue : Exact eq_OpTypeQueue.
Proof. exact_with ltac:(unfold eq_OpTypeQueue). Qed.
#[local] Arguments eq_OpTypePipe : simpl never.
#[export] Instance exact_OpTypePipe : Exact eq_OpTypePipe.
Proof. exact_with ltac:(unfold eq_OpTypePipe). Qed.
#[local] Arguments eq_OpTypeForwardPointer : simpl never.
#[export] Instance exact_OpTypeForwardPointer : Exact eq_OpTypeForwardPointer.
Proof. exact_with ltac:(unfold eq_OpTypeForwardPointer). Qed.
#[local] Arguments eq_OpConstant : simpl never.
#[export] Instance exact_OpConstant : Exact eq_OpConstant.
Proof. exact_with ltac:(unfold eq_OpConstant). Qed.
#[local] Arguments eq_OpConstantComposite : simpl never.
#[export] Instance exact_OpConstantComposite : Exact eq_OpConstantComposite.
Proof. exact_with ltac:(unfold eq_OpConstantComposite). Qed.
#[local] Arguments eq_OpFunction : simpl never.
#[export] Instance exact_OpFunction : Exact eq_OpFunction.
Proof. exact_with ltac:(unfold eq_OpFunction). Qed.
#[local] Arguments eq_OpFunctionParameter : simpl never.
#[export] Instance exact_OpFunctionParameter : Exact eq_OpFunctionParameter.
Proof. exact_with ltac:(unfold eq_OpFunctionParameter). Qed.
#[local] Arguments eq_OpFunctionEnd : simpl never.
#[export] Instance exact_OpFunctionEnd : Exact eq_OpFunctionEnd.
Proof. exact_with ltac:(unfold eq_OpFunctionEnd). Qed.
#[local] Arguments eq_OpVariable : simpl never.
#[export] Instance exact_OpVariable : Exact eq_OpVariable.
Proof. exact_with ltac:(unfold eq_OpVariable). Qed.
#[local] Arguments eq_OpLoad : simpl never.
#[export] Instance exact_OpLoad : Exact eq_OpLoad.
Proof. exact_with ltac:(unfold eq_OpLoad). Qed.
#[local] Arguments eq_OpStore : simpl never.
#[export] Instance exact_OpStore : Exact eq_OpStore.
Proof. exact_with ltac:(unfold eq_OpStore). Qed.
#[local] Arguments eq_OpAccessChain : simpl never.
#[export] Instance exact_OpAccessChain : Exact eq_OpAccessChain.
Proof. exact_with ltac:(unfold eq_OpAccessChain). Qed.
#[local] Arguments eq_OpDecorate : simpl never.
#[export] Instance exact_OpDecorate : Exact eq_OpDecorate.
Proof. exact_with ltac:(unfold eq_OpDecorate). Qed.
#[local] Arguments eq_OpMemberDecorate : simpl never.
#[export] Instance exact_OpMemberDecorate : Exact eq_OpMemberDecorate.
Proof. exact_with ltac:(unfold eq_OpMemberDecorate). Qed.
#[local] Arguments eq_OpConvertUToF : simpl never.
#[export] Instance exact_OpConvertUToF : Exact eq_OpConvertUToF.
Proof. exact_with ltac:(unfold eq_OpConvertUToF). Qed.
#[local] Arguments eq_OpBitcast : simpl never.
#[export] Instance exact_OpBitcast : Exact eq_OpBitcast.
Proof. exact_with ltac:(unfold eq_OpBitcast). Qed.
#[local] Arguments eq_OpIAdd : simpl never.
#[export] Instance exact_OpIAdd : Exact eq_OpIAdd.
Proof. exact_with ltac:(unfold eq_OpIAdd). Qed.
#[local] Arguments eq_OpFAdd : simpl never.
#[export] Instance exact_OpFAdd : Exact eq_OpFAdd.
Proof. exact_with ltac:(unfold eq_OpFAdd). Qed.
#[local] Arguments eq_OpISub : simpl never.
#[export] Instance exact_OpISub : Exact eq_OpISub.
Proof. exact_with ltac:(unfold eq_OpISub). Qed.
#[local] Arguments eq_OpFSub : simpl never.
#[export] Instance exact_OpFSub : Exact eq_OpFSub.
Proof. exact_with ltac:(unfold eq_OpFSub). Qed.
#[local] Arguments eq_OpIMul : simpl never.
#[export] Instance exact_OpIMul : Exact eq_OpIMul.
Proof. exact_with ltac:(unfold eq_OpIMul). Qed.
#[local] Arguments eq_OpFMul : simpl never.
#[export] Instance exact_OpFMul : Exact eq_OpFMul.
Proof. exact_with ltac:(unfold eq_OpFMul). Qed.
#[local] Arguments eq_OpUDiv : simpl never.
#[export] Instance exact_OpUDiv : Exact eq_OpUDiv.
Proof. exact_with ltac:(unfold eq_OpUDiv). Qed.
#[local] Arguments eq_OpSDiv : simpl never.
#[export] Instance exact_OpSDiv : Exact eq_OpSDiv.
Proof. exact_with ltac:(unfold eq_OpSDiv). Qed.
#[local] Arguments eq_OpFDiv : simpl never.
#[export] Instance exact_OpFDiv : Exact eq_OpFDiv.
Proof. exact_with ltac:(unfold eq_OpFDiv). Qed.
#[local] Arguments eq_OpUMod : simpl never.
#[export] Instance exact_OpUMod : Exact eq_OpUMod.
Proof. exact_with ltac:(unfold eq_OpUMod). Qed.
#[local] Arguments eq_OpSRem : simpl never.
#[export] Instance exact_OpSRem : Exact eq_OpSRem.
Proof. exact_with ltac:(unfold eq_OpSRem). Qed.
#[local] Arguments eq_OpSMod : simpl never.
#[export] Instance exact_OpSMod : Exact eq_OpSMod.
Proof. exact_with ltac:(unfold eq_OpSMod). Qed.
#[local] Arguments eq_OpFRem : simpl never.
#[export] Instance exact_OpFRem : Exact eq_OpFRem.
Proof. exact_with ltac:(unfold eq_OpFRem). Qed.
#[local] Arguments eq_OpFMod : simpl never.
#[export] Instance exact_OpFMod : Exact eq_OpFMod.
Proof. exact_with ltac:(unfold eq_OpFMod). Qed.
#[local] Arguments eq_OpIAddCarry : simpl never.
#[export] Instance exact_OpIAddCarry : Exact eq_OpIAddCarry.
Proof. exact_with ltac:(unfold eq_OpIAddCarry). Qed.
#[local] Arguments eq_OpISubBorrow : simpl never.
#[export] Instance exact_OpISubBorrow : Exact eq_OpISubBorrow.
Proof. exact_with ltac:(unfold eq_OpISubBorrow). Qed.
#[local] Arguments eq_OpUMulExtended : simpl never.
#[export] Instance exact_OpUMulExtended : Exact eq_OpUMulExtended.
Proof. exact_with ltac:(unfold eq_OpUMulExtended). Qed.
#[local] Arguments eq_OpSMulExtended : simpl never.
#[export] Instance exact_OpSMulExtended : Exact eq_OpSMulExtended.
Proof. exact_with ltac:(unfold eq_OpSMulExtended). Qed.
#[local] Arguments eq_OpBitwiseOr : simpl never.
#[export] Instance exact_OpBitwiseOr : Exact eq_OpBitwiseOr.
Proof. exact_with ltac:(unfold eq_OpBitwiseOr). Qed.
#[local] Arguments eq_OpBitwiseXor : simpl never.
#[export] Instance exact_OpBitwiseXor : Exact eq_OpBitwiseXor.
Proof. exact_with ltac:(unfold eq_OpBitwiseXor). Qed.
#[local] Arguments eq_OpBitwiseAnd : simpl never.
#[export] Instance exact_OpBitwiseAnd : Exact eq_OpBitwiseAnd.
Proof. exact_with ltac:(unfold eq_OpBitwiseAnd). Qed.
#[local] Arguments eq_OpIEqual : simpl never.
#[export] Instance exact_OpIEqual : Exact eq_OpIEqual.
Proof. exact_with ltac:(unfold eq_OpIEqual). Qed.
#[local] Arguments eq_OpINotEqual : simpl never.
#[export] Instance exact_OpINotEqual : Exact eq_OpINotEqual.
Proof. exact_with ltac:(unfold eq_OpINotEqual). Qed.
#[local] Arguments eq_OpUGreaterThan : simpl never.
#[export] Instance exact_OpUGreaterThan : Exact eq_OpUGreaterThan.
Proof. exact_with ltac:(unfold eq_OpUGreaterThan). Qed.
#[local] Arguments eq_OpSGreaterThan : simpl never.
#[export] Instance exact_OpSGreaterThan : Exact eq_OpSGreaterThan.
Proof. exact_with ltac:(unfold eq_OpSGreaterThan). Qed.
#[local] Arguments eq_OpUGreaterThanEqual : simpl never.
#[export] Instance exact_OpUGreaterThanEqual : Exact eq_OpUGreaterThanEqual.
Proof. exact_with ltac:(unfold eq_OpUGreaterThanEqual). Qed.
#[local] Arguments eq_OpSGreaterThanEqual : simpl never.
#[export] Instance exact_OpSGreaterThanEqual : Exact eq_OpSGreaterThanEqual.
Proof. exact_with ltac:(unfold eq_OpSGreaterThanEqual). Qed.
#[local] Arguments eq_OpULessThan : simpl never.
#[export] Instance exact_OpULessThan : Exact eq_OpULessThan.
Proof. exact_with ltac:(unfold eq_OpULessThan). Qed.
#[local] Arguments eq_OpSLessThan : simpl never.
#[export] Instance exact_OpSLessThan : Exact eq_OpSLessThan.
Proof. exact_with ltac:(unfold eq_OpSLessThan). Qed.
#[local] Arguments eq_OpULessThanEqual : simpl never.
#[export] Instance exact_OpULessThanEqual : Exact eq_OpULessThanEqual.
Proof. exact_with ltac:(unfold eq_OpULessThanEqual). Qed.
#[local] Arguments eq_OpSLessThanEqual : simpl never.
#[export] Instance exact_OpSLessThanEqual : Exact eq_OpSLessThanEqual.
Proof. exact_with ltac:(unfold eq_OpSLessThanEqual). Qed.
#[local] Arguments eq_OpFOrdEqual : simpl never.
#[export] Instance exact_OpFOrdEqual : Exact eq_OpFOrdEqual.
Proof. exact_with ltac:(unfold eq_OpFOrdEqual). Qed.
#[local] Arguments eq_OpFUnordEqual : simpl never.
#[export] Instance exact_OpFUnordEqual : Exact eq_OpFUnordEqual.
Proof. exact_with ltac:(unfold eq_OpFUnordEqual). Qed.
#[local] Arguments eq_OpFOrdNotEqual : simpl never.
#[export] Instance exact_OpFOrdNotEqual : Exact eq_OpFOrdNotEqual.
Proof. exact_with ltac:(unfold eq_OpFOrdNotEqual). Qed.
#[local] Arguments eq_OpFUnordNotEqual : simpl never.
#[export] Instance exact_OpFUnordNotEqual : Exact eq_OpFUnordNotEqual.
Proof. exact_with ltac:(unfold eq_OpFUnordNotEqual). Qed.
#[local] Arguments eq_OpFOrdLessThan : simpl never.
#[export] Instance exact_OpFOrdLessThan : Exact eq_OpFOrdLessThan.
Proof. exact_with ltac:(unfold eq_OpFOrdLessThan). Qed.
#[local] Arguments eq_OpFUnordLessThan : simpl never.
#[export] Instance exact_OpFUnordLessThan : Exact eq_OpFUnordLessThan.
Proof. exact_with ltac:(unfold eq_OpFUnordLessThan). Qed.
#[local] Arguments eq_OpFOrdGreaterThan : simpl never.
#[export] Instance exact_OpFOrdGreaterThan : Exact eq_OpFOrdGreaterThan.
Proof. exact_with ltac:(unfold eq_OpFOrdGreaterThan). Qed.
#[local] Arguments eq_OpFUnordGreaterThan : simpl never.
#[export] Instance exact_OpFUnordGreaterThan : Exact eq_OpFUnordGreaterThan.
Proof. exact_with ltac:(unfold eq_OpFUnordGreaterThan). Qed.
#[local] Arguments eq_OpFOrdLessThanEqual : simpl never.
#[export] Instance exact_OpFOrdLessThanEqual : Exact eq_OpFOrdLessThanEqual.
Proof. exact_with ltac:(unfold eq_OpFOrdLessThanEqual). Qed.
#[local] Arguments eq_OpFUnordLessThanEqual : simpl never.
#[export] Instance exact_OpFUnordLessThanEqual : Exact eq_OpFUnordLessThanEqual.
Proof. exact_with ltac:(unfold eq_OpFUnordLessThanEqual). Qed.
#[local] Arguments eq_OpFOrdGreaterThanEqual : simpl never.
#[export] Instance exact_OpFOrdGreaterThanEqual : Exact eq_OpFOrdGreaterThanEqual.
Proof. exact_with ltac:(unfold eq_OpFOrdGreaterThanEqual). Qed.
#[local] Arguments eq_OpFUnordGreaterThanEqual : simpl never.
#[export] Instance exact_OpFUnordGreaterThanEqual : Exact eq_OpFUnordGreaterThanEqual.
Proof. exact_with ltac:(unfold eq_OpFUnordGreaterThanEqual). Qed.
#[local] Arguments eq_OpPhi : simpl never.
#[export] Instance exact_OpPhi : Exact eq_OpPhi.
Proof. exact_with ltac:(unfold eq_OpPhi). Qed.
#[local] Arguments eq_OpLoopMerge : simpl never.
#[export] Instance exact_OpLoopMerge : Exact eq_OpLoopMerge.
Proof. exact_with ltac:(unfold eq_OpLoopMerge). Qed.
#[local] Arguments eq_OpSelectionMerge : simpl never.
#[export] Instance exact_OpSelectionMerge : Exact eq_OpSelectionMerge.
Proof. exact_with ltac:(unfold eq_OpSelectionMerge). Qed.
#[local] Arguments eq_OpLabel : simpl never.
#[export] Instance exact_OpLabel : Exact eq_OpLabel.
Proof. exact_with ltac:(unfold eq_OpLabel). Qed.
#[local] Arguments eq_OpBranch : simpl never.
#[export] Instance exact_OpBranch : Exact eq_OpBranch.
Proof. exact_with ltac:(unfold eq_OpBranch). Qed.
#[local] Arguments eq_OpBranchConditional : simpl never.
#[export] Instance exact_OpBranchConditional : Exact eq_OpBranchConditional.
Proof. exact_with ltac:(unfold eq_OpBranchConditional). Qed.
#[local] Arguments eq_OpReturn : simpl never.
#[export] Instance exact_OpReturn : Exact eq_OpReturn.
Proof. exact_with ltac:(unfold eq_OpReturn). Qed.
#[local] Arguments eq_ReadError : simpl never.
#[export] Instance exact_ReadError : Exact eq_ReadError.
Proof. exact_with ltac:(unfold eq_ReadError). Qed.
#[local] Arguments eq_GroupDebug : simpl never.
#[export] Instance exact_GroupDebug : Exact eq_GroupDebug.
Proof. exact_with ltac:(unfold eq_GroupDebug). Qed.
#[local] Arguments eq_GroupAnnotation : simpl never.
#[export] Instance exact_GroupAnnotation : Exact eq_GroupAnnotation.
Proof. exact_with ltac:(unfold eq_GroupAnnotation). Qed.
#[local] Arguments eq_GroupType : simpl never.
#[export] Instance exact_GroupType : Exact eq_GroupType.
Proof. exact_with ltac:(unfold eq_GroupType). Qed.
#[local] Arguments eq_GroupConstant : simpl never.
#[export] Instance exact_GroupConstant : Exact eq_GroupConstant.
Proof. exact_with ltac:(unfold eq_GroupConstant). Qed.
#[local] Arguments eq_GroupGlobal : simpl never.
#[export] Instance exact_GroupGlobal : Exact eq_GroupGlobal.
Proof. exact_with ltac:(unfold eq_GroupGlobal). Qed.
#[local] Arguments eq_GroupMerge : simpl never.
#[export] Instance exact_GroupMerge : Exact eq_GroupMerge.
Proof. exact_with ltac:(unfold eq_GroupMerge). Qed.
#[local] Arguments eq_GroupBranch : simpl never.
#[export] Instance exact_GroupBranch : Exact eq_GroupBranch.
Proof. exact_with ltac:(unfold eq_GroupBranch). Qed.
#[local] Arguments eq_FunctionDeclaration : simpl never.
#[export] Instance exact_FunctionDeclaration : Exact eq_FunctionDeclaration.
Proof. exact_with ltac:(unfold eq_FunctionDeclaration). Qed.
