(** Debug of the structs of Spec_More, and which instructions of the standard the crate has structs for (C91). *)
From Verif Require Import Base Types Ops MoreOps DebugBase Debug PlainOps DebugOps Spec_Tables Spec_Wire Spec_Names Spec_Opcodes Spec_Text Spec_Debug
  Spec_Shown Spec_More Spec_Plain Proofs_Debug Proofs_Debug2 Proofs_Shown Proofs_Plain.
Local Open Scope string_scope.

#[local] Arguments dbg_Vec : simpl never.
#[local] Arguments dbg_Option : simpl never.
#[local] Arguments dbg_OpId : simpl never.
#[local] Arguments dbg_ResultId : simpl never.
#[local] Arguments dbg_MemberIndex : simpl never.
#[local] Arguments dbg_StorageClass : simpl never.
#[local] Arguments dbg_MemoryAccess : simpl never.
#[export] Instance shown_Line {E} : Shown (@dbg_Line E).
Proof. shown_with ltac:(fun a => unfold dbg_Line in *). Qed.
#[local] Arguments dbg_Line : simpl never.
#[export] Instance shown_Column {E} : Shown (@dbg_Column E).
Proof. shown_with ltac:(fun a => unfold dbg_Column in *). Qed.
#[local] Arguments dbg_Column : simpl never.
#[export] Instance shown_SamplerAddressingMode {E} : Shown (@dbg_SamplerAddressingMode E).
Proof. shown_with ltac:(fun a => unfold dbg_SamplerAddressingMode in *). Qed.
#[local] Arguments dbg_SamplerAddressingMode : simpl never.
#[export] Instance shown_SamplerParam {E} : Shown (@dbg_SamplerParam E).
Proof. shown_with ltac:(fun a => unfold dbg_SamplerParam in *). Qed.
#[local] Arguments dbg_SamplerParam : simpl never.
#[export] Instance shown_SamplerFilterMode {E} : Shown (@dbg_SamplerFilterMode E).
Proof. shown_with ltac:(fun a => unfold dbg_SamplerFilterMode in *). Qed.
#[local] Arguments dbg_SamplerFilterMode : simpl never.
#[export] Instance shown_OpLine {E} : Shown (@dbg_OpLine E).
Proof. shown_with ltac:(fun a => unfold dbg_OpLine in *). Qed.
#[local] Arguments dbg_OpLine : simpl never.
#[export] Instance shown_OpNoLine {E} : Shown (@dbg_OpNoLine E).
Proof. shown_with ltac:(fun a => unfold dbg_OpNoLine in *). Qed.
#[local] Arguments dbg_OpNoLine : simpl never.
#[export] Instance shown_OpDecorationGroup {E} : Shown (@dbg_OpDecorationGroup E).
Proof. shown_with ltac:(fun a => unfold dbg_OpDecorationGroup in *). Qed.
#[local] Arguments dbg_OpDecorationGroup : simpl never.
#[export] Instance shown_OpGroupDecorate {E} : Shown (@dbg_OpGroupDecorate E).
Proof. shown_with ltac:(fun a => unfold dbg_OpGroupDecorate in *). Qed.
#[local] Arguments dbg_OpGroupDecorate : simpl never.
#[export] Instance shown_OpTypeReserveId {E} : Shown (@dbg_OpTypeReserveId E).
Proof. shown_with ltac:(fun a => unfold dbg_OpTypeReserveId in *). Qed.
#[local] Arguments dbg_OpTypeReserveId : simpl never.
#[export] Instance shown_OpConstantTrue {E} : Shown (@dbg_OpConstantTrue E).
Proof. shown_with ltac:(fun a => unfold dbg_OpConstantTrue in *). Qed.
#[local] Arguments dbg_OpConstantTrue : simpl never.
#[export] Instance shown_OpConstantFalse {E} : Shown (@dbg_OpConstantFalse E).
Proof. shown_with ltac:(fun a => unfold dbg_OpConstantFalse in *). Qed.
#[local] Arguments dbg_OpConstantFalse : simpl never.
#[export] Instance shown_OpConstantSampler {E} : Shown (@dbg_OpConstantSampler E).
Proof. shown_with ltac:(fun a => unfold dbg_OpConstantSampler in *). Qed.
#[local] Arguments dbg_OpConstantSampler : simpl never.
#[export] Instance shown_OpConstantNull {E} : Shown (@dbg_OpConstantNull E).
Proof. shown_with ltac:(fun a => unfold dbg_OpConstantNull in *). Qed.
#[local] Arguments dbg_OpConstantNull : simpl never.
#[export] Instance shown_OpSpecConstantTrue {E} : Shown (@dbg_OpSpecConstantTrue E).
Proof. shown_with ltac:(fun a => unfold dbg_OpSpecConstantTrue in *). Qed.
#[local] Arguments dbg_OpSpecConstantTrue : simpl never.
#[export] Instance shown_OpSpecConstantFalse {E} : Shown (@dbg_OpSpecConstantFalse E).
Proof. shown_with ltac:(fun a => unfold dbg_OpSpecConstantFalse in *). Qed.
#[local] Arguments dbg_OpSpecConstantFalse : simpl never.
#[export] Instance shown_OpSpecConstant {E} : Shown (@dbg_OpSpecConstant E).
Proof. shown_with ltac:(fun a => unfold dbg_OpSpecConstant in *). Qed.
#[local] Arguments dbg_OpSpecConstant : simpl never.
#[export] Instance shown_OpSpecConstantComposite {E} : Shown (@dbg_OpSpecConstantComposite E).
Proof. shown_with ltac:(fun a => unfold dbg_OpSpecConstantComposite in *). Qed.
#[local] Arguments dbg_OpSpecConstantComposite : simpl never.
#[export] Instance shown_OpImageTexelPointer {E} : Shown (@dbg_OpImageTexelPointer E).
Proof. shown_with ltac:(fun a => unfold dbg_OpImageTexelPointer in *). Qed.
#[local] Arguments dbg_OpImageTexelPointer : simpl never.
#[export] Instance shown_OpCopyMemory {E} : Shown (@dbg_OpCopyMemory E).
Proof. shown_with ltac:(fun a => unfold dbg_OpCopyMemory in *). Qed.
#[local] Arguments dbg_OpCopyMemory : simpl never.
#[export] Instance shown_OpCopyMemorySized {E} : Shown (@dbg_OpCopyMemorySized E).
Proof. shown_with ltac:(fun a => unfold dbg_OpCopyMemorySized in *). Qed.
#[local] Arguments dbg_OpCopyMemorySized : simpl never.
#[export] Instance shown_OpInBoundsAccessChain {E} : Shown (@dbg_OpInBoundsAccessChain E).
Proof. shown_with ltac:(fun a => unfold dbg_OpInBoundsAccessChain in *). Qed.
#[local] Arguments dbg_OpInBoundsAccessChain : simpl never.
#[export] Instance shown_OpPtrAccessChain {E} : Shown (@dbg_OpPtrAccessChain E).
Proof. shown_with ltac:(fun a => unfold dbg_OpPtrAccessChain in *). Qed.
#[local] Arguments dbg_OpPtrAccessChain : simpl never.
#[export] Instance shown_OpArrayLength {E} : Shown (@dbg_OpArrayLength E).
Proof. shown_with ltac:(fun a => unfold dbg_OpArrayLength in *). Qed.
#[local] Arguments dbg_OpArrayLength : simpl never.
#[export] Instance shown_OpGenericPtrMemSemantics {E} : Shown (@dbg_OpGenericPtrMemSemantics E).
Proof. shown_with ltac:(fun a => unfold dbg_OpGenericPtrMemSemantics in *). Qed.
#[local] Arguments dbg_OpGenericPtrMemSemantics : simpl never.
#[export] Instance shown_OpInBoundsPtrAccessChain {E} : Shown (@dbg_OpInBoundsPtrAccessChain E).
Proof. shown_with ltac:(fun a => unfold dbg_OpInBoundsPtrAccessChain in *). Qed.
#[local] Arguments dbg_OpInBoundsPtrAccessChain : simpl never.
#[export] Instance shown_OpFunctionCall {E} : Shown (@dbg_OpFunctionCall E).
Proof. shown_with ltac:(fun a => unfold dbg_OpFunctionCall in *). Qed.
#[local] Arguments dbg_OpFunctionCall : simpl never.
#[export] Instance shown_OpSampledImage {E} : Shown (@dbg_OpSampledImage E).
Proof. shown_with ltac:(fun a => unfold dbg_OpSampledImage in *). Qed.
#[local] Arguments dbg_OpSampledImage : simpl never.
#[export] Instance shown_OpConvertFToU {E} : Shown (@dbg_OpConvertFToU E).
Proof. shown_with ltac:(fun a => unfold dbg_OpConvertFToU in *). Qed.
#[local] Arguments dbg_OpConvertFToU : simpl never.
#[export] Instance shown_OpConvertFToS {E} : Shown (@dbg_OpConvertFToS E).
Proof. shown_with ltac:(fun a => unfold dbg_OpConvertFToS in *). Qed.
#[local] Arguments dbg_OpConvertFToS : simpl never.
#[export] Instance shown_OpConvertSToF {E} : Shown (@dbg_OpConvertSToF E).
Proof. shown_with ltac:(fun a => unfold dbg_OpConvertSToF in *). Qed.
#[local] Arguments dbg_OpConvertSToF : simpl never.
#[export] Instance shown_OpUConvert {E} : Shown (@dbg_OpUConvert E).
Proof. shown_with ltac:(fun a => unfold dbg_OpUConvert in *). Qed.
#[local] Arguments dbg_OpUConvert : simpl never.
#[export] Instance shown_OpSConvert {E} : Shown (@dbg_OpSConvert E).
Proof. shown_with ltac:(fun a => unfold dbg_OpSConvert in *). Qed.
#[local] Arguments dbg_OpSConvert : simpl never.
#[export] Instance shown_OpFConvert {E} : Shown (@dbg_OpFConvert E).
Proof. shown_with ltac:(fun a => unfold dbg_OpFConvert in *). Qed.
#[local] Arguments dbg_OpFConvert : simpl never.
#[export] Instance shown_OpQuantizeToF16 {E} : Shown (@dbg_OpQuantizeToF16 E).
Proof. shown_with ltac:(fun a => unfold dbg_OpQuantizeToF16 in *). Qed.
#[local] Arguments dbg_OpQuantizeToF16 : simpl never.
#[export] Instance shown_OpConvertPtrToU {E} : Shown (@dbg_OpConvertPtrToU E).
Proof. shown_with ltac:(fun a => unfold dbg_OpConvertPtrToU in *). Qed.
#[local] Arguments dbg_OpConvertPtrToU : simpl never.
#[export] Instance shown_OpSatConvertSToU {E} : Shown (@dbg_OpSatConvertSToU E).
Proof. shown_with ltac:(fun a => unfold dbg_OpSatConvertSToU in *). Qed.
#[local] Arguments dbg_OpSatConvertSToU : simpl never.
#[export] Instance shown_OpSatConvertUToS {E} : Shown (@dbg_OpSatConvertUToS E).
Proof. shown_with ltac:(fun a => unfold dbg_OpSatConvertUToS in *). Qed.
#[local] Arguments dbg_OpSatConvertUToS : simpl never.
#[export] Instance shown_OpConvertUToPtr {E} : Shown (@dbg_OpConvertUToPtr E).
Proof. shown_with ltac:(fun a => unfold dbg_OpConvertUToPtr in *). Qed.
#[local] Arguments dbg_OpConvertUToPtr : simpl never.
#[export] Instance shown_OpPtrCastToGeneric {E} : Shown (@dbg_OpPtrCastToGeneric E).
Proof. shown_with ltac:(fun a => unfold dbg_OpPtrCastToGeneric in *). Qed.
#[local] Arguments dbg_OpPtrCastToGeneric : simpl never.
#[export] Instance shown_OpGenericCastToPtr {E} : Shown (@dbg_OpGenericCastToPtr E).
Proof. shown_with ltac:(fun a => unfold dbg_OpGenericCastToPtr in *). Qed.
#[local] Arguments dbg_OpGenericCastToPtr : simpl never.
#[export] Instance shown_OpGenericCastToPtrExplicit {E} : Shown (@dbg_OpGenericCastToPtrExplicit E).
Proof. shown_with ltac:(fun a => unfold dbg_OpGenericCastToPtrExplicit in *). Qed.
#[local] Arguments dbg_OpGenericCastToPtrExplicit : simpl never.
#[export] Instance shown_OpVectorExtractDynamic {E} : Shown (@dbg_OpVectorExtractDynamic E).
Proof. shown_with ltac:(fun a => unfold dbg_OpVectorExtractDynamic in *). Qed.
#[local] Arguments dbg_OpVectorExtractDynamic : simpl never.
#[export] Instance shown_OpVectorInsertDynamic {E} : Shown (@dbg_OpVectorInsertDynamic E).
Proof. shown_with ltac:(fun a => unfold dbg_OpVectorInsertDynamic in *). Qed.
#[local] Arguments dbg_OpVectorInsertDynamic : simpl never.
#[export] Instance shown_OpVectorShuffle {E} : Shown (@dbg_OpVectorShuffle E).
Proof. shown_with ltac:(fun a => unfold dbg_OpVectorShuffle in *). Qed.
#[local] Arguments dbg_OpVectorShuffle : simpl never.
#[export] Instance shown_OpCompositeConstruct {E} : Shown (@dbg_OpCompositeConstruct E).
Proof. shown_with ltac:(fun a => unfold dbg_OpCompositeConstruct in *). Qed.
#[local] Arguments dbg_OpCompositeConstruct : simpl never.
#[export] Instance shown_OpCompositeExtract {E} : Shown (@dbg_OpCompositeExtract E).
Proof. shown_with ltac:(fun a => unfold dbg_OpCompositeExtract in *). Qed.
#[local] Arguments dbg_OpCompositeExtract : simpl never.
#[export] Instance shown_OpCompositeInsert {E} : Shown (@dbg_OpCompositeInsert E).
Proof. shown_with ltac:(fun a => unfold dbg_OpCompositeInsert in *). Qed.
#[local] Arguments dbg_OpCompositeInsert : simpl never.
#[export] Instance shown_OpCopyObject {E} : Shown (@dbg_OpCopyObject E).
Proof. shown_with ltac:(fun a => unfold dbg_OpCopyObject in *). Qed.
#[local] Arguments dbg_OpCopyObject : simpl never.
#[export] Instance shown_OpTranspose {E} : Shown (@dbg_OpTranspose E).
Proof. shown_with ltac:(fun a => unfold dbg_OpTranspose in *). Qed.
#[local] Arguments dbg_OpTranspose : simpl never.
#[export] Instance shown_OpSNegate {E} : Shown (@dbg_OpSNegate E).
Proof. shown_with ltac:(fun a => unfold dbg_OpSNegate in *). Qed.
#[local] Arguments dbg_OpSNegate : simpl never.
#[export] Instance shown_OpFNegate {E} : Shown (@dbg_OpFNegate E).
Proof. shown_with ltac:(fun a => unfold dbg_OpFNegate in *). Qed.
#[local] Arguments dbg_OpFNegate : simpl never.
#[export] Instance shown_OpVectorTimesScalar {E} : Shown (@dbg_OpVectorTimesScalar E).
Proof. shown_with ltac:(fun a => unfold dbg_OpVectorTimesScalar in *). Qed.
#[local] Arguments dbg_OpVectorTimesScalar : simpl never.
#[export] Instance shown_OpMatrixTimesScalar {E} : Shown (@dbg_OpMatrixTimesScalar E).
Proof. shown_with ltac:(fun a => unfold dbg_OpMatrixTimesScalar in *). Qed.
#[local] Arguments dbg_OpMatrixTimesScalar : simpl never.
#[export] Instance shown_OpVectorTimesMatrix {E} : Shown (@dbg_OpVectorTimesMatrix E).
Proof. shown_with ltac:(fun a => unfold dbg_OpVectorTimesMatrix in *). Qed.
#[local] Arguments dbg_OpVectorTimesMatrix : simpl never.
#[export] Instance shown_OpMatrixTimesVector {E} : Shown (@dbg_OpMatrixTimesVector E).
Proof. shown_with ltac:(fun a => unfold dbg_OpMatrixTimesVector in *). Qed.
#[local] Arguments dbg_OpMatrixTimesVector : simpl never.
#[export] Instance shown_OpMatrixTimesMatrix {E} : Shown (@dbg_OpMatrixTimesMatrix E).
Proof. shown_with ltac:(fun a => unfold dbg_OpMatrixTimesMatrix in *). Qed.
#[local] Arguments dbg_OpMatrixTimesMatrix : simpl never.
#[export] Instance shown_OpOuterProduct {E} : Shown (@dbg_OpOuterProduct E).
Proof. shown_with ltac:(fun a => unfold dbg_OpOuterProduct in *). Qed.
#[local] Arguments dbg_OpOuterProduct : simpl never.
#[export] Instance shown_OpDot {E} : Shown (@dbg_OpDot E).
Proof. shown_with ltac:(fun a => unfold dbg_OpDot in *). Qed.
#[local] Arguments dbg_OpDot : simpl never.
#[export] Instance shown_OpShiftRightLogical {E} : Shown (@dbg_OpShiftRightLogical E).
Proof. shown_with ltac:(fun a => unfold dbg_OpShiftRightLogical in *). Qed.
#[local] Arguments dbg_OpShiftRightLogical : simpl never.
#[export] Instance shown_OpShiftRightArithmetic {E} : Shown (@dbg_OpShiftRightArithmetic E).
Proof. shown_with ltac:(fun a => unfold dbg_OpShiftRightArithmetic in *). Qed.
#[local] Arguments dbg_OpShiftRightArithmetic : simpl never.
#[export] Instance shown_OpShiftLeftLogical {E} : Shown (@dbg_OpShiftLeftLogical E).
Proof. shown_with ltac:(fun a => unfold dbg_OpShiftLeftLogical in *). Qed.
#[local] Arguments dbg_OpShiftLeftLogical : simpl never.
#[export] Instance shown_OpNot {E} : Shown (@dbg_OpNot E).
Proof. shown_with ltac:(fun a => unfold dbg_OpNot in *). Qed.
#[local] Arguments dbg_OpNot : simpl never.
Lemma Forall2_length : forall {A B} (P : A -> B -> Prop) l m, Forall2 P l m -> length l = length m.
Proof. intros A B P l m F. induction F; cbn; congruence. Qed.
Lemma more_wf : forall E i, wf (dbg_MoreOp (E := E) i) = true.
Proof. intros E i. destruct i; cbn [dbg_MoreOp]; apply shown_wf. Qed.
Lemma more_inj : forall E i j, dbg_MoreOp (E := E) i = dbg_MoreOp j -> i = j.
Proof.
  intros E i j H. destruct i; destruct j; cbn [dbg_MoreOp] in H; try (apply shown_inj in H; subst; reflexivity); exfalso; discriminate H.
Qed.
Lemma more_text_exact : forall E e (ext : E -> string), unambiguous ext -> forall i j,
  debug_text e ext (dbg_MoreOp i) = debug_text e ext (dbg_MoreOp j) -> i = j.
Proof. intros E e ext X i j H. apply tree_exact in H; try apply more_wf; [|exact X]. exact (more_inj _ _ _ H). Qed.

Lemma more_shown : forall E i, dbg_MoreOp (E := E) i = show_more i.
Proof.
  intros E i. destruct i as [x|x|x|x|x|x|x|x|x|x|x|x|x|x|x|x|x|x|x|x|x|x|x|x|x|x|x|x|x|x|x|x|x|x|x|x|x|x|x|x|x|x|x|x|x|x|x|x|x|x|x|x|x|x|x|x|x|x]; destruct x.
  all: try reflexivity.
  all: repeat match goal with x : option MemoryAccess |- _ => destruct x end; try reflexivity.
  all: try match goal with x : MemoryAccess |- _ => destruct x as [[] [] []]; reflexivity end.
  all: try match goal with x : StorageClass |- _ => destruct x; reflexivity end.
  all: try match goal with x : SamplerAddressingMode, y : SamplerParam, z : SamplerFilterMode |- _ => destruct x, y, z; reflexivity end.
  all: unfold show_more; cbn -[show_one many].
  all: rewrite ?(shown_words _ DNumber), ?(shown_words _ dbg_OpId), ?(shown_words _ dbg_MemberIndex) by reflexivity; try reflexivity.
Qed.

(** ** Which instructions there are *)
Ltac inhabit := repeat match goal with |- N => exact 0%N | |- OpId => exact 0%N | |- ResultId => exact 0%N | |- list _ => exact [] | |- LitBytes => exact [] | |- option _ => exact None
  | |- string => exact "" | |- LitString => exact "" | |- bool => exact false | x : ?E |- ?E => exact x | |- _ => constructor end.
Definition core_samples {E} (x : E) : list (Core E) :=
  [Core_OpNop ltac:(inhabit);
   Core_OpUndef ltac:(inhabit);
   Core_OpSourceContinued ltac:(inhabit);
   Core_OpSource ltac:(inhabit);
   Core_OpSourceExtension ltac:(inhabit);
   Core_OpName ltac:(inhabit);
   Core_OpMemberName ltac:(inhabit);
   Core_OpString ltac:(inhabit);
   Core_OpExtension ltac:(inhabit);
   Core_OpExtInstImport ltac:(inhabit);
   Core_OpExtInst (Build_OpExtInst 0%N 0%N 0%N x);
   Core_OpMemoryModel ltac:(inhabit);
   Core_OpEntryPoint ltac:(inhabit);
   Core_OpExecutionMode ltac:(inhabit);
   Core_OpCapability ltac:(inhabit);
   Core_OpTypeVoid ltac:(inhabit);
   Core_OpTypeBool ltac:(inhabit);
   Core_OpTypeInt ltac:(inhabit);
   Core_OpTypeFloat ltac:(inhabit);
   Core_OpTypeVector ltac:(inhabit);
   Core_OpTypeMatrix ltac:(inhabit);
   Core_OpTypeImage ltac:(inhabit);
   Core_OpTypeSampler ltac:(inhabit);
   Core_OpTypeSampledImage ltac:(inhabit);
   Core_OpTypeArray ltac:(inhabit);
   Core_OpTypeRuntimeArray ltac:(inhabit);
   Core_OpTypeStruct ltac:(inhabit);
   Core_OpTypeOpaque ltac:(inhabit);
   Core_OpTypePointer ltac:(inhabit);
   Core_OpTypeFunction ltac:(inhabit);
   Core_OpTypeEvent ltac:(inhabit);
   Core_OpTypeDeviceEvent ltac:(inhabit);
   Core_OpTypeQueue ltac:(inhabit);
   Core_OpTypePipe ltac:(inhabit);
   Core_OpTypeForwardPointer ltac:(inhabit);
   Core_OpConstant ltac:(inhabit);
   Core_OpConstantComposite ltac:(inhabit);
   Core_OpFunction ltac:(inhabit);
   Core_OpFunctionParameter ltac:(inhabit);
   Core_OpFunctionEnd ltac:(inhabit);
   Core_OpVariable ltac:(inhabit);
   Core_OpLoad ltac:(inhabit);
   Core_OpStore ltac:(inhabit);
   Core_OpAccessChain ltac:(inhabit);
   Core_OpDecorate ltac:(inhabit);
   Core_OpMemberDecorate ltac:(inhabit);
   Core_OpConvertUToF ltac:(inhabit);
   Core_OpBitcast ltac:(inhabit);
   Core_OpIAdd ltac:(inhabit);
   Core_OpFAdd ltac:(inhabit);
   Core_OpISub ltac:(inhabit);
   Core_OpFSub ltac:(inhabit);
   Core_OpIMul ltac:(inhabit);
   Core_OpFMul ltac:(inhabit);
   Core_OpUDiv ltac:(inhabit);
   Core_OpSDiv ltac:(inhabit);
   Core_OpFDiv ltac:(inhabit);
   Core_OpUMod ltac:(inhabit);
   Core_OpSRem ltac:(inhabit);
   Core_OpSMod ltac:(inhabit);
   Core_OpFRem ltac:(inhabit);
   Core_OpFMod ltac:(inhabit);
   Core_OpIAddCarry ltac:(inhabit);
   Core_OpISubBorrow ltac:(inhabit);
   Core_OpUMulExtended ltac:(inhabit);
   Core_OpSMulExtended ltac:(inhabit);
   Core_OpBitwiseOr ltac:(inhabit);
   Core_OpBitwiseXor ltac:(inhabit);
   Core_OpBitwiseAnd ltac:(inhabit);
   Core_OpIEqual ltac:(inhabit);
   Core_OpINotEqual ltac:(inhabit);
   Core_OpUGreaterThan ltac:(inhabit);
   Core_OpSGreaterThan ltac:(inhabit);
   Core_OpUGreaterThanEqual ltac:(inhabit);
   Core_OpSGreaterThanEqual ltac:(inhabit);
   Core_OpULessThan ltac:(inhabit);
   Core_OpSLessThan ltac:(inhabit);
   Core_OpULessThanEqual ltac:(inhabit);
   Core_OpSLessThanEqual ltac:(inhabit);
   Core_OpFOrdEqual ltac:(inhabit);
   Core_OpFUnordEqual ltac:(inhabit);
   Core_OpFOrdNotEqual ltac:(inhabit);
   Core_OpFUnordNotEqual ltac:(inhabit);
   Core_OpFOrdLessThan ltac:(inhabit);
   Core_OpFUnordLessThan ltac:(inhabit);
   Core_OpFOrdGreaterThan ltac:(inhabit);
   Core_OpFUnordGreaterThan ltac:(inhabit);
   Core_OpFOrdLessThanEqual ltac:(inhabit);
   Core_OpFUnordLessThanEqual ltac:(inhabit);
   Core_OpFOrdGreaterThanEqual ltac:(inhabit);
   Core_OpFUnordGreaterThanEqual ltac:(inhabit);
   Core_OpPhi ltac:(inhabit);
   Core_OpLoopMerge ltac:(inhabit);
   Core_OpSelectionMerge ltac:(inhabit);
   Core_OpLabel ltac:(inhabit);
   Core_OpBranch ltac:(inhabit);
   Core_OpBranchConditional ltac:(inhabit);
   Core_OpReturn ltac:(inhabit)].
Definition more_samples : list MoreOp :=
  [More_OpLine ltac:(inhabit);
   More_OpNoLine ltac:(inhabit);
   More_OpDecorationGroup ltac:(inhabit);
   More_OpGroupDecorate ltac:(inhabit);
   More_OpTypeReserveId ltac:(inhabit);
   More_OpConstantTrue ltac:(inhabit);
   More_OpConstantFalse ltac:(inhabit);
   More_OpConstantSampler ltac:(inhabit);
   More_OpConstantNull ltac:(inhabit);
   More_OpSpecConstantTrue ltac:(inhabit);
   More_OpSpecConstantFalse ltac:(inhabit);
   More_OpSpecConstant ltac:(inhabit);
   More_OpSpecConstantComposite ltac:(inhabit);
   More_OpImageTexelPointer ltac:(inhabit);
   More_OpCopyMemory ltac:(inhabit);
   More_OpCopyMemorySized ltac:(inhabit);
   More_OpInBoundsAccessChain ltac:(inhabit);
   More_OpPtrAccessChain ltac:(inhabit);
   More_OpArrayLength ltac:(inhabit);
   More_OpGenericPtrMemSemantics ltac:(inhabit);
   More_OpInBoundsPtrAccessChain ltac:(inhabit);
   More_OpFunctionCall ltac:(inhabit);
   More_OpSampledImage ltac:(inhabit);
   More_OpConvertFToU ltac:(inhabit);
   More_OpConvertFToS ltac:(inhabit);
   More_OpConvertSToF ltac:(inhabit);
   More_OpUConvert ltac:(inhabit);
   More_OpSConvert ltac:(inhabit);
   More_OpFConvert ltac:(inhabit);
   More_OpQuantizeToF16 ltac:(inhabit);
   More_OpConvertPtrToU ltac:(inhabit);
   More_OpSatConvertSToU ltac:(inhabit);
   More_OpSatConvertUToS ltac:(inhabit);
   More_OpConvertUToPtr ltac:(inhabit);
   More_OpPtrCastToGeneric ltac:(inhabit);
   More_OpGenericCastToPtr ltac:(inhabit);
   More_OpGenericCastToPtrExplicit ltac:(inhabit);
   More_OpVectorExtractDynamic ltac:(inhabit);
   More_OpVectorInsertDynamic ltac:(inhabit);
   More_OpVectorShuffle ltac:(inhabit);
   More_OpCompositeConstruct ltac:(inhabit);
   More_OpCompositeExtract ltac:(inhabit);
   More_OpCompositeInsert ltac:(inhabit);
   More_OpCopyObject ltac:(inhabit);
   More_OpTranspose ltac:(inhabit);
   More_OpSNegate ltac:(inhabit);
   More_OpFNegate ltac:(inhabit);
   More_OpVectorTimesScalar ltac:(inhabit);
   More_OpMatrixTimesScalar ltac:(inhabit);
   More_OpVectorTimesMatrix ltac:(inhabit);
   More_OpMatrixTimesVector ltac:(inhabit);
   More_OpMatrixTimesMatrix ltac:(inhabit);
   More_OpOuterProduct ltac:(inhabit);
   More_OpDot ltac:(inhabit);
   More_OpShiftRightLogical ltac:(inhabit);
   More_OpShiftRightArithmetic ltac:(inhabit);
   More_OpShiftLeftLogical ltac:(inhabit);
   More_OpNot ltac:(inhabit)].
Definition covered {E} (x : E) (n : N) : bool :=
  (existsb (fun i => N.eqb (opcode i) n) (core_samples x) || existsb (fun i => N.eqb (more_opcode i) n) more_samples
   || existsb (fun T => N.eqb (plain_number T) n) types || N.eqb n 52).
Lemma all_covered : forall E (x : E), forallb (fun p => covered x (fst p)) opcode_names = true.
Proof. intros E x. vm_compute. reflexivity. Qed.
Lemma opcode_has_struct : forall E (x : E) n name, In (n, name) opcode_names -> n <> 52%N ->
  (exists i : Core E, opcode i = n) \/ (exists i, more_opcode i = n) \/ (exists t : dtree E, shows_plain n t).
Proof.
  intros E x n name I H. pose proof (all_covered E x) as C. rewrite forallb_forall in C. specialize (C _ I). unfold covered in C. cbn [fst] in C.
  rewrite !orb_true_iff, !existsb_exists in C. destruct C as [[[(i & _ & C)|(i & _ & C)]|(T & _ & C)]|C].
  - left. exists i. apply N.eqb_eq, C.
  - right. left. exists i. apply N.eqb_eq, C.
  - right. right. apply N.eqb_eq in C. assert (PlainValue T) as v by (destruct T; cbn; inhabit). exists (dbg_Plain T v). rewrite <- C. apply plain_shown.
  - apply N.eqb_eq in C. contradiction.
Qed.
Lemma no_struct : forall E, (forall i : Core E, opcode i <> 52%N) /\ (forall i, more_opcode i <> 52%N) /\ (forall t : dtree E, ~ shows_plain 52%N t).
Proof.
  intros E. split; [intros i; destruct i; discriminate|]. split; [intros i; destruct i; discriminate|]. intros t S. apply plain_met in S.
  destruct S as (T & _ & H & _). destruct T; discriminate H.
Qed.

(** ** Departures from the standard *)
Lemma standard_unless : forall E n (t : dtree E), ~ departs n -> shows_plain n t <-> shows_standard n t.
Proof.
  intros E n t D. unfold shows_plain, shows_standard.
  assert (A : plain_name n = standard_name n /\ forall cs, plain_classes n cs = cs).
  { unfold departs in D. cbn [In] in D. split; [unfold plain_name|intros cs; unfold plain_classes];
    repeat match goal with |- context [match ?p with _ => _ end] => is_var p; destruct p; try reflexivity; try (exfalso; apply D; tauto) end. }
  destruct A as [A B]. rewrite A. split; intros (name & cs & vs & H1 & H2 & H3 & H4); exists name, cs, vs; rewrite ?B in *; auto.
Qed.
Lemma standard_shape : forall E n (t : dtree E), shows_standard n t -> exists name classes values, standard_name n = Some name
  /\ row n = classes /\ Forall2 shows classes values /\ t = plain_tree n name values.
Proof.
  intros E n t (name & cs & vs & N & I & F & H). exists name, cs, vs. repeat split; auto. rewrite grammar_types in I. apply in_map_iff in I.
  destruct I as (T & [= <- <-] & _). reflexivity.
Qed.
Lemma departures : forall E n, departs n -> exists t : dtree E, shows_plain n t /\ ~ shows_standard n t.
Proof.
  intros E n [<-|[<-|[<-|[<-|[<-|[]]]]]].
  - exists (dbg_Plain Type_OpImageSampledImplicitLod ltac:(cbn; inhabit)). split; [exact (plain_shown E Type_OpImageSampledImplicitLod _)|].
    intros S. apply standard_shape in S. destruct S as (name & cs & vs & [= <-] & <- & F & H). inversion F; subst. discriminate H.
  - exists (dbg_Plain Type_OpImageSampledExplicitLod ltac:(cbn; inhabit)). split; [exact (plain_shown E Type_OpImageSampledExplicitLod _)|].
    intros S. apply standard_shape in S. destruct S as (name & cs & vs & [= <-] & <- & F & H). inversion F; subst. discriminate H.
  - exists (dbg_Plain Type_OpAtomicIIncrement ltac:(cbn; inhabit)). split; [exact (plain_shown E Type_OpAtomicIIncrement _)|].
    intros S. apply standard_shape in S. destruct S as (name & cs & vs & _ & <- & F & H). apply Forall2_length in F. apply (f_equal (fun t => length (tree_values t))) in H.
    destruct vs as [|v vs]; [discriminate F|]. cbn [tree_values plain_tree] in H. rewrite <- F in H. discriminate H.
  - exists (dbg_Plain Type_OpAtomicIDecrement ltac:(cbn; inhabit)). split; [exact (plain_shown E Type_OpAtomicIDecrement _)|].
    intros S. apply standard_shape in S. destruct S as (name & cs & vs & _ & <- & F & H). apply Forall2_length in F. apply (f_equal (fun t => length (tree_values t))) in H.
    destruct vs as [|v vs]; [discriminate F|]. cbn [tree_values plain_tree] in H. rewrite <- F in H. discriminate H.
  - exists (dbg_Plain Type_OpEnqueueKernel (Build_OpEnqueueKernel 0 0 0 0 0 0 0 0 0 0 0 0 [(0, 0)])%N). split; [exact (plain_shown E Type_OpEnqueueKernel _)|].
    intros S. apply standard_shape in S. destruct S as (name & cs & vs & _ & <- & F & H).
    assert (L : shows (E := E) Ids (last vs (DNumber 0))).
    { change (row 292) with (repeat AnId 1 ++ TheResult :: repeat AnId 10 ++ [Ids])%list in F. cbn [repeat app] in F.
      repeat match goal with F : Forall2 _ (_ :: _) _ |- _ => inversion F; clear F; subst end.
      match goal with F : Forall2 _ [] _ |- _ => inversion F; subst end. cbn [last]. assumption. }
    destruct vs as [|v vs]; [inversion F|]. cbn [plain_tree] in H. apply (f_equal tree_values) in H. cbn [tree_values] in H. rewrite <- H in L.
    cbn in L. inversion L as [| | | | | | | | | | |l Z Q|]. destruct l as [|a l]; cbn in Q; [discriminate Q|]. injection Q as Q _. unfold an_id, in_wrapper in Q. discriminate Q.
Qed.
Lemma plain_shown_iff : forall E (t : dtree E), (exists T (a : PlainValue T), t = dbg_Plain T a) <-> (exists n, shows_plain n t).
Proof.
  intros E t. split.
  - intros (T & a & ->). exists (plain_number T). apply plain_shown.
  - intros (n & S). apply plain_met in S. destruct S as (T & a & _ & H). exists T, a. exact H.
Qed.
