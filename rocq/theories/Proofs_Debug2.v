(** Debug shows every value of every type in its own way (C88). *)
From Verif Require Import Base Types Ops ReadErr Groups DebugBase Debug Spec_Debug Proofs_Debug.

Class Shown {E A} (dbg : A -> dtree E) : Prop := { shown_wf : forall a, wf (dbg a) = true; shown_inj : forall a b, dbg a = dbg b -> a = b }.

#[export] Instance shown_number {E} : Shown (@DNumber E).
Proof. split; [reflexivity|]. intros a b H. injection H as ->. reflexivity. Qed.
#[export] Instance shown_bool {E} : Shown (@DBool E).
Proof. split; [reflexivity|]. intros a b H. injection H as ->. reflexivity. Qed.
#[export] Instance shown_string {E} : Shown (@DString E).
Proof. split; [reflexivity|]. intros a b H. injection H as ->. reflexivity. Qed.
#[export] Instance shown_ext {E} : Shown (@DExtInstBox E).
Proof. split; [reflexivity|]. intros a b H. injection H as ->. reflexivity. Qed.
Lemma list_inj : forall {E} (a b : list (dtree E)), DList a = DList b -> a = b.
Proof. intros E a b H. injection H as ->. reflexivity. Qed.
Lemma tuple_inj : forall {E} n m (a b : list (dtree E)), DTuple n a = DTuple m b -> a = b.
Proof. intros E n m a b H. injection H as _ ->. reflexivity. Qed.
Lemma struct_inj : forall {E} n m (a b : list (string * dtree E)), DStruct n a = DStruct m b -> a = b.
Proof. intros E n m a b H. injection H as _ ->. reflexivity. Qed.
Lemma cons_inj : forall {A} (x y : A) a b, x :: a = y :: b -> x = y /\ a = b.
Proof. intros A x y a b H. injection H as -> ->. auto. Qed.
Lemma pair_inj : forall {A B} (x y : A) (a b : B), (x, a) = (y, b) -> a = b.
Proof. intros A B x y a b H. injection H as _ ->. reflexivity. Qed.
Lemma map_inj : forall {A B} (f : A -> B) (a b : list A), (forall x y, List.In x a -> f x = f y -> x = y) -> map f a = map f b -> a = b.
Proof.
  intros A B f a. induction a as [|x a IH]; intros [|y b] F H; try discriminate H; [reflexivity|]. cbn [map] in H. apply cons_inj in H. destruct H as [H1 H2].
  apply F in H1; [|left; reflexivity]. apply IH in H2; [|intros u v U; apply F; right; exact U]. subst. reflexivity.
Qed.
#[export] Instance shown_Vec {E A} (dbg : A -> dtree E) {S : Shown dbg} : Shown (dbg_Vec dbg).
Proof.
  split.
  - intros l. unfold dbg_Vec. cbn [wf]. apply forallb_forall. intros t T. apply in_map_iff in T. destruct T as (x & <- & _). apply shown_wf.
  - intros a b H. unfold dbg_Vec in H. apply list_inj in H. apply map_inj in H; [exact H|]. intros x y _. apply shown_inj.
Qed.
#[export] Instance shown_Option {E A} (dbg : A -> dtree E) {S : Shown dbg} : Shown (dbg_Option dbg).
Proof.
  split.
  - intros [x|]; [|reflexivity]. cbn [dbg_Option wf forallb]. rewrite shown_wf. reflexivity.
  - intros [x|] [y|] H; try discriminate H; [|reflexivity]. cbn [dbg_Option] in H. apply tuple_inj, cons_inj in H. destruct H as [H _]. apply shown_inj in H. subst. reflexivity.
Qed.

Ltac peel H :=
  match type of H with
  | DTuple _ _ = DTuple _ _ => apply tuple_inj in H; peel H
  | DStruct _ _ = DStruct _ _ => apply struct_inj in H; peel H
  | _ :: _ = _ :: _ => let K := fresh "K" in apply cons_inj in H; destruct H as [K H]; peel K; peel H
  | (_, _) = (_, _) => apply pair_inj in H; peel H
  | [] = [] => clear H
  | DName _ = DName _ => clear H
  | DNumber (N.of_nat _) = _ => apply shown_inj, Nnat.Nat2N.inj in H; subst
  | ?f _ = ?f _ => apply (shown_inj (dbg := f)) in H; subst
  end.
Ltac shown_with u :=
  split;
  [let a := fresh "a" in intros a; u a; lazymatch type of a with N => idtac | _ => destruct a end; cbv beta iota; cbn [wf forallb fst snd]; rewrite ?shown_wf; reflexivity
  |let a := fresh "a" in let b := fresh "b" in let H := fresh "H" in intros a b H; u a; u b;
   first [solve [peel H; reflexivity]
         |destruct a, b; cbv beta iota in H; try discriminate H; cbn in H; peel H; reflexivity]].

#[local] Arguments dbg_Vec : simpl never.
#[local] Arguments dbg_Option : simpl never.
#[local] Arguments N.of_nat : simpl never.

#[export] Instance shown_OpId {E} : Shown (dbg_OpId (E := E)).
Proof. shown_with ltac:(fun a => unfold dbg_OpId in *). Qed.
#[local] Arguments dbg_OpId : simpl never.
#[export] Instance shown_ResultId {E} : Shown (dbg_ResultId (E := E)).
Proof. shown_with ltac:(fun a => unfold dbg_ResultId in *). Qed.
#[local] Arguments dbg_ResultId : simpl never.
#[export] Instance shown_SourceVersion {E} : Shown (dbg_SourceVersion (E := E)).
Proof. shown_with ltac:(fun a => unfold dbg_SourceVersion in *). Qed.
#[local] Arguments dbg_SourceVersion : simpl never.
#[export] Instance shown_MemberIndex {E} : Shown (dbg_MemberIndex (E := E)).
Proof. shown_with ltac:(fun a => unfold dbg_MemberIndex in *). Qed.
#[local] Arguments dbg_MemberIndex : simpl never.
#[export] Instance shown_Version {E} : Shown (dbg_Version (E := E)).
Proof. shown_with ltac:(fun a => unfold dbg_Version in *). Qed.
#[local] Arguments dbg_Version : simpl never.
#[export] Instance shown_Tool {E} : Shown (dbg_Tool (E := E)).
Proof. shown_with ltac:(fun a => unfold dbg_Tool in *). Qed.
#[local] Arguments dbg_Tool : simpl never.
#[export] Instance shown_SourceLanguage {E} : Shown (dbg_SourceLanguage (E := E)).
Proof. shown_with ltac:(fun a => unfold dbg_SourceLanguage in *). Qed.
#[local] Arguments dbg_SourceLanguage : simpl never.
#[export] Instance shown_BuiltIn {E} : Shown (dbg_BuiltIn (E := E)).
Proof. shown_with ltac:(fun a => unfold dbg_BuiltIn in *). Qed.
#[local] Arguments dbg_BuiltIn : simpl never.
#[export] Instance shown_FunctionParameterAttribute {E} : Shown (dbg_FunctionParameterAttribute (E := E)).
Proof. shown_with ltac:(fun a => unfold dbg_FunctionParameterAttribute in *). Qed.
#[local] Arguments dbg_FunctionParameterAttribute : simpl never.
#[export] Instance shown_FpRoundingMode {E} : Shown (dbg_FpRoundingMode (E := E)).
Proof. shown_with ltac:(fun a => unfold dbg_FpRoundingMode in *). Qed.
#[local] Arguments dbg_FpRoundingMode : simpl never.
#[export] Instance shown_LinkageType {E} : Shown (dbg_LinkageType (E := E)).
Proof. shown_with ltac:(fun a => unfold dbg_LinkageType in *). Qed.
#[local] Arguments dbg_LinkageType : simpl never.
#[export] Instance shown_AddressingModel {E} : Shown (dbg_AddressingModel (E := E)).
Proof. shown_with ltac:(fun a => unfold dbg_AddressingModel in *). Qed.
#[local] Arguments dbg_AddressingModel : simpl never.
#[export] Instance shown_MemoryModel {E} : Shown (dbg_MemoryModel (E := E)).
Proof. shown_with ltac:(fun a => unfold dbg_MemoryModel in *). Qed.
#[local] Arguments dbg_MemoryModel : simpl never.
#[export] Instance shown_ExecutionModel {E} : Shown (dbg_ExecutionModel (E := E)).
Proof. shown_with ltac:(fun a => unfold dbg_ExecutionModel in *). Qed.
#[local] Arguments dbg_ExecutionModel : simpl never.
#[export] Instance shown_ExecutionMode {E} : Shown (dbg_ExecutionMode (E := E)).
Proof. shown_with ltac:(fun a => unfold dbg_ExecutionMode in *). Qed.
#[local] Arguments dbg_ExecutionMode : simpl never.
#[export] Instance shown_Capability {E} : Shown (dbg_Capability (E := E)).
Proof. shown_with ltac:(fun a => unfold dbg_Capability in *). Qed.
#[local] Arguments dbg_Capability : simpl never.
#[export] Instance shown_Signedness {E} : Shown (dbg_Signedness (E := E)).
Proof. shown_with ltac:(fun a => unfold dbg_Signedness in *). Qed.
#[local] Arguments dbg_Signedness : simpl never.
#[export] Instance shown_StorageClass {E} : Shown (dbg_StorageClass (E := E)).
Proof. shown_with ltac:(fun a => unfold dbg_StorageClass in *). Qed.
#[local] Arguments dbg_StorageClass : simpl never.
#[export] Instance shown_Dim {E} : Shown (dbg_Dim (E := E)).
Proof. shown_with ltac:(fun a => unfold dbg_Dim in *). Qed.
#[local] Arguments dbg_Dim : simpl never.
#[export] Instance shown_DepthStatus {E} : Shown (dbg_DepthStatus (E := E)).
Proof. shown_with ltac:(fun a => unfold dbg_DepthStatus in *). Qed.
#[local] Arguments dbg_DepthStatus : simpl never.
#[export] Instance shown_Arrayed {E} : Shown (dbg_Arrayed (E := E)).
Proof. shown_with ltac:(fun a => unfold dbg_Arrayed in *). Qed.
#[local] Arguments dbg_Arrayed : simpl never.
#[export] Instance shown_MS {E} : Shown (dbg_MS (E := E)).
Proof. shown_with ltac:(fun a => unfold dbg_MS in *). Qed.
#[local] Arguments dbg_MS : simpl never.
#[export] Instance shown_SampledStatus {E} : Shown (dbg_SampledStatus (E := E)).
Proof. shown_with ltac:(fun a => unfold dbg_SampledStatus in *). Qed.
#[local] Arguments dbg_SampledStatus : simpl never.
#[export] Instance shown_ImageFormat {E} : Shown (dbg_ImageFormat (E := E)).
Proof. shown_with ltac:(fun a => unfold dbg_ImageFormat in *). Qed.
#[local] Arguments dbg_ImageFormat : simpl never.
#[export] Instance shown_AccessQualifier {E} : Shown (dbg_AccessQualifier (E := E)).
Proof. shown_with ltac:(fun a => unfold dbg_AccessQualifier in *). Qed.
#[local] Arguments dbg_AccessQualifier : simpl never.
#[export] Instance shown_Generator {E} : Shown (dbg_Generator (E := E)).
Proof. shown_with ltac:(fun a => unfold dbg_Generator in *). Qed.
#[local] Arguments dbg_Generator : simpl never.
#[export] Instance shown_FpFastMathMode {E} : Shown (dbg_FpFastMathMode (E := E)).
Proof. shown_with ltac:(fun a => unfold dbg_FpFastMathMode in *). Qed.
#[local] Arguments dbg_FpFastMathMode : simpl never.
#[export] Instance shown_MemoryAccess {E} : Shown (dbg_MemoryAccess (E := E)).
Proof. shown_with ltac:(fun a => unfold dbg_MemoryAccess in *). Qed.
#[local] Arguments dbg_MemoryAccess : simpl never.
#[export] Instance shown_FunctionControl {E} : Shown (dbg_FunctionControl (E := E)).
Proof. shown_with ltac:(fun a => unfold dbg_FunctionControl in *). Qed.
#[local] Arguments dbg_FunctionControl : simpl never.
#[export] Instance shown_LoopControl {E} : Shown (dbg_LoopControl (E := E)).
Proof. shown_with ltac:(fun a => unfold dbg_LoopControl in *). Qed.
#[local] Arguments dbg_LoopControl : simpl never.
#[export] Instance shown_SelectionControl {E} : Shown (dbg_SelectionControl (E := E)).
Proof. shown_with ltac:(fun a => unfold dbg_SelectionControl in *). Qed.
#[local] Arguments dbg_SelectionControl : simpl never.
#[export] Instance shown_PhiArg {E} : Shown (dbg_PhiArg (E := E)).
Proof. shown_with ltac:(fun a => unfold dbg_PhiArg in *). Qed.
#[local] Arguments dbg_PhiArg : simpl never.
#[export] Instance shown_BranchWeights {E} : Shown (dbg_BranchWeights (E := E)).
Proof. shown_with ltac:(fun a => unfold dbg_BranchWeights in *). Qed.
#[local] Arguments dbg_BranchWeights : simpl never.
#[export] Instance shown_Decoration {E} : Shown (dbg_Decoration (E := E)).
Proof. shown_with ltac:(fun a => unfold dbg_Decoration in *). Qed.
#[local] Arguments dbg_Decoration : simpl never.
#[export] Instance shown_OpNop {E} : Shown (dbg_OpNop (E := E)).
Proof. shown_with ltac:(fun a => unfold dbg_OpNop in *). Qed.
#[local] Arguments dbg_OpNop : simpl never.
#[export] Instance shown_OpUndef {E} : Shown (dbg_OpUndef (E := E)).
Proof. shown_with ltac:(fun a => unfold dbg_OpUndef in *). Qed.
#[local] Arguments dbg_OpUndef : simpl never.
#[export] Instance shown_OpSourceContinued {E} : Shown (dbg_OpSourceContinued (E := E)).
Proof. shown_with ltac:(fun a => unfold dbg_OpSourceContinued in *). Qed.
#[local] Arguments dbg_OpSourceContinued : simpl never.
#[export] Instance shown_OpSource {E} : Shown (dbg_OpSource (E := E)).
Proof. shown_with ltac:(fun a => unfold dbg_OpSource in *). Qed.
#[local] Arguments dbg_OpSource : simpl never.
#[export] Instance shown_OpSourceExtension {E} : Shown (dbg_OpSourceExtension (E := E)).
Proof. shown_with ltac:(fun a => unfold dbg_OpSourceExtension in *). Qed.
#[local] Arguments dbg_OpSourceExtension : simpl never.
#[export] Instance shown_OpName {E} : Shown (dbg_OpName (E := E)).
Proof. shown_with ltac:(fun a => unfold dbg_OpName in *). Qed.
#[local] Arguments dbg_OpName : simpl never.
#[export] Instance shown_OpMemberName {E} : Shown (dbg_OpMemberName (E := E)).
Proof. shown_with ltac:(fun a => unfold dbg_OpMemberName in *). Qed.
#[local] Arguments dbg_OpMemberName : simpl never.
#[export] Instance shown_OpString {E} : Shown (dbg_OpString (E := E)).
Proof. shown_with ltac:(fun a => unfold dbg_OpString in *). Qed.
#[local] Arguments dbg_OpString : simpl never.
#[export] Instance shown_OpExtension {E} : Shown (dbg_OpExtension (E := E)).
Proof. shown_with ltac:(fun a => unfold dbg_OpExtension in *). Qed.
#[local] Arguments dbg_OpExtension : simpl never.
#[export] Instance shown_OpExtInstImport {E} : Shown (dbg_OpExtInstImport (E := E)).
Proof. shown_with ltac:(fun a => unfold dbg_OpExtInstImport in *). Qed.
#[local] Arguments dbg_OpExtInstImport : simpl never.
#[export] Instance shown_OpExtInst {E} : Shown (dbg_OpExtInst (E := E)).
Proof. shown_with ltac:(fun a => unfold dbg_OpExtInst in *). Qed.
#[local] Arguments dbg_OpExtInst : simpl never.
#[export] Instance shown_OpMemoryModel {E} : Shown (dbg_OpMemoryModel (E := E)).
Proof. shown_with ltac:(fun a => unfold dbg_OpMemoryModel in *). Qed.
#[local] Arguments dbg_OpMemoryModel : simpl never.
#[export] Instance shown_OpEntryPoint {E} : Shown (dbg_OpEntryPoint (E := E)).
Proof. shown_with ltac:(fun a => unfold dbg_OpEntryPoint in *). Qed.
#[local] Arguments dbg_OpEntryPoint : simpl never.
#[export] Instance shown_OpExecutionMode {E} : Shown (dbg_OpExecutionMode (E := E)).
Proof. shown_with ltac:(fun a => unfold dbg_OpExecutionMode in *). Qed.
#[local] Arguments dbg_OpExecutionMode : simpl never.
#[export] Instance shown_OpCapability {E} : Shown (dbg_OpCapability (E := E)).
Proof. shown_with ltac:(fun a => unfold dbg_OpCapability in *). Qed.
#[local] Arguments dbg_OpCapability : simpl never.
#[export] Instance shown_OpTypeVoid {E} : Shown (dbg_OpTypeVoid (E := E)).
Proof. shown_with ltac:(fun a => unfold dbg_OpTypeVoid in *). Qed.
#[local] Arguments dbg_OpTypeVoid : simpl never.
#[export] Instance shown_OpTypeBool {E} : Shown (dbg_OpTypeBool (E := E)).
Proof. shown_with ltac:(fun a => unfold dbg_OpTypeBool in *). Qed.
#[local] Arguments dbg_OpTypeBool : simpl never.
#[export] Instance shown_OpTypeInt {E} : Shown (dbg_OpTypeInt (E := E)).
Proof. shown_with ltac:(fun a => unfold dbg_OpTypeInt in *). Qed.
#[local] Arguments dbg_OpTypeInt : simpl never.
#[export] Instance shown_OpTypeFloat {E} : Shown (dbg_OpTypeFloat (E := E)).
Proof. shown_with ltac:(fun a => unfold dbg_OpTypeFloat in *). Qed.
#[local] Arguments dbg_OpTypeFloat : simpl never.
#[export] Instance shown_OpTypeVector {E} : Shown (dbg_OpTypeVector (E := E)).
Proof. shown_with ltac:(fun a => unfold dbg_OpTypeVector in *). Qed.
#[local] Arguments dbg_OpTypeVector : simpl never.
#[export] Instance shown_OpTypeMatrix {E} : Shown (dbg_OpTypeMatrix (E := E)).
Proof. shown_with ltac:(fun a => unfold dbg_OpTypeMatrix in *). Qed.
#[local] Arguments dbg_OpTypeMatrix : simpl never.
#[export] Instance shown_OpTypeImage {E} : Shown (dbg_OpTypeImage (E := E)).
Proof. shown_with ltac:(fun a => unfold dbg_OpTypeImage in *). Qed.
#[local] Arguments dbg_OpTypeImage : simpl never.
#[export] Instance shown_OpTypeSampler {E} : Shown (dbg_OpTypeSampler (E := E)).
Proof. shown_with ltac:(fun a => unfold dbg_OpTypeSampler in *). Qed.
#[local] Arguments dbg_OpTypeSampler : simpl never.
#[export] Instance shown_OpTypeSampledImage {E} : Shown (dbg_OpTypeSampledImage (E := E)).
Proof. shown_with ltac:(fun a => unfold dbg_OpTypeSampledImage in *). Qed.
#[local] Arguments dbg_OpTypeSampledImage : simpl never.
#[export] Instance shown_OpTypeArray {E} : Shown (dbg_OpTypeArray (E := E)).
Proof. shown_with ltac:(fun a => unfold dbg_OpTypeArray in *). Qed.
#[local] Arguments dbg_OpTypeArray : simpl never.
#[export] Instance shown_OpTypeRuntimeArray {E} : Shown (dbg_OpTypeRuntimeArray (E := E)).
Proof. shown_with ltac:(fun a => unfold dbg_OpTypeRuntimeArray in *). Qed.
#[local] Arguments dbg_OpTypeRuntimeArray : simpl never.
#[export] Instance shown_OpTypeStruct {E} : Shown (dbg_OpTypeStruct (E := E)).
Proof. shown_with ltac:(fun a => unfold dbg_OpTypeStruct in *). Qed.
#[local] Arguments dbg_OpTypeStruct : simpl never.
#[export] Instance shown_OpTypeOpaque {E} : Shown (dbg_OpTypeOpaque (E := E)).
Proof. shown_with ltac:(fun a => unfold dbg_OpTypeOpaque in *). Qed.
#[local] Arguments dbg_OpTypeOpaque : simpl never.
#[export] Instance shown_OpTypePointer {E} : Shown (dbg_OpTypePointer (E := E)).
Proof. shown_with ltac:(fun a => unfold dbg_OpTypePointer in *). Qed.
#[local] Arguments dbg_OpTypePointer : simpl never.
#[export] Instance shown_OpTypeFunction {E} : Shown (dbg_OpTypeFunction (E := E)).
Proof. shown_with ltac:(fun a => unfold dbg_OpTypeFunction in *). Qed.
#[local] Arguments dbg_OpTypeFunction : simpl never.
#[export] Instance shown_OpTypeEvent {E} : Shown (dbg_OpTypeEvent (E := E)).
Proof. shown_with ltac:(fun a => unfold dbg_OpTypeEvent in *). Qed.
#[local] Arguments dbg_OpTypeEvent : simpl never.
#[export] Instance shown_OpTypeDeviceEvent {E} : Shown (dbg_OpTypeDeviceEvent (E := E)).
Proof. shown_with ltac:(fun a => unfold dbg_OpTypeDeviceEvent in *). Qed.
#[local] Arguments dbg_OpTypeDeviceEvent : simpl never.
#[export] Instance shown_OpTypeQueue {E} : Shown (dbg_OpTypeQueue (E := E)).
Proof. shown_with ltac:(fun a => unfold dbg_OpTypeQueue in *). Qed.
#[local] Arguments dbg_OpTypeQueue : simpl never.
#[export] Instance shown_OpTypePipe {E} : Shown (dbg_OpTypePipe (E := E)).
Proof. shown_with ltac:(fun a => unfold dbg_OpTypePipe in *). Qed.
#[local] Arguments dbg_OpTypePipe : simpl never.
#[export] Instance shown_OpTypeForwardPointer {E} : Shown (dbg_OpTypeForwardPointer (E := E)).
Proof. shown_with ltac:(fun a => unfold dbg_OpTypeForwardPointer in *). Qed.
#[local] Arguments dbg_OpTypeForwardPointer : simpl never.
#[export] Instance shown_OpConstant {E} : Shown (dbg_OpConstant (E := E)).
Proof. shown_with ltac:(fun a => unfold dbg_OpConstant in *). Qed.
#[local] Arguments dbg_OpConstant : simpl never.
#[export] Instance shown_OpConstantComposite {E} : Shown (dbg_OpConstantComposite (E := E)).
Proof. shown_with ltac:(fun a => unfold dbg_OpConstantComposite in *). Qed.
#[local] Arguments dbg_OpConstantComposite : simpl never.
#[export] Instance shown_OpFunction {E} : Shown (dbg_OpFunction (E := E)).
Proof. shown_with ltac:(fun a => unfold dbg_OpFunction in *). Qed.
#[local] Arguments dbg_OpFunction : simpl never.
#[export] Instance shown_OpFunctionParameter {E} : Shown (dbg_OpFunctionParameter (E := E)).
Proof. shown_with ltac:(fun a => unfold dbg_OpFunctionParameter in *). Qed.
#[local] Arguments dbg_OpFunctionParameter : simpl never.
#[export] Instance shown_OpFunctionEnd {E} : Shown (dbg_OpFunctionEnd (E := E)).
Proof. shown_with ltac:(fun a => unfold dbg_OpFunctionEnd in *). Qed.
#[local] Arguments dbg_OpFunctionEnd : simpl never.
#[export] Instance shown_OpVariable {E} : Shown (dbg_OpVariable (E := E)).
Proof. shown_with ltac:(fun a => unfold dbg_OpVariable in *). Qed.
#[local] Arguments dbg_OpVariable : simpl never.
#[export] Instance shown_OpLoad {E} : Shown (dbg_OpLoad (E := E)).
Proof. shown_with ltac:(fun a => unfold dbg_OpLoad in *). Qed.
#[local] Arguments dbg_OpLoad : simpl never.
#[export] Instance shown_OpStore {E} : Shown (dbg_OpStore (E := E)).
Proof. shown_with ltac:(fun a => unfold dbg_OpStore in *). Qed.
#[local] Arguments dbg_OpStore : simpl never.
#[export] Instance shown_OpAccessChain {E} : Shown (dbg_OpAccessChain (E := E)).
Proof. shown_with ltac:(fun a => unfold dbg_OpAccessChain in *). Qed.
#[local] Arguments dbg_OpAccessChain : simpl never.
#[export] Instance shown_OpDecorate {E} : Shown (dbg_OpDecorate (E := E)).
Proof. shown_with ltac:(fun a => unfold dbg_OpDecorate in *). Qed.
#[local] Arguments dbg_OpDecorate : simpl never.
#[export] Instance shown_OpMemberDecorate {E} : Shown (dbg_OpMemberDecorate (E := E)).
Proof. shown_with ltac:(fun a => unfold dbg_OpMemberDecorate in *). Qed.
#[local] Arguments dbg_OpMemberDecorate : simpl never.
#[export] Instance shown_OpConvertUToF {E} : Shown (dbg_OpConvertUToF (E := E)).
Proof. shown_with ltac:(fun a => unfold dbg_OpConvertUToF in *). Qed.
#[local] Arguments dbg_OpConvertUToF : simpl never.
#[export] Instance shown_OpBitcast {E} : Shown (dbg_OpBitcast (E := E)).
Proof. shown_with ltac:(fun a => unfold dbg_OpBitcast in *). Qed.
#[local] Arguments dbg_OpBitcast : simpl never.
#[export] Instance shown_OpIAdd {E} : Shown (dbg_OpIAdd (E := E)).
Proof. shown_with ltac:(fun a => unfold dbg_OpIAdd in *). Qed.
#[local] Arguments dbg_OpIAdd : simpl never.
#[export] Instance shown_OpFAdd {E} : Shown (dbg_OpFAdd (E := E)).
Proof. shown_with ltac:(fun a => unfold dbg_OpFAdd in *). Qed.
#[local] Arguments dbg_OpFAdd : simpl never.
#[export] Instance shown_OpISub {E} : Shown (dbg_OpISub (E := E)).
Proof. shown_with ltac:(fun a => unfold dbg_OpISub in *). Qed.
#[local] Arguments dbg_OpISub : simpl never.
#[export] Instance shown_OpFSub {E} : Shown (dbg_OpFSub (E := E)).
Proof. shown_with ltac:(fun a => unfold dbg_OpFSub in *). Qed.
#[local] Arguments dbg_OpFSub : simpl never.
#[export] Instance shown_OpIMul {E} : Shown (dbg_OpIMul (E := E)).
Proof. shown_with ltac:(fun a => unfold dbg_OpIMul in *). Qed.
#[local] Arguments dbg_OpIMul : simpl never.
#[export] Instance shown_OpFMul {E} : Shown (dbg_OpFMul (E := E)).
Proof. shown_with ltac:(fun a => unfold dbg_OpFMul in *). Qed.
#[local] Arguments dbg_OpFMul : simpl never.
#[export] Instance shown_OpUDiv {E} : Shown (dbg_OpUDiv (E := E)).
Proof. shown_with ltac:(fun a => unfold dbg_OpUDiv in *). Qed.
#[local] Arguments dbg_OpUDiv : simpl never.
#[export] Instance shown_OpSDiv {E} : Shown (dbg_OpSDiv (E := E)).
Proof. shown_with ltac:(fun a => unfold dbg_OpSDiv in *). Qed.
#[local] Arguments dbg_OpSDiv : simpl never.
#[export] Instance shown_OpFDiv {E} : Shown (dbg_OpFDiv (E := E)).
Proof. shown_with ltac:(fun a => unfold dbg_OpFDiv in *). Qed.
#[local] Arguments dbg_OpFDiv : simpl never.
#[export] Instance shown_OpUMod {E} : Shown (dbg_OpUMod (E := E)).
Proof. shown_with ltac:(fun a => unfold dbg_OpUMod in *). Qed.
#[local] Arguments dbg_OpUMod : simpl never.
#[export] Instance shown_OpSRem {E} : Shown (dbg_OpSRem (E := E)).
Proof. shown_with ltac:(fun a => unfold dbg_OpSRem in *). Qed.
#[local] Arguments dbg_OpSRem : simpl never.
#[export] Instance shown_OpSMod {E} : Shown (dbg_OpSMod (E := E)).
Proof. shown_with ltac:(fun a => unfold dbg_OpSMod in *). Qed.
#[local] Arguments dbg_OpSMod : simpl never.
#[export] Instance shown_OpFRem {E} : Shown (dbg_OpFRem (E := E)).
Proof. shown_with ltac:(fun a => unfold dbg_OpFRem in *). Qed.
#[local] Arguments dbg_OpFRem : simpl never.
#[export] Instance shown_OpFMod {E} : Shown (dbg_OpFMod (E := E)).
Proof. shown_with ltac:(fun a => unfold dbg_OpFMod in *). Qed.
#[local] Arguments dbg_OpFMod : simpl never.
#[export] Instance shown_OpIAddCarry {E} : Shown (dbg_OpIAddCarry (E := E)).
Proof. shown_with ltac:(fun a => unfold dbg_OpIAddCarry in *). Qed.
#[local] Arguments dbg_OpIAddCarry : simpl never.
#[export] Instance shown_OpISubBorrow {E} : Shown (dbg_OpISubBorrow (E := E)).
Proof. shown_with ltac:(fun a => unfold dbg_OpISubBorrow in *). Qed.
#[local] Arguments dbg_OpISubBorrow : simpl never.
#[export] Instance shown_OpUMulExtended {E} : Shown (dbg_OpUMulExtended (E := E)).
Proof. shown_with ltac:(fun a => unfold dbg_OpUMulExtended in *). Qed.
#[local] Arguments dbg_OpUMulExtended : simpl never.
#[export] Instance shown_OpSMulExtended {E} : Shown (dbg_OpSMulExtended (E := E)).
Proof. shown_with ltac:(fun a => unfold dbg_OpSMulExtended in *). Qed.
#[local] Arguments dbg_OpSMulExtended : simpl never.
#[export] Instance shown_OpBitwiseOr {E} : Shown (dbg_OpBitwiseOr (E := E)).
Proof. shown_with ltac:(fun a => unfold dbg_OpBitwiseOr in *). Qed.
#[local] Arguments dbg_OpBitwiseOr : simpl never.
#[export] Instance shown_OpBitwiseXor {E} : Shown (dbg_OpBitwiseXor (E := E)).
Proof. shown_with ltac:(fun a => unfold dbg_OpBitwiseXor in *). Qed.
#[local] Arguments dbg_OpBitwiseXor : simpl never.
#[export] Instance shown_OpBitwiseAnd {E} : Shown (dbg_OpBitwiseAnd (E := E)).
Proof. shown_with ltac:(fun a => unfold dbg_OpBitwiseAnd in *). Qed.
#[local] Arguments dbg_OpBitwiseAnd : simpl never.
#[export] Instance shown_OpIEqual {E} : Shown (dbg_OpIEqual (E := E)).
Proof. shown_with ltac:(fun a => unfold dbg_OpIEqual in *). Qed.
#[local] Arguments dbg_OpIEqual : simpl never.
#[export] Instance shown_OpINotEqual {E} : Shown (dbg_OpINotEqual (E := E)).
Proof. shown_with ltac:(fun a => unfold dbg_OpINotEqual in *). Qed.
#[local] Arguments dbg_OpINotEqual : simpl never.
#[export] Instance shown_OpUGreaterThan {E} : Shown (dbg_OpUGreaterThan (E := E)).
Proof. shown_with ltac:(fun a => unfold dbg_OpUGreaterThan in *). Qed.
#[local] Arguments dbg_OpUGreaterThan : simpl never.
#[export] Instance shown_OpSGreaterThan {E} : Shown (dbg_OpSGreaterThan (E := E)).
Proof. shown_with ltac:(fun a => unfold dbg_OpSGreaterThan in *). Qed.
#[local] Arguments dbg_OpSGreaterThan : simpl never.
#[export] Instance shown_OpUGreaterThanEqual {E} : Shown (dbg_OpUGreaterThanEqual (E := E)).
Proof. shown_with ltac:(fun a => unfold dbg_OpUGreaterThanEqual in *). Qed.
#[local] Arguments dbg_OpUGreaterThanEqual : simpl never.
#[export] Instance shown_OpSGreaterThanEqual {E} : Shown (dbg_OpSGreaterThanEqual (E := E)).
Proof. shown_with ltac:(fun a => unfold dbg_OpSGreaterThanEqual in *). Qed.
#[local] Arguments dbg_OpSGreaterThanEqual : simpl never.
#[export] Instance shown_OpULessThan {E} : Shown (dbg_OpULessThan (E := E)).
Proof. shown_with ltac:(fun a => unfold dbg_OpULessThan in *). Qed.
#[local] Arguments dbg_OpULessThan : simpl never.
#[export] Instance shown_OpSLessThan {E} : Shown (dbg_OpSLessThan (E := E)).
Proof. shown_with ltac:(fun a => unfold dbg_OpSLessThan in *). Qed.
#[local] Arguments dbg_OpSLessThan : simpl never.
#[export] Instance shown_OpULessThanEqual {E} : Shown (dbg_OpULessThanEqual (E := E)).
Proof. shown_with ltac:(fun a => unfold dbg_OpULessThanEqual in *). Qed.
#[local] Arguments dbg_OpULessThanEqual : simpl never.
#[export] Instance shown_OpSLessThanEqual {E} : Shown (dbg_OpSLessThanEqual (E := E)).
Proof. shown_with ltac:(fun a => unfold dbg_OpSLessThanEqual in *). Qed.
#[local] Arguments dbg_OpSLessThanEqual : simpl never.
#[export] Instance shown_OpFOrdEqual {E} : Shown (dbg_OpFOrdEqual (E := E)).
Proof. shown_with ltac:(fun a => unfold dbg_OpFOrdEqual in *). Qed.
#[local] Arguments dbg_OpFOrdEqual : simpl never.
#[export] Instance shown_OpFUnordEqual {E} : Shown (dbg_OpFUnordEqual (E := E)).
Proof. shown_with ltac:(fun a => unfold dbg_OpFUnordEqual in *). Qed.
#[local] Arguments dbg_OpFUnordEqual : simpl never.
#[export] Instance shown_OpFOrdNotEqual {E} : Shown (dbg_OpFOrdNotEqual (E := E)).
Proof. shown_with ltac:(fun a => unfold dbg_OpFOrdNotEqual in *). Qed.
#[local] Arguments dbg_OpFOrdNotEqual : simpl never.
#[export] Instance shown_OpFUnordNotEqual {E} : Shown (dbg_OpFUnordNotEqual (E := E)).
Proof. shown_with ltac:(fun a => unfold dbg_OpFUnordNotEqual in *). Qed.
#[local] Arguments dbg_OpFUnordNotEqual : simpl never.
#[export] Instance shown_OpFOrdLessThan {E} : Shown (dbg_OpFOrdLessThan (E := E)).
Proof. shown_with ltac:(fun a => unfold dbg_OpFOrdLessThan in *). Qed.
#[local] Arguments dbg_OpFOrdLessThan : simpl never.
#[export] Instance shown_OpFUnordLessThan {E} : Shown (dbg_OpFUnordLessThan (E := E)).
Proof. shown_with ltac:(fun a => unfold dbg_OpFUnordLessThan in *). Qed.
#[local] Arguments dbg_OpFUnordLessThan : simpl never.
#[export] Instance shown_OpFOrdGreaterThan {E} : Shown (dbg_OpFOrdGreaterThan (E := E)).
Proof. shown_with ltac:(fun a => unfold dbg_OpFOrdGreaterThan in *). Qed.
#[local] Arguments dbg_OpFOrdGreaterThan : simpl never.
#[export] Instance shown_OpFUnordGreaterThan {E} : Shown (dbg_OpFUnordGreaterThan (E := E)).
Proof. shown_with ltac:(fun a => unfold dbg_OpFUnordGreaterThan in *). Qed.
#[local] Arguments dbg_OpFUnordGreaterThan : simpl never.
#[export] Instance shown_OpFOrdLessThanEqual {E} : Shown (dbg_OpFOrdLessThanEqual (E := E)).
Proof. shown_with ltac:(fun a => unfold dbg_OpFOrdLessThanEqual in *). Qed.
#[local] Arguments dbg_OpFOrdLessThanEqual : simpl never.
#[export] Instance shown_OpFUnordLessThanEqual {E} : Shown (dbg_OpFUnordLessThanEqual (E := E)).
Proof. shown_with ltac:(fun a => unfold dbg_OpFUnordLessThanEqual in *). Qed.
#[local] Arguments dbg_OpFUnordLessThanEqual : simpl never.
#[export] Instance shown_OpFOrdGreaterThanEqual {E} : Shown (dbg_OpFOrdGreaterThanEqual (E := E)).
Proof. shown_with ltac:(fun a => unfold dbg_OpFOrdGreaterThanEqual in *). Qed.
#[local] Arguments dbg_OpFOrdGreaterThanEqual : simpl never.
#[export] Instance shown_OpFUnordGreaterThanEqual {E} : Shown (dbg_OpFUnordGreaterThanEqual (E := E)).
Proof. shown_with ltac:(fun a => unfold dbg_OpFUnordGreaterThanEqual in *). Qed.
#[local] Arguments dbg_OpFUnordGreaterThanEqual : simpl never.
#[export] Instance shown_OpPhi {E} : Shown (dbg_OpPhi (E := E)).
Proof. shown_with ltac:(fun a => unfold dbg_OpPhi in *). Qed.
#[local] Arguments dbg_OpPhi : simpl never.
#[export] Instance shown_OpLoopMerge {E} : Shown (dbg_OpLoopMerge (E := E)).
Proof. shown_with ltac:(fun a => unfold dbg_OpLoopMerge in *). Qed.
#[local] Arguments dbg_OpLoopMerge : simpl never.
#[export] Instance shown_OpSelectionMerge {E} : Shown (dbg_OpSelectionMerge (E := E)).
Proof. shown_with ltac:(fun a => unfold dbg_OpSelectionMerge in *). Qed.
#[local] Arguments dbg_OpSelectionMerge : simpl never.
#[export] Instance shown_OpLabel {E} : Shown (dbg_OpLabel (E := E)).
Proof. shown_with ltac:(fun a => unfold dbg_OpLabel in *). Qed.
#[local] Arguments dbg_OpLabel : simpl never.
#[export] Instance shown_OpBranch {E} : Shown (dbg_OpBranch (E := E)).
Proof. shown_with ltac:(fun a => unfold dbg_OpBranch in *). Qed.
#[local] Arguments dbg_OpBranch : simpl never.
#[export] Instance shown_OpBranchConditional {E} : Shown (dbg_OpBranchConditional (E := E)).
Proof. shown_with ltac:(fun a => unfold dbg_OpBranchConditional in *). Qed.
#[local] Arguments dbg_OpBranchConditional : simpl never.
#[export] Instance shown_OpReturn {E} : Shown (dbg_OpReturn (E := E)).
Proof. shown_with ltac:(fun a => unfold dbg_OpReturn in *). Qed.
#[local] Arguments dbg_OpReturn : simpl never.
#[export] Instance shown_Core {E} : Shown (dbg_Core (E := E)).
Proof. shown_with ltac:(fun a => unfold dbg_Core in *). Qed.
#[local] Arguments dbg_Core : simpl never.
#[export] Instance shown_RawModule {E} : Shown (dbg_RawModule (E := E)).
Proof. shown_with ltac:(fun a => unfold dbg_RawModule in *). Qed.
#[local] Arguments dbg_RawModule : simpl never.
#[export] Instance shown_ReadError {E} : Shown (dbg_ReadError (E := E)).
Proof. shown_with ltac:(fun a => unfold dbg_ReadError in *). Qed.
#[local] Arguments dbg_ReadError : simpl never.
#[export] Instance shown_GroupDebug {E} : Shown (dbg_GroupDebug (E := E)).
Proof. shown_with ltac:(fun a => unfold dbg_GroupDebug in *). Qed.
#[local] Arguments dbg_GroupDebug : simpl never.
#[export] Instance shown_GroupAnnotation {E} : Shown (dbg_GroupAnnotation (E := E)).
Proof. shown_with ltac:(fun a => unfold dbg_GroupAnnotation in *). Qed.
#[local] Arguments dbg_GroupAnnotation : simpl never.
#[export] Instance shown_GroupType {E} : Shown (dbg_GroupType (E := E)).
Proof. shown_with ltac:(fun a => unfold dbg_GroupType in *). Qed.
#[local] Arguments dbg_GroupType : simpl never.
#[export] Instance shown_GroupConstant {E} : Shown (dbg_GroupConstant (E := E)).
Proof. shown_with ltac:(fun a => unfold dbg_GroupConstant in *). Qed.
#[local] Arguments dbg_GroupConstant : simpl never.
#[export] Instance shown_GroupGlobal {E} : Shown (dbg_GroupGlobal (E := E)).
Proof. shown_with ltac:(fun a => unfold dbg_GroupGlobal in *). Qed.
#[local] Arguments dbg_GroupGlobal : simpl never.
#[export] Instance shown_GroupCode {E} : Shown (dbg_GroupCode (E := E)).
Proof. shown_with ltac:(fun a => unfold dbg_GroupCode in *). Qed.
#[local] Arguments dbg_GroupCode : simpl never.
#[export] Instance shown_GroupMerge {E} : Shown (dbg_GroupMerge (E := E)).
Proof. shown_with ltac:(fun a => unfold dbg_GroupMerge in *). Qed.
#[local] Arguments dbg_GroupMerge : simpl never.
#[export] Instance shown_GroupBranch {E} : Shown (dbg_GroupBranch (E := E)).
Proof. shown_with ltac:(fun a => unfold dbg_GroupBranch in *). Qed.
#[local] Arguments dbg_GroupBranch : simpl never.
#[export] Instance shown_FunctionDeclaration {E} : Shown (dbg_FunctionDeclaration (E := E)).
Proof. shown_with ltac:(fun a => unfold dbg_FunctionDeclaration in *). Qed.
#[local] Arguments dbg_FunctionDeclaration : simpl never.
#[export] Instance shown_BasicBlock {E} : Shown (dbg_BasicBlock (E := E)).
Proof. shown_with ltac:(fun a => unfold dbg_BasicBlock in *). Qed.
#[local] Arguments dbg_BasicBlock : simpl never.
#[export] Instance shown_FunctionDefinition {E} : Shown (dbg_FunctionDefinition (E := E)).
Proof. shown_with ltac:(fun a => unfold dbg_FunctionDefinition in *). Qed.
#[local] Arguments dbg_FunctionDefinition : simpl never.
#[export] Instance shown_LogicalModule {E} : Shown (dbg_LogicalModule (E := E)).
Proof. shown_with ltac:(fun a => unfold dbg_LogicalModule in *). Qed.
#[local] Arguments dbg_LogicalModule : simpl never.
