(** The structs without Display (C91): equality, Debug, and the operands of the standard. *)
From Verif Require Import Base Types Ops MoreOps EqBase DebugBase Debug PlainOps DebugOps Spec_Tables Spec_Wire Spec_Names Spec_Opcodes Spec_Text Spec_Debug
  Spec_Shown Spec_More Spec_Plain Proofs_Equality Proofs_Debug Proofs_Debug2 Proofs_Shown.
Local Open Scope string_scope.

(** ** Equality *)
#[export] Instance exact_Pair : forall {A B} (f : A -> A -> bool) (g : B -> B -> bool), Exact f -> Exact g -> Exact (eq_Pair f g).
Proof.
  intros A B f g X Y [a b] [c d]. unfold eq_Pair. cbn [fst snd]. rewrite andb_true_iff, !exact_iff.
  split; [intros [-> ->]; reflexivity|intros [= -> ->]; split; reflexivity].
Qed.
#[local] Arguments eq_Pair : simpl never.
#[local] Arguments eq_Vec : simpl never.
#[local] Arguments eq_Option : simpl never.
Ltac exact_plain :=
  let a := fresh "a" in let b := fresh "b" in intros a b; (match goal with |- ?f _ _ = true <-> _ => unfold f end); destruct a, b; cbn;
  try (split; discriminate); try (split; reflexivity);
  rewrite ?andb_true_iff; rewrite ?exact_iff;
  let H := fresh "H" in
  (split; [intros H; decompose [and] H; subst; reflexivity|intros H; injection H; intros; subst; repeat split; reflexivity]).
#[export] Instance exact_GroupOperation : Exact eq_GroupOperation.
Proof. exact_plain. Qed.
#[export] Instance exact_ImageOperands : Exact eq_ImageOperands.
Proof. exact_plain. Qed.
#[local] Arguments eq_GroupOperation : simpl never.
#[local] Arguments eq_ImageOperands : simpl never.
Lemma plain_exact : forall T (a b : PlainValue T), eq_Plain T a b = true <-> a = b.
Proof. intros T. destruct T; cbn [eq_Plain PlainValue]; exact_plain. Qed.

(** ** Debug shows every value in its own way *)
#[export] Instance shown_Pair {E A B} (f : A -> dtree E) (g : B -> dtree E) {X : Shown f} {Y : Shown g} : Shown (dbg_Pair f g).
Proof.
  split.
  - intros [a b]. unfold dbg_Pair. cbn [fst snd wf forallb]. rewrite !shown_wf. reflexivity.
  - intros [a b] [c d] H. unfold dbg_Pair in H. cbn [fst snd] in H. peel H. reflexivity.
Qed.
#[local] Arguments dbg_Vec : simpl never.
#[local] Arguments dbg_Option : simpl never.
#[local] Arguments dbg_Pair : simpl never.
#[local] Arguments dbg_OpId : simpl never.
#[local] Arguments dbg_ResultId : simpl never.
#[local] Arguments dbg_MemberIndex : simpl never.
#[export] Instance shown_ScopeId {E} : Shown (@dbg_ScopeId E).
Proof. shown_with ltac:(fun a => unfold dbg_ScopeId in *). Qed.
#[local] Arguments dbg_ScopeId : simpl never.
#[export] Instance shown_MemorySemanticsId {E} : Shown (@dbg_MemorySemanticsId E).
Proof. shown_with ltac:(fun a => unfold dbg_MemorySemanticsId in *). Qed.
#[local] Arguments dbg_MemorySemanticsId : simpl never.
#[export] Instance shown_GroupOperation {E} : Shown (@dbg_GroupOperation E).
Proof. shown_with ltac:(fun a => unfold dbg_GroupOperation in *). Qed.
#[local] Arguments dbg_GroupOperation : simpl never.
#[export] Instance shown_ImageOperands {E} : Shown (@dbg_ImageOperands E).
Proof. shown_with ltac:(fun a => unfold dbg_ImageOperands in *). Qed.
#[local] Arguments dbg_ImageOperands : simpl never.

Lemma plain_wf : forall E T (x : PlainValue T), wf (dbg_Plain (E := E) T x) = true.
Proof. intros E T x. destruct T, x; cbn [dbg_Plain]; match goal with |- wf ?t = _ => let t' := eval red in t in change t with t' end; cbn; rewrite ?shown_wf; reflexivity. Qed.
Lemma plain_inj : forall E T (x y : PlainValue T), dbg_Plain (E := E) T x = dbg_Plain T y -> x = y.
Proof. intros E T x y H. destruct T; cbn [dbg_Plain PlainValue] in *; match type of H with ?s = ?t => let s' := eval red in s in let t' := eval red in t in change (s' = t') in H end; peel H; destruct x, y; cbn in *; subst; reflexivity. Qed.

Definition tree_name {E} (t : dtree E) : string := match t with DName n | DTuple n _ | DStruct n _ => n | _ => "" end.
Definition type_name (T : PlainType) : string :=
  match T with
  | Type_OpGroupMemberDecorate => "OpGroupMemberDecorate"
  | Type_OpImageSampledImplicitLod => "OpImageSampledImplicitLod"
  | Type_OpImageSampledExplicitLod => "OpImageSampledExplicitLod"
  | Type_OpImageSampleDrefImplicitLod => "OpImageSampleDrefImplicitLod"
  | Type_OpImageSampleDrefExplicitLod => "OpImageSampleDrefExplicitLod"
  | Type_OpImageSampleProjImplicitLod => "OpImageSampleProjImplicitLod"
  | Type_OpImageSampleProjExplicitLod => "OpImageSampleProjExplicitLod"
  | Type_OpImageSampleProjDrefImplicitLod => "OpImageSampleProjDrefImplicitLod"
  | Type_OpImageSampleProjDrefExplicitLod => "OpImageSampleProjDrefExplicitLod"
  | Type_OpImageFetch => "OpImageFetch"
  | Type_OpImageGather => "OpImageGather"
  | Type_OpImageDrefGather => "OpImageDrefGather"
  | Type_OpImageRead => "OpImageRead"
  | Type_OpImageWrite => "OpImageWrite"
  | Type_OpImage => "OpImage"
  | Type_OpImageQueryFormat => "OpImageQueryFormat"
  | Type_OpImageQueryOrder => "OpImageQueryOrder"
  | Type_OpImageQuerySizeLod => "OpImageQuerySizeLod"
  | Type_OpImageQuerySize => "OpImageQuerySize"
  | Type_OpImageQueryLod => "OpImageQueryLod"
  | Type_OpImageQueryLevels => "OpImageQueryLevels"
  | Type_OpImageQuerySamples => "OpImageQuerySamples"
  | Type_OpImageSparseSampleImplicitLod => "OpImageSparseSampleImplicitLod"
  | Type_OpImageSparseSampleExplicitLod => "OpImageSparseSampleExplicitLod"
  | Type_OpImageSparseSampleDrefImplicitLod => "OpImageSparseSampleDrefImplicitLod"
  | Type_OpImageSparseSampleDrefExplicitLod => "OpImageSparseSampleDrefExplicitLod"
  | Type_OpImageSparseSampleProjImplicitLod => "OpImageSparseSampleProjImplicitLod"
  | Type_OpImageSparseSampleProjExplicitLod => "OpImageSparseSampleProjExplicitLod"
  | Type_OpImageSparseSampleProjDrefImplicitLod => "OpImageSparseSampleProjDrefImplicitLod"
  | Type_OpImageSparseSampleProjDrefExplicitLod => "OpImageSparseSampleProjDrefExplicitLod"
  | Type_OpImageSparseFetch => "OpImageSparseFetch"
  | Type_OpImageSparseGather => "OpImageSparseGather"
  | Type_OpImageSparseDrefGather => "OpImageSparseDrefGather"
  | Type_OpImageSparseTexelsResident => "OpImageSparseTexelsResident"
  | Type_OpImageSparseRead => "OpImageSparseRead"
  | Type_OpBitFieldInsert => "OpBitFieldInsert"
  | Type_OpBitFieldSExtract => "OpBitFieldSExtract"
  | Type_OpBitFieldUExtract => "OpBitFieldUExtract"
  | Type_OpBitReverse => "OpBitReverse"
  | Type_OpBitCount => "OpBitCount"
  | Type_OpAny => "OpAny"
  | Type_OpAll => "OpAll"
  | Type_OpIsNan => "OpIsNan"
  | Type_OpIsInf => "OpIsInf"
  | Type_OpIsFinite => "OpIsFinite"
  | Type_OpIsNormal => "OpIsNormal"
  | Type_OpSignBitSet => "OpSignBitSet"
  | Type_OpLessOrGreater => "OpLessOrGreater"
  | Type_OpOrdered => "OpOrdered"
  | Type_OpUnordered => "OpUnordered"
  | Type_OpLogicalEqual => "OpLogicalEqual"
  | Type_OpLogicalNotEqual => "OpLogicalNotEqual"
  | Type_OpLogicalOr => "OpLogicalOr"
  | Type_OpLogicalAnd => "OpLogicalAnd"
  | Type_OpLogicalNot => "OpLogicalNot"
  | Type_OpSelect => "OpSelect"
  | Type_OpDPdx => "OpDPdx"
  | Type_OpDPdy => "OpDPdy"
  | Type_OpFwidth => "OpFwidth"
  | Type_OpDPdxFine => "OpDPdxFine"
  | Type_OpDPdyFine => "OpDPdyFine"
  | Type_OpFwidthFine => "OpFwidthFine"
  | Type_OpDPdxCoarse => "OpDPdxCoarse"
  | Type_OpDPdyCoarse => "OpDPdyCoarse"
  | Type_OpFwidthCoarse => "OpFwidthCoarse"
  | Type_OpSwitch => "OpSwitch"
  | Type_OpKill => "OpKill"
  | Type_OpReturnValue => "OpReturnValue"
  | Type_OpUnreachable => "OpUnreachable"
  | Type_OpLifetimeStart => "OpLifetimeStart"
  | Type_OpLifetimeStop => "OpLifetimeStop"
  | Type_OpAtomicLoad => "OpAtomicLoad"
  | Type_OpAtomicStore => "OpAtomicStore"
  | Type_OpAtomicExchange => "OpAtomicExchange"
  | Type_OpAtomicCompareExchange => "OpAtomicCompareExchange"
  | Type_OpAtomicCompareExchangeWeak => "OpAtomicCompareExchangeWeak"
  | Type_OpAtomicIIncrement => "OpAtomicIIncrement"
  | Type_OpAtomicIDecrement => "OpAtomicIDecrement"
  | Type_OpAtomicIAdd => "OpAtomicIAdd"
  | Type_OpAtomicISub => "OpAtomicISub"
  | Type_OpAtomicSMin => "OpAtomicSMin"
  | Type_OpAtomicUMin => "OpAtomicUMin"
  | Type_OpAtomicSMax => "OpAtomicSMax"
  | Type_OpAtomicUMax => "OpAtomicUMax"
  | Type_OpAtomicAnd => "OpAtomicAnd"
  | Type_OpAtomicOr => "OpAtomicOr"
  | Type_OpAtomicXor => "OpAtomicXor"
  | Type_OpAtomicFlagTestAndSet => "OpAtomicFlagTestAndSet"
  | Type_OpAtomicFlagClear => "OpAtomicFlagClear"
  | Type_OpEmitVertex => "OpEmitVertex"
  | Type_OpEndPrimitive => "OpEndPrimitive"
  | Type_OpEmitStreamVertex => "OpEmitStreamVertex"
  | Type_OpEndStreamPrimitive => "OpEndStreamPrimitive"
  | Type_OpControlBarrier => "OpControlBarrier"
  | Type_OpMemoryBarrier => "OpMemoryBarrier"
  | Type_OpNamedBarrierInitialize => "OpNamedBarrierInitialize"
  | Type_OpMemoryNamedBarrier => "OpMemoryNamedBarrier"
  | Type_OpGroupAsyncCopy => "OpGroupAsyncCopy"
  | Type_OpGroupWaitEvents => "OpGroupWaitEvents"
  | Type_OpGroupAll => "OpGroupAll"
  | Type_OpGroupAny => "OpGroupAny"
  | Type_OpGroupBroadcast => "OpGroupBroadcast"
  | Type_OpGroupIAdd => "OpGroupIAdd"
  | Type_OpGroupFAdd => "OpGroupFAdd"
  | Type_OpGroupFMin => "OpGroupFMin"
  | Type_OpGroupUMin => "OpGroupUMin"
  | Type_OpGroupSMin => "OpGroupSMin"
  | Type_OpGroupFMax => "OpGroupFMax"
  | Type_OpGroupUMax => "OpGroupUMax"
  | Type_OpGroupSMax => "OpGroupSMax"
  | Type_OpEnqueueMarker => "OpEnqueueMarker"
  | Type_OpEnqueueKernel => "OpEnqueueKernel"
  | Type_OpGetKernelNDrangeSubGroupCount => "OpGetKernelNDrangeSubGroupCount"
  | Type_OpGetKernelNDrangeMaxSubGroupSize => "OpGetKernelNDrangeMaxSubGroupSize"
  | Type_OpGetKernelWorkGroupSize => "OpGetKernelWorkGroupSize"
  | Type_OpGetKernelPreferredWorkGroupSizeMultiple => "OpGetKernelPreferredWorkGroupSizeMultiple"
  | Type_OpRetainEvent => "OpRetainEvent"
  | Type_OpReleaseEvent => "OpReleaseEvent"
  | Type_OpCreateUserEvent => "OpCreateUserEvent"
  | Type_OpIsValidEvent => "OpIsValidEvent"
  | Type_OpSetUserEventStatus => "OpSetUserEventStatus"
  | Type_OpCaptureEventProfilingInfo => "OpCaptureEventProfilingInfo"
  | Type_OpGetDefaultQueue => "OpGetDefaultQueue"
  | Type_OpBuildNDRange => "OpBuildNDRange"
  | Type_OpGetKernelLocalSizeForSubgroupCount => "OpGetKernelLocalSizeForSubgroupCount"
  | Type_OpGetKernelMaxNumSubgroups => "OpGetKernelMaxNumSubgroups"
  | Type_OpReadPipe => "OpReadPipe"
  | Type_OpWritePipe => "OpWritePipe"
  | Type_OpReservedReadPipe => "OpReservedReadPipe"
  | Type_OpReservedWritePipe => "OpReservedWritePipe"
  | Type_OpReserveReadPipePackets => "OpReserveReadPipePackets"
  | Type_OpReserveWritePipePackets => "OpReserveWritePipePackets"
  | Type_OpCommitReadPipe => "OpCommitReadPipe"
  | Type_OpCommitWritePipe => "OpCommitWritePipe"
  | Type_OpIsValidReserveId => "OpIsValidReserveId"
  | Type_OpGetNumPipePackets => "OpGetNumPipePackets"
  | Type_OpGetMaxPipePackets => "OpGetMaxPipePackets"
  | Type_OpGroupReserveReadPipePackets => "OpGroupReserveReadPipePackets"
  | Type_OpGroupReserveWritePipePackets => "OpGroupReserveWritePipePackets"
  | Type_OpGroupCommitReadPipe => "OpGroupCommitReadPipe"
  | Type_OpGroupCommitWritePipe => "OpGroupCommitWritePipe"
  | Type_OpConstantPipeStorage => "OpConstantPipeStorage"
  | Type_OpCreatePipeFromPipeStorage => "OpCreatePipeFromPipeStorage"
  end.
Definition types : list PlainType := [Type_OpGroupMemberDecorate; Type_OpImageSampledImplicitLod; Type_OpImageSampledExplicitLod; Type_OpImageSampleDrefImplicitLod; Type_OpImageSampleDrefExplicitLod; Type_OpImageSampleProjImplicitLod; Type_OpImageSampleProjExplicitLod; Type_OpImageSampleProjDrefImplicitLod; Type_OpImageSampleProjDrefExplicitLod; Type_OpImageFetch; Type_OpImageGather; Type_OpImageDrefGather; Type_OpImageRead; Type_OpImageWrite; Type_OpImage; Type_OpImageQueryFormat; Type_OpImageQueryOrder; Type_OpImageQuerySizeLod; Type_OpImageQuerySize; Type_OpImageQueryLod; Type_OpImageQueryLevels; Type_OpImageQuerySamples; Type_OpImageSparseSampleImplicitLod; Type_OpImageSparseSampleExplicitLod; Type_OpImageSparseSampleDrefImplicitLod; Type_OpImageSparseSampleDrefExplicitLod; Type_OpImageSparseSampleProjImplicitLod; Type_OpImageSparseSampleProjExplicitLod; Type_OpImageSparseSampleProjDrefImplicitLod; Type_OpImageSparseSampleProjDrefExplicitLod; Type_OpImageSparseFetch; Type_OpImageSparseGather; Type_OpImageSparseDrefGather; Type_OpImageSparseTexelsResident; Type_OpImageSparseRead; Type_OpBitFieldInsert; Type_OpBitFieldSExtract; Type_OpBitFieldUExtract; Type_OpBitReverse; Type_OpBitCount; Type_OpAny; Type_OpAll; Type_OpIsNan; Type_OpIsInf; Type_OpIsFinite; Type_OpIsNormal; Type_OpSignBitSet; Type_OpLessOrGreater; Type_OpOrdered; Type_OpUnordered; Type_OpLogicalEqual; Type_OpLogicalNotEqual; Type_OpLogicalOr; Type_OpLogicalAnd; Type_OpLogicalNot; Type_OpSelect; Type_OpDPdx; Type_OpDPdy; Type_OpFwidth; Type_OpDPdxFine; Type_OpDPdyFine; Type_OpFwidthFine; Type_OpDPdxCoarse; Type_OpDPdyCoarse; Type_OpFwidthCoarse; Type_OpSwitch; Type_OpKill; Type_OpReturnValue; Type_OpUnreachable; Type_OpLifetimeStart; Type_OpLifetimeStop; Type_OpAtomicLoad; Type_OpAtomicStore; Type_OpAtomicExchange; Type_OpAtomicCompareExchange; Type_OpAtomicCompareExchangeWeak; Type_OpAtomicIIncrement; Type_OpAtomicIDecrement; Type_OpAtomicIAdd; Type_OpAtomicISub; Type_OpAtomicSMin; Type_OpAtomicUMin; Type_OpAtomicSMax; Type_OpAtomicUMax; Type_OpAtomicAnd; Type_OpAtomicOr; Type_OpAtomicXor; Type_OpAtomicFlagTestAndSet; Type_OpAtomicFlagClear; Type_OpEmitVertex; Type_OpEndPrimitive; Type_OpEmitStreamVertex; Type_OpEndStreamPrimitive; Type_OpControlBarrier; Type_OpMemoryBarrier; Type_OpNamedBarrierInitialize; Type_OpMemoryNamedBarrier; Type_OpGroupAsyncCopy; Type_OpGroupWaitEvents; Type_OpGroupAll; Type_OpGroupAny; Type_OpGroupBroadcast; Type_OpGroupIAdd; Type_OpGroupFAdd; Type_OpGroupFMin; Type_OpGroupUMin; Type_OpGroupSMin; Type_OpGroupFMax; Type_OpGroupUMax; Type_OpGroupSMax; Type_OpEnqueueMarker; Type_OpEnqueueKernel; Type_OpGetKernelNDrangeSubGroupCount; Type_OpGetKernelNDrangeMaxSubGroupSize; Type_OpGetKernelWorkGroupSize; Type_OpGetKernelPreferredWorkGroupSizeMultiple; Type_OpRetainEvent; Type_OpReleaseEvent; Type_OpCreateUserEvent; Type_OpIsValidEvent; Type_OpSetUserEventStatus; Type_OpCaptureEventProfilingInfo; Type_OpGetDefaultQueue; Type_OpBuildNDRange; Type_OpGetKernelLocalSizeForSubgroupCount; Type_OpGetKernelMaxNumSubgroups; Type_OpReadPipe; Type_OpWritePipe; Type_OpReservedReadPipe; Type_OpReservedWritePipe; Type_OpReserveReadPipePackets; Type_OpReserveWritePipePackets; Type_OpCommitReadPipe; Type_OpCommitWritePipe; Type_OpIsValidReserveId; Type_OpGetNumPipePackets; Type_OpGetMaxPipePackets; Type_OpGroupReserveReadPipePackets; Type_OpGroupReserveWritePipePackets; Type_OpGroupCommitReadPipe; Type_OpGroupCommitWritePipe; Type_OpConstantPipeStorage; Type_OpCreatePipeFromPipeStorage].
Lemma type_found : forall T, find (fun U => String.eqb (type_name U) (type_name T)) types = Some T.
Proof. intros T. destruct T; vm_compute; reflexivity. Qed.
Lemma type_name_inj : forall T U, type_name T = type_name U -> T = U.
Proof. intros T U H. pose proof (type_found T) as F. rewrite H, type_found in F. congruence. Qed.
Lemma tree_type : forall E T (x : PlainValue T), tree_name (dbg_Plain (E := E) T x) = type_name T.
Proof. intros E T x. destruct T; reflexivity. Qed.
Lemma plain_text_exact : forall E e (ext : E -> string), unambiguous ext -> forall T U (x : PlainValue T) (y : PlainValue U),
  debug_text e ext (dbg_Plain T x) = debug_text e ext (dbg_Plain U y) -> existT PlainValue T x = existT PlainValue U y.
Proof.
  intros E e ext X T U x y H. apply tree_exact in H; try apply plain_wf; [|exact X].
  assert (T = U) as <-. { apply type_name_inj. rewrite <- (tree_type E T x), <- (tree_type E U y), H. reflexivity. }
  apply plain_inj in H. subst. reflexivity.
Qed.

(** ** The standard's operands *)
Lemma shows_option : forall E x, shows (E := E) ImageBitsOrNone (dbg_Option dbg_ImageOperands x).
Proof. intros E [x|]; constructor. destruct x. apply shows_image_bits. Qed.
Lemma shows_image : forall E x, shows (E := E) ImageBits (dbg_ImageOperands x).
Proof. intros E []. apply shows_image_bits. Qed.
Lemma shows_group : forall E x, shows (E := E) AGroupOperation (dbg_GroupOperation x).
Proof. intros E []; [apply (shows_group_operation 0)|apply (shows_group_operation 1)|apply (shows_group_operation 2)]; cbn; tauto. Qed.
Definition plain_number (T : PlainType) : N :=
  match T with
  | Type_OpGroupMemberDecorate => 75
  | Type_OpImageSampledImplicitLod => 87
  | Type_OpImageSampledExplicitLod => 88
  | Type_OpImageSampleDrefImplicitLod => 89
  | Type_OpImageSampleDrefExplicitLod => 90
  | Type_OpImageSampleProjImplicitLod => 91
  | Type_OpImageSampleProjExplicitLod => 92
  | Type_OpImageSampleProjDrefImplicitLod => 93
  | Type_OpImageSampleProjDrefExplicitLod => 94
  | Type_OpImageFetch => 95
  | Type_OpImageGather => 96
  | Type_OpImageDrefGather => 97
  | Type_OpImageRead => 98
  | Type_OpImageWrite => 99
  | Type_OpImage => 100
  | Type_OpImageQueryFormat => 101
  | Type_OpImageQueryOrder => 102
  | Type_OpImageQuerySizeLod => 103
  | Type_OpImageQuerySize => 104
  | Type_OpImageQueryLod => 105
  | Type_OpImageQueryLevels => 106
  | Type_OpImageQuerySamples => 107
  | Type_OpImageSparseSampleImplicitLod => 305
  | Type_OpImageSparseSampleExplicitLod => 306
  | Type_OpImageSparseSampleDrefImplicitLod => 307
  | Type_OpImageSparseSampleDrefExplicitLod => 308
  | Type_OpImageSparseSampleProjImplicitLod => 309
  | Type_OpImageSparseSampleProjExplicitLod => 310
  | Type_OpImageSparseSampleProjDrefImplicitLod => 311
  | Type_OpImageSparseSampleProjDrefExplicitLod => 312
  | Type_OpImageSparseFetch => 313
  | Type_OpImageSparseGather => 314
  | Type_OpImageSparseDrefGather => 315
  | Type_OpImageSparseTexelsResident => 316
  | Type_OpImageSparseRead => 320
  | Type_OpBitFieldInsert => 201
  | Type_OpBitFieldSExtract => 202
  | Type_OpBitFieldUExtract => 203
  | Type_OpBitReverse => 204
  | Type_OpBitCount => 205
  | Type_OpAny => 154
  | Type_OpAll => 155
  | Type_OpIsNan => 156
  | Type_OpIsInf => 157
  | Type_OpIsFinite => 158
  | Type_OpIsNormal => 159
  | Type_OpSignBitSet => 160
  | Type_OpLessOrGreater => 161
  | Type_OpOrdered => 162
  | Type_OpUnordered => 163
  | Type_OpLogicalEqual => 164
  | Type_OpLogicalNotEqual => 165
  | Type_OpLogicalOr => 166
  | Type_OpLogicalAnd => 167
  | Type_OpLogicalNot => 168
  | Type_OpSelect => 169
  | Type_OpDPdx => 207
  | Type_OpDPdy => 208
  | Type_OpFwidth => 209
  | Type_OpDPdxFine => 210
  | Type_OpDPdyFine => 211
  | Type_OpFwidthFine => 212
  | Type_OpDPdxCoarse => 213
  | Type_OpDPdyCoarse => 214
  | Type_OpFwidthCoarse => 215
  | Type_OpSwitch => 251
  | Type_OpKill => 252
  | Type_OpReturnValue => 254
  | Type_OpUnreachable => 255
  | Type_OpLifetimeStart => 256
  | Type_OpLifetimeStop => 257
  | Type_OpAtomicLoad => 227
  | Type_OpAtomicStore => 228
  | Type_OpAtomicExchange => 229
  | Type_OpAtomicCompareExchange => 230
  | Type_OpAtomicCompareExchangeWeak => 231
  | Type_OpAtomicIIncrement => 232
  | Type_OpAtomicIDecrement => 233
  | Type_OpAtomicIAdd => 234
  | Type_OpAtomicISub => 235
  | Type_OpAtomicSMin => 236
  | Type_OpAtomicUMin => 237
  | Type_OpAtomicSMax => 238
  | Type_OpAtomicUMax => 239
  | Type_OpAtomicAnd => 240
  | Type_OpAtomicOr => 241
  | Type_OpAtomicXor => 242
  | Type_OpAtomicFlagTestAndSet => 318
  | Type_OpAtomicFlagClear => 319
  | Type_OpEmitVertex => 218
  | Type_OpEndPrimitive => 219
  | Type_OpEmitStreamVertex => 220
  | Type_OpEndStreamPrimitive => 221
  | Type_OpControlBarrier => 224
  | Type_OpMemoryBarrier => 225
  | Type_OpNamedBarrierInitialize => 328
  | Type_OpMemoryNamedBarrier => 329
  | Type_OpGroupAsyncCopy => 259
  | Type_OpGroupWaitEvents => 260
  | Type_OpGroupAll => 261
  | Type_OpGroupAny => 262
  | Type_OpGroupBroadcast => 263
  | Type_OpGroupIAdd => 264
  | Type_OpGroupFAdd => 265
  | Type_OpGroupFMin => 266
  | Type_OpGroupUMin => 267
  | Type_OpGroupSMin => 268
  | Type_OpGroupFMax => 269
  | Type_OpGroupUMax => 270
  | Type_OpGroupSMax => 271
  | Type_OpEnqueueMarker => 291
  | Type_OpEnqueueKernel => 292
  | Type_OpGetKernelNDrangeSubGroupCount => 293
  | Type_OpGetKernelNDrangeMaxSubGroupSize => 294
  | Type_OpGetKernelWorkGroupSize => 295
  | Type_OpGetKernelPreferredWorkGroupSizeMultiple => 296
  | Type_OpRetainEvent => 297
  | Type_OpReleaseEvent => 298
  | Type_OpCreateUserEvent => 299
  | Type_OpIsValidEvent => 300
  | Type_OpSetUserEventStatus => 301
  | Type_OpCaptureEventProfilingInfo => 302
  | Type_OpGetDefaultQueue => 303
  | Type_OpBuildNDRange => 304
  | Type_OpGetKernelLocalSizeForSubgroupCount => 325
  | Type_OpGetKernelMaxNumSubgroups => 326
  | Type_OpReadPipe => 274
  | Type_OpWritePipe => 275
  | Type_OpReservedReadPipe => 276
  | Type_OpReservedWritePipe => 277
  | Type_OpReserveReadPipePackets => 278
  | Type_OpReserveWritePipePackets => 279
  | Type_OpCommitReadPipe => 280
  | Type_OpCommitWritePipe => 281
  | Type_OpIsValidReserveId => 282
  | Type_OpGetNumPipePackets => 283
  | Type_OpGetMaxPipePackets => 284
  | Type_OpGroupReserveReadPipePackets => 285
  | Type_OpGroupReserveWritePipePackets => 286
  | Type_OpGroupCommitReadPipe => 287
  | Type_OpGroupCommitWritePipe => 288
  | Type_OpConstantPipeStorage => 323
  | Type_OpCreatePipeFromPipeStorage => 324
  end.
Definition tree_values {E} (t : dtree E) : list (dtree E) := match t with DTuple _ l => l | DStruct _ l => map snd l | _ => [] end.
Definition row (n : N) : list class := match find (fun p => N.eqb (fst p) n) plain_grammar with Some (_, c) => c | None => [] end.
Lemma row_found : forall T, In (plain_number T, row (plain_number T)) plain_grammar.
Proof.
  intros T. assert (F : find (fun p => N.eqb (fst p) (plain_number T)) plain_grammar = Some (plain_number T, row (plain_number T))) by (destruct T; vm_compute; reflexivity).
  apply find_some in F. exact (proj1 F).
Qed.
Lemma plain_named : forall T, plain_name (plain_number T) = Some (type_name T).
Proof. intros T. destruct T; vm_compute; reflexivity. Qed.
Lemma values_shown : forall E T (x : PlainValue T), Forall2 shows (plain_classes (plain_number T) (row (plain_number T))) (tree_values (dbg_Plain (E := E) T x)).
Proof.
  intros E T x. destruct T.
  all: match goal with |- Forall2 _ ?l _ => let l' := eval vm_compute in l in change l with l' end.
  all: destruct x; cbn; repeat match goal with
    | |- Forall2 _ [] [] => constructor
    | |- Forall2 _ (_ :: _) (_ :: _) => constructor
    | |- shows ImageBitsOrNone _ => apply shows_option
    | |- shows ImageBits _ => apply shows_image
    | |- shows AGroupOperation _ => apply shows_group
    | |- shows Cases (dbg_Vec _ ?l) => exact (shows_cases l)
    | |- shows IdPairs (dbg_Vec _ ?l) => exact (shows_pairs l)
    | |- shows Members (dbg_Vec _ ?l) => exact (shows_members l)
    | |- shows _ _ => constructor
    end.
Qed.
Lemma plain_shown : forall E T (x : PlainValue T), shows_plain (plain_number T) (dbg_Plain (E := E) T x).
Proof.
  intros E T x. exists (type_name T), (row (plain_number T)), (tree_values (dbg_Plain T x)).
  split; [apply plain_named|]. split; [apply row_found|]. split; [apply values_shown|]. destruct T; reflexivity.
Qed.

(** Every value of a class is met. *)
Definition class_value (c : class) : Type :=
  match c with
  | AnId | TheResult | AScope | SomeSemantics | ALiteral => N
  | AGroupOperation => GroupOperation
  | ImageBits => ImageOperands
  | ImageBitsOrNone => option ImageOperands
  | Cases => list (list N * N)
  | IdPairs | Members => list (N * N)
  | Ids => list N
  end.
Definition show_value {E} (c : class) : class_value c -> dtree E :=
  match c with
  | AnId => dbg_OpId | TheResult => dbg_ResultId | AScope => dbg_ScopeId | SomeSemantics => dbg_MemorySemanticsId
  | ALiteral => DNumber | AGroupOperation => dbg_GroupOperation
  | ImageBits => dbg_ImageOperands
  | ImageBitsOrNone => dbg_Option dbg_ImageOperands
  | Cases => dbg_Vec (dbg_Pair (dbg_Vec DNumber) dbg_OpId)
  | IdPairs => dbg_Vec (dbg_Pair dbg_OpId dbg_OpId)
  | Members => dbg_Vec (dbg_Pair dbg_OpId dbg_MemberIndex)
  | Ids => dbg_Vec dbg_OpId
  end.
Lemma image_value : forall E t, shows (E := E) ImageBits t -> exists x, t = dbg_ImageOperands x.
Proof. intros E t S. inversion S. subst. eexists (Build_ImageOperands _ _ _ _ _ _ _). reflexivity. Qed.
Lemma class_shown : forall E c t, shows (E := E) c t -> exists v, t = show_value c v.
Proof.
  intros E c t S. destruct S; cbn [class_value show_value].
  all: try (eexists; reflexivity).
  - cbn in H. destruct H as [[= <- <-]|[[= <- <-]|[[= <- <-]|[]]]]; [exists GroupOperation_Reduce|exists GroupOperation_InclusiveScan|exists GroupOperation_ExclusiveScan]; reflexivity.
  - eexists (Build_ImageOperands _ _ _ _ _ _ _). reflexivity.
  - exists None. reflexivity.
  - apply image_value in S. destruct S as [x ->]. exists (Some x). reflexivity.
Qed.
Fixpoint values (cs : list class) : Type := match cs with [] => unit | c :: cs => class_value c * values cs end.
Fixpoint show_values {E} (cs : list class) : values cs -> list (dtree E) :=
  match cs with [] => fun _ => [] | c :: cs => fun v => show_value c (fst v) :: show_values cs (snd v) end.
Lemma classes_shown : forall E cs ts, Forall2 (shows (E := E)) cs ts -> exists v, ts = show_values cs v.
Proof.
  intros E cs ts F. induction F as [|c t cs ts S F IH]; [exists tt; reflexivity|]. destruct IH as [v ->]. apply class_shown in S. destruct S as [x ->].
  exists (x, v). reflexivity.
Qed.
(** The values in a struct. *)
Definition build (T : PlainType) : values (plain_classes (plain_number T) (row (plain_number T))) -> PlainValue T :=
  match T with
  | Type_OpGroupMemberDecorate => fun v => Build_OpGroupMemberDecorate (fst v) (fst (snd v))
  | Type_OpImageSampledImplicitLod => fun v => Build_OpImageSampledImplicitLod (fst v) (fst (snd v)) (fst (snd (snd v))) (fst (snd (snd (snd v)))) (fst (snd (snd (snd (snd v)))))
  | Type_OpImageSampledExplicitLod => fun v => Build_OpImageSampledExplicitLod (fst v) (fst (snd v)) (fst (snd (snd v))) (fst (snd (snd (snd v)))) (fst (snd (snd (snd (snd v)))))
  | Type_OpImageSampleDrefImplicitLod => fun v => Build_OpImageSampleDrefImplicitLod (fst v) (fst (snd v)) (fst (snd (snd v))) (fst (snd (snd (snd v)))) (fst (snd (snd (snd (snd v))))) (fst (snd (snd (snd (snd (snd v))))))
  | Type_OpImageSampleDrefExplicitLod => fun v => Build_OpImageSampleDrefExplicitLod (fst v) (fst (snd v)) (fst (snd (snd v))) (fst (snd (snd (snd v)))) (fst (snd (snd (snd (snd v))))) (fst (snd (snd (snd (snd (snd v))))))
  | Type_OpImageSampleProjImplicitLod => fun v => Build_OpImageSampleProjImplicitLod (fst v) (fst (snd v)) (fst (snd (snd v))) (fst (snd (snd (snd v)))) (fst (snd (snd (snd (snd v)))))
  | Type_OpImageSampleProjExplicitLod => fun v => Build_OpImageSampleProjExplicitLod (fst v) (fst (snd v)) (fst (snd (snd v))) (fst (snd (snd (snd v)))) (fst (snd (snd (snd (snd v)))))
  | Type_OpImageSampleProjDrefImplicitLod => fun v => Build_OpImageSampleProjDrefImplicitLod (fst v) (fst (snd v)) (fst (snd (snd v))) (fst (snd (snd (snd v)))) (fst (snd (snd (snd (snd v))))) (fst (snd (snd (snd (snd (snd v))))))
  | Type_OpImageSampleProjDrefExplicitLod => fun v => Build_OpImageSampleProjDrefExplicitLod (fst v) (fst (snd v)) (fst (snd (snd v))) (fst (snd (snd (snd v)))) (fst (snd (snd (snd (snd v))))) (fst (snd (snd (snd (snd (snd v))))))
  | Type_OpImageFetch => fun v => Build_OpImageFetch (fst v) (fst (snd v)) (fst (snd (snd v))) (fst (snd (snd (snd v)))) (fst (snd (snd (snd (snd v)))))
  | Type_OpImageGather => fun v => Build_OpImageGather (fst v) (fst (snd v)) (fst (snd (snd v))) (fst (snd (snd (snd v)))) (fst (snd (snd (snd (snd v))))) (fst (snd (snd (snd (snd (snd v))))))
  | Type_OpImageDrefGather => fun v => Build_OpImageDrefGather (fst v) (fst (snd v)) (fst (snd (snd v))) (fst (snd (snd (snd v)))) (fst (snd (snd (snd (snd v))))) (fst (snd (snd (snd (snd (snd v))))))
  | Type_OpImageRead => fun v => Build_OpImageRead (fst v) (fst (snd v)) (fst (snd (snd v))) (fst (snd (snd (snd v)))) (fst (snd (snd (snd (snd v)))))
  | Type_OpImageWrite => fun v => Build_OpImageWrite (fst v) (fst (snd v)) (fst (snd (snd v))) (fst (snd (snd (snd v))))
  | Type_OpImage => fun v => Build_OpImage (fst v) (fst (snd v)) (fst (snd (snd v)))
  | Type_OpImageQueryFormat => fun v => Build_OpImageQueryFormat (fst v) (fst (snd v)) (fst (snd (snd v)))
  | Type_OpImageQueryOrder => fun v => Build_OpImageQueryOrder (fst v) (fst (snd v)) (fst (snd (snd v)))
  | Type_OpImageQuerySizeLod => fun v => Build_OpImageQuerySizeLod (fst v) (fst (snd v)) (fst (snd (snd v))) (fst (snd (snd (snd v))))
  | Type_OpImageQuerySize => fun v => Build_OpImageQuerySize (fst v) (fst (snd v)) (fst (snd (snd v)))
  | Type_OpImageQueryLod => fun v => Build_OpImageQueryLod (fst v) (fst (snd v)) (fst (snd (snd v))) (fst (snd (snd (snd v))))
  | Type_OpImageQueryLevels => fun v => Build_OpImageQueryLevels (fst v) (fst (snd v)) (fst (snd (snd v)))
  | Type_OpImageQuerySamples => fun v => Build_OpImageQuerySamples (fst v) (fst (snd v)) (fst (snd (snd v)))
  | Type_OpImageSparseSampleImplicitLod => fun v => Build_OpImageSparseSampleImplicitLod (fst v) (fst (snd v)) (fst (snd (snd v))) (fst (snd (snd (snd v)))) (fst (snd (snd (snd (snd v)))))
  | Type_OpImageSparseSampleExplicitLod => fun v => Build_OpImageSparseSampleExplicitLod (fst v) (fst (snd v)) (fst (snd (snd v))) (fst (snd (snd (snd v)))) (fst (snd (snd (snd (snd v)))))
  | Type_OpImageSparseSampleDrefImplicitLod => fun v => Build_OpImageSparseSampleDrefImplicitLod (fst v) (fst (snd v)) (fst (snd (snd v))) (fst (snd (snd (snd v)))) (fst (snd (snd (snd (snd v))))) (fst (snd (snd (snd (snd (snd v))))))
  | Type_OpImageSparseSampleDrefExplicitLod => fun v => Build_OpImageSparseSampleDrefExplicitLod (fst v) (fst (snd v)) (fst (snd (snd v))) (fst (snd (snd (snd v)))) (fst (snd (snd (snd (snd v))))) (fst (snd (snd (snd (snd (snd v))))))
  | Type_OpImageSparseSampleProjImplicitLod => fun v => Build_OpImageSparseSampleProjImplicitLod (fst v) (fst (snd v)) (fst (snd (snd v))) (fst (snd (snd (snd v)))) (fst (snd (snd (snd (snd v)))))
  | Type_OpImageSparseSampleProjExplicitLod => fun v => Build_OpImageSparseSampleProjExplicitLod (fst v) (fst (snd v)) (fst (snd (snd v))) (fst (snd (snd (snd v)))) (fst (snd (snd (snd (snd v)))))
  | Type_OpImageSparseSampleProjDrefImplicitLod => fun v => Build_OpImageSparseSampleProjDrefImplicitLod (fst v) (fst (snd v)) (fst (snd (snd v))) (fst (snd (snd (snd v)))) (fst (snd (snd (snd (snd v))))) (fst (snd (snd (snd (snd (snd v))))))
  | Type_OpImageSparseSampleProjDrefExplicitLod => fun v => Build_OpImageSparseSampleProjDrefExplicitLod (fst v) (fst (snd v)) (fst (snd (snd v))) (fst (snd (snd (snd v)))) (fst (snd (snd (snd (snd v))))) (fst (snd (snd (snd (snd (snd v))))))
  | Type_OpImageSparseFetch => fun v => Build_OpImageSparseFetch (fst v) (fst (snd v)) (fst (snd (snd v))) (fst (snd (snd (snd v)))) (fst (snd (snd (snd (snd v)))))
  | Type_OpImageSparseGather => fun v => Build_OpImageSparseGather (fst v) (fst (snd v)) (fst (snd (snd v))) (fst (snd (snd (snd v)))) (fst (snd (snd (snd (snd v))))) (fst (snd (snd (snd (snd (snd v))))))
  | Type_OpImageSparseDrefGather => fun v => Build_OpImageSparseDrefGather (fst v) (fst (snd v)) (fst (snd (snd v))) (fst (snd (snd (snd v)))) (fst (snd (snd (snd (snd v))))) (fst (snd (snd (snd (snd (snd v))))))
  | Type_OpImageSparseTexelsResident => fun v => Build_OpImageSparseTexelsResident (fst v) (fst (snd v)) (fst (snd (snd v)))
  | Type_OpImageSparseRead => fun v => Build_OpImageSparseRead (fst v) (fst (snd v)) (fst (snd (snd v))) (fst (snd (snd (snd v)))) (fst (snd (snd (snd (snd v)))))
  | Type_OpBitFieldInsert => fun v => Build_OpBitFieldInsert (fst v) (fst (snd v)) (fst (snd (snd v))) (fst (snd (snd (snd v)))) (fst (snd (snd (snd (snd v))))) (fst (snd (snd (snd (snd (snd v))))))
  | Type_OpBitFieldSExtract => fun v => Build_OpBitFieldSExtract (fst v) (fst (snd v)) (fst (snd (snd v))) (fst (snd (snd (snd v)))) (fst (snd (snd (snd (snd v)))))
  | Type_OpBitFieldUExtract => fun v => Build_OpBitFieldUExtract (fst v) (fst (snd v)) (fst (snd (snd v))) (fst (snd (snd (snd v)))) (fst (snd (snd (snd (snd v)))))
  | Type_OpBitReverse => fun v => Build_OpBitReverse (fst v) (fst (snd v)) (fst (snd (snd v)))
  | Type_OpBitCount => fun v => Build_OpBitCount (fst v) (fst (snd v)) (fst (snd (snd v)))
  | Type_OpAny => fun v => Build_OpAny (fst v) (fst (snd v)) (fst (snd (snd v)))
  | Type_OpAll => fun v => Build_OpAll (fst v) (fst (snd v)) (fst (snd (snd v)))
  | Type_OpIsNan => fun v => Build_OpIsNan (fst v) (fst (snd v)) (fst (snd (snd v)))
  | Type_OpIsInf => fun v => Build_OpIsInf (fst v) (fst (snd v)) (fst (snd (snd v)))
  | Type_OpIsFinite => fun v => Build_OpIsFinite (fst v) (fst (snd v)) (fst (snd (snd v)))
  | Type_OpIsNormal => fun v => Build_OpIsNormal (fst v) (fst (snd v)) (fst (snd (snd v)))
  | Type_OpSignBitSet => fun v => Build_OpSignBitSet (fst v) (fst (snd v)) (fst (snd (snd v)))
  | Type_OpLessOrGreater => fun v => Build_OpLessOrGreater (fst v) (fst (snd v)) (fst (snd (snd v))) (fst (snd (snd (snd v))))
  | Type_OpOrdered => fun v => Build_OpOrdered (fst v) (fst (snd v)) (fst (snd (snd v))) (fst (snd (snd (snd v))))
  | Type_OpUnordered => fun v => Build_OpUnordered (fst v) (fst (snd v)) (fst (snd (snd v))) (fst (snd (snd (snd v))))
  | Type_OpLogicalEqual => fun v => Build_OpLogicalEqual (fst v) (fst (snd v)) (fst (snd (snd v))) (fst (snd (snd (snd v))))
  | Type_OpLogicalNotEqual => fun v => Build_OpLogicalNotEqual (fst v) (fst (snd v)) (fst (snd (snd v))) (fst (snd (snd (snd v))))
  | Type_OpLogicalOr => fun v => Build_OpLogicalOr (fst v) (fst (snd v)) (fst (snd (snd v))) (fst (snd (snd (snd v))))
  | Type_OpLogicalAnd => fun v => Build_OpLogicalAnd (fst v) (fst (snd v)) (fst (snd (snd v))) (fst (snd (snd (snd v))))
  | Type_OpLogicalNot => fun v => Build_OpLogicalNot (fst v) (fst (snd v)) (fst (snd (snd v)))
  | Type_OpSelect => fun v => Build_OpSelect (fst v) (fst (snd v)) (fst (snd (snd v))) (fst (snd (snd (snd v)))) (fst (snd (snd (snd (snd v)))))
  | Type_OpDPdx => fun v => Build_OpDPdx (fst v) (fst (snd v)) (fst (snd (snd v)))
  | Type_OpDPdy => fun v => Build_OpDPdy (fst v) (fst (snd v)) (fst (snd (snd v)))
  | Type_OpFwidth => fun v => Build_OpFwidth (fst v) (fst (snd v)) (fst (snd (snd v)))
  | Type_OpDPdxFine => fun v => Build_OpDPdxFine (fst v) (fst (snd v)) (fst (snd (snd v)))
  | Type_OpDPdyFine => fun v => Build_OpDPdyFine (fst v) (fst (snd v)) (fst (snd (snd v)))
  | Type_OpFwidthFine => fun v => Build_OpFwidthFine (fst v) (fst (snd v)) (fst (snd (snd v)))
  | Type_OpDPdxCoarse => fun v => Build_OpDPdxCoarse (fst v) (fst (snd v)) (fst (snd (snd v)))
  | Type_OpDPdyCoarse => fun v => Build_OpDPdyCoarse (fst v) (fst (snd v)) (fst (snd (snd v)))
  | Type_OpFwidthCoarse => fun v => Build_OpFwidthCoarse (fst v) (fst (snd v)) (fst (snd (snd v)))
  | Type_OpSwitch => fun v => Build_OpSwitch (fst v) (fst (snd v)) (fst (snd (snd v)))
  | Type_OpKill => fun v => Build_OpKill
  | Type_OpReturnValue => fun v => Build_OpReturnValue (fst v)
  | Type_OpUnreachable => fun v => Build_OpUnreachable
  | Type_OpLifetimeStart => fun v => Build_OpLifetimeStart (fst v) (fst (snd v))
  | Type_OpLifetimeStop => fun v => Build_OpLifetimeStop (fst v) (fst (snd v))
  | Type_OpAtomicLoad => fun v => Build_OpAtomicLoad (fst v) (fst (snd v)) (fst (snd (snd v))) (fst (snd (snd (snd v)))) (fst (snd (snd (snd (snd v)))))
  | Type_OpAtomicStore => fun v => Build_OpAtomicStore (fst v) (fst (snd v)) (fst (snd (snd v))) (fst (snd (snd (snd v))))
  | Type_OpAtomicExchange => fun v => Build_OpAtomicExchange (fst v) (fst (snd v)) (fst (snd (snd v))) (fst (snd (snd (snd v)))) (fst (snd (snd (snd (snd v))))) (fst (snd (snd (snd (snd (snd v))))))
  | Type_OpAtomicCompareExchange => fun v => Build_OpAtomicCompareExchange (fst v) (fst (snd v)) (fst (snd (snd v))) (fst (snd (snd (snd v)))) (fst (snd (snd (snd (snd v))))) (fst (snd (snd (snd (snd (snd v)))))) (fst (snd (snd (snd (snd (snd (snd v))))))) (fst (snd (snd (snd (snd (snd (snd (snd v))))))))
  | Type_OpAtomicCompareExchangeWeak => fun v => Build_OpAtomicCompareExchangeWeak (fst v) (fst (snd v)) (fst (snd (snd v))) (fst (snd (snd (snd v)))) (fst (snd (snd (snd (snd v))))) (fst (snd (snd (snd (snd (snd v)))))) (fst (snd (snd (snd (snd (snd (snd v))))))) (fst (snd (snd (snd (snd (snd (snd (snd v))))))))
  | Type_OpAtomicIIncrement => fun v => Build_OpAtomicIIncrement (fst v) (fst (snd v)) (fst (snd (snd v))) (fst (snd (snd (snd v)))) (fst (snd (snd (snd (snd v))))) (fst (snd (snd (snd (snd (snd v))))))
  | Type_OpAtomicIDecrement => fun v => Build_OpAtomicIDecrement (fst v) (fst (snd v)) (fst (snd (snd v))) (fst (snd (snd (snd v)))) (fst (snd (snd (snd (snd v))))) (fst (snd (snd (snd (snd (snd v))))))
  | Type_OpAtomicIAdd => fun v => Build_OpAtomicIAdd (fst v) (fst (snd v)) (fst (snd (snd v))) (fst (snd (snd (snd v)))) (fst (snd (snd (snd (snd v))))) (fst (snd (snd (snd (snd (snd v))))))
  | Type_OpAtomicISub => fun v => Build_OpAtomicISub (fst v) (fst (snd v)) (fst (snd (snd v))) (fst (snd (snd (snd v)))) (fst (snd (snd (snd (snd v))))) (fst (snd (snd (snd (snd (snd v))))))
  | Type_OpAtomicSMin => fun v => Build_OpAtomicSMin (fst v) (fst (snd v)) (fst (snd (snd v))) (fst (snd (snd (snd v)))) (fst (snd (snd (snd (snd v))))) (fst (snd (snd (snd (snd (snd v))))))
  | Type_OpAtomicUMin => fun v => Build_OpAtomicUMin (fst v) (fst (snd v)) (fst (snd (snd v))) (fst (snd (snd (snd v)))) (fst (snd (snd (snd (snd v))))) (fst (snd (snd (snd (snd (snd v))))))
  | Type_OpAtomicSMax => fun v => Build_OpAtomicSMax (fst v) (fst (snd v)) (fst (snd (snd v))) (fst (snd (snd (snd v)))) (fst (snd (snd (snd (snd v))))) (fst (snd (snd (snd (snd (snd v))))))
  | Type_OpAtomicUMax => fun v => Build_OpAtomicUMax (fst v) (fst (snd v)) (fst (snd (snd v))) (fst (snd (snd (snd v)))) (fst (snd (snd (snd (snd v))))) (fst (snd (snd (snd (snd (snd v))))))
  | Type_OpAtomicAnd => fun v => Build_OpAtomicAnd (fst v) (fst (snd v)) (fst (snd (snd v))) (fst (snd (snd (snd v)))) (fst (snd (snd (snd (snd v))))) (fst (snd (snd (snd (snd (snd v))))))
  | Type_OpAtomicOr => fun v => Build_OpAtomicOr (fst v) (fst (snd v)) (fst (snd (snd v))) (fst (snd (snd (snd v)))) (fst (snd (snd (snd (snd v))))) (fst (snd (snd (snd (snd (snd v))))))
  | Type_OpAtomicXor => fun v => Build_OpAtomicXor (fst v) (fst (snd v)) (fst (snd (snd v))) (fst (snd (snd (snd v)))) (fst (snd (snd (snd (snd v))))) (fst (snd (snd (snd (snd (snd v))))))
  | Type_OpAtomicFlagTestAndSet => fun v => Build_OpAtomicFlagTestAndSet (fst v) (fst (snd v)) (fst (snd (snd v))) (fst (snd (snd (snd v)))) (fst (snd (snd (snd (snd v)))))
  | Type_OpAtomicFlagClear => fun v => Build_OpAtomicFlagClear (fst v) (fst (snd v)) (fst (snd (snd v)))
  | Type_OpEmitVertex => fun v => Build_OpEmitVertex
  | Type_OpEndPrimitive => fun v => Build_OpEndPrimitive
  | Type_OpEmitStreamVertex => fun v => Build_OpEmitStreamVertex (fst v)
  | Type_OpEndStreamPrimitive => fun v => Build_OpEndStreamPrimitive (fst v)
  | Type_OpControlBarrier => fun v => Build_OpControlBarrier (fst v) (fst (snd v)) (fst (snd (snd v)))
  | Type_OpMemoryBarrier => fun v => Build_OpMemoryBarrier (fst v) (fst (snd v))
  | Type_OpNamedBarrierInitialize => fun v => Build_OpNamedBarrierInitialize (fst v) (fst (snd v)) (fst (snd (snd v)))
  | Type_OpMemoryNamedBarrier => fun v => Build_OpMemoryNamedBarrier (fst v) (fst (snd v)) (fst (snd (snd v)))
  | Type_OpGroupAsyncCopy => fun v => Build_OpGroupAsyncCopy (fst v) (fst (snd v)) (fst (snd (snd v))) (fst (snd (snd (snd v)))) (fst (snd (snd (snd (snd v))))) (fst (snd (snd (snd (snd (snd v)))))) (fst (snd (snd (snd (snd (snd (snd v))))))) (fst (snd (snd (snd (snd (snd (snd (snd v))))))))
  | Type_OpGroupWaitEvents => fun v => Build_OpGroupWaitEvents (fst v) (fst (snd v)) (fst (snd (snd v)))
  | Type_OpGroupAll => fun v => Build_OpGroupAll (fst v) (fst (snd v)) (fst (snd (snd v))) (fst (snd (snd (snd v))))
  | Type_OpGroupAny => fun v => Build_OpGroupAny (fst v) (fst (snd v)) (fst (snd (snd v))) (fst (snd (snd (snd v))))
  | Type_OpGroupBroadcast => fun v => Build_OpGroupBroadcast (fst v) (fst (snd v)) (fst (snd (snd v))) (fst (snd (snd (snd v)))) (fst (snd (snd (snd (snd v)))))
  | Type_OpGroupIAdd => fun v => Build_OpGroupIAdd (fst v) (fst (snd v)) (fst (snd (snd v))) (fst (snd (snd (snd v)))) (fst (snd (snd (snd (snd v)))))
  | Type_OpGroupFAdd => fun v => Build_OpGroupFAdd (fst v) (fst (snd v)) (fst (snd (snd v))) (fst (snd (snd (snd v)))) (fst (snd (snd (snd (snd v)))))
  | Type_OpGroupFMin => fun v => Build_OpGroupFMin (fst v) (fst (snd v)) (fst (snd (snd v))) (fst (snd (snd (snd v)))) (fst (snd (snd (snd (snd v)))))
  | Type_OpGroupUMin => fun v => Build_OpGroupUMin (fst v) (fst (snd v)) (fst (snd (snd v))) (fst (snd (snd (snd v)))) (fst (snd (snd (snd (snd v)))))
  | Type_OpGroupSMin => fun v => Build_OpGroupSMin (fst v) (fst (snd v)) (fst (snd (snd v))) (fst (snd (snd (snd v)))) (fst (snd (snd (snd (snd v)))))
  | Type_OpGroupFMax => fun v => Build_OpGroupFMax (fst v) (fst (snd v)) (fst (snd (snd v))) (fst (snd (snd (snd v)))) (fst (snd (snd (snd (snd v)))))
  | Type_OpGroupUMax => fun v => Build_OpGroupUMax (fst v) (fst (snd v)) (fst (snd (snd v))) (fst (snd (snd (snd v)))) (fst (snd (snd (snd (snd v)))))
  | Type_OpGroupSMax => fun v => Build_OpGroupSMax (fst v) (fst (snd v)) (fst (snd (snd v))) (fst (snd (snd (snd v)))) (fst (snd (snd (snd (snd v)))))
  | Type_OpEnqueueMarker => fun v => Build_OpEnqueueMarker (fst v) (fst (snd v)) (fst (snd (snd v))) (fst (snd (snd (snd v)))) (fst (snd (snd (snd (snd v))))) (fst (snd (snd (snd (snd (snd v))))))
  | Type_OpEnqueueKernel => fun v => Build_OpEnqueueKernel (fst v) (fst (snd v)) (fst (snd (snd v))) (fst (snd (snd (snd v)))) (fst (snd (snd (snd (snd v))))) (fst (snd (snd (snd (snd (snd v)))))) (fst (snd (snd (snd (snd (snd (snd v))))))) (fst (snd (snd (snd (snd (snd (snd (snd v)))))))) (fst (snd (snd (snd (snd (snd (snd (snd (snd v))))))))) (fst (snd (snd (snd (snd (snd (snd (snd (snd (snd v)))))))))) (fst (snd (snd (snd (snd (snd (snd (snd (snd (snd (snd v))))))))))) (fst (snd (snd (snd (snd (snd (snd (snd (snd (snd (snd (snd v)))))))))))) (fst (snd (snd (snd (snd (snd (snd (snd (snd (snd (snd (snd (snd v)))))))))))))
  | Type_OpGetKernelNDrangeSubGroupCount => fun v => Build_OpGetKernelNDrangeSubGroupCount (fst v) (fst (snd v)) (fst (snd (snd v))) (fst (snd (snd (snd v)))) (fst (snd (snd (snd (snd v))))) (fst (snd (snd (snd (snd (snd v)))))) (fst (snd (snd (snd (snd (snd (snd v)))))))
  | Type_OpGetKernelNDrangeMaxSubGroupSize => fun v => Build_OpGetKernelNDrangeMaxSubGroupSize (fst v) (fst (snd v)) (fst (snd (snd v))) (fst (snd (snd (snd v)))) (fst (snd (snd (snd (snd v))))) (fst (snd (snd (snd (snd (snd v)))))) (fst (snd (snd (snd (snd (snd (snd v)))))))
  | Type_OpGetKernelWorkGroupSize => fun v => Build_OpGetKernelWorkGroupSize (fst v) (fst (snd v)) (fst (snd (snd v))) (fst (snd (snd (snd v)))) (fst (snd (snd (snd (snd v))))) (fst (snd (snd (snd (snd (snd v))))))
  | Type_OpGetKernelPreferredWorkGroupSizeMultiple => fun v => Build_OpGetKernelPreferredWorkGroupSizeMultiple (fst v) (fst (snd v)) (fst (snd (snd v))) (fst (snd (snd (snd v)))) (fst (snd (snd (snd (snd v))))) (fst (snd (snd (snd (snd (snd v))))))
  | Type_OpRetainEvent => fun v => Build_OpRetainEvent (fst v)
  | Type_OpReleaseEvent => fun v => Build_OpReleaseEvent (fst v)
  | Type_OpCreateUserEvent => fun v => Build_OpCreateUserEvent (fst v) (fst (snd v))
  | Type_OpIsValidEvent => fun v => Build_OpIsValidEvent (fst v) (fst (snd v)) (fst (snd (snd v)))
  | Type_OpSetUserEventStatus => fun v => Build_OpSetUserEventStatus (fst v) (fst (snd v))
  | Type_OpCaptureEventProfilingInfo => fun v => Build_OpCaptureEventProfilingInfo (fst v) (fst (snd v)) (fst (snd (snd v)))
  | Type_OpGetDefaultQueue => fun v => Build_OpGetDefaultQueue (fst v) (fst (snd v))
  | Type_OpBuildNDRange => fun v => Build_OpBuildNDRange (fst v) (fst (snd v)) (fst (snd (snd v))) (fst (snd (snd (snd v)))) (fst (snd (snd (snd (snd v)))))
  | Type_OpGetKernelLocalSizeForSubgroupCount => fun v => Build_OpGetKernelLocalSizeForSubgroupCount (fst v) (fst (snd v)) (fst (snd (snd v))) (fst (snd (snd (snd v)))) (fst (snd (snd (snd (snd v))))) (fst (snd (snd (snd (snd (snd v)))))) (fst (snd (snd (snd (snd (snd (snd v)))))))
  | Type_OpGetKernelMaxNumSubgroups => fun v => Build_OpGetKernelMaxNumSubgroups (fst v) (fst (snd v)) (fst (snd (snd v))) (fst (snd (snd (snd v)))) (fst (snd (snd (snd (snd v))))) (fst (snd (snd (snd (snd (snd v))))))
  | Type_OpReadPipe => fun v => Build_OpReadPipe (fst v) (fst (snd v)) (fst (snd (snd v))) (fst (snd (snd (snd v)))) (fst (snd (snd (snd (snd v))))) (fst (snd (snd (snd (snd (snd v))))))
  | Type_OpWritePipe => fun v => Build_OpWritePipe (fst v) (fst (snd v)) (fst (snd (snd v))) (fst (snd (snd (snd v)))) (fst (snd (snd (snd (snd v))))) (fst (snd (snd (snd (snd (snd v))))))
  | Type_OpReservedReadPipe => fun v => Build_OpReservedReadPipe (fst v) (fst (snd v)) (fst (snd (snd v))) (fst (snd (snd (snd v)))) (fst (snd (snd (snd (snd v))))) (fst (snd (snd (snd (snd (snd v)))))) (fst (snd (snd (snd (snd (snd (snd v))))))) (fst (snd (snd (snd (snd (snd (snd (snd v))))))))
  | Type_OpReservedWritePipe => fun v => Build_OpReservedWritePipe (fst v) (fst (snd v)) (fst (snd (snd v))) (fst (snd (snd (snd v)))) (fst (snd (snd (snd (snd v))))) (fst (snd (snd (snd (snd (snd v)))))) (fst (snd (snd (snd (snd (snd (snd v))))))) (fst (snd (snd (snd (snd (snd (snd (snd v))))))))
  | Type_OpReserveReadPipePackets => fun v => Build_OpReserveReadPipePackets (fst v) (fst (snd v)) (fst (snd (snd v))) (fst (snd (snd (snd v)))) (fst (snd (snd (snd (snd v))))) (fst (snd (snd (snd (snd (snd v))))))
  | Type_OpReserveWritePipePackets => fun v => Build_OpReserveWritePipePackets (fst v) (fst (snd v)) (fst (snd (snd v))) (fst (snd (snd (snd v)))) (fst (snd (snd (snd (snd v))))) (fst (snd (snd (snd (snd (snd v))))))
  | Type_OpCommitReadPipe => fun v => Build_OpCommitReadPipe (fst v) (fst (snd v)) (fst (snd (snd v))) (fst (snd (snd (snd v))))
  | Type_OpCommitWritePipe => fun v => Build_OpCommitWritePipe (fst v) (fst (snd v)) (fst (snd (snd v))) (fst (snd (snd (snd v))))
  | Type_OpIsValidReserveId => fun v => Build_OpIsValidReserveId (fst v) (fst (snd v)) (fst (snd (snd v)))
  | Type_OpGetNumPipePackets => fun v => Build_OpGetNumPipePackets (fst v) (fst (snd v)) (fst (snd (snd v))) (fst (snd (snd (snd v)))) (fst (snd (snd (snd (snd v)))))
  | Type_OpGetMaxPipePackets => fun v => Build_OpGetMaxPipePackets (fst v) (fst (snd v)) (fst (snd (snd v))) (fst (snd (snd (snd v)))) (fst (snd (snd (snd (snd v)))))
  | Type_OpGroupReserveReadPipePackets => fun v => Build_OpGroupReserveReadPipePackets (fst v) (fst (snd v)) (fst (snd (snd v))) (fst (snd (snd (snd v)))) (fst (snd (snd (snd (snd v))))) (fst (snd (snd (snd (snd (snd v)))))) (fst (snd (snd (snd (snd (snd (snd v)))))))
  | Type_OpGroupReserveWritePipePackets => fun v => Build_OpGroupReserveWritePipePackets (fst v) (fst (snd v)) (fst (snd (snd v))) (fst (snd (snd (snd v)))) (fst (snd (snd (snd (snd v))))) (fst (snd (snd (snd (snd (snd v)))))) (fst (snd (snd (snd (snd (snd (snd v)))))))
  | Type_OpGroupCommitReadPipe => fun v => Build_OpGroupCommitReadPipe (fst v) (fst (snd v)) (fst (snd (snd v))) (fst (snd (snd (snd v)))) (fst (snd (snd (snd (snd v)))))
  | Type_OpGroupCommitWritePipe => fun v => Build_OpGroupCommitWritePipe (fst v) (fst (snd v)) (fst (snd (snd v))) (fst (snd (snd (snd v)))) (fst (snd (snd (snd (snd v)))))
  | Type_OpConstantPipeStorage => fun v => Build_OpConstantPipeStorage (fst v) (fst (snd v)) (fst (snd (snd v))) (fst (snd (snd (snd v)))) (fst (snd (snd (snd (snd v)))))
  | Type_OpCreatePipeFromPipeStorage => fun v => Build_OpCreatePipeFromPipeStorage (fst v) (fst (snd v)) (fst (snd (snd v)))
  end.
Lemma built : forall E T v, dbg_Plain (E := E) T (build T v) = plain_tree (plain_number T) (type_name T) (show_values _ v).
Proof. intros E T v. destruct T; reflexivity. Qed.
Lemma grammar_types : plain_grammar = map (fun T => (plain_number T, row (plain_number T))) types.
Proof. vm_compute. reflexivity. Qed.
Lemma plain_met : forall E n t, shows_plain (E := E) n t -> exists T x, plain_number T = n /\ t = dbg_Plain T x.
Proof.
  intros E n t (name & cs & ts & N & I & F & ->). rewrite grammar_types in I. apply in_map_iff in I. destruct I as (T & [= <- <-] & _).
  apply classes_shown in F. destruct F as [v ->]. exists T, (build T v). split; [reflexivity|]. rewrite built. rewrite plain_named in N. injection N as <-. reflexivity.
Qed.
