(** SPECIFICATION of C91, continued: which value is shown where.  The values of an instruction are the arguments of its constructor,
    in the order in which they are declared. *)
From Verif Require Import Base Types DebugBase PlainOps Spec_Names Spec_Plain.
Local Open Scope string_scope.

(** The opcodes of the structs. *)
Definition plain_opcode (T : PlainType) : N :=
  (match T with
  | Type_OpGroupMemberDecorate => 75 | Type_OpImageSampledImplicitLod => 87 | Type_OpImageSampledExplicitLod => 88
  | Type_OpImageSampleDrefImplicitLod => 89 | Type_OpImageSampleDrefExplicitLod => 90
  | Type_OpImageSampleProjImplicitLod => 91 | Type_OpImageSampleProjExplicitLod => 92
  | Type_OpImageSampleProjDrefImplicitLod => 93 | Type_OpImageSampleProjDrefExplicitLod => 94
  | Type_OpImageFetch => 95 | Type_OpImageGather => 96 | Type_OpImageDrefGather => 97 | Type_OpImageRead => 98
  | Type_OpImageWrite => 99 | Type_OpImage => 100 | Type_OpImageQueryFormat => 101 | Type_OpImageQueryOrder => 102
  | Type_OpImageQuerySizeLod => 103 | Type_OpImageQuerySize => 104 | Type_OpImageQueryLod => 105
  | Type_OpImageQueryLevels => 106 | Type_OpImageQuerySamples => 107 | Type_OpImageSparseSampleImplicitLod => 305
  | Type_OpImageSparseSampleExplicitLod => 306 | Type_OpImageSparseSampleDrefImplicitLod => 307
  | Type_OpImageSparseSampleDrefExplicitLod => 308 | Type_OpImageSparseSampleProjImplicitLod => 309
  | Type_OpImageSparseSampleProjExplicitLod => 310 | Type_OpImageSparseSampleProjDrefImplicitLod => 311
  | Type_OpImageSparseSampleProjDrefExplicitLod => 312 | Type_OpImageSparseFetch => 313
  | Type_OpImageSparseGather => 314 | Type_OpImageSparseDrefGather => 315 | Type_OpImageSparseTexelsResident => 316
  | Type_OpImageSparseRead => 320 | Type_OpBitFieldInsert => 201 | Type_OpBitFieldSExtract => 202
  | Type_OpBitFieldUExtract => 203 | Type_OpBitReverse => 204 | Type_OpBitCount => 205 | Type_OpAny => 154
  | Type_OpAll => 155 | Type_OpIsNan => 156 | Type_OpIsInf => 157 | Type_OpIsFinite => 158 | Type_OpIsNormal => 159
  | Type_OpSignBitSet => 160 | Type_OpLessOrGreater => 161 | Type_OpOrdered => 162 | Type_OpUnordered => 163
  | Type_OpLogicalEqual => 164 | Type_OpLogicalNotEqual => 165 | Type_OpLogicalOr => 166 | Type_OpLogicalAnd => 167
  | Type_OpLogicalNot => 168 | Type_OpSelect => 169 | Type_OpDPdx => 207 | Type_OpDPdy => 208 | Type_OpFwidth => 209
  | Type_OpDPdxFine => 210 | Type_OpDPdyFine => 211 | Type_OpFwidthFine => 212 | Type_OpDPdxCoarse => 213
  | Type_OpDPdyCoarse => 214 | Type_OpFwidthCoarse => 215 | Type_OpSwitch => 251 | Type_OpKill => 252
  | Type_OpReturnValue => 254 | Type_OpUnreachable => 255 | Type_OpLifetimeStart => 256 | Type_OpLifetimeStop => 257
  | Type_OpAtomicLoad => 227 | Type_OpAtomicStore => 228 | Type_OpAtomicExchange => 229
  | Type_OpAtomicCompareExchange => 230 | Type_OpAtomicCompareExchangeWeak => 231 | Type_OpAtomicIIncrement => 232
  | Type_OpAtomicIDecrement => 233 | Type_OpAtomicIAdd => 234 | Type_OpAtomicISub => 235 | Type_OpAtomicSMin => 236
  | Type_OpAtomicUMin => 237 | Type_OpAtomicSMax => 238 | Type_OpAtomicUMax => 239 | Type_OpAtomicAnd => 240
  | Type_OpAtomicOr => 241 | Type_OpAtomicXor => 242 | Type_OpAtomicFlagTestAndSet => 318
  | Type_OpAtomicFlagClear => 319 | Type_OpEmitVertex => 218 | Type_OpEndPrimitive => 219
  | Type_OpEmitStreamVertex => 220 | Type_OpEndStreamPrimitive => 221 | Type_OpControlBarrier => 224
  | Type_OpMemoryBarrier => 225 | Type_OpNamedBarrierInitialize => 328 | Type_OpMemoryNamedBarrier => 329
  | Type_OpGroupAsyncCopy => 259 | Type_OpGroupWaitEvents => 260 | Type_OpGroupAll => 261 | Type_OpGroupAny => 262
  | Type_OpGroupBroadcast => 263 | Type_OpGroupIAdd => 264 | Type_OpGroupFAdd => 265 | Type_OpGroupFMin => 266
  | Type_OpGroupUMin => 267 | Type_OpGroupSMin => 268 | Type_OpGroupFMax => 269 | Type_OpGroupUMax => 270
  | Type_OpGroupSMax => 271 | Type_OpEnqueueMarker => 291 | Type_OpEnqueueKernel => 292
  | Type_OpGetKernelNDrangeSubGroupCount => 293 | Type_OpGetKernelNDrangeMaxSubGroupSize => 294
  | Type_OpGetKernelWorkGroupSize => 295 | Type_OpGetKernelPreferredWorkGroupSizeMultiple => 296
  | Type_OpRetainEvent => 297 | Type_OpReleaseEvent => 298 | Type_OpCreateUserEvent => 299
  | Type_OpIsValidEvent => 300 | Type_OpSetUserEventStatus => 301 | Type_OpCaptureEventProfilingInfo => 302
  | Type_OpGetDefaultQueue => 303 | Type_OpBuildNDRange => 304 | Type_OpGetKernelLocalSizeForSubgroupCount => 325
  | Type_OpGetKernelMaxNumSubgroups => 326 | Type_OpReadPipe => 274 | Type_OpWritePipe => 275
  | Type_OpReservedReadPipe => 276 | Type_OpReservedWritePipe => 277 | Type_OpReserveReadPipePackets => 278
  | Type_OpReserveWritePipePackets => 279 | Type_OpCommitReadPipe => 280 | Type_OpCommitWritePipe => 281
  | Type_OpIsValidReserveId => 282 | Type_OpGetNumPipePackets => 283 | Type_OpGetMaxPipePackets => 284
  | Type_OpGroupReserveReadPipePackets => 285 | Type_OpGroupReserveWritePipePackets => 286
  | Type_OpGroupCommitReadPipe => 287 | Type_OpGroupCommitWritePipe => 288 | Type_OpConstantPipeStorage => 323
  | Type_OpCreatePipeFromPipeStorage => 324
  end)%N.

(** The values an operand can have. *)
Definition class_value (c : class) : Type :=
  match c with
  | AnId | TheResult | AScope | SomeSemantics | ALiteral => N
  | AGroupOperation => GroupOperation
  | ImageBits => ImageOperands
  | ImageBitsOrNone => option ImageOperands
  | Cases => list (list N * N)
  | Ids => list N
  | IdPairs | Members => list (N * N)
  end.

Section Trees.
Context {E : Type}.
Local Notation dtree := (dtree E).

Definition show_image_bits (x : ImageOperands) : dtree :=
  image_bits (ImageOperands_bias x) (ImageOperands_lod x) (ImageOperands_grad x) (ImageOperands_const_offset x)
    (ImageOperands_offset x) (ImageOperands_const_offsets x) (ImageOperands_min_lod x).
(** How such a value is shown. *)
Definition show_value (c : class) : class_value c -> dtree :=
  match c return class_value c -> dtree with
  | AnId => an_id
  | TheResult => in_wrapper "ResultId"
  | AScope => in_wrapper "ScopeId"
  | SomeSemantics => in_wrapper "MemorySemanticsId"
  | ALiteral => DNumber
  | AGroupOperation => fun g => DName (match g with
      | GroupOperation_Reduce => "Reduce" | GroupOperation_InclusiveScan => "InclusiveScan" | GroupOperation_ExclusiveScan => "ExclusiveScan" end)
  | ImageBits => show_image_bits
  | ImageBitsOrNone => or_none show_image_bits
  | Cases => fun l => DList (map (fun c => two (DList (map DNumber (fst c))) (an_id (snd c))) l)
  | Ids => fun l => DList (map an_id l)
  | IdPairs => fun l => DList (map (fun p => two (an_id (fst p)) (an_id (snd p))) l)
  | Members => fun l => DList (map (fun m => two (an_id (fst m)) (in_wrapper "MemberIndex" (snd m))) l)
  end.

Fixpoint values (classes : list class) : Type :=
  match classes with [] => unit | c :: classes => class_value c * values classes end.
Fixpoint show_operands (classes : list class) : values classes -> list dtree :=
  match classes with
  | [] => fun _ => []
  | c :: classes => fun v => show_value c (fst v) :: show_operands classes (snd v)
  end.
End Trees.

(** A function that takes such values, and its result for given ones. *)
Fixpoint taking (classes : list class) (R : Type) : Type :=
  match classes with [] => R | c :: classes => class_value c -> taking classes R end.
Fixpoint given {R} (classes : list class) : taking classes R -> values classes -> R :=
  match classes with
  | [] => fun r _ => r
  | c :: classes => fun f v => given classes (f (fst v)) (snd v)
  end.

Definition operand_classes (opcode : N) : list class :=
  match find (fun p => N.eqb (fst p) opcode) plain_grammar with Some (_, classes) => plain_classes opcode classes | None => [] end.
(** The constructors. *)
Definition constructor (T : PlainType) : taking (operand_classes (plain_opcode T)) (PlainValue T) :=
  match T with
  | Type_OpGroupMemberDecorate => Build_OpGroupMemberDecorate
  | Type_OpImageSampledImplicitLod => Build_OpImageSampledImplicitLod
  | Type_OpImageSampledExplicitLod => Build_OpImageSampledExplicitLod
  | Type_OpImageSampleDrefImplicitLod => Build_OpImageSampleDrefImplicitLod
  | Type_OpImageSampleDrefExplicitLod => Build_OpImageSampleDrefExplicitLod
  | Type_OpImageSampleProjImplicitLod => Build_OpImageSampleProjImplicitLod
  | Type_OpImageSampleProjExplicitLod => Build_OpImageSampleProjExplicitLod
  | Type_OpImageSampleProjDrefImplicitLod => Build_OpImageSampleProjDrefImplicitLod
  | Type_OpImageSampleProjDrefExplicitLod => Build_OpImageSampleProjDrefExplicitLod
  | Type_OpImageFetch => Build_OpImageFetch | Type_OpImageGather => Build_OpImageGather
  | Type_OpImageDrefGather => Build_OpImageDrefGather | Type_OpImageRead => Build_OpImageRead
  | Type_OpImageWrite => Build_OpImageWrite | Type_OpImage => Build_OpImage
  | Type_OpImageQueryFormat => Build_OpImageQueryFormat | Type_OpImageQueryOrder => Build_OpImageQueryOrder
  | Type_OpImageQuerySizeLod => Build_OpImageQuerySizeLod | Type_OpImageQuerySize => Build_OpImageQuerySize
  | Type_OpImageQueryLod => Build_OpImageQueryLod | Type_OpImageQueryLevels => Build_OpImageQueryLevels
  | Type_OpImageQuerySamples => Build_OpImageQuerySamples
  | Type_OpImageSparseSampleImplicitLod => Build_OpImageSparseSampleImplicitLod
  | Type_OpImageSparseSampleExplicitLod => Build_OpImageSparseSampleExplicitLod
  | Type_OpImageSparseSampleDrefImplicitLod => Build_OpImageSparseSampleDrefImplicitLod
  | Type_OpImageSparseSampleDrefExplicitLod => Build_OpImageSparseSampleDrefExplicitLod
  | Type_OpImageSparseSampleProjImplicitLod => Build_OpImageSparseSampleProjImplicitLod
  | Type_OpImageSparseSampleProjExplicitLod => Build_OpImageSparseSampleProjExplicitLod
  | Type_OpImageSparseSampleProjDrefImplicitLod => Build_OpImageSparseSampleProjDrefImplicitLod
  | Type_OpImageSparseSampleProjDrefExplicitLod => Build_OpImageSparseSampleProjDrefExplicitLod
  | Type_OpImageSparseFetch => Build_OpImageSparseFetch | Type_OpImageSparseGather => Build_OpImageSparseGather
  | Type_OpImageSparseDrefGather => Build_OpImageSparseDrefGather
  | Type_OpImageSparseTexelsResident => Build_OpImageSparseTexelsResident
  | Type_OpImageSparseRead => Build_OpImageSparseRead | Type_OpBitFieldInsert => Build_OpBitFieldInsert
  | Type_OpBitFieldSExtract => Build_OpBitFieldSExtract | Type_OpBitFieldUExtract => Build_OpBitFieldUExtract
  | Type_OpBitReverse => Build_OpBitReverse | Type_OpBitCount => Build_OpBitCount | Type_OpAny => Build_OpAny
  | Type_OpAll => Build_OpAll | Type_OpIsNan => Build_OpIsNan | Type_OpIsInf => Build_OpIsInf
  | Type_OpIsFinite => Build_OpIsFinite | Type_OpIsNormal => Build_OpIsNormal
  | Type_OpSignBitSet => Build_OpSignBitSet | Type_OpLessOrGreater => Build_OpLessOrGreater
  | Type_OpOrdered => Build_OpOrdered | Type_OpUnordered => Build_OpUnordered
  | Type_OpLogicalEqual => Build_OpLogicalEqual | Type_OpLogicalNotEqual => Build_OpLogicalNotEqual
  | Type_OpLogicalOr => Build_OpLogicalOr | Type_OpLogicalAnd => Build_OpLogicalAnd
  | Type_OpLogicalNot => Build_OpLogicalNot | Type_OpSelect => Build_OpSelect | Type_OpDPdx => Build_OpDPdx
  | Type_OpDPdy => Build_OpDPdy | Type_OpFwidth => Build_OpFwidth | Type_OpDPdxFine => Build_OpDPdxFine
  | Type_OpDPdyFine => Build_OpDPdyFine | Type_OpFwidthFine => Build_OpFwidthFine
  | Type_OpDPdxCoarse => Build_OpDPdxCoarse | Type_OpDPdyCoarse => Build_OpDPdyCoarse
  | Type_OpFwidthCoarse => Build_OpFwidthCoarse | Type_OpSwitch => Build_OpSwitch | Type_OpKill => Build_OpKill
  | Type_OpReturnValue => Build_OpReturnValue | Type_OpUnreachable => Build_OpUnreachable
  | Type_OpLifetimeStart => Build_OpLifetimeStart | Type_OpLifetimeStop => Build_OpLifetimeStop
  | Type_OpAtomicLoad => Build_OpAtomicLoad | Type_OpAtomicStore => Build_OpAtomicStore
  | Type_OpAtomicExchange => Build_OpAtomicExchange | Type_OpAtomicCompareExchange => Build_OpAtomicCompareExchange
  | Type_OpAtomicCompareExchangeWeak => Build_OpAtomicCompareExchangeWeak
  | Type_OpAtomicIIncrement => Build_OpAtomicIIncrement | Type_OpAtomicIDecrement => Build_OpAtomicIDecrement
  | Type_OpAtomicIAdd => Build_OpAtomicIAdd | Type_OpAtomicISub => Build_OpAtomicISub
  | Type_OpAtomicSMin => Build_OpAtomicSMin | Type_OpAtomicUMin => Build_OpAtomicUMin
  | Type_OpAtomicSMax => Build_OpAtomicSMax | Type_OpAtomicUMax => Build_OpAtomicUMax
  | Type_OpAtomicAnd => Build_OpAtomicAnd | Type_OpAtomicOr => Build_OpAtomicOr
  | Type_OpAtomicXor => Build_OpAtomicXor | Type_OpAtomicFlagTestAndSet => Build_OpAtomicFlagTestAndSet
  | Type_OpAtomicFlagClear => Build_OpAtomicFlagClear | Type_OpEmitVertex => Build_OpEmitVertex
  | Type_OpEndPrimitive => Build_OpEndPrimitive | Type_OpEmitStreamVertex => Build_OpEmitStreamVertex
  | Type_OpEndStreamPrimitive => Build_OpEndStreamPrimitive | Type_OpControlBarrier => Build_OpControlBarrier
  | Type_OpMemoryBarrier => Build_OpMemoryBarrier | Type_OpNamedBarrierInitialize => Build_OpNamedBarrierInitialize
  | Type_OpMemoryNamedBarrier => Build_OpMemoryNamedBarrier | Type_OpGroupAsyncCopy => Build_OpGroupAsyncCopy
  | Type_OpGroupWaitEvents => Build_OpGroupWaitEvents | Type_OpGroupAll => Build_OpGroupAll
  | Type_OpGroupAny => Build_OpGroupAny | Type_OpGroupBroadcast => Build_OpGroupBroadcast
  | Type_OpGroupIAdd => Build_OpGroupIAdd | Type_OpGroupFAdd => Build_OpGroupFAdd
  | Type_OpGroupFMin => Build_OpGroupFMin | Type_OpGroupUMin => Build_OpGroupUMin
  | Type_OpGroupSMin => Build_OpGroupSMin | Type_OpGroupFMax => Build_OpGroupFMax
  | Type_OpGroupUMax => Build_OpGroupUMax | Type_OpGroupSMax => Build_OpGroupSMax
  | Type_OpEnqueueMarker => Build_OpEnqueueMarker | Type_OpEnqueueKernel => Build_OpEnqueueKernel
  | Type_OpGetKernelNDrangeSubGroupCount => Build_OpGetKernelNDrangeSubGroupCount
  | Type_OpGetKernelNDrangeMaxSubGroupSize => Build_OpGetKernelNDrangeMaxSubGroupSize
  | Type_OpGetKernelWorkGroupSize => Build_OpGetKernelWorkGroupSize
  | Type_OpGetKernelPreferredWorkGroupSizeMultiple => Build_OpGetKernelPreferredWorkGroupSizeMultiple
  | Type_OpRetainEvent => Build_OpRetainEvent | Type_OpReleaseEvent => Build_OpReleaseEvent
  | Type_OpCreateUserEvent => Build_OpCreateUserEvent | Type_OpIsValidEvent => Build_OpIsValidEvent
  | Type_OpSetUserEventStatus => Build_OpSetUserEventStatus
  | Type_OpCaptureEventProfilingInfo => Build_OpCaptureEventProfilingInfo
  | Type_OpGetDefaultQueue => Build_OpGetDefaultQueue | Type_OpBuildNDRange => Build_OpBuildNDRange
  | Type_OpGetKernelLocalSizeForSubgroupCount => Build_OpGetKernelLocalSizeForSubgroupCount
  | Type_OpGetKernelMaxNumSubgroups => Build_OpGetKernelMaxNumSubgroups | Type_OpReadPipe => Build_OpReadPipe
  | Type_OpWritePipe => Build_OpWritePipe | Type_OpReservedReadPipe => Build_OpReservedReadPipe
  | Type_OpReservedWritePipe => Build_OpReservedWritePipe
  | Type_OpReserveReadPipePackets => Build_OpReserveReadPipePackets
  | Type_OpReserveWritePipePackets => Build_OpReserveWritePipePackets
  | Type_OpCommitReadPipe => Build_OpCommitReadPipe | Type_OpCommitWritePipe => Build_OpCommitWritePipe
  | Type_OpIsValidReserveId => Build_OpIsValidReserveId | Type_OpGetNumPipePackets => Build_OpGetNumPipePackets
  | Type_OpGetMaxPipePackets => Build_OpGetMaxPipePackets
  | Type_OpGroupReserveReadPipePackets => Build_OpGroupReserveReadPipePackets
  | Type_OpGroupReserveWritePipePackets => Build_OpGroupReserveWritePipePackets
  | Type_OpGroupCommitReadPipe => Build_OpGroupCommitReadPipe
  | Type_OpGroupCommitWritePipe => Build_OpGroupCommitWritePipe
  | Type_OpConstantPipeStorage => Build_OpConstantPipeStorage
  | Type_OpCreatePipeFromPipeStorage => Build_OpCreatePipeFromPipeStorage
  end.
(** The instruction with these operands. *)
Definition instruction (T : PlainType) (v : values (operand_classes (plain_opcode T))) : PlainValue T := given _ (constructor T) v.
