(** SPECIFICATION: the opcodes of SPIR-V 1.0 and their names, in the order of section 3.32
    of the standard, and which of them the crate decodes.  Written by hand from the
    standard; does not mention the model. *)
From Coq Require Import NArith List String.
Import ListNotations.
Local Open Scope N_scope.
Local Open Scope string_scope.

Definition opcode_names : list (N * string) := [
  (* 3.32.1 Miscellaneous *)
  (0, "OpNop"); (1, "OpUndef");
  (* 3.32.2 Debug *)
  (2, "OpSourceContinued"); (3, "OpSource"); (4, "OpSourceExtension"); (5, "OpName"); (6, "OpMemberName");
  (7, "OpString"); (8, "OpLine"); (317, "OpNoLine");
  (* 3.32.3 Annotation *)
  (71, "OpDecorate"); (72, "OpMemberDecorate"); (73, "OpDecorationGroup"); (74, "OpGroupDecorate");
  (75, "OpGroupMemberDecorate");
  (* 3.32.4 Extension *)
  (10, "OpExtension"); (11, "OpExtInstImport"); (12, "OpExtInst");
  (* 3.32.5 Mode setting *)
  (14, "OpMemoryModel"); (15, "OpEntryPoint"); (16, "OpExecutionMode"); (17, "OpCapability");
  (* 3.32.6 Type declaration *)
  (19, "OpTypeVoid"); (20, "OpTypeBool"); (21, "OpTypeInt"); (22, "OpTypeFloat"); (23, "OpTypeVector");
  (24, "OpTypeMatrix"); (25, "OpTypeImage"); (26, "OpTypeSampler"); (27, "OpTypeSampledImage"); (28, "OpTypeArray");
  (29, "OpTypeRuntimeArray"); (30, "OpTypeStruct"); (31, "OpTypeOpaque"); (32, "OpTypePointer");
  (33, "OpTypeFunction"); (34, "OpTypeEvent"); (35, "OpTypeDeviceEvent"); (36, "OpTypeReserveId");
  (37, "OpTypeQueue"); (38, "OpTypePipe"); (39, "OpTypeForwardPointer");
  (* 3.32.7 Constant creation *)
  (41, "OpConstantTrue"); (42, "OpConstantFalse"); (43, "OpConstant"); (44, "OpConstantComposite");
  (45, "OpConstantSampler"); (46, "OpConstantNull"); (48, "OpSpecConstantTrue"); (49, "OpSpecConstantFalse");
  (50, "OpSpecConstant"); (51, "OpSpecConstantComposite"); (52, "OpSpecConstantOp");
  (* 3.32.8 Memory *)
  (59, "OpVariable"); (60, "OpImageTexelPointer"); (61, "OpLoad"); (62, "OpStore"); (63, "OpCopyMemory");
  (64, "OpCopyMemorySized"); (65, "OpAccessChain"); (66, "OpInBoundsAccessChain"); (67, "OpPtrAccessChain");
  (68, "OpArrayLength"); (69, "OpGenericPtrMemSemantics"); (70, "OpInBoundsPtrAccessChain");
  (* 3.32.9 Function *)
  (54, "OpFunction"); (55, "OpFunctionParameter"); (56, "OpFunctionEnd"); (57, "OpFunctionCall");
  (* 3.32.10 Image *)
  (86, "OpSampledImage"); (87, "OpImageSampleImplicitLod"); (88, "OpImageSampleExplicitLod");
  (89, "OpImageSampleDrefImplicitLod"); (90, "OpImageSampleDrefExplicitLod"); (91, "OpImageSampleProjImplicitLod");
  (92, "OpImageSampleProjExplicitLod"); (93, "OpImageSampleProjDrefImplicitLod");
  (94, "OpImageSampleProjDrefExplicitLod"); (95, "OpImageFetch"); (96, "OpImageGather"); (97, "OpImageDrefGather");
  (98, "OpImageRead"); (99, "OpImageWrite"); (100, "OpImage"); (101, "OpImageQueryFormat");
  (102, "OpImageQueryOrder"); (103, "OpImageQuerySizeLod"); (104, "OpImageQuerySize"); (105, "OpImageQueryLod");
  (106, "OpImageQueryLevels"); (107, "OpImageQuerySamples");
  (305, "OpImageSparseSampleImplicitLod"); (306, "OpImageSparseSampleExplicitLod");
  (307, "OpImageSparseSampleDrefImplicitLod"); (308, "OpImageSparseSampleDrefExplicitLod");
  (309, "OpImageSparseSampleProjImplicitLod"); (310, "OpImageSparseSampleProjExplicitLod");
  (311, "OpImageSparseSampleProjDrefImplicitLod"); (312, "OpImageSparseSampleProjDrefExplicitLod");
  (313, "OpImageSparseFetch"); (314, "OpImageSparseGather"); (315, "OpImageSparseDrefGather");
  (316, "OpImageSparseTexelsResident"); (320, "OpImageSparseRead");
  (* 3.32.11 Conversion *)
  (109, "OpConvertFToU"); (110, "OpConvertFToS"); (111, "OpConvertSToF"); (112, "OpConvertUToF"); (113, "OpUConvert");
  (114, "OpSConvert"); (115, "OpFConvert"); (116, "OpQuantizeToF16"); (117, "OpConvertPtrToU");
  (118, "OpSatConvertSToU"); (119, "OpSatConvertUToS"); (120, "OpConvertUToPtr"); (121, "OpPtrCastToGeneric");
  (122, "OpGenericCastToPtr"); (123, "OpGenericCastToPtrExplicit"); (124, "OpBitcast");
  (* 3.32.12 Composite *)
  (77, "OpVectorExtractDynamic"); (78, "OpVectorInsertDynamic"); (79, "OpVectorShuffle");
  (80, "OpCompositeConstruct"); (81, "OpCompositeExtract"); (82, "OpCompositeInsert"); (83, "OpCopyObject");
  (84, "OpTranspose");
  (* 3.32.13 Arithmetic *)
  (126, "OpSNegate"); (127, "OpFNegate"); (128, "OpIAdd"); (129, "OpFAdd"); (130, "OpISub"); (131, "OpFSub");
  (132, "OpIMul"); (133, "OpFMul"); (134, "OpUDiv"); (135, "OpSDiv"); (136, "OpFDiv"); (137, "OpUMod");
  (138, "OpSRem"); (139, "OpSMod"); (140, "OpFRem"); (141, "OpFMod"); (142, "OpVectorTimesScalar");
  (143, "OpMatrixTimesScalar"); (144, "OpVectorTimesMatrix"); (145, "OpMatrixTimesVector");
  (146, "OpMatrixTimesMatrix"); (147, "OpOuterProduct"); (148, "OpDot"); (149, "OpIAddCarry");
  (150, "OpISubBorrow"); (151, "OpUMulExtended"); (152, "OpSMulExtended");
  (* 3.32.14 Bit *)
  (194, "OpShiftRightLogical"); (195, "OpShiftRightArithmetic"); (196, "OpShiftLeftLogical"); (197, "OpBitwiseOr");
  (198, "OpBitwiseXor"); (199, "OpBitwiseAnd"); (200, "OpNot"); (201, "OpBitFieldInsert");
  (202, "OpBitFieldSExtract"); (203, "OpBitFieldUExtract"); (204, "OpBitReverse"); (205, "OpBitCount");
  (* 3.32.15 Relational and logical *)
  (154, "OpAny"); (155, "OpAll"); (156, "OpIsNan"); (157, "OpIsInf"); (158, "OpIsFinite"); (159, "OpIsNormal");
  (160, "OpSignBitSet"); (161, "OpLessOrGreater"); (162, "OpOrdered"); (163, "OpUnordered"); (164, "OpLogicalEqual");
  (165, "OpLogicalNotEqual"); (166, "OpLogicalOr"); (167, "OpLogicalAnd"); (168, "OpLogicalNot"); (169, "OpSelect");
  (170, "OpIEqual"); (171, "OpINotEqual"); (172, "OpUGreaterThan"); (173, "OpSGreaterThan");
  (174, "OpUGreaterThanEqual"); (175, "OpSGreaterThanEqual"); (176, "OpULessThan"); (177, "OpSLessThan");
  (178, "OpULessThanEqual"); (179, "OpSLessThanEqual"); (180, "OpFOrdEqual"); (181, "OpFUnordEqual");
  (182, "OpFOrdNotEqual"); (183, "OpFUnordNotEqual"); (184, "OpFOrdLessThan"); (185, "OpFUnordLessThan");
  (186, "OpFOrdGreaterThan"); (187, "OpFUnordGreaterThan"); (188, "OpFOrdLessThanEqual");
  (189, "OpFUnordLessThanEqual"); (190, "OpFOrdGreaterThanEqual"); (191, "OpFUnordGreaterThanEqual");
  (* 3.32.16 Derivative *)
  (207, "OpDPdx"); (208, "OpDPdy"); (209, "OpFwidth"); (210, "OpDPdxFine"); (211, "OpDPdyFine");
  (212, "OpFwidthFine"); (213, "OpDPdxCoarse"); (214, "OpDPdyCoarse"); (215, "OpFwidthCoarse");
  (* 3.32.17 Control flow *)
  (245, "OpPhi"); (246, "OpLoopMerge"); (247, "OpSelectionMerge"); (248, "OpLabel"); (249, "OpBranch");
  (250, "OpBranchConditional"); (251, "OpSwitch"); (252, "OpKill"); (253, "OpReturn"); (254, "OpReturnValue");
  (255, "OpUnreachable"); (256, "OpLifetimeStart"); (257, "OpLifetimeStop");
  (* 3.32.18 Atomic *)
  (227, "OpAtomicLoad"); (228, "OpAtomicStore"); (229, "OpAtomicExchange"); (230, "OpAtomicCompareExchange");
  (231, "OpAtomicCompareExchangeWeak"); (232, "OpAtomicIIncrement"); (233, "OpAtomicIDecrement");
  (234, "OpAtomicIAdd"); (235, "OpAtomicISub"); (236, "OpAtomicSMin"); (237, "OpAtomicUMin");
  (238, "OpAtomicSMax"); (239, "OpAtomicUMax"); (240, "OpAtomicAnd"); (241, "OpAtomicOr"); (242, "OpAtomicXor");
  (318, "OpAtomicFlagTestAndSet"); (319, "OpAtomicFlagClear");
  (* 3.32.19 Primitive *)
  (218, "OpEmitVertex"); (219, "OpEndPrimitive"); (220, "OpEmitStreamVertex"); (221, "OpEndStreamPrimitive");
  (* 3.32.20 Barrier *)
  (224, "OpControlBarrier"); (225, "OpMemoryBarrier");
  (* 3.32.21 Group *)
  (259, "OpGroupAsyncCopy"); (260, "OpGroupWaitEvents"); (261, "OpGroupAll"); (262, "OpGroupAny");
  (263, "OpGroupBroadcast"); (264, "OpGroupIAdd"); (265, "OpGroupFAdd"); (266, "OpGroupFMin"); (267, "OpGroupUMin");
  (268, "OpGroupSMin"); (269, "OpGroupFMax"); (270, "OpGroupUMax"); (271, "OpGroupSMax");
  (* 3.32.22 Device-side enqueue *)
  (291, "OpEnqueueMarker"); (292, "OpEnqueueKernel"); (293, "OpGetKernelNDrangeSubGroupCount");
  (294, "OpGetKernelNDrangeMaxSubGroupSize"); (295, "OpGetKernelWorkGroupSize");
  (296, "OpGetKernelPreferredWorkGroupSizeMultiple"); (297, "OpRetainEvent"); (298, "OpReleaseEvent");
  (299, "OpCreateUserEvent"); (300, "OpIsValidEvent"); (301, "OpSetUserEventStatus");
  (302, "OpCaptureEventProfilingInfo"); (303, "OpGetDefaultQueue"); (304, "OpBuildNDRange");
  (* 3.32.23 Pipe *)
  (274, "OpReadPipe"); (275, "OpWritePipe"); (276, "OpReservedReadPipe"); (277, "OpReservedWritePipe");
  (278, "OpReserveReadPipePackets"); (279, "OpReserveWritePipePackets"); (280, "OpCommitReadPipe");
  (281, "OpCommitWritePipe"); (282, "OpIsValidReserveId"); (283, "OpGetNumPipePackets");
  (284, "OpGetMaxPipePackets"); (285, "OpGroupReserveReadPipePackets"); (286, "OpGroupReserveWritePipePackets");
  (287, "OpGroupCommitReadPipe"); (288, "OpGroupCommitWritePipe")
].

(** The SPIR-V name of an opcode. *)
Definition opcode_name (n : N) : option string :=
  match find (fun p => N.eqb (fst p) n) opcode_names with Some (_, name) => Some name | None => None end.

(** The instructions the crate decodes. *)
Definition decoded_names : list string := [
  "OpNop"; "OpUndef"; "OpSourceContinued"; "OpSource"; "OpSourceExtension"; "OpName"; "OpMemberName"; "OpString";
  "OpExtension"; "OpExtInstImport"; "OpExtInst"; "OpMemoryModel"; "OpEntryPoint"; "OpExecutionMode"; "OpCapability";
  "OpTypeVoid"; "OpTypeBool"; "OpTypeInt"; "OpTypeFloat"; "OpTypeVector"; "OpTypeMatrix"; "OpTypeImage";
  "OpTypeSampler"; "OpTypeSampledImage"; "OpTypeArray"; "OpTypeRuntimeArray"; "OpTypeStruct"; "OpTypeOpaque";
  "OpTypePointer"; "OpTypeFunction"; "OpConstant"; "OpConstantComposite"; "OpFunction"; "OpFunctionParameter";
  "OpFunctionEnd"; "OpVariable"; "OpLoad"; "OpStore"; "OpAccessChain"; "OpDecorate"; "OpMemberDecorate";
  "OpConvertUToF"; "OpBitcast"; "OpIAdd"; "OpFAdd"; "OpISub"; "OpFSub"; "OpIMul"; "OpFMul"; "OpUDiv"; "OpSDiv";
  "OpFDiv"; "OpUMod"; "OpSRem"; "OpSMod"; "OpFRem"; "OpFMod"; "OpIAddCarry"; "OpISubBorrow"; "OpUMulExtended";
  "OpSMulExtended"; "OpBitwiseOr"; "OpBitwiseXor"; "OpBitwiseAnd"; "OpIEqual"; "OpINotEqual"; "OpUGreaterThan";
  "OpSGreaterThan"; "OpUGreaterThanEqual"; "OpSGreaterThanEqual"; "OpULessThan"; "OpSLessThan"; "OpULessThanEqual";
  "OpSLessThanEqual"; "OpFOrdEqual"; "OpFUnordEqual"; "OpFOrdNotEqual"; "OpFUnordNotEqual"; "OpFOrdLessThan";
  "OpFUnordLessThan"; "OpFOrdGreaterThan"; "OpFUnordGreaterThan"; "OpFOrdLessThanEqual"; "OpFUnordLessThanEqual";
  "OpFOrdGreaterThanEqual"; "OpFUnordGreaterThanEqual"; "OpPhi"; "OpLoopMerge"; "OpSelectionMerge"; "OpLabel";
  "OpBranch"; "OpBranchConditional"; "OpReturn" ].

(** SPIR-V instructions missing from the crate's opcode table: they are taken for unknown. *)
Definition missing_names : list string := [
  "OpTypeEvent"; "OpTypeDeviceEvent"; "OpTypeReserveId"; "OpTypeQueue"; "OpTypePipe"; "OpTypeForwardPointer";
  "OpDecorationGroup"; "OpGroupDecorate"; "OpGroupMemberDecorate" ].

Inductive support := Decoded (name : string) | Unimplemented (name : string) | Unknown.

(** What the crate does with an opcode. *)
Definition opcode_support (n : N) : support :=
  match opcode_name n with
  | Some name =>
      if existsb (String.eqb name) decoded_names then Decoded name
      else if existsb (String.eqb name) missing_names then Unknown
      else Unimplemented name
  | None => Unknown
  end.
