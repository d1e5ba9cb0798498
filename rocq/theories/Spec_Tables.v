(** SPECIFICATION: the numbers SPIR-V 1.0 (Unified tables of chapter 3 of the SPIR-V
    specification) assigns to enumerants and opcodes.  Written by hand from the standard;
    uses only the model's data types (which name the enumerants), none of its functions. *)
From Verif Require Import Base Types Ops.
Local Open Scope N_scope.

(** SPIR-V 3.2 Source Language *)
Definition source_language_number (x : SourceLanguage) : N :=
  match x with
  | SourceLanguage_Unknown => 0 | SourceLanguage_Essl => 1 | SourceLanguage_Glsl => 2
  | SourceLanguage_OpenCL_C => 3 | SourceLanguage_OpenCL_Cpp => 4 | SourceLanguage_Other n => n
  end.

(** SPIR-V 3.3 Execution Model *)
Definition execution_model_number (x : ExecutionModel) : N :=
  match x with
  | ExecutionModel_Vertex => 0 | ExecutionModel_TesselationControl => 1
  | ExecutionModel_TesselationEvaluation => 2 | ExecutionModel_Geometry => 3
  | ExecutionModel_Fragment => 4 | ExecutionModel_GlCompute => 5 | ExecutionModel_Kernel => 6
  end.

(** SPIR-V 3.4 Addressing Model *)
Definition addressing_model_number (x : AddressingModel) : N :=
  match x with AddressingModel_Logical => 0 | AddressingModel_Physical32 => 1 | AddressingModel_Physical64 => 2 end.

(** SPIR-V 3.5 Memory Model *)
Definition memory_model_number (x : MemoryModel) : N :=
  match x with MemoryModel_Simple => 0 | MemoryModel_Glsl450 => 1 | MemoryModel_OpenCL => 2 end.

(** SPIR-V 3.6 Execution Mode *)
Definition execution_mode_number (x : ExecutionMode) : N :=
  match x with
  | ExecutionMode_Invocations _ => 0 | ExecutionMode_SpacingEqual => 1
  | ExecutionMode_SpacingFractionalEven => 2 | ExecutionMode_SpacingFractionalOdd => 3
  | ExecutionMode_VertexOrderCw => 4 | ExecutionMode_VertexOrderCcw => 5
  | ExecutionMode_PixelCenterInteger => 6 | ExecutionMode_OriginUpperLeft => 7
  | ExecutionMode_OriginLowerLeft => 8 | ExecutionMode_EarlyFragmentTests => 9
  | ExecutionMode_PointMode => 10 | ExecutionMode_Xfb => 11 | ExecutionMode_DepthReplacing => 12
  | ExecutionMode_DepthGreater => 14 | ExecutionMode_DepthLess => 15 | ExecutionMode_DepthUnchanged => 16
  | ExecutionMode_LocalSize _ _ _ => 17 | ExecutionMode_LocalSizeHint _ _ _ => 18
  | ExecutionMode_InputPoints => 19 | ExecutionMode_InputLines => 20
  | ExecutionMode_InputLinesAdjacency => 21 | ExecutionMode_Triangles => 22
  | ExecutionMode_InputTrianglesAdjacency => 23 | ExecutionMode_Quads => 24
  | ExecutionMode_Isolines => 25 | ExecutionMode_OutputVerticies _ => 26
  | ExecutionMode_OutputPoints => 27 | ExecutionMode_OutputLineStrip => 28
  | ExecutionMode_OutputTriangleStrip => 29 | ExecutionMode_VecTypeHint _ => 30
  | ExecutionMode_ContractionOff => 31
  end.

(** SPIR-V 3.7 Storage Class *)
Definition storage_class_number (x : StorageClass) : N :=
  match x with
  | StorageClass_UniformConstant => 0 | StorageClass_Input => 1 | StorageClass_Uniform => 2
  | StorageClass_Output => 3 | StorageClass_Workgroup => 4 | StorageClass_CrossWorkgroup => 5
  | StorageClass_Private => 6 | StorageClass_Function => 7 | StorageClass_Generic => 8
  | StorageClass_PushConstant => 9 | StorageClass_AtomicCounter => 10 | StorageClass_Image => 11
  end.

(** SPIR-V 3.8 Dim *)
Definition dim_number (x : Dim) : N :=
  match x with
  | Dim_Tex1D => 0 | Dim_Tex2D => 1 | Dim_Tex3D => 2 | Dim_Cube => 3 | Dim_Rect => 4
  | Dim_Buffer => 5 | Dim_SubpassData => 6
  end.

(** SPIR-V 3.11 Image Format *)
Definition image_format_number (x : ImageFormat) : N :=
  match x with
  | ImageFormat_Unknown => 0 | ImageFormat_Rgba32f => 1 | ImageFormat_Rgba16f => 2 | ImageFormat_R32f => 3
  | ImageFormat_Rgba8 => 4 | ImageFormat_Rgba8Snorm => 5 | ImageFormat_Rg32f => 6 | ImageFormat_Rg16f => 7
  | ImageFormat_R11fG11fB10f => 8 | ImageFormat_R16f => 9 | ImageFormat_Rgba16 => 10 | ImageFormat_Rgb10A2 => 11
  | ImageFormat_Rg16 => 12 | ImageFormat_Rg8 => 13 | ImageFormat_R16 => 14 | ImageFormat_R8 => 15
  | ImageFormat_Rgba16Snorm => 16 | ImageFormat_Rg16Snorm => 17 | ImageFormat_Rg8Snorm => 18
  | ImageFormat_R16Snorm => 19 | ImageFormat_R8Snorm => 20 | ImageFormat_Rgba32i => 21
  | ImageFormat_Rgba16i => 22 | ImageFormat_Rgba8i => 23 | ImageFormat_R32i => 24 | ImageFormat_Rg32i => 25
  | ImageFormat_Rg16i => 26 | ImageFormat_Rg8i => 27 | ImageFormat_R16i => 28 | ImageFormat_R8i => 29
  | ImageFormat_Rgba32ui => 30 | ImageFormat_Rgba16ui => 31 | ImageFormat_Rgba8ui => 32
  | ImageFormat_R32ui => 33 | ImageFormat_Rgb10a2ui => 34 | ImageFormat_Rg32ui => 35
  | ImageFormat_Rg16ui => 36 | ImageFormat_Rg8ui => 37 | ImageFormat_R16ui => 38 | ImageFormat_R8ui => 39
  end.

(** SPIR-V 3.17 FP Rounding Mode *)
Definition fp_rounding_mode_number (x : FpRoundingMode) : N :=
  match x with FpRoundingMode_Rte => 0 | FpRoundingMode_Rtz => 1 | FpRoundingMode_Rtp => 2 | FpRoundingMode_Rtn => 3 end.

(** SPIR-V 3.18 Linkage Type *)
Definition linkage_type_number (x : LinkageType) : N :=
  match x with LinkageType_Export => 0 | LinkageType_Import => 1 end.

(** SPIR-V 3.19 Access Qualifier *)
Definition access_qualifier_number (x : AccessQualifier) : N :=
  match x with AccessQualifier_ReadOnly => 0 | AccessQualifier_WriteOnly => 1 | AccessQualifier_ReadWrite => 2 end.

(** SPIR-V 3.20 Function Parameter Attribute *)
Definition function_parameter_attribute_number (x : FunctionParameterAttribute) : N :=
  match x with
  | FunctionParameterAttribute_Zext => 0 | FunctionParameterAttribute_Sext => 1
  | FunctionParameterAttribute_ByVal => 2 | FunctionParameterAttribute_Sret => 3
  | FunctionParameterAttribute_NoAlias => 4 | FunctionParameterAttribute_NoCapture => 5
  | FunctionParameterAttribute_NoWrite => 6 | FunctionParameterAttribute_NoReadWrite => 7
  end.

(** SPIR-V 3.20 Decoration *)
Definition decoration_number (x : Decoration) : N :=
  match x with
  | Decoration_RelaxedPrecision => 0 | Decoration_SpecId _ => 1 | Decoration_Block => 2
  | Decoration_BufferBlock => 3 | Decoration_RowMajor => 4 | Decoration_ColMajor => 5
  | Decoration_ArrayStride _ => 6 | Decoration_MatrixStride _ => 7 | Decoration_GlslShared => 8
  | Decoration_GlslPacked => 9 | Decoration_CPacked => 10 | Decoration_BuiltIn _ => 11
  | Decoration_NoPerspective => 13 | Decoration_Flat => 14 | Decoration_Patch => 15
  | Decoration_Centroid => 16 | Decoration_Sample => 17 | Decoration_Invariant => 18
  | Decoration_Restrict => 19 | Decoration_Aliased => 20 | Decoration_Volatile => 21
  | Decoration_Constant => 22 | Decoration_Coherent => 23 | Decoration_NonWritable => 24
  | Decoration_NonReadable => 25 | Decoration_Uniform => 26 | Decoration_SaturatedConversion => 28
  | Decoration_Stream _ => 29 | Decoration_Location _ => 30 | Decoration_Component _ => 31
  | Decoration_Index _ => 32 | Decoration_Binding _ => 33 | Decoration_DescriptorSet _ => 34
  | Decoration_Offset _ => 35 | Decoration_XfbBuffer _ => 36 | Decoration_XfbStride _ => 37
  | Decoration_FuncParamAttr _ => 38 | Decoration_FpRoundingMode _ => 39
  | Decoration_FpFastMathMode _ => 40 | Decoration_LinkageAttributes _ _ => 41
  | Decoration_NoContraction => 42 | Decoration_InputAttachmentIndex _ => 43 | Decoration_Alignment _ => 44
  end.

(** SPIR-V 3.21 BuiltIn *)
Definition built_in_number (x : BuiltIn) : N :=
  match x with
  | BuiltIn_Position => 0 | BuiltIn_PointSize => 1 | BuiltIn_ClipDistance => 3 | BuiltIn_CullDistance => 4
  | BuiltIn_VertexId => 5 | BuiltIn_InstanceId => 6 | BuiltIn_PrimitiveId => 7 | BuiltIn_InvocationId => 8
  | BuiltIn_Layer => 9 | BuiltIn_ViewportIndex => 10 | BuiltIn_TessLevelOuter => 11
  | BuiltIn_TessLevelInner => 12 | BuiltIn_TessCoord => 13 | BuiltIn_PatchVerticies => 14
  | BuiltIn_FragCoord => 15 | BuiltIn_PointCoord => 16 | BuiltIn_FrontFacing => 17 | BuiltIn_SampleId => 18
  | BuiltIn_SamplePosition => 19 | BuiltIn_SampleMask => 20 | BuiltIn_FragDepth => 22
  | BuiltIn_HelperInvocation => 23 | BuiltIn_NumWorkgroups => 24 | BuiltIn_WorkgroupSize => 25
  | BuiltIn_WorkgroupId => 26 | BuiltIn_LocalInvocationId => 27 | BuiltIn_GlobalInvocationId => 28
  | BuiltIn_LocalInvocationIndex => 29 | BuiltIn_WorkDim => 30 | BuiltIn_GlobalSize => 31
  | BuiltIn_EnqueuedWorkgroupSize => 32 | BuiltIn_GlobalOffset => 33 | BuiltIn_GlobalLinearId => 34
  | BuiltIn_SubgroupSize => 36 | BuiltIn_SubgroupMaxSize => 37 | BuiltIn_NumSubgroups => 38
  | BuiltIn_NumEnqueuedSubgroups => 39 | BuiltIn_SubgroupId => 40
  | BuiltIn_SubgroupLocalInvocationId => 41 | BuiltIn_VertexIndex => 42 | BuiltIn_InstanceIndex => 43
  end.

(** SPIR-V 3.31 Capability *)
Definition capability_number (x : Capability) : N :=
  match x with
  | Capability_Matrix => 0 | Capability_Shader => 1 | Capability_Geometry => 2 | Capability_Tessellation => 3
  | Capability_Addresses => 4 | Capability_Linkage => 5 | Capability_Kernel => 6 | Capability_Vector16 => 7
  | Capability_Float16Buffer => 8 | Capability_Float16 => 9 | Capability_Float64 => 10 | Capability_Int64 => 11
  | Capability_Int64Atomics => 12 | Capability_ImageBasic => 13 | Capability_ImageReadWrite => 14
  | Capability_ImageMipmap => 15 | Capability_Pipes => 17 | Capability_Groups => 18
  | Capability_DeviceEnqueue => 19 | Capability_LiteralSampler => 20 | Capability_AtomicStorage => 21
  | Capability_Int16 => 22 | Capability_TessellationPointSize => 23 | Capability_GeometryPointSize => 24
  | Capability_ImageGatherExtended => 25 | Capability_StorageImageMultisample => 27
  | Capability_UniformBufferArrayDynamicIndexing => 28 | Capability_SampledImageArrayDynamicIndexing => 29
  | Capability_StorageBufferArrayDynamicIndexing => 30 | Capability_StorageImageArrayDynamicIndexing => 31
  | Capability_ClipDistance => 32 | Capability_CullDistance => 33 | Capability_ImageCubeArray => 34
  | Capability_SampleRateShading => 35 | Capability_ImageRect => 36 | Capability_SampledRect => 37
  | Capability_GenericPointer => 38 | Capability_Int8 => 39 | Capability_InputAttachment => 40
  | Capability_SparseResidency => 41 | Capability_MinLod => 42 | Capability_Sampled1D => 43
  | Capability_Image1D => 44 | Capability_SampledCubeArray => 45 | Capability_SampledBuffer => 46
  | Capability_ImageBuffer => 47 | Capability_ImageMSArray => 48
  | Capability_StorageImageExtendedFormats => 49 | Capability_ImageQuery => 50
  | Capability_DerivativeControl => 51 | Capability_InterpolationFunction => 52
  | Capability_TransformFeedback => 53 | Capability_GeometryStreams => 54
  | Capability_StorageImageReadWithoutFormat => 55 | Capability_StorageImageWriteWithoutFormat => 56
  | Capability_MultiViewport => 57
  end.

(** OpTypeInt Signedness; OpTypeImage Depth, Arrayed, MS, Sampled *)
Definition signedness_number (x : Signedness) : N :=
  match x with Signedness_UnsignedOrNone => 0 | Signedness_Signed => 1 end.
Definition depth_number (x : DepthStatus) : N :=
  match x with DepthStatus_NotDepth => 0 | DepthStatus_Depth => 1 | DepthStatus_NoIndication => 2 end.
Definition arrayed_number (x : Arrayed) : N := match x with Arrayed_False => 0 | Arrayed_True => 1 end.
Definition ms_number (x : MS) : N := match x with MS_Single => 0 | MS_Multi => 1 end.
Definition sampled_number (x : SampledStatus) : N :=
  match x with
  | SampledStatus_RuntimeChoice => 0 | SampledStatus_WithSampler => 1 | SampledStatus_WithoutSampler => 2
  end.

(** The Khronos registry of generator ids *)
Definition tool_number (x : Tool) : N :=
  match x with
  | Tool_KhronosReserved => 0 | Tool_LunarG => 1 | Tool_Valve => 2 | Tool_Codeplay => 3 | Tool_Nvidia => 4
  | Tool_Arm => 5 | Tool_KhronosLLvmTranslator => 6 | Tool_KhronosAssembler => 7 | Tool_KhronosGlslang => 8
  | Tool_Qualcomm => 9 | Tool_Amd => 10 | Tool_Intel => 11 | Tool_Other n => n
  end.

(** A flag contributes its bit when set. *)
Definition bit (b : bool) (value : N) : N := if b then value else 0.

(** SPIR-V 3.15 FP Fast Math Mode *)
Definition fp_fast_math_bits (x : FpFastMathMode) : N :=
  bit (FpFastMathMode_not_nan x) 1 + bit (FpFastMathMode_not_inf x) 2 + bit (FpFastMathMode_nsz x) 4
  + bit (FpFastMathMode_allow_recip x) 8 + bit (FpFastMathMode_fast x) 16.
(** SPIR-V 3.26 Memory Access *)
Definition memory_access_bits (x : MemoryAccess) : N :=
  bit (MemoryAccess_volatile x) 1 + bit (MemoryAccess_aligned x) 2 + bit (MemoryAccess_non_temporal x) 4.
(** SPIR-V 3.24 Function Control *)
Definition function_control_bits (x : FunctionControl) : N :=
  bit (FunctionControl_inline x) 1 + bit (FunctionControl_dont_inline x) 2
  + bit (FunctionControl_pure_function x) 4 + bit (FunctionControl_const_function x) 8.
(** SPIR-V 3.23 Loop Control (with DependencyInfinite 4 and DependencyLength 8 of SPIR-V 1.1) *)
Definition loop_control_bits (x : LoopControl) : N :=
  bit (LoopControl_unroll x) 1 + bit (LoopControl_dont_unroll x) 2
  + bit (LoopControl_dependency_infinite x) 4
  + match LoopControl_dependency_length x with Some _ => 8 | None => 0 end.
(** SPIR-V 3.22 Selection Control *)
Definition selection_control_bits (x : SelectionControl) : N :=
  bit (SelectionControl_flatten x) 1 + bit (SelectionControl_dont_flatten x) 2.

(** The opcode of an instruction, SPIR-V 3.32 *)
Definition opcode {E} (i : Core E) : N :=
  match i with
  | Core_OpNop _ => 0 | Core_OpUndef _ => 1 | Core_OpSourceContinued _ => 2 | Core_OpSource _ => 3
  | Core_OpSourceExtension _ => 4 | Core_OpName _ => 5 | Core_OpMemberName _ => 6 | Core_OpString _ => 7
  | Core_OpExtension _ => 10 | Core_OpExtInstImport _ => 11 | Core_OpExtInst _ => 12
  | Core_OpMemoryModel _ => 14 | Core_OpEntryPoint _ => 15 | Core_OpExecutionMode _ => 16
  | Core_OpCapability _ => 17 | Core_OpTypeVoid _ => 19 | Core_OpTypeBool _ => 20 | Core_OpTypeInt _ => 21
  | Core_OpTypeFloat _ => 22 | Core_OpTypeVector _ => 23 | Core_OpTypeMatrix _ => 24
  | Core_OpTypeImage _ => 25 | Core_OpTypeSampler _ => 26 | Core_OpTypeSampledImage _ => 27
  | Core_OpTypeArray _ => 28 | Core_OpTypeRuntimeArray _ => 29 | Core_OpTypeStruct _ => 30
  | Core_OpTypeOpaque _ => 31 | Core_OpTypePointer _ => 32 | Core_OpTypeFunction _ => 33
  | Core_OpTypeEvent _ => 34 | Core_OpTypeDeviceEvent _ => 35 | Core_OpTypeQueue _ => 37
  | Core_OpTypePipe _ => 38 | Core_OpTypeForwardPointer _ => 39 | Core_OpConstant _ => 43
  | Core_OpConstantComposite _ => 44 | Core_OpFunction _ => 54 | Core_OpFunctionParameter _ => 55
  | Core_OpFunctionEnd _ => 56 | Core_OpVariable _ => 59 | Core_OpLoad _ => 61 | Core_OpStore _ => 62
  | Core_OpAccessChain _ => 65 | Core_OpDecorate _ => 71 | Core_OpMemberDecorate _ => 72
  | Core_OpConvertUToF _ => 112 | Core_OpBitcast _ => 124
  | Core_OpIAdd _ => 128 | Core_OpFAdd _ => 129 | Core_OpISub _ => 130 | Core_OpFSub _ => 131
  | Core_OpIMul _ => 132 | Core_OpFMul _ => 133 | Core_OpUDiv _ => 134 | Core_OpSDiv _ => 135
  | Core_OpFDiv _ => 136 | Core_OpUMod _ => 137 | Core_OpSRem _ => 138 | Core_OpSMod _ => 139
  | Core_OpFRem _ => 140 | Core_OpFMod _ => 141 | Core_OpIAddCarry _ => 149 | Core_OpISubBorrow _ => 150
  | Core_OpUMulExtended _ => 151 | Core_OpSMulExtended _ => 152
  | Core_OpIEqual _ => 170 | Core_OpINotEqual _ => 171 | Core_OpUGreaterThan _ => 172
  | Core_OpSGreaterThan _ => 173 | Core_OpUGreaterThanEqual _ => 174 | Core_OpSGreaterThanEqual _ => 175
  | Core_OpULessThan _ => 176 | Core_OpSLessThan _ => 177 | Core_OpULessThanEqual _ => 178
  | Core_OpSLessThanEqual _ => 179 | Core_OpFOrdEqual _ => 180 | Core_OpFUnordEqual _ => 181
  | Core_OpFOrdNotEqual _ => 182 | Core_OpFUnordNotEqual _ => 183 | Core_OpFOrdLessThan _ => 184
  | Core_OpFUnordLessThan _ => 185 | Core_OpFOrdGreaterThan _ => 186 | Core_OpFUnordGreaterThan _ => 187
  | Core_OpFOrdLessThanEqual _ => 188 | Core_OpFUnordLessThanEqual _ => 189
  | Core_OpFOrdGreaterThanEqual _ => 190 | Core_OpFUnordGreaterThanEqual _ => 191
  | Core_OpBitwiseOr _ => 197 | Core_OpBitwiseXor _ => 198 | Core_OpBitwiseAnd _ => 199
  | Core_OpPhi _ => 245 | Core_OpLoopMerge _ => 246 | Core_OpSelectionMerge _ => 247 | Core_OpLabel _ => 248
  | Core_OpBranch _ => 249 | Core_OpBranchConditional _ => 250 | Core_OpReturn _ => 253
  end.

(** The five instruction types the crate can represent and validate but does not read. *)
Definition readable {E} (i : Core E) : Prop :=
  match i with
  | Core_OpTypeEvent _ | Core_OpTypeDeviceEvent _ | Core_OpTypeQueue _ | Core_OpTypePipe _
  | Core_OpTypeForwardPointer _ => False
  | _ => True
  end.
