(* GENERATED by tools/gen.py from /repo; do not edit by hand. *)
From Verif Require Import Base Types Ops ReadErr Groups EqBase.

(** derive(PartialEq), type by type.  [eq_ext] is ExtInst::eq of extended instructions. *)

(* src/spv/types.rs:29-31 *)
Definition eq_Version (a b : Version) : bool := N.eqb (Version_0 a) (Version_0 b) && N.eqb (Version_1 a) (Version_1 b).

(* src/spv/types.rs:41-56 *)
Definition eq_Tool (a b : Tool) : bool :=
  match a, b with
  | Tool_KhronosReserved, Tool_KhronosReserved => true
  | Tool_LunarG, Tool_LunarG => true
  | Tool_Valve, Tool_Valve => true
  | Tool_Codeplay, Tool_Codeplay => true
  | Tool_Nvidia, Tool_Nvidia => true
  | Tool_Arm, Tool_Arm => true
  | Tool_KhronosLLvmTranslator, Tool_KhronosLLvmTranslator => true
  | Tool_KhronosAssembler, Tool_KhronosAssembler => true
  | Tool_KhronosGlslang, Tool_KhronosGlslang => true
  | Tool_Qualcomm, Tool_Qualcomm => true
  | Tool_Amd, Tool_Amd => true
  | Tool_Intel, Tool_Intel => true
  | Tool_Other x0, Tool_Other y0 => N.eqb x0 y0
  | _, _ => false
  end.

(* src/spv/types.rs:88-96 *)
Definition eq_SourceLanguage (a b : SourceLanguage) : bool :=
  match a, b with
  | SourceLanguage_Unknown, SourceLanguage_Unknown => true
  | SourceLanguage_Essl, SourceLanguage_Essl => true
  | SourceLanguage_Glsl, SourceLanguage_Glsl => true
  | SourceLanguage_OpenCL_C, SourceLanguage_OpenCL_C => true
  | SourceLanguage_OpenCL_Cpp, SourceLanguage_OpenCL_Cpp => true
  | SourceLanguage_Other x0, SourceLanguage_Other y0 => N.eqb x0 y0
  | _, _ => false
  end.

(* src/spv/types.rs:260-303 *)
Definition eq_BuiltIn (a b : BuiltIn) : bool :=
  match a, b with
  | BuiltIn_Position, BuiltIn_Position => true
  | BuiltIn_PointSize, BuiltIn_PointSize => true
  | BuiltIn_ClipDistance, BuiltIn_ClipDistance => true
  | BuiltIn_CullDistance, BuiltIn_CullDistance => true
  | BuiltIn_VertexId, BuiltIn_VertexId => true
  | BuiltIn_InstanceId, BuiltIn_InstanceId => true
  | BuiltIn_PrimitiveId, BuiltIn_PrimitiveId => true
  | BuiltIn_InvocationId, BuiltIn_InvocationId => true
  | BuiltIn_Layer, BuiltIn_Layer => true
  | BuiltIn_ViewportIndex, BuiltIn_ViewportIndex => true
  | BuiltIn_TessLevelOuter, BuiltIn_TessLevelOuter => true
  | BuiltIn_TessLevelInner, BuiltIn_TessLevelInner => true
  | BuiltIn_TessCoord, BuiltIn_TessCoord => true
  | BuiltIn_PatchVerticies, BuiltIn_PatchVerticies => true
  | BuiltIn_FragCoord, BuiltIn_FragCoord => true
  | BuiltIn_PointCoord, BuiltIn_PointCoord => true
  | BuiltIn_FrontFacing, BuiltIn_FrontFacing => true
  | BuiltIn_SampleId, BuiltIn_SampleId => true
  | BuiltIn_SamplePosition, BuiltIn_SamplePosition => true
  | BuiltIn_SampleMask, BuiltIn_SampleMask => true
  | BuiltIn_FragDepth, BuiltIn_FragDepth => true
  | BuiltIn_HelperInvocation, BuiltIn_HelperInvocation => true
  | BuiltIn_NumWorkgroups, BuiltIn_NumWorkgroups => true
  | BuiltIn_WorkgroupSize, BuiltIn_WorkgroupSize => true
  | BuiltIn_WorkgroupId, BuiltIn_WorkgroupId => true
  | BuiltIn_LocalInvocationId, BuiltIn_LocalInvocationId => true
  | BuiltIn_GlobalInvocationId, BuiltIn_GlobalInvocationId => true
  | BuiltIn_LocalInvocationIndex, BuiltIn_LocalInvocationIndex => true
  | BuiltIn_WorkDim, BuiltIn_WorkDim => true
  | BuiltIn_GlobalSize, BuiltIn_GlobalSize => true
  | BuiltIn_EnqueuedWorkgroupSize, BuiltIn_EnqueuedWorkgroupSize => true
  | BuiltIn_GlobalOffset, BuiltIn_GlobalOffset => true
  | BuiltIn_GlobalLinearId, BuiltIn_GlobalLinearId => true
  | BuiltIn_SubgroupSize, BuiltIn_SubgroupSize => true
  | BuiltIn_SubgroupMaxSize, BuiltIn_SubgroupMaxSize => true
  | BuiltIn_NumSubgroups, BuiltIn_NumSubgroups => true
  | BuiltIn_NumEnqueuedSubgroups, BuiltIn_NumEnqueuedSubgroups => true
  | BuiltIn_SubgroupId, BuiltIn_SubgroupId => true
  | BuiltIn_SubgroupLocalInvocationId, BuiltIn_SubgroupLocalInvocationId => true
  | BuiltIn_VertexIndex, BuiltIn_VertexIndex => true
  | BuiltIn_InstanceIndex, BuiltIn_InstanceIndex => true
  | _, _ => false
  end.

(* src/spv/types.rs:781-791 *)
Definition eq_FunctionParameterAttribute (a b : FunctionParameterAttribute) : bool :=
  match a, b with
  | FunctionParameterAttribute_Zext, FunctionParameterAttribute_Zext => true
  | FunctionParameterAttribute_Sext, FunctionParameterAttribute_Sext => true
  | FunctionParameterAttribute_ByVal, FunctionParameterAttribute_ByVal => true
  | FunctionParameterAttribute_Sret, FunctionParameterAttribute_Sret => true
  | FunctionParameterAttribute_NoAlias, FunctionParameterAttribute_NoAlias => true
  | FunctionParameterAttribute_NoCapture, FunctionParameterAttribute_NoCapture => true
  | FunctionParameterAttribute_NoWrite, FunctionParameterAttribute_NoWrite => true
  | FunctionParameterAttribute_NoReadWrite, FunctionParameterAttribute_NoReadWrite => true
  | _, _ => false
  end.

(* src/spv/types.rs:741-747 *)
Definition eq_FpRoundingMode (a b : FpRoundingMode) : bool :=
  match a, b with
  | FpRoundingMode_Rte, FpRoundingMode_Rte => true
  | FpRoundingMode_Rtz, FpRoundingMode_Rtz => true
  | FpRoundingMode_Rtp, FpRoundingMode_Rtp => true
  | FpRoundingMode_Rtn, FpRoundingMode_Rtn => true
  | _, _ => false
  end.

(* src/spv/types.rs:763-767 *)
Definition eq_LinkageType (a b : LinkageType) : bool :=
  match a, b with
  | LinkageType_Export, LinkageType_Export => true
  | LinkageType_Import, LinkageType_Import => true
  | _, _ => false
  end.

(* src/spv/types.rs:369-374 *)
Definition eq_AddressingModel (a b : AddressingModel) : bool :=
  match a, b with
  | AddressingModel_Logical, AddressingModel_Logical => true
  | AddressingModel_Physical32, AddressingModel_Physical32 => true
  | AddressingModel_Physical64, AddressingModel_Physical64 => true
  | _, _ => false
  end.

(* src/spv/types.rs:390-395 *)
Definition eq_MemoryModel (a b : MemoryModel) : bool :=
  match a, b with
  | MemoryModel_Simple, MemoryModel_Simple => true
  | MemoryModel_Glsl450, MemoryModel_Glsl450 => true
  | MemoryModel_OpenCL, MemoryModel_OpenCL => true
  | _, _ => false
  end.

(* src/spv/types.rs:411-420 *)
Definition eq_ExecutionModel (a b : ExecutionModel) : bool :=
  match a, b with
  | ExecutionModel_Vertex, ExecutionModel_Vertex => true
  | ExecutionModel_TesselationControl, ExecutionModel_TesselationControl => true
  | ExecutionModel_TesselationEvaluation, ExecutionModel_TesselationEvaluation => true
  | ExecutionModel_Geometry, ExecutionModel_Geometry => true
  | ExecutionModel_Fragment, ExecutionModel_Fragment => true
  | ExecutionModel_GlCompute, ExecutionModel_GlCompute => true
  | ExecutionModel_Kernel, ExecutionModel_Kernel => true
  | _, _ => false
  end.

(* src/spv/types.rs:439-472 *)
Definition eq_ExecutionMode (a b : ExecutionMode) : bool :=
  match a, b with
  | ExecutionMode_Invocations x0, ExecutionMode_Invocations y0 => N.eqb x0 y0
  | ExecutionMode_SpacingEqual, ExecutionMode_SpacingEqual => true
  | ExecutionMode_SpacingFractionalEven, ExecutionMode_SpacingFractionalEven => true
  | ExecutionMode_SpacingFractionalOdd, ExecutionMode_SpacingFractionalOdd => true
  | ExecutionMode_VertexOrderCw, ExecutionMode_VertexOrderCw => true
  | ExecutionMode_VertexOrderCcw, ExecutionMode_VertexOrderCcw => true
  | ExecutionMode_PixelCenterInteger, ExecutionMode_PixelCenterInteger => true
  | ExecutionMode_OriginUpperLeft, ExecutionMode_OriginUpperLeft => true
  | ExecutionMode_OriginLowerLeft, ExecutionMode_OriginLowerLeft => true
  | ExecutionMode_EarlyFragmentTests, ExecutionMode_EarlyFragmentTests => true
  | ExecutionMode_PointMode, ExecutionMode_PointMode => true
  | ExecutionMode_Xfb, ExecutionMode_Xfb => true
  | ExecutionMode_DepthReplacing, ExecutionMode_DepthReplacing => true
  | ExecutionMode_DepthGreater, ExecutionMode_DepthGreater => true
  | ExecutionMode_DepthLess, ExecutionMode_DepthLess => true
  | ExecutionMode_DepthUnchanged, ExecutionMode_DepthUnchanged => true
  | ExecutionMode_LocalSize x0 x1 x2, ExecutionMode_LocalSize y0 y1 y2 => N.eqb x0 y0 && N.eqb x1 y1 && N.eqb x2 y2
  | ExecutionMode_LocalSizeHint x0 x1 x2, ExecutionMode_LocalSizeHint y0 y1 y2 => N.eqb x0 y0 && N.eqb x1 y1 && N.eqb x2 y2
  | ExecutionMode_InputPoints, ExecutionMode_InputPoints => true
  | ExecutionMode_InputLines, ExecutionMode_InputLines => true
  | ExecutionMode_InputLinesAdjacency, ExecutionMode_InputLinesAdjacency => true
  | ExecutionMode_Triangles, ExecutionMode_Triangles => true
  | ExecutionMode_InputTrianglesAdjacency, ExecutionMode_InputTrianglesAdjacency => true
  | ExecutionMode_Quads, ExecutionMode_Quads => true
  | ExecutionMode_Isolines, ExecutionMode_Isolines => true
  | ExecutionMode_OutputVerticies x0, ExecutionMode_OutputVerticies y0 => N.eqb x0 y0
  | ExecutionMode_OutputPoints, ExecutionMode_OutputPoints => true
  | ExecutionMode_OutputLineStrip, ExecutionMode_OutputLineStrip => true
  | ExecutionMode_OutputTriangleStrip, ExecutionMode_OutputTriangleStrip => true
  | ExecutionMode_VecTypeHint x0, ExecutionMode_VecTypeHint y0 => N.eqb x0 y0
  | ExecutionMode_ContractionOff, ExecutionMode_ContractionOff => true
  | _, _ => false
  end.

(* src/spv/types.rs:522-580 *)
Definition eq_Capability (a b : Capability) : bool :=
  match a, b with
  | Capability_Matrix, Capability_Matrix => true
  | Capability_Shader, Capability_Shader => true
  | Capability_Geometry, Capability_Geometry => true
  | Capability_Tessellation, Capability_Tessellation => true
  | Capability_Addresses, Capability_Addresses => true
  | Capability_Linkage, Capability_Linkage => true
  | Capability_Kernel, Capability_Kernel => true
  | Capability_Vector16, Capability_Vector16 => true
  | Capability_Float16Buffer, Capability_Float16Buffer => true
  | Capability_Float16, Capability_Float16 => true
  | Capability_Float64, Capability_Float64 => true
  | Capability_Int64, Capability_Int64 => true
  | Capability_Int64Atomics, Capability_Int64Atomics => true
  | Capability_ImageBasic, Capability_ImageBasic => true
  | Capability_ImageReadWrite, Capability_ImageReadWrite => true
  | Capability_ImageMipmap, Capability_ImageMipmap => true
  | Capability_Pipes, Capability_Pipes => true
  | Capability_Groups, Capability_Groups => true
  | Capability_DeviceEnqueue, Capability_DeviceEnqueue => true
  | Capability_LiteralSampler, Capability_LiteralSampler => true
  | Capability_AtomicStorage, Capability_AtomicStorage => true
  | Capability_Int16, Capability_Int16 => true
  | Capability_TessellationPointSize, Capability_TessellationPointSize => true
  | Capability_GeometryPointSize, Capability_GeometryPointSize => true
  | Capability_ImageGatherExtended, Capability_ImageGatherExtended => true
  | Capability_StorageImageMultisample, Capability_StorageImageMultisample => true
  | Capability_UniformBufferArrayDynamicIndexing, Capability_UniformBufferArrayDynamicIndexing => true
  | Capability_SampledImageArrayDynamicIndexing, Capability_SampledImageArrayDynamicIndexing => true
  | Capability_StorageBufferArrayDynamicIndexing, Capability_StorageBufferArrayDynamicIndexing => true
  | Capability_StorageImageArrayDynamicIndexing, Capability_StorageImageArrayDynamicIndexing => true
  | Capability_ClipDistance, Capability_ClipDistance => true
  | Capability_CullDistance, Capability_CullDistance => true
  | Capability_ImageCubeArray, Capability_ImageCubeArray => true
  | Capability_SampleRateShading, Capability_SampleRateShading => true
  | Capability_ImageRect, Capability_ImageRect => true
  | Capability_SampledRect, Capability_SampledRect => true
  | Capability_GenericPointer, Capability_GenericPointer => true
  | Capability_Int8, Capability_Int8 => true
  | Capability_InputAttachment, Capability_InputAttachment => true
  | Capability_SparseResidency, Capability_SparseResidency => true
  | Capability_MinLod, Capability_MinLod => true
  | Capability_Sampled1D, Capability_Sampled1D => true
  | Capability_Image1D, Capability_Image1D => true
  | Capability_SampledCubeArray, Capability_SampledCubeArray => true
  | Capability_SampledBuffer, Capability_SampledBuffer => true
  | Capability_ImageBuffer, Capability_ImageBuffer => true
  | Capability_ImageMSArray, Capability_ImageMSArray => true
  | Capability_StorageImageExtendedFormats, Capability_StorageImageExtendedFormats => true
  | Capability_ImageQuery, Capability_ImageQuery => true
  | Capability_DerivativeControl, Capability_DerivativeControl => true
  | Capability_InterpolationFunction, Capability_InterpolationFunction => true
  | Capability_TransformFeedback, Capability_TransformFeedback => true
  | Capability_GeometryStreams, Capability_GeometryStreams => true
  | Capability_StorageImageReadWithoutFormat, Capability_StorageImageReadWithoutFormat => true
  | Capability_StorageImageWriteWithoutFormat, Capability_StorageImageWriteWithoutFormat => true
  | Capability_MultiViewport, Capability_MultiViewport => true
  | _, _ => false
  end.

(* src/spv/types.rs:648-652 *)
Definition eq_Signedness (a b : Signedness) : bool :=
  match a, b with
  | Signedness_UnsignedOrNone, Signedness_UnsignedOrNone => true
  | Signedness_Signed, Signedness_Signed => true
  | _, _ => false
  end.

(* src/spv/types.rs:666-680 *)
Definition eq_StorageClass (a b : StorageClass) : bool :=
  match a, b with
  | StorageClass_UniformConstant, StorageClass_UniformConstant => true
  | StorageClass_Input, StorageClass_Input => true
  | StorageClass_Uniform, StorageClass_Uniform => true
  | StorageClass_Output, StorageClass_Output => true
  | StorageClass_Workgroup, StorageClass_Workgroup => true
  | StorageClass_CrossWorkgroup, StorageClass_CrossWorkgroup => true
  | StorageClass_Private, StorageClass_Private => true
  | StorageClass_Function, StorageClass_Function => true
  | StorageClass_Generic, StorageClass_Generic => true
  | StorageClass_PushConstant, StorageClass_PushConstant => true
  | StorageClass_AtomicCounter, StorageClass_AtomicCounter => true
  | StorageClass_Image, StorageClass_Image => true
  | _, _ => false
  end.

(* src/spv/types.rs:812-821 *)
Definition eq_Dim (a b : Dim) : bool :=
  match a, b with
  | Dim_Tex1D, Dim_Tex1D => true
  | Dim_Tex2D, Dim_Tex2D => true
  | Dim_Tex3D, Dim_Tex3D => true
  | Dim_Cube, Dim_Cube => true
  | Dim_Rect, Dim_Rect => true
  | Dim_Buffer, Dim_Buffer => true
  | Dim_SubpassData, Dim_SubpassData => true
  | _, _ => false
  end.

(* src/spv/types.rs:841-846 *)
Definition eq_DepthStatus (a b : DepthStatus) : bool :=
  match a, b with
  | DepthStatus_NotDepth, DepthStatus_NotDepth => true
  | DepthStatus_Depth, DepthStatus_Depth => true
  | DepthStatus_NoIndication, DepthStatus_NoIndication => true
  | _, _ => false
  end.

(* src/spv/types.rs:862-866 *)
Definition eq_Arrayed (a b : Arrayed) : bool :=
  match a, b with
  | Arrayed_False, Arrayed_False => true
  | Arrayed_True, Arrayed_True => true
  | _, _ => false
  end.

(* src/spv/types.rs:881-885 *)
Definition eq_MS (a b : MS) : bool :=
  match a, b with
  | MS_Single, MS_Single => true
  | MS_Multi, MS_Multi => true
  | _, _ => false
  end.

(* src/spv/types.rs:900-905 *)
Definition eq_SampledStatus (a b : SampledStatus) : bool :=
  match a, b with
  | SampledStatus_RuntimeChoice, SampledStatus_RuntimeChoice => true
  | SampledStatus_WithSampler, SampledStatus_WithSampler => true
  | SampledStatus_WithoutSampler, SampledStatus_WithoutSampler => true
  | _, _ => false
  end.

(* src/spv/types.rs:921-963 *)
Definition eq_ImageFormat (a b : ImageFormat) : bool :=
  match a, b with
  | ImageFormat_Unknown, ImageFormat_Unknown => true
  | ImageFormat_Rgba32f, ImageFormat_Rgba32f => true
  | ImageFormat_Rgba16f, ImageFormat_Rgba16f => true
  | ImageFormat_R32f, ImageFormat_R32f => true
  | ImageFormat_Rgba8, ImageFormat_Rgba8 => true
  | ImageFormat_Rgba8Snorm, ImageFormat_Rgba8Snorm => true
  | ImageFormat_Rg32f, ImageFormat_Rg32f => true
  | ImageFormat_Rg16f, ImageFormat_Rg16f => true
  | ImageFormat_R11fG11fB10f, ImageFormat_R11fG11fB10f => true
  | ImageFormat_R16f, ImageFormat_R16f => true
  | ImageFormat_Rgba16, ImageFormat_Rgba16 => true
  | ImageFormat_Rgb10A2, ImageFormat_Rgb10A2 => true
  | ImageFormat_Rg16, ImageFormat_Rg16 => true
  | ImageFormat_Rg8, ImageFormat_Rg8 => true
  | ImageFormat_R16, ImageFormat_R16 => true
  | ImageFormat_R8, ImageFormat_R8 => true
  | ImageFormat_Rgba16Snorm, ImageFormat_Rgba16Snorm => true
  | ImageFormat_Rg16Snorm, ImageFormat_Rg16Snorm => true
  | ImageFormat_Rg8Snorm, ImageFormat_Rg8Snorm => true
  | ImageFormat_R16Snorm, ImageFormat_R16Snorm => true
  | ImageFormat_R8Snorm, ImageFormat_R8Snorm => true
  | ImageFormat_Rgba32i, ImageFormat_Rgba32i => true
  | ImageFormat_Rgba16i, ImageFormat_Rgba16i => true
  | ImageFormat_Rgba8i, ImageFormat_Rgba8i => true
  | ImageFormat_R32i, ImageFormat_R32i => true
  | ImageFormat_Rg32i, ImageFormat_Rg32i => true
  | ImageFormat_Rg16i, ImageFormat_Rg16i => true
  | ImageFormat_Rg8i, ImageFormat_Rg8i => true
  | ImageFormat_R16i, ImageFormat_R16i => true
  | ImageFormat_R8i, ImageFormat_R8i => true
  | ImageFormat_Rgba32ui, ImageFormat_Rgba32ui => true
  | ImageFormat_Rgba16ui, ImageFormat_Rgba16ui => true
  | ImageFormat_Rgba8ui, ImageFormat_Rgba8ui => true
  | ImageFormat_R32ui, ImageFormat_R32ui => true
  | ImageFormat_Rgb10a2ui, ImageFormat_Rgb10a2ui => true
  | ImageFormat_Rg32ui, ImageFormat_Rg32ui => true
  | ImageFormat_Rg16ui, ImageFormat_Rg16ui => true
  | ImageFormat_Rg8ui, ImageFormat_Rg8ui => true
  | ImageFormat_R16ui, ImageFormat_R16ui => true
  | ImageFormat_R8ui, ImageFormat_R8ui => true
  | _, _ => false
  end.

(* src/spv/types.rs:1015-1020 *)
Definition eq_AccessQualifier (a b : AccessQualifier) : bool :=
  match a, b with
  | AccessQualifier_ReadOnly, AccessQualifier_ReadOnly => true
  | AccessQualifier_WriteOnly, AccessQualifier_WriteOnly => true
  | AccessQualifier_ReadWrite, AccessQualifier_ReadWrite => true
  | _, _ => false
  end.

(* src/spv/types.rs:34-38 *)
Definition eq_Generator (a b : Generator) : bool :=
  eq_Tool (Generator_tool a) (Generator_tool b) && N.eqb (Generator_version a) (Generator_version b).

(* src/spv/types.rs:704-711 *)
Definition eq_FpFastMathMode (a b : FpFastMathMode) : bool :=
  Bool.eqb (FpFastMathMode_not_nan a) (FpFastMathMode_not_nan b) && Bool.eqb (FpFastMathMode_not_inf a) (FpFastMathMode_not_inf b) && Bool.eqb (FpFastMathMode_nsz a) (FpFastMathMode_nsz b) && Bool.eqb (FpFastMathMode_allow_recip a) (FpFastMathMode_allow_recip b) && Bool.eqb (FpFastMathMode_fast a) (FpFastMathMode_fast b).

(* src/spv/types.rs:1106-1111 *)
Definition eq_MemoryAccess (a b : MemoryAccess) : bool :=
  Bool.eqb (MemoryAccess_volatile a) (MemoryAccess_volatile b) && Bool.eqb (MemoryAccess_aligned a) (MemoryAccess_aligned b) && Bool.eqb (MemoryAccess_non_temporal a) (MemoryAccess_non_temporal b).

(* src/spv/types.rs:1135-1141 *)
Definition eq_FunctionControl (a b : FunctionControl) : bool :=
  Bool.eqb (FunctionControl_inline a) (FunctionControl_inline b) && Bool.eqb (FunctionControl_dont_inline a) (FunctionControl_dont_inline b) && Bool.eqb (FunctionControl_pure_function a) (FunctionControl_pure_function b) && Bool.eqb (FunctionControl_const_function a) (FunctionControl_const_function b).

(* src/spv/types.rs:1168-1176 *)
Definition eq_LoopControl (a b : LoopControl) : bool :=
  Bool.eqb (LoopControl_unroll a) (LoopControl_unroll b) && Bool.eqb (LoopControl_dont_unroll a) (LoopControl_dont_unroll b) && Bool.eqb (LoopControl_dependency_infinite a) (LoopControl_dependency_infinite b) && (eq_Option N.eqb) (LoopControl_dependency_length a) (LoopControl_dependency_length b).

(* src/spv/types.rs:1203-1207 *)
Definition eq_SelectionControl (a b : SelectionControl) : bool :=
  Bool.eqb (SelectionControl_flatten a) (SelectionControl_flatten b) && Bool.eqb (SelectionControl_dont_flatten a) (SelectionControl_dont_flatten b).

(* src/spv/types.rs:1228-1232 *)
Definition eq_PhiArg (a b : PhiArg) : bool :=
  N.eqb (PhiArg_variable a) (PhiArg_variable b) && N.eqb (PhiArg_parent a) (PhiArg_parent b).

(* src/spv/types.rs:1242-1246 *)
Definition eq_BranchWeights (a b : BranchWeights) : bool :=
  N.eqb (BranchWeights_true_weight a) (BranchWeights_true_weight b) && N.eqb (BranchWeights_false_weight a) (BranchWeights_false_weight b).

(* src/spv/types.rs:151-196 *)
Definition eq_Decoration (a b : Decoration) : bool :=
  match a, b with
  | Decoration_RelaxedPrecision, Decoration_RelaxedPrecision => true
  | Decoration_SpecId x0, Decoration_SpecId y0 => N.eqb x0 y0
  | Decoration_Block, Decoration_Block => true
  | Decoration_BufferBlock, Decoration_BufferBlock => true
  | Decoration_RowMajor, Decoration_RowMajor => true
  | Decoration_ColMajor, Decoration_ColMajor => true
  | Decoration_ArrayStride x0, Decoration_ArrayStride y0 => N.eqb x0 y0
  | Decoration_MatrixStride x0, Decoration_MatrixStride y0 => N.eqb x0 y0
  | Decoration_GlslShared, Decoration_GlslShared => true
  | Decoration_GlslPacked, Decoration_GlslPacked => true
  | Decoration_CPacked, Decoration_CPacked => true
  | Decoration_BuiltIn x0, Decoration_BuiltIn y0 => eq_BuiltIn x0 y0
  | Decoration_NoPerspective, Decoration_NoPerspective => true
  | Decoration_Flat, Decoration_Flat => true
  | Decoration_Patch, Decoration_Patch => true
  | Decoration_Centroid, Decoration_Centroid => true
  | Decoration_Sample, Decoration_Sample => true
  | Decoration_Invariant, Decoration_Invariant => true
  | Decoration_Restrict, Decoration_Restrict => true
  | Decoration_Aliased, Decoration_Aliased => true
  | Decoration_Volatile, Decoration_Volatile => true
  | Decoration_Constant, Decoration_Constant => true
  | Decoration_Coherent, Decoration_Coherent => true
  | Decoration_NonWritable, Decoration_NonWritable => true
  | Decoration_NonReadable, Decoration_NonReadable => true
  | Decoration_Uniform, Decoration_Uniform => true
  | Decoration_SaturatedConversion, Decoration_SaturatedConversion => true
  | Decoration_Stream x0, Decoration_Stream y0 => N.eqb x0 y0
  | Decoration_Location x0, Decoration_Location y0 => N.eqb x0 y0
  | Decoration_Component x0, Decoration_Component y0 => N.eqb x0 y0
  | Decoration_Index x0, Decoration_Index y0 => N.eqb x0 y0
  | Decoration_Binding x0, Decoration_Binding y0 => N.eqb x0 y0
  | Decoration_DescriptorSet x0, Decoration_DescriptorSet y0 => N.eqb x0 y0
  | Decoration_Offset x0, Decoration_Offset y0 => N.eqb x0 y0
  | Decoration_XfbBuffer x0, Decoration_XfbBuffer y0 => N.eqb x0 y0
  | Decoration_XfbStride x0, Decoration_XfbStride y0 => N.eqb x0 y0
  | Decoration_FuncParamAttr x0, Decoration_FuncParamAttr y0 => eq_FunctionParameterAttribute x0 y0
  | Decoration_FpRoundingMode x0, Decoration_FpRoundingMode y0 => eq_FpRoundingMode x0 y0
  | Decoration_FpFastMathMode x0, Decoration_FpFastMathMode y0 => eq_FpFastMathMode x0 y0
  | Decoration_LinkageAttributes x0 x1, Decoration_LinkageAttributes y0 y1 => String.eqb x0 y0 && eq_LinkageType x1 y1
  | Decoration_NoContraction, Decoration_NoContraction => true
  | Decoration_InputAttachmentIndex x0, Decoration_InputAttachmentIndex y0 => N.eqb x0 y0
  | Decoration_Alignment x0, Decoration_Alignment y0 => N.eqb x0 y0
  | _, _ => false
  end.

(* src/spv/op.rs:11-12 *)
Definition eq_OpNop (a b : OpNop) : bool :=
  true.

(* src/spv/op.rs:16-20 *)
Definition eq_OpUndef (a b : OpUndef) : bool :=
  N.eqb (OpUndef_result_type a) (OpUndef_result_type b) && N.eqb (OpUndef_result_id a) (OpUndef_result_id b).

(* src/spv/op.rs:26-29 *)
Definition eq_OpSourceContinued (a b : OpSourceContinued) : bool :=
  String.eqb (OpSourceContinued_continued_source a) (OpSourceContinued_continued_source b).

(* src/spv/op.rs:33-39 *)
Definition eq_OpSource (a b : OpSource) : bool :=
  eq_SourceLanguage (OpSource_language a) (OpSource_language b) && N.eqb (OpSource_version a) (OpSource_version b) && (eq_Option N.eqb) (OpSource_file a) (OpSource_file b) && (eq_Option String.eqb) (OpSource_source a) (OpSource_source b).

(* src/spv/op.rs:43-46 *)
Definition eq_OpSourceExtension (a b : OpSourceExtension) : bool :=
  String.eqb (OpSourceExtension_extension a) (OpSourceExtension_extension b).

(* src/spv/op.rs:50-54 *)
Definition eq_OpName (a b : OpName) : bool :=
  N.eqb (OpName_target a) (OpName_target b) && String.eqb (OpName_name a) (OpName_name b).

(* src/spv/op.rs:58-63 *)
Definition eq_OpMemberName (a b : OpMemberName) : bool :=
  N.eqb (OpMemberName_struct_type a) (OpMemberName_struct_type b) && N.eqb (OpMemberName_member a) (OpMemberName_member b) && String.eqb (OpMemberName_name a) (OpMemberName_name b).

(* src/spv/op.rs:67-71 *)
Definition eq_OpString (a b : OpString) : bool :=
  N.eqb (OpString_result_id a) (OpString_result_id b) && String.eqb (OpString_string a) (OpString_string b).

(* src/spv/op.rs:131-134 *)
Definition eq_OpExtension (a b : OpExtension) : bool :=
  String.eqb (OpExtension_name a) (OpExtension_name b).

(* src/spv/op.rs:138-142 *)
Definition eq_OpExtInstImport (a b : OpExtInstImport) : bool :=
  N.eqb (OpExtInstImport_result_id a) (OpExtInstImport_result_id b) && String.eqb (OpExtInstImport_name a) (OpExtInstImport_name b).

(* src/spv/op.rs:146-152 *)
Definition eq_OpExtInst {E} (eq_ext : E -> E -> bool) (a b : OpExtInst E) : bool :=
  N.eqb (OpExtInst_result_type a) (OpExtInst_result_type b) && N.eqb (OpExtInst_result_id a) (OpExtInst_result_id b) && N.eqb (OpExtInst_set a) (OpExtInst_set b) && eq_ext (OpExtInst_instruction a) (OpExtInst_instruction b).

(* src/spv/op.rs:158-162 *)
Definition eq_OpMemoryModel (a b : OpMemoryModel) : bool :=
  eq_AddressingModel (OpMemoryModel_addressing_model a) (OpMemoryModel_addressing_model b) && eq_MemoryModel (OpMemoryModel_memory_model a) (OpMemoryModel_memory_model b).

(* src/spv/op.rs:166-172 *)
Definition eq_OpEntryPoint (a b : OpEntryPoint) : bool :=
  eq_ExecutionModel (OpEntryPoint_execution_model a) (OpEntryPoint_execution_model b) && N.eqb (OpEntryPoint_entry_point a) (OpEntryPoint_entry_point b) && String.eqb (OpEntryPoint_name a) (OpEntryPoint_name b) && (eq_Vec N.eqb) (OpEntryPoint_interface a) (OpEntryPoint_interface b).

(* src/spv/op.rs:176-180 *)
Definition eq_OpExecutionMode (a b : OpExecutionMode) : bool :=
  N.eqb (OpExecutionMode_entry_point a) (OpExecutionMode_entry_point b) && eq_ExecutionMode (OpExecutionMode_mode a) (OpExecutionMode_mode b).

(* src/spv/op.rs:184-187 *)
Definition eq_OpCapability (a b : OpCapability) : bool :=
  eq_Capability (OpCapability_capability a) (OpCapability_capability b).

(* src/spv/op.rs:193-196 *)
Definition eq_OpTypeVoid (a b : OpTypeVoid) : bool :=
  N.eqb (OpTypeVoid_result_id a) (OpTypeVoid_result_id b).

(* src/spv/op.rs:200-203 *)
Definition eq_OpTypeBool (a b : OpTypeBool) : bool :=
  N.eqb (OpTypeBool_result_id a) (OpTypeBool_result_id b).

(* src/spv/op.rs:207-212 *)
Definition eq_OpTypeInt (a b : OpTypeInt) : bool :=
  N.eqb (OpTypeInt_result_id a) (OpTypeInt_result_id b) && N.eqb (OpTypeInt_width a) (OpTypeInt_width b) && eq_Signedness (OpTypeInt_signedness a) (OpTypeInt_signedness b).

(* src/spv/op.rs:216-220 *)
Definition eq_OpTypeFloat (a b : OpTypeFloat) : bool :=
  N.eqb (OpTypeFloat_result_id a) (OpTypeFloat_result_id b) && N.eqb (OpTypeFloat_width a) (OpTypeFloat_width b).

(* src/spv/op.rs:224-229 *)
Definition eq_OpTypeVector (a b : OpTypeVector) : bool :=
  N.eqb (OpTypeVector_result_id a) (OpTypeVector_result_id b) && N.eqb (OpTypeVector_component_type a) (OpTypeVector_component_type b) && N.eqb (OpTypeVector_component_count a) (OpTypeVector_component_count b).

(* src/spv/op.rs:233-238 *)
Definition eq_OpTypeMatrix (a b : OpTypeMatrix) : bool :=
  N.eqb (OpTypeMatrix_result_id a) (OpTypeMatrix_result_id b) && N.eqb (OpTypeMatrix_column_type a) (OpTypeMatrix_column_type b) && N.eqb (OpTypeMatrix_column_count a) (OpTypeMatrix_column_count b).

(* src/spv/op.rs:242-253 *)
Definition eq_OpTypeImage (a b : OpTypeImage) : bool :=
  N.eqb (OpTypeImage_result_id a) (OpTypeImage_result_id b) && N.eqb (OpTypeImage_sampled_type a) (OpTypeImage_sampled_type b) && eq_Dim (OpTypeImage_dim a) (OpTypeImage_dim b) && eq_DepthStatus (OpTypeImage_depth a) (OpTypeImage_depth b) && eq_Arrayed (OpTypeImage_arrayed a) (OpTypeImage_arrayed b) && eq_MS (OpTypeImage_ms a) (OpTypeImage_ms b) && eq_SampledStatus (OpTypeImage_sampled a) (OpTypeImage_sampled b) && eq_ImageFormat (OpTypeImage_format a) (OpTypeImage_format b) && (eq_Option eq_AccessQualifier) (OpTypeImage_access_qualifier a) (OpTypeImage_access_qualifier b).

(* src/spv/op.rs:266-269 *)
Definition eq_OpTypeSampler (a b : OpTypeSampler) : bool :=
  N.eqb (OpTypeSampler_result_id a) (OpTypeSampler_result_id b).

(* src/spv/op.rs:273-277 *)
Definition eq_OpTypeSampledImage (a b : OpTypeSampledImage) : bool :=
  N.eqb (OpTypeSampledImage_result_id a) (OpTypeSampledImage_result_id b) && N.eqb (OpTypeSampledImage_image_type a) (OpTypeSampledImage_image_type b).

(* src/spv/op.rs:281-286 *)
Definition eq_OpTypeArray (a b : OpTypeArray) : bool :=
  N.eqb (OpTypeArray_result_id a) (OpTypeArray_result_id b) && N.eqb (OpTypeArray_element_type a) (OpTypeArray_element_type b) && N.eqb (OpTypeArray_length a) (OpTypeArray_length b).

(* src/spv/op.rs:290-294 *)
Definition eq_OpTypeRuntimeArray (a b : OpTypeRuntimeArray) : bool :=
  N.eqb (OpTypeRuntimeArray_result_id a) (OpTypeRuntimeArray_result_id b) && N.eqb (OpTypeRuntimeArray_element_type a) (OpTypeRuntimeArray_element_type b).

(* src/spv/op.rs:298-302 *)
Definition eq_OpTypeStruct (a b : OpTypeStruct) : bool :=
  N.eqb (OpTypeStruct_result_id a) (OpTypeStruct_result_id b) && (eq_Vec N.eqb) (OpTypeStruct_member_types a) (OpTypeStruct_member_types b).

(* src/spv/op.rs:306-310 *)
Definition eq_OpTypeOpaque (a b : OpTypeOpaque) : bool :=
  N.eqb (OpTypeOpaque_result_id a) (OpTypeOpaque_result_id b) && String.eqb (OpTypeOpaque_name a) (OpTypeOpaque_name b).

(* src/spv/op.rs:314-319 *)
Definition eq_OpTypePointer (a b : OpTypePointer) : bool :=
  N.eqb (OpTypePointer_result_id a) (OpTypePointer_result_id b) && eq_StorageClass (OpTypePointer_storage_class a) (OpTypePointer_storage_class b) && N.eqb (OpTypePointer_pointed_type a) (OpTypePointer_pointed_type b).

(* src/spv/op.rs:323-328 *)
Definition eq_OpTypeFunction (a b : OpTypeFunction) : bool :=
  N.eqb (OpTypeFunction_result_id a) (OpTypeFunction_result_id b) && N.eqb (OpTypeFunction_return_type a) (OpTypeFunction_return_type b) && (eq_Vec N.eqb) (OpTypeFunction_parameter_types a) (OpTypeFunction_parameter_types b).

(* src/spv/op.rs:332-335 *)
Definition eq_OpTypeEvent (a b : OpTypeEvent) : bool :=
  N.eqb (OpTypeEvent_result_id a) (OpTypeEvent_result_id b).

(* src/spv/op.rs:339-342 *)
Definition eq_OpTypeDeviceEvent (a b : OpTypeDeviceEvent) : bool :=
  N.eqb (OpTypeDeviceEvent_result_id a) (OpTypeDeviceEvent_result_id b).

(* src/spv/op.rs:353-356 *)
Definition eq_OpTypeQueue (a b : OpTypeQueue) : bool :=
  N.eqb (OpTypeQueue_result_id a) (OpTypeQueue_result_id b).

(* src/spv/op.rs:360-364 *)
Definition eq_OpTypePipe (a b : OpTypePipe) : bool :=
  N.eqb (OpTypePipe_result_id a) (OpTypePipe_result_id b) && eq_AccessQualifier (OpTypePipe_access_qualifier a) (OpTypePipe_access_qualifier b).

(* src/spv/op.rs:368-372 *)
Definition eq_OpTypeForwardPointer (a b : OpTypeForwardPointer) : bool :=
  N.eqb (OpTypeForwardPointer_pointer_type a) (OpTypeForwardPointer_pointer_type b) && eq_StorageClass (OpTypeForwardPointer_storage_class a) (OpTypeForwardPointer_storage_class b).

(* src/spv/op.rs:394-399 *)
Definition eq_OpConstant (a b : OpConstant) : bool :=
  N.eqb (OpConstant_result_type a) (OpConstant_result_type b) && N.eqb (OpConstant_result_id a) (OpConstant_result_id b) && (eq_Vec N.eqb) (OpConstant_value a) (OpConstant_value b).

(* src/spv/op.rs:403-408 *)
Definition eq_OpConstantComposite (a b : OpConstantComposite) : bool :=
  N.eqb (OpConstantComposite_result_type a) (OpConstantComposite_result_type b) && N.eqb (OpConstantComposite_result_id a) (OpConstantComposite_result_id b) && (eq_Vec N.eqb) (OpConstantComposite_constituents a) (OpConstantComposite_constituents b).

(* src/spv/op.rs:589-595 *)
Definition eq_OpFunction (a b : OpFunction) : bool :=
  N.eqb (OpFunction_result_type a) (OpFunction_result_type b) && N.eqb (OpFunction_result_id a) (OpFunction_result_id b) && eq_FunctionControl (OpFunction_function_control a) (OpFunction_function_control b) && N.eqb (OpFunction_function_type a) (OpFunction_function_type b).

(* src/spv/op.rs:599-603 *)
Definition eq_OpFunctionParameter (a b : OpFunctionParameter) : bool :=
  N.eqb (OpFunctionParameter_result_type a) (OpFunctionParameter_result_type b) && N.eqb (OpFunctionParameter_result_id a) (OpFunctionParameter_result_id b).

(* src/spv/op.rs:607-608 *)
Definition eq_OpFunctionEnd (a b : OpFunctionEnd) : bool :=
  true.

(* src/spv/op.rs:467-473 *)
Definition eq_OpVariable (a b : OpVariable) : bool :=
  N.eqb (OpVariable_result_type a) (OpVariable_result_type b) && N.eqb (OpVariable_result_id a) (OpVariable_result_id b) && eq_StorageClass (OpVariable_storage_class a) (OpVariable_storage_class b) && (eq_Option N.eqb) (OpVariable_initializer a) (OpVariable_initializer b).

(* src/spv/op.rs:488-494 *)
Definition eq_OpLoad (a b : OpLoad) : bool :=
  N.eqb (OpLoad_result_type a) (OpLoad_result_type b) && N.eqb (OpLoad_result_id a) (OpLoad_result_id b) && N.eqb (OpLoad_pointer a) (OpLoad_pointer b) && (eq_Option eq_MemoryAccess) (OpLoad_memory_access a) (OpLoad_memory_access b).

(* src/spv/op.rs:498-503 *)
Definition eq_OpStore (a b : OpStore) : bool :=
  N.eqb (OpStore_pointer a) (OpStore_pointer b) && N.eqb (OpStore_object a) (OpStore_object b) && (eq_Option eq_MemoryAccess) (OpStore_memory_access a) (OpStore_memory_access b).

(* src/spv/op.rs:526-532 *)
Definition eq_OpAccessChain (a b : OpAccessChain) : bool :=
  N.eqb (OpAccessChain_result_type a) (OpAccessChain_result_type b) && N.eqb (OpAccessChain_result_id a) (OpAccessChain_result_id b) && N.eqb (OpAccessChain_base a) (OpAccessChain_base b) && (eq_Vec N.eqb) (OpAccessChain_indexes a) (OpAccessChain_indexes b).

(* src/spv/op.rs:91-95 *)
Definition eq_OpDecorate (a b : OpDecorate) : bool :=
  N.eqb (OpDecorate_target a) (OpDecorate_target b) && eq_Decoration (OpDecorate_decoration a) (OpDecorate_decoration b).

(* src/spv/op.rs:99-104 *)
Definition eq_OpMemberDecorate (a b : OpMemberDecorate) : bool :=
  N.eqb (OpMemberDecorate_structure_type a) (OpMemberDecorate_structure_type b) && N.eqb (OpMemberDecorate_member a) (OpMemberDecorate_member b) && eq_Decoration (OpMemberDecorate_decoration a) (OpMemberDecorate_decoration b).

(* src/spv/op.rs:858-863 *)
Definition eq_OpConvertUToF (a b : OpConvertUToF) : bool :=
  N.eqb (OpConvertUToF_result_type a) (OpConvertUToF_result_type b) && N.eqb (OpConvertUToF_result_id a) (OpConvertUToF_result_id b) && N.eqb (OpConvertUToF_unsigned_value a) (OpConvertUToF_unsigned_value b).

(* src/spv/op.rs:967-972 *)
Definition eq_OpBitcast (a b : OpBitcast) : bool :=
  N.eqb (OpBitcast_result_type a) (OpBitcast_result_type b) && N.eqb (OpBitcast_result_id a) (OpBitcast_result_id b) && N.eqb (OpBitcast_operand a) (OpBitcast_operand b).

(* src/spv/op.rs:1078-1084 *)
Definition eq_OpIAdd (a b : OpIAdd) : bool :=
  N.eqb (OpIAdd_result_type a) (OpIAdd_result_type b) && N.eqb (OpIAdd_result_id a) (OpIAdd_result_id b) && N.eqb (OpIAdd_operand1 a) (OpIAdd_operand1 b) && N.eqb (OpIAdd_operand2 a) (OpIAdd_operand2 b).

(* src/spv/op.rs:1088-1094 *)
Definition eq_OpFAdd (a b : OpFAdd) : bool :=
  N.eqb (OpFAdd_result_type a) (OpFAdd_result_type b) && N.eqb (OpFAdd_result_id a) (OpFAdd_result_id b) && N.eqb (OpFAdd_operand1 a) (OpFAdd_operand1 b) && N.eqb (OpFAdd_operand2 a) (OpFAdd_operand2 b).

(* src/spv/op.rs:1098-1104 *)
Definition eq_OpISub (a b : OpISub) : bool :=
  N.eqb (OpISub_result_type a) (OpISub_result_type b) && N.eqb (OpISub_result_id a) (OpISub_result_id b) && N.eqb (OpISub_operand1 a) (OpISub_operand1 b) && N.eqb (OpISub_operand2 a) (OpISub_operand2 b).

(* src/spv/op.rs:1108-1114 *)
Definition eq_OpFSub (a b : OpFSub) : bool :=
  N.eqb (OpFSub_result_type a) (OpFSub_result_type b) && N.eqb (OpFSub_result_id a) (OpFSub_result_id b) && N.eqb (OpFSub_operand1 a) (OpFSub_operand1 b) && N.eqb (OpFSub_operand2 a) (OpFSub_operand2 b).

(* src/spv/op.rs:1118-1124 *)
Definition eq_OpIMul (a b : OpIMul) : bool :=
  N.eqb (OpIMul_result_type a) (OpIMul_result_type b) && N.eqb (OpIMul_result_id a) (OpIMul_result_id b) && N.eqb (OpIMul_operand1 a) (OpIMul_operand1 b) && N.eqb (OpIMul_operand2 a) (OpIMul_operand2 b).

(* src/spv/op.rs:1128-1134 *)
Definition eq_OpFMul (a b : OpFMul) : bool :=
  N.eqb (OpFMul_result_type a) (OpFMul_result_type b) && N.eqb (OpFMul_result_id a) (OpFMul_result_id b) && N.eqb (OpFMul_operand1 a) (OpFMul_operand1 b) && N.eqb (OpFMul_operand2 a) (OpFMul_operand2 b).

(* src/spv/op.rs:1138-1144 *)
Definition eq_OpUDiv (a b : OpUDiv) : bool :=
  N.eqb (OpUDiv_result_type a) (OpUDiv_result_type b) && N.eqb (OpUDiv_result_id a) (OpUDiv_result_id b) && N.eqb (OpUDiv_operand1 a) (OpUDiv_operand1 b) && N.eqb (OpUDiv_operand2 a) (OpUDiv_operand2 b).

(* src/spv/op.rs:1148-1154 *)
Definition eq_OpSDiv (a b : OpSDiv) : bool :=
  N.eqb (OpSDiv_result_type a) (OpSDiv_result_type b) && N.eqb (OpSDiv_result_id a) (OpSDiv_result_id b) && N.eqb (OpSDiv_operand1 a) (OpSDiv_operand1 b) && N.eqb (OpSDiv_operand2 a) (OpSDiv_operand2 b).

(* src/spv/op.rs:1158-1164 *)
Definition eq_OpFDiv (a b : OpFDiv) : bool :=
  N.eqb (OpFDiv_result_type a) (OpFDiv_result_type b) && N.eqb (OpFDiv_result_id a) (OpFDiv_result_id b) && N.eqb (OpFDiv_operand1 a) (OpFDiv_operand1 b) && N.eqb (OpFDiv_operand2 a) (OpFDiv_operand2 b).

(* src/spv/op.rs:1168-1174 *)
Definition eq_OpUMod (a b : OpUMod) : bool :=
  N.eqb (OpUMod_result_type a) (OpUMod_result_type b) && N.eqb (OpUMod_result_id a) (OpUMod_result_id b) && N.eqb (OpUMod_operand1 a) (OpUMod_operand1 b) && N.eqb (OpUMod_operand2 a) (OpUMod_operand2 b).

(* src/spv/op.rs:1178-1184 *)
Definition eq_OpSRem (a b : OpSRem) : bool :=
  N.eqb (OpSRem_result_type a) (OpSRem_result_type b) && N.eqb (OpSRem_result_id a) (OpSRem_result_id b) && N.eqb (OpSRem_operand1 a) (OpSRem_operand1 b) && N.eqb (OpSRem_operand2 a) (OpSRem_operand2 b).

(* src/spv/op.rs:1188-1194 *)
Definition eq_OpSMod (a b : OpSMod) : bool :=
  N.eqb (OpSMod_result_type a) (OpSMod_result_type b) && N.eqb (OpSMod_result_id a) (OpSMod_result_id b) && N.eqb (OpSMod_operand1 a) (OpSMod_operand1 b) && N.eqb (OpSMod_operand2 a) (OpSMod_operand2 b).

(* src/spv/op.rs:1198-1204 *)
Definition eq_OpFRem (a b : OpFRem) : bool :=
  N.eqb (OpFRem_result_type a) (OpFRem_result_type b) && N.eqb (OpFRem_result_id a) (OpFRem_result_id b) && N.eqb (OpFRem_operand1 a) (OpFRem_operand1 b) && N.eqb (OpFRem_operand2 a) (OpFRem_operand2 b).

(* src/spv/op.rs:1208-1214 *)
Definition eq_OpFMod (a b : OpFMod) : bool :=
  N.eqb (OpFMod_result_type a) (OpFMod_result_type b) && N.eqb (OpFMod_result_id a) (OpFMod_result_id b) && N.eqb (OpFMod_operand1 a) (OpFMod_operand1 b) && N.eqb (OpFMod_operand2 a) (OpFMod_operand2 b).

(* src/spv/op.rs:1288-1294 *)
Definition eq_OpIAddCarry (a b : OpIAddCarry) : bool :=
  N.eqb (OpIAddCarry_result_type a) (OpIAddCarry_result_type b) && N.eqb (OpIAddCarry_result_id a) (OpIAddCarry_result_id b) && N.eqb (OpIAddCarry_operand1 a) (OpIAddCarry_operand1 b) && N.eqb (OpIAddCarry_operand2 a) (OpIAddCarry_operand2 b).

(* src/spv/op.rs:1298-1304 *)
Definition eq_OpISubBorrow (a b : OpISubBorrow) : bool :=
  N.eqb (OpISubBorrow_result_type a) (OpISubBorrow_result_type b) && N.eqb (OpISubBorrow_result_id a) (OpISubBorrow_result_id b) && N.eqb (OpISubBorrow_operand1 a) (OpISubBorrow_operand1 b) && N.eqb (OpISubBorrow_operand2 a) (OpISubBorrow_operand2 b).

(* src/spv/op.rs:1308-1314 *)
Definition eq_OpUMulExtended (a b : OpUMulExtended) : bool :=
  N.eqb (OpUMulExtended_result_type a) (OpUMulExtended_result_type b) && N.eqb (OpUMulExtended_result_id a) (OpUMulExtended_result_id b) && N.eqb (OpUMulExtended_operand1 a) (OpUMulExtended_operand1 b) && N.eqb (OpUMulExtended_operand2 a) (OpUMulExtended_operand2 b).

(* src/spv/op.rs:1318-1324 *)
Definition eq_OpSMulExtended (a b : OpSMulExtended) : bool :=
  N.eqb (OpSMulExtended_result_type a) (OpSMulExtended_result_type b) && N.eqb (OpSMulExtended_result_id a) (OpSMulExtended_result_id b) && N.eqb (OpSMulExtended_operand1 a) (OpSMulExtended_operand1 b) && N.eqb (OpSMulExtended_operand2 a) (OpSMulExtended_operand2 b).

(* src/spv/op.rs:1360-1366 *)
Definition eq_OpBitwiseOr (a b : OpBitwiseOr) : bool :=
  N.eqb (OpBitwiseOr_result_type a) (OpBitwiseOr_result_type b) && N.eqb (OpBitwiseOr_result_id a) (OpBitwiseOr_result_id b) && N.eqb (OpBitwiseOr_operand1 a) (OpBitwiseOr_operand1 b) && N.eqb (OpBitwiseOr_operand2 a) (OpBitwiseOr_operand2 b).

(* src/spv/op.rs:1370-1376 *)
Definition eq_OpBitwiseXor (a b : OpBitwiseXor) : bool :=
  N.eqb (OpBitwiseXor_result_type a) (OpBitwiseXor_result_type b) && N.eqb (OpBitwiseXor_result_id a) (OpBitwiseXor_result_id b) && N.eqb (OpBitwiseXor_operand1 a) (OpBitwiseXor_operand1 b) && N.eqb (OpBitwiseXor_operand2 a) (OpBitwiseXor_operand2 b).

(* src/spv/op.rs:1380-1386 *)
Definition eq_OpBitwiseAnd (a b : OpBitwiseAnd) : bool :=
  N.eqb (OpBitwiseAnd_result_type a) (OpBitwiseAnd_result_type b) && N.eqb (OpBitwiseAnd_result_id a) (OpBitwiseAnd_result_id b) && N.eqb (OpBitwiseAnd_operand1 a) (OpBitwiseAnd_operand1 b) && N.eqb (OpBitwiseAnd_operand2 a) (OpBitwiseAnd_operand2 b).

(* src/spv/op.rs:1464-1470 *)
Definition eq_OpIEqual (a b : OpIEqual) : bool :=
  N.eqb (OpIEqual_result_type a) (OpIEqual_result_type b) && N.eqb (OpIEqual_result_id a) (OpIEqual_result_id b) && N.eqb (OpIEqual_operand1 a) (OpIEqual_operand1 b) && N.eqb (OpIEqual_operand2 a) (OpIEqual_operand2 b).

(* src/spv/op.rs:1474-1480 *)
Definition eq_OpINotEqual (a b : OpINotEqual) : bool :=
  N.eqb (OpINotEqual_result_type a) (OpINotEqual_result_type b) && N.eqb (OpINotEqual_result_id a) (OpINotEqual_result_id b) && N.eqb (OpINotEqual_operand1 a) (OpINotEqual_operand1 b) && N.eqb (OpINotEqual_operand2 a) (OpINotEqual_operand2 b).

(* src/spv/op.rs:1484-1490 *)
Definition eq_OpUGreaterThan (a b : OpUGreaterThan) : bool :=
  N.eqb (OpUGreaterThan_result_type a) (OpUGreaterThan_result_type b) && N.eqb (OpUGreaterThan_result_id a) (OpUGreaterThan_result_id b) && N.eqb (OpUGreaterThan_operand1 a) (OpUGreaterThan_operand1 b) && N.eqb (OpUGreaterThan_operand2 a) (OpUGreaterThan_operand2 b).

(* src/spv/op.rs:1494-1500 *)
Definition eq_OpSGreaterThan (a b : OpSGreaterThan) : bool :=
  N.eqb (OpSGreaterThan_result_type a) (OpSGreaterThan_result_type b) && N.eqb (OpSGreaterThan_result_id a) (OpSGreaterThan_result_id b) && N.eqb (OpSGreaterThan_operand1 a) (OpSGreaterThan_operand1 b) && N.eqb (OpSGreaterThan_operand2 a) (OpSGreaterThan_operand2 b).

(* src/spv/op.rs:1504-1510 *)
Definition eq_OpUGreaterThanEqual (a b : OpUGreaterThanEqual) : bool :=
  N.eqb (OpUGreaterThanEqual_result_type a) (OpUGreaterThanEqual_result_type b) && N.eqb (OpUGreaterThanEqual_result_id a) (OpUGreaterThanEqual_result_id b) && N.eqb (OpUGreaterThanEqual_operand1 a) (OpUGreaterThanEqual_operand1 b) && N.eqb (OpUGreaterThanEqual_operand2 a) (OpUGreaterThanEqual_operand2 b).

(* src/spv/op.rs:1514-1520 *)
Definition eq_OpSGreaterThanEqual (a b : OpSGreaterThanEqual) : bool :=
  N.eqb (OpSGreaterThanEqual_result_type a) (OpSGreaterThanEqual_result_type b) && N.eqb (OpSGreaterThanEqual_result_id a) (OpSGreaterThanEqual_result_id b) && N.eqb (OpSGreaterThanEqual_operand1 a) (OpSGreaterThanEqual_operand1 b) && N.eqb (OpSGreaterThanEqual_operand2 a) (OpSGreaterThanEqual_operand2 b).

(* src/spv/op.rs:1524-1530 *)
Definition eq_OpULessThan (a b : OpULessThan) : bool :=
  N.eqb (OpULessThan_result_type a) (OpULessThan_result_type b) && N.eqb (OpULessThan_result_id a) (OpULessThan_result_id b) && N.eqb (OpULessThan_operand1 a) (OpULessThan_operand1 b) && N.eqb (OpULessThan_operand2 a) (OpULessThan_operand2 b).

(* src/spv/op.rs:1534-1540 *)
Definition eq_OpSLessThan (a b : OpSLessThan) : bool :=
  N.eqb (OpSLessThan_result_type a) (OpSLessThan_result_type b) && N.eqb (OpSLessThan_result_id a) (OpSLessThan_result_id b) && N.eqb (OpSLessThan_operand1 a) (OpSLessThan_operand1 b) && N.eqb (OpSLessThan_operand2 a) (OpSLessThan_operand2 b).

(* src/spv/op.rs:1544-1550 *)
Definition eq_OpULessThanEqual (a b : OpULessThanEqual) : bool :=
  N.eqb (OpULessThanEqual_result_type a) (OpULessThanEqual_result_type b) && N.eqb (OpULessThanEqual_result_id a) (OpULessThanEqual_result_id b) && N.eqb (OpULessThanEqual_operand1 a) (OpULessThanEqual_operand1 b) && N.eqb (OpULessThanEqual_operand2 a) (OpULessThanEqual_operand2 b).

(* src/spv/op.rs:1554-1560 *)
Definition eq_OpSLessThanEqual (a b : OpSLessThanEqual) : bool :=
  N.eqb (OpSLessThanEqual_result_type a) (OpSLessThanEqual_result_type b) && N.eqb (OpSLessThanEqual_result_id a) (OpSLessThanEqual_result_id b) && N.eqb (OpSLessThanEqual_operand1 a) (OpSLessThanEqual_operand1 b) && N.eqb (OpSLessThanEqual_operand2 a) (OpSLessThanEqual_operand2 b).

(* src/spv/op.rs:1564-1570 *)
Definition eq_OpFOrdEqual (a b : OpFOrdEqual) : bool :=
  N.eqb (OpFOrdEqual_result_type a) (OpFOrdEqual_result_type b) && N.eqb (OpFOrdEqual_result_id a) (OpFOrdEqual_result_id b) && N.eqb (OpFOrdEqual_operand1 a) (OpFOrdEqual_operand1 b) && N.eqb (OpFOrdEqual_operand2 a) (OpFOrdEqual_operand2 b).

(* src/spv/op.rs:1574-1580 *)
Definition eq_OpFUnordEqual (a b : OpFUnordEqual) : bool :=
  N.eqb (OpFUnordEqual_result_type a) (OpFUnordEqual_result_type b) && N.eqb (OpFUnordEqual_result_id a) (OpFUnordEqual_result_id b) && N.eqb (OpFUnordEqual_operand1 a) (OpFUnordEqual_operand1 b) && N.eqb (OpFUnordEqual_operand2 a) (OpFUnordEqual_operand2 b).

(* src/spv/op.rs:1584-1590 *)
Definition eq_OpFOrdNotEqual (a b : OpFOrdNotEqual) : bool :=
  N.eqb (OpFOrdNotEqual_result_type a) (OpFOrdNotEqual_result_type b) && N.eqb (OpFOrdNotEqual_result_id a) (OpFOrdNotEqual_result_id b) && N.eqb (OpFOrdNotEqual_operand1 a) (OpFOrdNotEqual_operand1 b) && N.eqb (OpFOrdNotEqual_operand2 a) (OpFOrdNotEqual_operand2 b).

(* src/spv/op.rs:1594-1600 *)
Definition eq_OpFUnordNotEqual (a b : OpFUnordNotEqual) : bool :=
  N.eqb (OpFUnordNotEqual_result_type a) (OpFUnordNotEqual_result_type b) && N.eqb (OpFUnordNotEqual_result_id a) (OpFUnordNotEqual_result_id b) && N.eqb (OpFUnordNotEqual_operand1 a) (OpFUnordNotEqual_operand1 b) && N.eqb (OpFUnordNotEqual_operand2 a) (OpFUnordNotEqual_operand2 b).

(* src/spv/op.rs:1604-1610 *)
Definition eq_OpFOrdLessThan (a b : OpFOrdLessThan) : bool :=
  N.eqb (OpFOrdLessThan_result_type a) (OpFOrdLessThan_result_type b) && N.eqb (OpFOrdLessThan_result_id a) (OpFOrdLessThan_result_id b) && N.eqb (OpFOrdLessThan_operand1 a) (OpFOrdLessThan_operand1 b) && N.eqb (OpFOrdLessThan_operand2 a) (OpFOrdLessThan_operand2 b).

(* src/spv/op.rs:1614-1620 *)
Definition eq_OpFUnordLessThan (a b : OpFUnordLessThan) : bool :=
  N.eqb (OpFUnordLessThan_result_type a) (OpFUnordLessThan_result_type b) && N.eqb (OpFUnordLessThan_result_id a) (OpFUnordLessThan_result_id b) && N.eqb (OpFUnordLessThan_operand1 a) (OpFUnordLessThan_operand1 b) && N.eqb (OpFUnordLessThan_operand2 a) (OpFUnordLessThan_operand2 b).

(* src/spv/op.rs:1624-1630 *)
Definition eq_OpFOrdGreaterThan (a b : OpFOrdGreaterThan) : bool :=
  N.eqb (OpFOrdGreaterThan_result_type a) (OpFOrdGreaterThan_result_type b) && N.eqb (OpFOrdGreaterThan_result_id a) (OpFOrdGreaterThan_result_id b) && N.eqb (OpFOrdGreaterThan_operand1 a) (OpFOrdGreaterThan_operand1 b) && N.eqb (OpFOrdGreaterThan_operand2 a) (OpFOrdGreaterThan_operand2 b).

(* src/spv/op.rs:1634-1640 *)
Definition eq_OpFUnordGreaterThan (a b : OpFUnordGreaterThan) : bool :=
  N.eqb (OpFUnordGreaterThan_result_type a) (OpFUnordGreaterThan_result_type b) && N.eqb (OpFUnordGreaterThan_result_id a) (OpFUnordGreaterThan_result_id b) && N.eqb (OpFUnordGreaterThan_operand1 a) (OpFUnordGreaterThan_operand1 b) && N.eqb (OpFUnordGreaterThan_operand2 a) (OpFUnordGreaterThan_operand2 b).

(* src/spv/op.rs:1644-1650 *)
Definition eq_OpFOrdLessThanEqual (a b : OpFOrdLessThanEqual) : bool :=
  N.eqb (OpFOrdLessThanEqual_result_type a) (OpFOrdLessThanEqual_result_type b) && N.eqb (OpFOrdLessThanEqual_result_id a) (OpFOrdLessThanEqual_result_id b) && N.eqb (OpFOrdLessThanEqual_operand1 a) (OpFOrdLessThanEqual_operand1 b) && N.eqb (OpFOrdLessThanEqual_operand2 a) (OpFOrdLessThanEqual_operand2 b).

(* src/spv/op.rs:1654-1660 *)
Definition eq_OpFUnordLessThanEqual (a b : OpFUnordLessThanEqual) : bool :=
  N.eqb (OpFUnordLessThanEqual_result_type a) (OpFUnordLessThanEqual_result_type b) && N.eqb (OpFUnordLessThanEqual_result_id a) (OpFUnordLessThanEqual_result_id b) && N.eqb (OpFUnordLessThanEqual_operand1 a) (OpFUnordLessThanEqual_operand1 b) && N.eqb (OpFUnordLessThanEqual_operand2 a) (OpFUnordLessThanEqual_operand2 b).

(* src/spv/op.rs:1664-1670 *)
Definition eq_OpFOrdGreaterThanEqual (a b : OpFOrdGreaterThanEqual) : bool :=
  N.eqb (OpFOrdGreaterThanEqual_result_type a) (OpFOrdGreaterThanEqual_result_type b) && N.eqb (OpFOrdGreaterThanEqual_result_id a) (OpFOrdGreaterThanEqual_result_id b) && N.eqb (OpFOrdGreaterThanEqual_operand1 a) (OpFOrdGreaterThanEqual_operand1 b) && N.eqb (OpFOrdGreaterThanEqual_operand2 a) (OpFOrdGreaterThanEqual_operand2 b).

(* src/spv/op.rs:1674-1680 *)
Definition eq_OpFUnordGreaterThanEqual (a b : OpFUnordGreaterThanEqual) : bool :=
  N.eqb (OpFUnordGreaterThanEqual_result_type a) (OpFUnordGreaterThanEqual_result_type b) && N.eqb (OpFUnordGreaterThanEqual_result_id a) (OpFUnordGreaterThanEqual_result_id b) && N.eqb (OpFUnordGreaterThanEqual_operand1 a) (OpFUnordGreaterThanEqual_operand1 b) && N.eqb (OpFUnordGreaterThanEqual_operand2 a) (OpFUnordGreaterThanEqual_operand2 b).

(* src/spv/op.rs:1715-1720 *)
Definition eq_OpPhi (a b : OpPhi) : bool :=
  N.eqb (OpPhi_result_type a) (OpPhi_result_type b) && N.eqb (OpPhi_result_id a) (OpPhi_result_id b) && (eq_Vec eq_PhiArg) (OpPhi_variables a) (OpPhi_variables b).

(* src/spv/op.rs:1724-1729 *)
Definition eq_OpLoopMerge (a b : OpLoopMerge) : bool :=
  N.eqb (OpLoopMerge_merge_block a) (OpLoopMerge_merge_block b) && N.eqb (OpLoopMerge_continue_target a) (OpLoopMerge_continue_target b) && eq_LoopControl (OpLoopMerge_loop_control a) (OpLoopMerge_loop_control b).

(* src/spv/op.rs:1733-1737 *)
Definition eq_OpSelectionMerge (a b : OpSelectionMerge) : bool :=
  N.eqb (OpSelectionMerge_merge_block a) (OpSelectionMerge_merge_block b) && eq_SelectionControl (OpSelectionMerge_selection_control a) (OpSelectionMerge_selection_control b).

(* src/spv/op.rs:1741-1744 *)
Definition eq_OpLabel (a b : OpLabel) : bool :=
  N.eqb (OpLabel_result_id a) (OpLabel_result_id b).

(* src/spv/op.rs:1748-1751 *)
Definition eq_OpBranch (a b : OpBranch) : bool :=
  N.eqb (OpBranch_target_label a) (OpBranch_target_label b).

(* src/spv/op.rs:1755-1761 *)
Definition eq_OpBranchConditional (a b : OpBranchConditional) : bool :=
  N.eqb (OpBranchConditional_condition a) (OpBranchConditional_condition b) && N.eqb (OpBranchConditional_true_label a) (OpBranchConditional_true_label b) && N.eqb (OpBranchConditional_false_label a) (OpBranchConditional_false_label b) && (eq_Option eq_BranchWeights) (OpBranchConditional_weights a) (OpBranchConditional_weights b).

(* src/spv/op.rs:1771-1772 *)
Definition eq_OpReturn (a b : OpReturn) : bool :=
  true.

(* src/spv/raw/mod.rs:52-152 *)
Definition eq_Core {E} (eq_ext : E -> E -> bool) (a b : Core E) : bool :=
  match a, b with
  | Core_OpNop x0, Core_OpNop y0 => eq_OpNop x0 y0
  | Core_OpUndef x0, Core_OpUndef y0 => eq_OpUndef x0 y0
  | Core_OpSourceContinued x0, Core_OpSourceContinued y0 => eq_OpSourceContinued x0 y0
  | Core_OpSource x0, Core_OpSource y0 => eq_OpSource x0 y0
  | Core_OpSourceExtension x0, Core_OpSourceExtension y0 => eq_OpSourceExtension x0 y0
  | Core_OpName x0, Core_OpName y0 => eq_OpName x0 y0
  | Core_OpMemberName x0, Core_OpMemberName y0 => eq_OpMemberName x0 y0
  | Core_OpString x0, Core_OpString y0 => eq_OpString x0 y0
  | Core_OpExtension x0, Core_OpExtension y0 => eq_OpExtension x0 y0
  | Core_OpExtInstImport x0, Core_OpExtInstImport y0 => eq_OpExtInstImport x0 y0
  | Core_OpExtInst x0, Core_OpExtInst y0 => (eq_OpExtInst eq_ext) x0 y0
  | Core_OpMemoryModel x0, Core_OpMemoryModel y0 => eq_OpMemoryModel x0 y0
  | Core_OpEntryPoint x0, Core_OpEntryPoint y0 => eq_OpEntryPoint x0 y0
  | Core_OpExecutionMode x0, Core_OpExecutionMode y0 => eq_OpExecutionMode x0 y0
  | Core_OpCapability x0, Core_OpCapability y0 => eq_OpCapability x0 y0
  | Core_OpTypeVoid x0, Core_OpTypeVoid y0 => eq_OpTypeVoid x0 y0
  | Core_OpTypeBool x0, Core_OpTypeBool y0 => eq_OpTypeBool x0 y0
  | Core_OpTypeInt x0, Core_OpTypeInt y0 => eq_OpTypeInt x0 y0
  | Core_OpTypeFloat x0, Core_OpTypeFloat y0 => eq_OpTypeFloat x0 y0
  | Core_OpTypeVector x0, Core_OpTypeVector y0 => eq_OpTypeVector x0 y0
  | Core_OpTypeMatrix x0, Core_OpTypeMatrix y0 => eq_OpTypeMatrix x0 y0
  | Core_OpTypeImage x0, Core_OpTypeImage y0 => eq_OpTypeImage x0 y0
  | Core_OpTypeSampler x0, Core_OpTypeSampler y0 => eq_OpTypeSampler x0 y0
  | Core_OpTypeSampledImage x0, Core_OpTypeSampledImage y0 => eq_OpTypeSampledImage x0 y0
  | Core_OpTypeArray x0, Core_OpTypeArray y0 => eq_OpTypeArray x0 y0
  | Core_OpTypeRuntimeArray x0, Core_OpTypeRuntimeArray y0 => eq_OpTypeRuntimeArray x0 y0
  | Core_OpTypeStruct x0, Core_OpTypeStruct y0 => eq_OpTypeStruct x0 y0
  | Core_OpTypeOpaque x0, Core_OpTypeOpaque y0 => eq_OpTypeOpaque x0 y0
  | Core_OpTypePointer x0, Core_OpTypePointer y0 => eq_OpTypePointer x0 y0
  | Core_OpTypeFunction x0, Core_OpTypeFunction y0 => eq_OpTypeFunction x0 y0
  | Core_OpTypeEvent x0, Core_OpTypeEvent y0 => eq_OpTypeEvent x0 y0
  | Core_OpTypeDeviceEvent x0, Core_OpTypeDeviceEvent y0 => eq_OpTypeDeviceEvent x0 y0
  | Core_OpTypeQueue x0, Core_OpTypeQueue y0 => eq_OpTypeQueue x0 y0
  | Core_OpTypePipe x0, Core_OpTypePipe y0 => eq_OpTypePipe x0 y0
  | Core_OpTypeForwardPointer x0, Core_OpTypeForwardPointer y0 => eq_OpTypeForwardPointer x0 y0
  | Core_OpConstant x0, Core_OpConstant y0 => eq_OpConstant x0 y0
  | Core_OpConstantComposite x0, Core_OpConstantComposite y0 => eq_OpConstantComposite x0 y0
  | Core_OpFunction x0, Core_OpFunction y0 => eq_OpFunction x0 y0
  | Core_OpFunctionParameter x0, Core_OpFunctionParameter y0 => eq_OpFunctionParameter x0 y0
  | Core_OpFunctionEnd x0, Core_OpFunctionEnd y0 => eq_OpFunctionEnd x0 y0
  | Core_OpVariable x0, Core_OpVariable y0 => eq_OpVariable x0 y0
  | Core_OpLoad x0, Core_OpLoad y0 => eq_OpLoad x0 y0
  | Core_OpStore x0, Core_OpStore y0 => eq_OpStore x0 y0
  | Core_OpAccessChain x0, Core_OpAccessChain y0 => eq_OpAccessChain x0 y0
  | Core_OpDecorate x0, Core_OpDecorate y0 => eq_OpDecorate x0 y0
  | Core_OpMemberDecorate x0, Core_OpMemberDecorate y0 => eq_OpMemberDecorate x0 y0
  | Core_OpConvertUToF x0, Core_OpConvertUToF y0 => eq_OpConvertUToF x0 y0
  | Core_OpBitcast x0, Core_OpBitcast y0 => eq_OpBitcast x0 y0
  | Core_OpIAdd x0, Core_OpIAdd y0 => eq_OpIAdd x0 y0
  | Core_OpFAdd x0, Core_OpFAdd y0 => eq_OpFAdd x0 y0
  | Core_OpISub x0, Core_OpISub y0 => eq_OpISub x0 y0
  | Core_OpFSub x0, Core_OpFSub y0 => eq_OpFSub x0 y0
  | Core_OpIMul x0, Core_OpIMul y0 => eq_OpIMul x0 y0
  | Core_OpFMul x0, Core_OpFMul y0 => eq_OpFMul x0 y0
  | Core_OpUDiv x0, Core_OpUDiv y0 => eq_OpUDiv x0 y0
  | Core_OpSDiv x0, Core_OpSDiv y0 => eq_OpSDiv x0 y0
  | Core_OpFDiv x0, Core_OpFDiv y0 => eq_OpFDiv x0 y0
  | Core_OpUMod x0, Core_OpUMod y0 => eq_OpUMod x0 y0
  | Core_OpSRem x0, Core_OpSRem y0 => eq_OpSRem x0 y0
  | Core_OpSMod x0, Core_OpSMod y0 => eq_OpSMod x0 y0
  | Core_OpFRem x0, Core_OpFRem y0 => eq_OpFRem x0 y0
  | Core_OpFMod x0, Core_OpFMod y0 => eq_OpFMod x0 y0
  | Core_OpIAddCarry x0, Core_OpIAddCarry y0 => eq_OpIAddCarry x0 y0
  | Core_OpISubBorrow x0, Core_OpISubBorrow y0 => eq_OpISubBorrow x0 y0
  | Core_OpUMulExtended x0, Core_OpUMulExtended y0 => eq_OpUMulExtended x0 y0
  | Core_OpSMulExtended x0, Core_OpSMulExtended y0 => eq_OpSMulExtended x0 y0
  | Core_OpBitwiseOr x0, Core_OpBitwiseOr y0 => eq_OpBitwiseOr x0 y0
  | Core_OpBitwiseXor x0, Core_OpBitwiseXor y0 => eq_OpBitwiseXor x0 y0
  | Core_OpBitwiseAnd x0, Core_OpBitwiseAnd y0 => eq_OpBitwiseAnd x0 y0
  | Core_OpIEqual x0, Core_OpIEqual y0 => eq_OpIEqual x0 y0
  | Core_OpINotEqual x0, Core_OpINotEqual y0 => eq_OpINotEqual x0 y0
  | Core_OpUGreaterThan x0, Core_OpUGreaterThan y0 => eq_OpUGreaterThan x0 y0
  | Core_OpSGreaterThan x0, Core_OpSGreaterThan y0 => eq_OpSGreaterThan x0 y0
  | Core_OpUGreaterThanEqual x0, Core_OpUGreaterThanEqual y0 => eq_OpUGreaterThanEqual x0 y0
  | Core_OpSGreaterThanEqual x0, Core_OpSGreaterThanEqual y0 => eq_OpSGreaterThanEqual x0 y0
  | Core_OpULessThan x0, Core_OpULessThan y0 => eq_OpULessThan x0 y0
  | Core_OpSLessThan x0, Core_OpSLessThan y0 => eq_OpSLessThan x0 y0
  | Core_OpULessThanEqual x0, Core_OpULessThanEqual y0 => eq_OpULessThanEqual x0 y0
  | Core_OpSLessThanEqual x0, Core_OpSLessThanEqual y0 => eq_OpSLessThanEqual x0 y0
  | Core_OpFOrdEqual x0, Core_OpFOrdEqual y0 => eq_OpFOrdEqual x0 y0
  | Core_OpFUnordEqual x0, Core_OpFUnordEqual y0 => eq_OpFUnordEqual x0 y0
  | Core_OpFOrdNotEqual x0, Core_OpFOrdNotEqual y0 => eq_OpFOrdNotEqual x0 y0
  | Core_OpFUnordNotEqual x0, Core_OpFUnordNotEqual y0 => eq_OpFUnordNotEqual x0 y0
  | Core_OpFOrdLessThan x0, Core_OpFOrdLessThan y0 => eq_OpFOrdLessThan x0 y0
  | Core_OpFUnordLessThan x0, Core_OpFUnordLessThan y0 => eq_OpFUnordLessThan x0 y0
  | Core_OpFOrdGreaterThan x0, Core_OpFOrdGreaterThan y0 => eq_OpFOrdGreaterThan x0 y0
  | Core_OpFUnordGreaterThan x0, Core_OpFUnordGreaterThan y0 => eq_OpFUnordGreaterThan x0 y0
  | Core_OpFOrdLessThanEqual x0, Core_OpFOrdLessThanEqual y0 => eq_OpFOrdLessThanEqual x0 y0
  | Core_OpFUnordLessThanEqual x0, Core_OpFUnordLessThanEqual y0 => eq_OpFUnordLessThanEqual x0 y0
  | Core_OpFOrdGreaterThanEqual x0, Core_OpFOrdGreaterThanEqual y0 => eq_OpFOrdGreaterThanEqual x0 y0
  | Core_OpFUnordGreaterThanEqual x0, Core_OpFUnordGreaterThanEqual y0 => eq_OpFUnordGreaterThanEqual x0 y0
  | Core_OpPhi x0, Core_OpPhi y0 => eq_OpPhi x0 y0
  | Core_OpLoopMerge x0, Core_OpLoopMerge y0 => eq_OpLoopMerge x0 y0
  | Core_OpSelectionMerge x0, Core_OpSelectionMerge y0 => eq_OpSelectionMerge x0 y0
  | Core_OpLabel x0, Core_OpLabel y0 => eq_OpLabel x0 y0
  | Core_OpBranch x0, Core_OpBranch y0 => eq_OpBranch x0 y0
  | Core_OpBranchConditional x0, Core_OpBranchConditional y0 => eq_OpBranchConditional x0 y0
  | Core_OpReturn x0, Core_OpReturn y0 => eq_OpReturn x0 y0
  | _, _ => false
  end.

(* src/spv/raw/mod.rs:15-25 *)
Definition eq_RawModule {E} (eq_ext : E -> E -> bool) (a b : RawModule E) : bool :=
  eq_Version (RawModule_version a) (RawModule_version b) && eq_Generator (RawModule_generator a) (RawModule_generator b) && N.eqb (RawModule_bound a) (RawModule_bound b) && (eq_Vec (eq_Core eq_ext)) (RawModule_instructions a) (RawModule_instructions b).

(* src/spv/raw/mod.rs:259-302 *)
Definition eq_ReadError (a b : ReadError) : bool :=
  match a, b with
  | UnexpectedEndOfStream, UnexpectedEndOfStream => true
  | UnexpectedStreamAlignment, UnexpectedStreamAlignment => true
  | BadMagic, BadMagic => true
  | UnknownVersionBytes x0 x1 x2 x3, UnknownVersionBytes y0 y1 y2 y3 => N.eqb x0 y0 && N.eqb x1 y1 && N.eqb x2 y2 && N.eqb x3 y3
  | UnknownVersion x0, UnknownVersion y0 => eq_Version x0 y0
  | UnknownReservedSchema, UnknownReservedSchema => true
  | UnknownOp x0 x1, UnknownOp y0 y1 => N.eqb x0 y0 && N.eqb x1 y1
  | UnimplementedOp x0, UnimplementedOp y0 => String.eqb x0 y0
  | WrongWordCountForOp, WrongWordCountForOp => true
  | InvalidString, InvalidString => true
  | UnexpectedEndOfInstruction, UnexpectedEndOfInstruction => true
  | InstructionHadExcessData, InstructionHadExcessData => true
  | UnknownInstSet x0, UnknownInstSet y0 => String.eqb x0 y0
  | UnknownInstSetId x0, UnknownInstSetId y0 => N.eqb x0 y0
  | UnknownExtInstOp x0 x1, UnknownExtInstOp y0 y1 => String.eqb x0 y0 && N.eqb x1 y1
  | DuplicateResultId x0, DuplicateResultId y0 => N.eqb x0 y0
  | UnknownAddressingModel x0, UnknownAddressingModel y0 => N.eqb x0 y0
  | UnknownMemoryModel x0, UnknownMemoryModel y0 => N.eqb x0 y0
  | UnknownExecutionModel x0, UnknownExecutionModel y0 => N.eqb x0 y0
  | UnknownExecutionMode x0, UnknownExecutionMode y0 => N.eqb x0 y0
  | UnknownCapability x0, UnknownCapability y0 => N.eqb x0 y0
  | UnknownDecoration x0, UnknownDecoration y0 => N.eqb x0 y0
  | UnknownBuiltIn x0, UnknownBuiltIn y0 => N.eqb x0 y0
  | UnknownFpRoundingMode x0, UnknownFpRoundingMode y0 => N.eqb x0 y0
  | UnknownFpFastMathMode x0, UnknownFpFastMathMode y0 => N.eqb x0 y0
  | UnknownLinkageType x0, UnknownLinkageType y0 => N.eqb x0 y0
  | UnknownSignedness x0, UnknownSignedness y0 => N.eqb x0 y0
  | UnknownStorageClass x0, UnknownStorageClass y0 => N.eqb x0 y0
  | UnknownFunctionParameterAttribute x0, UnknownFunctionParameterAttribute y0 => N.eqb x0 y0
  | UnknownMemoryAccess x0, UnknownMemoryAccess y0 => N.eqb x0 y0
  | UnknownDim x0, UnknownDim y0 => N.eqb x0 y0
  | UnknownDepthStatus x0, UnknownDepthStatus y0 => N.eqb x0 y0
  | UnknownArrayed x0, UnknownArrayed y0 => N.eqb x0 y0
  | UnknownMS x0, UnknownMS y0 => N.eqb x0 y0
  | UnknownSampledStatus x0, UnknownSampledStatus y0 => N.eqb x0 y0
  | UnknownImageFormat x0, UnknownImageFormat y0 => N.eqb x0 y0
  | UnknownAccessQualifier x0, UnknownAccessQualifier y0 => N.eqb x0 y0
  | UnknownLoopControl x0, UnknownLoopControl y0 => N.eqb x0 y0
  | UnknownSelectionControl x0, UnknownSelectionControl y0 => N.eqb x0 y0
  | _, _ => false
  end.

(* src/spv/logical/mod.rs:14-22 *)
Definition eq_GroupDebug (a b : GroupDebug) : bool :=
  match a, b with
  | GroupDebug_OpSourceContinued x0, GroupDebug_OpSourceContinued y0 => eq_OpSourceContinued x0 y0
  | GroupDebug_OpSource x0, GroupDebug_OpSource y0 => eq_OpSource x0 y0
  | GroupDebug_OpSourceExtension x0, GroupDebug_OpSourceExtension y0 => eq_OpSourceExtension x0 y0
  | GroupDebug_OpName x0, GroupDebug_OpName y0 => eq_OpName x0 y0
  | GroupDebug_OpMemberName x0, GroupDebug_OpMemberName y0 => eq_OpMemberName x0 y0
  | GroupDebug_OpString x0, GroupDebug_OpString y0 => eq_OpString x0 y0
  | _, _ => false
  end.

(* src/spv/logical/mod.rs:24-28 *)
Definition eq_GroupAnnotation (a b : GroupAnnotation) : bool :=
  match a, b with
  | GroupAnnotation_OpDecorate x0, GroupAnnotation_OpDecorate y0 => eq_OpDecorate x0 y0
  | GroupAnnotation_OpMemberDecorate x0, GroupAnnotation_OpMemberDecorate y0 => eq_OpMemberDecorate x0 y0
  | _, _ => false
  end.

(* src/spv/logical/mod.rs:30-52 *)
Definition eq_GroupType (a b : GroupType) : bool :=
  match a, b with
  | GroupType_OpTypeVoid x0, GroupType_OpTypeVoid y0 => eq_OpTypeVoid x0 y0
  | GroupType_OpTypeBool x0, GroupType_OpTypeBool y0 => eq_OpTypeBool x0 y0
  | GroupType_OpTypeInt x0, GroupType_OpTypeInt y0 => eq_OpTypeInt x0 y0
  | GroupType_OpTypeFloat x0, GroupType_OpTypeFloat y0 => eq_OpTypeFloat x0 y0
  | GroupType_OpTypeVector x0, GroupType_OpTypeVector y0 => eq_OpTypeVector x0 y0
  | GroupType_OpTypeMatrix x0, GroupType_OpTypeMatrix y0 => eq_OpTypeMatrix x0 y0
  | GroupType_OpTypeImage x0, GroupType_OpTypeImage y0 => eq_OpTypeImage x0 y0
  | GroupType_OpTypeSampler x0, GroupType_OpTypeSampler y0 => eq_OpTypeSampler x0 y0
  | GroupType_OpTypeSampledImage x0, GroupType_OpTypeSampledImage y0 => eq_OpTypeSampledImage x0 y0
  | GroupType_OpTypeArray x0, GroupType_OpTypeArray y0 => eq_OpTypeArray x0 y0
  | GroupType_OpTypeRuntimeArray x0, GroupType_OpTypeRuntimeArray y0 => eq_OpTypeRuntimeArray x0 y0
  | GroupType_OpTypeStruct x0, GroupType_OpTypeStruct y0 => eq_OpTypeStruct x0 y0
  | GroupType_OpTypeOpaque x0, GroupType_OpTypeOpaque y0 => eq_OpTypeOpaque x0 y0
  | GroupType_OpTypePointer x0, GroupType_OpTypePointer y0 => eq_OpTypePointer x0 y0
  | GroupType_OpTypeFunction x0, GroupType_OpTypeFunction y0 => eq_OpTypeFunction x0 y0
  | GroupType_OpTypeEvent x0, GroupType_OpTypeEvent y0 => eq_OpTypeEvent x0 y0
  | GroupType_OpTypeDeviceEvent x0, GroupType_OpTypeDeviceEvent y0 => eq_OpTypeDeviceEvent x0 y0
  | GroupType_OpTypeQueue x0, GroupType_OpTypeQueue y0 => eq_OpTypeQueue x0 y0
  | GroupType_OpTypePipe x0, GroupType_OpTypePipe y0 => eq_OpTypePipe x0 y0
  | GroupType_OpTypeForwardPointer x0, GroupType_OpTypeForwardPointer y0 => eq_OpTypeForwardPointer x0 y0
  | _, _ => false
  end.

(* src/spv/logical/mod.rs:54-58 *)
Definition eq_GroupConstant (a b : GroupConstant) : bool :=
  match a, b with
  | GroupConstant_OpConstant x0, GroupConstant_OpConstant y0 => eq_OpConstant x0 y0
  | GroupConstant_OpConstantComposite x0, GroupConstant_OpConstantComposite y0 => eq_OpConstantComposite x0 y0
  | _, _ => false
  end.

(* src/spv/logical/mod.rs:60-66 *)
Definition eq_GroupGlobal (a b : GroupGlobal) : bool :=
  match a, b with
  | GroupGlobal_GroupType x0, GroupGlobal_GroupType y0 => eq_GroupType x0 y0
  | GroupGlobal_GroupConstant x0, GroupGlobal_GroupConstant y0 => eq_GroupConstant x0 y0
  | GroupGlobal_OpVariable x0, GroupGlobal_OpVariable y0 => eq_OpVariable x0 y0
  | _, _ => false
  end.

(* src/spv/logical/mod.rs:68-124 *)
Definition eq_GroupCode {E} (eq_ext : E -> E -> bool) (a b : GroupCode E) : bool :=
  match a, b with
  | GroupCode_OpNop x0, GroupCode_OpNop y0 => eq_OpNop x0 y0
  | GroupCode_OpUndef x0, GroupCode_OpUndef y0 => eq_OpUndef x0 y0
  | GroupCode_OpExtInst x0, GroupCode_OpExtInst y0 => (eq_OpExtInst eq_ext) x0 y0
  | GroupCode_OpVariable x0, GroupCode_OpVariable y0 => eq_OpVariable x0 y0
  | GroupCode_OpLoad x0, GroupCode_OpLoad y0 => eq_OpLoad x0 y0
  | GroupCode_OpStore x0, GroupCode_OpStore y0 => eq_OpStore x0 y0
  | GroupCode_OpAccessChain x0, GroupCode_OpAccessChain y0 => eq_OpAccessChain x0 y0
  | GroupCode_OpConvertUToF x0, GroupCode_OpConvertUToF y0 => eq_OpConvertUToF x0 y0
  | GroupCode_OpBitcast x0, GroupCode_OpBitcast y0 => eq_OpBitcast x0 y0
  | GroupCode_OpIAdd x0, GroupCode_OpIAdd y0 => eq_OpIAdd x0 y0
  | GroupCode_OpFAdd x0, GroupCode_OpFAdd y0 => eq_OpFAdd x0 y0
  | GroupCode_OpISub x0, GroupCode_OpISub y0 => eq_OpISub x0 y0
  | GroupCode_OpFSub x0, GroupCode_OpFSub y0 => eq_OpFSub x0 y0
  | GroupCode_OpIMul x0, GroupCode_OpIMul y0 => eq_OpIMul x0 y0
  | GroupCode_OpFMul x0, GroupCode_OpFMul y0 => eq_OpFMul x0 y0
  | GroupCode_OpUDiv x0, GroupCode_OpUDiv y0 => eq_OpUDiv x0 y0
  | GroupCode_OpSDiv x0, GroupCode_OpSDiv y0 => eq_OpSDiv x0 y0
  | GroupCode_OpFDiv x0, GroupCode_OpFDiv y0 => eq_OpFDiv x0 y0
  | GroupCode_OpUMod x0, GroupCode_OpUMod y0 => eq_OpUMod x0 y0
  | GroupCode_OpSRem x0, GroupCode_OpSRem y0 => eq_OpSRem x0 y0
  | GroupCode_OpSMod x0, GroupCode_OpSMod y0 => eq_OpSMod x0 y0
  | GroupCode_OpFRem x0, GroupCode_OpFRem y0 => eq_OpFRem x0 y0
  | GroupCode_OpFMod x0, GroupCode_OpFMod y0 => eq_OpFMod x0 y0
  | GroupCode_OpIAddCarry x0, GroupCode_OpIAddCarry y0 => eq_OpIAddCarry x0 y0
  | GroupCode_OpISubBorrow x0, GroupCode_OpISubBorrow y0 => eq_OpISubBorrow x0 y0
  | GroupCode_OpUMulExtended x0, GroupCode_OpUMulExtended y0 => eq_OpUMulExtended x0 y0
  | GroupCode_OpSMulExtended x0, GroupCode_OpSMulExtended y0 => eq_OpSMulExtended x0 y0
  | GroupCode_OpBitwiseOr x0, GroupCode_OpBitwiseOr y0 => eq_OpBitwiseOr x0 y0
  | GroupCode_OpBitwiseXor x0, GroupCode_OpBitwiseXor y0 => eq_OpBitwiseXor x0 y0
  | GroupCode_OpBitwiseAnd x0, GroupCode_OpBitwiseAnd y0 => eq_OpBitwiseAnd x0 y0
  | GroupCode_OpIEqual x0, GroupCode_OpIEqual y0 => eq_OpIEqual x0 y0
  | GroupCode_OpINotEqual x0, GroupCode_OpINotEqual y0 => eq_OpINotEqual x0 y0
  | GroupCode_OpUGreaterThan x0, GroupCode_OpUGreaterThan y0 => eq_OpUGreaterThan x0 y0
  | GroupCode_OpSGreaterThan x0, GroupCode_OpSGreaterThan y0 => eq_OpSGreaterThan x0 y0
  | GroupCode_OpUGreaterThanEqual x0, GroupCode_OpUGreaterThanEqual y0 => eq_OpUGreaterThanEqual x0 y0
  | GroupCode_OpSGreaterThanEqual x0, GroupCode_OpSGreaterThanEqual y0 => eq_OpSGreaterThanEqual x0 y0
  | GroupCode_OpULessThan x0, GroupCode_OpULessThan y0 => eq_OpULessThan x0 y0
  | GroupCode_OpSLessThan x0, GroupCode_OpSLessThan y0 => eq_OpSLessThan x0 y0
  | GroupCode_OpULessThanEqual x0, GroupCode_OpULessThanEqual y0 => eq_OpULessThanEqual x0 y0
  | GroupCode_OpSLessThanEqual x0, GroupCode_OpSLessThanEqual y0 => eq_OpSLessThanEqual x0 y0
  | GroupCode_OpFOrdEqual x0, GroupCode_OpFOrdEqual y0 => eq_OpFOrdEqual x0 y0
  | GroupCode_OpFUnordEqual x0, GroupCode_OpFUnordEqual y0 => eq_OpFUnordEqual x0 y0
  | GroupCode_OpFOrdNotEqual x0, GroupCode_OpFOrdNotEqual y0 => eq_OpFOrdNotEqual x0 y0
  | GroupCode_OpFUnordNotEqual x0, GroupCode_OpFUnordNotEqual y0 => eq_OpFUnordNotEqual x0 y0
  | GroupCode_OpFOrdLessThan x0, GroupCode_OpFOrdLessThan y0 => eq_OpFOrdLessThan x0 y0
  | GroupCode_OpFUnordLessThan x0, GroupCode_OpFUnordLessThan y0 => eq_OpFUnordLessThan x0 y0
  | GroupCode_OpFOrdGreaterThan x0, GroupCode_OpFOrdGreaterThan y0 => eq_OpFOrdGreaterThan x0 y0
  | GroupCode_OpFUnordGreaterThan x0, GroupCode_OpFUnordGreaterThan y0 => eq_OpFUnordGreaterThan x0 y0
  | GroupCode_OpFOrdLessThanEqual x0, GroupCode_OpFOrdLessThanEqual y0 => eq_OpFOrdLessThanEqual x0 y0
  | GroupCode_OpFUnordLessThanEqual x0, GroupCode_OpFUnordLessThanEqual y0 => eq_OpFUnordLessThanEqual x0 y0
  | GroupCode_OpFOrdGreaterThanEqual x0, GroupCode_OpFOrdGreaterThanEqual y0 => eq_OpFOrdGreaterThanEqual x0 y0
  | GroupCode_OpFUnordGreaterThanEqual x0, GroupCode_OpFUnordGreaterThanEqual y0 => eq_OpFUnordGreaterThanEqual x0 y0
  | GroupCode_OpPhi x0, GroupCode_OpPhi y0 => eq_OpPhi x0 y0
  | _, _ => false
  end.

(* src/spv/logical/mod.rs:187-191 *)
Definition eq_GroupMerge (a b : GroupMerge) : bool :=
  match a, b with
  | GroupMerge_OpLoopMerge x0, GroupMerge_OpLoopMerge y0 => eq_OpLoopMerge x0 y0
  | GroupMerge_OpSelectionMerge x0, GroupMerge_OpSelectionMerge y0 => eq_OpSelectionMerge x0 y0
  | _, _ => false
  end.

(* src/spv/logical/mod.rs:193-198 *)
Definition eq_GroupBranch (a b : GroupBranch) : bool :=
  match a, b with
  | GroupBranch_OpBranch x0, GroupBranch_OpBranch y0 => eq_OpBranch x0 y0
  | GroupBranch_OpBranchConditional x0, GroupBranch_OpBranchConditional y0 => eq_OpBranchConditional x0 y0
  | GroupBranch_OpReturn x0, GroupBranch_OpReturn y0 => eq_OpReturn x0 y0
  | _, _ => false
  end.

(* src/spv/logical/mod.rs:211-215 *)
Definition eq_FunctionDeclaration (a b : FunctionDeclaration) : bool :=
  eq_OpFunction (FunctionDeclaration_function a) (FunctionDeclaration_function b) && (eq_Vec eq_OpFunctionParameter) (FunctionDeclaration_parameters a) (FunctionDeclaration_parameters b).

(* src/spv/logical/mod.rs:217-223 *)
Definition eq_BasicBlock {E} (eq_ext : E -> E -> bool) (a b : BasicBlock E) : bool :=
  eq_OpLabel (BasicBlock_label a) (BasicBlock_label b) && (eq_Vec (eq_GroupCode eq_ext)) (BasicBlock_code a) (BasicBlock_code b) && (eq_Option eq_GroupMerge) (BasicBlock_merge a) (BasicBlock_merge b) && eq_GroupBranch (BasicBlock_branch a) (BasicBlock_branch b).

(* src/spv/logical/mod.rs:225-230 *)
Definition eq_FunctionDefinition {E} (eq_ext : E -> E -> bool) (a b : FunctionDefinition E) : bool :=
  eq_OpFunction (FunctionDefinition_function a) (FunctionDefinition_function b) && (eq_Vec eq_OpFunctionParameter) (FunctionDefinition_parameters a) (FunctionDefinition_parameters b) && (eq_Vec (eq_BasicBlock eq_ext)) (FunctionDefinition_blocks a) (FunctionDefinition_blocks b).

(* src/spv/logical/mod.rs:232-245 *)
Definition eq_LogicalModule {E} (eq_ext : E -> E -> bool) (a b : LogicalModule E) : bool :=
  (eq_Vec eq_Capability) (LogicalModule_capabilities a) (LogicalModule_capabilities b) && (eq_Vec String.eqb) (LogicalModule_extensions a) (LogicalModule_extensions b) && (eq_Vec eq_OpExtInstImport) (LogicalModule_ext_inst_imports a) (LogicalModule_ext_inst_imports b) && eq_OpMemoryModel (LogicalModule_memory_model a) (LogicalModule_memory_model b) && (eq_Vec eq_OpEntryPoint) (LogicalModule_entry_points a) (LogicalModule_entry_points b) && (eq_Vec eq_OpExecutionMode) (LogicalModule_execution_modes a) (LogicalModule_execution_modes b) && (eq_Vec eq_GroupDebug) (LogicalModule_debug a) (LogicalModule_debug b) && (eq_Vec eq_GroupAnnotation) (LogicalModule_annotations a) (LogicalModule_annotations b) && (eq_Vec eq_GroupGlobal) (LogicalModule_globals a) (LogicalModule_globals b) && (eq_Vec eq_FunctionDeclaration) (LogicalModule_function_declarations a) (LogicalModule_function_declarations b) && (eq_Vec (eq_FunctionDefinition eq_ext)) (LogicalModule_function_definitions a) (LogicalModule_function_definitions b).
