(* GENERATED by tools/count.py from ReadOperands.v; do not edit by hand. *)
From Verif Require Import Base Types ReadErr ReadBase CountBase.
Local Open Scope N_scope.

(** The readers of ReadOperands.v with their steps. *)

(* src/spv/raw/mod.rs:396-401 *)
Definition count_OpId : CountReader OpId := fun block =>
  let+ (block, id) := count_word block in count_Ok (block, id).

(* src/spv/raw/mod.rs:403-408 *)
Definition count_ResultId : CountReader ResultId := fun block =>
  let+ (block, id) := count_word block in count_Ok (block, id).

(* src/spv/raw/mod.rs:435-439 *)
Definition count_u32 : CountReader N := fun block => count_word block.

(* src/spv/raw/mod.rs:481-486 *)
Definition count_SourceVersion : CountReader SourceVersion := fun block =>
  let+ (block, word) := count_word block in count_Ok (block, word).

(* src/spv/raw/mod.rs:488-493 *)
Definition count_MemberIndex : CountReader MemberIndex := fun block =>
  let+ (block, word) := count_word block in count_Ok (block, word).

(* src/spv/raw/mod.rs:466-479 *)
Definition count_SourceLanguage : CountReader SourceLanguage := fun block =>
  let+ (block, word) := count_word block in
  match word with
  | 0 => count_Ok (block, SourceLanguage_Unknown)
  | 1 => count_Ok (block, SourceLanguage_Essl)
  | 2 => count_Ok (block, SourceLanguage_Glsl)
  | 3 => count_Ok (block, SourceLanguage_OpenCL_C)
  | 4 => count_Ok (block, SourceLanguage_OpenCL_Cpp)
  | id => count_Ok (block, SourceLanguage_Other id)
  end.

(* src/spv/raw/mod.rs:495-506 *)
Definition count_AddressingModel : CountReader AddressingModel := fun block =>
  let+ (block, word) := count_word block in
  match word with
  | 0 => count_Ok (block, AddressingModel_Logical)
  | 1 => count_Ok (block, AddressingModel_Physical32)
  | 2 => count_Ok (block, AddressingModel_Physical64)
  | id => count_Err (UnknownAddressingModel id)
  end.

(* src/spv/raw/mod.rs:508-519 *)
Definition count_MemoryModel : CountReader MemoryModel := fun block =>
  let+ (block, word) := count_word block in
  match word with
  | 0 => count_Ok (block, MemoryModel_Simple)
  | 1 => count_Ok (block, MemoryModel_Glsl450)
  | 2 => count_Ok (block, MemoryModel_OpenCL)
  | id => count_Err (UnknownMemoryModel id)
  end.

(* src/spv/raw/mod.rs:521-536 *)
Definition count_ExecutionModel : CountReader ExecutionModel := fun block =>
  let+ (block, word) := count_word block in
  match word with
  | 0 => count_Ok (block, ExecutionModel_Vertex)
  | 1 => count_Ok (block, ExecutionModel_TesselationControl)
  | 2 => count_Ok (block, ExecutionModel_TesselationEvaluation)
  | 3 => count_Ok (block, ExecutionModel_Geometry)
  | 4 => count_Ok (block, ExecutionModel_Fragment)
  | 5 => count_Ok (block, ExecutionModel_GlCompute)
  | 6 => count_Ok (block, ExecutionModel_Kernel)
  | id => count_Err (UnknownExecutionModel id)
  end.

(* src/spv/raw/mod.rs:538-596 *)
Definition count_ExecutionMode : CountReader ExecutionMode := fun block =>
  let+ (block, word) := count_word block in
  match word with
  | 0 =>
      let+ (block, num) := count_u32 block in
      count_Ok (block, ExecutionMode_Invocations num)
  | 1 => count_Ok (block, ExecutionMode_SpacingEqual)
  | 2 => count_Ok (block, ExecutionMode_SpacingFractionalEven)
  | 3 => count_Ok (block, ExecutionMode_SpacingFractionalOdd)
  | 4 => count_Ok (block, ExecutionMode_VertexOrderCw)
  | 5 => count_Ok (block, ExecutionMode_VertexOrderCcw)
  | 6 => count_Ok (block, ExecutionMode_PixelCenterInteger)
  | 7 => count_Ok (block, ExecutionMode_OriginUpperLeft)
  | 8 => count_Ok (block, ExecutionMode_OriginLowerLeft)
  | 9 => count_Ok (block, ExecutionMode_EarlyFragmentTests)
  | 10 => count_Ok (block, ExecutionMode_PointMode)
  | 11 => count_Ok (block, ExecutionMode_Xfb)
  | 12 => count_Ok (block, ExecutionMode_DepthReplacing)
  | 14 => count_Ok (block, ExecutionMode_DepthGreater)
  | 15 => count_Ok (block, ExecutionMode_DepthLess)
  | 16 => count_Ok (block, ExecutionMode_DepthUnchanged)
  | 17 =>
      let+ (block, x) := count_u32 block in
      let+ (block, y) := count_u32 block in
      let+ (block, z) := count_u32 block in
      count_Ok (block, ExecutionMode_LocalSize x y z)
  | 18 =>
      let+ (block, x) := count_u32 block in
      let+ (block, y) := count_u32 block in
      let+ (block, z) := count_u32 block in
      count_Ok (block, ExecutionMode_LocalSizeHint x y z)
  | 19 => count_Ok (block, ExecutionMode_InputPoints)
  | 20 => count_Ok (block, ExecutionMode_InputLines)
  | 21 => count_Ok (block, ExecutionMode_InputLinesAdjacency)
  | 22 => count_Ok (block, ExecutionMode_Triangles)
  | 23 => count_Ok (block, ExecutionMode_InputTrianglesAdjacency)
  | 24 => count_Ok (block, ExecutionMode_Quads)
  | 25 => count_Ok (block, ExecutionMode_Isolines)
  | 26 =>
      let+ (block, num) := count_u32 block in
      count_Ok (block, ExecutionMode_OutputVerticies num)
  | 27 => count_Ok (block, ExecutionMode_OutputPoints)
  | 28 => count_Ok (block, ExecutionMode_OutputLineStrip)
  | 29 => count_Ok (block, ExecutionMode_OutputTriangleStrip)
  | 30 =>
      let+ (block, id) := count_OpId block in
      count_Ok (block, ExecutionMode_VecTypeHint id)
  | 31 => count_Ok (block, ExecutionMode_ContractionOff)
  | id => count_Err (UnknownExecutionMode id)
  end.

(* src/spv/raw/mod.rs:598-662 *)
Definition count_Capability : CountReader Capability := fun block =>
  let+ (block, word) := count_word block in
  match word with
  | 0 => count_Ok (block, Capability_Matrix)
  | 1 => count_Ok (block, Capability_Shader)
  | 2 => count_Ok (block, Capability_Geometry)
  | 3 => count_Ok (block, Capability_Tessellation)
  | 4 => count_Ok (block, Capability_Addresses)
  | 5 => count_Ok (block, Capability_Linkage)
  | 6 => count_Ok (block, Capability_Kernel)
  | 7 => count_Ok (block, Capability_Vector16)
  | 8 => count_Ok (block, Capability_Float16Buffer)
  | 9 => count_Ok (block, Capability_Float16)
  | 10 => count_Ok (block, Capability_Float64)
  | 11 => count_Ok (block, Capability_Int64)
  | 12 => count_Ok (block, Capability_Int64Atomics)
  | 13 => count_Ok (block, Capability_ImageBasic)
  | 14 => count_Ok (block, Capability_ImageReadWrite)
  | 15 => count_Ok (block, Capability_ImageMipmap)
  | 17 => count_Ok (block, Capability_Pipes)
  | 18 => count_Ok (block, Capability_Groups)
  | 19 => count_Ok (block, Capability_DeviceEnqueue)
  | 20 => count_Ok (block, Capability_LiteralSampler)
  | 21 => count_Ok (block, Capability_AtomicStorage)
  | 22 => count_Ok (block, Capability_Int16)
  | 23 => count_Ok (block, Capability_TessellationPointSize)
  | 24 => count_Ok (block, Capability_GeometryPointSize)
  | 25 => count_Ok (block, Capability_ImageGatherExtended)
  | 27 => count_Ok (block, Capability_StorageImageMultisample)
  | 28 => count_Ok (block, Capability_UniformBufferArrayDynamicIndexing)
  | 29 => count_Ok (block, Capability_SampledImageArrayDynamicIndexing)
  | 30 => count_Ok (block, Capability_StorageBufferArrayDynamicIndexing)
  | 31 => count_Ok (block, Capability_StorageImageArrayDynamicIndexing)
  | 32 => count_Ok (block, Capability_ClipDistance)
  | 33 => count_Ok (block, Capability_CullDistance)
  | 34 => count_Ok (block, Capability_ImageCubeArray)
  | 35 => count_Ok (block, Capability_SampleRateShading)
  | 36 => count_Ok (block, Capability_ImageRect)
  | 37 => count_Ok (block, Capability_SampledRect)
  | 38 => count_Ok (block, Capability_GenericPointer)
  | 39 => count_Ok (block, Capability_Int8)
  | 40 => count_Ok (block, Capability_InputAttachment)
  | 41 => count_Ok (block, Capability_SparseResidency)
  | 42 => count_Ok (block, Capability_MinLod)
  | 43 => count_Ok (block, Capability_Sampled1D)
  | 44 => count_Ok (block, Capability_Image1D)
  | 45 => count_Ok (block, Capability_SampledCubeArray)
  | 46 => count_Ok (block, Capability_SampledBuffer)
  | 47 => count_Ok (block, Capability_ImageBuffer)
  | 48 => count_Ok (block, Capability_ImageMSArray)
  | 49 => count_Ok (block, Capability_StorageImageExtendedFormats)
  | 50 => count_Ok (block, Capability_ImageQuery)
  | 51 => count_Ok (block, Capability_DerivativeControl)
  | 52 => count_Ok (block, Capability_InterpolationFunction)
  | 53 => count_Ok (block, Capability_TransformFeedback)
  | 54 => count_Ok (block, Capability_GeometryStreams)
  | 55 => count_Ok (block, Capability_StorageImageReadWithoutFormat)
  | 56 => count_Ok (block, Capability_StorageImageWriteWithoutFormat)
  | 57 => count_Ok (block, Capability_MultiViewport)
  | id => count_Err (UnknownCapability id)
  end.

(* src/spv/raw/mod.rs:664-674 *)
Definition count_Signedness : CountReader Signedness := fun block =>
  let+ (block, word) := count_word block in
  match word with
  | 0 => count_Ok (block, Signedness_UnsignedOrNone)
  | 1 => count_Ok (block, Signedness_Signed)
  | id => count_Err (UnknownSignedness id)
  end.

(* src/spv/raw/mod.rs:676-691 *)
Definition count_Dim : CountReader Dim := fun block =>
  let+ (block, word) := count_word block in
  match word with
  | 0 => count_Ok (block, Dim_Tex1D)
  | 1 => count_Ok (block, Dim_Tex2D)
  | 2 => count_Ok (block, Dim_Tex3D)
  | 3 => count_Ok (block, Dim_Cube)
  | 4 => count_Ok (block, Dim_Rect)
  | 5 => count_Ok (block, Dim_Buffer)
  | 6 => count_Ok (block, Dim_SubpassData)
  | n => count_Err (UnknownDim n)
  end.

(* src/spv/raw/mod.rs:693-704 *)
Definition count_DepthStatus : CountReader DepthStatus := fun block =>
  let+ (block, word) := count_word block in
  match word with
  | 0 => count_Ok (block, DepthStatus_NotDepth)
  | 1 => count_Ok (block, DepthStatus_Depth)
  | 2 => count_Ok (block, DepthStatus_NoIndication)
  | n => count_Err (UnknownDepthStatus n)
  end.

(* src/spv/raw/mod.rs:706-716 *)
Definition count_Arrayed : CountReader Arrayed := fun block =>
  let+ (block, word) := count_word block in
  match word with
  | 0 => count_Ok (block, Arrayed_False)
  | 1 => count_Ok (block, Arrayed_True)
  | n => count_Err (UnknownArrayed n)
  end.

(* src/spv/raw/mod.rs:718-728 *)
Definition count_MS : CountReader MS := fun block =>
  let+ (block, word) := count_word block in
  match word with
  | 0 => count_Ok (block, MS_Single)
  | 1 => count_Ok (block, MS_Multi)
  | n => count_Err (UnknownMS n)
  end.

(* src/spv/raw/mod.rs:730-741 *)
Definition count_SampledStatus : CountReader SampledStatus := fun block =>
  let+ (block, word) := count_word block in
  match word with
  | 0 => count_Ok (block, SampledStatus_RuntimeChoice)
  | 1 => count_Ok (block, SampledStatus_WithSampler)
  | 2 => count_Ok (block, SampledStatus_WithoutSampler)
  | n => count_Err (UnknownSampledStatus n)
  end.

(* src/spv/raw/mod.rs:743-791 *)
Definition count_ImageFormat : CountReader ImageFormat := fun block =>
  let+ (block, word) := count_word block in
  match word with
  | 0 => count_Ok (block, ImageFormat_Unknown)
  | 1 => count_Ok (block, ImageFormat_Rgba32f)
  | 2 => count_Ok (block, ImageFormat_Rgba16f)
  | 3 => count_Ok (block, ImageFormat_R32f)
  | 4 => count_Ok (block, ImageFormat_Rgba8)
  | 5 => count_Ok (block, ImageFormat_Rgba8Snorm)
  | 6 => count_Ok (block, ImageFormat_Rg32f)
  | 7 => count_Ok (block, ImageFormat_Rg16f)
  | 8 => count_Ok (block, ImageFormat_R11fG11fB10f)
  | 9 => count_Ok (block, ImageFormat_R16f)
  | 10 => count_Ok (block, ImageFormat_Rgba16)
  | 11 => count_Ok (block, ImageFormat_Rgb10A2)
  | 12 => count_Ok (block, ImageFormat_Rg16)
  | 13 => count_Ok (block, ImageFormat_Rg8)
  | 14 => count_Ok (block, ImageFormat_R16)
  | 15 => count_Ok (block, ImageFormat_R8)
  | 16 => count_Ok (block, ImageFormat_Rgba16Snorm)
  | 17 => count_Ok (block, ImageFormat_Rg16Snorm)
  | 18 => count_Ok (block, ImageFormat_Rg8Snorm)
  | 19 => count_Ok (block, ImageFormat_R16Snorm)
  | 20 => count_Ok (block, ImageFormat_R8Snorm)
  | 21 => count_Ok (block, ImageFormat_Rgba32i)
  | 22 => count_Ok (block, ImageFormat_Rgba16i)
  | 23 => count_Ok (block, ImageFormat_Rgba8i)
  | 24 => count_Ok (block, ImageFormat_R32i)
  | 25 => count_Ok (block, ImageFormat_Rg32i)
  | 26 => count_Ok (block, ImageFormat_Rg16i)
  | 27 => count_Ok (block, ImageFormat_Rg8i)
  | 28 => count_Ok (block, ImageFormat_R16i)
  | 29 => count_Ok (block, ImageFormat_R8i)
  | 30 => count_Ok (block, ImageFormat_Rgba32ui)
  | 31 => count_Ok (block, ImageFormat_Rgba16ui)
  | 32 => count_Ok (block, ImageFormat_Rgba8ui)
  | 33 => count_Ok (block, ImageFormat_R32ui)
  | 34 => count_Ok (block, ImageFormat_Rgb10a2ui)
  | 35 => count_Ok (block, ImageFormat_Rg32ui)
  | 36 => count_Ok (block, ImageFormat_Rg16ui)
  | 37 => count_Ok (block, ImageFormat_Rg8ui)
  | 38 => count_Ok (block, ImageFormat_R16ui)
  | 39 => count_Ok (block, ImageFormat_R8ui)
  | n => count_Err (UnknownImageFormat n)
  end.

(* src/spv/raw/mod.rs:793-804 *)
Definition count_AccessQualifier : CountReader AccessQualifier := fun block =>
  let+ (block, word) := count_word block in
  match word with
  | 0 => count_Ok (block, AccessQualifier_ReadOnly)
  | 1 => count_Ok (block, AccessQualifier_WriteOnly)
  | 2 => count_Ok (block, AccessQualifier_ReadWrite)
  | n => count_Err (UnknownAccessQualifier n)
  end.

(* src/spv/raw/mod.rs:806-826 *)
Definition count_StorageClass : CountReader StorageClass := fun block =>
  let+ (block, word) := count_word block in
  match word with
  | 0 => count_Ok (block, StorageClass_UniformConstant)
  | 1 => count_Ok (block, StorageClass_Input)
  | 2 => count_Ok (block, StorageClass_Uniform)
  | 3 => count_Ok (block, StorageClass_Output)
  | 4 => count_Ok (block, StorageClass_Workgroup)
  | 5 => count_Ok (block, StorageClass_CrossWorkgroup)
  | 6 => count_Ok (block, StorageClass_Private)
  | 7 => count_Ok (block, StorageClass_Function)
  | 8 => count_Ok (block, StorageClass_Generic)
  | 9 => count_Ok (block, StorageClass_PushConstant)
  | 10 => count_Ok (block, StorageClass_AtomicCounter)
  | 11 => count_Ok (block, StorageClass_Image)
  | n => count_Err (UnknownStorageClass n)
  end.

(* src/spv/raw/mod.rs:856-905 *)
Definition count_BuiltIn : CountReader BuiltIn := fun block =>
  let+ (block, word) := count_word block in
  match word with
  | 0 => count_Ok (block, BuiltIn_Position)
  | 1 => count_Ok (block, BuiltIn_PointSize)
  | 3 => count_Ok (block, BuiltIn_ClipDistance)
  | 4 => count_Ok (block, BuiltIn_CullDistance)
  | 5 => count_Ok (block, BuiltIn_VertexId)
  | 6 => count_Ok (block, BuiltIn_InstanceId)
  | 7 => count_Ok (block, BuiltIn_PrimitiveId)
  | 8 => count_Ok (block, BuiltIn_InvocationId)
  | 9 => count_Ok (block, BuiltIn_Layer)
  | 10 => count_Ok (block, BuiltIn_ViewportIndex)
  | 11 => count_Ok (block, BuiltIn_TessLevelOuter)
  | 12 => count_Ok (block, BuiltIn_TessLevelInner)
  | 13 => count_Ok (block, BuiltIn_TessCoord)
  | 14 => count_Ok (block, BuiltIn_PatchVerticies)
  | 15 => count_Ok (block, BuiltIn_FragCoord)
  | 16 => count_Ok (block, BuiltIn_PointCoord)
  | 17 => count_Ok (block, BuiltIn_FrontFacing)
  | 18 => count_Ok (block, BuiltIn_SampleId)
  | 19 => count_Ok (block, BuiltIn_SamplePosition)
  | 20 => count_Ok (block, BuiltIn_SampleMask)
  | 22 => count_Ok (block, BuiltIn_FragDepth)
  | 23 => count_Ok (block, BuiltIn_HelperInvocation)
  | 24 => count_Ok (block, BuiltIn_NumWorkgroups)
  | 25 => count_Ok (block, BuiltIn_WorkgroupSize)
  | 26 => count_Ok (block, BuiltIn_WorkgroupId)
  | 27 => count_Ok (block, BuiltIn_LocalInvocationId)
  | 28 => count_Ok (block, BuiltIn_GlobalInvocationId)
  | 29 => count_Ok (block, BuiltIn_LocalInvocationIndex)
  | 30 => count_Ok (block, BuiltIn_WorkDim)
  | 31 => count_Ok (block, BuiltIn_GlobalSize)
  | 32 => count_Ok (block, BuiltIn_EnqueuedWorkgroupSize)
  | 33 => count_Ok (block, BuiltIn_GlobalOffset)
  | 34 => count_Ok (block, BuiltIn_GlobalLinearId)
  | 36 => count_Ok (block, BuiltIn_SubgroupSize)
  | 37 => count_Ok (block, BuiltIn_SubgroupMaxSize)
  | 38 => count_Ok (block, BuiltIn_NumSubgroups)
  | 39 => count_Ok (block, BuiltIn_NumEnqueuedSubgroups)
  | 40 => count_Ok (block, BuiltIn_SubgroupId)
  | 41 => count_Ok (block, BuiltIn_SubgroupLocalInvocationId)
  | 42 => count_Ok (block, BuiltIn_VertexIndex)
  | 43 => count_Ok (block, BuiltIn_InstanceIndex)
  | id => count_Err (UnknownBuiltIn id)
  end.

(* src/spv/raw/mod.rs:907-923 *)
Definition count_FunctionParameterAttribute : CountReader FunctionParameterAttribute := fun block =>
  let+ (block, word) := count_word block in
  match word with
  | 0 => count_Ok (block, FunctionParameterAttribute_Zext)
  | 1 => count_Ok (block, FunctionParameterAttribute_Sext)
  | 2 => count_Ok (block, FunctionParameterAttribute_ByVal)
  | 3 => count_Ok (block, FunctionParameterAttribute_Sret)
  | 4 => count_Ok (block, FunctionParameterAttribute_NoAlias)
  | 5 => count_Ok (block, FunctionParameterAttribute_NoCapture)
  | 6 => count_Ok (block, FunctionParameterAttribute_NoWrite)
  | 7 => count_Ok (block, FunctionParameterAttribute_NoReadWrite)
  | id => count_Err (UnknownFunctionParameterAttribute id)
  end.

(* src/spv/raw/mod.rs:925-937 *)
Definition count_FpRoundingMode : CountReader FpRoundingMode := fun block =>
  let+ (block, word) := count_word block in
  match word with
  | 0 => count_Ok (block, FpRoundingMode_Rte)
  | 1 => count_Ok (block, FpRoundingMode_Rtz)
  | 2 => count_Ok (block, FpRoundingMode_Rtp)
  | 3 => count_Ok (block, FpRoundingMode_Rtn)
  | id => count_Err (UnknownFpRoundingMode id)
  end.

(* src/spv/raw/mod.rs:956-966 *)
Definition count_LinkageType : CountReader LinkageType := fun block =>
  let+ (block, word) := count_word block in
  match word with
  | 0 => count_Ok (block, LinkageType_Export)
  | 1 => count_Ok (block, LinkageType_Import)
  | id => count_Err (UnknownLinkageType id)
  end.

(* src/spv/raw/mod.rs:828-839 *)
Definition count_FunctionControl : CountReader FunctionControl := fun block =>
  let+ (block, value) := count_word block in
  count_Ok (block, {| FunctionControl_inline := nonzero (N.land value 0x1);
                FunctionControl_dont_inline := nonzero (N.land value 0x2);
                FunctionControl_pure_function := nonzero (N.land value 0x4);
                FunctionControl_const_function := nonzero (N.land value 0x8) |}).

(* src/spv/raw/mod.rs:841-854 *)
Definition count_MemoryAccess : CountReader MemoryAccess := fun block =>
  let+ (block, memory_access_word) := count_word block in
  if nonzero (N.land memory_access_word 0xFFF8) then count_Err (UnknownMemoryAccess memory_access_word) else
  count_Ok (block, {| MemoryAccess_volatile := nonzero (N.land memory_access_word 0x1);
                MemoryAccess_aligned := nonzero (N.land memory_access_word 0x2);
                MemoryAccess_non_temporal := nonzero (N.land memory_access_word 0x4) |}).

(* src/spv/raw/mod.rs:939-954 *)
Definition count_FpFastMathMode : CountReader FpFastMathMode := fun block =>
  let+ (block, id) := count_word block in
  if nonzero (N.land id 0xFFC0) then count_Err (UnknownFpFastMathMode id) else
  count_Ok (block, {| FpFastMathMode_not_nan := nonzero (N.land id 0x1);
                FpFastMathMode_not_inf := nonzero (N.land id 0x2);
                FpFastMathMode_nsz := nonzero (N.land id 0x4);
                FpFastMathMode_allow_recip := nonzero (N.land id 0x8);
                FpFastMathMode_fast := nonzero (N.land id 0x10) |}).

(* src/spv/raw/mod.rs:968-1077 *)
Definition count_Decoration : CountReader Decoration := fun block =>
  let+ (block, word) := count_word block in
  match word with
  | 0 => count_Ok (block, Decoration_RelaxedPrecision)
  | 1 =>
      let+ (block, num) := count_u32 block in
      count_Ok (block, Decoration_SpecId num)
  | 2 => count_Ok (block, Decoration_Block)
  | 3 => count_Ok (block, Decoration_BufferBlock)
  | 4 => count_Ok (block, Decoration_RowMajor)
  | 5 => count_Ok (block, Decoration_ColMajor)
  | 6 =>
      let+ (block, num) := count_u32 block in
      count_Ok (block, Decoration_ArrayStride num)
  | 7 =>
      let+ (block, num) := count_u32 block in
      count_Ok (block, Decoration_MatrixStride num)
  | 8 => count_Ok (block, Decoration_GlslShared)
  | 9 => count_Ok (block, Decoration_GlslPacked)
  | 10 => count_Ok (block, Decoration_CPacked)
  | 11 =>
      let+ (block, num) := count_BuiltIn block in
      count_Ok (block, Decoration_BuiltIn num)
  | 13 => count_Ok (block, Decoration_NoPerspective)
  | 14 => count_Ok (block, Decoration_Flat)
  | 15 => count_Ok (block, Decoration_Patch)
  | 16 => count_Ok (block, Decoration_Centroid)
  | 17 => count_Ok (block, Decoration_Sample)
  | 18 => count_Ok (block, Decoration_Invariant)
  | 19 => count_Ok (block, Decoration_Restrict)
  | 20 => count_Ok (block, Decoration_Aliased)
  | 21 => count_Ok (block, Decoration_Volatile)
  | 22 => count_Ok (block, Decoration_Constant)
  | 23 => count_Ok (block, Decoration_Coherent)
  | 24 => count_Ok (block, Decoration_NonWritable)
  | 25 => count_Ok (block, Decoration_NonReadable)
  | 26 => count_Ok (block, Decoration_Uniform)
  | 28 => count_Ok (block, Decoration_SaturatedConversion)
  | 29 =>
      let+ (block, num) := count_u32 block in
      count_Ok (block, Decoration_Stream num)
  | 30 =>
      let+ (block, num) := count_u32 block in
      count_Ok (block, Decoration_Location num)
  | 31 =>
      let+ (block, num) := count_u32 block in
      count_Ok (block, Decoration_Component num)
  | 32 =>
      let+ (block, num) := count_u32 block in
      count_Ok (block, Decoration_Index num)
  | 33 =>
      let+ (block, num) := count_u32 block in
      count_Ok (block, Decoration_Binding num)
  | 34 =>
      let+ (block, num) := count_u32 block in
      count_Ok (block, Decoration_DescriptorSet num)
  | 35 =>
      let+ (block, num) := count_u32 block in
      count_Ok (block, Decoration_Offset num)
  | 36 =>
      let+ (block, num) := count_u32 block in
      count_Ok (block, Decoration_XfbBuffer num)
  | 37 =>
      let+ (block, num) := count_u32 block in
      count_Ok (block, Decoration_XfbStride num)
  | 38 =>
      let+ (block, item) := count_FunctionParameterAttribute block in
      count_Ok (block, Decoration_FuncParamAttr item)
  | 39 =>
      let+ (block, item) := count_FpRoundingMode block in
      count_Ok (block, Decoration_FpRoundingMode item)
  | 40 =>
      let+ (block, item) := count_FpFastMathMode block in
      count_Ok (block, Decoration_FpFastMathMode item)
  | 41 =>
      let+ (block, name) := count_LitString block in
      let+ (block, linkage_type) := count_LinkageType block in
      count_Ok (block, Decoration_LinkageAttributes name linkage_type)
  | 42 => count_Ok (block, Decoration_NoContraction)
  | 43 =>
      let+ (block, num) := count_u32 block in
      count_Ok (block, Decoration_InputAttachmentIndex num)
  | 44 =>
      let+ (block, num) := count_u32 block in
      count_Ok (block, Decoration_Alignment num)
  | id => count_Err (UnknownDecoration id)
  end.

(* src/spv/raw/mod.rs:1079-1100 *)
Definition count_LoopControl : CountReader LoopControl := fun block =>
  let+ (block, word) := count_word block in
  if nonzero (N.land word 0xFFF0) then count_Err (UnknownLoopControl word) else
  let dependency_length_val := nonzero (N.land word 0x8) in
  let+ (block, dependency_length) :=
    if dependency_length_val
    then (let+ (block, num) := count_word block in count_Ok (block, Some num))
    else count_Ok (block, None) in
  count_Ok (block, {| LoopControl_unroll := nonzero (N.land word 0x1);
                LoopControl_dont_unroll := nonzero (N.land word 0x2);
                LoopControl_dependency_infinite := nonzero (N.land word 0x4);
                LoopControl_dependency_length := dependency_length |}).

(* src/spv/raw/mod.rs:1102-1114 *)
Definition count_SelectionControl : CountReader SelectionControl := fun block =>
  let+ (block, word) := count_word block in
  if nonzero (N.land word 0xFFFC) then count_Err (UnknownSelectionControl word) else
  count_Ok (block, {| SelectionControl_flatten := nonzero (N.land word 0x1);
                SelectionControl_dont_flatten := nonzero (N.land word 0x2) |}).

(* src/spv/raw/mod.rs:1116-1126 *)
Definition count_BranchWeights : CountReader BranchWeights := fun block =>
  let+ (block, w1) := count_word block in
  let+ (block, w2) := count_word block in
  count_Ok (block, {| BranchWeights_true_weight := w1; BranchWeights_false_weight := w2 |}).

(* src/spv/raw/mod.rs:1128-1138 *)
Definition count_PhiArg : CountReader PhiArg := fun block =>
  let+ (block, variable) := count_OpId block in
  let+ (block, parent) := count_OpId block in
  count_Ok (block, {| PhiArg_variable := variable; PhiArg_parent := parent |}).
