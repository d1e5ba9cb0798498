(* GENERATED by tools/gen.py from /repo; do not edit by hand. *)
From Verif Require Import Base Types ReadErr Utf8 ReadBase.
Local Open Scope N_scope.

(** MemoryBlockRead implementations of src/spv/raw/mod.rs. *)

(* src/spv/raw/mod.rs:396-401 *)
Definition read_OpId : Reader OpId := fun block =>
  let! (block, id) := read_word block in Ok (block, id).

(* src/spv/raw/mod.rs:403-408 *)
Definition read_ResultId : Reader ResultId := fun block =>
  let! (block, id) := read_word block in Ok (block, id).

(* src/spv/raw/mod.rs:435-439 *)
Definition read_u32 : Reader N := fun block => read_word block.

(* src/spv/raw/mod.rs:481-486 *)
Definition read_SourceVersion : Reader SourceVersion := fun block =>
  let! (block, word) := read_word block in Ok (block, word).

(* src/spv/raw/mod.rs:488-493 *)
Definition read_MemberIndex : Reader MemberIndex := fun block =>
  let! (block, word) := read_word block in Ok (block, word).

(* src/spv/raw/mod.rs:466-479 *)
Definition read_SourceLanguage : Reader SourceLanguage := fun block =>
  let! (block, word) := read_word block in
  match word with
  | 0 => Ok (block, SourceLanguage_Unknown)
  | 1 => Ok (block, SourceLanguage_Essl)
  | 2 => Ok (block, SourceLanguage_Glsl)
  | 3 => Ok (block, SourceLanguage_OpenCL_C)
  | 4 => Ok (block, SourceLanguage_OpenCL_Cpp)
  | id => Ok (block, SourceLanguage_Other id)
  end.

(* src/spv/raw/mod.rs:495-506 *)
Definition read_AddressingModel : Reader AddressingModel := fun block =>
  let! (block, word) := read_word block in
  match word with
  | 0 => Ok (block, AddressingModel_Logical)
  | 1 => Ok (block, AddressingModel_Physical32)
  | 2 => Ok (block, AddressingModel_Physical64)
  | id => Err (UnknownAddressingModel id)
  end.

(* src/spv/raw/mod.rs:508-519 *)
Definition read_MemoryModel : Reader MemoryModel := fun block =>
  let! (block, word) := read_word block in
  match word with
  | 0 => Ok (block, MemoryModel_Simple)
  | 1 => Ok (block, MemoryModel_Glsl450)
  | 2 => Ok (block, MemoryModel_OpenCL)
  | id => Err (UnknownMemoryModel id)
  end.

(* src/spv/raw/mod.rs:521-536 *)
Definition read_ExecutionModel : Reader ExecutionModel := fun block =>
  let! (block, word) := read_word block in
  match word with
  | 0 => Ok (block, ExecutionModel_Vertex)
  | 1 => Ok (block, ExecutionModel_TesselationControl)
  | 2 => Ok (block, ExecutionModel_TesselationEvaluation)
  | 3 => Ok (block, ExecutionModel_Geometry)
  | 4 => Ok (block, ExecutionModel_Fragment)
  | 5 => Ok (block, ExecutionModel_GlCompute)
  | 6 => Ok (block, ExecutionModel_Kernel)
  | id => Err (UnknownExecutionModel id)
  end.

(* src/spv/raw/mod.rs:538-596 *)
Definition read_ExecutionMode : Reader ExecutionMode := fun block =>
  let! (block, word) := read_word block in
  match word with
  | 0 =>
      let! (block, num) := read_u32 block in
      Ok (block, ExecutionMode_Invocations num)
  | 1 => Ok (block, ExecutionMode_SpacingEqual)
  | 2 => Ok (block, ExecutionMode_SpacingFractionalEven)
  | 3 => Ok (block, ExecutionMode_SpacingFractionalOdd)
  | 4 => Ok (block, ExecutionMode_VertexOrderCw)
  | 5 => Ok (block, ExecutionMode_VertexOrderCcw)
  | 6 => Ok (block, ExecutionMode_PixelCenterInteger)
  | 7 => Ok (block, ExecutionMode_OriginUpperLeft)
  | 8 => Ok (block, ExecutionMode_OriginLowerLeft)
  | 9 => Ok (block, ExecutionMode_EarlyFragmentTests)
  | 10 => Ok (block, ExecutionMode_PointMode)
  | 11 => Ok (block, ExecutionMode_Xfb)
  | 12 => Ok (block, ExecutionMode_DepthReplacing)
  | 14 => Ok (block, ExecutionMode_DepthGreater)
  | 15 => Ok (block, ExecutionMode_DepthLess)
  | 16 => Ok (block, ExecutionMode_DepthUnchanged)
  | 17 =>
      let! (block, x) := read_u32 block in
      let! (block, y) := read_u32 block in
      let! (block, z) := read_u32 block in
      Ok (block, ExecutionMode_LocalSize x y z)
  | 18 =>
      let! (block, x) := read_u32 block in
      let! (block, y) := read_u32 block in
      let! (block, z) := read_u32 block in
      Ok (block, ExecutionMode_LocalSizeHint x y z)
  | 19 => Ok (block, ExecutionMode_InputPoints)
  | 20 => Ok (block, ExecutionMode_InputLines)
  | 21 => Ok (block, ExecutionMode_InputLinesAdjacency)
  | 22 => Ok (block, ExecutionMode_Triangles)
  | 23 => Ok (block, ExecutionMode_InputTrianglesAdjacency)
  | 24 => Ok (block, ExecutionMode_Quads)
  | 25 => Ok (block, ExecutionMode_Isolines)
  | 26 =>
      let! (block, num) := read_u32 block in
      Ok (block, ExecutionMode_OutputVerticies num)
  | 27 => Ok (block, ExecutionMode_OutputPoints)
  | 28 => Ok (block, ExecutionMode_OutputLineStrip)
  | 29 => Ok (block, ExecutionMode_OutputTriangleStrip)
  | 30 =>
      let! (block, id) := read_OpId block in
      Ok (block, ExecutionMode_VecTypeHint id)
  | 31 => Ok (block, ExecutionMode_ContractionOff)
  | id => Err (UnknownExecutionMode id)
  end.

(* src/spv/raw/mod.rs:598-662 *)
Definition read_Capability : Reader Capability := fun block =>
  let! (block, word) := read_word block in
  match word with
  | 0 => Ok (block, Capability_Matrix)
  | 1 => Ok (block, Capability_Shader)
  | 2 => Ok (block, Capability_Geometry)
  | 3 => Ok (block, Capability_Tessellation)
  | 4 => Ok (block, Capability_Addresses)
  | 5 => Ok (block, Capability_Linkage)
  | 6 => Ok (block, Capability_Kernel)
  | 7 => Ok (block, Capability_Vector16)
  | 8 => Ok (block, Capability_Float16Buffer)
  | 9 => Ok (block, Capability_Float16)
  | 10 => Ok (block, Capability_Float64)
  | 11 => Ok (block, Capability_Int64)
  | 12 => Ok (block, Capability_Int64Atomics)
  | 13 => Ok (block, Capability_ImageBasic)
  | 14 => Ok (block, Capability_ImageReadWrite)
  | 15 => Ok (block, Capability_ImageMipmap)
  | 17 => Ok (block, Capability_Pipes)
  | 18 => Ok (block, Capability_Groups)
  | 19 => Ok (block, Capability_DeviceEnqueue)
  | 20 => Ok (block, Capability_LiteralSampler)
  | 21 => Ok (block, Capability_AtomicStorage)
  | 22 => Ok (block, Capability_Int16)
  | 23 => Ok (block, Capability_TessellationPointSize)
  | 24 => Ok (block, Capability_GeometryPointSize)
  | 25 => Ok (block, Capability_ImageGatherExtended)
  | 27 => Ok (block, Capability_StorageImageMultisample)
  | 28 => Ok (block, Capability_UniformBufferArrayDynamicIndexing)
  | 29 => Ok (block, Capability_SampledImageArrayDynamicIndexing)
  | 30 => Ok (block, Capability_StorageBufferArrayDynamicIndexing)
  | 31 => Ok (block, Capability_StorageImageArrayDynamicIndexing)
  | 32 => Ok (block, Capability_ClipDistance)
  | 33 => Ok (block, Capability_CullDistance)
  | 34 => Ok (block, Capability_ImageCubeArray)
  | 35 => Ok (block, Capability_SampleRateShading)
  | 36 => Ok (block, Capability_ImageRect)
  | 37 => Ok (block, Capability_SampledRect)
  | 38 => Ok (block, Capability_GenericPointer)
  | 39 => Ok (block, Capability_Int8)
  | 40 => Ok (block, Capability_InputAttachment)
  | 41 => Ok (block, Capability_SparseResidency)
  | 42 => Ok (block, Capability_MinLod)
  | 43 => Ok (block, Capability_Sampled1D)
  | 44 => Ok (block, Capability_Image1D)
  | 45 => Ok (block, Capability_SampledCubeArray)
  | 46 => Ok (block, Capability_SampledBuffer)
  | 47 => Ok (block, Capability_ImageBuffer)
  | 48 => Ok (block, Capability_ImageMSArray)
  | 49 => Ok (block, Capability_StorageImageExtendedFormats)
  | 50 => Ok (block, Capability_ImageQuery)
  | 51 => Ok (block, Capability_DerivativeControl)
  | 52 => Ok (block, Capability_InterpolationFunction)
  | 53 => Ok (block, Capability_TransformFeedback)
  | 54 => Ok (block, Capability_GeometryStreams)
  | 55 => Ok (block, Capability_StorageImageReadWithoutFormat)
  | 56 => Ok (block, Capability_StorageImageWriteWithoutFormat)
  | 57 => Ok (block, Capability_MultiViewport)
  | id => Err (UnknownCapability id)
  end.

(* src/spv/raw/mod.rs:664-674 *)
Definition read_Signedness : Reader Signedness := fun block =>
  let! (block, word) := read_word block in
  match word with
  | 0 => Ok (block, Signedness_UnsignedOrNone)
  | 1 => Ok (block, Signedness_Signed)
  | id => Err (UnknownSignedness id)
  end.

(* src/spv/raw/mod.rs:676-691 *)
Definition read_Dim : Reader Dim := fun block =>
  let! (block, word) := read_word block in
  match word with
  | 0 => Ok (block, Dim_Tex1D)
  | 1 => Ok (block, Dim_Tex2D)
  | 2 => Ok (block, Dim_Tex3D)
  | 3 => Ok (block, Dim_Cube)
  | 4 => Ok (block, Dim_Rect)
  | 5 => Ok (block, Dim_Buffer)
  | 6 => Ok (block, Dim_SubpassData)
  | n => Err (UnknownDim n)
  end.

(* src/spv/raw/mod.rs:693-704 *)
Definition read_DepthStatus : Reader DepthStatus := fun block =>
  let! (block, word) := read_word block in
  match word with
  | 0 => Ok (block, DepthStatus_NotDepth)
  | 1 => Ok (block, DepthStatus_Depth)
  | 2 => Ok (block, DepthStatus_NoIndication)
  | n => Err (UnknownDepthStatus n)
  end.

(* src/spv/raw/mod.rs:706-716 *)
Definition read_Arrayed : Reader Arrayed := fun block =>
  let! (block, word) := read_word block in
  match word with
  | 0 => Ok (block, Arrayed_False)
  | 1 => Ok (block, Arrayed_True)
  | n => Err (UnknownArrayed n)
  end.

(* src/spv/raw/mod.rs:718-728 *)
Definition read_MS : Reader MS := fun block =>
  let! (block, word) := read_word block in
  match word with
  | 0 => Ok (block, MS_Single)
  | 1 => Ok (block, MS_Multi)
  | n => Err (UnknownMS n)
  end.

(* src/spv/raw/mod.rs:730-741 *)
Definition read_SampledStatus : Reader SampledStatus := fun block =>
  let! (block, word) := read_word block in
  match word with
  | 0 => Ok (block, SampledStatus_RuntimeChoice)
  | 1 => Ok (block, SampledStatus_WithSampler)
  | 2 => Ok (block, SampledStatus_WithoutSampler)
  | n => Err (UnknownSampledStatus n)
  end.

(* src/spv/raw/mod.rs:743-791 *)
Definition read_ImageFormat : Reader ImageFormat := fun block =>
  let! (block, word) := read_word block in
  match word with
  | 0 => Ok (block, ImageFormat_Unknown)
  | 1 => Ok (block, ImageFormat_Rgba32f)
  | 2 => Ok (block, ImageFormat_Rgba16f)
  | 3 => Ok (block, ImageFormat_R32f)
  | 4 => Ok (block, ImageFormat_Rgba8)
  | 5 => Ok (block, ImageFormat_Rgba8Snorm)
  | 6 => Ok (block, ImageFormat_Rg32f)
  | 7 => Ok (block, ImageFormat_Rg16f)
  | 8 => Ok (block, ImageFormat_R11fG11fB10f)
  | 9 => Ok (block, ImageFormat_R16f)
  | 10 => Ok (block, ImageFormat_Rgba16)
  | 11 => Ok (block, ImageFormat_Rgb10A2)
  | 12 => Ok (block, ImageFormat_Rg16)
  | 13 => Ok (block, ImageFormat_Rg8)
  | 14 => Ok (block, ImageFormat_R16)
  | 15 => Ok (block, ImageFormat_R8)
  | 16 => Ok (block, ImageFormat_Rgba16Snorm)
  | 17 => Ok (block, ImageFormat_Rg16Snorm)
  | 18 => Ok (block, ImageFormat_Rg8Snorm)
  | 19 => Ok (block, ImageFormat_R16Snorm)
  | 20 => Ok (block, ImageFormat_R8Snorm)
  | 21 => Ok (block, ImageFormat_Rgba32i)
  | 22 => Ok (block, ImageFormat_Rgba16i)
  | 23 => Ok (block, ImageFormat_Rgba8i)
  | 24 => Ok (block, ImageFormat_R32i)
  | 25 => Ok (block, ImageFormat_Rg32i)
  | 26 => Ok (block, ImageFormat_Rg16i)
  | 27 => Ok (block, ImageFormat_Rg8i)
  | 28 => Ok (block, ImageFormat_R16i)
  | 29 => Ok (block, ImageFormat_R8i)
  | 30 => Ok (block, ImageFormat_Rgba32ui)
  | 31 => Ok (block, ImageFormat_Rgba16ui)
  | 32 => Ok (block, ImageFormat_Rgba8ui)
  | 33 => Ok (block, ImageFormat_R32ui)
  | 34 => Ok (block, ImageFormat_Rgb10a2ui)
  | 35 => Ok (block, ImageFormat_Rg32ui)
  | 36 => Ok (block, ImageFormat_Rg16ui)
  | 37 => Ok (block, ImageFormat_Rg8ui)
  | 38 => Ok (block, ImageFormat_R16ui)
  | 39 => Ok (block, ImageFormat_R8ui)
  | n => Err (UnknownImageFormat n)
  end.

(* src/spv/raw/mod.rs:793-804 *)
Definition read_AccessQualifier : Reader AccessQualifier := fun block =>
  let! (block, word) := read_word block in
  match word with
  | 0 => Ok (block, AccessQualifier_ReadOnly)
  | 1 => Ok (block, AccessQualifier_WriteOnly)
  | 2 => Ok (block, AccessQualifier_ReadWrite)
  | n => Err (UnknownAccessQualifier n)
  end.

(* src/spv/raw/mod.rs:806-826 *)
Definition read_StorageClass : Reader StorageClass := fun block =>
  let! (block, word) := read_word block in
  match word with
  | 0 => Ok (block, StorageClass_UniformConstant)
  | 1 => Ok (block, StorageClass_Input)
  | 2 => Ok (block, StorageClass_Uniform)
  | 3 => Ok (block, StorageClass_Output)
  | 4 => Ok (block, StorageClass_Workgroup)
  | 5 => Ok (block, StorageClass_CrossWorkgroup)
  | 6 => Ok (block, StorageClass_Private)
  | 7 => Ok (block, StorageClass_Function)
  | 8 => Ok (block, StorageClass_Generic)
  | 9 => Ok (block, StorageClass_PushConstant)
  | 10 => Ok (block, StorageClass_AtomicCounter)
  | 11 => Ok (block, StorageClass_Image)
  | n => Err (UnknownStorageClass n)
  end.

(* src/spv/raw/mod.rs:856-905 *)
Definition read_BuiltIn : Reader BuiltIn := fun block =>
  let! (block, word) := read_word block in
  match word with
  | 0 => Ok (block, BuiltIn_Position)
  | 1 => Ok (block, BuiltIn_PointSize)
  | 3 => Ok (block, BuiltIn_ClipDistance)
  | 4 => Ok (block, BuiltIn_CullDistance)
  | 5 => Ok (block, BuiltIn_VertexId)
  | 6 => Ok (block, BuiltIn_InstanceId)
  | 7 => Ok (block, BuiltIn_PrimitiveId)
  | 8 => Ok (block, BuiltIn_InvocationId)
  | 9 => Ok (block, BuiltIn_Layer)
  | 10 => Ok (block, BuiltIn_ViewportIndex)
  | 11 => Ok (block, BuiltIn_TessLevelOuter)
  | 12 => Ok (block, BuiltIn_TessLevelInner)
  | 13 => Ok (block, BuiltIn_TessCoord)
  | 14 => Ok (block, BuiltIn_PatchVerticies)
  | 15 => Ok (block, BuiltIn_FragCoord)
  | 16 => Ok (block, BuiltIn_PointCoord)
  | 17 => Ok (block, BuiltIn_FrontFacing)
  | 18 => Ok (block, BuiltIn_SampleId)
  | 19 => Ok (block, BuiltIn_SamplePosition)
  | 20 => Ok (block, BuiltIn_SampleMask)
  | 22 => Ok (block, BuiltIn_FragDepth)
  | 23 => Ok (block, BuiltIn_HelperInvocation)
  | 24 => Ok (block, BuiltIn_NumWorkgroups)
  | 25 => Ok (block, BuiltIn_WorkgroupSize)
  | 26 => Ok (block, BuiltIn_WorkgroupId)
  | 27 => Ok (block, BuiltIn_LocalInvocationId)
  | 28 => Ok (block, BuiltIn_GlobalInvocationId)
  | 29 => Ok (block, BuiltIn_LocalInvocationIndex)
  | 30 => Ok (block, BuiltIn_WorkDim)
  | 31 => Ok (block, BuiltIn_GlobalSize)
  | 32 => Ok (block, BuiltIn_EnqueuedWorkgroupSize)
  | 33 => Ok (block, BuiltIn_GlobalOffset)
  | 34 => Ok (block, BuiltIn_GlobalLinearId)
  | 36 => Ok (block, BuiltIn_SubgroupSize)
  | 37 => Ok (block, BuiltIn_SubgroupMaxSize)
  | 38 => Ok (block, BuiltIn_NumSubgroups)
  | 39 => Ok (block, BuiltIn_NumEnqueuedSubgroups)
  | 40 => Ok (block, BuiltIn_SubgroupId)
  | 41 => Ok (block, BuiltIn_SubgroupLocalInvocationId)
  | 42 => Ok (block, BuiltIn_VertexIndex)
  | 43 => Ok (block, BuiltIn_InstanceIndex)
  | id => Err (UnknownBuiltIn id)
  end.

(* src/spv/raw/mod.rs:907-923 *)
Definition read_FunctionParameterAttribute : Reader FunctionParameterAttribute := fun block =>
  let! (block, word) := read_word block in
  match word with
  | 0 => Ok (block, FunctionParameterAttribute_Zext)
  | 1 => Ok (block, FunctionParameterAttribute_Sext)
  | 2 => Ok (block, FunctionParameterAttribute_ByVal)
  | 3 => Ok (block, FunctionParameterAttribute_Sret)
  | 4 => Ok (block, FunctionParameterAttribute_NoAlias)
  | 5 => Ok (block, FunctionParameterAttribute_NoCapture)
  | 6 => Ok (block, FunctionParameterAttribute_NoWrite)
  | 7 => Ok (block, FunctionParameterAttribute_NoReadWrite)
  | id => Err (UnknownFunctionParameterAttribute id)
  end.

(* src/spv/raw/mod.rs:925-937 *)
Definition read_FpRoundingMode : Reader FpRoundingMode := fun block =>
  let! (block, word) := read_word block in
  match word with
  | 0 => Ok (block, FpRoundingMode_Rte)
  | 1 => Ok (block, FpRoundingMode_Rtz)
  | 2 => Ok (block, FpRoundingMode_Rtp)
  | 3 => Ok (block, FpRoundingMode_Rtn)
  | id => Err (UnknownFpRoundingMode id)
  end.

(* src/spv/raw/mod.rs:956-966 *)
Definition read_LinkageType : Reader LinkageType := fun block =>
  let! (block, word) := read_word block in
  match word with
  | 0 => Ok (block, LinkageType_Export)
  | 1 => Ok (block, LinkageType_Import)
  | id => Err (UnknownLinkageType id)
  end.

(* src/spv/raw/mod.rs:828-839 *)
Definition read_FunctionControl : Reader FunctionControl := fun block =>
  let! (block, value) := read_word block in
  Ok (block, {| FunctionControl_inline := nonzero (N.land value 0x1);
                FunctionControl_dont_inline := nonzero (N.land value 0x2);
                FunctionControl_pure_function := nonzero (N.land value 0x4);
                FunctionControl_const_function := nonzero (N.land value 0x8) |}).

(* src/spv/raw/mod.rs:841-854 *)
Definition read_MemoryAccess : Reader MemoryAccess := fun block =>
  let! (block, memory_access_word) := read_word block in
  if nonzero (N.land memory_access_word 0xFFF8) then Err (UnknownMemoryAccess memory_access_word) else
  Ok (block, {| MemoryAccess_volatile := nonzero (N.land memory_access_word 0x1);
                MemoryAccess_aligned := nonzero (N.land memory_access_word 0x2);
                MemoryAccess_non_temporal := nonzero (N.land memory_access_word 0x4) |}).

(* src/spv/raw/mod.rs:939-954 *)
Definition read_FpFastMathMode : Reader FpFastMathMode := fun block =>
  let! (block, id) := read_word block in
  if nonzero (N.land id 0xFFC0) then Err (UnknownFpFastMathMode id) else
  Ok (block, {| FpFastMathMode_not_nan := nonzero (N.land id 0x1);
                FpFastMathMode_not_inf := nonzero (N.land id 0x2);
                FpFastMathMode_nsz := nonzero (N.land id 0x4);
                FpFastMathMode_allow_recip := nonzero (N.land id 0x8);
                FpFastMathMode_fast := nonzero (N.land id 0x10) |}).

(* src/spv/raw/mod.rs:968-1077 *)
Definition read_Decoration : Reader Decoration := fun block =>
  let! (block, word) := read_word block in
  match word with
  | 0 => Ok (block, Decoration_RelaxedPrecision)
  | 1 =>
      let! (block, num) := read_u32 block in
      Ok (block, Decoration_SpecId num)
  | 2 => Ok (block, Decoration_Block)
  | 3 => Ok (block, Decoration_BufferBlock)
  | 4 => Ok (block, Decoration_RowMajor)
  | 5 => Ok (block, Decoration_ColMajor)
  | 6 =>
      let! (block, num) := read_u32 block in
      Ok (block, Decoration_ArrayStride num)
  | 7 =>
      let! (block, num) := read_u32 block in
      Ok (block, Decoration_MatrixStride num)
  | 8 => Ok (block, Decoration_GlslShared)
  | 9 => Ok (block, Decoration_GlslPacked)
  | 10 => Ok (block, Decoration_CPacked)
  | 11 =>
      let! (block, num) := read_BuiltIn block in
      Ok (block, Decoration_BuiltIn num)
  | 13 => Ok (block, Decoration_NoPerspective)
  | 14 => Ok (block, Decoration_Flat)
  | 15 => Ok (block, Decoration_Patch)
  | 16 => Ok (block, Decoration_Centroid)
  | 17 => Ok (block, Decoration_Sample)
  | 18 => Ok (block, Decoration_Invariant)
  | 19 => Ok (block, Decoration_Restrict)
  | 20 => Ok (block, Decoration_Aliased)
  | 21 => Ok (block, Decoration_Volatile)
  | 22 => Ok (block, Decoration_Constant)
  | 23 => Ok (block, Decoration_Coherent)
  | 24 => Ok (block, Decoration_NonWritable)
  | 25 => Ok (block, Decoration_NonReadable)
  | 26 => Ok (block, Decoration_Uniform)
  | 28 => Ok (block, Decoration_SaturatedConversion)
  | 29 =>
      let! (block, num) := read_u32 block in
      Ok (block, Decoration_Stream num)
  | 30 =>
      let! (block, num) := read_u32 block in
      Ok (block, Decoration_Location num)
  | 31 =>
      let! (block, num) := read_u32 block in
      Ok (block, Decoration_Component num)
  | 32 =>
      let! (block, num) := read_u32 block in
      Ok (block, Decoration_Index num)
  | 33 =>
      let! (block, num) := read_u32 block in
      Ok (block, Decoration_Binding num)
  | 34 =>
      let! (block, num) := read_u32 block in
      Ok (block, Decoration_DescriptorSet num)
  | 35 =>
      let! (block, num) := read_u32 block in
      Ok (block, Decoration_Offset num)
  | 36 =>
      let! (block, num) := read_u32 block in
      Ok (block, Decoration_XfbBuffer num)
  | 37 =>
      let! (block, num) := read_u32 block in
      Ok (block, Decoration_XfbStride num)
  | 38 =>
      let! (block, item) := read_FunctionParameterAttribute block in
      Ok (block, Decoration_FuncParamAttr item)
  | 39 =>
      let! (block, item) := read_FpRoundingMode block in
      Ok (block, Decoration_FpRoundingMode item)
  | 40 =>
      let! (block, item) := read_FpFastMathMode block in
      Ok (block, Decoration_FpFastMathMode item)
  | 41 =>
      let! (block, name) := read_LitString block in
      let! (block, linkage_type) := read_LinkageType block in
      Ok (block, Decoration_LinkageAttributes name linkage_type)
  | 42 => Ok (block, Decoration_NoContraction)
  | 43 =>
      let! (block, num) := read_u32 block in
      Ok (block, Decoration_InputAttachmentIndex num)
  | 44 =>
      let! (block, num) := read_u32 block in
      Ok (block, Decoration_Alignment num)
  | id => Err (UnknownDecoration id)
  end.

(* src/spv/raw/mod.rs:1079-1100 *)
Definition read_LoopControl : Reader LoopControl := fun block =>
  let! (block, word) := read_word block in
  if nonzero (N.land word 0xFFF0) then Err (UnknownLoopControl word) else
  let dependency_length_val := nonzero (N.land word 0x8) in
  let! (block, dependency_length) :=
    if dependency_length_val
    then (let! (block, num) := read_word block in Ok (block, Some num))
    else Ok (block, None) in
  Ok (block, {| LoopControl_unroll := nonzero (N.land word 0x1);
                LoopControl_dont_unroll := nonzero (N.land word 0x2);
                LoopControl_dependency_infinite := nonzero (N.land word 0x4);
                LoopControl_dependency_length := dependency_length |}).

(* src/spv/raw/mod.rs:1102-1114 *)
Definition read_SelectionControl : Reader SelectionControl := fun block =>
  let! (block, word) := read_word block in
  if nonzero (N.land word 0xFFFC) then Err (UnknownSelectionControl word) else
  Ok (block, {| SelectionControl_flatten := nonzero (N.land word 0x1);
                SelectionControl_dont_flatten := nonzero (N.land word 0x2) |}).

(* src/spv/raw/mod.rs:1116-1126 *)
Definition read_BranchWeights : Reader BranchWeights := fun block =>
  let! (block, w1) := read_word block in
  let! (block, w2) := read_word block in
  Ok (block, {| BranchWeights_true_weight := w1; BranchWeights_false_weight := w2 |}).

(* src/spv/raw/mod.rs:1128-1138 *)
Definition read_PhiArg : Reader PhiArg := fun block =>
  let! (block, variable) := read_OpId block in
  let! (block, parent) := read_OpId block in
  Ok (block, {| PhiArg_variable := variable; PhiArg_parent := parent |}).

(* std::mem::size_of of the element types of Vec operands, used by src/spv/raw/mod.rs:412.
   OpId and u32 are 4 bytes; PhiArg is two u32 (src/spv/types.rs:1229-1232). *)
Definition size_of_u32 : N := 4.
(* src/spv/raw/mod.rs:1128-1138 *)
Definition size_of_OpId : N := 4.
(* src/spv/raw/mod.rs:1128-1138 *)
Definition size_of_PhiArg : N := 8.
