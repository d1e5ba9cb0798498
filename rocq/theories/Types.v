(* GENERATED by tools/gen.py from /repo; do not edit by hand. *)
From Verif Require Import Base.

(** Operand types: transcription of src/spv/types.rs. *)

(* src/spv/types.rs:7-9.  Newtype of u32, modelled by its number. *)
Definition OpId := N.
(* src/spv/types.rs:19-21.  Newtype of u32, modelled by its number. *)
Definition ResultId := N.
(* src/spv/types.rs:23-24 *)
Definition LitBytes := list N.
(* src/spv/types.rs:26-27.  Rust String, modelled as its bytes. *)
Definition LitString := string.
(* src/spv/types.rs:114-116.  Newtype of u32. *)
Definition SourceVersion := N.
(* src/spv/types.rs:356-358.  Newtype of u32. *)
Definition MemberIndex := N.
(* src/spv/types.rs:29-31 *)
Record Version : Type := Build_Version { Version_0 : N; Version_1 : N }.

(* src/spv/types.rs:42-56 *)
Inductive Tool : Type :=
| Tool_KhronosReserved
| Tool_LunarG
| Tool_Valve
| Tool_Codeplay
| Tool_Nvidia
| Tool_Arm
| Tool_KhronosLLvmTranslator
| Tool_KhronosAssembler
| Tool_KhronosGlslang
| Tool_Qualcomm
| Tool_Amd
| Tool_Intel
| Tool_Other (_ : N).

(* src/spv/types.rs:89-96 *)
Inductive SourceLanguage : Type :=
| SourceLanguage_Unknown
| SourceLanguage_Essl
| SourceLanguage_Glsl
| SourceLanguage_OpenCL_C
| SourceLanguage_OpenCL_Cpp
| SourceLanguage_Other (_ : N).

(* src/spv/types.rs:261-303 *)
Inductive BuiltIn : Type :=
| BuiltIn_Position
| BuiltIn_PointSize
| BuiltIn_ClipDistance
| BuiltIn_CullDistance
| BuiltIn_VertexId
| BuiltIn_InstanceId
| BuiltIn_PrimitiveId
| BuiltIn_InvocationId
| BuiltIn_Layer
| BuiltIn_ViewportIndex
| BuiltIn_TessLevelOuter
| BuiltIn_TessLevelInner
| BuiltIn_TessCoord
| BuiltIn_PatchVerticies
| BuiltIn_FragCoord
| BuiltIn_PointCoord
| BuiltIn_FrontFacing
| BuiltIn_SampleId
| BuiltIn_SamplePosition
| BuiltIn_SampleMask
| BuiltIn_FragDepth
| BuiltIn_HelperInvocation
| BuiltIn_NumWorkgroups
| BuiltIn_WorkgroupSize
| BuiltIn_WorkgroupId
| BuiltIn_LocalInvocationId
| BuiltIn_GlobalInvocationId
| BuiltIn_LocalInvocationIndex
| BuiltIn_WorkDim
| BuiltIn_GlobalSize
| BuiltIn_EnqueuedWorkgroupSize
| BuiltIn_GlobalOffset
| BuiltIn_GlobalLinearId
| BuiltIn_SubgroupSize
| BuiltIn_SubgroupMaxSize
| BuiltIn_NumSubgroups
| BuiltIn_NumEnqueuedSubgroups
| BuiltIn_SubgroupId
| BuiltIn_SubgroupLocalInvocationId
| BuiltIn_VertexIndex
| BuiltIn_InstanceIndex.

(* src/spv/types.rs:782-791 *)
Inductive FunctionParameterAttribute : Type :=
| FunctionParameterAttribute_Zext
| FunctionParameterAttribute_Sext
| FunctionParameterAttribute_ByVal
| FunctionParameterAttribute_Sret
| FunctionParameterAttribute_NoAlias
| FunctionParameterAttribute_NoCapture
| FunctionParameterAttribute_NoWrite
| FunctionParameterAttribute_NoReadWrite.

(* src/spv/types.rs:742-747 *)
Inductive FpRoundingMode : Type :=
| FpRoundingMode_Rte
| FpRoundingMode_Rtz
| FpRoundingMode_Rtp
| FpRoundingMode_Rtn.

(* src/spv/types.rs:764-767 *)
Inductive LinkageType : Type :=
| LinkageType_Export
| LinkageType_Import.

(* src/spv/types.rs:370-374 *)
Inductive AddressingModel : Type :=
| AddressingModel_Logical
| AddressingModel_Physical32
| AddressingModel_Physical64.

(* src/spv/types.rs:391-395 *)
Inductive MemoryModel : Type :=
| MemoryModel_Simple
| MemoryModel_Glsl450
| MemoryModel_OpenCL.

(* src/spv/types.rs:412-420 *)
Inductive ExecutionModel : Type :=
| ExecutionModel_Vertex
| ExecutionModel_TesselationControl
| ExecutionModel_TesselationEvaluation
| ExecutionModel_Geometry
| ExecutionModel_Fragment
| ExecutionModel_GlCompute
| ExecutionModel_Kernel.

(* src/spv/types.rs:440-472 *)
Inductive ExecutionMode : Type :=
| ExecutionMode_Invocations (_ : N)
| ExecutionMode_SpacingEqual
| ExecutionMode_SpacingFractionalEven
| ExecutionMode_SpacingFractionalOdd
| ExecutionMode_VertexOrderCw
| ExecutionMode_VertexOrderCcw
| ExecutionMode_PixelCenterInteger
| ExecutionMode_OriginUpperLeft
| ExecutionMode_OriginLowerLeft
| ExecutionMode_EarlyFragmentTests
| ExecutionMode_PointMode
| ExecutionMode_Xfb
| ExecutionMode_DepthReplacing
| ExecutionMode_DepthGreater
| ExecutionMode_DepthLess
| ExecutionMode_DepthUnchanged
| ExecutionMode_LocalSize (_ : N) (_ : N) (_ : N)
| ExecutionMode_LocalSizeHint (_ : N) (_ : N) (_ : N)
| ExecutionMode_InputPoints
| ExecutionMode_InputLines
| ExecutionMode_InputLinesAdjacency
| ExecutionMode_Triangles
| ExecutionMode_InputTrianglesAdjacency
| ExecutionMode_Quads
| ExecutionMode_Isolines
| ExecutionMode_OutputVerticies (_ : N)
| ExecutionMode_OutputPoints
| ExecutionMode_OutputLineStrip
| ExecutionMode_OutputTriangleStrip
| ExecutionMode_VecTypeHint (_ : OpId)
| ExecutionMode_ContractionOff.

(* src/spv/types.rs:523-580 *)
Inductive Capability : Type :=
| Capability_Matrix
| Capability_Shader
| Capability_Geometry
| Capability_Tessellation
| Capability_Addresses
| Capability_Linkage
| Capability_Kernel
| Capability_Vector16
| Capability_Float16Buffer
| Capability_Float16
| Capability_Float64
| Capability_Int64
| Capability_Int64Atomics
| Capability_ImageBasic
| Capability_ImageReadWrite
| Capability_ImageMipmap
| Capability_Pipes
| Capability_Groups
| Capability_DeviceEnqueue
| Capability_LiteralSampler
| Capability_AtomicStorage
| Capability_Int16
| Capability_TessellationPointSize
| Capability_GeometryPointSize
| Capability_ImageGatherExtended
| Capability_StorageImageMultisample
| Capability_UniformBufferArrayDynamicIndexing
| Capability_SampledImageArrayDynamicIndexing
| Capability_StorageBufferArrayDynamicIndexing
| Capability_StorageImageArrayDynamicIndexing
| Capability_ClipDistance
| Capability_CullDistance
| Capability_ImageCubeArray
| Capability_SampleRateShading
| Capability_ImageRect
| Capability_SampledRect
| Capability_GenericPointer
| Capability_Int8
| Capability_InputAttachment
| Capability_SparseResidency
| Capability_MinLod
| Capability_Sampled1D
| Capability_Image1D
| Capability_SampledCubeArray
| Capability_SampledBuffer
| Capability_ImageBuffer
| Capability_ImageMSArray
| Capability_StorageImageExtendedFormats
| Capability_ImageQuery
| Capability_DerivativeControl
| Capability_InterpolationFunction
| Capability_TransformFeedback
| Capability_GeometryStreams
| Capability_StorageImageReadWithoutFormat
| Capability_StorageImageWriteWithoutFormat
| Capability_MultiViewport.

(* src/spv/types.rs:649-652 *)
Inductive Signedness : Type :=
| Signedness_UnsignedOrNone
| Signedness_Signed.

(* src/spv/types.rs:667-680 *)
Inductive StorageClass : Type :=
| StorageClass_UniformConstant
| StorageClass_Input
| StorageClass_Uniform
| StorageClass_Output
| StorageClass_Workgroup
| StorageClass_CrossWorkgroup
| StorageClass_Private
| StorageClass_Function
| StorageClass_Generic
| StorageClass_PushConstant
| StorageClass_AtomicCounter
| StorageClass_Image.

(* src/spv/types.rs:813-821 *)
Inductive Dim : Type :=
| Dim_Tex1D
| Dim_Tex2D
| Dim_Tex3D
| Dim_Cube
| Dim_Rect
| Dim_Buffer
| Dim_SubpassData.

(* src/spv/types.rs:842-846 *)
Inductive DepthStatus : Type :=
| DepthStatus_NotDepth
| DepthStatus_Depth
| DepthStatus_NoIndication.

(* src/spv/types.rs:863-866 *)
Inductive Arrayed : Type :=
| Arrayed_False
| Arrayed_True.

(* src/spv/types.rs:882-885 *)
Inductive MS : Type :=
| MS_Single
| MS_Multi.

(* src/spv/types.rs:901-905 *)
Inductive SampledStatus : Type :=
| SampledStatus_RuntimeChoice
| SampledStatus_WithSampler
| SampledStatus_WithoutSampler.

(* src/spv/types.rs:922-963 *)
Inductive ImageFormat : Type :=
| ImageFormat_Unknown
| ImageFormat_Rgba32f
| ImageFormat_Rgba16f
| ImageFormat_R32f
| ImageFormat_Rgba8
| ImageFormat_Rgba8Snorm
| ImageFormat_Rg32f
| ImageFormat_Rg16f
| ImageFormat_R11fG11fB10f
| ImageFormat_R16f
| ImageFormat_Rgba16
| ImageFormat_Rgb10A2
| ImageFormat_Rg16
| ImageFormat_Rg8
| ImageFormat_R16
| ImageFormat_R8
| ImageFormat_Rgba16Snorm
| ImageFormat_Rg16Snorm
| ImageFormat_Rg8Snorm
| ImageFormat_R16Snorm
| ImageFormat_R8Snorm
| ImageFormat_Rgba32i
| ImageFormat_Rgba16i
| ImageFormat_Rgba8i
| ImageFormat_R32i
| ImageFormat_Rg32i
| ImageFormat_Rg16i
| ImageFormat_Rg8i
| ImageFormat_R16i
| ImageFormat_R8i
| ImageFormat_Rgba32ui
| ImageFormat_Rgba16ui
| ImageFormat_Rgba8ui
| ImageFormat_R32ui
| ImageFormat_Rgb10a2ui
| ImageFormat_Rg32ui
| ImageFormat_Rg16ui
| ImageFormat_Rg8ui
| ImageFormat_R16ui
| ImageFormat_R8ui.

(* src/spv/types.rs:1016-1020 *)
Inductive AccessQualifier : Type :=
| AccessQualifier_ReadOnly
| AccessQualifier_WriteOnly
| AccessQualifier_ReadWrite.

(* src/spv/types.rs:35-38 *)
Record Generator : Type := Build_Generator {
  Generator_tool : Tool;
  Generator_version : N
}.

(* src/spv/types.rs:705-711 *)
Record FpFastMathMode : Type := Build_FpFastMathMode {
  FpFastMathMode_not_nan : bool;
  FpFastMathMode_not_inf : bool;
  FpFastMathMode_nsz : bool;
  FpFastMathMode_allow_recip : bool;
  FpFastMathMode_fast : bool
}.

(* src/spv/types.rs:1107-1111 *)
Record MemoryAccess : Type := Build_MemoryAccess {
  MemoryAccess_volatile : bool;
  MemoryAccess_aligned : bool;
  MemoryAccess_non_temporal : bool
}.

(* src/spv/types.rs:1136-1141 *)
Record FunctionControl : Type := Build_FunctionControl {
  FunctionControl_inline : bool;
  FunctionControl_dont_inline : bool;
  FunctionControl_pure_function : bool;
  FunctionControl_const_function : bool
}.

(* src/spv/types.rs:1169-1176 *)
Record LoopControl : Type := Build_LoopControl {
  LoopControl_unroll : bool;
  LoopControl_dont_unroll : bool;
  LoopControl_dependency_infinite : bool;
  LoopControl_dependency_length : (option N)
}.

(* src/spv/types.rs:1204-1207 *)
Record SelectionControl : Type := Build_SelectionControl {
  SelectionControl_flatten : bool;
  SelectionControl_dont_flatten : bool
}.

(* src/spv/types.rs:1229-1232 *)
Record PhiArg : Type := Build_PhiArg {
  PhiArg_variable : OpId;
  PhiArg_parent : OpId
}.

(* src/spv/types.rs:1243-1246 *)
Record BranchWeights : Type := Build_BranchWeights {
  BranchWeights_true_weight : N;
  BranchWeights_false_weight : N
}.

(* src/spv/types.rs:152-196 *)
Inductive Decoration : Type :=
| Decoration_RelaxedPrecision
| Decoration_SpecId (_ : N)
| Decoration_Block
| Decoration_BufferBlock
| Decoration_RowMajor
| Decoration_ColMajor
| Decoration_ArrayStride (_ : N)
| Decoration_MatrixStride (_ : N)
| Decoration_GlslShared
| Decoration_GlslPacked
| Decoration_CPacked
| Decoration_BuiltIn (_ : BuiltIn)
| Decoration_NoPerspective
| Decoration_Flat
| Decoration_Patch
| Decoration_Centroid
| Decoration_Sample
| Decoration_Invariant
| Decoration_Restrict
| Decoration_Aliased
| Decoration_Volatile
| Decoration_Constant
| Decoration_Coherent
| Decoration_NonWritable
| Decoration_NonReadable
| Decoration_Uniform
| Decoration_SaturatedConversion
| Decoration_Stream (_ : N)
| Decoration_Location (_ : N)
| Decoration_Component (_ : N)
| Decoration_Index (_ : N)
| Decoration_Binding (_ : N)
| Decoration_DescriptorSet (_ : N)
| Decoration_Offset (_ : N)
| Decoration_XfbBuffer (_ : N)
| Decoration_XfbStride (_ : N)
| Decoration_FuncParamAttr (_ : FunctionParameterAttribute)
| Decoration_FpRoundingMode (_ : FpRoundingMode)
| Decoration_FpFastMathMode (_ : FpFastMathMode)
| Decoration_LinkageAttributes (_ : LitString) (_ : LinkageType)
| Decoration_NoContraction
| Decoration_InputAttachmentIndex (_ : N)
| Decoration_Alignment (_ : N).

(* derive(Default) on src/spv/types.rs:1106-1111 *)
Definition MemoryAccess_default := Build_MemoryAccess false false false.
(* derive(Default) on src/spv/types.rs:1135-1141 *)
Definition FunctionControl_default := Build_FunctionControl false false false false.
(* derive(Default) on src/spv/types.rs:1168-1176 *)
Definition LoopControl_default := Build_LoopControl false false false None.
(* derive(Default) on src/spv/types.rs:1203-1207 *)
Definition SelectionControl_default := Build_SelectionControl false false.
