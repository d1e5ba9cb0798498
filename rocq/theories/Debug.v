(* GENERATED by tools/gen.py from /repo; do not edit by hand. *)
From Verif Require Import Base Types Ops ReadErr Groups DebugBase.
Local Open Scope string_scope.

(** derive(Debug), type by type: the calls of the builders of core::fmt as trees. *)
Section Debug.
Context {E : Type}.
Local Notation dtree := (dtree E).
Local Notation DNumber := (DNumber (E := E)).
Local Notation DString := (DString (E := E)).
Local Notation DBool := (DBool (E := E)).

(* src/spv/types.rs:8-9 *)
Definition dbg_OpId (x : OpId) : dtree := DTuple "OpId" [DNumber x].

(* src/spv/types.rs:20-21 *)
Definition dbg_ResultId (x : ResultId) : dtree := DTuple "ResultId" [DNumber x].

(* src/spv/types.rs:115-116 *)
Definition dbg_SourceVersion (x : SourceVersion) : dtree := DTuple "SourceVersion" [DNumber x].

(* src/spv/types.rs:357-358 *)
Definition dbg_MemberIndex (x : MemberIndex) : dtree := DTuple "MemberIndex" [DNumber x].

(* src/spv/types.rs:29-31 *)
Definition dbg_Version (x : Version) : dtree := DTuple "Version" [DNumber (Version_0 x); DNumber (Version_1 x)].

(* src/spv/types.rs:41-56 *)
Definition dbg_Tool (x : Tool) : dtree :=
  match x with
  | Tool_KhronosReserved => DName "KhronosReserved"
  | Tool_LunarG => DName "LunarG"
  | Tool_Valve => DName "Valve"
  | Tool_Codeplay => DName "Codeplay"
  | Tool_Nvidia => DName "Nvidia"
  | Tool_Arm => DName "Arm"
  | Tool_KhronosLLvmTranslator => DName "KhronosLLvmTranslator"
  | Tool_KhronosAssembler => DName "KhronosAssembler"
  | Tool_KhronosGlslang => DName "KhronosGlslang"
  | Tool_Qualcomm => DName "Qualcomm"
  | Tool_Amd => DName "Amd"
  | Tool_Intel => DName "Intel"
  | Tool_Other x0 => DTuple "Other" [DNumber x0]
  end.

(* src/spv/types.rs:88-96 *)
Definition dbg_SourceLanguage (x : SourceLanguage) : dtree :=
  match x with
  | SourceLanguage_Unknown => DName "Unknown"
  | SourceLanguage_Essl => DName "Essl"
  | SourceLanguage_Glsl => DName "Glsl"
  | SourceLanguage_OpenCL_C => DName "OpenCL_C"
  | SourceLanguage_OpenCL_Cpp => DName "OpenCL_Cpp"
  | SourceLanguage_Other x0 => DTuple "Other" [DNumber x0]
  end.

(* src/spv/types.rs:260-303 *)
Definition dbg_BuiltIn (x : BuiltIn) : dtree :=
  match x with
  | BuiltIn_Position => DName "Position"
  | BuiltIn_PointSize => DName "PointSize"
  | BuiltIn_ClipDistance => DName "ClipDistance"
  | BuiltIn_CullDistance => DName "CullDistance"
  | BuiltIn_VertexId => DName "VertexId"
  | BuiltIn_InstanceId => DName "InstanceId"
  | BuiltIn_PrimitiveId => DName "PrimitiveId"
  | BuiltIn_InvocationId => DName "InvocationId"
  | BuiltIn_Layer => DName "Layer"
  | BuiltIn_ViewportIndex => DName "ViewportIndex"
  | BuiltIn_TessLevelOuter => DName "TessLevelOuter"
  | BuiltIn_TessLevelInner => DName "TessLevelInner"
  | BuiltIn_TessCoord => DName "TessCoord"
  | BuiltIn_PatchVerticies => DName "PatchVerticies"
  | BuiltIn_FragCoord => DName "FragCoord"
  | BuiltIn_PointCoord => DName "PointCoord"
  | BuiltIn_FrontFacing => DName "FrontFacing"
  | BuiltIn_SampleId => DName "SampleId"
  | BuiltIn_SamplePosition => DName "SamplePosition"
  | BuiltIn_SampleMask => DName "SampleMask"
  | BuiltIn_FragDepth => DName "FragDepth"
  | BuiltIn_HelperInvocation => DName "HelperInvocation"
  | BuiltIn_NumWorkgroups => DName "NumWorkgroups"
  | BuiltIn_WorkgroupSize => DName "WorkgroupSize"
  | BuiltIn_WorkgroupId => DName "WorkgroupId"
  | BuiltIn_LocalInvocationId => DName "LocalInvocationId"
  | BuiltIn_GlobalInvocationId => DName "GlobalInvocationId"
  | BuiltIn_LocalInvocationIndex => DName "LocalInvocationIndex"
  | BuiltIn_WorkDim => DName "WorkDim"
  | BuiltIn_GlobalSize => DName "GlobalSize"
  | BuiltIn_EnqueuedWorkgroupSize => DName "EnqueuedWorkgroupSize"
  | BuiltIn_GlobalOffset => DName "GlobalOffset"
  | BuiltIn_GlobalLinearId => DName "GlobalLinearId"
  | BuiltIn_SubgroupSize => DName "SubgroupSize"
  | BuiltIn_SubgroupMaxSize => DName "SubgroupMaxSize"
  | BuiltIn_NumSubgroups => DName "NumSubgroups"
  | BuiltIn_NumEnqueuedSubgroups => DName "NumEnqueuedSubgroups"
  | BuiltIn_SubgroupId => DName "SubgroupId"
  | BuiltIn_SubgroupLocalInvocationId => DName "SubgroupLocalInvocationId"
  | BuiltIn_VertexIndex => DName "VertexIndex"
  | BuiltIn_InstanceIndex => DName "InstanceIndex"
  end.

(* src/spv/types.rs:781-791 *)
Definition dbg_FunctionParameterAttribute (x : FunctionParameterAttribute) : dtree :=
  match x with
  | FunctionParameterAttribute_Zext => DName "Zext"
  | FunctionParameterAttribute_Sext => DName "Sext"
  | FunctionParameterAttribute_ByVal => DName "ByVal"
  | FunctionParameterAttribute_Sret => DName "Sret"
  | FunctionParameterAttribute_NoAlias => DName "NoAlias"
  | FunctionParameterAttribute_NoCapture => DName "NoCapture"
  | FunctionParameterAttribute_NoWrite => DName "NoWrite"
  | FunctionParameterAttribute_NoReadWrite => DName "NoReadWrite"
  end.

(* src/spv/types.rs:741-747 *)
Definition dbg_FpRoundingMode (x : FpRoundingMode) : dtree :=
  match x with
  | FpRoundingMode_Rte => DName "Rte"
  | FpRoundingMode_Rtz => DName "Rtz"
  | FpRoundingMode_Rtp => DName "Rtp"
  | FpRoundingMode_Rtn => DName "Rtn"
  end.

(* src/spv/types.rs:763-767 *)
Definition dbg_LinkageType (x : LinkageType) : dtree :=
  match x with
  | LinkageType_Export => DName "Export"
  | LinkageType_Import => DName "Import"
  end.

(* src/spv/types.rs:369-374 *)
Definition dbg_AddressingModel (x : AddressingModel) : dtree :=
  match x with
  | AddressingModel_Logical => DName "Logical"
  | AddressingModel_Physical32 => DName "Physical32"
  | AddressingModel_Physical64 => DName "Physical64"
  end.

(* src/spv/types.rs:390-395 *)
Definition dbg_MemoryModel (x : MemoryModel) : dtree :=
  match x with
  | MemoryModel_Simple => DName "Simple"
  | MemoryModel_Glsl450 => DName "Glsl450"
  | MemoryModel_OpenCL => DName "OpenCL"
  end.

(* src/spv/types.rs:411-420 *)
Definition dbg_ExecutionModel (x : ExecutionModel) : dtree :=
  match x with
  | ExecutionModel_Vertex => DName "Vertex"
  | ExecutionModel_TesselationControl => DName "TesselationControl"
  | ExecutionModel_TesselationEvaluation => DName "TesselationEvaluation"
  | ExecutionModel_Geometry => DName "Geometry"
  | ExecutionModel_Fragment => DName "Fragment"
  | ExecutionModel_GlCompute => DName "GlCompute"
  | ExecutionModel_Kernel => DName "Kernel"
  end.

(* src/spv/types.rs:439-472 *)
Definition dbg_ExecutionMode (x : ExecutionMode) : dtree :=
  match x with
  | ExecutionMode_Invocations x0 => DTuple "Invocations" [DNumber x0]
  | ExecutionMode_SpacingEqual => DName "SpacingEqual"
  | ExecutionMode_SpacingFractionalEven => DName "SpacingFractionalEven"
  | ExecutionMode_SpacingFractionalOdd => DName "SpacingFractionalOdd"
  | ExecutionMode_VertexOrderCw => DName "VertexOrderCw"
  | ExecutionMode_VertexOrderCcw => DName "VertexOrderCcw"
  | ExecutionMode_PixelCenterInteger => DName "PixelCenterInteger"
  | ExecutionMode_OriginUpperLeft => DName "OriginUpperLeft"
  | ExecutionMode_OriginLowerLeft => DName "OriginLowerLeft"
  | ExecutionMode_EarlyFragmentTests => DName "EarlyFragmentTests"
  | ExecutionMode_PointMode => DName "PointMode"
  | ExecutionMode_Xfb => DName "Xfb"
  | ExecutionMode_DepthReplacing => DName "DepthReplacing"
  | ExecutionMode_DepthGreater => DName "DepthGreater"
  | ExecutionMode_DepthLess => DName "DepthLess"
  | ExecutionMode_DepthUnchanged => DName "DepthUnchanged"
  | ExecutionMode_LocalSize x0 x1 x2 => DTuple "LocalSize" [DNumber x0; DNumber x1; DNumber x2]
  | ExecutionMode_LocalSizeHint x0 x1 x2 => DTuple "LocalSizeHint" [DNumber x0; DNumber x1; DNumber x2]
  | ExecutionMode_InputPoints => DName "InputPoints"
  | ExecutionMode_InputLines => DName "InputLines"
  | ExecutionMode_InputLinesAdjacency => DName "InputLinesAdjacency"
  | ExecutionMode_Triangles => DName "Triangles"
  | ExecutionMode_InputTrianglesAdjacency => DName "InputTrianglesAdjacency"
  | ExecutionMode_Quads => DName "Quads"
  | ExecutionMode_Isolines => DName "Isolines"
  | ExecutionMode_OutputVerticies x0 => DTuple "OutputVerticies" [DNumber x0]
  | ExecutionMode_OutputPoints => DName "OutputPoints"
  | ExecutionMode_OutputLineStrip => DName "OutputLineStrip"
  | ExecutionMode_OutputTriangleStrip => DName "OutputTriangleStrip"
  | ExecutionMode_VecTypeHint x0 => DTuple "VecTypeHint" [dbg_OpId x0]
  | ExecutionMode_ContractionOff => DName "ContractionOff"
  end.

(* src/spv/types.rs:522-580 *)
Definition dbg_Capability (x : Capability) : dtree :=
  match x with
  | Capability_Matrix => DName "Matrix"
  | Capability_Shader => DName "Shader"
  | Capability_Geometry => DName "Geometry"
  | Capability_Tessellation => DName "Tessellation"
  | Capability_Addresses => DName "Addresses"
  | Capability_Linkage => DName "Linkage"
  | Capability_Kernel => DName "Kernel"
  | Capability_Vector16 => DName "Vector16"
  | Capability_Float16Buffer => DName "Float16Buffer"
  | Capability_Float16 => DName "Float16"
  | Capability_Float64 => DName "Float64"
  | Capability_Int64 => DName "Int64"
  | Capability_Int64Atomics => DName "Int64Atomics"
  | Capability_ImageBasic => DName "ImageBasic"
  | Capability_ImageReadWrite => DName "ImageReadWrite"
  | Capability_ImageMipmap => DName "ImageMipmap"
  | Capability_Pipes => DName "Pipes"
  | Capability_Groups => DName "Groups"
  | Capability_DeviceEnqueue => DName "DeviceEnqueue"
  | Capability_LiteralSampler => DName "LiteralSampler"
  | Capability_AtomicStorage => DName "AtomicStorage"
  | Capability_Int16 => DName "Int16"
  | Capability_TessellationPointSize => DName "TessellationPointSize"
  | Capability_GeometryPointSize => DName "GeometryPointSize"
  | Capability_ImageGatherExtended => DName "ImageGatherExtended"
  | Capability_StorageImageMultisample => DName "StorageImageMultisample"
  | Capability_UniformBufferArrayDynamicIndexing => DName "UniformBufferArrayDynamicIndexing"
  | Capability_SampledImageArrayDynamicIndexing => DName "SampledImageArrayDynamicIndexing"
  | Capability_StorageBufferArrayDynamicIndexing => DName "StorageBufferArrayDynamicIndexing"
  | Capability_StorageImageArrayDynamicIndexing => DName "StorageImageArrayDynamicIndexing"
  | Capability_ClipDistance => DName "ClipDistance"
  | Capability_CullDistance => DName "CullDistance"
  | Capability_ImageCubeArray => DName "ImageCubeArray"
  | Capability_SampleRateShading => DName "SampleRateShading"
  | Capability_ImageRect => DName "ImageRect"
  | Capability_SampledRect => DName "SampledRect"
  | Capability_GenericPointer => DName "GenericPointer"
  | Capability_Int8 => DName "Int8"
  | Capability_InputAttachment => DName "InputAttachment"
  | Capability_SparseResidency => DName "SparseResidency"
  | Capability_MinLod => DName "MinLod"
  | Capability_Sampled1D => DName "Sampled1D"
  | Capability_Image1D => DName "Image1D"
  | Capability_SampledCubeArray => DName "SampledCubeArray"
  | Capability_SampledBuffer => DName "SampledBuffer"
  | Capability_ImageBuffer => DName "ImageBuffer"
  | Capability_ImageMSArray => DName "ImageMSArray"
  | Capability_StorageImageExtendedFormats => DName "StorageImageExtendedFormats"
  | Capability_ImageQuery => DName "ImageQuery"
  | Capability_DerivativeControl => DName "DerivativeControl"
  | Capability_InterpolationFunction => DName "InterpolationFunction"
  | Capability_TransformFeedback => DName "TransformFeedback"
  | Capability_GeometryStreams => DName "GeometryStreams"
  | Capability_StorageImageReadWithoutFormat => DName "StorageImageReadWithoutFormat"
  | Capability_StorageImageWriteWithoutFormat => DName "StorageImageWriteWithoutFormat"
  | Capability_MultiViewport => DName "MultiViewport"
  end.

(* src/spv/types.rs:648-652 *)
Definition dbg_Signedness (x : Signedness) : dtree :=
  match x with
  | Signedness_UnsignedOrNone => DName "UnsignedOrNone"
  | Signedness_Signed => DName "Signed"
  end.

(* src/spv/types.rs:666-680 *)
Definition dbg_StorageClass (x : StorageClass) : dtree :=
  match x with
  | StorageClass_UniformConstant => DName "UniformConstant"
  | StorageClass_Input => DName "Input"
  | StorageClass_Uniform => DName "Uniform"
  | StorageClass_Output => DName "Output"
  | StorageClass_Workgroup => DName "Workgroup"
  | StorageClass_CrossWorkgroup => DName "CrossWorkgroup"
  | StorageClass_Private => DName "Private"
  | StorageClass_Function => DName "Function"
  | StorageClass_Generic => DName "Generic"
  | StorageClass_PushConstant => DName "PushConstant"
  | StorageClass_AtomicCounter => DName "AtomicCounter"
  | StorageClass_Image => DName "Image"
  end.

(* src/spv/types.rs:812-821 *)
Definition dbg_Dim (x : Dim) : dtree :=
  match x with
  | Dim_Tex1D => DName "Tex1D"
  | Dim_Tex2D => DName "Tex2D"
  | Dim_Tex3D => DName "Tex3D"
  | Dim_Cube => DName "Cube"
  | Dim_Rect => DName "Rect"
  | Dim_Buffer => DName "Buffer"
  | Dim_SubpassData => DName "SubpassData"
  end.

(* src/spv/types.rs:841-846 *)
Definition dbg_DepthStatus (x : DepthStatus) : dtree :=
  match x with
  | DepthStatus_NotDepth => DName "NotDepth"
  | DepthStatus_Depth => DName "Depth"
  | DepthStatus_NoIndication => DName "NoIndication"
  end.

(* src/spv/types.rs:862-866 *)
Definition dbg_Arrayed (x : Arrayed) : dtree :=
  match x with
  | Arrayed_False => DName "False"
  | Arrayed_True => DName "True"
  end.

(* src/spv/types.rs:881-885 *)
Definition dbg_MS (x : MS) : dtree :=
  match x with
  | MS_Single => DName "Single"
  | MS_Multi => DName "Multi"
  end.

(* src/spv/types.rs:900-905 *)
Definition dbg_SampledStatus (x : SampledStatus) : dtree :=
  match x with
  | SampledStatus_RuntimeChoice => DName "RuntimeChoice"
  | SampledStatus_WithSampler => DName "WithSampler"
  | SampledStatus_WithoutSampler => DName "WithoutSampler"
  end.

(* src/spv/types.rs:921-963 *)
Definition dbg_ImageFormat (x : ImageFormat) : dtree :=
  match x with
  | ImageFormat_Unknown => DName "Unknown"
  | ImageFormat_Rgba32f => DName "Rgba32f"
  | ImageFormat_Rgba16f => DName "Rgba16f"
  | ImageFormat_R32f => DName "R32f"
  | ImageFormat_Rgba8 => DName "Rgba8"
  | ImageFormat_Rgba8Snorm => DName "Rgba8Snorm"
  | ImageFormat_Rg32f => DName "Rg32f"
  | ImageFormat_Rg16f => DName "Rg16f"
  | ImageFormat_R11fG11fB10f => DName "R11fG11fB10f"
  | ImageFormat_R16f => DName "R16f"
  | ImageFormat_Rgba16 => DName "Rgba16"
  | ImageFormat_Rgb10A2 => DName "Rgb10A2"
  | ImageFormat_Rg16 => DName "Rg16"
  | ImageFormat_Rg8 => DName "Rg8"
  | ImageFormat_R16 => DName "R16"
  | ImageFormat_R8 => DName "R8"
  | ImageFormat_Rgba16Snorm => DName "Rgba16Snorm"
  | ImageFormat_Rg16Snorm => DName "Rg16Snorm"
  | ImageFormat_Rg8Snorm => DName "Rg8Snorm"
  | ImageFormat_R16Snorm => DName "R16Snorm"
  | ImageFormat_R8Snorm => DName "R8Snorm"
  | ImageFormat_Rgba32i => DName "Rgba32i"
  | ImageFormat_Rgba16i => DName "Rgba16i"
  | ImageFormat_Rgba8i => DName "Rgba8i"
  | ImageFormat_R32i => DName "R32i"
  | ImageFormat_Rg32i => DName "Rg32i"
  | ImageFormat_Rg16i => DName "Rg16i"
  | ImageFormat_Rg8i => DName "Rg8i"
  | ImageFormat_R16i => DName "R16i"
  | ImageFormat_R8i => DName "R8i"
  | ImageFormat_Rgba32ui => DName "Rgba32ui"
  | ImageFormat_Rgba16ui => DName "Rgba16ui"
  | ImageFormat_Rgba8ui => DName "Rgba8ui"
  | ImageFormat_R32ui => DName "R32ui"
  | ImageFormat_Rgb10a2ui => DName "Rgb10a2ui"
  | ImageFormat_Rg32ui => DName "Rg32ui"
  | ImageFormat_Rg16ui => DName "Rg16ui"
  | ImageFormat_Rg8ui => DName "Rg8ui"
  | ImageFormat_R16ui => DName "R16ui"
  | ImageFormat_R8ui => DName "R8ui"
  end.

(* src/spv/types.rs:1015-1020 *)
Definition dbg_AccessQualifier (x : AccessQualifier) : dtree :=
  match x with
  | AccessQualifier_ReadOnly => DName "ReadOnly"
  | AccessQualifier_WriteOnly => DName "WriteOnly"
  | AccessQualifier_ReadWrite => DName "ReadWrite"
  end.

(* src/spv/types.rs:34-38 *)
Definition dbg_Generator (x : Generator) : dtree :=
  DStruct "Generator" [("tool", dbg_Tool (Generator_tool x)); ("version", DNumber (Generator_version x))].

(* src/spv/types.rs:704-711 *)
Definition dbg_FpFastMathMode (x : FpFastMathMode) : dtree :=
  DStruct "FpFastMathMode" [("not_nan", DBool (FpFastMathMode_not_nan x)); ("not_inf", DBool (FpFastMathMode_not_inf x)); ("nsz", DBool (FpFastMathMode_nsz x)); ("allow_recip", DBool (FpFastMathMode_allow_recip x)); ("fast", DBool (FpFastMathMode_fast x))].

(* src/spv/types.rs:1106-1111 *)
Definition dbg_MemoryAccess (x : MemoryAccess) : dtree :=
  DStruct "MemoryAccess" [("volatile", DBool (MemoryAccess_volatile x)); ("aligned", DBool (MemoryAccess_aligned x)); ("non_temporal", DBool (MemoryAccess_non_temporal x))].

(* src/spv/types.rs:1135-1141 *)
Definition dbg_FunctionControl (x : FunctionControl) : dtree :=
  DStruct "FunctionControl" [("inline", DBool (FunctionControl_inline x)); ("dont_inline", DBool (FunctionControl_dont_inline x)); ("pure_function", DBool (FunctionControl_pure_function x)); ("const_function", DBool (FunctionControl_const_function x))].

(* src/spv/types.rs:1168-1176 *)
Definition dbg_LoopControl (x : LoopControl) : dtree :=
  DStruct "LoopControl" [("unroll", DBool (LoopControl_unroll x)); ("dont_unroll", DBool (LoopControl_dont_unroll x)); ("dependency_infinite", DBool (LoopControl_dependency_infinite x)); ("dependency_length", (dbg_Option DNumber) (LoopControl_dependency_length x))].

(* src/spv/types.rs:1203-1207 *)
Definition dbg_SelectionControl (x : SelectionControl) : dtree :=
  DStruct "SelectionControl" [("flatten", DBool (SelectionControl_flatten x)); ("dont_flatten", DBool (SelectionControl_dont_flatten x))].

(* src/spv/types.rs:1228-1232 *)
Definition dbg_PhiArg (x : PhiArg) : dtree :=
  DStruct "PhiArg" [("variable", dbg_OpId (PhiArg_variable x)); ("parent", dbg_OpId (PhiArg_parent x))].

(* src/spv/types.rs:1242-1246 *)
Definition dbg_BranchWeights (x : BranchWeights) : dtree :=
  DStruct "BranchWeights" [("true_weight", DNumber (BranchWeights_true_weight x)); ("false_weight", DNumber (BranchWeights_false_weight x))].

(* src/spv/types.rs:151-196 *)
Definition dbg_Decoration (x : Decoration) : dtree :=
  match x with
  | Decoration_RelaxedPrecision => DName "RelaxedPrecision"
  | Decoration_SpecId x0 => DTuple "SpecId" [DNumber x0]
  | Decoration_Block => DName "Block"
  | Decoration_BufferBlock => DName "BufferBlock"
  | Decoration_RowMajor => DName "RowMajor"
  | Decoration_ColMajor => DName "ColMajor"
  | Decoration_ArrayStride x0 => DTuple "ArrayStride" [DNumber x0]
  | Decoration_MatrixStride x0 => DTuple "MatrixStride" [DNumber x0]
  | Decoration_GlslShared => DName "GlslShared"
  | Decoration_GlslPacked => DName "GlslPacked"
  | Decoration_CPacked => DName "CPacked"
  | Decoration_BuiltIn x0 => DTuple "BuiltIn" [dbg_BuiltIn x0]
  | Decoration_NoPerspective => DName "NoPerspective"
  | Decoration_Flat => DName "Flat"
  | Decoration_Patch => DName "Patch"
  | Decoration_Centroid => DName "Centroid"
  | Decoration_Sample => DName "Sample"
  | Decoration_Invariant => DName "Invariant"
  | Decoration_Restrict => DName "Restrict"
  | Decoration_Aliased => DName "Aliased"
  | Decoration_Volatile => DName "Volatile"
  | Decoration_Constant => DName "Constant"
  | Decoration_Coherent => DName "Coherent"
  | Decoration_NonWritable => DName "NonWritable"
  | Decoration_NonReadable => DName "NonReadable"
  | Decoration_Uniform => DName "Uniform"
  | Decoration_SaturatedConversion => DName "SaturatedConversion"
  | Decoration_Stream x0 => DTuple "Stream" [DNumber x0]
  | Decoration_Location x0 => DTuple "Location" [DNumber x0]
  | Decoration_Component x0 => DTuple "Component" [DNumber x0]
  | Decoration_Index x0 => DTuple "Index" [DNumber x0]
  | Decoration_Binding x0 => DTuple "Binding" [DNumber x0]
  | Decoration_DescriptorSet x0 => DTuple "DescriptorSet" [DNumber x0]
  | Decoration_Offset x0 => DTuple "Offset" [DNumber x0]
  | Decoration_XfbBuffer x0 => DTuple "XfbBuffer" [DNumber x0]
  | Decoration_XfbStride x0 => DTuple "XfbStride" [DNumber x0]
  | Decoration_FuncParamAttr x0 => DTuple "FuncParamAttr" [dbg_FunctionParameterAttribute x0]
  | Decoration_FpRoundingMode x0 => DTuple "FpRoundingMode" [dbg_FpRoundingMode x0]
  | Decoration_FpFastMathMode x0 => DTuple "FpFastMathMode" [dbg_FpFastMathMode x0]
  | Decoration_LinkageAttributes x0 x1 => DTuple "LinkageAttributes" [DString x0; dbg_LinkageType x1]
  | Decoration_NoContraction => DName "NoContraction"
  | Decoration_InputAttachmentIndex x0 => DTuple "InputAttachmentIndex" [DNumber x0]
  | Decoration_Alignment x0 => DTuple "Alignment" [DNumber x0]
  end.

(* src/spv/op.rs:11-12 *)
Definition dbg_OpNop (x : OpNop) : dtree :=
  DName "OpNop".

(* src/spv/op.rs:16-20 *)
Definition dbg_OpUndef (x : OpUndef) : dtree :=
  DStruct "OpUndef" [("result_type", dbg_OpId (OpUndef_result_type x)); ("result_id", dbg_ResultId (OpUndef_result_id x))].

(* src/spv/op.rs:26-29 *)
Definition dbg_OpSourceContinued (x : OpSourceContinued) : dtree :=
  DStruct "OpSourceContinued" [("continued_source", DString (OpSourceContinued_continued_source x))].

(* src/spv/op.rs:33-39 *)
Definition dbg_OpSource (x : OpSource) : dtree :=
  DStruct "OpSource" [("language", dbg_SourceLanguage (OpSource_language x)); ("version", dbg_SourceVersion (OpSource_version x)); ("file", (dbg_Option dbg_OpId) (OpSource_file x)); ("source", (dbg_Option DString) (OpSource_source x))].

(* src/spv/op.rs:43-46 *)
Definition dbg_OpSourceExtension (x : OpSourceExtension) : dtree :=
  DStruct "OpSourceExtension" [("extension", DString (OpSourceExtension_extension x))].

(* src/spv/op.rs:50-54 *)
Definition dbg_OpName (x : OpName) : dtree :=
  DStruct "OpName" [("target", dbg_OpId (OpName_target x)); ("name", DString (OpName_name x))].

(* src/spv/op.rs:58-63 *)
Definition dbg_OpMemberName (x : OpMemberName) : dtree :=
  DStruct "OpMemberName" [("struct_type", dbg_OpId (OpMemberName_struct_type x)); ("member", dbg_MemberIndex (OpMemberName_member x)); ("name", DString (OpMemberName_name x))].

(* src/spv/op.rs:67-71 *)
Definition dbg_OpString (x : OpString) : dtree :=
  DStruct "OpString" [("result_id", dbg_ResultId (OpString_result_id x)); ("string", DString (OpString_string x))].

(* src/spv/op.rs:131-134 *)
Definition dbg_OpExtension (x : OpExtension) : dtree :=
  DStruct "OpExtension" [("name", DString (OpExtension_name x))].

(* src/spv/op.rs:138-142 *)
Definition dbg_OpExtInstImport (x : OpExtInstImport) : dtree :=
  DStruct "OpExtInstImport" [("result_id", dbg_ResultId (OpExtInstImport_result_id x)); ("name", DString (OpExtInstImport_name x))].

(* src/spv/op.rs:146-152 *)
Definition dbg_OpExtInst (x : OpExtInst E) : dtree :=
  DStruct "OpExtInst" [("result_type", dbg_OpId (OpExtInst_result_type x)); ("result_id", dbg_ResultId (OpExtInst_result_id x)); ("set", dbg_OpId (OpExtInst_set x)); ("instruction", DExtInstBox (OpExtInst_instruction x))].

(* src/spv/op.rs:158-162 *)
Definition dbg_OpMemoryModel (x : OpMemoryModel) : dtree :=
  DStruct "OpMemoryModel" [("addressing_model", dbg_AddressingModel (OpMemoryModel_addressing_model x)); ("memory_model", dbg_MemoryModel (OpMemoryModel_memory_model x))].

(* src/spv/op.rs:166-172 *)
Definition dbg_OpEntryPoint (x : OpEntryPoint) : dtree :=
  DStruct "OpEntryPoint" [("execution_model", dbg_ExecutionModel (OpEntryPoint_execution_model x)); ("entry_point", dbg_OpId (OpEntryPoint_entry_point x)); ("name", DString (OpEntryPoint_name x)); ("interface", (dbg_Vec dbg_OpId) (OpEntryPoint_interface x))].

(* src/spv/op.rs:176-180 *)
Definition dbg_OpExecutionMode (x : OpExecutionMode) : dtree :=
  DStruct "OpExecutionMode" [("entry_point", dbg_OpId (OpExecutionMode_entry_point x)); ("mode", dbg_ExecutionMode (OpExecutionMode_mode x))].

(* src/spv/op.rs:184-187 *)
Definition dbg_OpCapability (x : OpCapability) : dtree :=
  DStruct "OpCapability" [("capability", dbg_Capability (OpCapability_capability x))].

(* src/spv/op.rs:193-196 *)
Definition dbg_OpTypeVoid (x : OpTypeVoid) : dtree :=
  DStruct "OpTypeVoid" [("result_id", dbg_ResultId (OpTypeVoid_result_id x))].

(* src/spv/op.rs:200-203 *)
Definition dbg_OpTypeBool (x : OpTypeBool) : dtree :=
  DStruct "OpTypeBool" [("result_id", dbg_ResultId (OpTypeBool_result_id x))].

(* src/spv/op.rs:207-212 *)
Definition dbg_OpTypeInt (x : OpTypeInt) : dtree :=
  DStruct "OpTypeInt" [("result_id", dbg_ResultId (OpTypeInt_result_id x)); ("width", DNumber (OpTypeInt_width x)); ("signedness", dbg_Signedness (OpTypeInt_signedness x))].

(* src/spv/op.rs:216-220 *)
Definition dbg_OpTypeFloat (x : OpTypeFloat) : dtree :=
  DStruct "OpTypeFloat" [("result_id", dbg_ResultId (OpTypeFloat_result_id x)); ("width", DNumber (OpTypeFloat_width x))].

(* src/spv/op.rs:224-229 *)
Definition dbg_OpTypeVector (x : OpTypeVector) : dtree :=
  DStruct "OpTypeVector" [("result_id", dbg_ResultId (OpTypeVector_result_id x)); ("component_type", dbg_OpId (OpTypeVector_component_type x)); ("component_count", DNumber (OpTypeVector_component_count x))].

(* src/spv/op.rs:233-238 *)
Definition dbg_OpTypeMatrix (x : OpTypeMatrix) : dtree :=
  DStruct "OpTypeMatrix" [("result_id", dbg_ResultId (OpTypeMatrix_result_id x)); ("column_type", dbg_OpId (OpTypeMatrix_column_type x)); ("column_count", DNumber (OpTypeMatrix_column_count x))].

(* src/spv/op.rs:242-253 *)
Definition dbg_OpTypeImage (x : OpTypeImage) : dtree :=
  DStruct "OpTypeImage" [("result_id", dbg_ResultId (OpTypeImage_result_id x)); ("sampled_type", dbg_OpId (OpTypeImage_sampled_type x)); ("dim", dbg_Dim (OpTypeImage_dim x)); ("depth", dbg_DepthStatus (OpTypeImage_depth x)); ("arrayed", dbg_Arrayed (OpTypeImage_arrayed x)); ("ms", dbg_MS (OpTypeImage_ms x)); ("sampled", dbg_SampledStatus (OpTypeImage_sampled x)); ("format", dbg_ImageFormat (OpTypeImage_format x)); ("access_qualifier", (dbg_Option dbg_AccessQualifier) (OpTypeImage_access_qualifier x))].

(* src/spv/op.rs:266-269 *)
Definition dbg_OpTypeSampler (x : OpTypeSampler) : dtree :=
  DStruct "OpTypeSampler" [("result_id", dbg_ResultId (OpTypeSampler_result_id x))].

(* src/spv/op.rs:273-277 *)
Definition dbg_OpTypeSampledImage (x : OpTypeSampledImage) : dtree :=
  DStruct "OpTypeSampledImage" [("result_id", dbg_ResultId (OpTypeSampledImage_result_id x)); ("image_type", dbg_OpId (OpTypeSampledImage_image_type x))].

(* src/spv/op.rs:281-286 *)
Definition dbg_OpTypeArray (x : OpTypeArray) : dtree :=
  DStruct "OpTypeArray" [("result_id", dbg_ResultId (OpTypeArray_result_id x)); ("element_type", dbg_OpId (OpTypeArray_element_type x)); ("length", dbg_OpId (OpTypeArray_length x))].

(* src/spv/op.rs:290-294 *)
Definition dbg_OpTypeRuntimeArray (x : OpTypeRuntimeArray) : dtree :=
  DStruct "OpTypeRuntimeArray" [("result_id", dbg_ResultId (OpTypeRuntimeArray_result_id x)); ("element_type", dbg_OpId (OpTypeRuntimeArray_element_type x))].

(* src/spv/op.rs:298-302 *)
Definition dbg_OpTypeStruct (x : OpTypeStruct) : dtree :=
  DStruct "OpTypeStruct" [("result_id", dbg_ResultId (OpTypeStruct_result_id x)); ("member_types", (dbg_Vec dbg_OpId) (OpTypeStruct_member_types x))].

(* src/spv/op.rs:306-310 *)
Definition dbg_OpTypeOpaque (x : OpTypeOpaque) : dtree :=
  DStruct "OpTypeOpaque" [("result_id", dbg_ResultId (OpTypeOpaque_result_id x)); ("name", DString (OpTypeOpaque_name x))].

(* src/spv/op.rs:314-319 *)
Definition dbg_OpTypePointer (x : OpTypePointer) : dtree :=
  DStruct "OpTypePointer" [("result_id", dbg_ResultId (OpTypePointer_result_id x)); ("storage_class", dbg_StorageClass (OpTypePointer_storage_class x)); ("pointed_type", dbg_OpId (OpTypePointer_pointed_type x))].

(* src/spv/op.rs:323-328 *)
Definition dbg_OpTypeFunction (x : OpTypeFunction) : dtree :=
  DStruct "OpTypeFunction" [("result_id", dbg_ResultId (OpTypeFunction_result_id x)); ("return_type", dbg_OpId (OpTypeFunction_return_type x)); ("parameter_types", (dbg_Vec dbg_OpId) (OpTypeFunction_parameter_types x))].

(* src/spv/op.rs:332-335 *)
Definition dbg_OpTypeEvent (x : OpTypeEvent) : dtree :=
  DStruct "OpTypeEvent" [("result_id", dbg_ResultId (OpTypeEvent_result_id x))].

(* src/spv/op.rs:339-342 *)
Definition dbg_OpTypeDeviceEvent (x : OpTypeDeviceEvent) : dtree :=
  DStruct "OpTypeDeviceEvent" [("result_id", dbg_ResultId (OpTypeDeviceEvent_result_id x))].

(* src/spv/op.rs:353-356 *)
Definition dbg_OpTypeQueue (x : OpTypeQueue) : dtree :=
  DStruct "OpTypeQueue" [("result_id", dbg_ResultId (OpTypeQueue_result_id x))].

(* src/spv/op.rs:360-364 *)
Definition dbg_OpTypePipe (x : OpTypePipe) : dtree :=
  DStruct "OpTypePipe" [("result_id", dbg_ResultId (OpTypePipe_result_id x)); ("access_qualifier", dbg_AccessQualifier (OpTypePipe_access_qualifier x))].

(* src/spv/op.rs:368-372 *)
Definition dbg_OpTypeForwardPointer (x : OpTypeForwardPointer) : dtree :=
  DStruct "OpTypeForwardPointer" [("pointer_type", dbg_OpId (OpTypeForwardPointer_pointer_type x)); ("storage_class", dbg_StorageClass (OpTypeForwardPointer_storage_class x))].

(* src/spv/op.rs:394-399 *)
Definition dbg_OpConstant (x : OpConstant) : dtree :=
  DStruct "OpConstant" [("result_type", dbg_OpId (OpConstant_result_type x)); ("result_id", dbg_ResultId (OpConstant_result_id x)); ("value", (dbg_Vec DNumber) (OpConstant_value x))].

(* src/spv/op.rs:403-408 *)
Definition dbg_OpConstantComposite (x : OpConstantComposite) : dtree :=
  DStruct "OpConstantComposite" [("result_type", dbg_OpId (OpConstantComposite_result_type x)); ("result_id", dbg_ResultId (OpConstantComposite_result_id x)); ("constituents", (dbg_Vec dbg_OpId) (OpConstantComposite_constituents x))].

(* src/spv/op.rs:589-595 *)
Definition dbg_OpFunction (x : OpFunction) : dtree :=
  DStruct "OpFunction" [("result_type", dbg_OpId (OpFunction_result_type x)); ("result_id", dbg_ResultId (OpFunction_result_id x)); ("function_control", dbg_FunctionControl (OpFunction_function_control x)); ("function_type", dbg_OpId (OpFunction_function_type x))].

(* src/spv/op.rs:599-603 *)
Definition dbg_OpFunctionParameter (x : OpFunctionParameter) : dtree :=
  DStruct "OpFunctionParameter" [("result_type", dbg_OpId (OpFunctionParameter_result_type x)); ("result_id", dbg_ResultId (OpFunctionParameter_result_id x))].

(* src/spv/op.rs:607-608 *)
Definition dbg_OpFunctionEnd (x : OpFunctionEnd) : dtree :=
  DName "OpFunctionEnd".

(* src/spv/op.rs:467-473 *)
Definition dbg_OpVariable (x : OpVariable) : dtree :=
  DStruct "OpVariable" [("result_type", dbg_OpId (OpVariable_result_type x)); ("result_id", dbg_ResultId (OpVariable_result_id x)); ("storage_class", dbg_StorageClass (OpVariable_storage_class x)); ("initializer", (dbg_Option dbg_OpId) (OpVariable_initializer x))].

(* src/spv/op.rs:488-494 *)
Definition dbg_OpLoad (x : OpLoad) : dtree :=
  DStruct "OpLoad" [("result_type", dbg_OpId (OpLoad_result_type x)); ("result_id", dbg_ResultId (OpLoad_result_id x)); ("pointer", dbg_OpId (OpLoad_pointer x)); ("memory_access", (dbg_Option dbg_MemoryAccess) (OpLoad_memory_access x))].

(* src/spv/op.rs:498-503 *)
Definition dbg_OpStore (x : OpStore) : dtree :=
  DStruct "OpStore" [("pointer", dbg_OpId (OpStore_pointer x)); ("object", dbg_OpId (OpStore_object x)); ("memory_access", (dbg_Option dbg_MemoryAccess) (OpStore_memory_access x))].

(* src/spv/op.rs:526-532 *)
Definition dbg_OpAccessChain (x : OpAccessChain) : dtree :=
  DStruct "OpAccessChain" [("result_type", dbg_OpId (OpAccessChain_result_type x)); ("result_id", dbg_ResultId (OpAccessChain_result_id x)); ("base", dbg_OpId (OpAccessChain_base x)); ("indexes", (dbg_Vec dbg_OpId) (OpAccessChain_indexes x))].

(* src/spv/op.rs:91-95 *)
Definition dbg_OpDecorate (x : OpDecorate) : dtree :=
  DStruct "OpDecorate" [("target", dbg_OpId (OpDecorate_target x)); ("decoration", dbg_Decoration (OpDecorate_decoration x))].

(* src/spv/op.rs:99-104 *)
Definition dbg_OpMemberDecorate (x : OpMemberDecorate) : dtree :=
  DStruct "OpMemberDecorate" [("structure_type", dbg_OpId (OpMemberDecorate_structure_type x)); ("member", dbg_MemberIndex (OpMemberDecorate_member x)); ("decoration", dbg_Decoration (OpMemberDecorate_decoration x))].

(* src/spv/op.rs:858-863 *)
Definition dbg_OpConvertUToF (x : OpConvertUToF) : dtree :=
  DStruct "OpConvertUToF" [("result_type", dbg_OpId (OpConvertUToF_result_type x)); ("result_id", dbg_ResultId (OpConvertUToF_result_id x)); ("unsigned_value", dbg_OpId (OpConvertUToF_unsigned_value x))].

(* src/spv/op.rs:967-972 *)
Definition dbg_OpBitcast (x : OpBitcast) : dtree :=
  DStruct "OpBitcast" [("result_type", dbg_OpId (OpBitcast_result_type x)); ("result_id", dbg_ResultId (OpBitcast_result_id x)); ("operand", dbg_OpId (OpBitcast_operand x))].

(* src/spv/op.rs:1078-1084 *)
Definition dbg_OpIAdd (x : OpIAdd) : dtree :=
  DStruct "OpIAdd" [("result_type", dbg_OpId (OpIAdd_result_type x)); ("result_id", dbg_ResultId (OpIAdd_result_id x)); ("operand1", dbg_OpId (OpIAdd_operand1 x)); ("operand2", dbg_OpId (OpIAdd_operand2 x))].

(* src/spv/op.rs:1088-1094 *)
Definition dbg_OpFAdd (x : OpFAdd) : dtree :=
  DStruct "OpFAdd" [("result_type", dbg_OpId (OpFAdd_result_type x)); ("result_id", dbg_ResultId (OpFAdd_result_id x)); ("operand1", dbg_OpId (OpFAdd_operand1 x)); ("operand2", dbg_OpId (OpFAdd_operand2 x))].

(* src/spv/op.rs:1098-1104 *)
Definition dbg_OpISub (x : OpISub) : dtree :=
  DStruct "OpISub" [("result_type", dbg_OpId (OpISub_result_type x)); ("result_id", dbg_ResultId (OpISub_result_id x)); ("operand1", dbg_OpId (OpISub_operand1 x)); ("operand2", dbg_OpId (OpISub_operand2 x))].

(* src/spv/op.rs:1108-1114 *)
Definition dbg_OpFSub (x : OpFSub) : dtree :=
  DStruct "OpFSub" [("result_type", dbg_OpId (OpFSub_result_type x)); ("result_id", dbg_ResultId (OpFSub_result_id x)); ("operand1", dbg_OpId (OpFSub_operand1 x)); ("operand2", dbg_OpId (OpFSub_operand2 x))].

(* src/spv/op.rs:1118-1124 *)
Definition dbg_OpIMul (x : OpIMul) : dtree :=
  DStruct "OpIMul" [("result_type", dbg_OpId (OpIMul_result_type x)); ("result_id", dbg_ResultId (OpIMul_result_id x)); ("operand1", dbg_OpId (OpIMul_operand1 x)); ("operand2", dbg_OpId (OpIMul_operand2 x))].

(* src/spv/op.rs:1128-1134 *)
Definition dbg_OpFMul (x : OpFMul) : dtree :=
  DStruct "OpFMul" [("result_type", dbg_OpId (OpFMul_result_type x)); ("result_id", dbg_ResultId (OpFMul_result_id x)); ("operand1", dbg_OpId (OpFMul_operand1 x)); ("operand2", dbg_OpId (OpFMul_operand2 x))].

(* src/spv/op.rs:1138-1144 *)
Definition dbg_OpUDiv (x : OpUDiv) : dtree :=
  DStruct "OpUDiv" [("result_type", dbg_OpId (OpUDiv_result_type x)); ("result_id", dbg_ResultId (OpUDiv_result_id x)); ("operand1", dbg_OpId (OpUDiv_operand1 x)); ("operand2", dbg_OpId (OpUDiv_operand2 x))].

(* src/spv/op.rs:1148-1154 *)
Definition dbg_OpSDiv (x : OpSDiv) : dtree :=
  DStruct "OpSDiv" [("result_type", dbg_OpId (OpSDiv_result_type x)); ("result_id", dbg_ResultId (OpSDiv_result_id x)); ("operand1", dbg_OpId (OpSDiv_operand1 x)); ("operand2", dbg_OpId (OpSDiv_operand2 x))].

(* src/spv/op.rs:1158-1164 *)
Definition dbg_OpFDiv (x : OpFDiv) : dtree :=
  DStruct "OpFDiv" [("result_type", dbg_OpId (OpFDiv_result_type x)); ("result_id", dbg_ResultId (OpFDiv_result_id x)); ("operand1", dbg_OpId (OpFDiv_operand1 x)); ("operand2", dbg_OpId (OpFDiv_operand2 x))].

(* src/spv/op.rs:1168-1174 *)
Definition dbg_OpUMod (x : OpUMod) : dtree :=
  DStruct "OpUMod" [("result_type", dbg_OpId (OpUMod_result_type x)); ("result_id", dbg_ResultId (OpUMod_result_id x)); ("operand1", dbg_OpId (OpUMod_operand1 x)); ("operand2", dbg_OpId (OpUMod_operand2 x))].

(* src/spv/op.rs:1178-1184 *)
Definition dbg_OpSRem (x : OpSRem) : dtree :=
  DStruct "OpSRem" [("result_type", dbg_OpId (OpSRem_result_type x)); ("result_id", dbg_ResultId (OpSRem_result_id x)); ("operand1", dbg_OpId (OpSRem_operand1 x)); ("operand2", dbg_OpId (OpSRem_operand2 x))].

(* src/spv/op.rs:1188-1194 *)
Definition dbg_OpSMod (x : OpSMod) : dtree :=
  DStruct "OpSMod" [("result_type", dbg_OpId (OpSMod_result_type x)); ("result_id", dbg_ResultId (OpSMod_result_id x)); ("operand1", dbg_OpId (OpSMod_operand1 x)); ("operand2", dbg_OpId (OpSMod_operand2 x))].

(* src/spv/op.rs:1198-1204 *)
Definition dbg_OpFRem (x : OpFRem) : dtree :=
  DStruct "OpFRem" [("result_type", dbg_OpId (OpFRem_result_type x)); ("result_id", dbg_ResultId (OpFRem_result_id x)); ("operand1", dbg_OpId (OpFRem_operand1 x)); ("operand2", dbg_OpId (OpFRem_operand2 x))].

(* src/spv/op.rs:1208-1214 *)
Definition dbg_OpFMod (x : OpFMod) : dtree :=
  DStruct "OpFMod" [("result_type", dbg_OpId (OpFMod_result_type x)); ("result_id", dbg_ResultId (OpFMod_result_id x)); ("operand1", dbg_OpId (OpFMod_operand1 x)); ("operand2", dbg_OpId (OpFMod_operand2 x))].

(* src/spv/op.rs:1288-1294 *)
Definition dbg_OpIAddCarry (x : OpIAddCarry) : dtree :=
  DStruct "OpIAddCarry" [("result_type", dbg_OpId (OpIAddCarry_result_type x)); ("result_id", dbg_ResultId (OpIAddCarry_result_id x)); ("operand1", dbg_OpId (OpIAddCarry_operand1 x)); ("operand2", dbg_OpId (OpIAddCarry_operand2 x))].

(* src/spv/op.rs:1298-1304 *)
Definition dbg_OpISubBorrow (x : OpISubBorrow) : dtree :=
  DStruct "OpISubBorrow" [("result_type", dbg_OpId (OpISubBorrow_result_type x)); ("result_id", dbg_ResultId (OpISubBorrow_result_id x)); ("operand1", dbg_OpId (OpISubBorrow_operand1 x)); ("operand2", dbg_OpId (OpISubBorrow_operand2 x))].

(* src/spv/op.rs:1308-1314 *)
Definition dbg_OpUMulExtended (x : OpUMulExtended) : dtree :=
  DStruct "OpUMulExtended" [("result_type", dbg_OpId (OpUMulExtended_result_type x)); ("result_id", dbg_ResultId (OpUMulExtended_result_id x)); ("operand1", dbg_OpId (OpUMulExtended_operand1 x)); ("operand2", dbg_OpId (OpUMulExtended_operand2 x))].

(* src/spv/op.rs:1318-1324 *)
Definition dbg_OpSMulExtended (x : OpSMulExtended) : dtree :=
  DStruct "OpSMulExtended" [("result_type", dbg_OpId (OpSMulExtended_result_type x)); ("result_id", dbg_ResultId (OpSMulExtended_result_id x)); ("operand1", dbg_OpId (OpSMulExtended_operand1 x)); ("operand2", dbg_OpId (OpSMulExtended_operand2 x))].

(* src/spv/op.rs:1360-1366 *)
Definition dbg_OpBitwiseOr (x : OpBitwiseOr) : dtree :=
  DStruct "OpBitwiseOr" [("result_type", dbg_OpId (OpBitwiseOr_result_type x)); ("result_id", dbg_ResultId (OpBitwiseOr_result_id x)); ("operand1", dbg_OpId (OpBitwiseOr_operand1 x)); ("operand2", dbg_OpId (OpBitwiseOr_operand2 x))].

(* src/spv/op.rs:1370-1376 *)
Definition dbg_OpBitwiseXor (x : OpBitwiseXor) : dtree :=
  DStruct "OpBitwiseXor" [("result_type", dbg_OpId (OpBitwiseXor_result_type x)); ("result_id", dbg_ResultId (OpBitwiseXor_result_id x)); ("operand1", dbg_OpId (OpBitwiseXor_operand1 x)); ("operand2", dbg_OpId (OpBitwiseXor_operand2 x))].

(* src/spv/op.rs:1380-1386 *)
Definition dbg_OpBitwiseAnd (x : OpBitwiseAnd) : dtree :=
  DStruct "OpBitwiseAnd" [("result_type", dbg_OpId (OpBitwiseAnd_result_type x)); ("result_id", dbg_ResultId (OpBitwiseAnd_result_id x)); ("operand1", dbg_OpId (OpBitwiseAnd_operand1 x)); ("operand2", dbg_OpId (OpBitwiseAnd_operand2 x))].

(* src/spv/op.rs:1464-1470 *)
Definition dbg_OpIEqual (x : OpIEqual) : dtree :=
  DStruct "OpIEqual" [("result_type", dbg_OpId (OpIEqual_result_type x)); ("result_id", dbg_ResultId (OpIEqual_result_id x)); ("operand1", dbg_OpId (OpIEqual_operand1 x)); ("operand2", dbg_OpId (OpIEqual_operand2 x))].

(* src/spv/op.rs:1474-1480 *)
Definition dbg_OpINotEqual (x : OpINotEqual) : dtree :=
  DStruct "OpINotEqual" [("result_type", dbg_OpId (OpINotEqual_result_type x)); ("result_id", dbg_ResultId (OpINotEqual_result_id x)); ("operand1", dbg_OpId (OpINotEqual_operand1 x)); ("operand2", dbg_OpId (OpINotEqual_operand2 x))].

(* src/spv/op.rs:1484-1490 *)
Definition dbg_OpUGreaterThan (x : OpUGreaterThan) : dtree :=
  DStruct "OpUGreaterThan" [("result_type", dbg_OpId (OpUGreaterThan_result_type x)); ("result_id", dbg_ResultId (OpUGreaterThan_result_id x)); ("operand1", dbg_OpId (OpUGreaterThan_operand1 x)); ("operand2", dbg_OpId (OpUGreaterThan_operand2 x))].

(* src/spv/op.rs:1494-1500 *)
Definition dbg_OpSGreaterThan (x : OpSGreaterThan) : dtree :=
  DStruct "OpSGreaterThan" [("result_type", dbg_OpId (OpSGreaterThan_result_type x)); ("result_id", dbg_ResultId (OpSGreaterThan_result_id x)); ("operand1", dbg_OpId (OpSGreaterThan_operand1 x)); ("operand2", dbg_OpId (OpSGreaterThan_operand2 x))].

(* src/spv/op.rs:1504-1510 *)
Definition dbg_OpUGreaterThanEqual (x : OpUGreaterThanEqual) : dtree :=
  DStruct "OpUGreaterThanEqual" [("result_type", dbg_OpId (OpUGreaterThanEqual_result_type x)); ("result_id", dbg_ResultId (OpUGreaterThanEqual_result_id x)); ("operand1", dbg_OpId (OpUGreaterThanEqual_operand1 x)); ("operand2", dbg_OpId (OpUGreaterThanEqual_operand2 x))].

(* src/spv/op.rs:1514-1520 *)
Definition dbg_OpSGreaterThanEqual (x : OpSGreaterThanEqual) : dtree :=
  DStruct "OpSGreaterThanEqual" [("result_type", dbg_OpId (OpSGreaterThanEqual_result_type x)); ("result_id", dbg_ResultId (OpSGreaterThanEqual_result_id x)); ("operand1", dbg_OpId (OpSGreaterThanEqual_operand1 x)); ("operand2", dbg_OpId (OpSGreaterThanEqual_operand2 x))].

(* src/spv/op.rs:1524-1530 *)
Definition dbg_OpULessThan (x : OpULessThan) : dtree :=
  DStruct "OpULessThan" [("result_type", dbg_OpId (OpULessThan_result_type x)); ("result_id", dbg_ResultId (OpULessThan_result_id x)); ("operand1", dbg_OpId (OpULessThan_operand1 x)); ("operand2", dbg_OpId (OpULessThan_operand2 x))].

(* src/spv/op.rs:1534-1540 *)
Definition dbg_OpSLessThan (x : OpSLessThan) : dtree :=
  DStruct "OpSLessThan" [("result_type", dbg_OpId (OpSLessThan_result_type x)); ("result_id", dbg_ResultId (OpSLessThan_result_id x)); ("operand1", dbg_OpId (OpSLessThan_operand1 x)); ("operand2", dbg_OpId (OpSLessThan_operand2 x))].

(* src/spv/op.rs:1544-1550 *)
Definition dbg_OpULessThanEqual (x : OpULessThanEqual) : dtree :=
  DStruct "OpULessThanEqual" [("result_type", dbg_OpId (OpULessThanEqual_result_type x)); ("result_id", dbg_ResultId (OpULessThanEqual_result_id x)); ("operand1", dbg_OpId (OpULessThanEqual_operand1 x)); ("operand2", dbg_OpId (OpULessThanEqual_operand2 x))].

(* src/spv/op.rs:1554-1560 *)
Definition dbg_OpSLessThanEqual (x : OpSLessThanEqual) : dtree :=
  DStruct "OpSLessThanEqual" [("result_type", dbg_OpId (OpSLessThanEqual_result_type x)); ("result_id", dbg_ResultId (OpSLessThanEqual_result_id x)); ("operand1", dbg_OpId (OpSLessThanEqual_operand1 x)); ("operand2", dbg_OpId (OpSLessThanEqual_operand2 x))].

(* src/spv/op.rs:1564-1570 *)
Definition dbg_OpFOrdEqual (x : OpFOrdEqual) : dtree :=
  DStruct "OpFOrdEqual" [("result_type", dbg_OpId (OpFOrdEqual_result_type x)); ("result_id", dbg_ResultId (OpFOrdEqual_result_id x)); ("operand1", dbg_OpId (OpFOrdEqual_operand1 x)); ("operand2", dbg_OpId (OpFOrdEqual_operand2 x))].

(* src/spv/op.rs:1574-1580 *)
Definition dbg_OpFUnordEqual (x : OpFUnordEqual) : dtree :=
  DStruct "OpFUnordEqual" [("result_type", dbg_OpId (OpFUnordEqual_result_type x)); ("result_id", dbg_ResultId (OpFUnordEqual_result_id x)); ("operand1", dbg_OpId (OpFUnordEqual_operand1 x)); ("operand2", dbg_OpId (OpFUnordEqual_operand2 x))].

(* src/spv/op.rs:1584-1590 *)
Definition dbg_OpFOrdNotEqual (x : OpFOrdNotEqual) : dtree :=
  DStruct "OpFOrdNotEqual" [("result_type", dbg_OpId (OpFOrdNotEqual_result_type x)); ("result_id", dbg_ResultId (OpFOrdNotEqual_result_id x)); ("operand1", dbg_OpId (OpFOrdNotEqual_operand1 x)); ("operand2", dbg_OpId (OpFOrdNotEqual_operand2 x))].

(* src/spv/op.rs:1594-1600 *)
Definition dbg_OpFUnordNotEqual (x : OpFUnordNotEqual) : dtree :=
  DStruct "OpFUnordNotEqual" [("result_type", dbg_OpId (OpFUnordNotEqual_result_type x)); ("result_id", dbg_ResultId (OpFUnordNotEqual_result_id x)); ("operand1", dbg_OpId (OpFUnordNotEqual_operand1 x)); ("operand2", dbg_OpId (OpFUnordNotEqual_operand2 x))].

(* src/spv/op.rs:1604-1610 *)
Definition dbg_OpFOrdLessThan (x : OpFOrdLessThan) : dtree :=
  DStruct "OpFOrdLessThan" [("result_type", dbg_OpId (OpFOrdLessThan_result_type x)); ("result_id", dbg_ResultId (OpFOrdLessThan_result_id x)); ("operand1", dbg_OpId (OpFOrdLessThan_operand1 x)); ("operand2", dbg_OpId (OpFOrdLessThan_operand2 x))].

(* src/spv/op.rs:1614-1620 *)
Definition dbg_OpFUnordLessThan (x : OpFUnordLessThan) : dtree :=
  DStruct "OpFUnordLessThan" [("result_type", dbg_OpId (OpFUnordLessThan_result_type x)); ("result_id", dbg_ResultId (OpFUnordLessThan_result_id x)); ("operand1", dbg_OpId (OpFUnordLessThan_operand1 x)); ("operand2", dbg_OpId (OpFUnordLessThan_operand2 x))].

(* src/spv/op.rs:1624-1630 *)
Definition dbg_OpFOrdGreaterThan (x : OpFOrdGreaterThan) : dtree :=
  DStruct "OpFOrdGreaterThan" [("result_type", dbg_OpId (OpFOrdGreaterThan_result_type x)); ("result_id", dbg_ResultId (OpFOrdGreaterThan_result_id x)); ("operand1", dbg_OpId (OpFOrdGreaterThan_operand1 x)); ("operand2", dbg_OpId (OpFOrdGreaterThan_operand2 x))].

(* src/spv/op.rs:1634-1640 *)
Definition dbg_OpFUnordGreaterThan (x : OpFUnordGreaterThan) : dtree :=
  DStruct "OpFUnordGreaterThan" [("result_type", dbg_OpId (OpFUnordGreaterThan_result_type x)); ("result_id", dbg_ResultId (OpFUnordGreaterThan_result_id x)); ("operand1", dbg_OpId (OpFUnordGreaterThan_operand1 x)); ("operand2", dbg_OpId (OpFUnordGreaterThan_operand2 x))].

(* src/spv/op.rs:1644-1650 *)
Definition dbg_OpFOrdLessThanEqual (x : OpFOrdLessThanEqual) : dtree :=
  DStruct "OpFOrdLessThanEqual" [("result_type", dbg_OpId (OpFOrdLessThanEqual_result_type x)); ("result_id", dbg_ResultId (OpFOrdLessThanEqual_result_id x)); ("operand1", dbg_OpId (OpFOrdLessThanEqual_operand1 x)); ("operand2", dbg_OpId (OpFOrdLessThanEqual_operand2 x))].

(* src/spv/op.rs:1654-1660 *)
Definition dbg_OpFUnordLessThanEqual (x : OpFUnordLessThanEqual) : dtree :=
  DStruct "OpFUnordLessThanEqual" [("result_type", dbg_OpId (OpFUnordLessThanEqual_result_type x)); ("result_id", dbg_ResultId (OpFUnordLessThanEqual_result_id x)); ("operand1", dbg_OpId (OpFUnordLessThanEqual_operand1 x)); ("operand2", dbg_OpId (OpFUnordLessThanEqual_operand2 x))].

(* src/spv/op.rs:1664-1670 *)
Definition dbg_OpFOrdGreaterThanEqual (x : OpFOrdGreaterThanEqual) : dtree :=
  DStruct "OpFOrdGreaterThanEqual" [("result_type", dbg_OpId (OpFOrdGreaterThanEqual_result_type x)); ("result_id", dbg_ResultId (OpFOrdGreaterThanEqual_result_id x)); ("operand1", dbg_OpId (OpFOrdGreaterThanEqual_operand1 x)); ("operand2", dbg_OpId (OpFOrdGreaterThanEqual_operand2 x))].

(* src/spv/op.rs:1674-1680 *)
Definition dbg_OpFUnordGreaterThanEqual (x : OpFUnordGreaterThanEqual) : dtree :=
  DStruct "OpFUnordGreaterThanEqual" [("result_type", dbg_OpId (OpFUnordGreaterThanEqual_result_type x)); ("result_id", dbg_ResultId (OpFUnordGreaterThanEqual_result_id x)); ("operand1", dbg_OpId (OpFUnordGreaterThanEqual_operand1 x)); ("operand2", dbg_OpId (OpFUnordGreaterThanEqual_operand2 x))].

(* src/spv/op.rs:1715-1720 *)
Definition dbg_OpPhi (x : OpPhi) : dtree :=
  DStruct "OpPhi" [("result_type", dbg_OpId (OpPhi_result_type x)); ("result_id", dbg_ResultId (OpPhi_result_id x)); ("variables", (dbg_Vec dbg_PhiArg) (OpPhi_variables x))].

(* src/spv/op.rs:1724-1729 *)
Definition dbg_OpLoopMerge (x : OpLoopMerge) : dtree :=
  DStruct "OpLoopMerge" [("merge_block", dbg_OpId (OpLoopMerge_merge_block x)); ("continue_target", dbg_OpId (OpLoopMerge_continue_target x)); ("loop_control", dbg_LoopControl (OpLoopMerge_loop_control x))].

(* src/spv/op.rs:1733-1737 *)
Definition dbg_OpSelectionMerge (x : OpSelectionMerge) : dtree :=
  DStruct "OpSelectionMerge" [("merge_block", dbg_OpId (OpSelectionMerge_merge_block x)); ("selection_control", dbg_SelectionControl (OpSelectionMerge_selection_control x))].

(* src/spv/op.rs:1741-1744 *)
Definition dbg_OpLabel (x : OpLabel) : dtree :=
  DStruct "OpLabel" [("result_id", dbg_ResultId (OpLabel_result_id x))].

(* src/spv/op.rs:1748-1751 *)
Definition dbg_OpBranch (x : OpBranch) : dtree :=
  DStruct "OpBranch" [("target_label", dbg_OpId (OpBranch_target_label x))].

(* src/spv/op.rs:1755-1761 *)
Definition dbg_OpBranchConditional (x : OpBranchConditional) : dtree :=
  DStruct "OpBranchConditional" [("condition", dbg_OpId (OpBranchConditional_condition x)); ("true_label", dbg_OpId (OpBranchConditional_true_label x)); ("false_label", dbg_OpId (OpBranchConditional_false_label x)); ("weights", (dbg_Option dbg_BranchWeights) (OpBranchConditional_weights x))].

(* src/spv/op.rs:1771-1772 *)
Definition dbg_OpReturn (x : OpReturn) : dtree :=
  DName "OpReturn".

(* src/spv/raw/mod.rs:52-152 *)
Definition dbg_Core (x : Core E) : dtree :=
  match x with
  | Core_OpNop x0 => DTuple "OpNop" [dbg_OpNop x0]
  | Core_OpUndef x0 => DTuple "OpUndef" [dbg_OpUndef x0]
  | Core_OpSourceContinued x0 => DTuple "OpSourceContinued" [dbg_OpSourceContinued x0]
  | Core_OpSource x0 => DTuple "OpSource" [dbg_OpSource x0]
  | Core_OpSourceExtension x0 => DTuple "OpSourceExtension" [dbg_OpSourceExtension x0]
  | Core_OpName x0 => DTuple "OpName" [dbg_OpName x0]
  | Core_OpMemberName x0 => DTuple "OpMemberName" [dbg_OpMemberName x0]
  | Core_OpString x0 => DTuple "OpString" [dbg_OpString x0]
  | Core_OpExtension x0 => DTuple "OpExtension" [dbg_OpExtension x0]
  | Core_OpExtInstImport x0 => DTuple "OpExtInstImport" [dbg_OpExtInstImport x0]
  | Core_OpExtInst x0 => DTuple "OpExtInst" [dbg_OpExtInst x0]
  | Core_OpMemoryModel x0 => DTuple "OpMemoryModel" [dbg_OpMemoryModel x0]
  | Core_OpEntryPoint x0 => DTuple "OpEntryPoint" [dbg_OpEntryPoint x0]
  | Core_OpExecutionMode x0 => DTuple "OpExecutionMode" [dbg_OpExecutionMode x0]
  | Core_OpCapability x0 => DTuple "OpCapability" [dbg_OpCapability x0]
  | Core_OpTypeVoid x0 => DTuple "OpTypeVoid" [dbg_OpTypeVoid x0]
  | Core_OpTypeBool x0 => DTuple "OpTypeBool" [dbg_OpTypeBool x0]
  | Core_OpTypeInt x0 => DTuple "OpTypeInt" [dbg_OpTypeInt x0]
  | Core_OpTypeFloat x0 => DTuple "OpTypeFloat" [dbg_OpTypeFloat x0]
  | Core_OpTypeVector x0 => DTuple "OpTypeVector" [dbg_OpTypeVector x0]
  | Core_OpTypeMatrix x0 => DTuple "OpTypeMatrix" [dbg_OpTypeMatrix x0]
  | Core_OpTypeImage x0 => DTuple "OpTypeImage" [dbg_OpTypeImage x0]
  | Core_OpTypeSampler x0 => DTuple "OpTypeSampler" [dbg_OpTypeSampler x0]
  | Core_OpTypeSampledImage x0 => DTuple "OpTypeSampledImage" [dbg_OpTypeSampledImage x0]
  | Core_OpTypeArray x0 => DTuple "OpTypeArray" [dbg_OpTypeArray x0]
  | Core_OpTypeRuntimeArray x0 => DTuple "OpTypeRuntimeArray" [dbg_OpTypeRuntimeArray x0]
  | Core_OpTypeStruct x0 => DTuple "OpTypeStruct" [dbg_OpTypeStruct x0]
  | Core_OpTypeOpaque x0 => DTuple "OpTypeOpaque" [dbg_OpTypeOpaque x0]
  | Core_OpTypePointer x0 => DTuple "OpTypePointer" [dbg_OpTypePointer x0]
  | Core_OpTypeFunction x0 => DTuple "OpTypeFunction" [dbg_OpTypeFunction x0]
  | Core_OpTypeEvent x0 => DTuple "OpTypeEvent" [dbg_OpTypeEvent x0]
  | Core_OpTypeDeviceEvent x0 => DTuple "OpTypeDeviceEvent" [dbg_OpTypeDeviceEvent x0]
  | Core_OpTypeQueue x0 => DTuple "OpTypeQueue" [dbg_OpTypeQueue x0]
  | Core_OpTypePipe x0 => DTuple "OpTypePipe" [dbg_OpTypePipe x0]
  | Core_OpTypeForwardPointer x0 => DTuple "OpTypeForwardPointer" [dbg_OpTypeForwardPointer x0]
  | Core_OpConstant x0 => DTuple "OpConstant" [dbg_OpConstant x0]
  | Core_OpConstantComposite x0 => DTuple "OpConstantComposite" [dbg_OpConstantComposite x0]
  | Core_OpFunction x0 => DTuple "OpFunction" [dbg_OpFunction x0]
  | Core_OpFunctionParameter x0 => DTuple "OpFunctionParameter" [dbg_OpFunctionParameter x0]
  | Core_OpFunctionEnd x0 => DTuple "OpFunctionEnd" [dbg_OpFunctionEnd x0]
  | Core_OpVariable x0 => DTuple "OpVariable" [dbg_OpVariable x0]
  | Core_OpLoad x0 => DTuple "OpLoad" [dbg_OpLoad x0]
  | Core_OpStore x0 => DTuple "OpStore" [dbg_OpStore x0]
  | Core_OpAccessChain x0 => DTuple "OpAccessChain" [dbg_OpAccessChain x0]
  | Core_OpDecorate x0 => DTuple "OpDecorate" [dbg_OpDecorate x0]
  | Core_OpMemberDecorate x0 => DTuple "OpMemberDecorate" [dbg_OpMemberDecorate x0]
  | Core_OpConvertUToF x0 => DTuple "OpConvertUToF" [dbg_OpConvertUToF x0]
  | Core_OpBitcast x0 => DTuple "OpBitcast" [dbg_OpBitcast x0]
  | Core_OpIAdd x0 => DTuple "OpIAdd" [dbg_OpIAdd x0]
  | Core_OpFAdd x0 => DTuple "OpFAdd" [dbg_OpFAdd x0]
  | Core_OpISub x0 => DTuple "OpISub" [dbg_OpISub x0]
  | Core_OpFSub x0 => DTuple "OpFSub" [dbg_OpFSub x0]
  | Core_OpIMul x0 => DTuple "OpIMul" [dbg_OpIMul x0]
  | Core_OpFMul x0 => DTuple "OpFMul" [dbg_OpFMul x0]
  | Core_OpUDiv x0 => DTuple "OpUDiv" [dbg_OpUDiv x0]
  | Core_OpSDiv x0 => DTuple "OpSDiv" [dbg_OpSDiv x0]
  | Core_OpFDiv x0 => DTuple "OpFDiv" [dbg_OpFDiv x0]
  | Core_OpUMod x0 => DTuple "OpUMod" [dbg_OpUMod x0]
  | Core_OpSRem x0 => DTuple "OpSRem" [dbg_OpSRem x0]
  | Core_OpSMod x0 => DTuple "OpSMod" [dbg_OpSMod x0]
  | Core_OpFRem x0 => DTuple "OpFRem" [dbg_OpFRem x0]
  | Core_OpFMod x0 => DTuple "OpFMod" [dbg_OpFMod x0]
  | Core_OpIAddCarry x0 => DTuple "OpIAddCarry" [dbg_OpIAddCarry x0]
  | Core_OpISubBorrow x0 => DTuple "OpISubBorrow" [dbg_OpISubBorrow x0]
  | Core_OpUMulExtended x0 => DTuple "OpUMulExtended" [dbg_OpUMulExtended x0]
  | Core_OpSMulExtended x0 => DTuple "OpSMulExtended" [dbg_OpSMulExtended x0]
  | Core_OpBitwiseOr x0 => DTuple "OpBitwiseOr" [dbg_OpBitwiseOr x0]
  | Core_OpBitwiseXor x0 => DTuple "OpBitwiseXor" [dbg_OpBitwiseXor x0]
  | Core_OpBitwiseAnd x0 => DTuple "OpBitwiseAnd" [dbg_OpBitwiseAnd x0]
  | Core_OpIEqual x0 => DTuple "OpIEqual" [dbg_OpIEqual x0]
  | Core_OpINotEqual x0 => DTuple "OpINotEqual" [dbg_OpINotEqual x0]
  | Core_OpUGreaterThan x0 => DTuple "OpUGreaterThan" [dbg_OpUGreaterThan x0]
  | Core_OpSGreaterThan x0 => DTuple "OpSGreaterThan" [dbg_OpSGreaterThan x0]
  | Core_OpUGreaterThanEqual x0 => DTuple "OpUGreaterThanEqual" [dbg_OpUGreaterThanEqual x0]
  | Core_OpSGreaterThanEqual x0 => DTuple "OpSGreaterThanEqual" [dbg_OpSGreaterThanEqual x0]
  | Core_OpULessThan x0 => DTuple "OpULessThan" [dbg_OpULessThan x0]
  | Core_OpSLessThan x0 => DTuple "OpSLessThan" [dbg_OpSLessThan x0]
  | Core_OpULessThanEqual x0 => DTuple "OpULessThanEqual" [dbg_OpULessThanEqual x0]
  | Core_OpSLessThanEqual x0 => DTuple "OpSLessThanEqual" [dbg_OpSLessThanEqual x0]
  | Core_OpFOrdEqual x0 => DTuple "OpFOrdEqual" [dbg_OpFOrdEqual x0]
  | Core_OpFUnordEqual x0 => DTuple "OpFUnordEqual" [dbg_OpFUnordEqual x0]
  | Core_OpFOrdNotEqual x0 => DTuple "OpFOrdNotEqual" [dbg_OpFOrdNotEqual x0]
  | Core_OpFUnordNotEqual x0 => DTuple "OpFUnordNotEqual" [dbg_OpFUnordNotEqual x0]
  | Core_OpFOrdLessThan x0 => DTuple "OpFOrdLessThan" [dbg_OpFOrdLessThan x0]
  | Core_OpFUnordLessThan x0 => DTuple "OpFUnordLessThan" [dbg_OpFUnordLessThan x0]
  | Core_OpFOrdGreaterThan x0 => DTuple "OpFOrdGreaterThan" [dbg_OpFOrdGreaterThan x0]
  | Core_OpFUnordGreaterThan x0 => DTuple "OpFUnordGreaterThan" [dbg_OpFUnordGreaterThan x0]
  | Core_OpFOrdLessThanEqual x0 => DTuple "OpFOrdLessThanEqual" [dbg_OpFOrdLessThanEqual x0]
  | Core_OpFUnordLessThanEqual x0 => DTuple "OpFUnordLessThanEqual" [dbg_OpFUnordLessThanEqual x0]
  | Core_OpFOrdGreaterThanEqual x0 => DTuple "OpFOrdGreaterThanEqual" [dbg_OpFOrdGreaterThanEqual x0]
  | Core_OpFUnordGreaterThanEqual x0 => DTuple "OpFUnordGreaterThanEqual" [dbg_OpFUnordGreaterThanEqual x0]
  | Core_OpPhi x0 => DTuple "OpPhi" [dbg_OpPhi x0]
  | Core_OpLoopMerge x0 => DTuple "OpLoopMerge" [dbg_OpLoopMerge x0]
  | Core_OpSelectionMerge x0 => DTuple "OpSelectionMerge" [dbg_OpSelectionMerge x0]
  | Core_OpLabel x0 => DTuple "OpLabel" [dbg_OpLabel x0]
  | Core_OpBranch x0 => DTuple "OpBranch" [dbg_OpBranch x0]
  | Core_OpBranchConditional x0 => DTuple "OpBranchConditional" [dbg_OpBranchConditional x0]
  | Core_OpReturn x0 => DTuple "OpReturn" [dbg_OpReturn x0]
  end.

(* src/spv/raw/mod.rs:15-25 *)
Definition dbg_RawModule (x : RawModule E) : dtree :=
  DStruct "RawModule" [("version", dbg_Version (RawModule_version x)); ("generator", dbg_Generator (RawModule_generator x)); ("bound", DNumber (RawModule_bound x)); ("instructions", (dbg_Vec dbg_Core) (RawModule_instructions x))].

(* src/spv/raw/mod.rs:259-302 *)
Definition dbg_ReadError (x : ReadError) : dtree :=
  match x with
  | UnexpectedEndOfStream => DName "UnexpectedEndOfStream"
  | UnexpectedStreamAlignment => DName "UnexpectedStreamAlignment"
  | BadMagic => DName "BadMagic"
  | UnknownVersionBytes x0 x1 x2 x3 => DTuple "UnknownVersionBytes" [DNumber x0; DNumber x1; DNumber x2; DNumber x3]
  | UnknownVersion x0 => DTuple "UnknownVersion" [dbg_Version x0]
  | UnknownReservedSchema => DName "UnknownReservedSchema"
  | UnknownOp x0 x1 => DTuple "UnknownOp" [DNumber x0; DNumber x1]
  | UnimplementedOp x0 => DTuple "UnimplementedOp" [DString x0]
  | WrongWordCountForOp => DName "WrongWordCountForOp"
  | InvalidString => DName "InvalidString"
  | UnexpectedEndOfInstruction => DName "UnexpectedEndOfInstruction"
  | InstructionHadExcessData => DName "InstructionHadExcessData"
  | UnknownInstSet x0 => DTuple "UnknownInstSet" [DString x0]
  | UnknownInstSetId x0 => DTuple "UnknownInstSetId" [dbg_OpId x0]
  | UnknownExtInstOp x0 x1 => DTuple "UnknownExtInstOp" [DString x0; DNumber x1]
  | DuplicateResultId x0 => DTuple "DuplicateResultId" [dbg_ResultId x0]
  | UnknownAddressingModel x0 => DTuple "UnknownAddressingModel" [DNumber x0]
  | UnknownMemoryModel x0 => DTuple "UnknownMemoryModel" [DNumber x0]
  | UnknownExecutionModel x0 => DTuple "UnknownExecutionModel" [DNumber x0]
  | UnknownExecutionMode x0 => DTuple "UnknownExecutionMode" [DNumber x0]
  | UnknownCapability x0 => DTuple "UnknownCapability" [DNumber x0]
  | UnknownDecoration x0 => DTuple "UnknownDecoration" [DNumber x0]
  | UnknownBuiltIn x0 => DTuple "UnknownBuiltIn" [DNumber x0]
  | UnknownFpRoundingMode x0 => DTuple "UnknownFpRoundingMode" [DNumber x0]
  | UnknownFpFastMathMode x0 => DTuple "UnknownFpFastMathMode" [DNumber x0]
  | UnknownLinkageType x0 => DTuple "UnknownLinkageType" [DNumber x0]
  | UnknownSignedness x0 => DTuple "UnknownSignedness" [DNumber x0]
  | UnknownStorageClass x0 => DTuple "UnknownStorageClass" [DNumber x0]
  | UnknownFunctionParameterAttribute x0 => DTuple "UnknownFunctionParameterAttribute" [DNumber x0]
  | UnknownMemoryAccess x0 => DTuple "UnknownMemoryAccess" [DNumber x0]
  | UnknownDim x0 => DTuple "UnknownDim" [DNumber x0]
  | UnknownDepthStatus x0 => DTuple "UnknownDepthStatus" [DNumber x0]
  | UnknownArrayed x0 => DTuple "UnknownArrayed" [DNumber x0]
  | UnknownMS x0 => DTuple "UnknownMS" [DNumber x0]
  | UnknownSampledStatus x0 => DTuple "UnknownSampledStatus" [DNumber x0]
  | UnknownImageFormat x0 => DTuple "UnknownImageFormat" [DNumber x0]
  | UnknownAccessQualifier x0 => DTuple "UnknownAccessQualifier" [DNumber x0]
  | UnknownLoopControl x0 => DTuple "UnknownLoopControl" [DNumber x0]
  | UnknownSelectionControl x0 => DTuple "UnknownSelectionControl" [DNumber x0]
  end.

(* src/spv/logical/mod.rs:14-22 *)
Definition dbg_GroupDebug (x : GroupDebug) : dtree :=
  match x with
  | GroupDebug_OpSourceContinued x0 => DTuple "OpSourceContinued" [dbg_OpSourceContinued x0]
  | GroupDebug_OpSource x0 => DTuple "OpSource" [dbg_OpSource x0]
  | GroupDebug_OpSourceExtension x0 => DTuple "OpSourceExtension" [dbg_OpSourceExtension x0]
  | GroupDebug_OpName x0 => DTuple "OpName" [dbg_OpName x0]
  | GroupDebug_OpMemberName x0 => DTuple "OpMemberName" [dbg_OpMemberName x0]
  | GroupDebug_OpString x0 => DTuple "OpString" [dbg_OpString x0]
  end.

(* src/spv/logical/mod.rs:24-28 *)
Definition dbg_GroupAnnotation (x : GroupAnnotation) : dtree :=
  match x with
  | GroupAnnotation_OpDecorate x0 => DTuple "OpDecorate" [dbg_OpDecorate x0]
  | GroupAnnotation_OpMemberDecorate x0 => DTuple "OpMemberDecorate" [dbg_OpMemberDecorate x0]
  end.

(* src/spv/logical/mod.rs:30-52 *)
Definition dbg_GroupType (x : GroupType) : dtree :=
  match x with
  | GroupType_OpTypeVoid x0 => DTuple "OpTypeVoid" [dbg_OpTypeVoid x0]
  | GroupType_OpTypeBool x0 => DTuple "OpTypeBool" [dbg_OpTypeBool x0]
  | GroupType_OpTypeInt x0 => DTuple "OpTypeInt" [dbg_OpTypeInt x0]
  | GroupType_OpTypeFloat x0 => DTuple "OpTypeFloat" [dbg_OpTypeFloat x0]
  | GroupType_OpTypeVector x0 => DTuple "OpTypeVector" [dbg_OpTypeVector x0]
  | GroupType_OpTypeMatrix x0 => DTuple "OpTypeMatrix" [dbg_OpTypeMatrix x0]
  | GroupType_OpTypeImage x0 => DTuple "OpTypeImage" [dbg_OpTypeImage x0]
  | GroupType_OpTypeSampler x0 => DTuple "OpTypeSampler" [dbg_OpTypeSampler x0]
  | GroupType_OpTypeSampledImage x0 => DTuple "OpTypeSampledImage" [dbg_OpTypeSampledImage x0]
  | GroupType_OpTypeArray x0 => DTuple "OpTypeArray" [dbg_OpTypeArray x0]
  | GroupType_OpTypeRuntimeArray x0 => DTuple "OpTypeRuntimeArray" [dbg_OpTypeRuntimeArray x0]
  | GroupType_OpTypeStruct x0 => DTuple "OpTypeStruct" [dbg_OpTypeStruct x0]
  | GroupType_OpTypeOpaque x0 => DTuple "OpTypeOpaque" [dbg_OpTypeOpaque x0]
  | GroupType_OpTypePointer x0 => DTuple "OpTypePointer" [dbg_OpTypePointer x0]
  | GroupType_OpTypeFunction x0 => DTuple "OpTypeFunction" [dbg_OpTypeFunction x0]
  | GroupType_OpTypeEvent x0 => DTuple "OpTypeEvent" [dbg_OpTypeEvent x0]
  | GroupType_OpTypeDeviceEvent x0 => DTuple "OpTypeDeviceEvent" [dbg_OpTypeDeviceEvent x0]
  | GroupType_OpTypeQueue x0 => DTuple "OpTypeQueue" [dbg_OpTypeQueue x0]
  | GroupType_OpTypePipe x0 => DTuple "OpTypePipe" [dbg_OpTypePipe x0]
  | GroupType_OpTypeForwardPointer x0 => DTuple "OpTypeForwardPointer" [dbg_OpTypeForwardPointer x0]
  end.

(* src/spv/logical/mod.rs:54-58 *)
Definition dbg_GroupConstant (x : GroupConstant) : dtree :=
  match x with
  | GroupConstant_OpConstant x0 => DTuple "OpConstant" [dbg_OpConstant x0]
  | GroupConstant_OpConstantComposite x0 => DTuple "OpConstantComposite" [dbg_OpConstantComposite x0]
  end.

(* src/spv/logical/mod.rs:60-66 *)
Definition dbg_GroupGlobal (x : GroupGlobal) : dtree :=
  match x with
  | GroupGlobal_GroupType x0 => DTuple "GroupType" [dbg_GroupType x0]
  | GroupGlobal_GroupConstant x0 => DTuple "GroupConstant" [dbg_GroupConstant x0]
  | GroupGlobal_OpVariable x0 => DTuple "OpVariable" [dbg_OpVariable x0]
  end.

(* src/spv/logical/mod.rs:68-124 *)
Definition dbg_GroupCode (x : GroupCode E) : dtree :=
  match x with
  | GroupCode_OpNop x0 => DTuple "OpNop" [dbg_OpNop x0]
  | GroupCode_OpUndef x0 => DTuple "OpUndef" [dbg_OpUndef x0]
  | GroupCode_OpExtInst x0 => DTuple "OpExtInst" [dbg_OpExtInst x0]
  | GroupCode_OpVariable x0 => DTuple "OpVariable" [dbg_OpVariable x0]
  | GroupCode_OpLoad x0 => DTuple "OpLoad" [dbg_OpLoad x0]
  | GroupCode_OpStore x0 => DTuple "OpStore" [dbg_OpStore x0]
  | GroupCode_OpAccessChain x0 => DTuple "OpAccessChain" [dbg_OpAccessChain x0]
  | GroupCode_OpConvertUToF x0 => DTuple "OpConvertUToF" [dbg_OpConvertUToF x0]
  | GroupCode_OpBitcast x0 => DTuple "OpBitcast" [dbg_OpBitcast x0]
  | GroupCode_OpIAdd x0 => DTuple "OpIAdd" [dbg_OpIAdd x0]
  | GroupCode_OpFAdd x0 => DTuple "OpFAdd" [dbg_OpFAdd x0]
  | GroupCode_OpISub x0 => DTuple "OpISub" [dbg_OpISub x0]
  | GroupCode_OpFSub x0 => DTuple "OpFSub" [dbg_OpFSub x0]
  | GroupCode_OpIMul x0 => DTuple "OpIMul" [dbg_OpIMul x0]
  | GroupCode_OpFMul x0 => DTuple "OpFMul" [dbg_OpFMul x0]
  | GroupCode_OpUDiv x0 => DTuple "OpUDiv" [dbg_OpUDiv x0]
  | GroupCode_OpSDiv x0 => DTuple "OpSDiv" [dbg_OpSDiv x0]
  | GroupCode_OpFDiv x0 => DTuple "OpFDiv" [dbg_OpFDiv x0]
  | GroupCode_OpUMod x0 => DTuple "OpUMod" [dbg_OpUMod x0]
  | GroupCode_OpSRem x0 => DTuple "OpSRem" [dbg_OpSRem x0]
  | GroupCode_OpSMod x0 => DTuple "OpSMod" [dbg_OpSMod x0]
  | GroupCode_OpFRem x0 => DTuple "OpFRem" [dbg_OpFRem x0]
  | GroupCode_OpFMod x0 => DTuple "OpFMod" [dbg_OpFMod x0]
  | GroupCode_OpIAddCarry x0 => DTuple "OpIAddCarry" [dbg_OpIAddCarry x0]
  | GroupCode_OpISubBorrow x0 => DTuple "OpISubBorrow" [dbg_OpISubBorrow x0]
  | GroupCode_OpUMulExtended x0 => DTuple "OpUMulExtended" [dbg_OpUMulExtended x0]
  | GroupCode_OpSMulExtended x0 => DTuple "OpSMulExtended" [dbg_OpSMulExtended x0]
  | GroupCode_OpBitwiseOr x0 => DTuple "OpBitwiseOr" [dbg_OpBitwiseOr x0]
  | GroupCode_OpBitwiseXor x0 => DTuple "OpBitwiseXor" [dbg_OpBitwiseXor x0]
  | GroupCode_OpBitwiseAnd x0 => DTuple "OpBitwiseAnd" [dbg_OpBitwiseAnd x0]
  | GroupCode_OpIEqual x0 => DTuple "OpIEqual" [dbg_OpIEqual x0]
  | GroupCode_OpINotEqual x0 => DTuple "OpINotEqual" [dbg_OpINotEqual x0]
  | GroupCode_OpUGreaterThan x0 => DTuple "OpUGreaterThan" [dbg_OpUGreaterThan x0]
  | GroupCode_OpSGreaterThan x0 => DTuple "OpSGreaterThan" [dbg_OpSGreaterThan x0]
  | GroupCode_OpUGreaterThanEqual x0 => DTuple "OpUGreaterThanEqual" [dbg_OpUGreaterThanEqual x0]
  | GroupCode_OpSGreaterThanEqual x0 => DTuple "OpSGreaterThanEqual" [dbg_OpSGreaterThanEqual x0]
  | GroupCode_OpULessThan x0 => DTuple "OpULessThan" [dbg_OpULessThan x0]
  | GroupCode_OpSLessThan x0 => DTuple "OpSLessThan" [dbg_OpSLessThan x0]
  | GroupCode_OpULessThanEqual x0 => DTuple "OpULessThanEqual" [dbg_OpULessThanEqual x0]
  | GroupCode_OpSLessThanEqual x0 => DTuple "OpSLessThanEqual" [dbg_OpSLessThanEqual x0]
  | GroupCode_OpFOrdEqual x0 => DTuple "OpFOrdEqual" [dbg_OpFOrdEqual x0]
  | GroupCode_OpFUnordEqual x0 => DTuple "OpFUnordEqual" [dbg_OpFUnordEqual x0]
  | GroupCode_OpFOrdNotEqual x0 => DTuple "OpFOrdNotEqual" [dbg_OpFOrdNotEqual x0]
  | GroupCode_OpFUnordNotEqual x0 => DTuple "OpFUnordNotEqual" [dbg_OpFUnordNotEqual x0]
  | GroupCode_OpFOrdLessThan x0 => DTuple "OpFOrdLessThan" [dbg_OpFOrdLessThan x0]
  | GroupCode_OpFUnordLessThan x0 => DTuple "OpFUnordLessThan" [dbg_OpFUnordLessThan x0]
  | GroupCode_OpFOrdGreaterThan x0 => DTuple "OpFOrdGreaterThan" [dbg_OpFOrdGreaterThan x0]
  | GroupCode_OpFUnordGreaterThan x0 => DTuple "OpFUnordGreaterThan" [dbg_OpFUnordGreaterThan x0]
  | GroupCode_OpFOrdLessThanEqual x0 => DTuple "OpFOrdLessThanEqual" [dbg_OpFOrdLessThanEqual x0]
  | GroupCode_OpFUnordLessThanEqual x0 => DTuple "OpFUnordLessThanEqual" [dbg_OpFUnordLessThanEqual x0]
  | GroupCode_OpFOrdGreaterThanEqual x0 => DTuple "OpFOrdGreaterThanEqual" [dbg_OpFOrdGreaterThanEqual x0]
  | GroupCode_OpFUnordGreaterThanEqual x0 => DTuple "OpFUnordGreaterThanEqual" [dbg_OpFUnordGreaterThanEqual x0]
  | GroupCode_OpPhi x0 => DTuple "OpPhi" [dbg_OpPhi x0]
  end.

(* src/spv/logical/mod.rs:187-191 *)
Definition dbg_GroupMerge (x : GroupMerge) : dtree :=
  match x with
  | GroupMerge_OpLoopMerge x0 => DTuple "OpLoopMerge" [dbg_OpLoopMerge x0]
  | GroupMerge_OpSelectionMerge x0 => DTuple "OpSelectionMerge" [dbg_OpSelectionMerge x0]
  end.

(* src/spv/logical/mod.rs:193-198 *)
Definition dbg_GroupBranch (x : GroupBranch) : dtree :=
  match x with
  | GroupBranch_OpBranch x0 => DTuple "OpBranch" [dbg_OpBranch x0]
  | GroupBranch_OpBranchConditional x0 => DTuple "OpBranchConditional" [dbg_OpBranchConditional x0]
  | GroupBranch_OpReturn x0 => DTuple "OpReturn" [dbg_OpReturn x0]
  end.

(* src/spv/logical/mod.rs:211-215 *)
Definition dbg_FunctionDeclaration (x : FunctionDeclaration) : dtree :=
  DStruct "FunctionDeclaration" [("function", dbg_OpFunction (FunctionDeclaration_function x)); ("parameters", (dbg_Vec dbg_OpFunctionParameter) (FunctionDeclaration_parameters x))].

(* src/spv/logical/mod.rs:217-223 *)
Definition dbg_BasicBlock (x : BasicBlock E) : dtree :=
  DStruct "BasicBlock" [("label", dbg_OpLabel (BasicBlock_label x)); ("code", (dbg_Vec dbg_GroupCode) (BasicBlock_code x)); ("merge", (dbg_Option dbg_GroupMerge) (BasicBlock_merge x)); ("branch", dbg_GroupBranch (BasicBlock_branch x))].

(* src/spv/logical/mod.rs:225-230 *)
Definition dbg_FunctionDefinition (x : FunctionDefinition E) : dtree :=
  DStruct "FunctionDefinition" [("function", dbg_OpFunction (FunctionDefinition_function x)); ("parameters", (dbg_Vec dbg_OpFunctionParameter) (FunctionDefinition_parameters x)); ("blocks", (dbg_Vec dbg_BasicBlock) (FunctionDefinition_blocks x))].

(* src/spv/logical/mod.rs:232-245 *)
Definition dbg_LogicalModule (x : LogicalModule E) : dtree :=
  DStruct "LogicalModule" [("capabilities", (dbg_Vec dbg_Capability) (LogicalModule_capabilities x)); ("extensions", (dbg_Vec DString) (LogicalModule_extensions x)); ("ext_inst_imports", (dbg_Vec dbg_OpExtInstImport) (LogicalModule_ext_inst_imports x)); ("memory_model", dbg_OpMemoryModel (LogicalModule_memory_model x)); ("entry_points", (dbg_Vec dbg_OpEntryPoint) (LogicalModule_entry_points x)); ("execution_modes", (dbg_Vec dbg_OpExecutionMode) (LogicalModule_execution_modes x)); ("debug", (dbg_Vec dbg_GroupDebug) (LogicalModule_debug x)); ("annotations", (dbg_Vec dbg_GroupAnnotation) (LogicalModule_annotations x)); ("globals", (dbg_Vec dbg_GroupGlobal) (LogicalModule_globals x)); ("function_declarations", (dbg_Vec dbg_FunctionDeclaration) (LogicalModule_function_declarations x)); ("function_definitions", (dbg_Vec dbg_FunctionDefinition) (LogicalModule_function_definitions x))].

End Debug.
