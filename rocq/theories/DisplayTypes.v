(* GENERATED by tools/gen.py from /repo; do not edit by hand. *)
From Verif Require Import Base Types DisplayBase.
Local Open Scope string_scope.

(** Display of operand types, src/spv/types.rs. *)

(* src/spv/types.rs:98-110 *)
Definition disp_SourceLanguage (x : SourceLanguage) : string :=
  match x with
  | SourceLanguage_Unknown => "Unknown"
  | SourceLanguage_Essl => "ESSL"
  | SourceLanguage_Glsl => "GLSL"
  | SourceLanguage_OpenCL_C => "OpenCL_C"
  | SourceLanguage_OpenCL_Cpp => "OpenCL_CPP"
  | SourceLanguage_Other n => "Unknown(" ++ disp_u32 n ++ ")"
  end.

(* src/spv/types.rs:305-352 *)
Definition disp_BuiltIn (x : BuiltIn) : string :=
  match x with
  | BuiltIn_Position => "Position"
  | BuiltIn_PointSize => "PointSize"
  | BuiltIn_ClipDistance => "ClipDistance"
  | BuiltIn_CullDistance => "CullDistance"
  | BuiltIn_VertexId => "VertexId"
  | BuiltIn_InstanceId => "InstanceId"
  | BuiltIn_PrimitiveId => "PrimitiveId"
  | BuiltIn_InvocationId => "InvocationId"
  | BuiltIn_Layer => "Layer"
  | BuiltIn_ViewportIndex => "ViewportIndex"
  | BuiltIn_TessLevelOuter => "TessLevelOuter"
  | BuiltIn_TessLevelInner => "TessLevelInner"
  | BuiltIn_TessCoord => "TessCoord"
  | BuiltIn_PatchVerticies => "PatchVerticies"
  | BuiltIn_FragCoord => "FragCoord"
  | BuiltIn_PointCoord => "PointCoord"
  | BuiltIn_FrontFacing => "FrontFacing"
  | BuiltIn_SampleId => "SampleId"
  | BuiltIn_SamplePosition => "SamplePosition"
  | BuiltIn_SampleMask => "SampleMask"
  | BuiltIn_FragDepth => "FragDepth"
  | BuiltIn_HelperInvocation => "HelperInvocation"
  | BuiltIn_NumWorkgroups => "NumWorkgroups"
  | BuiltIn_WorkgroupSize => "WorkgroupSize"
  | BuiltIn_WorkgroupId => "WorkgroupId"
  | BuiltIn_LocalInvocationId => "LocalInvocationId"
  | BuiltIn_GlobalInvocationId => "GlobalInvocationId"
  | BuiltIn_LocalInvocationIndex => "LocalInvocationIndex"
  | BuiltIn_WorkDim => "WorkDim"
  | BuiltIn_GlobalSize => "GlobalSize"
  | BuiltIn_EnqueuedWorkgroupSize => "EnqueuedWorkgroupSize"
  | BuiltIn_GlobalOffset => "GlobalOffset"
  | BuiltIn_GlobalLinearId => "GlobalLinearId"
  | BuiltIn_SubgroupSize => "SubgroupSize"
  | BuiltIn_SubgroupMaxSize => "SubgroupMaxSize"
  | BuiltIn_NumSubgroups => "NumSubgroups"
  | BuiltIn_NumEnqueuedSubgroups => "NumEnqueuedSubgroups"
  | BuiltIn_SubgroupId => "SubgroupId"
  | BuiltIn_SubgroupLocalInvocationId => "SubgroupLocalInvocationId"
  | BuiltIn_VertexIndex => "VertexIndex"
  | BuiltIn_InstanceIndex => "InstanceIndex"
  end.

(* src/spv/types.rs:793-807 *)
Definition disp_FunctionParameterAttribute (x : FunctionParameterAttribute) : string :=
  match x with
  | FunctionParameterAttribute_Zext => "Zext"
  | FunctionParameterAttribute_Sext => "Sext"
  | FunctionParameterAttribute_ByVal => "ByVal"
  | FunctionParameterAttribute_Sret => "Sret"
  | FunctionParameterAttribute_NoAlias => "NoAlias"
  | FunctionParameterAttribute_NoCapture => "NoCapture"
  | FunctionParameterAttribute_NoWrite => "NoWrite"
  | FunctionParameterAttribute_NoReadWrite => "NoReadWrite"
  end.

(* src/spv/types.rs:749-759 *)
Definition disp_FpRoundingMode (x : FpRoundingMode) : string :=
  match x with
  | FpRoundingMode_Rte => "RTE"
  | FpRoundingMode_Rtz => "RTZ"
  | FpRoundingMode_Rtp => "RTP"
  | FpRoundingMode_Rtn => "RTN"
  end.

(* src/spv/types.rs:769-777 *)
Definition disp_LinkageType (x : LinkageType) : string :=
  match x with
  | LinkageType_Export => "Export"
  | LinkageType_Import => "Import"
  end.

(* src/spv/types.rs:376-385 *)
Definition disp_AddressingModel (x : AddressingModel) : string :=
  match x with
  | AddressingModel_Logical => "Logical"
  | AddressingModel_Physical32 => "Physical32"
  | AddressingModel_Physical64 => "Physical64"
  end.

(* src/spv/types.rs:397-406 *)
Definition disp_MemoryModel (x : MemoryModel) : string :=
  match x with
  | MemoryModel_Simple => "Simple"
  | MemoryModel_Glsl450 => "GLSL450"
  | MemoryModel_OpenCL => "OpenCL"
  end.

(* src/spv/types.rs:422-435 *)
Definition disp_ExecutionModel (x : ExecutionModel) : string :=
  match x with
  | ExecutionModel_Vertex => "Vertex"
  | ExecutionModel_TesselationControl => "TesselationControl"
  | ExecutionModel_TesselationEvaluation => "TesselationEvaluation"
  | ExecutionModel_Geometry => "Geometry"
  | ExecutionModel_Fragment => "Fragment"
  | ExecutionModel_GlCompute => "GLCompute"
  | ExecutionModel_Kernel => "Kernel"
  end.

(* src/spv/types.rs:474-515 *)
Definition disp_ExecutionMode (x : ExecutionMode) : string :=
  match x with
  | ExecutionMode_Invocations n => "Invocations " ++ disp_u32 n
  | ExecutionMode_SpacingEqual => "SpacingEqual"
  | ExecutionMode_SpacingFractionalEven => "SpacingFractionalEven"
  | ExecutionMode_SpacingFractionalOdd => "SpacingFractionalOdd"
  | ExecutionMode_VertexOrderCw => "VertexOrderCw"
  | ExecutionMode_VertexOrderCcw => "VertexOrderCcw"
  | ExecutionMode_PixelCenterInteger => "PixelCenterInteger"
  | ExecutionMode_OriginUpperLeft => "OriginUpperLeft"
  | ExecutionMode_OriginLowerLeft => "OriginLowerLeft"
  | ExecutionMode_EarlyFragmentTests => "EarlyFragmentTests"
  | ExecutionMode_PointMode => "PointMode"
  | ExecutionMode_Xfb => "Xfb"
  | ExecutionMode_DepthReplacing => "DepthReplacing"
  | ExecutionMode_DepthGreater => "DepthGreater"
  | ExecutionMode_DepthLess => "DepthLess"
  | ExecutionMode_DepthUnchanged => "DepthUnchanged"
  | ExecutionMode_LocalSize x y z => "LocalSize " ++ disp_u32 x ++ " " ++ disp_u32 y ++ " " ++ disp_u32 z
  | ExecutionMode_LocalSizeHint x y z => "LocalSizeHint " ++ disp_u32 x ++ " " ++ disp_u32 y ++ " " ++ disp_u32 z
  | ExecutionMode_InputPoints => "InputPoints"
  | ExecutionMode_InputLines => "InputLines"
  | ExecutionMode_InputLinesAdjacency => "InputLinesAdjacency"
  | ExecutionMode_Triangles => "Triangles"
  | ExecutionMode_InputTrianglesAdjacency => "InputTrianglesAdjacency"
  | ExecutionMode_Quads => "Quads"
  | ExecutionMode_Isolines => "Isolines"
  | ExecutionMode_OutputVerticies n => "OutputVerticies " ++ disp_u32 n
  | ExecutionMode_OutputPoints => "OutputPoints"
  | ExecutionMode_OutputLineStrip => "OutputLineStrip"
  | ExecutionMode_OutputTriangleStrip => "OutputTriangleStrip"
  | ExecutionMode_VecTypeHint id => "VecTypeHint " ++ disp_OpId id
  | ExecutionMode_ContractionOff => "ContractionOff"
  end.

(* src/spv/types.rs:582-644 *)
Definition disp_Capability (x : Capability) : string :=
  match x with
  | Capability_Matrix => "Matrix"
  | Capability_Shader => "Shader"
  | Capability_Geometry => "Geometry"
  | Capability_Tessellation => "Tessellation"
  | Capability_Addresses => "Addresses"
  | Capability_Linkage => "Linkage"
  | Capability_Kernel => "Kernel"
  | Capability_Vector16 => "Vector16"
  | Capability_Float16Buffer => "Float16Buffer"
  | Capability_Float16 => "Float16"
  | Capability_Float64 => "Float64"
  | Capability_Int64 => "Int64"
  | Capability_Int64Atomics => "Int64Atomics"
  | Capability_ImageBasic => "ImageBasic"
  | Capability_ImageReadWrite => "ImageReadWrite"
  | Capability_ImageMipmap => "ImageMipmap"
  | Capability_Pipes => "Pipes"
  | Capability_Groups => "Groups"
  | Capability_DeviceEnqueue => "DeviceEnqueue"
  | Capability_LiteralSampler => "LiteralSampler"
  | Capability_AtomicStorage => "AtomicStorage"
  | Capability_Int16 => "Int16"
  | Capability_TessellationPointSize => "TessellationPointSize"
  | Capability_GeometryPointSize => "GeometryPointSize"
  | Capability_ImageGatherExtended => "ImageGatherExtended"
  | Capability_StorageImageMultisample => "StorageImageMultisample"
  | Capability_UniformBufferArrayDynamicIndexing => "UniformBufferArrayDynamicIndexing"
  | Capability_SampledImageArrayDynamicIndexing => "SampledImageArrayDynamicIndexing"
  | Capability_StorageBufferArrayDynamicIndexing => "StorageBufferArrayDynamicIndexing"
  | Capability_StorageImageArrayDynamicIndexing => "StorageImageArrayDynamicIndexing"
  | Capability_ClipDistance => "ClipDistance"
  | Capability_CullDistance => "CullDistance"
  | Capability_ImageCubeArray => "ImageCubeArray"
  | Capability_SampleRateShading => "SampleRateShading"
  | Capability_ImageRect => "ImageRect"
  | Capability_SampledRect => "SampledRect"
  | Capability_GenericPointer => "GenericPointer"
  | Capability_Int8 => "Int8"
  | Capability_InputAttachment => "InputAttachment"
  | Capability_SparseResidency => "SparseResidency"
  | Capability_MinLod => "MinLod"
  | Capability_Sampled1D => "Sampled1D"
  | Capability_Image1D => "Image1D"
  | Capability_SampledCubeArray => "SampledCubeArray"
  | Capability_SampledBuffer => "SampledBuffer"
  | Capability_ImageBuffer => "ImageBuffer"
  | Capability_ImageMSArray => "ImageMSArray"
  | Capability_StorageImageExtendedFormats => "StorageImageExtendedFormats"
  | Capability_ImageQuery => "ImageQuery"
  | Capability_DerivativeControl => "DerivativeControl"
  | Capability_InterpolationFunction => "InterpolationFunction"
  | Capability_TransformFeedback => "TransformFeedback"
  | Capability_GeometryStreams => "GeometryStreams"
  | Capability_StorageImageReadWithoutFormat => "StorageImageReadWithoutFormat"
  | Capability_StorageImageWriteWithoutFormat => "StorageImageWriteWithoutFormat"
  | Capability_MultiViewport => "MultiViewport"
  end.

(* src/spv/types.rs:654-662 *)
Definition disp_Signedness (x : Signedness) : string :=
  match x with
  | Signedness_UnsignedOrNone => "0"
  | Signedness_Signed => "1"
  end.

(* src/spv/types.rs:682-700 *)
Definition disp_StorageClass (x : StorageClass) : string :=
  match x with
  | StorageClass_UniformConstant => "UniformConstant"
  | StorageClass_Input => "Input"
  | StorageClass_Uniform => "Uniform"
  | StorageClass_Output => "Output"
  | StorageClass_Workgroup => "Workgroup"
  | StorageClass_CrossWorkgroup => "CrossWorkgroup"
  | StorageClass_Private => "Private"
  | StorageClass_Function => "Function"
  | StorageClass_Generic => "Generic"
  | StorageClass_PushConstant => "PushConstant"
  | StorageClass_AtomicCounter => "AtomicCounter"
  | StorageClass_Image => "Image"
  end.

(* src/spv/types.rs:823-836 *)
Definition disp_Dim (x : Dim) : string :=
  match x with
  | Dim_Tex1D => "1D"
  | Dim_Tex2D => "2D"
  | Dim_Tex3D => "3D"
  | Dim_Cube => "Cube"
  | Dim_Rect => "Rect"
  | Dim_Buffer => "Buffer"
  | Dim_SubpassData => "SubpassData"
  end.

(* src/spv/types.rs:848-857 *)
Definition disp_DepthStatus (x : DepthStatus) : string :=
  match x with
  | DepthStatus_NotDepth => disp_u32 0
  | DepthStatus_Depth => disp_u32 1
  | DepthStatus_NoIndication => disp_u32 2
  end.

(* src/spv/types.rs:868-876 *)
Definition disp_Arrayed (x : Arrayed) : string :=
  match x with
  | Arrayed_False => disp_u32 0
  | Arrayed_True => disp_u32 1
  end.

(* src/spv/types.rs:887-895 *)
Definition disp_MS (x : MS) : string :=
  match x with
  | MS_Single => disp_u32 0
  | MS_Multi => disp_u32 1
  end.

(* src/spv/types.rs:907-916 *)
Definition disp_SampledStatus (x : SampledStatus) : string :=
  match x with
  | SampledStatus_RuntimeChoice => disp_u32 0
  | SampledStatus_WithSampler => disp_u32 1
  | SampledStatus_WithoutSampler => disp_u32 2
  end.

(* src/spv/types.rs:965-1011 *)
Definition disp_ImageFormat (x : ImageFormat) : string :=
  match x with
  | ImageFormat_Unknown => "Unknown"
  | ImageFormat_Rgba32f => "Rgba32f"
  | ImageFormat_Rgba16f => "Rgba16f"
  | ImageFormat_R32f => "R32f"
  | ImageFormat_Rgba8 => "Rgba8"
  | ImageFormat_Rgba8Snorm => "Rgba8Snorm"
  | ImageFormat_Rg32f => "Rg32f"
  | ImageFormat_Rg16f => "Rg16f"
  | ImageFormat_R11fG11fB10f => "R11fG11fB10f"
  | ImageFormat_R16f => "R16f"
  | ImageFormat_Rgba16 => "Rgba16"
  | ImageFormat_Rgb10A2 => "Rgb10A2"
  | ImageFormat_Rg16 => "Rg16"
  | ImageFormat_Rg8 => "Rg8"
  | ImageFormat_R16 => "R16"
  | ImageFormat_R8 => "R8"
  | ImageFormat_Rgba16Snorm => "Rgba16Snorm"
  | ImageFormat_Rg16Snorm => "Rg16Snorm"
  | ImageFormat_Rg8Snorm => "Rg8Snorm"
  | ImageFormat_R16Snorm => "R16Snorm"
  | ImageFormat_R8Snorm => "R8Snorm"
  | ImageFormat_Rgba32i => "Rgba32i"
  | ImageFormat_Rgba16i => "Rgba16i"
  | ImageFormat_Rgba8i => "Rgba8i"
  | ImageFormat_R32i => "R32i"
  | ImageFormat_Rg32i => "Rg32i"
  | ImageFormat_Rg16i => "Rg16i"
  | ImageFormat_Rg8i => "Rg8i"
  | ImageFormat_R16i => "R16i"
  | ImageFormat_R8i => "R8i"
  | ImageFormat_Rgba32ui => "Rgba32ui"
  | ImageFormat_Rgba16ui => "Rgba16ui"
  | ImageFormat_Rgba8ui => "Rgba8ui"
  | ImageFormat_R32ui => "R32ui"
  | ImageFormat_Rgb10a2ui => "Rgb10a2ui"
  | ImageFormat_Rg32ui => "Rg32ui"
  | ImageFormat_Rg16ui => "Rg16ui"
  | ImageFormat_Rg8ui => "Rg8ui"
  | ImageFormat_R16ui => "R16ui"
  | ImageFormat_R8ui => "R8ui"
  end.

(* src/spv/types.rs:1022-1031 *)
Definition disp_AccessQualifier (x : AccessQualifier) : string :=
  match x with
  | AccessQualifier_ReadOnly => "ReadOnly"
  | AccessQualifier_WriteOnly => "WriteOnly"
  | AccessQualifier_ReadWrite => "ReadWrite"
  end.

(* src/spv/types.rs:713-737 *)
Definition disp_FpFastMathMode (x : FpFastMathMode) : string :=
  let parts := ((if FpFastMathMode_not_nan x then ["NotNaN"] else [])
    ++ (if FpFastMathMode_not_inf x then ["NotInf"] else [])
    ++ (if FpFastMathMode_nsz x then ["NSZ"] else [])
    ++ (if FpFastMathMode_allow_recip x then ["AllowRecip"] else [])
    ++ (if FpFastMathMode_fast x then ["Fast"] else []))%list in
  match parts with [] => "None" | _ => String.concat " | " parts end.

(* src/spv/types.rs:1113-1131 *)
Definition disp_MemoryAccess (x : MemoryAccess) : string :=
  let parts := ((if MemoryAccess_volatile x then ["Volatile"] else [])
    ++ (if MemoryAccess_aligned x then ["Aligned"] else [])
    ++ (if MemoryAccess_non_temporal x then ["Nontemporal"] else []))%list in
  match parts with [] => "None" | _ => String.concat " | " parts end.

(* src/spv/types.rs:1143-1164 *)
Definition disp_FunctionControl (x : FunctionControl) : string :=
  let parts := ((if FunctionControl_inline x then ["Inline"] else [])
    ++ (if FunctionControl_dont_inline x then ["DontInline"] else [])
    ++ (if FunctionControl_pure_function x then ["Pure"] else [])
    ++ (if FunctionControl_const_function x then ["Const"] else []))%list in
  match parts with [] => "None" | _ => String.concat " | " parts end.

(* src/spv/types.rs:1178-1199 *)
Definition disp_LoopControl (x : LoopControl) : string :=
  let parts := ((if LoopControl_unroll x then ["Unroll"] else [])
    ++ (if LoopControl_dont_unroll x then ["DontUnroll"] else [])
    ++ (if LoopControl_dependency_infinite x then ["DependencyInfinite"] else [])
    ++ match LoopControl_dependency_length x with Some len => [("DependencyLength(" ++ disp_u32 len ++ ")")%string] | None => [] end)%list in
  match parts with [] => "None" | _ => String.concat " | " parts end.

(* src/spv/types.rs:1209-1224 *)
Definition disp_SelectionControl (x : SelectionControl) : string :=
  let parts := ((if SelectionControl_flatten x then ["Flatten"] else [])
    ++ (if SelectionControl_dont_flatten x then ["DontFlatten"] else []))%list in
  match parts with [] => "None" | _ => String.concat " | " parts end.

(* src/spv/types.rs:1234-1238 *)
Definition disp_PhiArg (x : PhiArg) : string :=
  disp_OpId (PhiArg_variable x) ++ " " ++ disp_OpId (PhiArg_parent x).

(* src/spv/types.rs:1248-1252 *)
Definition disp_BranchWeights (x : BranchWeights) : string :=
  disp_u32 (BranchWeights_true_weight x) ++ " " ++ disp_u32 (BranchWeights_false_weight x).

(* src/spv/types.rs:198-255 *)
Definition disp_Decoration (x : Decoration) : string :=
  match x with
  | Decoration_RelaxedPrecision => "RelaxedPrecision"
  | Decoration_SpecId n => "SpecId " ++ disp_u32 n
  | Decoration_Block => "Block"
  | Decoration_BufferBlock => "BufferBlock"
  | Decoration_RowMajor => "RowMajor"
  | Decoration_ColMajor => "ColMajor"
  | Decoration_ArrayStride n => "ArrayStride " ++ disp_u32 n
  | Decoration_MatrixStride n => "MatrixStride " ++ disp_u32 n
  | Decoration_GlslShared => "GLSLShared"
  | Decoration_GlslPacked => "GLSLPacked"
  | Decoration_CPacked => "CPacked"
  | Decoration_BuiltIn b => "BuiltIn " ++ disp_BuiltIn b
  | Decoration_NoPerspective => "NoPerspective"
  | Decoration_Flat => "Flat"
  | Decoration_Patch => "Patch"
  | Decoration_Centroid => "Centroid"
  | Decoration_Sample => "Sample"
  | Decoration_Invariant => "Invariant"
  | Decoration_Restrict => "Restrict"
  | Decoration_Aliased => "Aliased"
  | Decoration_Volatile => "Volatile"
  | Decoration_Constant => "Constant"
  | Decoration_Coherent => "Coherent"
  | Decoration_NonWritable => "NonWritable"
  | Decoration_NonReadable => "NonReadable"
  | Decoration_Uniform => "Uniform"
  | Decoration_SaturatedConversion => "SaturatedConversion"
  | Decoration_Stream n => "Stream " ++ disp_u32 n
  | Decoration_Location n => "Location " ++ disp_u32 n
  | Decoration_Component n => "Component " ++ disp_u32 n
  | Decoration_Index n => "Index " ++ disp_u32 n
  | Decoration_Binding n => "Binding " ++ disp_u32 n
  | Decoration_DescriptorSet n => "DescriptorSet " ++ disp_u32 n
  | Decoration_Offset n => "Offset " ++ disp_u32 n
  | Decoration_XfbBuffer n => "XfbBuffer " ++ disp_u32 n
  | Decoration_XfbStride n => "XfbStride " ++ disp_u32 n
  | Decoration_FuncParamAttr foa => "FuncParamAttr " ++ disp_FunctionParameterAttribute foa
  | Decoration_FpRoundingMode rounding_mode => "FpRoundingMode " ++ disp_FpRoundingMode rounding_mode
  | Decoration_FpFastMathMode fast_math_mode => "FpFastMathMode " ++ disp_FpFastMathMode fast_math_mode
  | Decoration_LinkageAttributes name lt => "LinkageAttributes " ++ name ++ " " ++ disp_LinkageType lt
  | Decoration_NoContraction => "NoContraction"
  | Decoration_InputAttachmentIndex n => "InputAttachmentIndex " ++ disp_u32 n
  | Decoration_Alignment n => "Alignment " ++ disp_u32 n
  end.

(* src/spv/types.rs:59-75 *)
Definition Tool_get_vendor (x : Tool) : option string :=
  match x with
  | Tool_KhronosReserved => Some "Khronos"
  | Tool_LunarG => Some "LunarG"
  | Tool_Valve => Some "Valve"
  | Tool_Codeplay => Some "Codeplay"
  | Tool_Nvidia => Some "NVIDIA"
  | Tool_Arm => Some "ARM"
  | Tool_KhronosLLvmTranslator => Some "Khronos"
  | Tool_KhronosAssembler => Some "Khronos"
  | Tool_KhronosGlslang => Some "Khronos"
  | Tool_Qualcomm => Some "Qualcomm"
  | Tool_Amd => Some "AMD"
  | Tool_Intel => Some "Intel"
  | Tool_Other _ => None
  end.

(* src/spv/types.rs:76-83 *)
Definition Tool_get_tool (x : Tool) : option string :=
  match x with
  | Tool_KhronosLLvmTranslator => Some "LLVM/SPIR-V Translator"
  | Tool_KhronosAssembler => Some "SPIR-V Tools Assembler"
  | Tool_KhronosGlslang => Some "Glslang Reference Front End"
  | _ => None
  end.
