(* GENERATED by tools/gen.py from /repo; do not edit by hand. *)
From Verif Require Import Base Types DisplayBase FmtBase.
Local Open Scope string_scope.

(** Display of operand types into a writer, src/spv/types.rs. *)

(* src/spv/types.rs:98-110 *)
Definition fmt_SourceLanguage : Display SourceLanguage := fun x f =>
  match x with
  | SourceLanguage_Unknown => write_fmt [lit "Unknown"]
  | SourceLanguage_Essl => write_fmt [lit "ESSL"]
  | SourceLanguage_Glsl => write_fmt [lit "GLSL"]
  | SourceLanguage_OpenCL_C => write_fmt [lit "OpenCL_C"]
  | SourceLanguage_OpenCL_Cpp => write_fmt [lit "OpenCL_CPP"]
  | SourceLanguage_Other n => write_fmt [lit "Unknown("; fmt_u32 n plain; lit ")"]
  end.

(* src/spv/types.rs:305-352 *)
Definition fmt_BuiltIn : Display BuiltIn := fun x f =>
  match x with
  | BuiltIn_Position => write_fmt [lit "Position"]
  | BuiltIn_PointSize => write_fmt [lit "PointSize"]
  | BuiltIn_ClipDistance => write_fmt [lit "ClipDistance"]
  | BuiltIn_CullDistance => write_fmt [lit "CullDistance"]
  | BuiltIn_VertexId => write_fmt [lit "VertexId"]
  | BuiltIn_InstanceId => write_fmt [lit "InstanceId"]
  | BuiltIn_PrimitiveId => write_fmt [lit "PrimitiveId"]
  | BuiltIn_InvocationId => write_fmt [lit "InvocationId"]
  | BuiltIn_Layer => write_fmt [lit "Layer"]
  | BuiltIn_ViewportIndex => write_fmt [lit "ViewportIndex"]
  | BuiltIn_TessLevelOuter => write_fmt [lit "TessLevelOuter"]
  | BuiltIn_TessLevelInner => write_fmt [lit "TessLevelInner"]
  | BuiltIn_TessCoord => write_fmt [lit "TessCoord"]
  | BuiltIn_PatchVerticies => write_fmt [lit "PatchVerticies"]
  | BuiltIn_FragCoord => write_fmt [lit "FragCoord"]
  | BuiltIn_PointCoord => write_fmt [lit "PointCoord"]
  | BuiltIn_FrontFacing => write_fmt [lit "FrontFacing"]
  | BuiltIn_SampleId => write_fmt [lit "SampleId"]
  | BuiltIn_SamplePosition => write_fmt [lit "SamplePosition"]
  | BuiltIn_SampleMask => write_fmt [lit "SampleMask"]
  | BuiltIn_FragDepth => write_fmt [lit "FragDepth"]
  | BuiltIn_HelperInvocation => write_fmt [lit "HelperInvocation"]
  | BuiltIn_NumWorkgroups => write_fmt [lit "NumWorkgroups"]
  | BuiltIn_WorkgroupSize => write_fmt [lit "WorkgroupSize"]
  | BuiltIn_WorkgroupId => write_fmt [lit "WorkgroupId"]
  | BuiltIn_LocalInvocationId => write_fmt [lit "LocalInvocationId"]
  | BuiltIn_GlobalInvocationId => write_fmt [lit "GlobalInvocationId"]
  | BuiltIn_LocalInvocationIndex => write_fmt [lit "LocalInvocationIndex"]
  | BuiltIn_WorkDim => write_fmt [lit "WorkDim"]
  | BuiltIn_GlobalSize => write_fmt [lit "GlobalSize"]
  | BuiltIn_EnqueuedWorkgroupSize => write_fmt [lit "EnqueuedWorkgroupSize"]
  | BuiltIn_GlobalOffset => write_fmt [lit "GlobalOffset"]
  | BuiltIn_GlobalLinearId => write_fmt [lit "GlobalLinearId"]
  | BuiltIn_SubgroupSize => write_fmt [lit "SubgroupSize"]
  | BuiltIn_SubgroupMaxSize => write_fmt [lit "SubgroupMaxSize"]
  | BuiltIn_NumSubgroups => write_fmt [lit "NumSubgroups"]
  | BuiltIn_NumEnqueuedSubgroups => write_fmt [lit "NumEnqueuedSubgroups"]
  | BuiltIn_SubgroupId => write_fmt [lit "SubgroupId"]
  | BuiltIn_SubgroupLocalInvocationId => write_fmt [lit "SubgroupLocalInvocationId"]
  | BuiltIn_VertexIndex => write_fmt [lit "VertexIndex"]
  | BuiltIn_InstanceIndex => write_fmt [lit "InstanceIndex"]
  end.

(* src/spv/types.rs:793-807 *)
Definition fmt_FunctionParameterAttribute : Display FunctionParameterAttribute := fun x f =>
  match x with
  | FunctionParameterAttribute_Zext => write_fmt [lit "Zext"]
  | FunctionParameterAttribute_Sext => write_fmt [lit "Sext"]
  | FunctionParameterAttribute_ByVal => write_fmt [lit "ByVal"]
  | FunctionParameterAttribute_Sret => write_fmt [lit "Sret"]
  | FunctionParameterAttribute_NoAlias => write_fmt [lit "NoAlias"]
  | FunctionParameterAttribute_NoCapture => write_fmt [lit "NoCapture"]
  | FunctionParameterAttribute_NoWrite => write_fmt [lit "NoWrite"]
  | FunctionParameterAttribute_NoReadWrite => write_fmt [lit "NoReadWrite"]
  end.

(* src/spv/types.rs:749-759 *)
Definition fmt_FpRoundingMode : Display FpRoundingMode := fun x f =>
  match x with
  | FpRoundingMode_Rte => write_fmt [lit "RTE"]
  | FpRoundingMode_Rtz => write_fmt [lit "RTZ"]
  | FpRoundingMode_Rtp => write_fmt [lit "RTP"]
  | FpRoundingMode_Rtn => write_fmt [lit "RTN"]
  end.

(* src/spv/types.rs:769-777 *)
Definition fmt_LinkageType : Display LinkageType := fun x f =>
  match x with
  | LinkageType_Export => write_fmt [lit "Export"]
  | LinkageType_Import => write_fmt [lit "Import"]
  end.

(* src/spv/types.rs:376-385 *)
Definition fmt_AddressingModel : Display AddressingModel := fun x f =>
  match x with
  | AddressingModel_Logical => write_fmt [lit "Logical"]
  | AddressingModel_Physical32 => write_fmt [lit "Physical32"]
  | AddressingModel_Physical64 => write_fmt [lit "Physical64"]
  end.

(* src/spv/types.rs:397-406 *)
Definition fmt_MemoryModel : Display MemoryModel := fun x f =>
  match x with
  | MemoryModel_Simple => write_fmt [lit "Simple"]
  | MemoryModel_Glsl450 => write_fmt [lit "GLSL450"]
  | MemoryModel_OpenCL => write_fmt [lit "OpenCL"]
  end.

(* src/spv/types.rs:422-435 *)
Definition fmt_ExecutionModel : Display ExecutionModel := fun x f =>
  match x with
  | ExecutionModel_Vertex => write_fmt [lit "Vertex"]
  | ExecutionModel_TesselationControl => write_fmt [lit "TesselationControl"]
  | ExecutionModel_TesselationEvaluation => write_fmt [lit "TesselationEvaluation"]
  | ExecutionModel_Geometry => write_fmt [lit "Geometry"]
  | ExecutionModel_Fragment => write_fmt [lit "Fragment"]
  | ExecutionModel_GlCompute => write_fmt [lit "GLCompute"]
  | ExecutionModel_Kernel => write_fmt [lit "Kernel"]
  end.

(* src/spv/types.rs:474-515 *)
Definition fmt_ExecutionMode : Display ExecutionMode := fun x f =>
  match x with
  | ExecutionMode_Invocations n => write_fmt [lit "Invocations "; fmt_u32 n plain]
  | ExecutionMode_SpacingEqual => write_fmt [lit "SpacingEqual"]
  | ExecutionMode_SpacingFractionalEven => write_fmt [lit "SpacingFractionalEven"]
  | ExecutionMode_SpacingFractionalOdd => write_fmt [lit "SpacingFractionalOdd"]
  | ExecutionMode_VertexOrderCw => write_fmt [lit "VertexOrderCw"]
  | ExecutionMode_VertexOrderCcw => write_fmt [lit "VertexOrderCcw"]
  | ExecutionMode_PixelCenterInteger => write_fmt [lit "PixelCenterInteger"]
  | ExecutionMode_OriginUpperLeft => write_fmt [lit "OriginUpperLeft"]
  | ExecutionMode_OriginLowerLeft => write_fmt [lit "OriginLowerLeft"]
  | ExecutionMode_EarlyFragmentTests => write_fmt [lit "EarlyFragmentTests"]
  | ExecutionMode_PointMode => write_fmt [lit "PointMode"]
  | ExecutionMode_Xfb => write_fmt [lit "Xfb"]
  | ExecutionMode_DepthReplacing => write_fmt [lit "DepthReplacing"]
  | ExecutionMode_DepthGreater => write_fmt [lit "DepthGreater"]
  | ExecutionMode_DepthLess => write_fmt [lit "DepthLess"]
  | ExecutionMode_DepthUnchanged => write_fmt [lit "DepthUnchanged"]
  | ExecutionMode_LocalSize x y z => write_fmt [lit "LocalSize "; fmt_u32 x plain; lit " "; fmt_u32 y plain; lit " "; fmt_u32 z plain]
  | ExecutionMode_LocalSizeHint x y z => write_fmt [lit "LocalSizeHint "; fmt_u32 x plain; lit " "; fmt_u32 y plain; lit " "; fmt_u32 z plain]
  | ExecutionMode_InputPoints => write_fmt [lit "InputPoints"]
  | ExecutionMode_InputLines => write_fmt [lit "InputLines"]
  | ExecutionMode_InputLinesAdjacency => write_fmt [lit "InputLinesAdjacency"]
  | ExecutionMode_Triangles => write_fmt [lit "Triangles"]
  | ExecutionMode_InputTrianglesAdjacency => write_fmt [lit "InputTrianglesAdjacency"]
  | ExecutionMode_Quads => write_fmt [lit "Quads"]
  | ExecutionMode_Isolines => write_fmt [lit "Isolines"]
  | ExecutionMode_OutputVerticies n => write_fmt [lit "OutputVerticies "; fmt_u32 n plain]
  | ExecutionMode_OutputPoints => write_fmt [lit "OutputPoints"]
  | ExecutionMode_OutputLineStrip => write_fmt [lit "OutputLineStrip"]
  | ExecutionMode_OutputTriangleStrip => write_fmt [lit "OutputTriangleStrip"]
  | ExecutionMode_VecTypeHint id => write_fmt [lit "VecTypeHint "; fmt_OpId id plain]
  | ExecutionMode_ContractionOff => write_fmt [lit "ContractionOff"]
  end.

(* src/spv/types.rs:582-644 *)
Definition fmt_Capability : Display Capability := fun x f =>
  match x with
  | Capability_Matrix => write_fmt [lit "Matrix"]
  | Capability_Shader => write_fmt [lit "Shader"]
  | Capability_Geometry => write_fmt [lit "Geometry"]
  | Capability_Tessellation => write_fmt [lit "Tessellation"]
  | Capability_Addresses => write_fmt [lit "Addresses"]
  | Capability_Linkage => write_fmt [lit "Linkage"]
  | Capability_Kernel => write_fmt [lit "Kernel"]
  | Capability_Vector16 => write_fmt [lit "Vector16"]
  | Capability_Float16Buffer => write_fmt [lit "Float16Buffer"]
  | Capability_Float16 => write_fmt [lit "Float16"]
  | Capability_Float64 => write_fmt [lit "Float64"]
  | Capability_Int64 => write_fmt [lit "Int64"]
  | Capability_Int64Atomics => write_fmt [lit "Int64Atomics"]
  | Capability_ImageBasic => write_fmt [lit "ImageBasic"]
  | Capability_ImageReadWrite => write_fmt [lit "ImageReadWrite"]
  | Capability_ImageMipmap => write_fmt [lit "ImageMipmap"]
  | Capability_Pipes => write_fmt [lit "Pipes"]
  | Capability_Groups => write_fmt [lit "Groups"]
  | Capability_DeviceEnqueue => write_fmt [lit "DeviceEnqueue"]
  | Capability_LiteralSampler => write_fmt [lit "LiteralSampler"]
  | Capability_AtomicStorage => write_fmt [lit "AtomicStorage"]
  | Capability_Int16 => write_fmt [lit "Int16"]
  | Capability_TessellationPointSize => write_fmt [lit "TessellationPointSize"]
  | Capability_GeometryPointSize => write_fmt [lit "GeometryPointSize"]
  | Capability_ImageGatherExtended => write_fmt [lit "ImageGatherExtended"]
  | Capability_StorageImageMultisample => write_fmt [lit "StorageImageMultisample"]
  | Capability_UniformBufferArrayDynamicIndexing => write_fmt [lit "UniformBufferArrayDynamicIndexing"]
  | Capability_SampledImageArrayDynamicIndexing => write_fmt [lit "SampledImageArrayDynamicIndexing"]
  | Capability_StorageBufferArrayDynamicIndexing => write_fmt [lit "StorageBufferArrayDynamicIndexing"]
  | Capability_StorageImageArrayDynamicIndexing => write_fmt [lit "StorageImageArrayDynamicIndexing"]
  | Capability_ClipDistance => write_fmt [lit "ClipDistance"]
  | Capability_CullDistance => write_fmt [lit "CullDistance"]
  | Capability_ImageCubeArray => write_fmt [lit "ImageCubeArray"]
  | Capability_SampleRateShading => write_fmt [lit "SampleRateShading"]
  | Capability_ImageRect => write_fmt [lit "ImageRect"]
  | Capability_SampledRect => write_fmt [lit "SampledRect"]
  | Capability_GenericPointer => write_fmt [lit "GenericPointer"]
  | Capability_Int8 => write_fmt [lit "Int8"]
  | Capability_InputAttachment => write_fmt [lit "InputAttachment"]
  | Capability_SparseResidency => write_fmt [lit "SparseResidency"]
  | Capability_MinLod => write_fmt [lit "MinLod"]
  | Capability_Sampled1D => write_fmt [lit "Sampled1D"]
  | Capability_Image1D => write_fmt [lit "Image1D"]
  | Capability_SampledCubeArray => write_fmt [lit "SampledCubeArray"]
  | Capability_SampledBuffer => write_fmt [lit "SampledBuffer"]
  | Capability_ImageBuffer => write_fmt [lit "ImageBuffer"]
  | Capability_ImageMSArray => write_fmt [lit "ImageMSArray"]
  | Capability_StorageImageExtendedFormats => write_fmt [lit "StorageImageExtendedFormats"]
  | Capability_ImageQuery => write_fmt [lit "ImageQuery"]
  | Capability_DerivativeControl => write_fmt [lit "DerivativeControl"]
  | Capability_InterpolationFunction => write_fmt [lit "InterpolationFunction"]
  | Capability_TransformFeedback => write_fmt [lit "TransformFeedback"]
  | Capability_GeometryStreams => write_fmt [lit "GeometryStreams"]
  | Capability_StorageImageReadWithoutFormat => write_fmt [lit "StorageImageReadWithoutFormat"]
  | Capability_StorageImageWriteWithoutFormat => write_fmt [lit "StorageImageWriteWithoutFormat"]
  | Capability_MultiViewport => write_fmt [lit "MultiViewport"]
  end.

(* src/spv/types.rs:654-662 *)
Definition fmt_Signedness : Display Signedness := fun x f =>
  match x with
  | Signedness_UnsignedOrNone => write_fmt [lit "0"]
  | Signedness_Signed => write_fmt [lit "1"]
  end.

(* src/spv/types.rs:682-700 *)
Definition fmt_StorageClass : Display StorageClass := fun x f =>
  match x with
  | StorageClass_UniformConstant => write_fmt [lit "UniformConstant"]
  | StorageClass_Input => write_fmt [lit "Input"]
  | StorageClass_Uniform => write_fmt [lit "Uniform"]
  | StorageClass_Output => write_fmt [lit "Output"]
  | StorageClass_Workgroup => write_fmt [lit "Workgroup"]
  | StorageClass_CrossWorkgroup => write_fmt [lit "CrossWorkgroup"]
  | StorageClass_Private => write_fmt [lit "Private"]
  | StorageClass_Function => write_fmt [lit "Function"]
  | StorageClass_Generic => write_fmt [lit "Generic"]
  | StorageClass_PushConstant => write_fmt [lit "PushConstant"]
  | StorageClass_AtomicCounter => write_fmt [lit "AtomicCounter"]
  | StorageClass_Image => write_fmt [lit "Image"]
  end.

(* src/spv/types.rs:823-836 *)
Definition fmt_Dim : Display Dim := fun x f =>
  match x with
  | Dim_Tex1D => write_fmt [lit "1D"]
  | Dim_Tex2D => write_fmt [lit "2D"]
  | Dim_Tex3D => write_fmt [lit "3D"]
  | Dim_Cube => write_fmt [lit "Cube"]
  | Dim_Rect => write_fmt [lit "Rect"]
  | Dim_Buffer => write_fmt [lit "Buffer"]
  | Dim_SubpassData => write_fmt [lit "SubpassData"]
  end.

(* src/spv/types.rs:848-857 *)
Definition fmt_DepthStatus : Display DepthStatus := fun x f =>
  match x with
  | DepthStatus_NotDepth => write_fmt [fmt_u32 0%N plain]
  | DepthStatus_Depth => write_fmt [fmt_u32 1%N plain]
  | DepthStatus_NoIndication => write_fmt [fmt_u32 2%N plain]
  end.

(* src/spv/types.rs:868-876 *)
Definition fmt_Arrayed : Display Arrayed := fun x f =>
  match x with
  | Arrayed_False => write_fmt [fmt_u32 0%N plain]
  | Arrayed_True => write_fmt [fmt_u32 1%N plain]
  end.

(* src/spv/types.rs:887-895 *)
Definition fmt_MS : Display MS := fun x f =>
  match x with
  | MS_Single => write_fmt [fmt_u32 0%N plain]
  | MS_Multi => write_fmt [fmt_u32 1%N plain]
  end.

(* src/spv/types.rs:907-916 *)
Definition fmt_SampledStatus : Display SampledStatus := fun x f =>
  match x with
  | SampledStatus_RuntimeChoice => write_fmt [fmt_u32 0%N plain]
  | SampledStatus_WithSampler => write_fmt [fmt_u32 1%N plain]
  | SampledStatus_WithoutSampler => write_fmt [fmt_u32 2%N plain]
  end.

(* src/spv/types.rs:965-1011 *)
Definition fmt_ImageFormat : Display ImageFormat := fun x f =>
  match x with
  | ImageFormat_Unknown => write_fmt [lit "Unknown"]
  | ImageFormat_Rgba32f => write_fmt [lit "Rgba32f"]
  | ImageFormat_Rgba16f => write_fmt [lit "Rgba16f"]
  | ImageFormat_R32f => write_fmt [lit "R32f"]
  | ImageFormat_Rgba8 => write_fmt [lit "Rgba8"]
  | ImageFormat_Rgba8Snorm => write_fmt [lit "Rgba8Snorm"]
  | ImageFormat_Rg32f => write_fmt [lit "Rg32f"]
  | ImageFormat_Rg16f => write_fmt [lit "Rg16f"]
  | ImageFormat_R11fG11fB10f => write_fmt [lit "R11fG11fB10f"]
  | ImageFormat_R16f => write_fmt [lit "R16f"]
  | ImageFormat_Rgba16 => write_fmt [lit "Rgba16"]
  | ImageFormat_Rgb10A2 => write_fmt [lit "Rgb10A2"]
  | ImageFormat_Rg16 => write_fmt [lit "Rg16"]
  | ImageFormat_Rg8 => write_fmt [lit "Rg8"]
  | ImageFormat_R16 => write_fmt [lit "R16"]
  | ImageFormat_R8 => write_fmt [lit "R8"]
  | ImageFormat_Rgba16Snorm => write_fmt [lit "Rgba16Snorm"]
  | ImageFormat_Rg16Snorm => write_fmt [lit "Rg16Snorm"]
  | ImageFormat_Rg8Snorm => write_fmt [lit "Rg8Snorm"]
  | ImageFormat_R16Snorm => write_fmt [lit "R16Snorm"]
  | ImageFormat_R8Snorm => write_fmt [lit "R8Snorm"]
  | ImageFormat_Rgba32i => write_fmt [lit "Rgba32i"]
  | ImageFormat_Rgba16i => write_fmt [lit "Rgba16i"]
  | ImageFormat_Rgba8i => write_fmt [lit "Rgba8i"]
  | ImageFormat_R32i => write_fmt [lit "R32i"]
  | ImageFormat_Rg32i => write_fmt [lit "Rg32i"]
  | ImageFormat_Rg16i => write_fmt [lit "Rg16i"]
  | ImageFormat_Rg8i => write_fmt [lit "Rg8i"]
  | ImageFormat_R16i => write_fmt [lit "R16i"]
  | ImageFormat_R8i => write_fmt [lit "R8i"]
  | ImageFormat_Rgba32ui => write_fmt [lit "Rgba32ui"]
  | ImageFormat_Rgba16ui => write_fmt [lit "Rgba16ui"]
  | ImageFormat_Rgba8ui => write_fmt [lit "Rgba8ui"]
  | ImageFormat_R32ui => write_fmt [lit "R32ui"]
  | ImageFormat_Rgb10a2ui => write_fmt [lit "Rgb10a2ui"]
  | ImageFormat_Rg32ui => write_fmt [lit "Rg32ui"]
  | ImageFormat_Rg16ui => write_fmt [lit "Rg16ui"]
  | ImageFormat_Rg8ui => write_fmt [lit "Rg8ui"]
  | ImageFormat_R16ui => write_fmt [lit "R16ui"]
  | ImageFormat_R8ui => write_fmt [lit "R8ui"]
  end.

(* src/spv/types.rs:1022-1031 *)
Definition fmt_AccessQualifier : Display AccessQualifier := fun x f =>
  match x with
  | AccessQualifier_ReadOnly => write_fmt [lit "ReadOnly"]
  | AccessQualifier_WriteOnly => write_fmt [lit "WriteOnly"]
  | AccessQualifier_ReadWrite => write_fmt [lit "ReadWrite"]
  end.

(* src/spv/types.rs:713-737 *)
Definition fmt_FpFastMathMode : Display FpFastMathMode := fun x f =>
  let parts := ((if FpFastMathMode_not_nan x then ["NotNaN"] else [])
    ++ (if FpFastMathMode_not_inf x then ["NotInf"] else [])
    ++ (if FpFastMathMode_nsz x then ["NSZ"] else [])
    ++ (if FpFastMathMode_allow_recip x then ["AllowRecip"] else [])
    ++ (if FpFastMathMode_fast x then ["Fast"] else []))%list in
  match parts with [] => write_fmt [lit "None"] | _ => write_fmt [lit (String.concat " | " parts)] end.

(* src/spv/types.rs:1113-1131 *)
Definition fmt_MemoryAccess : Display MemoryAccess := fun x f =>
  let parts := ((if MemoryAccess_volatile x then ["Volatile"] else [])
    ++ (if MemoryAccess_aligned x then ["Aligned"] else [])
    ++ (if MemoryAccess_non_temporal x then ["Nontemporal"] else []))%list in
  match parts with [] => write_fmt [lit "None"] | _ => write_fmt [lit (String.concat " | " parts)] end.

(* src/spv/types.rs:1143-1164 *)
Definition fmt_FunctionControl : Display FunctionControl := fun x f =>
  let parts := ((if FunctionControl_inline x then ["Inline"] else [])
    ++ (if FunctionControl_dont_inline x then ["DontInline"] else [])
    ++ (if FunctionControl_pure_function x then ["Pure"] else [])
    ++ (if FunctionControl_const_function x then ["Const"] else []))%list in
  match parts with [] => write_fmt [lit "None"] | _ => write_fmt [lit (String.concat " | " parts)] end.

(* src/spv/types.rs:1178-1199 *)
Definition fmt_LoopControl : Display LoopControl := fun x f =>
  let parts := ((if LoopControl_unroll x then ["Unroll"] else [])
    ++ (if LoopControl_dont_unroll x then ["DontUnroll"] else [])
    ++ (if LoopControl_dependency_infinite x then ["DependencyInfinite"] else [])
    ++ match LoopControl_dependency_length x with Some len => [("DependencyLength(" ++ disp_u32 len ++ ")")%string] | None => [] end)%list in
  match parts with [] => write_fmt [lit "None"] | _ => write_fmt [lit (String.concat " | " parts)] end.

(* src/spv/types.rs:1209-1224 *)
Definition fmt_SelectionControl : Display SelectionControl := fun x f =>
  let parts := ((if SelectionControl_flatten x then ["Flatten"] else [])
    ++ (if SelectionControl_dont_flatten x then ["DontFlatten"] else []))%list in
  match parts with [] => write_fmt [lit "None"] | _ => write_fmt [lit (String.concat " | " parts)] end.

(* src/spv/types.rs:1234-1238 *)
Definition fmt_PhiArg : Display PhiArg := fun x f =>
  write_fmt [fmt_OpId (PhiArg_variable x) plain; lit " "; fmt_OpId (PhiArg_parent x) plain].

(* src/spv/types.rs:1248-1252 *)
Definition fmt_BranchWeights : Display BranchWeights := fun x f =>
  write_fmt [fmt_u32 (BranchWeights_true_weight x) plain; lit " "; fmt_u32 (BranchWeights_false_weight x) plain].

(* src/spv/types.rs:198-255 *)
Definition fmt_Decoration : Display Decoration := fun x f =>
  match x with
  | Decoration_RelaxedPrecision => write_fmt [lit "RelaxedPrecision"]
  | Decoration_SpecId n => write_fmt [lit "SpecId "; fmt_u32 n plain]
  | Decoration_Block => write_fmt [lit "Block"]
  | Decoration_BufferBlock => write_fmt [lit "BufferBlock"]
  | Decoration_RowMajor => write_fmt [lit "RowMajor"]
  | Decoration_ColMajor => write_fmt [lit "ColMajor"]
  | Decoration_ArrayStride n => write_fmt [lit "ArrayStride "; fmt_u32 n plain]
  | Decoration_MatrixStride n => write_fmt [lit "MatrixStride "; fmt_u32 n plain]
  | Decoration_GlslShared => write_fmt [lit "GLSLShared"]
  | Decoration_GlslPacked => write_fmt [lit "GLSLPacked"]
  | Decoration_CPacked => write_fmt [lit "CPacked"]
  | Decoration_BuiltIn b => write_fmt [lit "BuiltIn "; fmt_BuiltIn b plain]
  | Decoration_NoPerspective => write_fmt [lit "NoPerspective"]
  | Decoration_Flat => write_fmt [lit "Flat"]
  | Decoration_Patch => write_fmt [lit "Patch"]
  | Decoration_Centroid => write_fmt [lit "Centroid"]
  | Decoration_Sample => write_fmt [lit "Sample"]
  | Decoration_Invariant => write_fmt [lit "Invariant"]
  | Decoration_Restrict => write_fmt [lit "Restrict"]
  | Decoration_Aliased => write_fmt [lit "Aliased"]
  | Decoration_Volatile => write_fmt [lit "Volatile"]
  | Decoration_Constant => write_fmt [lit "Constant"]
  | Decoration_Coherent => write_fmt [lit "Coherent"]
  | Decoration_NonWritable => write_fmt [lit "NonWritable"]
  | Decoration_NonReadable => write_fmt [lit "NonReadable"]
  | Decoration_Uniform => write_fmt [lit "Uniform"]
  | Decoration_SaturatedConversion => write_fmt [lit "SaturatedConversion"]
  | Decoration_Stream n => write_fmt [lit "Stream "; fmt_u32 n plain]
  | Decoration_Location n => write_fmt [lit "Location "; fmt_u32 n plain]
  | Decoration_Component n => write_fmt [lit "Component "; fmt_u32 n plain]
  | Decoration_Index n => write_fmt [lit "Index "; fmt_u32 n plain]
  | Decoration_Binding n => write_fmt [lit "Binding "; fmt_u32 n plain]
  | Decoration_DescriptorSet n => write_fmt [lit "DescriptorSet "; fmt_u32 n plain]
  | Decoration_Offset n => write_fmt [lit "Offset "; fmt_u32 n plain]
  | Decoration_XfbBuffer n => write_fmt [lit "XfbBuffer "; fmt_u32 n plain]
  | Decoration_XfbStride n => write_fmt [lit "XfbStride "; fmt_u32 n plain]
  | Decoration_FuncParamAttr foa => write_fmt [lit "FuncParamAttr "; fmt_FunctionParameterAttribute foa plain]
  | Decoration_FpRoundingMode rounding_mode => write_fmt [lit "FpRoundingMode "; fmt_FpRoundingMode rounding_mode plain]
  | Decoration_FpFastMathMode fast_math_mode => write_fmt [lit "FpFastMathMode "; fmt_FpFastMathMode fast_math_mode plain]
  | Decoration_LinkageAttributes name lt => write_fmt [lit "LinkageAttributes "; lit name; lit " "; fmt_LinkageType lt plain]
  | Decoration_NoContraction => write_fmt [lit "NoContraction"]
  | Decoration_InputAttachmentIndex n => write_fmt [lit "InputAttachmentIndex "; fmt_u32 n plain]
  | Decoration_Alignment n => write_fmt [lit "Alignment "; fmt_u32 n plain]
  end.
