(** SPECIFICATION: the names SPIR-V gives to the numbers of its enumerations and masks (chapter 3 of the SPIR-V
    specification), and the kinds of the operands of its instructions (the operand columns of section 3.32).
    Written by hand from the standard; uses nothing of the model. *)
From Verif Require Import Base.
Local Open Scope N_scope.
Local Open Scope string_scope.

Definition names : Type := list (N * string).

Definition source_languages : names := [(0, "Unknown"); (1, "ESSL"); (2, "GLSL"); (3, "OpenCL_C"); (4, "OpenCL_CPP")].
Definition execution_models : names :=
  [(0, "Vertex"); (1, "TessellationControl"); (2, "TessellationEvaluation"); (3, "Geometry"); (4, "Fragment");
   (5, "GLCompute"); (6, "Kernel")].
Definition addressing_models : names := [(0, "Logical"); (1, "Physical32"); (2, "Physical64")].
Definition memory_models : names := [(0, "Simple"); (1, "GLSL450"); (2, "OpenCL")].
Definition execution_modes : names :=
  [(0, "Invocations"); (1, "SpacingEqual"); (2, "SpacingFractionalEven"); (3, "SpacingFractionalOdd");
   (4, "VertexOrderCw"); (5, "VertexOrderCcw"); (6, "PixelCenterInteger"); (7, "OriginUpperLeft");
   (8, "OriginLowerLeft"); (9, "EarlyFragmentTests"); (10, "PointMode"); (11, "Xfb"); (12, "DepthReplacing");
   (14, "DepthGreater"); (15, "DepthLess"); (16, "DepthUnchanged"); (17, "LocalSize"); (18, "LocalSizeHint");
   (19, "InputPoints"); (20, "InputLines"); (21, "InputLinesAdjacency"); (22, "Triangles");
   (23, "InputTrianglesAdjacency"); (24, "Quads"); (25, "Isolines"); (26, "OutputVertices"); (27, "OutputPoints");
   (28, "OutputLineStrip"); (29, "OutputTriangleStrip"); (30, "VecTypeHint"); (31, "ContractionOff")].
Definition storage_classes : names :=
  [(0, "UniformConstant"); (1, "Input"); (2, "Uniform"); (3, "Output"); (4, "Workgroup"); (5, "CrossWorkgroup");
   (6, "Private"); (7, "Function"); (8, "Generic"); (9, "PushConstant"); (10, "AtomicCounter"); (11, "Image")].
Definition dims : names :=
  [(0, "1D"); (1, "2D"); (2, "3D"); (3, "Cube"); (4, "Rect"); (5, "Buffer"); (6, "SubpassData")].
Definition image_formats : names :=
  [(0, "Unknown"); (1, "Rgba32f"); (2, "Rgba16f"); (3, "R32f"); (4, "Rgba8"); (5, "Rgba8Snorm"); (6, "Rg32f");
   (7, "Rg16f"); (8, "R11fG11fB10f"); (9, "R16f"); (10, "Rgba16"); (11, "Rgb10A2"); (12, "Rg16"); (13, "Rg8");
   (14, "R16"); (15, "R8"); (16, "Rgba16Snorm"); (17, "Rg16Snorm"); (18, "Rg8Snorm"); (19, "R16Snorm");
   (20, "R8Snorm"); (21, "Rgba32i"); (22, "Rgba16i"); (23, "Rgba8i"); (24, "R32i"); (25, "Rg32i"); (26, "Rg16i");
   (27, "Rg8i"); (28, "R16i"); (29, "R8i"); (30, "Rgba32ui"); (31, "Rgba16ui"); (32, "Rgba8ui"); (33, "R32ui");
   (34, "Rgb10a2ui"); (35, "Rg32ui"); (36, "Rg16ui"); (37, "Rg8ui"); (38, "R16ui"); (39, "R8ui")].
Definition fp_rounding_modes : names := [(0, "RTE"); (1, "RTZ"); (2, "RTP"); (3, "RTN")].
Definition linkage_types : names := [(0, "Export"); (1, "Import")].
Definition access_qualifiers : names := [(0, "ReadOnly"); (1, "WriteOnly"); (2, "ReadWrite")].
Definition function_parameter_attributes : names :=
  [(0, "Zext"); (1, "Sext"); (2, "ByVal"); (3, "Sret"); (4, "NoAlias"); (5, "NoCapture"); (6, "NoWrite");
   (7, "NoReadWrite")].
Definition decorations : names :=
  [(0, "RelaxedPrecision"); (1, "SpecId"); (2, "Block"); (3, "BufferBlock"); (4, "RowMajor"); (5, "ColMajor");
   (6, "ArrayStride"); (7, "MatrixStride"); (8, "GLSLShared"); (9, "GLSLPacked"); (10, "CPacked"); (11, "BuiltIn");
   (13, "NoPerspective"); (14, "Flat"); (15, "Patch"); (16, "Centroid"); (17, "Sample"); (18, "Invariant");
   (19, "Restrict"); (20, "Aliased"); (21, "Volatile"); (22, "Constant"); (23, "Coherent"); (24, "NonWritable");
   (25, "NonReadable"); (26, "Uniform"); (28, "SaturatedConversion"); (29, "Stream"); (30, "Location");
   (31, "Component"); (32, "Index"); (33, "Binding"); (34, "DescriptorSet"); (35, "Offset"); (36, "XfbBuffer");
   (37, "XfbStride"); (38, "FuncParamAttr"); (39, "FPRoundingMode"); (40, "FPFastMathMode");
   (41, "LinkageAttributes"); (42, "NoContraction"); (43, "InputAttachmentIndex"); (44, "Alignment")].
Definition built_ins : names :=
  [(0, "Position"); (1, "PointSize"); (3, "ClipDistance"); (4, "CullDistance"); (5, "VertexId"); (6, "InstanceId");
   (7, "PrimitiveId"); (8, "InvocationId"); (9, "Layer"); (10, "ViewportIndex"); (11, "TessLevelOuter");
   (12, "TessLevelInner"); (13, "TessCoord"); (14, "PatchVertices"); (15, "FragCoord"); (16, "PointCoord");
   (17, "FrontFacing"); (18, "SampleId"); (19, "SamplePosition"); (20, "SampleMask"); (22, "FragDepth");
   (23, "HelperInvocation"); (24, "NumWorkgroups"); (25, "WorkgroupSize"); (26, "WorkgroupId");
   (27, "LocalInvocationId"); (28, "GlobalInvocationId"); (29, "LocalInvocationIndex"); (30, "WorkDim");
   (31, "GlobalSize"); (32, "EnqueuedWorkgroupSize"); (33, "GlobalOffset"); (34, "GlobalLinearId");
   (36, "SubgroupSize"); (37, "SubgroupMaxSize"); (38, "NumSubgroups"); (39, "NumEnqueuedSubgroups");
   (40, "SubgroupId"); (41, "SubgroupLocalInvocationId"); (42, "VertexIndex"); (43, "InstanceIndex")].
Definition capabilities : names :=
  [(0, "Matrix"); (1, "Shader"); (2, "Geometry"); (3, "Tessellation"); (4, "Addresses"); (5, "Linkage"); (6, "Kernel");
   (7, "Vector16"); (8, "Float16Buffer"); (9, "Float16"); (10, "Float64"); (11, "Int64"); (12, "Int64Atomics");
   (13, "ImageBasic"); (14, "ImageReadWrite"); (15, "ImageMipmap"); (17, "Pipes"); (18, "Groups");
   (19, "DeviceEnqueue"); (20, "LiteralSampler"); (21, "AtomicStorage"); (22, "Int16"); (23, "TessellationPointSize");
   (24, "GeometryPointSize"); (25, "ImageGatherExtended"); (27, "StorageImageMultisample");
   (28, "UniformBufferArrayDynamicIndexing"); (29, "SampledImageArrayDynamicIndexing");
   (30, "StorageBufferArrayDynamicIndexing"); (31, "StorageImageArrayDynamicIndexing"); (32, "ClipDistance");
   (33, "CullDistance"); (34, "ImageCubeArray"); (35, "SampleRateShading"); (36, "ImageRect"); (37, "SampledRect");
   (38, "GenericPointer"); (39, "Int8"); (40, "InputAttachment"); (41, "SparseResidency"); (42, "MinLod");
   (43, "Sampled1D"); (44, "Image1D"); (45, "SampledCubeArray"); (46, "SampledBuffer"); (47, "ImageBuffer");
   (48, "ImageMSArray"); (49, "StorageImageExtendedFormats"); (50, "ImageQuery"); (51, "DerivativeControl");
   (52, "InterpolationFunction"); (53, "TransformFeedback"); (54, "GeometryStreams");
   (55, "StorageImageReadWithoutFormat"); (56, "StorageImageWriteWithoutFormat"); (57, "MultiViewport")].

(** Masks: bit position and name. *)
Definition fp_fast_math_flags : names := [(0, "NotNaN"); (1, "NotInf"); (2, "NSZ"); (3, "AllowRecip"); (4, "Fast")].
Definition memory_access_flags : names := [(0, "Volatile"); (1, "Aligned"); (2, "Nontemporal")].
Definition function_control_flags : names := [(0, "Inline"); (1, "DontInline"); (2, "Pure"); (3, "Const")].
Definition selection_control_flags : names := [(0, "Flatten"); (1, "DontFlatten")].
Definition loop_control_flags : names := [(0, "Unroll"); (1, "DontUnroll"); (2, "DependencyInfinite")].

(** Names that the crate spells differently: the standard's and the crate's. *)
Definition respelled : list (string * string) :=
  [("TessellationControl", "TesselationControl"); ("TessellationEvaluation", "TesselationEvaluation");
   ("OutputVertices", "OutputVerticies"); ("PatchVertices", "PatchVerticies");
   ("FPRoundingMode", "FpRoundingMode"); ("FPFastMathMode", "FpFastMathMode")].

(** Kinds of operands. *)
Inductive kind : Type :=
| Id
| Number
| Quoted
| Bare (* the linkage name, which the crate prints without quotes *)
| Enum (table : names)
| Language
| Mask (table : names)
| LoopMask
| Mode
| Decor.

(** Operands of the operand-carrying enumerants, SPIR-V 3.6 and 3.20. *)
Definition mode_operands (n : N) : list kind :=
  match n with
  | 0 | 26 => [Number]
  | 17 | 18 => [Number; Number; Number]
  | 30 => [Id]
  | _ => []
  end.
Definition decoration_operands_kinds (n : N) : list kind :=
  match n with
  | 1 | 6 | 7 | 29 | 30 | 31 | 32 | 33 | 34 | 35 | 36 | 37 | 43 | 44 => [Number]
  | 11 => [Enum built_ins]
  | 38 => [Enum function_parameter_attributes]
  | 39 => [Enum fp_rounding_modes]
  | 40 => [Mask fp_fast_math_flags]
  | 41 => [Bare; Enum linkage_types]
  | _ => []
  end.

(** Where the result id stands among the operands of an instruction. *)
Definition result_position (opcode : N) : option nat :=
  if existsb (N.eqb opcode)
       [7; 11; 19; 20; 21; 22; 23; 24; 25; 26; 27; 28; 29; 30; 31; 32; 33; 34; 35; 37; 38; 248]
  then Some 0%nat
  else if existsb (N.eqb opcode) [0; 2; 3; 4; 5; 6; 10; 14; 15; 16; 17; 39; 56; 62; 71; 72; 246; 247; 249; 250; 253]
  then None
  else Some 1%nat.

(** The operands of an instruction except its result id, in order; the second component is the kind of any further
    operands.  Trailing operands may be missing. *)
Definition grammar (opcode : N) : list kind * option kind :=
  match opcode with
  | 0 | 19 | 20 | 26 | 34 | 35 | 37 | 56 | 248 | 253 => ([], None)
  | 1 | 27 | 29 | 55 | 249 => ([Id], None)
  | 2 | 4 | 7 | 10 | 11 | 31 => ([Quoted], None)
  | 3 => ([Language; Number; Id; Quoted], None)
  | 5 => ([Id; Quoted], None)
  | 6 => ([Id; Number; Quoted], None)
  | 12 => ([Id; Id], None)
  | 14 => ([Enum addressing_models; Enum memory_models], None)
  | 15 => ([Enum execution_models; Id; Quoted], Some Id)
  | 16 => ([Id; Mode], None)
  | 17 => ([Enum capabilities], None)
  | 21 => ([Number; Number], None)
  | 22 => ([Number], None)
  | 23 | 24 => ([Id; Number], None)
  | 25 => ([Id; Enum dims; Number; Number; Number; Number; Enum image_formats; Enum access_qualifiers], None)
  | 28 => ([Id; Id], None)
  | 30 => ([], Some Id)
  | 32 => ([Enum storage_classes; Id], None)
  | 33 => ([Id], Some Id)
  | 38 => ([Enum access_qualifiers], None)
  | 39 => ([Id; Enum storage_classes], None)
  | 43 => ([Id], Some Number)
  | 44 => ([Id], Some Id)
  | 54 => ([Id; Mask function_control_flags; Id], None)
  | 59 => ([Id; Enum storage_classes; Id], None)
  | 61 | 62 => ([Id; Id; Mask memory_access_flags], None)
  | 65 => ([Id; Id], Some Id)
  | 71 => ([Id; Decor], None)
  | 72 => ([Id; Number; Decor], None)
  | 112 | 124 => ([Id; Id], None)
  | 245 => ([Id], Some Id)
  | 246 => ([Id; Id; LoopMask], None)
  | 247 => ([Id; Mask selection_control_flags], None)
  | 250 => ([Id; Id; Id; Number; Number], None)
  | _ => ([Id; Id; Id], None)
  end.

(** The instructions of GLSL.std.450 that the crate knows. *)
Definition glsl_names : names := [(13, "Sin"); (14, "Cos")].
