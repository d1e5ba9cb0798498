(* GENERATED by tools/gen.py from /repo; do not edit by hand. *)
From Verif Require Import Base Types DebugBase Debug MoreOps.
Local Open Scope string_scope.

(** derive(Debug) of the op structs of MoreOps. *)
Section DebugOps.
Context {E : Type}.
Local Notation dtree := (dtree E).

(* src/spv/types.rs:127-128 *)
Definition dbg_Line (x : Line) : dtree := DTuple "Line" [DNumber x].

(* src/spv/types.rs:139-140 *)
Definition dbg_Column (x : Column) : dtree := DTuple "Column" [DNumber x].

(* src/spv/types.rs:1035-1042 *)
Definition dbg_SamplerAddressingMode (x : SamplerAddressingMode) : dtree :=
  match x with
  | SamplerAddressingMode_None => DName "None"
  | SamplerAddressingMode_ClampToEdge => DName "ClampToEdge"
  | SamplerAddressingMode_Clamp => DName "Clamp"
  | SamplerAddressingMode_Repeat => DName "Repeat"
  | SamplerAddressingMode_RepeatMirrored => DName "RepeatMirrored"
  end.

(* src/spv/types.rs:1059-1063 *)
Definition dbg_SamplerParam (x : SamplerParam) : dtree :=
  match x with
  | SamplerParam_NonNormalized => DName "NonNormalized"
  | SamplerParam_Normalized => DName "Normalized"
  end.

(* src/spv/types.rs:1077-1081 *)
Definition dbg_SamplerFilterMode (x : SamplerFilterMode) : dtree :=
  match x with
  | SamplerFilterMode_Nearest => DName "Nearest"
  | SamplerFilterMode_Linear => DName "Linear"
  end.

(* src/spv/op.rs:75-80 *)
Definition dbg_OpLine (x : OpLine) : dtree :=
  DStruct "OpLine" [("file", dbg_OpId (OpLine_file x)); ("line", dbg_Line (OpLine_line x)); ("column", dbg_Column (OpLine_column x))].

(* src/spv/op.rs:84-85 *)
Definition dbg_OpNoLine (x : OpNoLine) : dtree :=
  DName "OpNoLine".

(* src/spv/op.rs:108-111 *)
Definition dbg_OpDecorationGroup (x : OpDecorationGroup) : dtree :=
  DStruct "OpDecorationGroup" [("result_id", dbg_ResultId (OpDecorationGroup_result_id x))].

(* src/spv/op.rs:115-119 *)
Definition dbg_OpGroupDecorate (x : OpGroupDecorate) : dtree :=
  DStruct "OpGroupDecorate" [("decoration_group", dbg_OpId (OpGroupDecorate_decoration_group x)); ("targets", (dbg_Vec dbg_OpId) (OpGroupDecorate_targets x))].

(* src/spv/op.rs:346-349 *)
Definition dbg_OpTypeReserveId (x : OpTypeReserveId) : dtree :=
  DStruct "OpTypeReserveId" [("result_id", dbg_ResultId (OpTypeReserveId_result_id x))].

(* src/spv/op.rs:378-382 *)
Definition dbg_OpConstantTrue (x : OpConstantTrue) : dtree :=
  DStruct "OpConstantTrue" [("result_type", dbg_OpId (OpConstantTrue_result_type x)); ("result_id", dbg_ResultId (OpConstantTrue_result_id x))].

(* src/spv/op.rs:386-390 *)
Definition dbg_OpConstantFalse (x : OpConstantFalse) : dtree :=
  DStruct "OpConstantFalse" [("result_type", dbg_OpId (OpConstantFalse_result_type x)); ("result_id", dbg_ResultId (OpConstantFalse_result_id x))].

(* src/spv/op.rs:412-419 *)
Definition dbg_OpConstantSampler (x : OpConstantSampler) : dtree :=
  DStruct "OpConstantSampler" [("result_type", dbg_OpId (OpConstantSampler_result_type x)); ("result_id", dbg_ResultId (OpConstantSampler_result_id x)); ("addressing_mode", dbg_SamplerAddressingMode (OpConstantSampler_addressing_mode x)); ("param", dbg_SamplerParam (OpConstantSampler_param x)); ("filter_mode", dbg_SamplerFilterMode (OpConstantSampler_filter_mode x))].

(* src/spv/op.rs:423-427 *)
Definition dbg_OpConstantNull (x : OpConstantNull) : dtree :=
  DStruct "OpConstantNull" [("result_type", dbg_OpId (OpConstantNull_result_type x)); ("result_id", dbg_ResultId (OpConstantNull_result_id x))].

(* src/spv/op.rs:431-435 *)
Definition dbg_OpSpecConstantTrue (x : OpSpecConstantTrue) : dtree :=
  DStruct "OpSpecConstantTrue" [("result_type", dbg_OpId (OpSpecConstantTrue_result_type x)); ("result_id", dbg_ResultId (OpSpecConstantTrue_result_id x))].

(* src/spv/op.rs:439-443 *)
Definition dbg_OpSpecConstantFalse (x : OpSpecConstantFalse) : dtree :=
  DStruct "OpSpecConstantFalse" [("result_type", dbg_OpId (OpSpecConstantFalse_result_type x)); ("result_id", dbg_ResultId (OpSpecConstantFalse_result_id x))].

(* src/spv/op.rs:447-452 *)
Definition dbg_OpSpecConstant (x : OpSpecConstant) : dtree :=
  DStruct "OpSpecConstant" [("result_type", dbg_OpId (OpSpecConstant_result_type x)); ("result_id", dbg_ResultId (OpSpecConstant_result_id x)); ("value", (dbg_Vec DNumber) (OpSpecConstant_value x))].

(* src/spv/op.rs:456-461 *)
Definition dbg_OpSpecConstantComposite (x : OpSpecConstantComposite) : dtree :=
  DStruct "OpSpecConstantComposite" [("result_type", dbg_OpId (OpSpecConstantComposite_result_type x)); ("result_id", dbg_ResultId (OpSpecConstantComposite_result_id x)); ("constituents", (dbg_Vec dbg_OpId) (OpSpecConstantComposite_constituents x))].

(* src/spv/op.rs:477-484 *)
Definition dbg_OpImageTexelPointer (x : OpImageTexelPointer) : dtree :=
  DStruct "OpImageTexelPointer" [("result_type", dbg_OpId (OpImageTexelPointer_result_type x)); ("result_id", dbg_ResultId (OpImageTexelPointer_result_id x)); ("image", dbg_OpId (OpImageTexelPointer_image x)); ("coordinate", dbg_OpId (OpImageTexelPointer_coordinate x)); ("sample", dbg_OpId (OpImageTexelPointer_sample x))].

(* src/spv/op.rs:507-512 *)
Definition dbg_OpCopyMemory (x : OpCopyMemory) : dtree :=
  DStruct "OpCopyMemory" [("target", dbg_OpId (OpCopyMemory_target x)); ("source", dbg_OpId (OpCopyMemory_source x)); ("memory_access", (dbg_Option dbg_MemoryAccess) (OpCopyMemory_memory_access x))].

(* src/spv/op.rs:516-522 *)
Definition dbg_OpCopyMemorySized (x : OpCopyMemorySized) : dtree :=
  DStruct "OpCopyMemorySized" [("target", dbg_OpId (OpCopyMemorySized_target x)); ("source", dbg_OpId (OpCopyMemorySized_source x)); ("size", dbg_OpId (OpCopyMemorySized_size x)); ("memory_access", (dbg_Option dbg_MemoryAccess) (OpCopyMemorySized_memory_access x))].

(* src/spv/op.rs:536-542 *)
Definition dbg_OpInBoundsAccessChain (x : OpInBoundsAccessChain) : dtree :=
  DStruct "OpInBoundsAccessChain" [("result_type", dbg_OpId (OpInBoundsAccessChain_result_type x)); ("result_id", dbg_ResultId (OpInBoundsAccessChain_result_id x)); ("base", dbg_OpId (OpInBoundsAccessChain_base x)); ("indexes", (dbg_Vec dbg_OpId) (OpInBoundsAccessChain_indexes x))].

(* src/spv/op.rs:546-553 *)
Definition dbg_OpPtrAccessChain (x : OpPtrAccessChain) : dtree :=
  DStruct "OpPtrAccessChain" [("result_type", dbg_OpId (OpPtrAccessChain_result_type x)); ("result_id", dbg_ResultId (OpPtrAccessChain_result_id x)); ("base", dbg_OpId (OpPtrAccessChain_base x)); ("element", dbg_OpId (OpPtrAccessChain_element x)); ("indexes", (dbg_Vec dbg_OpId) (OpPtrAccessChain_indexes x))].

(* src/spv/op.rs:557-563 *)
Definition dbg_OpArrayLength (x : OpArrayLength) : dtree :=
  DStruct "OpArrayLength" [("result_type", dbg_OpId (OpArrayLength_result_type x)); ("result_id", dbg_ResultId (OpArrayLength_result_id x)); ("structure", dbg_OpId (OpArrayLength_structure x)); ("array_member", dbg_MemberIndex (OpArrayLength_array_member x))].

(* src/spv/op.rs:567-572 *)
Definition dbg_OpGenericPtrMemSemantics (x : OpGenericPtrMemSemantics) : dtree :=
  DStruct "OpGenericPtrMemSemantics" [("result_type", dbg_OpId (OpGenericPtrMemSemantics_result_type x)); ("result_id", dbg_ResultId (OpGenericPtrMemSemantics_result_id x)); ("pointer", dbg_OpId (OpGenericPtrMemSemantics_pointer x))].

(* src/spv/op.rs:576-583 *)
Definition dbg_OpInBoundsPtrAccessChain (x : OpInBoundsPtrAccessChain) : dtree :=
  DStruct "OpInBoundsPtrAccessChain" [("result_type", dbg_OpId (OpInBoundsPtrAccessChain_result_type x)); ("result_id", dbg_ResultId (OpInBoundsPtrAccessChain_result_id x)); ("base", dbg_OpId (OpInBoundsPtrAccessChain_base x)); ("element", dbg_OpId (OpInBoundsPtrAccessChain_element x)); ("indexes", (dbg_Vec dbg_OpId) (OpInBoundsPtrAccessChain_indexes x))].

(* src/spv/op.rs:612-618 *)
Definition dbg_OpFunctionCall (x : OpFunctionCall) : dtree :=
  DStruct "OpFunctionCall" [("result_type", dbg_OpId (OpFunctionCall_result_type x)); ("result_id", dbg_ResultId (OpFunctionCall_result_id x)); ("function", dbg_OpId (OpFunctionCall_function x)); ("arguments", (dbg_Vec dbg_OpId) (OpFunctionCall_arguments x))].

(* src/spv/op.rs:624-630 *)
Definition dbg_OpSampledImage (x : OpSampledImage) : dtree :=
  DStruct "OpSampledImage" [("result_type", dbg_OpId (OpSampledImage_result_type x)); ("result_id", dbg_ResultId (OpSampledImage_result_id x)); ("image", dbg_OpId (OpSampledImage_image x)); ("sampler", dbg_OpId (OpSampledImage_sampler x))].

(* src/spv/op.rs:831-836 *)
Definition dbg_OpConvertFToU (x : OpConvertFToU) : dtree :=
  DStruct "OpConvertFToU" [("result_type", dbg_OpId (OpConvertFToU_result_type x)); ("result_id", dbg_ResultId (OpConvertFToU_result_id x)); ("float_value", dbg_OpId (OpConvertFToU_float_value x))].

(* src/spv/op.rs:840-845 *)
Definition dbg_OpConvertFToS (x : OpConvertFToS) : dtree :=
  DStruct "OpConvertFToS" [("result_type", dbg_OpId (OpConvertFToS_result_type x)); ("result_id", dbg_ResultId (OpConvertFToS_result_id x)); ("float_value", dbg_OpId (OpConvertFToS_float_value x))].

(* src/spv/op.rs:849-854 *)
Definition dbg_OpConvertSToF (x : OpConvertSToF) : dtree :=
  DStruct "OpConvertSToF" [("result_type", dbg_OpId (OpConvertSToF_result_type x)); ("result_id", dbg_ResultId (OpConvertSToF_result_id x)); ("signed_value", dbg_OpId (OpConvertSToF_signed_value x))].

(* src/spv/op.rs:867-872 *)
Definition dbg_OpUConvert (x : OpUConvert) : dtree :=
  DStruct "OpUConvert" [("result_type", dbg_OpId (OpUConvert_result_type x)); ("result_id", dbg_ResultId (OpUConvert_result_id x)); ("unsigned_value", dbg_OpId (OpUConvert_unsigned_value x))].

(* src/spv/op.rs:876-881 *)
Definition dbg_OpSConvert (x : OpSConvert) : dtree :=
  DStruct "OpSConvert" [("result_type", dbg_OpId (OpSConvert_result_type x)); ("result_id", dbg_ResultId (OpSConvert_result_id x)); ("signed_value", dbg_OpId (OpSConvert_signed_value x))].

(* src/spv/op.rs:885-890 *)
Definition dbg_OpFConvert (x : OpFConvert) : dtree :=
  DStruct "OpFConvert" [("result_type", dbg_OpId (OpFConvert_result_type x)); ("result_id", dbg_ResultId (OpFConvert_result_id x)); ("float_value", dbg_OpId (OpFConvert_float_value x))].

(* src/spv/op.rs:894-899 *)
Definition dbg_OpQuantizeToF16 (x : OpQuantizeToF16) : dtree :=
  DStruct "OpQuantizeToF16" [("result_type", dbg_OpId (OpQuantizeToF16_result_type x)); ("result_id", dbg_ResultId (OpQuantizeToF16_result_id x)); ("value", dbg_OpId (OpQuantizeToF16_value x))].

(* src/spv/op.rs:903-908 *)
Definition dbg_OpConvertPtrToU (x : OpConvertPtrToU) : dtree :=
  DStruct "OpConvertPtrToU" [("result_type", dbg_OpId (OpConvertPtrToU_result_type x)); ("result_id", dbg_ResultId (OpConvertPtrToU_result_id x)); ("pointer", dbg_OpId (OpConvertPtrToU_pointer x))].

(* src/spv/op.rs:912-917 *)
Definition dbg_OpSatConvertSToU (x : OpSatConvertSToU) : dtree :=
  DStruct "OpSatConvertSToU" [("result_type", dbg_OpId (OpSatConvertSToU_result_type x)); ("result_id", dbg_ResultId (OpSatConvertSToU_result_id x)); ("signed_value", dbg_OpId (OpSatConvertSToU_signed_value x))].

(* src/spv/op.rs:921-926 *)
Definition dbg_OpSatConvertUToS (x : OpSatConvertUToS) : dtree :=
  DStruct "OpSatConvertUToS" [("result_type", dbg_OpId (OpSatConvertUToS_result_type x)); ("result_id", dbg_ResultId (OpSatConvertUToS_result_id x)); ("unsigned_value", dbg_OpId (OpSatConvertUToS_unsigned_value x))].

(* src/spv/op.rs:930-935 *)
Definition dbg_OpConvertUToPtr (x : OpConvertUToPtr) : dtree :=
  DStruct "OpConvertUToPtr" [("result_type", dbg_OpId (OpConvertUToPtr_result_type x)); ("result_id", dbg_ResultId (OpConvertUToPtr_result_id x)); ("integer_value", dbg_OpId (OpConvertUToPtr_integer_value x))].

(* src/spv/op.rs:939-944 *)
Definition dbg_OpPtrCastToGeneric (x : OpPtrCastToGeneric) : dtree :=
  DStruct "OpPtrCastToGeneric" [("result_type", dbg_OpId (OpPtrCastToGeneric_result_type x)); ("result_id", dbg_ResultId (OpPtrCastToGeneric_result_id x)); ("pointer", dbg_OpId (OpPtrCastToGeneric_pointer x))].

(* src/spv/op.rs:948-953 *)
Definition dbg_OpGenericCastToPtr (x : OpGenericCastToPtr) : dtree :=
  DStruct "OpGenericCastToPtr" [("result_type", dbg_OpId (OpGenericCastToPtr_result_type x)); ("result_id", dbg_ResultId (OpGenericCastToPtr_result_id x)); ("pointer", dbg_OpId (OpGenericCastToPtr_pointer x))].

(* src/spv/op.rs:957-963 *)
Definition dbg_OpGenericCastToPtrExplicit (x : OpGenericCastToPtrExplicit) : dtree :=
  DStruct "OpGenericCastToPtrExplicit" [("result_type", dbg_OpId (OpGenericCastToPtrExplicit_result_type x)); ("result_id", dbg_ResultId (OpGenericCastToPtrExplicit_result_id x)); ("pointer", dbg_OpId (OpGenericCastToPtrExplicit_pointer x)); ("storage_class", dbg_StorageClass (OpGenericCastToPtrExplicit_storage_class x))].

(* src/spv/op.rs:978-984 *)
Definition dbg_OpVectorExtractDynamic (x : OpVectorExtractDynamic) : dtree :=
  DStruct "OpVectorExtractDynamic" [("result_type", dbg_OpId (OpVectorExtractDynamic_result_type x)); ("result_id", dbg_ResultId (OpVectorExtractDynamic_result_id x)); ("vector", dbg_OpId (OpVectorExtractDynamic_vector x)); ("index", dbg_OpId (OpVectorExtractDynamic_index x))].

(* src/spv/op.rs:988-995 *)
Definition dbg_OpVectorInsertDynamic (x : OpVectorInsertDynamic) : dtree :=
  DStruct "OpVectorInsertDynamic" [("result_type", dbg_OpId (OpVectorInsertDynamic_result_type x)); ("result_id", dbg_ResultId (OpVectorInsertDynamic_result_id x)); ("vector", dbg_OpId (OpVectorInsertDynamic_vector x)); ("component", dbg_OpId (OpVectorInsertDynamic_component x)); ("index", dbg_OpId (OpVectorInsertDynamic_index x))].

(* src/spv/op.rs:999-1006 *)
Definition dbg_OpVectorShuffle (x : OpVectorShuffle) : dtree :=
  DStruct "OpVectorShuffle" [("result_type", dbg_OpId (OpVectorShuffle_result_type x)); ("result_id", dbg_ResultId (OpVectorShuffle_result_id x)); ("operand1", dbg_OpId (OpVectorShuffle_operand1 x)); ("operand2", dbg_OpId (OpVectorShuffle_operand2 x)); ("components", (dbg_Vec dbg_MemberIndex) (OpVectorShuffle_components x))].

(* src/spv/op.rs:1010-1015 *)
Definition dbg_OpCompositeConstruct (x : OpCompositeConstruct) : dtree :=
  DStruct "OpCompositeConstruct" [("result_type", dbg_OpId (OpCompositeConstruct_result_type x)); ("result_id", dbg_ResultId (OpCompositeConstruct_result_id x)); ("constituents", (dbg_Vec dbg_MemberIndex) (OpCompositeConstruct_constituents x))].

(* src/spv/op.rs:1019-1025 *)
Definition dbg_OpCompositeExtract (x : OpCompositeExtract) : dtree :=
  DStruct "OpCompositeExtract" [("result_type", dbg_OpId (OpCompositeExtract_result_type x)); ("result_id", dbg_ResultId (OpCompositeExtract_result_id x)); ("composite", dbg_OpId (OpCompositeExtract_composite x)); ("indexes", (dbg_Vec dbg_MemberIndex) (OpCompositeExtract_indexes x))].

(* src/spv/op.rs:1029-1036 *)
Definition dbg_OpCompositeInsert (x : OpCompositeInsert) : dtree :=
  DStruct "OpCompositeInsert" [("result_type", dbg_OpId (OpCompositeInsert_result_type x)); ("result_id", dbg_ResultId (OpCompositeInsert_result_id x)); ("object", dbg_OpId (OpCompositeInsert_object x)); ("composite", dbg_OpId (OpCompositeInsert_composite x)); ("indexes", (dbg_Vec dbg_MemberIndex) (OpCompositeInsert_indexes x))].

(* src/spv/op.rs:1040-1045 *)
Definition dbg_OpCopyObject (x : OpCopyObject) : dtree :=
  DStruct "OpCopyObject" [("result_type", dbg_OpId (OpCopyObject_result_type x)); ("result_id", dbg_ResultId (OpCopyObject_result_id x)); ("operand", dbg_OpId (OpCopyObject_operand x))].

(* src/spv/op.rs:1049-1054 *)
Definition dbg_OpTranspose (x : OpTranspose) : dtree :=
  DStruct "OpTranspose" [("result_type", dbg_OpId (OpTranspose_result_type x)); ("result_id", dbg_ResultId (OpTranspose_result_id x)); ("matrix", dbg_OpId (OpTranspose_matrix x))].

(* src/spv/op.rs:1060-1065 *)
Definition dbg_OpSNegate (x : OpSNegate) : dtree :=
  DStruct "OpSNegate" [("result_type", dbg_OpId (OpSNegate_result_type x)); ("result_id", dbg_ResultId (OpSNegate_result_id x)); ("operand", dbg_OpId (OpSNegate_operand x))].

(* src/spv/op.rs:1069-1074 *)
Definition dbg_OpFNegate (x : OpFNegate) : dtree :=
  DStruct "OpFNegate" [("result_type", dbg_OpId (OpFNegate_result_type x)); ("result_id", dbg_ResultId (OpFNegate_result_id x)); ("operand", dbg_OpId (OpFNegate_operand x))].

(* src/spv/op.rs:1218-1224 *)
Definition dbg_OpVectorTimesScalar (x : OpVectorTimesScalar) : dtree :=
  DStruct "OpVectorTimesScalar" [("result_type", dbg_OpId (OpVectorTimesScalar_result_type x)); ("result_id", dbg_ResultId (OpVectorTimesScalar_result_id x)); ("vector", dbg_OpId (OpVectorTimesScalar_vector x)); ("scalar", dbg_OpId (OpVectorTimesScalar_scalar x))].

(* src/spv/op.rs:1228-1234 *)
Definition dbg_OpMatrixTimesScalar (x : OpMatrixTimesScalar) : dtree :=
  DStruct "OpMatrixTimesScalar" [("result_type", dbg_OpId (OpMatrixTimesScalar_result_type x)); ("result_id", dbg_ResultId (OpMatrixTimesScalar_result_id x)); ("matrix", dbg_OpId (OpMatrixTimesScalar_matrix x)); ("scalar", dbg_OpId (OpMatrixTimesScalar_scalar x))].

(* src/spv/op.rs:1238-1244 *)
Definition dbg_OpVectorTimesMatrix (x : OpVectorTimesMatrix) : dtree :=
  DStruct "OpVectorTimesMatrix" [("result_type", dbg_OpId (OpVectorTimesMatrix_result_type x)); ("result_id", dbg_ResultId (OpVectorTimesMatrix_result_id x)); ("vector", dbg_OpId (OpVectorTimesMatrix_vector x)); ("matrix", dbg_OpId (OpVectorTimesMatrix_matrix x))].

(* src/spv/op.rs:1248-1254 *)
Definition dbg_OpMatrixTimesVector (x : OpMatrixTimesVector) : dtree :=
  DStruct "OpMatrixTimesVector" [("result_type", dbg_OpId (OpMatrixTimesVector_result_type x)); ("result_id", dbg_ResultId (OpMatrixTimesVector_result_id x)); ("matrix", dbg_OpId (OpMatrixTimesVector_matrix x)); ("vector", dbg_OpId (OpMatrixTimesVector_vector x))].

(* src/spv/op.rs:1258-1264 *)
Definition dbg_OpMatrixTimesMatrix (x : OpMatrixTimesMatrix) : dtree :=
  DStruct "OpMatrixTimesMatrix" [("result_type", dbg_OpId (OpMatrixTimesMatrix_result_type x)); ("result_id", dbg_ResultId (OpMatrixTimesMatrix_result_id x)); ("left_matrix", dbg_OpId (OpMatrixTimesMatrix_left_matrix x)); ("right_matrix", dbg_OpId (OpMatrixTimesMatrix_right_matrix x))].

(* src/spv/op.rs:1268-1274 *)
Definition dbg_OpOuterProduct (x : OpOuterProduct) : dtree :=
  DStruct "OpOuterProduct" [("result_type", dbg_OpId (OpOuterProduct_result_type x)); ("result_id", dbg_ResultId (OpOuterProduct_result_id x)); ("vector1", dbg_OpId (OpOuterProduct_vector1 x)); ("vector2", dbg_OpId (OpOuterProduct_vector2 x))].

(* src/spv/op.rs:1278-1284 *)
Definition dbg_OpDot (x : OpDot) : dtree :=
  DStruct "OpDot" [("result_type", dbg_OpId (OpDot_result_type x)); ("result_id", dbg_ResultId (OpDot_result_id x)); ("vector1", dbg_OpId (OpDot_vector1 x)); ("vector2", dbg_OpId (OpDot_vector2 x))].

(* src/spv/op.rs:1330-1336 *)
Definition dbg_OpShiftRightLogical (x : OpShiftRightLogical) : dtree :=
  DStruct "OpShiftRightLogical" [("result_type", dbg_OpId (OpShiftRightLogical_result_type x)); ("result_id", dbg_ResultId (OpShiftRightLogical_result_id x)); ("base", dbg_OpId (OpShiftRightLogical_base x)); ("shift", dbg_OpId (OpShiftRightLogical_shift x))].

(* src/spv/op.rs:1340-1346 *)
Definition dbg_OpShiftRightArithmetic (x : OpShiftRightArithmetic) : dtree :=
  DStruct "OpShiftRightArithmetic" [("result_type", dbg_OpId (OpShiftRightArithmetic_result_type x)); ("result_id", dbg_ResultId (OpShiftRightArithmetic_result_id x)); ("base", dbg_OpId (OpShiftRightArithmetic_base x)); ("shift", dbg_OpId (OpShiftRightArithmetic_shift x))].

(* src/spv/op.rs:1350-1356 *)
Definition dbg_OpShiftLeftLogical (x : OpShiftLeftLogical) : dtree :=
  DStruct "OpShiftLeftLogical" [("result_type", dbg_OpId (OpShiftLeftLogical_result_type x)); ("result_id", dbg_ResultId (OpShiftLeftLogical_result_id x)); ("base", dbg_OpId (OpShiftLeftLogical_base x)); ("shift", dbg_OpId (OpShiftLeftLogical_shift x))].

(* src/spv/op.rs:1390-1395 *)
Definition dbg_OpNot (x : OpNot) : dtree :=
  DStruct "OpNot" [("result_type", dbg_OpId (OpNot_result_type x)); ("result_id", dbg_ResultId (OpNot_result_id x)); ("operand", dbg_OpId (OpNot_operand x))].

(* src/spv/op.rs: which struct decides *)
Definition dbg_MoreOp (x : MoreOp) : dtree :=
  match x with
  | More_OpLine op => dbg_OpLine op
  | More_OpNoLine op => dbg_OpNoLine op
  | More_OpDecorationGroup op => dbg_OpDecorationGroup op
  | More_OpGroupDecorate op => dbg_OpGroupDecorate op
  | More_OpTypeReserveId op => dbg_OpTypeReserveId op
  | More_OpConstantTrue op => dbg_OpConstantTrue op
  | More_OpConstantFalse op => dbg_OpConstantFalse op
  | More_OpConstantSampler op => dbg_OpConstantSampler op
  | More_OpConstantNull op => dbg_OpConstantNull op
  | More_OpSpecConstantTrue op => dbg_OpSpecConstantTrue op
  | More_OpSpecConstantFalse op => dbg_OpSpecConstantFalse op
  | More_OpSpecConstant op => dbg_OpSpecConstant op
  | More_OpSpecConstantComposite op => dbg_OpSpecConstantComposite op
  | More_OpImageTexelPointer op => dbg_OpImageTexelPointer op
  | More_OpCopyMemory op => dbg_OpCopyMemory op
  | More_OpCopyMemorySized op => dbg_OpCopyMemorySized op
  | More_OpInBoundsAccessChain op => dbg_OpInBoundsAccessChain op
  | More_OpPtrAccessChain op => dbg_OpPtrAccessChain op
  | More_OpArrayLength op => dbg_OpArrayLength op
  | More_OpGenericPtrMemSemantics op => dbg_OpGenericPtrMemSemantics op
  | More_OpInBoundsPtrAccessChain op => dbg_OpInBoundsPtrAccessChain op
  | More_OpFunctionCall op => dbg_OpFunctionCall op
  | More_OpSampledImage op => dbg_OpSampledImage op
  | More_OpConvertFToU op => dbg_OpConvertFToU op
  | More_OpConvertFToS op => dbg_OpConvertFToS op
  | More_OpConvertSToF op => dbg_OpConvertSToF op
  | More_OpUConvert op => dbg_OpUConvert op
  | More_OpSConvert op => dbg_OpSConvert op
  | More_OpFConvert op => dbg_OpFConvert op
  | More_OpQuantizeToF16 op => dbg_OpQuantizeToF16 op
  | More_OpConvertPtrToU op => dbg_OpConvertPtrToU op
  | More_OpSatConvertSToU op => dbg_OpSatConvertSToU op
  | More_OpSatConvertUToS op => dbg_OpSatConvertUToS op
  | More_OpConvertUToPtr op => dbg_OpConvertUToPtr op
  | More_OpPtrCastToGeneric op => dbg_OpPtrCastToGeneric op
  | More_OpGenericCastToPtr op => dbg_OpGenericCastToPtr op
  | More_OpGenericCastToPtrExplicit op => dbg_OpGenericCastToPtrExplicit op
  | More_OpVectorExtractDynamic op => dbg_OpVectorExtractDynamic op
  | More_OpVectorInsertDynamic op => dbg_OpVectorInsertDynamic op
  | More_OpVectorShuffle op => dbg_OpVectorShuffle op
  | More_OpCompositeConstruct op => dbg_OpCompositeConstruct op
  | More_OpCompositeExtract op => dbg_OpCompositeExtract op
  | More_OpCompositeInsert op => dbg_OpCompositeInsert op
  | More_OpCopyObject op => dbg_OpCopyObject op
  | More_OpTranspose op => dbg_OpTranspose op
  | More_OpSNegate op => dbg_OpSNegate op
  | More_OpFNegate op => dbg_OpFNegate op
  | More_OpVectorTimesScalar op => dbg_OpVectorTimesScalar op
  | More_OpMatrixTimesScalar op => dbg_OpMatrixTimesScalar op
  | More_OpVectorTimesMatrix op => dbg_OpVectorTimesMatrix op
  | More_OpMatrixTimesVector op => dbg_OpMatrixTimesVector op
  | More_OpMatrixTimesMatrix op => dbg_OpMatrixTimesMatrix op
  | More_OpOuterProduct op => dbg_OpOuterProduct op
  | More_OpDot op => dbg_OpDot op
  | More_OpShiftRightLogical op => dbg_OpShiftRightLogical op
  | More_OpShiftRightArithmetic op => dbg_OpShiftRightArithmetic op
  | More_OpShiftLeftLogical op => dbg_OpShiftLeftLogical op
  | More_OpNot op => dbg_OpNot op
  end.
End DebugOps.
