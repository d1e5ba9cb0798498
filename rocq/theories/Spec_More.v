(** SPECIFICATION: the instructions of SPIR-V that the crate has structs and a text for but does not decode: their
    opcodes, their operands in the order of section 3.32 of the standard, and the kinds of the operands.  Written by
    hand from the standard; of the model only the data types are used. *)
From Verif Require Import Base Types MoreOps Spec_Tables Spec_Opcodes Spec_Wire Spec_Names Spec_Text.
Local Open Scope string_scope.

(** 3.12 and 3.13 *)
Definition sampler_addressing_modes : names :=
  [(0%N, "None"); (1%N, "ClampToEdge"); (2%N, "Clamp"); (3%N, "Repeat"); (4%N, "RepeatMirrored")].
Definition sampler_filter_modes : names := [(0%N, "Nearest"); (1%N, "Linear")].
Definition sampler_addressing_mode_number (x : SamplerAddressingMode) : N :=
  match x with
  | SamplerAddressingMode_None => 0 | SamplerAddressingMode_ClampToEdge => 1 | SamplerAddressingMode_Clamp => 2
  | SamplerAddressingMode_Repeat => 3 | SamplerAddressingMode_RepeatMirrored => 4
  end%N.
Definition sampler_filter_mode_number (x : SamplerFilterMode) : N :=
  match x with SamplerFilterMode_Nearest => 0 | SamplerFilterMode_Linear => 1 end%N.
(** OpConstantSampler: "Param is one of: 0: Non Normalized, 1: Normalized". *)
Definition sampler_param_number (x : SamplerParam) : N :=
  match x with SamplerParam_NonNormalized => 0 | SamplerParam_Normalized => 1 end%N.

Definition more_opcode (i : MoreOp) : N :=
  match i with
  | More_OpLine _ => 8
  | More_OpTypeReserveId _ => 36
  | More_OpConstantTrue _ => 41
  | More_OpConstantFalse _ => 42
  | More_OpConstantSampler _ => 45
  | More_OpConstantNull _ => 46
  | More_OpSpecConstantTrue _ => 48
  | More_OpSpecConstantFalse _ => 49
  | More_OpSpecConstant _ => 50
  | More_OpSpecConstantComposite _ => 51
  | More_OpFunctionCall _ => 57
  | More_OpImageTexelPointer _ => 60
  | More_OpCopyMemory _ => 63
  | More_OpCopyMemorySized _ => 64
  | More_OpInBoundsAccessChain _ => 66
  | More_OpPtrAccessChain _ => 67
  | More_OpArrayLength _ => 68
  | More_OpGenericPtrMemSemantics _ => 69
  | More_OpInBoundsPtrAccessChain _ => 70
  | More_OpDecorationGroup _ => 73
  | More_OpGroupDecorate _ => 74
  | More_OpVectorExtractDynamic _ => 77
  | More_OpVectorInsertDynamic _ => 78
  | More_OpVectorShuffle _ => 79
  | More_OpCompositeConstruct _ => 80
  | More_OpCompositeExtract _ => 81
  | More_OpCompositeInsert _ => 82
  | More_OpCopyObject _ => 83
  | More_OpTranspose _ => 84
  | More_OpSampledImage _ => 86
  | More_OpConvertFToU _ => 109
  | More_OpConvertFToS _ => 110
  | More_OpConvertSToF _ => 111
  | More_OpUConvert _ => 113
  | More_OpSConvert _ => 114
  | More_OpFConvert _ => 115
  | More_OpQuantizeToF16 _ => 116
  | More_OpConvertPtrToU _ => 117
  | More_OpSatConvertSToU _ => 118
  | More_OpSatConvertUToS _ => 119
  | More_OpConvertUToPtr _ => 120
  | More_OpPtrCastToGeneric _ => 121
  | More_OpGenericCastToPtr _ => 122
  | More_OpGenericCastToPtrExplicit _ => 123
  | More_OpSNegate _ => 126
  | More_OpFNegate _ => 127
  | More_OpVectorTimesScalar _ => 142
  | More_OpMatrixTimesScalar _ => 143
  | More_OpVectorTimesMatrix _ => 144
  | More_OpMatrixTimesVector _ => 145
  | More_OpMatrixTimesMatrix _ => 146
  | More_OpOuterProduct _ => 147
  | More_OpDot _ => 148
  | More_OpShiftRightLogical _ => 194
  | More_OpShiftRightArithmetic _ => 195
  | More_OpShiftLeftLogical _ => 196
  | More_OpNot _ => 200
  | More_OpNoLine _ => 317
  end%N.

Definition more_operands (i : MoreOp) : list operand :=
  match i with
  | More_OpLine op => num (OpLine_file op) ++ num (OpLine_line op) ++ num (OpLine_column op)
  | More_OpTypeReserveId op => num (OpTypeReserveId_result_id op)
  | More_OpConstantTrue op => num (OpConstantTrue_result_type op) ++ num (OpConstantTrue_result_id op)
  | More_OpConstantFalse op => num (OpConstantFalse_result_type op) ++ num (OpConstantFalse_result_id op)
  | More_OpConstantSampler op =>
      num (OpConstantSampler_result_type op) ++ num (OpConstantSampler_result_id op)
      ++ num (sampler_addressing_mode_number (OpConstantSampler_addressing_mode op)) ++ num (sampler_param_number (OpConstantSampler_param op)) ++ num (sampler_filter_mode_number (OpConstantSampler_filter_mode op))
  | More_OpConstantNull op => num (OpConstantNull_result_type op) ++ num (OpConstantNull_result_id op)
  | More_OpSpecConstantTrue op => num (OpSpecConstantTrue_result_type op) ++ num (OpSpecConstantTrue_result_id op)
  | More_OpSpecConstantFalse op =>
      num (OpSpecConstantFalse_result_type op) ++ num (OpSpecConstantFalse_result_id op)
  | More_OpSpecConstant op =>
      num (OpSpecConstant_result_type op) ++ num (OpSpecConstant_result_id op) ++ many num (OpSpecConstant_value op)
  | More_OpSpecConstantComposite op =>
      num (OpSpecConstantComposite_result_type op)
      ++ num (OpSpecConstantComposite_result_id op) ++ many num (OpSpecConstantComposite_constituents op)
  | More_OpFunctionCall op =>
      num (OpFunctionCall_result_type op) ++ num (OpFunctionCall_result_id op)
      ++ num (OpFunctionCall_function op) ++ many num (OpFunctionCall_arguments op)
  | More_OpImageTexelPointer op =>
      num (OpImageTexelPointer_result_type op) ++ num (OpImageTexelPointer_result_id op)
      ++ num (OpImageTexelPointer_image op) ++ num (OpImageTexelPointer_coordinate op) ++ num (OpImageTexelPointer_sample op)
  | More_OpCopyMemory op =>
      num (OpCopyMemory_target op) ++ num (OpCopyMemory_source op)
      ++ opt memory_access_operand (OpCopyMemory_memory_access op)
  | More_OpCopyMemorySized op =>
      num (OpCopyMemorySized_target op) ++ num (OpCopyMemorySized_source op)
      ++ num (OpCopyMemorySized_size op) ++ opt memory_access_operand (OpCopyMemorySized_memory_access op)
  | More_OpInBoundsAccessChain op =>
      num (OpInBoundsAccessChain_result_type op)
      ++ num (OpInBoundsAccessChain_result_id op) ++ num (OpInBoundsAccessChain_base op) ++ many num (OpInBoundsAccessChain_indexes op)
  | More_OpPtrAccessChain op =>
      num (OpPtrAccessChain_result_type op) ++ num (OpPtrAccessChain_result_id op)
      ++ num (OpPtrAccessChain_base op) ++ num (OpPtrAccessChain_element op) ++ many num (OpPtrAccessChain_indexes op)
  | More_OpArrayLength op =>
      num (OpArrayLength_result_type op) ++ num (OpArrayLength_result_id op)
      ++ num (OpArrayLength_structure op) ++ num (OpArrayLength_array_member op)
  | More_OpGenericPtrMemSemantics op =>
      num (OpGenericPtrMemSemantics_result_type op)
      ++ num (OpGenericPtrMemSemantics_result_id op) ++ num (OpGenericPtrMemSemantics_pointer op)
  | More_OpInBoundsPtrAccessChain op =>
      num (OpInBoundsPtrAccessChain_result_type op)
      ++ num (OpInBoundsPtrAccessChain_result_id op) ++ num (OpInBoundsPtrAccessChain_base op) ++ num (OpInBoundsPtrAccessChain_element op) ++ many num (OpInBoundsPtrAccessChain_indexes op)
  | More_OpDecorationGroup op => num (OpDecorationGroup_result_id op)
  | More_OpGroupDecorate op =>
      num (OpGroupDecorate_decoration_group op) ++ many num (OpGroupDecorate_targets op)
  | More_OpVectorExtractDynamic op =>
      num (OpVectorExtractDynamic_result_type op)
      ++ num (OpVectorExtractDynamic_result_id op) ++ num (OpVectorExtractDynamic_vector op) ++ num (OpVectorExtractDynamic_index op)
  | More_OpVectorInsertDynamic op =>
      num (OpVectorInsertDynamic_result_type op)
      ++ num (OpVectorInsertDynamic_result_id op) ++ num (OpVectorInsertDynamic_vector op) ++ num (OpVectorInsertDynamic_component op) ++ num (OpVectorInsertDynamic_index op)
  | More_OpVectorShuffle op =>
      num (OpVectorShuffle_result_type op) ++ num (OpVectorShuffle_result_id op)
      ++ num (OpVectorShuffle_operand1 op) ++ num (OpVectorShuffle_operand2 op) ++ many num (OpVectorShuffle_components op)
  | More_OpCompositeConstruct op =>
      num (OpCompositeConstruct_result_type op) ++ num (OpCompositeConstruct_result_id op)
      ++ many num (OpCompositeConstruct_constituents op)
  | More_OpCompositeExtract op =>
      num (OpCompositeExtract_result_type op) ++ num (OpCompositeExtract_result_id op)
      ++ num (OpCompositeExtract_composite op) ++ many num (OpCompositeExtract_indexes op)
  | More_OpCompositeInsert op =>
      num (OpCompositeInsert_result_type op) ++ num (OpCompositeInsert_result_id op)
      ++ num (OpCompositeInsert_object op) ++ num (OpCompositeInsert_composite op) ++ many num (OpCompositeInsert_indexes op)
  | More_OpCopyObject op =>
      num (OpCopyObject_result_type op) ++ num (OpCopyObject_result_id op) ++ num (OpCopyObject_operand op)
  | More_OpTranspose op =>
      num (OpTranspose_result_type op) ++ num (OpTranspose_result_id op) ++ num (OpTranspose_matrix op)
  | More_OpSampledImage op =>
      num (OpSampledImage_result_type op) ++ num (OpSampledImage_result_id op)
      ++ num (OpSampledImage_image op) ++ num (OpSampledImage_sampler op)
  | More_OpConvertFToU op =>
      num (OpConvertFToU_result_type op) ++ num (OpConvertFToU_result_id op) ++ num (OpConvertFToU_float_value op)
  | More_OpConvertFToS op =>
      num (OpConvertFToS_result_type op) ++ num (OpConvertFToS_result_id op) ++ num (OpConvertFToS_float_value op)
  | More_OpConvertSToF op =>
      num (OpConvertSToF_result_type op) ++ num (OpConvertSToF_result_id op) ++ num (OpConvertSToF_signed_value op)
  | More_OpUConvert op =>
      num (OpUConvert_result_type op) ++ num (OpUConvert_result_id op) ++ num (OpUConvert_unsigned_value op)
  | More_OpSConvert op =>
      num (OpSConvert_result_type op) ++ num (OpSConvert_result_id op) ++ num (OpSConvert_signed_value op)
  | More_OpFConvert op =>
      num (OpFConvert_result_type op) ++ num (OpFConvert_result_id op) ++ num (OpFConvert_float_value op)
  | More_OpQuantizeToF16 op =>
      num (OpQuantizeToF16_result_type op) ++ num (OpQuantizeToF16_result_id op) ++ num (OpQuantizeToF16_value op)
  | More_OpConvertPtrToU op =>
      num (OpConvertPtrToU_result_type op) ++ num (OpConvertPtrToU_result_id op) ++ num (OpConvertPtrToU_pointer op)
  | More_OpSatConvertSToU op =>
      num (OpSatConvertSToU_result_type op) ++ num (OpSatConvertSToU_result_id op)
      ++ num (OpSatConvertSToU_signed_value op)
  | More_OpSatConvertUToS op =>
      num (OpSatConvertUToS_result_type op) ++ num (OpSatConvertUToS_result_id op)
      ++ num (OpSatConvertUToS_unsigned_value op)
  | More_OpConvertUToPtr op =>
      num (OpConvertUToPtr_result_type op) ++ num (OpConvertUToPtr_result_id op)
      ++ num (OpConvertUToPtr_integer_value op)
  | More_OpPtrCastToGeneric op =>
      num (OpPtrCastToGeneric_result_type op) ++ num (OpPtrCastToGeneric_result_id op)
      ++ num (OpPtrCastToGeneric_pointer op)
  | More_OpGenericCastToPtr op =>
      num (OpGenericCastToPtr_result_type op) ++ num (OpGenericCastToPtr_result_id op)
      ++ num (OpGenericCastToPtr_pointer op)
  | More_OpGenericCastToPtrExplicit op =>
      num (OpGenericCastToPtrExplicit_result_type op)
      ++ num (OpGenericCastToPtrExplicit_result_id op) ++ num (OpGenericCastToPtrExplicit_pointer op) ++ num (storage_class_number (OpGenericCastToPtrExplicit_storage_class op))
  | More_OpSNegate op =>
      num (OpSNegate_result_type op) ++ num (OpSNegate_result_id op) ++ num (OpSNegate_operand op)
  | More_OpFNegate op =>
      num (OpFNegate_result_type op) ++ num (OpFNegate_result_id op) ++ num (OpFNegate_operand op)
  | More_OpVectorTimesScalar op =>
      num (OpVectorTimesScalar_result_type op) ++ num (OpVectorTimesScalar_result_id op)
      ++ num (OpVectorTimesScalar_vector op) ++ num (OpVectorTimesScalar_scalar op)
  | More_OpMatrixTimesScalar op =>
      num (OpMatrixTimesScalar_result_type op) ++ num (OpMatrixTimesScalar_result_id op)
      ++ num (OpMatrixTimesScalar_matrix op) ++ num (OpMatrixTimesScalar_scalar op)
  | More_OpVectorTimesMatrix op =>
      num (OpVectorTimesMatrix_result_type op) ++ num (OpVectorTimesMatrix_result_id op)
      ++ num (OpVectorTimesMatrix_vector op) ++ num (OpVectorTimesMatrix_matrix op)
  | More_OpMatrixTimesVector op =>
      num (OpMatrixTimesVector_result_type op) ++ num (OpMatrixTimesVector_result_id op)
      ++ num (OpMatrixTimesVector_matrix op) ++ num (OpMatrixTimesVector_vector op)
  | More_OpMatrixTimesMatrix op =>
      num (OpMatrixTimesMatrix_result_type op) ++ num (OpMatrixTimesMatrix_result_id op)
      ++ num (OpMatrixTimesMatrix_left_matrix op) ++ num (OpMatrixTimesMatrix_right_matrix op)
  | More_OpOuterProduct op =>
      num (OpOuterProduct_result_type op) ++ num (OpOuterProduct_result_id op)
      ++ num (OpOuterProduct_vector1 op) ++ num (OpOuterProduct_vector2 op)
  | More_OpDot op =>
      num (OpDot_result_type op) ++ num (OpDot_result_id op) ++ num (OpDot_vector1 op) ++ num (OpDot_vector2 op)
  | More_OpShiftRightLogical op =>
      num (OpShiftRightLogical_result_type op) ++ num (OpShiftRightLogical_result_id op)
      ++ num (OpShiftRightLogical_base op) ++ num (OpShiftRightLogical_shift op)
  | More_OpShiftRightArithmetic op =>
      num (OpShiftRightArithmetic_result_type op)
      ++ num (OpShiftRightArithmetic_result_id op) ++ num (OpShiftRightArithmetic_base op) ++ num (OpShiftRightArithmetic_shift op)
  | More_OpShiftLeftLogical op =>
      num (OpShiftLeftLogical_result_type op) ++ num (OpShiftLeftLogical_result_id op)
      ++ num (OpShiftLeftLogical_base op) ++ num (OpShiftLeftLogical_shift op)
  | More_OpNot op => num (OpNot_result_type op) ++ num (OpNot_result_id op) ++ num (OpNot_operand op)
  | More_OpNoLine _ => []
  end%list.

(** Where among the operands the result id is. *)
Definition more_result_position (opcode : N) : option nat :=
  match opcode with
  | 8%N | 317%N | 74%N | 63%N | 64%N => None
  | 73%N | 36%N => Some 0
  | _ => Some 1
  end.

(** The kinds of the operands other than the result id, in order; then that of any further ones. *)
Definition more_grammar (opcode : N) : list kind * option kind :=
  match opcode with
  | 8%N => ([Id; Number; Number], None)
  | 36%N | 73%N | 317%N => ([], None)
  | 41%N | 42%N | 46%N | 48%N | 49%N => ([Id], None)
  | 45%N => ([Id; Enum sampler_addressing_modes; Number; Enum sampler_filter_modes], None)
  | 50%N => ([Id], Some Number)
  | 51%N | 74%N | 80%N => ([Id], Some Id)
  | 57%N | 66%N => ([Id; Id], Some Id)
  | 60%N | 78%N => ([Id; Id; Id; Id], None)
  | 63%N => ([Id; Id; Mask memory_access_flags], None)
  | 64%N => ([Id; Id; Id; Mask memory_access_flags], None)
  | 67%N | 70%N => ([Id; Id; Id], Some Id)
  | 68%N => ([Id; Id; Number], None)
  | 69%N | 83%N | 84%N | 109%N | 110%N | 111%N | 113%N | 114%N | 115%N | 116%N | 117%N | 118%N | 119%N | 120%N | 121%N | 122%N | 126%N | 127%N | 200%N => ([Id; Id], None)
  | 77%N | 86%N | 142%N | 143%N | 144%N | 145%N | 146%N | 147%N | 148%N | 194%N | 195%N | 196%N => ([Id; Id; Id], None)
  | 79%N | 82%N => ([Id; Id; Id], Some Number)
  | 81%N => ([Id; Id], Some Number)
  | 123%N => ([Id; Id; Enum storage_classes], None)
  | _ => ([], None)
  end.

Definition more_result (i : MoreOp) : option N :=
  match more_result_position (more_opcode i) with
  | Some k => match nth_error (more_operands i) k with Some (OWord r) => Some r | _ => None end
  | None => None
  end.
Definition more_other_operands (i : MoreOp) : list operand :=
  match more_result_position (more_opcode i) with Some k => without k (more_operands i) | None => more_operands i end.

(** The first fifteen columns: the result id right-aligned to column 12 and an equals sign, or nothing. *)
Definition more_column (i : MoreOp) (column : string) : Prop :=
  String.length column = 15 /\
  match more_result i with
  | Some r => exists k, column = blanks k ++ "%" ++ decimal r ++ " = "
  | None => column = blanks 15
  end.

(** The line of an instruction, given the texts of the operands. *)
Definition more_line_with (i : MoreOp) (texts : list string) (line : string) : Prop :=
  exists column name, more_column i column /\ opcode_name (more_opcode i) = Some name
    /\ line = column ++ name ++ spaced texts.

(** The line the standard's operand kinds ask for. *)
Definition more_line (i : MoreOp) (line : string) : Prop :=
  let (ks, rest) := more_grammar (more_opcode i) in more_line_with i (render ks rest (more_other_operands i)) line.

Definition composite_construct (i : MoreOp) : Prop := more_opcode i = 80%N.

Definition more_result_fits (i : MoreOp) : Prop := forall r, more_result i = Some r -> word r.
