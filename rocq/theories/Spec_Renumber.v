(** SPECIFICATION: giving other numbers to the ids of a module, C136. *)
From Verif Require Import Base Types Ops Groups ReadErr Reader ExtSet Glsl450 Validate Spec_Wire Spec_Operands Spec_Layout.

(** The same instruction with [f n] for each id [n]; [g] does this to extended instructions. Ids are the operands that the standard calls ids (OpId and ResultId in src/spv/op.rs); numbers, widths, indices, constants and names stay. *)
Definition renumber_mode (f : N -> N) (x : ExecutionMode) : ExecutionMode :=
  match x with ExecutionMode_VecTypeHint id => ExecutionMode_VecTypeHint (f id) | _ => x end.
Definition renumber_phi (f : N -> N) (x : PhiArg) : PhiArg := Build_PhiArg (f (PhiArg_variable x)) (f (PhiArg_parent x)).
Definition renumber {E} (f : N -> N) (g : E -> E) (i : Core E) : Core E :=
  match i with
  | Core_OpNop x => Core_OpNop x
  | Core_OpUndef (Build_OpUndef result_type result_id) => Core_OpUndef (Build_OpUndef (f result_type) (f result_id))
  | Core_OpSourceContinued x => Core_OpSourceContinued x
  | Core_OpSource (Build_OpSource language version file source) => Core_OpSource (Build_OpSource language version (option_map f file) source)
  | Core_OpSourceExtension x => Core_OpSourceExtension x
  | Core_OpName (Build_OpName target name) => Core_OpName (Build_OpName (f target) name)
  | Core_OpMemberName (Build_OpMemberName struct_type member name) => Core_OpMemberName (Build_OpMemberName (f struct_type) member name)
  | Core_OpString (Build_OpString result_id string) => Core_OpString (Build_OpString (f result_id) string)
  | Core_OpExtension x => Core_OpExtension x
  | Core_OpExtInstImport (Build_OpExtInstImport result_id name) => Core_OpExtInstImport (Build_OpExtInstImport (f result_id) name)
  | Core_OpExtInst (Build_OpExtInst type result set_id e) => Core_OpExtInst (Build_OpExtInst (f type) (f result) (f set_id) (g e))
  | Core_OpMemoryModel x => Core_OpMemoryModel x
  | Core_OpEntryPoint (Build_OpEntryPoint execution_model entry_point name interface) => Core_OpEntryPoint (Build_OpEntryPoint execution_model (f entry_point) name (map f interface))
  | Core_OpExecutionMode (Build_OpExecutionMode entry_point mode) => Core_OpExecutionMode (Build_OpExecutionMode (f entry_point) (renumber_mode f mode))
  | Core_OpCapability x => Core_OpCapability x
  | Core_OpTypeVoid (Build_OpTypeVoid result_id) => Core_OpTypeVoid (Build_OpTypeVoid (f result_id))
  | Core_OpTypeBool (Build_OpTypeBool result_id) => Core_OpTypeBool (Build_OpTypeBool (f result_id))
  | Core_OpTypeInt (Build_OpTypeInt result_id width signedness) => Core_OpTypeInt (Build_OpTypeInt (f result_id) width signedness)
  | Core_OpTypeFloat (Build_OpTypeFloat result_id width) => Core_OpTypeFloat (Build_OpTypeFloat (f result_id) width)
  | Core_OpTypeVector (Build_OpTypeVector result_id component_type component_count) => Core_OpTypeVector (Build_OpTypeVector (f result_id) (f component_type) component_count)
  | Core_OpTypeMatrix (Build_OpTypeMatrix result_id column_type column_count) => Core_OpTypeMatrix (Build_OpTypeMatrix (f result_id) (f column_type) column_count)
  | Core_OpTypeImage (Build_OpTypeImage result_id sampled_type dim depth arrayed ms sampled format access_qualifier) => Core_OpTypeImage (Build_OpTypeImage (f result_id) (f sampled_type) dim depth arrayed ms sampled format access_qualifier)
  | Core_OpTypeSampler (Build_OpTypeSampler result_id) => Core_OpTypeSampler (Build_OpTypeSampler (f result_id))
  | Core_OpTypeSampledImage (Build_OpTypeSampledImage result_id image_type) => Core_OpTypeSampledImage (Build_OpTypeSampledImage (f result_id) (f image_type))
  | Core_OpTypeArray (Build_OpTypeArray result_id element_type length_) => Core_OpTypeArray (Build_OpTypeArray (f result_id) (f element_type) (f length_))
  | Core_OpTypeRuntimeArray (Build_OpTypeRuntimeArray result_id element_type) => Core_OpTypeRuntimeArray (Build_OpTypeRuntimeArray (f result_id) (f element_type))
  | Core_OpTypeStruct (Build_OpTypeStruct result_id member_types) => Core_OpTypeStruct (Build_OpTypeStruct (f result_id) (map f member_types))
  | Core_OpTypeOpaque (Build_OpTypeOpaque result_id name) => Core_OpTypeOpaque (Build_OpTypeOpaque (f result_id) name)
  | Core_OpTypePointer (Build_OpTypePointer result_id storage_class pointed_type) => Core_OpTypePointer (Build_OpTypePointer (f result_id) storage_class (f pointed_type))
  | Core_OpTypeFunction (Build_OpTypeFunction result_id return_type parameter_types) => Core_OpTypeFunction (Build_OpTypeFunction (f result_id) (f return_type) (map f parameter_types))
  | Core_OpTypeEvent (Build_OpTypeEvent result_id) => Core_OpTypeEvent (Build_OpTypeEvent (f result_id))
  | Core_OpTypeDeviceEvent (Build_OpTypeDeviceEvent result_id) => Core_OpTypeDeviceEvent (Build_OpTypeDeviceEvent (f result_id))
  | Core_OpTypeQueue (Build_OpTypeQueue result_id) => Core_OpTypeQueue (Build_OpTypeQueue (f result_id))
  | Core_OpTypePipe (Build_OpTypePipe result_id access_qualifier) => Core_OpTypePipe (Build_OpTypePipe (f result_id) access_qualifier)
  | Core_OpTypeForwardPointer (Build_OpTypeForwardPointer pointer_type storage_class) => Core_OpTypeForwardPointer (Build_OpTypeForwardPointer (f pointer_type) storage_class)
  | Core_OpConstant (Build_OpConstant result_type result_id value) => Core_OpConstant (Build_OpConstant (f result_type) (f result_id) value)
  | Core_OpConstantComposite (Build_OpConstantComposite result_type result_id constituents) => Core_OpConstantComposite (Build_OpConstantComposite (f result_type) (f result_id) (map f constituents))
  | Core_OpFunction (Build_OpFunction result_type result_id function_control function_type) => Core_OpFunction (Build_OpFunction (f result_type) (f result_id) function_control (f function_type))
  | Core_OpFunctionParameter (Build_OpFunctionParameter result_type result_id) => Core_OpFunctionParameter (Build_OpFunctionParameter (f result_type) (f result_id))
  | Core_OpFunctionEnd x => Core_OpFunctionEnd x
  | Core_OpVariable (Build_OpVariable result_type result_id storage_class initializer) => Core_OpVariable (Build_OpVariable (f result_type) (f result_id) storage_class (option_map f initializer))
  | Core_OpLoad (Build_OpLoad result_type result_id pointer memory_access) => Core_OpLoad (Build_OpLoad (f result_type) (f result_id) (f pointer) memory_access)
  | Core_OpStore (Build_OpStore pointer object memory_access) => Core_OpStore (Build_OpStore (f pointer) (f object) memory_access)
  | Core_OpAccessChain (Build_OpAccessChain result_type result_id base indexes) => Core_OpAccessChain (Build_OpAccessChain (f result_type) (f result_id) (f base) (map f indexes))
  | Core_OpDecorate (Build_OpDecorate target decoration) => Core_OpDecorate (Build_OpDecorate (f target) decoration)
  | Core_OpMemberDecorate (Build_OpMemberDecorate structure_type member decoration) => Core_OpMemberDecorate (Build_OpMemberDecorate (f structure_type) member decoration)
  | Core_OpConvertUToF (Build_OpConvertUToF result_type result_id unsigned_value) => Core_OpConvertUToF (Build_OpConvertUToF (f result_type) (f result_id) (f unsigned_value))
  | Core_OpBitcast (Build_OpBitcast result_type result_id operand) => Core_OpBitcast (Build_OpBitcast (f result_type) (f result_id) (f operand))
  | Core_OpIAdd (Build_OpIAdd result_type result_id operand1 operand2) => Core_OpIAdd (Build_OpIAdd (f result_type) (f result_id) (f operand1) (f operand2))
  | Core_OpFAdd (Build_OpFAdd result_type result_id operand1 operand2) => Core_OpFAdd (Build_OpFAdd (f result_type) (f result_id) (f operand1) (f operand2))
  | Core_OpISub (Build_OpISub result_type result_id operand1 operand2) => Core_OpISub (Build_OpISub (f result_type) (f result_id) (f operand1) (f operand2))
  | Core_OpFSub (Build_OpFSub result_type result_id operand1 operand2) => Core_OpFSub (Build_OpFSub (f result_type) (f result_id) (f operand1) (f operand2))
  | Core_OpIMul (Build_OpIMul result_type result_id operand1 operand2) => Core_OpIMul (Build_OpIMul (f result_type) (f result_id) (f operand1) (f operand2))
  | Core_OpFMul (Build_OpFMul result_type result_id operand1 operand2) => Core_OpFMul (Build_OpFMul (f result_type) (f result_id) (f operand1) (f operand2))
  | Core_OpUDiv (Build_OpUDiv result_type result_id operand1 operand2) => Core_OpUDiv (Build_OpUDiv (f result_type) (f result_id) (f operand1) (f operand2))
  | Core_OpSDiv (Build_OpSDiv result_type result_id operand1 operand2) => Core_OpSDiv (Build_OpSDiv (f result_type) (f result_id) (f operand1) (f operand2))
  | Core_OpFDiv (Build_OpFDiv result_type result_id operand1 operand2) => Core_OpFDiv (Build_OpFDiv (f result_type) (f result_id) (f operand1) (f operand2))
  | Core_OpUMod (Build_OpUMod result_type result_id operand1 operand2) => Core_OpUMod (Build_OpUMod (f result_type) (f result_id) (f operand1) (f operand2))
  | Core_OpSRem (Build_OpSRem result_type result_id operand1 operand2) => Core_OpSRem (Build_OpSRem (f result_type) (f result_id) (f operand1) (f operand2))
  | Core_OpSMod (Build_OpSMod result_type result_id operand1 operand2) => Core_OpSMod (Build_OpSMod (f result_type) (f result_id) (f operand1) (f operand2))
  | Core_OpFRem (Build_OpFRem result_type result_id operand1 operand2) => Core_OpFRem (Build_OpFRem (f result_type) (f result_id) (f operand1) (f operand2))
  | Core_OpFMod (Build_OpFMod result_type result_id operand1 operand2) => Core_OpFMod (Build_OpFMod (f result_type) (f result_id) (f operand1) (f operand2))
  | Core_OpIAddCarry (Build_OpIAddCarry result_type result_id operand1 operand2) => Core_OpIAddCarry (Build_OpIAddCarry (f result_type) (f result_id) (f operand1) (f operand2))
  | Core_OpISubBorrow (Build_OpISubBorrow result_type result_id operand1 operand2) => Core_OpISubBorrow (Build_OpISubBorrow (f result_type) (f result_id) (f operand1) (f operand2))
  | Core_OpUMulExtended (Build_OpUMulExtended result_type result_id operand1 operand2) => Core_OpUMulExtended (Build_OpUMulExtended (f result_type) (f result_id) (f operand1) (f operand2))
  | Core_OpSMulExtended (Build_OpSMulExtended result_type result_id operand1 operand2) => Core_OpSMulExtended (Build_OpSMulExtended (f result_type) (f result_id) (f operand1) (f operand2))
  | Core_OpBitwiseOr (Build_OpBitwiseOr result_type result_id operand1 operand2) => Core_OpBitwiseOr (Build_OpBitwiseOr (f result_type) (f result_id) (f operand1) (f operand2))
  | Core_OpBitwiseXor (Build_OpBitwiseXor result_type result_id operand1 operand2) => Core_OpBitwiseXor (Build_OpBitwiseXor (f result_type) (f result_id) (f operand1) (f operand2))
  | Core_OpBitwiseAnd (Build_OpBitwiseAnd result_type result_id operand1 operand2) => Core_OpBitwiseAnd (Build_OpBitwiseAnd (f result_type) (f result_id) (f operand1) (f operand2))
  | Core_OpIEqual (Build_OpIEqual result_type result_id operand1 operand2) => Core_OpIEqual (Build_OpIEqual (f result_type) (f result_id) (f operand1) (f operand2))
  | Core_OpINotEqual (Build_OpINotEqual result_type result_id operand1 operand2) => Core_OpINotEqual (Build_OpINotEqual (f result_type) (f result_id) (f operand1) (f operand2))
  | Core_OpUGreaterThan (Build_OpUGreaterThan result_type result_id operand1 operand2) => Core_OpUGreaterThan (Build_OpUGreaterThan (f result_type) (f result_id) (f operand1) (f operand2))
  | Core_OpSGreaterThan (Build_OpSGreaterThan result_type result_id operand1 operand2) => Core_OpSGreaterThan (Build_OpSGreaterThan (f result_type) (f result_id) (f operand1) (f operand2))
  | Core_OpUGreaterThanEqual (Build_OpUGreaterThanEqual result_type result_id operand1 operand2) => Core_OpUGreaterThanEqual (Build_OpUGreaterThanEqual (f result_type) (f result_id) (f operand1) (f operand2))
  | Core_OpSGreaterThanEqual (Build_OpSGreaterThanEqual result_type result_id operand1 operand2) => Core_OpSGreaterThanEqual (Build_OpSGreaterThanEqual (f result_type) (f result_id) (f operand1) (f operand2))
  | Core_OpULessThan (Build_OpULessThan result_type result_id operand1 operand2) => Core_OpULessThan (Build_OpULessThan (f result_type) (f result_id) (f operand1) (f operand2))
  | Core_OpSLessThan (Build_OpSLessThan result_type result_id operand1 operand2) => Core_OpSLessThan (Build_OpSLessThan (f result_type) (f result_id) (f operand1) (f operand2))
  | Core_OpULessThanEqual (Build_OpULessThanEqual result_type result_id operand1 operand2) => Core_OpULessThanEqual (Build_OpULessThanEqual (f result_type) (f result_id) (f operand1) (f operand2))
  | Core_OpSLessThanEqual (Build_OpSLessThanEqual result_type result_id operand1 operand2) => Core_OpSLessThanEqual (Build_OpSLessThanEqual (f result_type) (f result_id) (f operand1) (f operand2))
  | Core_OpFOrdEqual (Build_OpFOrdEqual result_type result_id operand1 operand2) => Core_OpFOrdEqual (Build_OpFOrdEqual (f result_type) (f result_id) (f operand1) (f operand2))
  | Core_OpFUnordEqual (Build_OpFUnordEqual result_type result_id operand1 operand2) => Core_OpFUnordEqual (Build_OpFUnordEqual (f result_type) (f result_id) (f operand1) (f operand2))
  | Core_OpFOrdNotEqual (Build_OpFOrdNotEqual result_type result_id operand1 operand2) => Core_OpFOrdNotEqual (Build_OpFOrdNotEqual (f result_type) (f result_id) (f operand1) (f operand2))
  | Core_OpFUnordNotEqual (Build_OpFUnordNotEqual result_type result_id operand1 operand2) => Core_OpFUnordNotEqual (Build_OpFUnordNotEqual (f result_type) (f result_id) (f operand1) (f operand2))
  | Core_OpFOrdLessThan (Build_OpFOrdLessThan result_type result_id operand1 operand2) => Core_OpFOrdLessThan (Build_OpFOrdLessThan (f result_type) (f result_id) (f operand1) (f operand2))
  | Core_OpFUnordLessThan (Build_OpFUnordLessThan result_type result_id operand1 operand2) => Core_OpFUnordLessThan (Build_OpFUnordLessThan (f result_type) (f result_id) (f operand1) (f operand2))
  | Core_OpFOrdGreaterThan (Build_OpFOrdGreaterThan result_type result_id operand1 operand2) => Core_OpFOrdGreaterThan (Build_OpFOrdGreaterThan (f result_type) (f result_id) (f operand1) (f operand2))
  | Core_OpFUnordGreaterThan (Build_OpFUnordGreaterThan result_type result_id operand1 operand2) => Core_OpFUnordGreaterThan (Build_OpFUnordGreaterThan (f result_type) (f result_id) (f operand1) (f operand2))
  | Core_OpFOrdLessThanEqual (Build_OpFOrdLessThanEqual result_type result_id operand1 operand2) => Core_OpFOrdLessThanEqual (Build_OpFOrdLessThanEqual (f result_type) (f result_id) (f operand1) (f operand2))
  | Core_OpFUnordLessThanEqual (Build_OpFUnordLessThanEqual result_type result_id operand1 operand2) => Core_OpFUnordLessThanEqual (Build_OpFUnordLessThanEqual (f result_type) (f result_id) (f operand1) (f operand2))
  | Core_OpFOrdGreaterThanEqual (Build_OpFOrdGreaterThanEqual result_type result_id operand1 operand2) => Core_OpFOrdGreaterThanEqual (Build_OpFOrdGreaterThanEqual (f result_type) (f result_id) (f operand1) (f operand2))
  | Core_OpFUnordGreaterThanEqual (Build_OpFUnordGreaterThanEqual result_type result_id operand1 operand2) => Core_OpFUnordGreaterThanEqual (Build_OpFUnordGreaterThanEqual (f result_type) (f result_id) (f operand1) (f operand2))
  | Core_OpPhi (Build_OpPhi result_type result_id variables) => Core_OpPhi (Build_OpPhi (f result_type) (f result_id) (map (renumber_phi f) variables))
  | Core_OpLoopMerge (Build_OpLoopMerge merge_block continue_target loop_control) => Core_OpLoopMerge (Build_OpLoopMerge (f merge_block) (f continue_target) loop_control)
  | Core_OpSelectionMerge (Build_OpSelectionMerge merge_block selection_control) => Core_OpSelectionMerge (Build_OpSelectionMerge (f merge_block) selection_control)
  | Core_OpLabel (Build_OpLabel result_id) => Core_OpLabel (Build_OpLabel (f result_id))
  | Core_OpBranch (Build_OpBranch target_label) => Core_OpBranch (Build_OpBranch (f target_label))
  | Core_OpBranchConditional (Build_OpBranchConditional condition true_label false_label weights) => Core_OpBranchConditional (Build_OpBranchConditional (f condition) (f true_label) (f false_label) weights)
  | Core_OpReturn x => Core_OpReturn x
  end.

(** The instructions of GLSL.std.450. *)
Definition renumber_glsl (f : N -> N) (i : Inst) : Inst :=
  match i with Inst_Sin (Build_Sin x) => Inst_Sin (Build_Sin (f x)) | Inst_Cos (Build_Cos x) => Inst_Cos (Build_Cos (f x)) end.

(** A module with its ids renumbered. *)
Definition renumbered {E} (f : N -> N) (g : E -> E) (m : RawModule E) : RawModule E := with_instructions m (map (renumber f g) (RawModule_instructions m)).

(** New ids are words. *)
Definition words_to_words (f : N -> N) : Prop := forall n, word n -> word (f n).

(** The sets can read what [g] makes of each instruction they can read, from as many words. *)
Definition carried_by {E} (g : E -> E) (known : list (ExtInstSet E)) : Prop := forall s number ws e, In s known -> Forall word ws -> duplicate s number ws = Ok ([], e) ->
  exists ws', Forall word ws' /\ length ws' = length ws /\ duplicate s number ws' = Ok ([], g e).

(** Imports still have different ids. *)
Definition imports_stay_apart {E} (f : N -> N) (m : RawModule E) : Prop :=
  NoDup (map (fun op => f (OpExtInstImport_result_id op)) (imports_of (RawModule_instructions m))).

Definition injective (f : N -> N) : Prop := forall x y, f x = f y -> x = y.
