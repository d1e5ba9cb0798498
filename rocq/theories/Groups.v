(* GENERATED by tools/gen.py from /repo; do not edit by hand. *)
From Verif Require Import Base Types Ops.

(** Groups of src/spv/logical/mod.rs and OpByBlock of src/spv/logical/parser/mod.rs. *)

(* src/spv/logical/mod.rs:15-22 *)
Inductive GroupDebug : Type :=
| GroupDebug_OpSourceContinued (_ : OpSourceContinued)
| GroupDebug_OpSource (_ : OpSource)
| GroupDebug_OpSourceExtension (_ : OpSourceExtension)
| GroupDebug_OpName (_ : OpName)
| GroupDebug_OpMemberName (_ : OpMemberName)
| GroupDebug_OpString (_ : OpString).

(* src/spv/logical/mod.rs:25-28 *)
Inductive GroupAnnotation : Type :=
| GroupAnnotation_OpDecorate (_ : OpDecorate)
| GroupAnnotation_OpMemberDecorate (_ : OpMemberDecorate).

(* src/spv/logical/mod.rs:31-52 *)
Inductive GroupType : Type :=
| GroupType_OpTypeVoid (_ : OpTypeVoid)
| GroupType_OpTypeBool (_ : OpTypeBool)
| GroupType_OpTypeInt (_ : OpTypeInt)
| GroupType_OpTypeFloat (_ : OpTypeFloat)
| GroupType_OpTypeVector (_ : OpTypeVector)
| GroupType_OpTypeMatrix (_ : OpTypeMatrix)
| GroupType_OpTypeImage (_ : OpTypeImage)
| GroupType_OpTypeSampler (_ : OpTypeSampler)
| GroupType_OpTypeSampledImage (_ : OpTypeSampledImage)
| GroupType_OpTypeArray (_ : OpTypeArray)
| GroupType_OpTypeRuntimeArray (_ : OpTypeRuntimeArray)
| GroupType_OpTypeStruct (_ : OpTypeStruct)
| GroupType_OpTypeOpaque (_ : OpTypeOpaque)
| GroupType_OpTypePointer (_ : OpTypePointer)
| GroupType_OpTypeFunction (_ : OpTypeFunction)
| GroupType_OpTypeEvent (_ : OpTypeEvent)
| GroupType_OpTypeDeviceEvent (_ : OpTypeDeviceEvent)
| GroupType_OpTypeQueue (_ : OpTypeQueue)
| GroupType_OpTypePipe (_ : OpTypePipe)
| GroupType_OpTypeForwardPointer (_ : OpTypeForwardPointer).

(* src/spv/logical/mod.rs:55-58 *)
Inductive GroupConstant : Type :=
| GroupConstant_OpConstant (_ : OpConstant)
| GroupConstant_OpConstantComposite (_ : OpConstantComposite).

(* src/spv/logical/mod.rs:61-66 *)
Inductive GroupGlobal : Type :=
| GroupGlobal_GroupType (_ : GroupType)
| GroupGlobal_GroupConstant (_ : GroupConstant)
| GroupGlobal_OpVariable (_ : OpVariable).

(* src/spv/logical/mod.rs:69-124 *)
Inductive GroupCode (E : Type) : Type :=
| GroupCode_OpNop (_ : OpNop)
| GroupCode_OpUndef (_ : OpUndef)
| GroupCode_OpExtInst (_ : OpExtInst E)
| GroupCode_OpVariable (_ : OpVariable)
| GroupCode_OpLoad (_ : OpLoad)
| GroupCode_OpStore (_ : OpStore)
| GroupCode_OpAccessChain (_ : OpAccessChain)
| GroupCode_OpConvertUToF (_ : OpConvertUToF)
| GroupCode_OpBitcast (_ : OpBitcast)
| GroupCode_OpIAdd (_ : OpIAdd)
| GroupCode_OpFAdd (_ : OpFAdd)
| GroupCode_OpISub (_ : OpISub)
| GroupCode_OpFSub (_ : OpFSub)
| GroupCode_OpIMul (_ : OpIMul)
| GroupCode_OpFMul (_ : OpFMul)
| GroupCode_OpUDiv (_ : OpUDiv)
| GroupCode_OpSDiv (_ : OpSDiv)
| GroupCode_OpFDiv (_ : OpFDiv)
| GroupCode_OpUMod (_ : OpUMod)
| GroupCode_OpSRem (_ : OpSRem)
| GroupCode_OpSMod (_ : OpSMod)
| GroupCode_OpFRem (_ : OpFRem)
| GroupCode_OpFMod (_ : OpFMod)
| GroupCode_OpIAddCarry (_ : OpIAddCarry)
| GroupCode_OpISubBorrow (_ : OpISubBorrow)
| GroupCode_OpUMulExtended (_ : OpUMulExtended)
| GroupCode_OpSMulExtended (_ : OpSMulExtended)
| GroupCode_OpBitwiseOr (_ : OpBitwiseOr)
| GroupCode_OpBitwiseXor (_ : OpBitwiseXor)
| GroupCode_OpBitwiseAnd (_ : OpBitwiseAnd)
| GroupCode_OpIEqual (_ : OpIEqual)
| GroupCode_OpINotEqual (_ : OpINotEqual)
| GroupCode_OpUGreaterThan (_ : OpUGreaterThan)
| GroupCode_OpSGreaterThan (_ : OpSGreaterThan)
| GroupCode_OpUGreaterThanEqual (_ : OpUGreaterThanEqual)
| GroupCode_OpSGreaterThanEqual (_ : OpSGreaterThanEqual)
| GroupCode_OpULessThan (_ : OpULessThan)
| GroupCode_OpSLessThan (_ : OpSLessThan)
| GroupCode_OpULessThanEqual (_ : OpULessThanEqual)
| GroupCode_OpSLessThanEqual (_ : OpSLessThanEqual)
| GroupCode_OpFOrdEqual (_ : OpFOrdEqual)
| GroupCode_OpFUnordEqual (_ : OpFUnordEqual)
| GroupCode_OpFOrdNotEqual (_ : OpFOrdNotEqual)
| GroupCode_OpFUnordNotEqual (_ : OpFUnordNotEqual)
| GroupCode_OpFOrdLessThan (_ : OpFOrdLessThan)
| GroupCode_OpFUnordLessThan (_ : OpFUnordLessThan)
| GroupCode_OpFOrdGreaterThan (_ : OpFOrdGreaterThan)
| GroupCode_OpFUnordGreaterThan (_ : OpFUnordGreaterThan)
| GroupCode_OpFOrdLessThanEqual (_ : OpFOrdLessThanEqual)
| GroupCode_OpFUnordLessThanEqual (_ : OpFUnordLessThanEqual)
| GroupCode_OpFOrdGreaterThanEqual (_ : OpFOrdGreaterThanEqual)
| GroupCode_OpFUnordGreaterThanEqual (_ : OpFUnordGreaterThanEqual)
| GroupCode_OpPhi (_ : OpPhi).
Arguments GroupCode_OpNop {E}.
Arguments GroupCode_OpUndef {E}.
Arguments GroupCode_OpExtInst {E}.
Arguments GroupCode_OpVariable {E}.
Arguments GroupCode_OpLoad {E}.
Arguments GroupCode_OpStore {E}.
Arguments GroupCode_OpAccessChain {E}.
Arguments GroupCode_OpConvertUToF {E}.
Arguments GroupCode_OpBitcast {E}.
Arguments GroupCode_OpIAdd {E}.
Arguments GroupCode_OpFAdd {E}.
Arguments GroupCode_OpISub {E}.
Arguments GroupCode_OpFSub {E}.
Arguments GroupCode_OpIMul {E}.
Arguments GroupCode_OpFMul {E}.
Arguments GroupCode_OpUDiv {E}.
Arguments GroupCode_OpSDiv {E}.
Arguments GroupCode_OpFDiv {E}.
Arguments GroupCode_OpUMod {E}.
Arguments GroupCode_OpSRem {E}.
Arguments GroupCode_OpSMod {E}.
Arguments GroupCode_OpFRem {E}.
Arguments GroupCode_OpFMod {E}.
Arguments GroupCode_OpIAddCarry {E}.
Arguments GroupCode_OpISubBorrow {E}.
Arguments GroupCode_OpUMulExtended {E}.
Arguments GroupCode_OpSMulExtended {E}.
Arguments GroupCode_OpBitwiseOr {E}.
Arguments GroupCode_OpBitwiseXor {E}.
Arguments GroupCode_OpBitwiseAnd {E}.
Arguments GroupCode_OpIEqual {E}.
Arguments GroupCode_OpINotEqual {E}.
Arguments GroupCode_OpUGreaterThan {E}.
Arguments GroupCode_OpSGreaterThan {E}.
Arguments GroupCode_OpUGreaterThanEqual {E}.
Arguments GroupCode_OpSGreaterThanEqual {E}.
Arguments GroupCode_OpULessThan {E}.
Arguments GroupCode_OpSLessThan {E}.
Arguments GroupCode_OpULessThanEqual {E}.
Arguments GroupCode_OpSLessThanEqual {E}.
Arguments GroupCode_OpFOrdEqual {E}.
Arguments GroupCode_OpFUnordEqual {E}.
Arguments GroupCode_OpFOrdNotEqual {E}.
Arguments GroupCode_OpFUnordNotEqual {E}.
Arguments GroupCode_OpFOrdLessThan {E}.
Arguments GroupCode_OpFUnordLessThan {E}.
Arguments GroupCode_OpFOrdGreaterThan {E}.
Arguments GroupCode_OpFUnordGreaterThan {E}.
Arguments GroupCode_OpFOrdLessThanEqual {E}.
Arguments GroupCode_OpFUnordLessThanEqual {E}.
Arguments GroupCode_OpFOrdGreaterThanEqual {E}.
Arguments GroupCode_OpFUnordGreaterThanEqual {E}.
Arguments GroupCode_OpPhi {E}.

(* src/spv/logical/mod.rs:188-191 *)
Inductive GroupMerge : Type :=
| GroupMerge_OpLoopMerge (_ : OpLoopMerge)
| GroupMerge_OpSelectionMerge (_ : OpSelectionMerge).

(* src/spv/logical/mod.rs:194-198 *)
Inductive GroupBranch : Type :=
| GroupBranch_OpBranch (_ : OpBranch)
| GroupBranch_OpBranchConditional (_ : OpBranchConditional)
| GroupBranch_OpReturn (_ : OpReturn).

(* src/spv/logical/mod.rs:212-215 *)
Record FunctionDeclaration : Type := Build_FunctionDeclaration {
  FunctionDeclaration_function : OpFunction;
  FunctionDeclaration_parameters : (list OpFunctionParameter)
}.

(* src/spv/logical/mod.rs:218-223 *)
Record BasicBlock (E : Type) : Type := Build_BasicBlock {
  BasicBlock_label : OpLabel;
  BasicBlock_code : (list (GroupCode E));
  BasicBlock_merge : (option GroupMerge);
  BasicBlock_branch : GroupBranch
}.
Arguments Build_BasicBlock {E}.
Arguments BasicBlock_label {E}.
Arguments BasicBlock_code {E}.
Arguments BasicBlock_merge {E}.
Arguments BasicBlock_branch {E}.

(* src/spv/logical/mod.rs:226-230 *)
Record FunctionDefinition (E : Type) : Type := Build_FunctionDefinition {
  FunctionDefinition_function : OpFunction;
  FunctionDefinition_parameters : (list OpFunctionParameter);
  FunctionDefinition_blocks : (list (BasicBlock E))
}.
Arguments Build_FunctionDefinition {E}.
Arguments FunctionDefinition_function {E}.
Arguments FunctionDefinition_parameters {E}.
Arguments FunctionDefinition_blocks {E}.

(* src/spv/logical/mod.rs:233-245 *)
Record LogicalModule (E : Type) : Type := Build_LogicalModule {
  LogicalModule_capabilities : (list Capability);
  LogicalModule_extensions : (list string);
  LogicalModule_ext_inst_imports : (list OpExtInstImport);
  LogicalModule_memory_model : OpMemoryModel;
  LogicalModule_entry_points : (list OpEntryPoint);
  LogicalModule_execution_modes : (list OpExecutionMode);
  LogicalModule_debug : (list GroupDebug);
  LogicalModule_annotations : (list GroupAnnotation);
  LogicalModule_globals : (list GroupGlobal);
  LogicalModule_function_declarations : (list FunctionDeclaration);
  LogicalModule_function_definitions : (list (FunctionDefinition E))
}.
Arguments Build_LogicalModule {E}.
Arguments LogicalModule_capabilities {E}.
Arguments LogicalModule_extensions {E}.
Arguments LogicalModule_ext_inst_imports {E}.
Arguments LogicalModule_memory_model {E}.
Arguments LogicalModule_entry_points {E}.
Arguments LogicalModule_execution_modes {E}.
Arguments LogicalModule_debug {E}.
Arguments LogicalModule_annotations {E}.
Arguments LogicalModule_globals {E}.
Arguments LogicalModule_function_declarations {E}.
Arguments LogicalModule_function_definitions {E}.

(* src/spv/logical/parser/mod.rs:19-36 *)
Inductive OpByBlock (E : Type) : Type :=
| OpByBlock_OpCapability (_ : OpCapability)
| OpByBlock_OpExtension (_ : OpExtension)
| OpByBlock_OpExtInstImport (_ : OpExtInstImport)
| OpByBlock_OpMemoryModel (_ : OpMemoryModel)
| OpByBlock_OpEntryPoint (_ : OpEntryPoint)
| OpByBlock_OpExecutionMode (_ : OpExecutionMode)
| OpByBlock_GroupDebug (_ : GroupDebug)
| OpByBlock_GroupAnnotation (_ : GroupAnnotation)
| OpByBlock_GroupGlobal (_ : GroupGlobal)
| OpByBlock_OpFunction (_ : OpFunction)
| OpByBlock_OpFunctionParameter (_ : OpFunctionParameter)
| OpByBlock_OpFunctionEnd (_ : OpFunctionEnd)
| OpByBlock_OpLabel (_ : OpLabel)
| OpByBlock_GroupCode (_ : GroupCode E)
| OpByBlock_GroupMerge (_ : GroupMerge)
| OpByBlock_GroupBranch (_ : GroupBranch).
Arguments OpByBlock_OpCapability {E}.
Arguments OpByBlock_OpExtension {E}.
Arguments OpByBlock_OpExtInstImport {E}.
Arguments OpByBlock_OpMemoryModel {E}.
Arguments OpByBlock_OpEntryPoint {E}.
Arguments OpByBlock_OpExecutionMode {E}.
Arguments OpByBlock_GroupDebug {E}.
Arguments OpByBlock_GroupAnnotation {E}.
Arguments OpByBlock_GroupGlobal {E}.
Arguments OpByBlock_OpFunction {E}.
Arguments OpByBlock_OpFunctionParameter {E}.
Arguments OpByBlock_OpFunctionEnd {E}.
Arguments OpByBlock_OpLabel {E}.
Arguments OpByBlock_GroupCode {E}.
Arguments OpByBlock_GroupMerge {E}.
Arguments OpByBlock_GroupBranch {E}.

(* src/spv/logical/parser/mod.rs:86-93 *)
Definition from_OpVariable {E} (op : OpVariable) : OpByBlock E :=
  match OpVariable_storage_class op with
  | StorageClass_Function => OpByBlock_GroupCode (GroupCode_OpVariable op)
  | _ => OpByBlock_GroupGlobal (GroupGlobal_OpVariable op)
  end.

(* src/spv/logical/parser/mod.rs:95-199 *)
(* `.into()` on a group is the matching From impl, src/spv/logical/parser/mod.rs:38-84 *)
Definition from_Core {E} (inst : Core E) : OpByBlock E :=
  match inst with
  | Core_OpNop op => OpByBlock_GroupCode (GroupCode_OpNop op)
  | Core_OpUndef op => OpByBlock_GroupCode (GroupCode_OpUndef op)
  | Core_OpSourceContinued op => OpByBlock_GroupDebug (GroupDebug_OpSourceContinued op)
  | Core_OpSource op => OpByBlock_GroupDebug (GroupDebug_OpSource op)
  | Core_OpSourceExtension op => OpByBlock_GroupDebug (GroupDebug_OpSourceExtension op)
  | Core_OpName op => OpByBlock_GroupDebug (GroupDebug_OpName op)
  | Core_OpMemberName op => OpByBlock_GroupDebug (GroupDebug_OpMemberName op)
  | Core_OpString op => OpByBlock_GroupDebug (GroupDebug_OpString op)
  | Core_OpExtension op => OpByBlock_OpExtension op
  | Core_OpExtInstImport op => OpByBlock_OpExtInstImport op
  | Core_OpExtInst op => OpByBlock_GroupCode (GroupCode_OpExtInst op)
  | Core_OpMemoryModel op => OpByBlock_OpMemoryModel op
  | Core_OpEntryPoint op => OpByBlock_OpEntryPoint op
  | Core_OpExecutionMode op => OpByBlock_OpExecutionMode op
  | Core_OpCapability op => OpByBlock_OpCapability op
  | Core_OpTypeVoid op => OpByBlock_GroupGlobal (GroupGlobal_GroupType (GroupType_OpTypeVoid op))
  | Core_OpTypeBool op => OpByBlock_GroupGlobal (GroupGlobal_GroupType (GroupType_OpTypeBool op))
  | Core_OpTypeInt op => OpByBlock_GroupGlobal (GroupGlobal_GroupType (GroupType_OpTypeInt op))
  | Core_OpTypeFloat op => OpByBlock_GroupGlobal (GroupGlobal_GroupType (GroupType_OpTypeFloat op))
  | Core_OpTypeVector op => OpByBlock_GroupGlobal (GroupGlobal_GroupType (GroupType_OpTypeVector op))
  | Core_OpTypeMatrix op => OpByBlock_GroupGlobal (GroupGlobal_GroupType (GroupType_OpTypeMatrix op))
  | Core_OpTypeImage op => OpByBlock_GroupGlobal (GroupGlobal_GroupType (GroupType_OpTypeImage op))
  | Core_OpTypeSampler op => OpByBlock_GroupGlobal (GroupGlobal_GroupType (GroupType_OpTypeSampler op))
  | Core_OpTypeSampledImage op => OpByBlock_GroupGlobal (GroupGlobal_GroupType (GroupType_OpTypeSampledImage op))
  | Core_OpTypeArray op => OpByBlock_GroupGlobal (GroupGlobal_GroupType (GroupType_OpTypeArray op))
  | Core_OpTypeRuntimeArray op => OpByBlock_GroupGlobal (GroupGlobal_GroupType (GroupType_OpTypeRuntimeArray op))
  | Core_OpTypeStruct op => OpByBlock_GroupGlobal (GroupGlobal_GroupType (GroupType_OpTypeStruct op))
  | Core_OpTypeOpaque op => OpByBlock_GroupGlobal (GroupGlobal_GroupType (GroupType_OpTypeOpaque op))
  | Core_OpTypePointer op => OpByBlock_GroupGlobal (GroupGlobal_GroupType (GroupType_OpTypePointer op))
  | Core_OpTypeFunction op => OpByBlock_GroupGlobal (GroupGlobal_GroupType (GroupType_OpTypeFunction op))
  | Core_OpTypeEvent op => OpByBlock_GroupGlobal (GroupGlobal_GroupType (GroupType_OpTypeEvent op))
  | Core_OpTypeDeviceEvent op => OpByBlock_GroupGlobal (GroupGlobal_GroupType (GroupType_OpTypeDeviceEvent op))
  | Core_OpTypeQueue op => OpByBlock_GroupGlobal (GroupGlobal_GroupType (GroupType_OpTypeQueue op))
  | Core_OpTypePipe op => OpByBlock_GroupGlobal (GroupGlobal_GroupType (GroupType_OpTypePipe op))
  | Core_OpTypeForwardPointer op => OpByBlock_GroupGlobal (GroupGlobal_GroupType (GroupType_OpTypeForwardPointer op))
  | Core_OpConstant op => OpByBlock_GroupGlobal (GroupGlobal_GroupConstant (GroupConstant_OpConstant op))
  | Core_OpConstantComposite op => OpByBlock_GroupGlobal (GroupGlobal_GroupConstant (GroupConstant_OpConstantComposite op))
  | Core_OpFunction op => OpByBlock_OpFunction op
  | Core_OpFunctionParameter op => OpByBlock_OpFunctionParameter op
  | Core_OpFunctionEnd op => OpByBlock_OpFunctionEnd op
  | Core_OpVariable op => from_OpVariable op
  | Core_OpLoad op => OpByBlock_GroupCode (GroupCode_OpLoad op)
  | Core_OpStore op => OpByBlock_GroupCode (GroupCode_OpStore op)
  | Core_OpAccessChain op => OpByBlock_GroupCode (GroupCode_OpAccessChain op)
  | Core_OpDecorate op => OpByBlock_GroupAnnotation (GroupAnnotation_OpDecorate op)
  | Core_OpMemberDecorate op => OpByBlock_GroupAnnotation (GroupAnnotation_OpMemberDecorate op)
  | Core_OpConvertUToF op => OpByBlock_GroupCode (GroupCode_OpConvertUToF op)
  | Core_OpBitcast op => OpByBlock_GroupCode (GroupCode_OpBitcast op)
  | Core_OpIAdd op => OpByBlock_GroupCode (GroupCode_OpIAdd op)
  | Core_OpFAdd op => OpByBlock_GroupCode (GroupCode_OpFAdd op)
  | Core_OpISub op => OpByBlock_GroupCode (GroupCode_OpISub op)
  | Core_OpFSub op => OpByBlock_GroupCode (GroupCode_OpFSub op)
  | Core_OpIMul op => OpByBlock_GroupCode (GroupCode_OpIMul op)
  | Core_OpFMul op => OpByBlock_GroupCode (GroupCode_OpFMul op)
  | Core_OpUDiv op => OpByBlock_GroupCode (GroupCode_OpUDiv op)
  | Core_OpSDiv op => OpByBlock_GroupCode (GroupCode_OpSDiv op)
  | Core_OpFDiv op => OpByBlock_GroupCode (GroupCode_OpFDiv op)
  | Core_OpUMod op => OpByBlock_GroupCode (GroupCode_OpUMod op)
  | Core_OpSRem op => OpByBlock_GroupCode (GroupCode_OpSRem op)
  | Core_OpSMod op => OpByBlock_GroupCode (GroupCode_OpSMod op)
  | Core_OpFRem op => OpByBlock_GroupCode (GroupCode_OpFRem op)
  | Core_OpFMod op => OpByBlock_GroupCode (GroupCode_OpFMod op)
  | Core_OpIAddCarry op => OpByBlock_GroupCode (GroupCode_OpIAddCarry op)
  | Core_OpISubBorrow op => OpByBlock_GroupCode (GroupCode_OpISubBorrow op)
  | Core_OpUMulExtended op => OpByBlock_GroupCode (GroupCode_OpUMulExtended op)
  | Core_OpSMulExtended op => OpByBlock_GroupCode (GroupCode_OpSMulExtended op)
  | Core_OpBitwiseOr op => OpByBlock_GroupCode (GroupCode_OpBitwiseOr op)
  | Core_OpBitwiseXor op => OpByBlock_GroupCode (GroupCode_OpBitwiseXor op)
  | Core_OpBitwiseAnd op => OpByBlock_GroupCode (GroupCode_OpBitwiseAnd op)
  | Core_OpIEqual op => OpByBlock_GroupCode (GroupCode_OpIEqual op)
  | Core_OpINotEqual op => OpByBlock_GroupCode (GroupCode_OpINotEqual op)
  | Core_OpUGreaterThan op => OpByBlock_GroupCode (GroupCode_OpUGreaterThan op)
  | Core_OpSGreaterThan op => OpByBlock_GroupCode (GroupCode_OpSGreaterThan op)
  | Core_OpUGreaterThanEqual op => OpByBlock_GroupCode (GroupCode_OpUGreaterThanEqual op)
  | Core_OpSGreaterThanEqual op => OpByBlock_GroupCode (GroupCode_OpSGreaterThanEqual op)
  | Core_OpULessThan op => OpByBlock_GroupCode (GroupCode_OpULessThan op)
  | Core_OpSLessThan op => OpByBlock_GroupCode (GroupCode_OpSLessThan op)
  | Core_OpULessThanEqual op => OpByBlock_GroupCode (GroupCode_OpULessThanEqual op)
  | Core_OpSLessThanEqual op => OpByBlock_GroupCode (GroupCode_OpSLessThanEqual op)
  | Core_OpFOrdEqual op => OpByBlock_GroupCode (GroupCode_OpFOrdEqual op)
  | Core_OpFUnordEqual op => OpByBlock_GroupCode (GroupCode_OpFUnordEqual op)
  | Core_OpFOrdNotEqual op => OpByBlock_GroupCode (GroupCode_OpFOrdNotEqual op)
  | Core_OpFUnordNotEqual op => OpByBlock_GroupCode (GroupCode_OpFUnordNotEqual op)
  | Core_OpFOrdLessThan op => OpByBlock_GroupCode (GroupCode_OpFOrdLessThan op)
  | Core_OpFUnordLessThan op => OpByBlock_GroupCode (GroupCode_OpFUnordLessThan op)
  | Core_OpFOrdGreaterThan op => OpByBlock_GroupCode (GroupCode_OpFOrdGreaterThan op)
  | Core_OpFUnordGreaterThan op => OpByBlock_GroupCode (GroupCode_OpFUnordGreaterThan op)
  | Core_OpFOrdLessThanEqual op => OpByBlock_GroupCode (GroupCode_OpFOrdLessThanEqual op)
  | Core_OpFUnordLessThanEqual op => OpByBlock_GroupCode (GroupCode_OpFUnordLessThanEqual op)
  | Core_OpFOrdGreaterThanEqual op => OpByBlock_GroupCode (GroupCode_OpFOrdGreaterThanEqual op)
  | Core_OpFUnordGreaterThanEqual op => OpByBlock_GroupCode (GroupCode_OpFUnordGreaterThanEqual op)
  | Core_OpPhi op => OpByBlock_GroupCode (GroupCode_OpPhi op)
  | Core_OpLoopMerge op => OpByBlock_GroupMerge (GroupMerge_OpLoopMerge op)
  | Core_OpSelectionMerge op => OpByBlock_GroupMerge (GroupMerge_OpSelectionMerge op)
  | Core_OpLabel op => OpByBlock_OpLabel op
  | Core_OpBranch op => OpByBlock_GroupBranch (GroupBranch_OpBranch op)
  | Core_OpBranchConditional op => OpByBlock_GroupBranch (GroupBranch_OpBranchConditional op)
  | Core_OpReturn op => OpByBlock_GroupBranch (GroupBranch_OpReturn op)
  end.
