(** SPECIFICATION of the logical layout, C25-C35: writing a logical module out as a list of
    instructions, canonical form, the kind of an instruction, and the layout automaton of
    SPIR-V 2.4 restricted to the instructions the crate knows.  Uses the data types of the
    crate, none of the validator's functions. *)
From Verif Require Import Base Types Ops Groups Spec_Tables.
From Verif Require Import Validate.

(** ** Writing out: every group is its instruction, sections in order *)
Definition core_of_debug {E} (g : GroupDebug) : Core E :=
  match g with
  | GroupDebug_OpSourceContinued op => Core_OpSourceContinued op
  | GroupDebug_OpSource op => Core_OpSource op
  | GroupDebug_OpSourceExtension op => Core_OpSourceExtension op
  | GroupDebug_OpName op => Core_OpName op
  | GroupDebug_OpMemberName op => Core_OpMemberName op
  | GroupDebug_OpString op => Core_OpString op
  end.
Definition core_of_annotation {E} (g : GroupAnnotation) : Core E :=
  match g with
  | GroupAnnotation_OpDecorate op => Core_OpDecorate op
  | GroupAnnotation_OpMemberDecorate op => Core_OpMemberDecorate op
  end.
Definition core_of_type {E} (g : GroupType) : Core E :=
  match g with
  | GroupType_OpTypeVoid op => Core_OpTypeVoid op
  | GroupType_OpTypeBool op => Core_OpTypeBool op
  | GroupType_OpTypeInt op => Core_OpTypeInt op
  | GroupType_OpTypeFloat op => Core_OpTypeFloat op
  | GroupType_OpTypeVector op => Core_OpTypeVector op
  | GroupType_OpTypeMatrix op => Core_OpTypeMatrix op
  | GroupType_OpTypeImage op => Core_OpTypeImage op
  | GroupType_OpTypeSampler op => Core_OpTypeSampler op
  | GroupType_OpTypeSampledImage op => Core_OpTypeSampledImage op
  | GroupType_OpTypeArray op => Core_OpTypeArray op
  | GroupType_OpTypeRuntimeArray op => Core_OpTypeRuntimeArray op
  | GroupType_OpTypeStruct op => Core_OpTypeStruct op
  | GroupType_OpTypeOpaque op => Core_OpTypeOpaque op
  | GroupType_OpTypePointer op => Core_OpTypePointer op
  | GroupType_OpTypeFunction op => Core_OpTypeFunction op
  | GroupType_OpTypeEvent op => Core_OpTypeEvent op
  | GroupType_OpTypeDeviceEvent op => Core_OpTypeDeviceEvent op
  | GroupType_OpTypeQueue op => Core_OpTypeQueue op
  | GroupType_OpTypePipe op => Core_OpTypePipe op
  | GroupType_OpTypeForwardPointer op => Core_OpTypeForwardPointer op
  end.
Definition core_of_constant {E} (g : GroupConstant) : Core E :=
  match g with
  | GroupConstant_OpConstant op => Core_OpConstant op
  | GroupConstant_OpConstantComposite op => Core_OpConstantComposite op
  end.
Definition core_of_global {E} (g : GroupGlobal) : Core E :=
  match g with
  | GroupGlobal_GroupType t => core_of_type t
  | GroupGlobal_GroupConstant c => core_of_constant c
  | GroupGlobal_OpVariable op => Core_OpVariable op
  end.
Definition core_of_code {E} (g : GroupCode E) : Core E :=
  match g with
  | GroupCode_OpNop op => Core_OpNop op
  | GroupCode_OpUndef op => Core_OpUndef op
  | GroupCode_OpExtInst op => Core_OpExtInst op
  | GroupCode_OpVariable op => Core_OpVariable op
  | GroupCode_OpLoad op => Core_OpLoad op
  | GroupCode_OpStore op => Core_OpStore op
  | GroupCode_OpAccessChain op => Core_OpAccessChain op
  | GroupCode_OpConvertUToF op => Core_OpConvertUToF op
  | GroupCode_OpBitcast op => Core_OpBitcast op
  | GroupCode_OpIAdd op => Core_OpIAdd op
  | GroupCode_OpFAdd op => Core_OpFAdd op
  | GroupCode_OpISub op => Core_OpISub op
  | GroupCode_OpFSub op => Core_OpFSub op
  | GroupCode_OpIMul op => Core_OpIMul op
  | GroupCode_OpFMul op => Core_OpFMul op
  | GroupCode_OpUDiv op => Core_OpUDiv op
  | GroupCode_OpSDiv op => Core_OpSDiv op
  | GroupCode_OpFDiv op => Core_OpFDiv op
  | GroupCode_OpUMod op => Core_OpUMod op
  | GroupCode_OpSRem op => Core_OpSRem op
  | GroupCode_OpSMod op => Core_OpSMod op
  | GroupCode_OpFRem op => Core_OpFRem op
  | GroupCode_OpFMod op => Core_OpFMod op
  | GroupCode_OpIAddCarry op => Core_OpIAddCarry op
  | GroupCode_OpISubBorrow op => Core_OpISubBorrow op
  | GroupCode_OpUMulExtended op => Core_OpUMulExtended op
  | GroupCode_OpSMulExtended op => Core_OpSMulExtended op
  | GroupCode_OpBitwiseOr op => Core_OpBitwiseOr op
  | GroupCode_OpBitwiseXor op => Core_OpBitwiseXor op
  | GroupCode_OpBitwiseAnd op => Core_OpBitwiseAnd op
  | GroupCode_OpIEqual op => Core_OpIEqual op
  | GroupCode_OpINotEqual op => Core_OpINotEqual op
  | GroupCode_OpUGreaterThan op => Core_OpUGreaterThan op
  | GroupCode_OpSGreaterThan op => Core_OpSGreaterThan op
  | GroupCode_OpUGreaterThanEqual op => Core_OpUGreaterThanEqual op
  | GroupCode_OpSGreaterThanEqual op => Core_OpSGreaterThanEqual op
  | GroupCode_OpULessThan op => Core_OpULessThan op
  | GroupCode_OpSLessThan op => Core_OpSLessThan op
  | GroupCode_OpULessThanEqual op => Core_OpULessThanEqual op
  | GroupCode_OpSLessThanEqual op => Core_OpSLessThanEqual op
  | GroupCode_OpFOrdEqual op => Core_OpFOrdEqual op
  | GroupCode_OpFUnordEqual op => Core_OpFUnordEqual op
  | GroupCode_OpFOrdNotEqual op => Core_OpFOrdNotEqual op
  | GroupCode_OpFUnordNotEqual op => Core_OpFUnordNotEqual op
  | GroupCode_OpFOrdLessThan op => Core_OpFOrdLessThan op
  | GroupCode_OpFUnordLessThan op => Core_OpFUnordLessThan op
  | GroupCode_OpFOrdGreaterThan op => Core_OpFOrdGreaterThan op
  | GroupCode_OpFUnordGreaterThan op => Core_OpFUnordGreaterThan op
  | GroupCode_OpFOrdLessThanEqual op => Core_OpFOrdLessThanEqual op
  | GroupCode_OpFUnordLessThanEqual op => Core_OpFUnordLessThanEqual op
  | GroupCode_OpFOrdGreaterThanEqual op => Core_OpFOrdGreaterThanEqual op
  | GroupCode_OpFUnordGreaterThanEqual op => Core_OpFUnordGreaterThanEqual op
  | GroupCode_OpPhi op => Core_OpPhi op
  end.
Definition core_of_merge {E} (g : GroupMerge) : Core E :=
  match g with
  | GroupMerge_OpLoopMerge op => Core_OpLoopMerge op
  | GroupMerge_OpSelectionMerge op => Core_OpSelectionMerge op
  end.
Definition core_of_branch {E} (g : GroupBranch) : Core E :=
  match g with
  | GroupBranch_OpBranch op => Core_OpBranch op
  | GroupBranch_OpBranchConditional op => Core_OpBranchConditional op
  | GroupBranch_OpReturn op => Core_OpReturn op
  end.

Definition write_block {E} (b : BasicBlock E) : list (Core E) :=
  Core_OpLabel (BasicBlock_label b) :: map core_of_code (BasicBlock_code b)
  ++ match BasicBlock_merge b with None => [] | Some m => [core_of_merge m] end
  ++ [core_of_branch (BasicBlock_branch b)].

Definition write_declaration {E} (d : FunctionDeclaration) : list (Core E) :=
  Core_OpFunction (FunctionDeclaration_function d)
  :: map Core_OpFunctionParameter (FunctionDeclaration_parameters d)
  ++ [Core_OpFunctionEnd Build_OpFunctionEnd].

Definition write_definition {E} (d : FunctionDefinition E) : list (Core E) :=
  Core_OpFunction (FunctionDefinition_function d)
  :: map Core_OpFunctionParameter (FunctionDefinition_parameters d)
  ++ flat_map write_block (FunctionDefinition_blocks d)
  ++ [Core_OpFunctionEnd Build_OpFunctionEnd].

Definition write_module {E} (m : LogicalModule E) : list (Core E) :=
  map (fun c => Core_OpCapability (Build_OpCapability c)) (LogicalModule_capabilities m)
  ++ map (fun s => Core_OpExtension (Build_OpExtension s)) (LogicalModule_extensions m)
  ++ map Core_OpExtInstImport (LogicalModule_ext_inst_imports m)
  ++ [Core_OpMemoryModel (LogicalModule_memory_model m)]
  ++ map Core_OpEntryPoint (LogicalModule_entry_points m)
  ++ map Core_OpExecutionMode (LogicalModule_execution_modes m)
  ++ map core_of_debug (LogicalModule_debug m)
  ++ map core_of_annotation (LogicalModule_annotations m)
  ++ map core_of_global (LogicalModule_globals m)
  ++ flat_map write_declaration (LogicalModule_function_declarations m)
  ++ flat_map write_definition (LogicalModule_function_definitions m).

(** ** Canonical form *)
Definition function_variable (v : OpVariable) : Prop := OpVariable_storage_class v = StorageClass_Function.

Definition canonical_global (g : GroupGlobal) : Prop :=
  match g with GroupGlobal_OpVariable v => ~ function_variable v | _ => True end.
Definition canonical_code {E} (c : GroupCode E) : Prop :=
  match c with GroupCode_OpVariable v => function_variable v | _ => True end.
Definition canonical_block {E} (b : BasicBlock E) : Prop := Forall canonical_code (BasicBlock_code b).
Definition canonical_definition {E} (d : FunctionDefinition E) : Prop := Forall canonical_block (FunctionDefinition_blocks d).
Definition canonical {E} (m : LogicalModule E) : Prop :=
  Forall canonical_global (LogicalModule_globals m)
  /\ Forall canonical_definition (LogicalModule_function_definitions m)
  /\ match LogicalModule_function_definitions m with
     | [] => True
     | d :: _ => FunctionDefinition_blocks d <> []
     end.

(** ** Kinds of instructions (SPIR-V 2.4), by opcode and, for variables, storage class *)
Inductive kind := KCapability | KExtension | KImport | KMemoryModel | KEntryPoint | KExecutionMode | KDebug | KAnnotation
| KGlobal | KFunction | KParameter | KFunctionEnd | KLabel | KCode | KMerge | KTerminator.

Definition kind_of {E} (i : Core E) : kind :=
  match i with
  | Core_OpVariable v => match OpVariable_storage_class v with StorageClass_Function => KCode | _ => KGlobal end
  | _ =>
      let op := opcode i in
      if N.eqb op 17 then KCapability
      else if N.eqb op 10 then KExtension
      else if N.eqb op 11 then KImport
      else if N.eqb op 14 then KMemoryModel
      else if N.eqb op 15 then KEntryPoint
      else if N.eqb op 16 then KExecutionMode
      else if ((2 <=? op) && (op <=? 7))%N then KDebug
      else if ((71 <=? op) && (op <=? 72))%N then KAnnotation
      else if ((19 <=? op) && (op <=? 44))%N then KGlobal
      else if N.eqb op 54 then KFunction
      else if N.eqb op 55 then KParameter
      else if N.eqb op 56 then KFunctionEnd
      else if N.eqb op 248 then KLabel
      else if ((246 <=? op) && (op <=? 247))%N then KMerge
      else if ((249 <=? op) && (op <=? 253))%N then KTerminator
      else KCode
  end.

(** ** The layout automaton *)
Inductive state :=
| Before (section : nat)      (* before the memory model: 0 capabilities, 1 extensions, 2 imports *)
| After (section : nat)       (* after it: 0 entry points, 1 modes, 2 debug, 3 annotations, 4 globals, 5 functions *)
| Header                      (* in a function, before its first block *)
| InCode                      (* in a block, before the merge *)
| Merged                      (* in a block, after the merge *)
| Between.                    (* in a function, after a block *)

Definition section_of (k : kind) : option nat :=
  match k with
  | KCapability | KEntryPoint => Some 0
  | KExtension | KExecutionMode => Some 1
  | KImport | KDebug => Some 2
  | KAnnotation => Some 3
  | KGlobal => Some 4
  | _ => None
  end.

Definition step (s : state) (k : kind) : option state :=
  match s, k with
  | Before _, KMemoryModel => Some (After 0)
  | Before n, (KCapability | KExtension | KImport) =>
      match section_of k with Some n' => if n <=? n' then Some (Before n') else None | None => None end
  | After n, (KEntryPoint | KExecutionMode | KDebug | KAnnotation | KGlobal) =>
      match section_of k with Some n' => if n <=? n' then Some (After n') else None | None => None end
  | After _, KFunction => Some Header
  | Header, KParameter => Some Header
  | (Header | Between), KLabel => Some InCode
  | (Header | Between), KFunctionEnd => Some (After 5)
  | InCode, KCode => Some InCode
  | InCode, KMerge => Some Merged
  | (InCode | Merged), KTerminator => Some Between
  | _, _ => None
  end.

(** The outcome the layout prescribes for an instruction list: [None] is acceptance,
    otherwise the error.  [stuck s n left] is the error when the automaton cannot go on in
    state [s] after [n] instructions with [left] instructions left. *)
Definition stuck (s : state) (n left : nat) : option ValidationError :=
  match s with
  | Before _ => Some MemoryModelMissing
  | After _ =>
      match left with
      | 0 => None
      | 1 => Some (UnexpectedInstruction n)
      | _ => Some (ExpectedOpFunction n)
      end
  | Header | Between => Some (ExpectedOpFunctionEnd n)
  | InCode | Merged => Some (ExpectedBranch n)
  end.

(** The one irregularity: an OpFunction that is the very last instruction is itself the
    unexpected instruction (rather than its OpFunctionEnd missing). *)
Fixpoint layout (s : state) (n : nat) (ks : list kind) : option ValidationError :=
  match ks with
  | [] => stuck s n 0
  | k :: ks' =>
      match s, k, ks' with
      | After _, KFunction, [] => Some (UnexpectedInstruction n)
      | _, _, _ =>
          match step s k with
          | None => stuck s n (length ks)
          | Some s' => layout s' (S n) ks'
          end
      end
  end.

(** ** Same shape of instructions, C33/C34 *)
Definition same_kind {E} (i j : Core E) : Prop :=
  opcode i = opcode j /\
  forall v w, i = Core_OpVariable v -> j = Core_OpVariable w -> (function_variable v <-> function_variable w).

(** ** Index carried by an error *)
Definition error_index (e : ValidationError) : option nat :=
  match e with
  | MemoryModelMissing => None
  | ExpectedOpFunction i | ExpectedOpFunctionEnd i | ExpectedBranch i | UnexpectedInstruction i => Some i
  end.

(** The module with its instruction list replaced. *)
Definition with_instructions {E} (m : RawModule E) (l : list (Core E)) : RawModule E :=
  Build_RawModule (RawModule_version m) (RawModule_generator m) (RawModule_bound m) l.

(** Acceptance of an instruction list, whatever the header says. *)
Definition accepts {E} (l : list (Core E)) : Prop := forall v g b, exists lm, validate (Build_RawModule v g b l) = Ok lm.
Definition rejects {E} (l : list (Core E)) : Prop := forall v g b lm, validate (Build_RawModule v g b l) <> Ok lm.

(** ** The shape of a logical module: how many items each section has, how many parameters
    each function, how many instructions each block and whether it has a merge *)
Record shape := Build_shape {
  n_capabilities : nat; n_extensions : nat; n_imports : nat; n_entry_points : nat; n_execution_modes : nat;
  n_debug : nat; n_annotations : nat; n_globals : nat;
  declarations_shape : list nat;
  definitions_shape : list (nat * list (nat * bool)) }.

Definition block_shape {E} (b : BasicBlock E) : nat * bool :=
  (length (BasicBlock_code b), match BasicBlock_merge b with Some _ => true | None => false end).

Definition shape_of {E} (m : LogicalModule E) : shape :=
  Build_shape (length (LogicalModule_capabilities m)) (length (LogicalModule_extensions m)) (length (LogicalModule_ext_inst_imports m))
    (length (LogicalModule_entry_points m)) (length (LogicalModule_execution_modes m)) (length (LogicalModule_debug m))
    (length (LogicalModule_annotations m)) (length (LogicalModule_globals m))
    (map (fun d => length (FunctionDeclaration_parameters d)) (LogicalModule_function_declarations m))
    (map (fun d => (length (FunctionDefinition_parameters d), map block_shape (FunctionDefinition_blocks d)))
       (LogicalModule_function_definitions m)).
