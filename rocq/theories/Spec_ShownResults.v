(** SPECIFICATION of the Debug format, continued, C89: the texts of errors and of chains. *)
From Verif Require Import Base Types ReadErr Groups Validate ControlFlow DebugBase Spec_Text Spec_Writer.
Local Open Scope string_scope.

Definition enumerated (l : list string) : string := String.concat ", " l.
(** A case without payload is its name; a payload follows in parentheses. *)
Definition case_text (name : string) (payload : list string) : string :=
  match payload with [] => name | _ => name ++ "(" ++ enumerated payload ++ ")" end.

(** ** Errors of the reader *)
Definition error_names : list string :=
  ["UnexpectedEndOfStream"; "UnexpectedStreamAlignment"; "BadMagic"; "UnknownVersionBytes"; "UnknownVersion"; "UnknownReservedSchema"; "UnknownOp";
   "UnimplementedOp"; "WrongWordCountForOp"; "InvalidString"; "UnexpectedEndOfInstruction"; "InstructionHadExcessData"; "UnknownInstSet";
   "UnknownInstSetId"; "UnknownExtInstOp"; "DuplicateResultId"; "UnknownAddressingModel"; "UnknownMemoryModel"; "UnknownExecutionModel";
   "UnknownExecutionMode"; "UnknownCapability"; "UnknownDecoration"; "UnknownBuiltIn"; "UnknownFpRoundingMode"; "UnknownFpFastMathMode";
   "UnknownLinkageType"; "UnknownSignedness"; "UnknownStorageClass"; "UnknownFunctionParameterAttribute"; "UnknownMemoryAccess"; "UnknownDim";
   "UnknownDepthStatus"; "UnknownArrayed"; "UnknownMS"; "UnknownSampledStatus"; "UnknownImageFormat"; "UnknownAccessQualifier";
   "UnknownLoopControl"; "UnknownSelectionControl"].
(** [literal] writes a text as a string literal. *)
Definition payload (literal : string -> string) (e : ReadError) : list string :=
  match e with
  | UnknownVersionBytes a b c d => [decimal a; decimal b; decimal c; decimal d]
  | UnknownVersion v => [case_text "Version" [decimal (Version_0 v); decimal (Version_1 v)]]
  | UnknownOp code words => [decimal code; decimal words]
  | UnimplementedOp name => [literal name]
  | UnknownInstSet name => [literal name]
  | UnknownInstSetId id => [case_text "OpId" [decimal id]]
  | UnknownExtInstOp name code => [literal name; decimal code]
  | DuplicateResultId id => [case_text "ResultId" [decimal id]]
  | UnknownAddressingModel n | UnknownMemoryModel n | UnknownExecutionModel n | UnknownExecutionMode n | UnknownCapability n | UnknownDecoration n
  | UnknownBuiltIn n | UnknownFpRoundingMode n | UnknownFpFastMathMode n | UnknownLinkageType n | UnknownSignedness n | UnknownStorageClass n
  | UnknownFunctionParameterAttribute n | UnknownMemoryAccess n | UnknownDim n | UnknownDepthStatus n | UnknownArrayed n | UnknownMS n
  | UnknownSampledStatus n | UnknownImageFormat n | UnknownAccessQualifier n | UnknownLoopControl n | UnknownSelectionControl n => [decimal n]
  | _ => []
  end.

(** ** Errors of validation and of the search for structure *)
Definition validation_error_text (e : ValidationError) : string :=
  match e with
  | MemoryModelMissing => "MemoryModelMissing"
  | ExpectedOpFunction slot => "ExpectedOpFunction(" ++ decimal (N.of_nat slot) ++ ")"
  | ExpectedOpFunctionEnd slot => "ExpectedOpFunctionEnd(" ++ decimal (N.of_nat slot) ++ ")"
  | ExpectedBranch slot => "ExpectedBranch(" ++ decimal (N.of_nat slot) ++ ")"
  | UnexpectedInstruction slot => "UnexpectedInstruction(" ++ decimal (N.of_nat slot) ++ ")"
  end.
Definition block_id_text (id : BlockId) : string := "BlockId(" ++ decimal id ++ ")".
Definition flow_error_text (e : ControlFlowError) : string :=
  match e with
  | DuplicateBlockId id => "DuplicateBlockId(" ++ block_id_text id ++ ")"
  | NoBlocks => "NoBlocks"
  | UnknownBlockId id => "UnknownBlockId(" ++ block_id_text id ++ ")"
  | CouldNotPredictConverge id => "CouldNotPredictConverge(" ++ block_id_text id ++ ")"
  | InvalidConvergePrediction ControlType_Selection id => "InvalidConvergePrediction(Selection, " ++ block_id_text id ++ ")"
  | InvalidConvergePrediction ControlType_Loop id => "InvalidConvergePrediction(Loop, " ++ block_id_text id ++ ")"
  | Failed => "Failed"
  end.

(** ** Chains *)
Definition yes_no (b : bool) : string := if b then "true" else "false".
Definition weights_text (w : option BranchWeights) : string :=
  match w with
  | None => "None"
  | Some w => "Some(BranchWeights { true_weight: " ++ decimal (BranchWeights_true_weight w) ++ ", false_weight: "
                ++ decimal (BranchWeights_false_weight w) ++ " })"
  end.
Definition selection_hint_text (c : SelectionControl) : string :=
  "SelectionControl { flatten: " ++ yes_no (SelectionControl_flatten c) ++ ", dont_flatten: " ++ yes_no (SelectionControl_dont_flatten c) ++ " }".
Definition loop_hint_text (c : LoopControl) : string :=
  "LoopControl { unroll: " ++ yes_no (LoopControl_unroll c) ++ ", dont_unroll: " ++ yes_no (LoopControl_dont_unroll c) ++ ", dependency_infinite: "
  ++ yes_no (LoopControl_dependency_infinite c) ++ ", dependency_length: "
  ++ match LoopControl_dependency_length c with None => "None" | Some n => "Some(" ++ decimal n ++ ")" end ++ " }".
Fixpoint chain_text (c : ControlFlowChain) : string :=
  match c with
  | Atom id => "Atom(" ++ block_id_text id ++ ")"
  | Block l => "Block([" ++ enumerated (map chain_text l) ++ "])"
  | Selection id lhs rhs hint weights =>
      "Selection(" ++ block_id_text id ++ ", " ++ chain_text lhs ++ ", " ++ chain_text rhs ++ ", " ++ selection_hint_text hint ++ ", "
      ++ weights_text weights ++ ")"
  | Loop id inner hint weights =>
      "Loop(" ++ block_id_text id ++ ", " ++ chain_text inner ++ ", " ++ loop_hint_text hint ++ ", " ++ weights_text weights ++ ")"
  | Break => "Break"
  | Continue => "Continue"
  end.
