(** derive(Debug) of the remaining types: control flow, validation errors and the GLSL.std.450 set. *)
From Verif Require Import Base Types Ops Groups Validate ControlFlow Glsl450 DebugBase Debug.
Local Open Scope string_scope.

Section More.
Context {E : Type}.

(* src/spv/logical/control_flow.rs:10-11 *)
Definition dbg_BlockId (x : BlockId) : dtree E := DTuple "BlockId" [DNumber x].

(* src/spv/logical/control_flow.rs:19-31; a Box shows its contents *)
Fixpoint dbg_ControlFlowChain (x : ControlFlowChain) : dtree E :=
  match x with
  | Atom x0 => DTuple "Atom" [dbg_BlockId x0]
  | Block x0 => DTuple "Block" [dbg_Vec dbg_ControlFlowChain x0]
  | Selection x0 x1 x2 x3 x4 =>
      DTuple "Selection" [dbg_BlockId x0; dbg_ControlFlowChain x1; dbg_ControlFlowChain x2; dbg_SelectionControl x3; dbg_Option dbg_BranchWeights x4]
  | Loop x0 x1 x2 x3 => DTuple "Loop" [dbg_BlockId x0; dbg_ControlFlowChain x1; dbg_LoopControl x2; dbg_Option dbg_BranchWeights x3]
  | Break => DName "Break"
  | Continue => DName "Continue"
  end.

(* src/spv/logical/control_flow.rs:136-140 *)
Definition dbg_ControlType (x : ControlType) : dtree E :=
  match x with ControlType_Selection => DName "Selection" | ControlType_Loop => DName "Loop" end.

(* src/spv/logical/control_flow.rs:142-150 *)
Definition dbg_ControlFlowError (x : ControlFlowError) : dtree E :=
  match x with
  | DuplicateBlockId x0 => DTuple "DuplicateBlockId" [dbg_BlockId x0]
  | NoBlocks => DName "NoBlocks"
  | UnknownBlockId x0 => DTuple "UnknownBlockId" [dbg_BlockId x0]
  | CouldNotPredictConverge x0 => DTuple "CouldNotPredictConverge" [dbg_BlockId x0]
  | InvalidConvergePrediction x0 x1 => DTuple "InvalidConvergePrediction" [dbg_ControlType x0; dbg_BlockId x1]
  | Failed => DName "Failed"
  end.

(* src/spv/logical/parser/parser.rs:8-15; usize prints like u32 *)
Definition dbg_ValidationError (x : ValidationError) : dtree E :=
  match x with
  | MemoryModelMissing => DName "MemoryModelMissing"
  | ExpectedOpFunction x0 => DTuple "ExpectedOpFunction" [DNumber (N.of_nat x0)]
  | ExpectedOpFunctionEnd x0 => DTuple "ExpectedOpFunctionEnd" [DNumber (N.of_nat x0)]
  | ExpectedBranch x0 => DTuple "ExpectedBranch" [DNumber (N.of_nat x0)]
  | UnexpectedInstruction x0 => DTuple "UnexpectedInstruction" [DNumber (N.of_nat x0)]
  end.

(* src/glsl450/op.rs:7-10 *)
Definition dbg_Sin (x : Sin) : dtree E := DStruct "Sin" [("x", dbg_OpId (Sin_x x))].
(* src/glsl450/op.rs:24-27 *)
Definition dbg_Cos (x : Cos) : dtree E := DStruct "Cos" [("x", dbg_OpId (Cos_x x))].
(* src/glsl450/mod.rs:15-19 *)
Definition dbg_Inst (x : Inst) : dtree E :=
  match x with
  | Inst_Sin x0 => DTuple "Sin" [dbg_Sin x0]
  | Inst_Cos x0 => DTuple "Cos" [dbg_Cos x0]
  end.
End More.
