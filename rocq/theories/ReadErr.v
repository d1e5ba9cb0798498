(* GENERATED by tools/gen.py from /repo; do not edit by hand. *)
From Verif Require Import Base Types.

(* src/spv/raw/mod.rs:260-302 *)
(* &'static str and String payloads are strings *)
Inductive ReadError : Type :=
| UnexpectedEndOfStream
| UnexpectedStreamAlignment
| BadMagic
| UnknownVersionBytes (_ : N) (_ : N) (_ : N) (_ : N)
| UnknownVersion (_ : Version)
| UnknownReservedSchema
| UnknownOp (_ : N) (_ : N)
| UnimplementedOp (_ : string)
| WrongWordCountForOp
| InvalidString
| UnexpectedEndOfInstruction
| InstructionHadExcessData
| UnknownInstSet (_ : string)
| UnknownInstSetId (_ : OpId)
| UnknownExtInstOp (_ : string) (_ : N)
| DuplicateResultId (_ : ResultId)
| UnknownAddressingModel (_ : N)
| UnknownMemoryModel (_ : N)
| UnknownExecutionModel (_ : N)
| UnknownExecutionMode (_ : N)
| UnknownCapability (_ : N)
| UnknownDecoration (_ : N)
| UnknownBuiltIn (_ : N)
| UnknownFpRoundingMode (_ : N)
| UnknownFpFastMathMode (_ : N)
| UnknownLinkageType (_ : N)
| UnknownSignedness (_ : N)
| UnknownStorageClass (_ : N)
| UnknownFunctionParameterAttribute (_ : N)
| UnknownMemoryAccess (_ : N)
| UnknownDim (_ : N)
| UnknownDepthStatus (_ : N)
| UnknownArrayed (_ : N)
| UnknownMS (_ : N)
| UnknownSampledStatus (_ : N)
| UnknownImageFormat (_ : N)
| UnknownAccessQualifier (_ : N)
| UnknownLoopControl (_ : N)
| UnknownSelectionControl (_ : N).
