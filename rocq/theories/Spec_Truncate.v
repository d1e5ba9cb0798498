(** SPECIFICATION: reading and validating the first bytes of a file, C135. *)
From Verif Require Import Base Types Ops Groups Reader ExtSet Validate Spec_Tables Spec_Layout Spec_Neighbours.

(** What validate says about the start of an accepted instruction list: it depends on its last instruction. *)
Definition verdict_at_end {E} (start : list (Core E)) : option ValidationError :=
  match last_kind start with
  | None | Some (KCapability | KExtension | KImport) => Some MemoryModelMissing
  | Some (KMemoryModel | KEntryPoint | KExecutionMode | KDebug | KAnnotation | KGlobal | KFunctionEnd) => None
  | Some KFunction => Some (UnexpectedInstruction (length start - 1))
  | Some (KParameter | KTerminator) => Some (ExpectedOpFunctionEnd (length start))
  | Some (KLabel | KCode | KMerge) => Some (ExpectedBranch (length start))
  end.

(** The first [k] bytes are read and accepted. *)
Definition accepted_cut {E} (known : list (ExtInstSet E)) (data : list ascii) (k : nat) : Prop :=
  exists m lm, read_module (firstn k data) known = Ok m /\ validate m = Ok lm.

(** Everything that follows the memory model, functions counted as one. *)
Definition things_after_memory_model {E} (lm : LogicalModule E) : nat :=
  length (LogicalModule_entry_points lm) + length (LogicalModule_execution_modes lm) + length (LogicalModule_debug lm) + length (LogicalModule_annotations lm)
  + length (LogicalModule_globals lm) + length (LogicalModule_function_declarations lm) + length (LogicalModule_function_definitions lm).
