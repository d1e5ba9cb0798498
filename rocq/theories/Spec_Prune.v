(** SPECIFICATION: leaving out the blocks that are not needed, C137. *)
From Verif Require Import Base Types Ops Groups Reader ExtSet Validate ControlFlow Spec_Flow.

(** Whether a chain names a block. *)
Definition needed_for {E} (chain : ControlFlowChain) (b : BasicBlock E) : bool := existsb (N.eqb (label_of b)) (chain_ids chain).

(** [d'] is [d] without the blocks that its control flow does not name. *)
Definition pruned {E} (d d' : FunctionDefinition E) : Prop :=
  FunctionDefinition_function d' = FunctionDefinition_function d /\ FunctionDefinition_parameters d' = FunctionDefinition_parameters d
  /\ exists chain, returns d (Ok chain) /\ FunctionDefinition_blocks d' = filter (needed_for chain) (FunctionDefinition_blocks d).

(** The same module with other function definitions. *)
Definition with_definitions {E} (lm : LogicalModule E) (ds : list (FunctionDefinition E)) : LogicalModule E :=
  Build_LogicalModule (LogicalModule_capabilities lm) (LogicalModule_extensions lm) (LogicalModule_ext_inst_imports lm) (LogicalModule_memory_model lm)
    (LogicalModule_entry_points lm) (LogicalModule_execution_modes lm) (LogicalModule_debug lm) (LogicalModule_annotations lm)
    (LogicalModule_globals lm) (LogicalModule_function_declarations lm) ds.

(** The blocks of [d'] are those of [d] that an execution can reach. *)
Definition reachable_part {E} (d d' : FunctionDefinition E) : Prop :=
  forall b, In b (FunctionDefinition_blocks d') <-> In b (FunctionDefinition_blocks d) /\ reachable d (label_of b).
