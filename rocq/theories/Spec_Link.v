(** SPECIFICATION: putting valid files together and taking them apart, C134. *)
From Verif Require Import Base Types Ops Groups Reader ExtSet Validate Spec_Order.

(** The parts of two modules one after the other, with the memory model of the first. *)
Definition link {E} (a b : LogicalModule E) : LogicalModule E :=
  Build_LogicalModule
    (LogicalModule_capabilities a ++ LogicalModule_capabilities b)
    (LogicalModule_extensions a ++ LogicalModule_extensions b)
    (LogicalModule_ext_inst_imports a ++ LogicalModule_ext_inst_imports b)
    (LogicalModule_memory_model a)
    (LogicalModule_entry_points a ++ LogicalModule_entry_points b)
    (LogicalModule_execution_modes a ++ LogicalModule_execution_modes b)
    (LogicalModule_debug a ++ LogicalModule_debug b)
    (LogicalModule_annotations a ++ LogicalModule_annotations b)
    (LogicalModule_globals a ++ LogicalModule_globals b)
    (LogicalModule_function_declarations a ++ LogicalModule_function_declarations b)
    (LogicalModule_function_definitions a ++ LogicalModule_function_definitions b).

(** There is a file that is read and accepted as this module. *)
Definition has_file {E} (known : list (ExtInstSet E)) (lm : LogicalModule E) : Prop :=
  exists data m, read_module data known = Ok m /\ validate m = Ok lm.

(** No import of [a] has the id of an import of [b]. *)
Definition imports_apart {E} (a b : LogicalModule E) : Prop :=
  forall x y, In x (LogicalModule_ext_inst_imports a) -> In y (LogicalModule_ext_inst_imports b) ->
  OpExtInstImport_result_id x <> OpExtInstImport_result_id y.

(** Every part of [b] holds only things of the same part of [a], in any order and number. *)
Record taken_from {E} (a b : LogicalModule E) : Prop := Build_taken_from {
  taken_capabilities : incl (LogicalModule_capabilities b) (LogicalModule_capabilities a);
  taken_extensions : incl (LogicalModule_extensions b) (LogicalModule_extensions a);
  taken_imports : incl (LogicalModule_ext_inst_imports b) (LogicalModule_ext_inst_imports a);
  taken_memory_model : LogicalModule_memory_model b = LogicalModule_memory_model a;
  taken_entry_points : incl (LogicalModule_entry_points b) (LogicalModule_entry_points a);
  taken_execution_modes : incl (LogicalModule_execution_modes b) (LogicalModule_execution_modes a);
  taken_debug : incl (LogicalModule_debug b) (LogicalModule_debug a);
  taken_annotations : incl (LogicalModule_annotations b) (LogicalModule_annotations a);
  taken_globals : incl (LogicalModule_globals b) (LogicalModule_globals a);
  taken_declarations : incl (LogicalModule_function_declarations b) (LogicalModule_function_declarations a);
  taken_definitions : incl (LogicalModule_function_definitions b) (LogicalModule_function_definitions a) }.

(** The set of every extended instruction in a function is imported. *)
Definition sets_imported {E} (lm : LogicalModule E) : Prop := forall f b x, In f (LogicalModule_function_definitions lm) -> In b (FunctionDefinition_blocks f) ->
  In (GroupCode_OpExtInst x) (BasicBlock_code b) -> In (OpExtInst_set x) (map OpExtInstImport_result_id (LogicalModule_ext_inst_imports lm)).

(** No two imports have the same id. *)
Definition import_ids_differ {E} (lm : LogicalModule E) : Prop := NoDup (map OpExtInstImport_result_id (LogicalModule_ext_inst_imports lm)).
