(** validate, src/spv/logical/parser/parser.rs, once more, with the depth of its recursion made visible: [stack] is how
    many calls of read_rest may be active at the same time.  Otherwise the same functions as in Validate.v; C80 relates
    the two. *)
From Verif Require Import Base Types Ops Groups Validate.

Section Within.
Context {E : Type}.

(** A phase that is told how many more calls of read_rest may be active. *)
(* the argument of src/spv/logical/parser/parser.rs:97 *)
Definition PhaseWithin (T : Type) := nat -> OpSlice (E := E) -> outcome ValidationError (PhaseResult (E := E) T).

(* src/spv/logical/parser/parser.rs:99-111.  The call of [f] and the recursive call are made while this call is active. *)
Fixpoint read_rest_within {T} (stack : nat) (s : OpSlice) (f : PhaseWithin T) (output : list T)
  : outcome ValidationError (list T * OpSlice) :=
  match stack with
  | O => OutOfFuel
  | S stack =>
      let! r := f stack s in
      match r with
      | PhaseOk item next => read_rest_within stack next f (output ++ [item])
      | PhaseNext next => Ok (output, next)
      end
  end.

(* src/spv/logical/parser/parser.rs:96-113 *)
Definition read_many_within {T} (stack : nat) (s : OpSlice) (f : PhaseWithin T) : outcome ValidationError (list T * OpSlice) :=
  read_rest_within stack s f [].

(* src/spv/logical/parser/parser.rs:115-193: phases that make no calls of read_rest *)
Definition simple {T} (f : Phase (E := E) T) : PhaseWithin T := fun _ s => f s.

(* src/spv/logical/parser/parser.rs:195-219 *)
Definition read_function_declaration_within : PhaseWithin FunctionDeclaration := fun stack s =>
  let start_insts := s in
  if get_remaining s <? 2 then Ok (PhaseNext s) else
  match first s with
  | Some (OpByBlock_OpFunction op) =>
      let! s := advance s in
      let! (params, s) := read_many_within stack s (simple read_function_parameter) in
      match first s with
      | Some (OpByBlock_OpFunctionEnd _) =>
          let decl := {| FunctionDeclaration_function := op; FunctionDeclaration_parameters := params |} in
          let! s := advance s in
          Ok (PhaseOk decl s)
      | _ => Ok (PhaseNext start_insts)
      end
  | _ => Err (ExpectedOpFunction (get_slot s))
  end.

(* src/spv/logical/parser/parser.rs:245-267 *)
Definition read_basic_block_within : PhaseWithin (BasicBlock E) := fun stack s =>
  match first s with
  | Some (OpByBlock_OpLabel op) =>
      let label := op in
      let! s := advance s in
      let! (code, s) := read_many_within stack s (simple read_code) in
      let! (merge, s) := read_merge s in
      let! (branch, s) := read_branch s in
      let block := {| BasicBlock_label := label; BasicBlock_code := code;
                      BasicBlock_merge := merge; BasicBlock_branch := branch |} in
      Ok (PhaseOk block s)
  | _ => Ok (PhaseNext s)
  end.

(* src/spv/logical/parser/parser.rs:269-297 *)
Definition read_function_definition_within : PhaseWithin (FunctionDefinition E) := fun stack s =>
  if get_remaining s <? 2 then Ok (PhaseNext s) else
  match first s with
  | Some (OpByBlock_OpFunction op) =>
      let! s := advance s in
      let! (params, s) := read_many_within stack s (simple read_function_parameter) in
      let! (blocks, s) := read_many_within stack s read_basic_block_within in
      match first s with
      | Some (OpByBlock_OpFunctionEnd _) =>
          let! s := advance s in
          let def := {| FunctionDefinition_function := op; FunctionDefinition_parameters := params;
                        FunctionDefinition_blocks := blocks |} in
          Ok (PhaseOk def s)
      | _ => Err (ExpectedOpFunctionEnd (get_slot s))
      end
  | _ => Err (ExpectedOpFunction (get_slot s))
  end.

(* src/spv/logical/parser/parser.rs:19-53 *)
Definition validate_within (stack : nat) (raw : RawModule E) : outcome ValidationError (LogicalModule E) :=
  let insts_storage := map from_Core (RawModule_instructions raw) in
  let s := slice_new insts_storage in
  let! (capabilities, s) := read_many_within stack s (simple read_capability) in
  let! (extensions, s) := read_many_within stack s (simple read_extension) in
  let! (ext_inst_imports, s) := read_many_within stack s (simple read_ext_inst_import) in
  let! (memory_model, s) := read_memory_model s in
  let! (entry_points, s) := read_many_within stack s (simple read_entry_point) in
  let! (execution_modes, s) := read_many_within stack s (simple read_execution_mode) in
  let! (debug, s) := read_many_within stack s (simple read_debug) in
  let! (annotations, s) := read_many_within stack s (simple read_annotation) in
  let! (globals, s) := read_many_within stack s (simple read_global) in
  let! (function_declarations, s) := read_many_within stack s read_function_declaration_within in
  let! (function_definitions, s) := read_many_within stack s read_function_definition_within in
  if 0 <? get_remaining s then Err (UnexpectedInstruction (get_slot s)) else
  Ok {| LogicalModule_capabilities := capabilities;
        LogicalModule_extensions := extensions;
        LogicalModule_ext_inst_imports := ext_inst_imports;
        LogicalModule_memory_model := memory_model;
        LogicalModule_entry_points := entry_points;
        LogicalModule_execution_modes := execution_modes;
        LogicalModule_debug := debug;
        LogicalModule_annotations := annotations;
        LogicalModule_globals := globals;
        LogicalModule_function_declarations := function_declarations;
        LogicalModule_function_definitions := function_definitions |}.

End Within.
