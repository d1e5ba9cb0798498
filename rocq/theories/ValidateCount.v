(** validate, src/spv/logical/parser/parser.rs, once more, counting how often it looks at an instruction, that is the
    calls of OpSlice::first.  Otherwise the same functions as in Validate.v; C98 relates the two. *)
From Verif Require Import Base Types Ops Groups Validate.

(** A result and the number of looks taken. *)
(* the Result of src/spv/logical/parser/parser.rs:17, with a count *)
Definition looked (A : Type) : Type := outcome ValidationError A * nat.
(* the Result of src/spv/logical/parser/parser.rs:17, with a count *)
Definition unlooked {A} (r : outcome ValidationError A) : looked A := (r, 0).
(* try!, e.g. src/spv/logical/parser/parser.rs:24 *)
Definition looked_bind {A B} (x : looked A) (f : A -> looked B) : looked B :=
  match x with
  | (Ok v, n) => let (r, n') := f v in (r, n + n')
  | (Err e, n) => (Err e, n)
  | (Panic, n) => (Panic, n)
  | (OutOfFuel, n) => (OutOfFuel, n)
  end.
Local Notation "'let+' x := e1 'in' e2" := (looked_bind e1 (fun x => e2)) (at level 200, x pattern, e1 at level 200, e2 at level 200).

Section Count.
Context {E : Type}.

(* src/spv/logical/parser/parser.rs:68-74: one look *)
Definition first_counted (s : OpSlice (E := E)) : looked (option (OpByBlock E)) := (Ok (first s), 1).
(* src/spv/logical/parser/parser.rs:75-81: no look *)
Definition advance_counted (s : OpSlice (E := E)) : looked (OpSlice (E := E)) := unlooked (advance s).

(* the argument of src/spv/logical/parser/parser.rs:97 *)
Definition PhaseCounted (T : Type) := OpSlice (E := E) -> looked (PhaseResult (E := E) T).

(* src/spv/logical/parser/parser.rs:99-111; [fuel] bounds the recursion *)
Fixpoint read_rest_counted {T} (fuel : nat) (s : OpSlice) (f : PhaseCounted T) (output : list T) : looked (list T * OpSlice) :=
  let+ r := f s in
  match r with
  | PhaseOk item next =>
      match fuel with
      | O => unlooked OutOfFuel
      | S fuel => read_rest_counted fuel next f (output ++ [item])
      end
  | PhaseNext next => unlooked (Ok (output, next))
  end.

(* src/spv/logical/parser/parser.rs:96-113 *)
Definition read_many_counted {T} (s : OpSlice) (f : PhaseCounted T) : looked (list T * OpSlice) :=
  read_rest_counted (get_remaining s) s f [].

(* e.g. src/spv/logical/parser/parser.rs:115-121 *)
Definition one_counted {T} (pick : OpByBlock E -> option T) : PhaseCounted T := fun s =>
  let+ x := first_counted s in
  match x with
  | Some o =>
      match pick o with
      | Some item => let+ next := advance_counted s in unlooked (Ok (PhaseOk item next))
      | None => unlooked (Ok (PhaseNext s))
      end
  | None => unlooked (Ok (PhaseNext s))
  end.

(* src/spv/logical/parser/parser.rs:115-121 *)
Definition read_capability_counted : PhaseCounted Capability :=
  one_counted (fun o => match o with OpByBlock_OpCapability op => Some (OpCapability_capability op) | _ => None end).
(* src/spv/logical/parser/parser.rs:123-129 *)
Definition read_extension_counted : PhaseCounted string :=
  one_counted (fun o => match o with OpByBlock_OpExtension op => Some (OpExtension_name op) | _ => None end).
(* src/spv/logical/parser/parser.rs:131-137 *)
Definition read_ext_inst_import_counted : PhaseCounted OpExtInstImport :=
  one_counted (fun o => match o with OpByBlock_OpExtInstImport op => Some op | _ => None end).
(* src/spv/logical/parser/parser.rs:139-145 *)
Definition read_memory_model_counted (s : OpSlice) : looked (OpMemoryModel * OpSlice) :=
  let+ x := first_counted s in
  match x with
  | Some (OpByBlock_OpMemoryModel op) => let+ next := advance_counted s in unlooked (Ok (op, next))
  | _ => unlooked (Err MemoryModelMissing)
  end.
(* src/spv/logical/parser/parser.rs:147-153 *)
Definition read_entry_point_counted : PhaseCounted OpEntryPoint :=
  one_counted (fun o => match o with OpByBlock_OpEntryPoint op => Some op | _ => None end).
(* src/spv/logical/parser/parser.rs:155-161 *)
Definition read_execution_mode_counted : PhaseCounted OpExecutionMode :=
  one_counted (fun o => match o with OpByBlock_OpExecutionMode op => Some op | _ => None end).
(* src/spv/logical/parser/parser.rs:163-169 *)
Definition read_debug_counted : PhaseCounted GroupDebug :=
  one_counted (fun o => match o with OpByBlock_GroupDebug op => Some op | _ => None end).
(* src/spv/logical/parser/parser.rs:171-177 *)
Definition read_annotation_counted : PhaseCounted GroupAnnotation :=
  one_counted (fun o => match o with OpByBlock_GroupAnnotation op => Some op | _ => None end).
(* src/spv/logical/parser/parser.rs:179-185 *)
Definition read_global_counted : PhaseCounted GroupGlobal :=
  one_counted (fun o => match o with OpByBlock_GroupGlobal op => Some op | _ => None end).
(* src/spv/logical/parser/parser.rs:187-193 *)
Definition read_function_parameter_counted : PhaseCounted OpFunctionParameter :=
  one_counted (fun o => match o with OpByBlock_OpFunctionParameter op => Some op | _ => None end).

(* src/spv/logical/parser/parser.rs:195-219 *)
Definition read_function_declaration_counted : PhaseCounted FunctionDeclaration := fun s =>
  let start_insts := s in
  if get_remaining s <? 2 then unlooked (Ok (PhaseNext s)) else
  let+ x := first_counted s in
  match x with
  | Some (OpByBlock_OpFunction op) =>
      let+ s := advance_counted s in
      let+ (params, s) := read_many_counted s read_function_parameter_counted in
      let+ y := first_counted s in
      match y with
      | Some (OpByBlock_OpFunctionEnd _) =>
          let decl := {| FunctionDeclaration_function := op; FunctionDeclaration_parameters := params |} in
          let+ s := advance_counted s in
          unlooked (Ok (PhaseOk decl s))
      | _ => unlooked (Ok (PhaseNext start_insts))
      end
  | _ => unlooked (Err (ExpectedOpFunction (get_slot s)))
  end.

(* src/spv/logical/parser/parser.rs:221-227 *)
Definition read_code_counted : PhaseCounted (GroupCode E) :=
  one_counted (fun o => match o with OpByBlock_GroupCode op => Some op | _ => None end).

(* src/spv/logical/parser/parser.rs:229-235 *)
Definition read_branch_counted (s : OpSlice) : looked (GroupBranch * OpSlice) :=
  let+ x := first_counted s in
  match x with
  | Some (OpByBlock_GroupBranch op) => let+ next := advance_counted s in unlooked (Ok (op, next))
  | _ => unlooked (Err (ExpectedBranch (get_slot s)))
  end.

(* src/spv/logical/parser/parser.rs:237-243 *)
Definition read_merge_counted (s : OpSlice) : looked (option GroupMerge * OpSlice) :=
  let+ x := first_counted s in
  match x with
  | Some (OpByBlock_GroupMerge op) => let+ next := advance_counted s in unlooked (Ok (Some op, next))
  | _ => unlooked (Ok (None, s))
  end.

(* src/spv/logical/parser/parser.rs:245-267 *)
Definition read_basic_block_counted : PhaseCounted (BasicBlock E) := fun s =>
  let+ x := first_counted s in
  match x with
  | Some (OpByBlock_OpLabel op) =>
      let label := op in
      let+ s := advance_counted s in
      let+ (code, s) := read_many_counted s read_code_counted in
      let+ (merge, s) := read_merge_counted s in
      let+ (branch, s) := read_branch_counted s in
      let block := {| BasicBlock_label := label; BasicBlock_code := code;
                      BasicBlock_merge := merge; BasicBlock_branch := branch |} in
      unlooked (Ok (PhaseOk block s))
  | _ => unlooked (Ok (PhaseNext s))
  end.

(* src/spv/logical/parser/parser.rs:269-297 *)
Definition read_function_definition_counted : PhaseCounted (FunctionDefinition E) := fun s =>
  if get_remaining s <? 2 then unlooked (Ok (PhaseNext s)) else
  let+ x := first_counted s in
  match x with
  | Some (OpByBlock_OpFunction op) =>
      let+ s := advance_counted s in
      let+ (params, s) := read_many_counted s read_function_parameter_counted in
      let+ (blocks, s) := read_many_counted s read_basic_block_counted in
      let+ y := first_counted s in
      match y with
      | Some (OpByBlock_OpFunctionEnd _) =>
          let+ s := advance_counted s in
          let def := {| FunctionDefinition_function := op; FunctionDefinition_parameters := params;
                        FunctionDefinition_blocks := blocks |} in
          unlooked (Ok (PhaseOk def s))
      | _ => unlooked (Err (ExpectedOpFunctionEnd (get_slot s)))
      end
  | _ => unlooked (Err (ExpectedOpFunction (get_slot s)))
  end.

(* src/spv/logical/parser/parser.rs:19-53 *)
Definition validate_counted (raw : RawModule E) : looked (LogicalModule E) :=
  let insts_storage := map from_Core (RawModule_instructions raw) in
  let s := slice_new insts_storage in
  let+ (capabilities, s) := read_many_counted s read_capability_counted in
  let+ (extensions, s) := read_many_counted s read_extension_counted in
  let+ (ext_inst_imports, s) := read_many_counted s read_ext_inst_import_counted in
  let+ (memory_model, s) := read_memory_model_counted s in
  let+ (entry_points, s) := read_many_counted s read_entry_point_counted in
  let+ (execution_modes, s) := read_many_counted s read_execution_mode_counted in
  let+ (debug, s) := read_many_counted s read_debug_counted in
  let+ (annotations, s) := read_many_counted s read_annotation_counted in
  let+ (globals, s) := read_many_counted s read_global_counted in
  let+ (function_declarations, s) := read_many_counted s read_function_declaration_counted in
  let+ (function_definitions, s) := read_many_counted s read_function_definition_counted in
  if 0 <? get_remaining s then unlooked (Err (UnexpectedInstruction (get_slot s))) else
  unlooked (Ok {| LogicalModule_capabilities := capabilities;
        LogicalModule_extensions := extensions;
        LogicalModule_ext_inst_imports := ext_inst_imports;
        LogicalModule_memory_model := memory_model;
        LogicalModule_entry_points := entry_points;
        LogicalModule_execution_modes := execution_modes;
        LogicalModule_debug := debug;
        LogicalModule_annotations := annotations;
        LogicalModule_globals := globals;
        LogicalModule_function_declarations := function_declarations;
        LogicalModule_function_definitions := function_definitions |}).

End Count.
