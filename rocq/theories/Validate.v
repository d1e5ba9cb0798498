(** validate, src/spv/logical/parser/parser.rs. *)
From Verif Require Import Base Types Ops Groups.

(* src/spv/logical/parser/parser.rs:8-15 *)
Inductive ValidationError : Type :=
| MemoryModelMissing
| ExpectedOpFunction (_ : nat)
| ExpectedOpFunctionEnd (_ : nat)
| ExpectedBranch (_ : nat)
| UnexpectedInstruction (_ : nat).

Section Validate.
Context {E : Type}.

(* src/spv/logical/parser/parser.rs:55-59 *)
Record OpSlice : Type := Build_OpSlice { insts : list (OpByBlock E); index : nat }.

(* src/spv/logical/parser/parser.rs:62-67 *)
Definition slice_new (l : list (OpByBlock E)) : OpSlice := Build_OpSlice l 0.

(* src/spv/logical/parser/parser.rs:68-74 *)
Definition first (s : OpSlice) : option (OpByBlock E) :=
  if index s <? length (insts s) then nth_error (insts s) (index s) else None.

(* src/spv/logical/parser/parser.rs:75-81; the assert! is a panic *)
Definition advance (s : OpSlice) : outcome ValidationError OpSlice :=
  if index s <? length (insts s) then Ok (Build_OpSlice (insts s) (index s + 1)) else Panic.

(* src/spv/logical/parser/parser.rs:82-84 *)
Definition get_slot (s : OpSlice) : nat := index s.

(* src/spv/logical/parser/parser.rs:85-87.  usize subtraction; index <= len always. *)
Definition get_remaining (s : OpSlice) : nat := length (insts s) - index s.

(* src/spv/logical/parser/parser.rs:90-94.  PhaseResult::Err is the Err of [outcome]. *)
Inductive PhaseResult (T : Type) : Type :=
| PhaseOk (item : T) (next : OpSlice)
| PhaseNext (next : OpSlice).
Arguments PhaseOk {T}.
Arguments PhaseNext {T}.

(* the argument of src/spv/logical/parser/parser.rs:97 *)
Definition Phase (T : Type) := OpSlice -> outcome ValidationError (PhaseResult T).

(* src/spv/logical/parser/parser.rs:99-111 (read_rest, recursive); [fuel] bounds the recursion *)
Fixpoint read_rest {T} (fuel : nat) (s : OpSlice) (f : Phase T) (output : list T)
  : outcome ValidationError (list T * OpSlice) :=
  let! r := f s in
  match r with
  | PhaseOk item next =>
      match fuel with
      | O => OutOfFuel
      | S fuel => read_rest fuel next f (output ++ [item])
      end
  | PhaseNext next => Ok (output, next)
  end.

(* src/spv/logical/parser/parser.rs:96-113 *)
Definition read_many {T} (s : OpSlice) (f : Phase T) : outcome ValidationError (list T * OpSlice) :=
  read_rest (get_remaining s) s f [].

(* The shape shared by the single-instruction phases: `if let Some(&OpByBlock::X(ref op)) =
   insts.first() { PhaseResult::Ok(.., insts.advance()) } else { PhaseResult::Next(insts) }` *)
(* e.g. src/spv/logical/parser/parser.rs:115-121 *)
Definition one {T} (pick : OpByBlock E -> option T) : Phase T := fun s =>
  match first s with
  | Some o =>
      match pick o with
      | Some item => let! next := advance s in Ok (PhaseOk item next)
      | None => Ok (PhaseNext s)
      end
  | None => Ok (PhaseNext s)
  end.

(* src/spv/logical/parser/parser.rs:115-121 *)
Definition read_capability : Phase Capability :=
  one (fun o => match o with OpByBlock_OpCapability op => Some (OpCapability_capability op) | _ => None end).
(* src/spv/logical/parser/parser.rs:123-129 *)
Definition read_extension : Phase string :=
  one (fun o => match o with OpByBlock_OpExtension op => Some (OpExtension_name op) | _ => None end).
(* src/spv/logical/parser/parser.rs:131-137 *)
Definition read_ext_inst_import : Phase OpExtInstImport :=
  one (fun o => match o with OpByBlock_OpExtInstImport op => Some op | _ => None end).
(* src/spv/logical/parser/parser.rs:139-145 *)
Definition read_memory_model (s : OpSlice) : outcome ValidationError (OpMemoryModel * OpSlice) :=
  match first s with
  | Some (OpByBlock_OpMemoryModel op) => let! next := advance s in Ok (op, next)
  | _ => Err MemoryModelMissing
  end.
(* src/spv/logical/parser/parser.rs:147-153 *)
Definition read_entry_point : Phase OpEntryPoint :=
  one (fun o => match o with OpByBlock_OpEntryPoint op => Some op | _ => None end).
(* src/spv/logical/parser/parser.rs:155-161 *)
Definition read_execution_mode : Phase OpExecutionMode :=
  one (fun o => match o with OpByBlock_OpExecutionMode op => Some op | _ => None end).
(* src/spv/logical/parser/parser.rs:163-169 *)
Definition read_debug : Phase GroupDebug :=
  one (fun o => match o with OpByBlock_GroupDebug op => Some op | _ => None end).
(* src/spv/logical/parser/parser.rs:171-177 *)
Definition read_annotation : Phase GroupAnnotation :=
  one (fun o => match o with OpByBlock_GroupAnnotation op => Some op | _ => None end).
(* src/spv/logical/parser/parser.rs:179-185 *)
Definition read_global : Phase GroupGlobal :=
  one (fun o => match o with OpByBlock_GroupGlobal op => Some op | _ => None end).
(* src/spv/logical/parser/parser.rs:187-193 *)
Definition read_function_parameter : Phase OpFunctionParameter :=
  one (fun o => match o with OpByBlock_OpFunctionParameter op => Some op | _ => None end).

(* src/spv/logical/parser/parser.rs:195-219 *)
Definition read_function_declaration : Phase FunctionDeclaration := fun s =>
  let start_insts := s in
  if get_remaining s <? 2 then Ok (PhaseNext s) else
  match first s with
  | Some (OpByBlock_OpFunction op) =>
      let! s := advance s in
      let! (params, s) := read_many s read_function_parameter in
      match first s with
      | Some (OpByBlock_OpFunctionEnd _) =>
          let decl := {| FunctionDeclaration_function := op; FunctionDeclaration_parameters := params |} in
          let! s := advance s in
          Ok (PhaseOk decl s)
      | _ => Ok (PhaseNext start_insts)
      end
  | _ => Err (ExpectedOpFunction (get_slot s))
  end.

(* src/spv/logical/parser/parser.rs:221-227 *)
Definition read_code : Phase (GroupCode E) :=
  one (fun o => match o with OpByBlock_GroupCode op => Some op | _ => None end).

(* src/spv/logical/parser/parser.rs:229-235 *)
Definition read_branch (s : OpSlice) : outcome ValidationError (GroupBranch * OpSlice) :=
  match first s with
  | Some (OpByBlock_GroupBranch op) => let! next := advance s in Ok (op, next)
  | _ => Err (ExpectedBranch (get_slot s))
  end.

(* src/spv/logical/parser/parser.rs:237-243 *)
Definition read_merge (s : OpSlice) : outcome ValidationError (option GroupMerge * OpSlice) :=
  match first s with
  | Some (OpByBlock_GroupMerge op) => let! next := advance s in Ok (Some op, next)
  | _ => Ok (None, s)
  end.

(* src/spv/logical/parser/parser.rs:245-267 *)
Definition read_basic_block : Phase (BasicBlock E) := fun s =>
  match first s with
  | Some (OpByBlock_OpLabel op) =>
      let label := op in
      let! s := advance s in
      let! (code, s) := read_many s read_code in
      let! (merge, s) := read_merge s in
      let! (branch, s) := read_branch s in
      let block := {| BasicBlock_label := label; BasicBlock_code := code;
                      BasicBlock_merge := merge; BasicBlock_branch := branch |} in
      Ok (PhaseOk block s)
  | _ => Ok (PhaseNext s)
  end.

(* src/spv/logical/parser/parser.rs:269-297 *)
Definition read_function_definition : Phase (FunctionDefinition E) := fun s =>
  if get_remaining s <? 2 then Ok (PhaseNext s) else
  match first s with
  | Some (OpByBlock_OpFunction op) =>
      let! s := advance s in
      let! (params, s) := read_many s read_function_parameter in
      let! (blocks, s) := read_many s read_basic_block in
      match first s with
      | Some (OpByBlock_OpFunctionEnd _) =>
          let! s := advance s in
          let def := {| FunctionDefinition_function := op; FunctionDefinition_parameters := params;
                        FunctionDefinition_blocks := blocks |} in
          Ok (PhaseOk def s)
      | _ => Err (ExpectedOpFunctionEnd (get_slot s))
      end
  | _ => Err (ExpectedOpFunction (get_slot s))
  end.

(* src/spv/logical/parser/parser.rs:19-53 *)
Definition validate (raw : RawModule E) : outcome ValidationError (LogicalModule E) :=
  let insts_storage := map from_Core (RawModule_instructions raw) in
  let s := slice_new insts_storage in
  let! (capabilities, s) := read_many s read_capability in
  let! (extensions, s) := read_many s read_extension in
  let! (ext_inst_imports, s) := read_many s read_ext_inst_import in
  let! (memory_model, s) := read_memory_model s in
  let! (entry_points, s) := read_many s read_entry_point in
  let! (execution_modes, s) := read_many s read_execution_mode in
  let! (debug, s) := read_many s read_debug in
  let! (annotations, s) := read_many s read_annotation in
  let! (globals, s) := read_many s read_global in
  let! (function_declarations, s) := read_many s read_function_declaration in
  let! (function_definitions, s) := read_many s read_function_definition in
  if 0 <? get_remaining s then Err (UnexpectedInstruction (get_slot s)) else
  Ok {| LogicalModule_capabilities := capabilities;
        LogicalModule_extensions := extensions;
        LogicalModule_ext_inst_imports := ext_inst_imports;
        LogicalModule_memory_model := memory_model;
        LogicalModule_entry_points := entry_points;
        LogicalModule_execution_modes := execution_modes;
        LogicalModule_debug := debug;
        LogicalModule_annotations := annotations;
        LogicalModule_globals := globals;
        LogicalModule_function_declarations := function_declarations;
        LogicalModule_function_definitions := function_definitions |}.

End Validate.
Arguments PhaseOk {E T}.
Arguments PhaseNext {E T}.
