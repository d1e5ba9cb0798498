(** validate when copying an extended instruction has side effects, src/spv/logical/parser/parser.rs.
    Validate.v takes [clone] for the identity.  The extended instructions are the user's types, and validation copies
    them with the user's Clone, src/spv/mod.rs:34-51: it may count its calls, do I/O, panic, or return something else.
    Here it is a state transformer of a world [W]; [None] is a panic. *)
From Verif Require Import Base Types Ops Groups Validate.

Section State.
Context {E W : Type} (clone : E -> W -> option E * W).

(* a computation that ends in a result and a world *)
(* the Result of src/spv/logical/parser/parser.rs:17, with a world *)
Definition vrun (A : Type) := W -> outcome ValidationError A * W.
(* the Result of src/spv/logical/parser/parser.rs:17, with a world *)
Definition vpure {A} (r : outcome ValidationError A) : vrun A := fun w => (r, w).
(* try!, e.g. src/spv/logical/parser/parser.rs:24 *)
Definition vthen {A B} (m : vrun A) (f : A -> vrun B) : vrun B := fun w =>
  match m w with
  | (Ok a, w) => f a w
  | (Err e, w) => (Err e, w)
  | (Panic, w) => (Panic, w)
  | (OutOfFuel, w) => (OutOfFuel, w)
  end.

(* derive(Clone) of GroupCode (src/spv/logical/mod.rs:68-124) and OpExtInst (src/spv/op.rs:146-152); ExtInstBox and Box<ExtInst>,
   src/spv/mod.rs:38-54.  Only OpExtInst holds user data; copying other data is the identity. *)
Definition clone_GroupCode (g : GroupCode E) : vrun (GroupCode E) := fun w =>
  match g with
  | GroupCode_OpExtInst op =>
      match clone (OpExtInst_instruction op) w with
      | (Some copy, w) => (Ok (GroupCode_OpExtInst
          {| OpExtInst_result_type := OpExtInst_result_type op; OpExtInst_result_id := OpExtInst_result_id op;
             OpExtInst_set := OpExtInst_set op; OpExtInst_instruction := copy |}), w)
      | (None, w) => (Panic, w)
      end
  | g => (Ok g, w)
  end.

(* the argument of src/spv/logical/parser/parser.rs:97 *)
Definition PhaseIn (T : Type) := OpSlice (E := E) -> vrun (PhaseResult (E := E) T).
(* the phases that copy no extended instruction *)
(* the argument of src/spv/logical/parser/parser.rs:97 *)
Definition without_copies {T} (f : Phase (E := E) T) : PhaseIn T := fun s => vpure (f s).

(* src/spv/logical/parser/parser.rs:99-111 (read_rest, recursive); [fuel] bounds the recursion *)
Fixpoint read_rest_in {T} (fuel : nat) (s : OpSlice) (f : PhaseIn T) (output : list T) : vrun (list T * OpSlice) :=
  vthen (f s) (fun r =>
  match r with
  | PhaseOk item next =>
      match fuel with
      | O => vpure OutOfFuel
      | S fuel => read_rest_in fuel next f (output ++ [item])
      end
  | PhaseNext next => vpure (Ok (output, next))
  end).

(* src/spv/logical/parser/parser.rs:96-113 *)
Definition read_many_in {T} (s : OpSlice) (f : PhaseIn T) : vrun (list T * OpSlice) :=
  read_rest_in (get_remaining s) s f [].

(* src/spv/logical/parser/parser.rs:221-227; op.clone() is evaluated before insts.advance() *)
Definition read_code_in : PhaseIn (GroupCode E) := fun s =>
  match first s with
  | Some (OpByBlock_GroupCode op) =>
      vthen (clone_GroupCode op) (fun item =>
      vthen (vpure (advance s)) (fun next => vpure (Ok (PhaseOk item next))))
  | _ => vpure (Ok (PhaseNext s))
  end.

(* src/spv/logical/parser/parser.rs:245-267 *)
Definition read_basic_block_in : PhaseIn (BasicBlock E) := fun s =>
  match first s with
  | Some (OpByBlock_OpLabel op) =>
      let label := op in
      vthen (vpure (advance s)) (fun s =>
      vthen (read_many_in s read_code_in) (fun '(code, s) =>
      vthen (vpure (read_merge s)) (fun '(merge, s) =>
      vthen (vpure (read_branch s)) (fun '(branch, s) =>
      let block := {| BasicBlock_label := label; BasicBlock_code := code;
                      BasicBlock_merge := merge; BasicBlock_branch := branch |} in
      vpure (Ok (PhaseOk block s))))))
  | _ => vpure (Ok (PhaseNext s))
  end.

(* src/spv/logical/parser/parser.rs:269-297 *)
Definition read_function_definition_in : PhaseIn (FunctionDefinition E) := fun s =>
  if get_remaining s <? 2 then vpure (Ok (PhaseNext s)) else
  match first s with
  | Some (OpByBlock_OpFunction op) =>
      vthen (vpure (advance s)) (fun s =>
      vthen (read_many_in s (without_copies read_function_parameter)) (fun '(params, s) =>
      vthen (read_many_in s read_basic_block_in) (fun '(blocks, s) =>
      match first s with
      | Some (OpByBlock_OpFunctionEnd _) =>
          vthen (vpure (advance s)) (fun s =>
          let def := {| FunctionDefinition_function := op; FunctionDefinition_parameters := params;
                        FunctionDefinition_blocks := blocks |} in
          vpure (Ok (PhaseOk def s)))
      | _ => vpure (Err (ExpectedOpFunctionEnd (get_slot s)))
      end)))
  | _ => vpure (Err (ExpectedOpFunction (get_slot s)))
  end.

(* src/spv/logical/parser/parser.rs:19-53.  Into<OpByBlock> moves the instructions, it does not copy them. *)
Definition validate_in (raw : RawModule E) : vrun (LogicalModule E) :=
  let insts_storage := map from_Core (RawModule_instructions raw) in
  let s := slice_new insts_storage in
  vthen (read_many_in s (without_copies read_capability)) (fun '(capabilities, s) =>
  vthen (read_many_in s (without_copies read_extension)) (fun '(extensions, s) =>
  vthen (read_many_in s (without_copies read_ext_inst_import)) (fun '(ext_inst_imports, s) =>
  vthen (vpure (read_memory_model s)) (fun '(memory_model, s) =>
  vthen (read_many_in s (without_copies read_entry_point)) (fun '(entry_points, s) =>
  vthen (read_many_in s (without_copies read_execution_mode)) (fun '(execution_modes, s) =>
  vthen (read_many_in s (without_copies read_debug)) (fun '(debug, s) =>
  vthen (read_many_in s (without_copies read_annotation)) (fun '(annotations, s) =>
  vthen (read_many_in s (without_copies read_global)) (fun '(globals, s) =>
  vthen (read_many_in s (without_copies read_function_declaration)) (fun '(function_declarations, s) =>
  vthen (read_many_in s read_function_definition_in) (fun '(function_definitions, s) =>
  if 0 <? get_remaining s then vpure (Err (UnexpectedInstruction (get_slot s))) else
  vpure (Ok {| LogicalModule_capabilities := capabilities;
        LogicalModule_extensions := extensions;
        LogicalModule_ext_inst_imports := ext_inst_imports;
        LogicalModule_memory_model := memory_model;
        LogicalModule_entry_points := entry_points;
        LogicalModule_execution_modes := execution_modes;
        LogicalModule_debug := debug;
        LogicalModule_annotations := annotations;
        LogicalModule_globals := globals;
        LogicalModule_function_declarations := function_declarations;
        LogicalModule_function_definitions := function_definitions |})))))))))))).

End State.
