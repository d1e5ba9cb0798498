(** validate with the ends of the lives of the objects it owns, src/spv/logical/parser/parser.rs:19-297.
    It takes the module by value, so the user's extended instructions in it go when validation is over, and so do the copies
    it has made if they are not returned.  The extended instructions may implement Drop: when they go is an effect.

    The vector of instructions goes last, because it is declared before everything else; a panic of Clone unwinds in the same
    order as an error.  Not modelled: a Drop that panics, and a build in which panics abort. *)
From Verif Require Import Base Types Ops Groups Validate ValidateState.

Section Owned.
Context {E W : Type} (clone : E -> W -> option E * W) (drop : E -> W -> W).

(* dropping a Vec: from the first element to the last *)
(* src/spv/logical/parser/parser.rs:21, 102, 248, 276 *)
Fixpoint drop_each {A} (drop_one : A -> W -> W) (l : list A) (w : W) : W :=
  match l with
  | [] => w
  | x :: l => drop_each drop_one l (drop_one x w)
  end.

(* only ExtInstBox holds an object of the user, src/spv/op.rs:146-152, src/spv/logical/mod.rs:68-124 *)
Definition drop_GroupCode (g : GroupCode E) (w : W) : W :=
  match g with
  | GroupCode_OpExtInst op => drop (OpExtInst_instruction op) w
  | _ => w
  end.
(* src/spv/logical/parser/mod.rs:17-36 *)
Definition drop_OpByBlock (o : OpByBlock E) (w : W) : W :=
  match o with
  | OpByBlock_GroupCode g => drop_GroupCode g w
  | _ => w
  end.
(* src/spv/logical/mod.rs:217-223 *)
Definition drop_BasicBlock (b : BasicBlock E) : W -> W := drop_each drop_GroupCode (BasicBlock_code b).
(* src/spv/logical/mod.rs:225-230 *)
Definition drop_FunctionDefinition (d : FunctionDefinition E) : W -> W :=
  drop_each drop_BasicBlock (FunctionDefinition_blocks d).
(* the elements of the vectors of the other phases, src/spv/logical/parser/parser.rs:115-219 *)
Definition nothing_to_drop {A} (_ : A) (w : W) : W := w.

(* a computation during which something is owned that is only needed if it succeeds *)
(* try! and the unwinding of a panic, src/spv/logical/parser/parser.rs:103-109, 249-257 *)
Definition holding {A} (go : W -> W) (m : vrun (W := W) A) : vrun (W := W) A := fun w =>
  match m w with
  | (Ok a, w) => (Ok a, w)
  | (Err e, w) => (Err e, go w)
  | (Panic, w) => (Panic, go w)
  | (OutOfFuel, w) => (OutOfFuel, go w)
  end.

(* src/spv/logical/parser/parser.rs:99-111 (read_rest, recursive); [fuel] bounds the recursion.  [output] is moved into
   the next call before it starts *)
Fixpoint read_rest_owned {T} (drop_item : T -> W -> W) (fuel : nat) (s : OpSlice) (f : PhaseIn (W := W) T) (output : list T)
  : vrun (W := W) (list T * OpSlice (E := E)) :=
  vthen (holding (drop_each drop_item output) (f s)) (fun r =>
  match r with
  | PhaseOk item next =>
      match fuel with
      | O => holding (drop_each drop_item (output ++ [item])) (vpure OutOfFuel)
      | S fuel => read_rest_owned drop_item fuel next f (output ++ [item])
      end
  | PhaseNext next => vpure (Ok (output, next))
  end).

(* src/spv/logical/parser/parser.rs:96-113 *)
Definition read_many_owned {T} (drop_item : T -> W -> W) (s : OpSlice) (f : PhaseIn (W := W) T)
  : vrun (W := W) (list T * OpSlice (E := E)) :=
  read_rest_owned drop_item (get_remaining s) s f [].

(* src/spv/logical/parser/parser.rs:221-227; op.clone() is evaluated before insts.advance() *)
Definition read_code_owned : PhaseIn (E := E) (W := W) (GroupCode E) := fun s =>
  match first s with
  | Some (OpByBlock_GroupCode op) =>
      vthen (clone_GroupCode clone op) (fun item =>
      vthen (holding (drop_GroupCode item) (vpure (advance s))) (fun next => vpure (Ok (PhaseOk item next))))
  | _ => vpure (Ok (PhaseNext s))
  end.

(* src/spv/logical/parser/parser.rs:245-267 *)
Definition read_basic_block_owned : PhaseIn (E := E) (W := W) (BasicBlock E) := fun s =>
  match first s with
  | Some (OpByBlock_OpLabel op) =>
      let label := op in
      vthen (vpure (advance s)) (fun s =>
      vthen (read_many_owned drop_GroupCode s read_code_owned) (fun '(code, s) =>
      holding (drop_each drop_GroupCode code) (
      vthen (vpure (read_merge s)) (fun '(merge, s) =>
      vthen (vpure (read_branch s)) (fun '(branch, s) =>
      let block := {| BasicBlock_label := label; BasicBlock_code := code;
                      BasicBlock_merge := merge; BasicBlock_branch := branch |} in
      vpure (Ok (PhaseOk block s)))))))
  | _ => vpure (Ok (PhaseNext s))
  end.

(* src/spv/logical/parser/parser.rs:269-297 *)
Definition read_function_definition_owned : PhaseIn (E := E) (W := W) (FunctionDefinition E) := fun s =>
  if get_remaining s <? 2 then vpure (Ok (PhaseNext s)) else
  match first s with
  | Some (OpByBlock_OpFunction op) =>
      vthen (vpure (advance s)) (fun s =>
      vthen (read_many_owned nothing_to_drop s (without_copies read_function_parameter)) (fun '(params, s) =>
      vthen (read_many_owned drop_BasicBlock s read_basic_block_owned) (fun '(blocks, s) =>
      holding (drop_each drop_BasicBlock blocks) (
      match first s with
      | Some (OpByBlock_OpFunctionEnd _) =>
          vthen (vpure (advance s)) (fun s =>
          let def := {| FunctionDefinition_function := op; FunctionDefinition_parameters := params;
                        FunctionDefinition_blocks := blocks |} in
          vpure (Ok (PhaseOk def s)))
      | _ => vpure (Err (ExpectedOpFunctionEnd (get_slot s)))
      end))))
  | _ => vpure (Err (ExpectedOpFunction (get_slot s)))
  end.

(* src/spv/logical/parser/parser.rs:19-53.  Into<OpByBlock> moves the instructions; the module that is returned has been
   moved out of the local variables when the instructions go *)
Definition validate_owned (raw : RawModule E) : vrun (W := W) (LogicalModule E) := fun w =>
  let insts_storage := map from_Core (RawModule_instructions raw) in
  let s := slice_new insts_storage in
  let (r, w) := (
  vthen (read_many_owned nothing_to_drop s (without_copies read_capability)) (fun '(capabilities, s) =>
  vthen (read_many_owned nothing_to_drop s (without_copies read_extension)) (fun '(extensions, s) =>
  vthen (read_many_owned nothing_to_drop s (without_copies read_ext_inst_import)) (fun '(ext_inst_imports, s) =>
  vthen (vpure (read_memory_model s)) (fun '(memory_model, s) =>
  vthen (read_many_owned nothing_to_drop s (without_copies read_entry_point)) (fun '(entry_points, s) =>
  vthen (read_many_owned nothing_to_drop s (without_copies read_execution_mode)) (fun '(execution_modes, s) =>
  vthen (read_many_owned nothing_to_drop s (without_copies read_debug)) (fun '(debug, s) =>
  vthen (read_many_owned nothing_to_drop s (without_copies read_annotation)) (fun '(annotations, s) =>
  vthen (read_many_owned nothing_to_drop s (without_copies read_global)) (fun '(globals, s) =>
  vthen (read_many_owned nothing_to_drop s (without_copies read_function_declaration)) (fun '(function_declarations, s) =>
  vthen (read_many_owned drop_FunctionDefinition s read_function_definition_owned) (fun '(function_definitions, s) =>
  holding (drop_each drop_FunctionDefinition function_definitions) (
  if 0 <? get_remaining s then vpure (Err (UnexpectedInstruction (get_slot s))) else
  vpure (Ok {| LogicalModule_capabilities := capabilities;
        LogicalModule_extensions := extensions;
        LogicalModule_ext_inst_imports := ext_inst_imports;
        LogicalModule_memory_model := memory_model;
        LogicalModule_entry_points := entry_points;
        LogicalModule_execution_modes := execution_modes;
        LogicalModule_debug := debug;
        LogicalModule_annotations := annotations;
        LogicalModule_globals := globals;
        LogicalModule_function_declarations := function_declarations;
        LogicalModule_function_definitions := function_definitions |}))))))))))))) w) in
  (r, drop_each drop_OpByBlock insts_storage w).

End Owned.
