(** Copying and comparing whole modules when the user's extended instructions have side effects: derive(Clone) and
    derive(PartialEq) of the types that hold extended instructions.
    Equality.v takes [eq] of the user's instructions for a function, and everywhere else [clone] is the identity.  The
    extended instructions are the user's types, with their own Clone (src/spv/mod.rs:34-51) and their own eq
    (src/spv/mod.rs:29, 57-61), which may count their calls, do I/O, panic, or answer differently each time.
    Here both are state transformers of a world [W]; [None] is a panic. *)
From Verif Require Import Base Types Ops Groups EqBase Equality.

Section Clone.
Context {E W : Type} (clone : E -> W -> option E * W).

(* a computation that ends in a value or a panic, and a world *)
(* fn clone(&self) -> Self, e.g. src/spv/mod.rs:48 *)
Definition crun (A : Type) := W -> option A * W.
(* a value that holds no user data, e.g. src/spv/raw/mod.rs:18 *)
Definition cpure {A} (a : A) : crun A := fun w => (Some a, w).
(* the next field, e.g. src/spv/raw/mod.rs:15-25 *)
Definition cthen {A B} (m : crun A) (f : A -> crun B) : crun B := fun w =>
  match m w with (Some a, w) => f a w | (None, w) => (None, w) end.

(* Clone of Vec<T>: the elements in order; used by derive(Clone), e.g. src/spv/raw/mod.rs:15 *)
Fixpoint clone_Vec_in {A} (clone_item : A -> crun A) (l : list A) : crun (list A) :=
  match l with
  | [] => cpure []
  | a :: l => cthen (clone_item a) (fun a => cthen (clone_Vec_in clone_item l) (fun l => cpure (a :: l)))
  end.

(* src/spv/op.rs:146-152; ExtInstBox and Box<ExtInst>, src/spv/mod.rs:38-55 *)
Definition clone_OpExtInst_in (op : OpExtInst E) : crun (OpExtInst E) :=
  cthen (clone (OpExtInst_instruction op)) (fun copy =>
  cpure {| OpExtInst_result_type := OpExtInst_result_type op; OpExtInst_result_id := OpExtInst_result_id op;
           OpExtInst_set := OpExtInst_set op; OpExtInst_instruction := copy |}).

(* src/spv/raw/mod.rs:52-152; copying an instruction without user data is the identity *)
Definition clone_Core_in (i : Core E) : crun (Core E) :=
  match i with
  | Core_OpExtInst op => cthen (clone_OpExtInst_in op) (fun op => cpure (Core_OpExtInst op))
  | i => cpure i
  end.

(* src/spv/raw/mod.rs:15-25 *)
Definition clone_RawModule_in (m : RawModule E) : crun (RawModule E) :=
  cthen (clone_Vec_in clone_Core_in (RawModule_instructions m)) (fun instructions =>
  cpure {| RawModule_version := RawModule_version m; RawModule_generator := RawModule_generator m;
           RawModule_bound := RawModule_bound m; RawModule_instructions := instructions |}).

(* src/spv/logical/mod.rs:68-124 *)
Definition clone_GroupCode_in (g : GroupCode E) : crun (GroupCode E) :=
  match g with
  | GroupCode_OpExtInst op => cthen (clone_OpExtInst_in op) (fun op => cpure (GroupCode_OpExtInst op))
  | g => cpure g
  end.

(* src/spv/logical/mod.rs:217-223 *)
Definition clone_BasicBlock_in (b : BasicBlock E) : crun (BasicBlock E) :=
  cthen (clone_Vec_in clone_GroupCode_in (BasicBlock_code b)) (fun code =>
  cpure {| BasicBlock_label := BasicBlock_label b; BasicBlock_code := code;
           BasicBlock_merge := BasicBlock_merge b; BasicBlock_branch := BasicBlock_branch b |}).

(* src/spv/logical/mod.rs:225-230 *)
Definition clone_FunctionDefinition_in (f : FunctionDefinition E) : crun (FunctionDefinition E) :=
  cthen (clone_Vec_in clone_BasicBlock_in (FunctionDefinition_blocks f)) (fun blocks =>
  cpure {| FunctionDefinition_function := FunctionDefinition_function f;
           FunctionDefinition_parameters := FunctionDefinition_parameters f; FunctionDefinition_blocks := blocks |}).

(* src/spv/logical/mod.rs:232-245 *)
Definition clone_LogicalModule_in (lm : LogicalModule E) : crun (LogicalModule E) :=
  cthen (clone_Vec_in clone_FunctionDefinition_in (LogicalModule_function_definitions lm)) (fun definitions =>
  cpure {| LogicalModule_capabilities := LogicalModule_capabilities lm;
           LogicalModule_extensions := LogicalModule_extensions lm;
           LogicalModule_ext_inst_imports := LogicalModule_ext_inst_imports lm;
           LogicalModule_memory_model := LogicalModule_memory_model lm;
           LogicalModule_entry_points := LogicalModule_entry_points lm;
           LogicalModule_execution_modes := LogicalModule_execution_modes lm;
           LogicalModule_debug := LogicalModule_debug lm;
           LogicalModule_annotations := LogicalModule_annotations lm;
           LogicalModule_globals := LogicalModule_globals lm;
           LogicalModule_function_declarations := LogicalModule_function_declarations lm;
           LogicalModule_function_definitions := definitions |}).
End Clone.

Section Equal.
Context {E W : Type} (eq : E -> E -> W -> option bool * W).

(* a comparison that answers or panics, and leaves a world *)
(* fn eq(&self, other: &Self) -> bool, e.g. src/spv/mod.rs:58 *)
Definition erun := W -> option bool * W.
(* comparing data without user data, e.g. src/spv/raw/mod.rs:18 *)
Definition epure (b : bool) : erun := fun w => (Some b, w).
(* the && between the fields in derive(PartialEq), e.g. src/spv/raw/mod.rs:15 *)
Definition eand (m n : erun) : erun := fun w =>
  match m w with
  | (Some true, w) => n w
  | (Some false, w) => (Some false, w)
  | (None, w) => (None, w)
  end.

(* the elements of two slices of the same length, in order, up to the first that differ *)
(* used by derive(PartialEq), e.g. src/spv/raw/mod.rs:15 *)
Fixpoint eq_items_in {A} (eq_item : A -> A -> erun) (a b : list A) : erun :=
  match a, b with
  | x :: a, y :: b => eand (eq_item x y) (eq_items_in eq_item a b)
  | _, _ => epure true
  end.
(* PartialEq of Vec<T>: the lengths first; used by derive(PartialEq), e.g. src/spv/raw/mod.rs:15 *)
Definition eq_Vec_in {A} (eq_item : A -> A -> erun) (a b : list A) : erun :=
  eand (epure (length a =? length b)) (eq_items_in eq_item a b).

(* src/spv/op.rs:146-152; ExtInstBox, src/spv/mod.rs:57-61 *)
Definition eq_OpExtInst_in (a b : OpExtInst E) : erun :=
  eand (epure (N.eqb (OpExtInst_result_type a) (OpExtInst_result_type b)))
  (eand (epure (N.eqb (OpExtInst_result_id a) (OpExtInst_result_id b)))
  (eand (epure (N.eqb (OpExtInst_set a) (OpExtInst_set b)))
  (eq (OpExtInst_instruction a) (OpExtInst_instruction b)))).

(* src/spv/raw/mod.rs:52-152; all but two extended instructions are compared without the user's code *)
Definition eq_Core_in (a b : Core E) : erun :=
  match a, b with
  | Core_OpExtInst x, Core_OpExtInst y => eq_OpExtInst_in x y
  | a, b => epure (eq_Core (fun _ _ => false) a b)
  end.

(* src/spv/raw/mod.rs:15-25 *)
Definition eq_RawModule_in (a b : RawModule E) : erun :=
  eand (epure (eq_Version (RawModule_version a) (RawModule_version b)))
  (eand (epure (eq_Generator (RawModule_generator a) (RawModule_generator b)))
  (eand (epure (N.eqb (RawModule_bound a) (RawModule_bound b)))
  (eq_Vec_in eq_Core_in (RawModule_instructions a) (RawModule_instructions b)))).

(* src/spv/logical/mod.rs:68-124 *)
Definition eq_GroupCode_in (a b : GroupCode E) : erun :=
  match a, b with
  | GroupCode_OpExtInst x, GroupCode_OpExtInst y => eq_OpExtInst_in x y
  | a, b => epure (eq_GroupCode (fun _ _ => false) a b)
  end.

(* src/spv/logical/mod.rs:217-223 *)
Definition eq_BasicBlock_in (a b : BasicBlock E) : erun :=
  eand (epure (eq_OpLabel (BasicBlock_label a) (BasicBlock_label b)))
  (eand (eq_Vec_in eq_GroupCode_in (BasicBlock_code a) (BasicBlock_code b))
  (eand (epure (eq_Option eq_GroupMerge (BasicBlock_merge a) (BasicBlock_merge b)))
  (epure (eq_GroupBranch (BasicBlock_branch a) (BasicBlock_branch b))))).

(* src/spv/logical/mod.rs:225-230 *)
Definition eq_FunctionDefinition_in (a b : FunctionDefinition E) : erun :=
  eand (epure (eq_OpFunction (FunctionDefinition_function a) (FunctionDefinition_function b)))
  (eand (epure (eq_Vec eq_OpFunctionParameter (FunctionDefinition_parameters a) (FunctionDefinition_parameters b)))
  (eq_Vec_in eq_BasicBlock_in (FunctionDefinition_blocks a) (FunctionDefinition_blocks b))).

(* src/spv/logical/mod.rs:232-245 *)
Definition eq_LogicalModule_in (a b : LogicalModule E) : erun :=
  eand (epure (eq_Vec eq_Capability (LogicalModule_capabilities a) (LogicalModule_capabilities b)))
  (eand (epure (eq_Vec String.eqb (LogicalModule_extensions a) (LogicalModule_extensions b)))
  (eand (epure (eq_Vec eq_OpExtInstImport (LogicalModule_ext_inst_imports a) (LogicalModule_ext_inst_imports b)))
  (eand (epure (eq_OpMemoryModel (LogicalModule_memory_model a) (LogicalModule_memory_model b)))
  (eand (epure (eq_Vec eq_OpEntryPoint (LogicalModule_entry_points a) (LogicalModule_entry_points b)))
  (eand (epure (eq_Vec eq_OpExecutionMode (LogicalModule_execution_modes a) (LogicalModule_execution_modes b)))
  (eand (epure (eq_Vec eq_GroupDebug (LogicalModule_debug a) (LogicalModule_debug b)))
  (eand (epure (eq_Vec eq_GroupAnnotation (LogicalModule_annotations a) (LogicalModule_annotations b)))
  (eand (epure (eq_Vec eq_GroupGlobal (LogicalModule_globals a) (LogicalModule_globals b)))
  (eand (epure (eq_Vec eq_FunctionDeclaration (LogicalModule_function_declarations a) (LogicalModule_function_declarations b)))
  (eq_Vec_in eq_FunctionDefinition_in (LogicalModule_function_definitions a) (LogicalModule_function_definitions b))))))))))).
End Equal.
