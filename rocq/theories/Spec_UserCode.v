(** SPECIFICATION of what copying and comparing modules asks of the user's extended instructions, C105 and C106.
    Nothing here knows how the derived clone and eq work. *)
From Verif Require Import Base Types Ops Groups Spec_Layout.

(** The code of functions, in the order of the module. *)
Definition block_code {E} (b : BasicBlock E) : list (Core E) := map core_of_code (BasicBlock_code b).
Definition function_code {E} (f : FunctionDefinition E) : list (Core E) := flat_map block_code (FunctionDefinition_blocks f).
Definition module_code {E} (lm : LogicalModule E) : list (Core E) := flat_map function_code (LogicalModule_function_definitions lm).

(** Values that can only differ in the code of their blocks. *)
Definition same_block {E} (a b : BasicBlock E) : Prop :=
  BasicBlock_label a = BasicBlock_label b /\ length (BasicBlock_code a) = length (BasicBlock_code b)
  /\ BasicBlock_merge a = BasicBlock_merge b /\ BasicBlock_branch a = BasicBlock_branch b.
Definition same_function {E} (f g : FunctionDefinition E) : Prop :=
  FunctionDefinition_function f = FunctionDefinition_function g /\ FunctionDefinition_parameters f = FunctionDefinition_parameters g
  /\ Forall2 same_block (FunctionDefinition_blocks f) (FunctionDefinition_blocks g).
Definition same_module {E} (a b : LogicalModule E) : Prop :=
  LogicalModule_capabilities a = LogicalModule_capabilities b /\ LogicalModule_extensions a = LogicalModule_extensions b
  /\ LogicalModule_ext_inst_imports a = LogicalModule_ext_inst_imports b /\ LogicalModule_memory_model a = LogicalModule_memory_model b
  /\ LogicalModule_entry_points a = LogicalModule_entry_points b /\ LogicalModule_execution_modes a = LogicalModule_execution_modes b
  /\ LogicalModule_debug a = LogicalModule_debug b /\ LogicalModule_annotations a = LogicalModule_annotations b
  /\ LogicalModule_globals a = LogicalModule_globals b /\ LogicalModule_function_declarations a = LogicalModule_function_declarations b
  /\ Forall2 same_function (LogicalModule_function_definitions a) (LogicalModule_function_definitions b).

(** A comparison goes through a list of questions: is some part of the data the same, and what does the user's eq say about two
    extended instructions. *)
Inductive question (E : Type) : Type :=
| Same (P : Prop)
| Ask (x y : E).
Arguments Same {E} P.
Arguments Ask {E} x y.

Section Questions.
Context {E W : Type} (eq : E -> E -> W -> option bool * W).

(** [answers w qs r w']: the questions are put in order, starting in world [w], until one is answered with no or with a panic.
    [r] is the outcome ([None]: a panic), and [w'] the world after that. *)
Inductive answers : W -> list (question E) -> option bool -> W -> Prop :=
| all_answered : forall w, answers w [] (Some true) w
| is_same : forall w (P : Prop) qs r w', P -> answers w qs r w' -> answers w (Same P :: qs) r w'
| is_different : forall w (P : Prop) qs, ~ P -> answers w (Same P :: qs) (Some false) w
| user_says_yes : forall w x y w1 qs r w', eq x y w = (Some true, w1) -> answers w1 qs r w' -> answers w (Ask x y :: qs) r w'
| user_says_no : forall w x y w1 qs, eq x y w = (Some false, w1) -> answers w (Ask x y :: qs) (Some false) w1
| user_panics : forall w x y w1 qs, eq x y w = (None, w1) -> answers w (Ask x y :: qs) None w1.

(** The user is asked only about extended instructions with the same type and ids. *)
Definition about_instructions (a b : Core E) : list (question E) :=
  match a, b with
  | Core_OpExtInst (Build_OpExtInst t r s x), Core_OpExtInst (Build_OpExtInst t' r' s' y) => [Same (t = t' /\ r = r' /\ s = s'); Ask x y]
  | _, _ => [Same (a = b)]
  end.
(** Lists of different lengths differ, whatever is in them. *)
Definition about_lists {A} (about : A -> A -> list (question E)) (a b : list A) : list (question E) :=
  Same (length a = length b) :: flat_map (fun p => about (fst p) (snd p)) (combine a b).
Definition about_raw_modules (a b : RawModule E) : list (question E) :=
  Same (RawModule_version a = RawModule_version b /\ RawModule_generator a = RawModule_generator b /\ RawModule_bound a = RawModule_bound b)
  :: about_lists about_instructions (RawModule_instructions a) (RawModule_instructions b).
Definition about_blocks (a b : BasicBlock E) : list (question E) :=
  [Same (BasicBlock_label a = BasicBlock_label b)] ++ about_lists about_instructions (block_code a) (block_code b)
  ++ [Same (BasicBlock_merge a = BasicBlock_merge b /\ BasicBlock_branch a = BasicBlock_branch b)].
Definition about_functions (f g : FunctionDefinition E) : list (question E) :=
  Same (FunctionDefinition_function f = FunctionDefinition_function g /\ FunctionDefinition_parameters f = FunctionDefinition_parameters g)
  :: about_lists about_blocks (FunctionDefinition_blocks f) (FunctionDefinition_blocks g).
Definition about_modules (a b : LogicalModule E) : list (question E) :=
  Same (LogicalModule_capabilities a = LogicalModule_capabilities b /\ LogicalModule_extensions a = LogicalModule_extensions b
    /\ LogicalModule_ext_inst_imports a = LogicalModule_ext_inst_imports b /\ LogicalModule_memory_model a = LogicalModule_memory_model b
    /\ LogicalModule_entry_points a = LogicalModule_entry_points b /\ LogicalModule_execution_modes a = LogicalModule_execution_modes b
    /\ LogicalModule_debug a = LogicalModule_debug b /\ LogicalModule_annotations a = LogicalModule_annotations b
    /\ LogicalModule_globals a = LogicalModule_globals b
    /\ LogicalModule_function_declarations a = LogicalModule_function_declarations b)
  :: about_lists about_functions (LogicalModule_function_definitions a) (LogicalModule_function_definitions b).

(** The extended instructions of a list of instructions. *)
Definition payloads (l : list (Core E)) : list E :=
  flat_map (fun i => match i with Core_OpExtInst op => [OpExtInst_instruction op] | _ => [] end) l.
(** Starting in [w] the user's eq is called for these pairs in order, and answers yes each time but perhaps the last.  The
    last answer is [last] and the world is [w'] in the end. *)
Inductive called : W -> list (E * E) -> option bool -> W -> Prop :=
| no_call : forall w, called w [] (Some true) w
| last_call : forall w x y r w', eq x y w = (r, w') -> r <> Some true -> called w [(x, y)] r w'
| next_call : forall w x y w1 ps r w', eq x y w = (Some true, w1) -> called w1 ps r w' -> called w ((x, y) :: ps) r w'.
End Questions.
