(** Executing the flat list of instructions of a module, one after the other, with jumps to labels.  Nothing here
    knows about blocks, groups or how the validator and the search for control flow work; [performs] at the end says
    which instructions the blocks of a chain stand for. *)
From Verif Require Import Base Types Ops Groups ControlFlow Spec_Layout Spec_Flow.

(** What is observed: a label is passed, an ordinary instruction is executed, a condition turns out true or false. *)
Inductive action (E : Type) : Type :=
| Enters (block : BlockId)
| Does (i : Core E)
| Decides (condition : OpId) (holds : bool).
Arguments Enters {E}.
Arguments Does {E}.
Arguments Decides {E}.

Section Machine.
Context {E : Type}.

(** Instructions that have no effect of their own: the beginning of a function and the merge instructions. *)
Definition passive (i : Core E) : bool :=
  match i with Core_OpFunction _ | Core_OpFunctionParameter _ | Core_OpLoopMerge _ | Core_OpSelectionMerge _ => true | _ => false end.
(** Instructions that do something and go on to the next one. *)
Definition ordinary (i : Core E) : bool :=
  match i with
  | Core_OpFunction _ | Core_OpFunctionParameter _ | Core_OpFunctionEnd _ | Core_OpLabel _ | Core_OpLoopMerge _ | Core_OpSelectionMerge _
  | Core_OpBranch _ | Core_OpBranchConditional _ | Core_OpReturn _ => false
  | _ => true
  end.

(** From position [pc], a jump to [target] goes to position [pc']: the label is there, in the same function. *)
Definition jump (l : list (Core E)) (pc : nat) (target : OpId) (pc' : nat) : Prop :=
  nth_error l pc' = Some (Core_OpLabel (Build_OpLabel target))
  /\ forall k i, Nat.min pc pc' <= k <= Nat.max pc pc' -> nth_error l k = Some i ->
       match i with Core_OpFunction _ | Core_OpFunctionEnd _ => False | _ => True end.

(** [run l pc a d]: from position [pc], the instructions [l] can do [a]; afterwards they have returned ([d] is None) or
    are at position [pc'] ([d] is Some pc'). *)
Inductive run (l : list (Core E)) : nat -> list (action E) -> option nat -> Prop :=
| run_here : forall pc, run l pc [] (Some pc)
| run_passive : forall pc i a d,
    nth_error l pc = Some i -> passive i = true -> run l (S pc) a d -> run l pc a d
| run_label : forall pc op a d,
    nth_error l pc = Some (Core_OpLabel op) -> run l (S pc) a d -> run l pc (Enters (OpLabel_result_id op) :: a) d
| run_does : forall pc i a d,
    nth_error l pc = Some i -> ordinary i = true -> run l (S pc) a d -> run l pc (Does i :: a) d
| run_branch : forall pc op pc' a d,
    nth_error l pc = Some (Core_OpBranch op) -> jump l pc (OpBranch_target_label op) pc' -> run l pc' a d -> run l pc a d
| run_conditional : forall pc op (holds : bool) pc' a d,
    nth_error l pc = Some (Core_OpBranchConditional op) ->
    jump l pc (if holds then OpBranchConditional_true_label op else OpBranchConditional_false_label op) pc' -> run l pc' a d ->
    run l pc (Decides (OpBranchConditional_condition op) holds :: a) d
| run_return : forall pc op, nth_error l pc = Some (Core_OpReturn op) -> run l pc [] None.

(** What executing a block amounts to: its label, its instructions, and the decision at its end if it makes one. *)
Definition block_actions (b : BasicBlock E) (decision : option bool) : list (action E) :=
  Enters (label_of b) :: map (fun i => Does (core_of_code i)) (BasicBlock_code b)
  ++ match BasicBlock_branch b, decision with
     | GroupBranch_OpBranchConditional op, Some holds => [Decides (OpBranchConditional_condition op) holds]
     | _, _ => []
     end.

(** [performs d t a]: executing the blocks [t] of function [d] amounts to [a]. *)
Inductive performs (d : FunctionDefinition E) : list event -> list (action E) -> Prop :=
| performs_nothing : performs d [] []
| performs_block : forall id b decision t a, has_block d id b -> performs d t a ->
    performs d ((id, decision) :: t) (block_actions b decision ++ a).

End Machine.
