(** SPECIFICATION: what the instructions of a rewritten function do, C139. *)
From Verif Require Import Base Types Ops Groups Reader ControlFlow Spec_Layout Spec_Machine Spec_Renumber.

Section Rewrite.
Context {E : Type}.

(** The instructions of the function [d] stand in [m] from position [pc] on. *)
Definition stands_at (m : RawModule E) (pc : nat) (d : FunctionDefinition E) : Prop :=
  exists pre post, RawModule_instructions m = pre ++ write_definition d ++ post /\ length pre = pc.

(** Executing the instructions of [m] from position [pc] on can amount to [a] when they have returned. *)
Definition can_do (m : RawModule E) (pc : nat) (a : list (action E)) : Prop := run (RawModule_instructions m) pc a None.
(** It can amount to [a] at some moment. *)
Definition can_begin_with (m : RawModule E) (pc : nat) (a : list (action E)) : Prop := exists pc', run (RawModule_instructions m) pc a (Some pc').

(** The same action, in terms of the block of which this one is a copy. *)
Definition origin_action (origin : BlockId -> BlockId) (x : action E) : action E :=
  match x with Enters id => Enters (origin id) | Does i => Does i | Decides condition holds => Decides condition holds end.

(** The same action with other numbers for ids. *)
Definition renumber_action (f : N -> N) (g : E -> E) (x : action E) : action E :=
  match x with Enters id => Enters (f id) | Does i => Does (renumber f g i) | Decides condition holds => Decides (f condition) holds end.

(** Actions without passing the label [n]. *)
Definition without_entering (n : BlockId) (a : list (action E)) : list (action E) :=
  filter (fun x => match x with Enters id => negb (N.eqb id n) | _ => true end) a.

(** Two blocks have the same instructions and, if both decide, decide on the same condition. *)
Definition works_like (b b' : BasicBlock E) : Prop :=
  BasicBlock_code b' = BasicBlock_code b
  /\ match BasicBlock_branch b, BasicBlock_branch b' with
     | GroupBranch_OpBranchConditional op, GroupBranch_OpBranchConditional op' => OpBranchConditional_condition op' = OpBranchConditional_condition op
     | _, _ => True
     end.
Definition same_work (f g : FunctionDefinition E) : Prop := Forall2 works_like (FunctionDefinition_blocks f) (FunctionDefinition_blocks g).

(** In the chosen blocks, conditions turn out the other way; [here] is the block in which the actions start. *)
Fixpoint turned_in (chosen : BlockId -> bool) (here : BlockId) (a : list (action E)) : list (action E) :=
  match a with
  | [] => []
  | Enters id :: rest => Enters id :: turned_in chosen id rest
  | Does i :: rest => Does i :: turned_in chosen here rest
  | Decides condition holds :: rest => Decides condition (if chosen here then negb holds else holds) :: turned_in chosen here rest
  end.
(** Actions that start by passing a label. *)
Definition with_decisions_turned (chosen : BlockId -> bool) (a : list (action E)) : list (action E) := turned_in chosen 0%N a.

End Rewrite.
