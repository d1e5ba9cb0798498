(** SPECIFICATION: executions of a function with another one inlined, C122.  Nothing here knows how find_control_flow works. *)
From Verif Require Import Base Types Ops Groups ControlFlow Spec_Layout Spec_Flow Spec_Inline Spec_Machine.

(** Executions of [h] put in where block [cut] was executed, a different one each time if there are several: the first part of the block, what [h] does until it returns, and the second part [n], which decides what the block decided. *)
Inductive with_inlined {E : Type} (h : FunctionDefinition E) (cut n : BlockId) : list event -> list event -> Prop :=
| inlined_nothing : with_inlined h cut n [] []
| inlined_other : forall e t t', fst e <> cut -> with_inlined h cut n t t' -> with_inlined h cut n (e :: t) (e :: t')
| inlined_there : forall decision inner t t', complete_run h inner -> with_inlined h cut n t t' ->
    with_inlined h cut n ((cut, decision) :: t) ((cut, None) :: inner ++ (n, decision) :: t').

(** [f] can execute the blocks [t] and is then about to execute block [j]. *)
Definition gets_to {E : Type} (f : FunctionDefinition E) (t : list event) (j : BlockId) : Prop := exists id, entry f id /\ walk f id t (Some j).

(** The same with the instructions in the blocks, C139.  The first part of the block has the instructions [code1], the second part the others; the blocks of [h] keep theirs. *)
Definition going_on_block {E : Type} (n : BlockId) (b : BasicBlock E) : BasicBlock E :=
  match BasicBlock_branch b with
  | GroupBranch_OpReturn _ => Build_BasicBlock (BasicBlock_label b) (BasicBlock_code b) None (GroupBranch_OpBranch (Build_OpBranch n))
  | _ => b
  end.
Definition inlined_after {E : Type} (f h g : FunctionDefinition E) (cut : BasicBlock E) (n : BlockId) (code1 : list (GroupCode E)) : Prop :=
  exists before after start code2,
    FunctionDefinition_blocks f = before ++ cut :: after /\ BasicBlock_code cut = code1 ++ code2 /\ entry h start
    /\ FunctionDefinition_blocks g
       = before ++ Build_BasicBlock (BasicBlock_label cut) code1 None (GroupBranch_OpBranch (Build_OpBranch start))
         :: map (going_on_block n) (FunctionDefinition_blocks h)
         ++ Build_BasicBlock (Build_OpLabel n) code2 (BasicBlock_merge cut) (BasicBlock_branch cut) :: after
    /\ ~ used f n /\ ~ used h n /\ (forall id, used f id -> ~ used h id).

(** What is done with other work put in: wherever block [cut] was entered and [code1] was done, then something that [called] can do, and the label [n] is passed. *)
Inductive with_work {E : Type} (called : list (action E) -> Prop) (cut n : BlockId) (code1 : list (GroupCode E)) : list (action E) -> list (action E) -> Prop :=
| work_nothing : with_work called cut n code1 [] []
| work_other : forall x a a', x <> Enters cut -> with_work called cut n code1 a a' -> with_work called cut n code1 (x :: a) (x :: a')
| work_there : forall inner a a', called inner -> with_work called cut n code1 a a' ->
    with_work called cut n code1 (Enters cut :: map (fun i => Does (core_of_code i)) code1 ++ a)
                                 (Enters cut :: map (fun i => Does (core_of_code i)) code1 ++ inner ++ Enters n :: a').

(** What has been done at some moment: as above, and the last time it can still be in [code1] or in the work put in. *)
Inductive with_work_begun {E : Type} (called begun : list (action E) -> Prop) (cut n : BlockId) (code1 : list (GroupCode E)) : list (action E) -> list (action E) -> Prop :=
| begun_nothing : with_work_begun called begun cut n code1 [] []
| begun_other : forall x a a', x <> Enters cut -> with_work_begun called begun cut n code1 a a' -> with_work_begun called begun cut n code1 (x :: a) (x :: a')
| begun_there : forall inner a a', called inner -> with_work_begun called begun cut n code1 a a' ->
    with_work_begun called begun cut n code1 (Enters cut :: map (fun i => Does (core_of_code i)) code1 ++ a)
                                             (Enters cut :: map (fun i => Does (core_of_code i)) code1 ++ inner ++ Enters n :: a')
| begun_before : forall some more, code1 = some ++ more ->
    with_work_begun called begun cut n code1 (Enters cut :: map (fun i => Does (core_of_code i)) some) (Enters cut :: map (fun i => Does (core_of_code i)) some)
| begun_inside : forall inner, begun inner ->
    with_work_begun called begun cut n code1 (Enters cut :: map (fun i => Does (core_of_code i)) code1) (Enters cut :: map (fun i => Does (core_of_code i)) code1 ++ inner).
