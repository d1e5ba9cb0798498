(** Property theorems about whole runs of the library, from the instructions of a module to the structured form of its
    functions, C78 and C79.  The vocabulary of the statements is in Spec_Machine, Spec_Layout, Spec_Flow, Spec_Wire and
    Spec_Structured. *)
From Coq Require Import Permutation.
From Verif Require Import Base Types Ops ReadErr ReadBase ExtSet ReadOps Reader Glsl450 Groups Validate ControlFlow
  Spec_Tables Spec_Wire Spec_Layout Spec_Flow Spec_Structured Spec_Machine Samples Samples_Flow Proofs_Machine Proofs_EndToEnd.

(** ** C78 *)
(** The functions are found in the module. *)
Theorem C78_written_in_module : forall E (m : RawModule E) lm d, validate m = Ok lm -> In d (LogicalModule_function_definitions lm) ->
  exists pre post, RawModule_instructions m = pre ++ write_definition d ++ post.
Proof. exact written_somewhere. Qed.
Print Assumptions C78_written_in_module.

(** Executed from where the function starts, the instructions do what the chain does. *)
Theorem C78_complete_executions : forall E (m : RawModule E) pre d post, RawModule_instructions m = pre ++ write_definition d ++ post ->
  forall depth chain, find_control_flow depth d = Ok chain ->
  forall a, run (RawModule_instructions m) (length pre) a None <-> exists t, exec chain t Normal /\ performs d t a.
Proof. intros E m pre d post Q depth chain H a. rewrite Q. exact (chain_complete E d depth chain H pre post a). Qed.
Print Assumptions C78_complete_executions.

(** At every moment of an execution, the instructions have done a beginning of what the chain does. *)
Theorem C78_executions_so_far : forall E (m : RawModule E) pre d post, RawModule_instructions m = pre ++ write_definition d ++ post ->
  forall depth chain, find_control_flow depth d = Ok chain ->
  forall a, (exists pc, run (RawModule_instructions m) (length pre) a (Some pc)) <-> exists t e a', exec chain t e /\ performs d t (a ++ a').
Proof. intros E m pre d post Q depth chain H a. rewrite Q. exact (chain_prefix E d depth chain H pre post a). Qed.
Print Assumptions C78_executions_so_far.

(** if (1) { undef } with a nop before it. *)
Definition if_function : FunctionDefinition Inst := function_of
  [ Build_BasicBlock (Build_OpLabel 10%N) [GroupCode_OpNop Build_OpNop]
      (Some (GroupMerge_OpSelectionMerge (Build_OpSelectionMerge 12%N flatten))) (branch_on 11%N 12%N None);
    Build_BasicBlock (Build_OpLabel 11%N) [GroupCode_OpUndef (Build_OpUndef 2%N 20%N)] None (branch_to 12%N);
    simple_block 12%N None (GroupBranch_OpReturn Build_OpReturn) ].
Definition if_module : RawModule Inst :=
  module_of (Core_OpMemoryModel (Build_OpMemoryModel AddressingModel_Logical MemoryModel_Simple) :: write_definition if_function).
Example C78_example :
  (exists lm, validate if_module = Ok lm /\ In if_function (LogicalModule_function_definitions lm))
  /\ (exists chain, find_control_flow 9 if_function = Ok chain)
  /\ run (RawModule_instructions if_module) 1
       [Enters 10%N; Does (Core_OpNop Build_OpNop); Decides 1%N true; Enters 11%N; Does (Core_OpUndef (Build_OpUndef 2%N 20%N)); Enters 12%N] None.
Proof.
  split; [|split].
  - eexists. split; [vm_compute; reflexivity|left; reflexivity].
  - eexists. vm_compute. reflexivity.
  - eapply run_passive; [reflexivity|reflexivity|]. apply (run_label _ _ (Build_OpLabel 10%N)); [reflexivity|]. eapply run_does; [reflexivity|reflexivity|].
    eapply run_passive; [reflexivity|reflexivity|]. apply (run_conditional _ 5 (Build_OpBranchConditional 1%N 11%N 12%N None) true 6); [reflexivity| |].
    { split; [reflexivity|]. intros k i R. do 7 (destruct k as [|k]; [intros [= <-]; first [exact I|exfalso; cbn in R; lia]|]). cbn in R. lia. }
    apply (run_label _ _ (Build_OpLabel 11%N)); [reflexivity|]. eapply run_does; [reflexivity|reflexivity|].
    apply (run_branch _ 8 (Build_OpBranch 12%N) 9); [reflexivity| |].
    { split; [reflexivity|]. intros k i R. do 10 (destruct k as [|k]; [intros [= <-]; first [exact I|exfalso; cbn in R; lia]|]). cbn in R. lia. }
    apply (run_label _ _ (Build_OpLabel 12%N)); [reflexivity|]. eapply run_return. reflexivity.
Qed.

(** ** C79 *)
Theorem C79_end_to_end : forall E (known : list (ExtInstSet E)) o m payload lm programs,
  encodable known m payload -> RawModule_instructions m = write_module lm -> canonical lm ->
  Forall2 (fun f '(program, last) => written_from f program last) (LogicalModule_function_definitions lm) programs ->
  read_module (encode_module o m payload) known = Ok m
  /\ validate m = Ok lm
  /\ Forall2 (fun f '(program, last) => returns f (Ok (program_chain program last))) (LogicalModule_function_definitions lm) programs.
Proof. exact end_to_end. Qed.
Print Assumptions C79_end_to_end.

(** What the instructions of such a function do is what the program says. *)
Theorem C79_program_executes : forall E (m : RawModule E) pre f post program last, RawModule_instructions m = pre ++ write_definition f ++ post ->
  written_from f program last ->
  forall a, run (RawModule_instructions m) (length pre) a None <-> exists t, exec (program_chain program last) t Normal /\ performs f t a.
Proof. exact program_executes. Qed.
Print Assumptions C79_program_executes.

Definition if_program : list statement := [Choose 10 1 [Step 11] [] flatten None]%N.
Example C79_example : exists lm payload, encodable [InstSet] if_module payload /\ RawModule_instructions if_module = write_module lm /\ canonical lm
  /\ Forall2 (fun f '(program, last) => written_from f program last) (LogicalModule_function_definitions lm) [(if_program, 12%N)]
  /\ program_chain if_program 12%N = Block [Selection 10 (Block [Atom 11]) (Block []) flatten None; Atom 12]%N.
Proof.
  assert (V : exists lm, validate if_module = Ok lm /\ LogicalModule_function_definitions lm = [if_function]) by (eexists; split; vm_compute; reflexivity).
  destruct V as (lm & V & D). exists lm. apply Proofs_Layout.validate_iff in V as [W C].
  assert (R : exists p, encodable [InstSet] if_module p).
  { assert (R : read_module (encode_module LittleEndian if_module []) [InstSet] = Ok if_module) by (vm_compute; reflexivity).
    destruct (Proofs_Encode.accepted_normalises _ _ _ R) as (p & H & _). exists p. exact H. }
  destruct R as [p R]. exists p. split; [exact R|]. split; [exact W|]. split; [exact C|]. split; [|reflexivity]. rewrite D.
  repeat constructor.
  - cbn. intros H. repeat destruct H as [H|H]; first [discriminate H|exact H].
  - cbn. intros H. repeat destruct H as [H|H]; first [discriminate H|exact H].
  - cbn. tauto.
  - exists None. reflexivity.
  - eexists _, _. split; reflexivity.
Qed.
