(** Property theorems about the functions find_control_flow does not understand, C71 and C72.  The vocabulary of the
    statements is in Spec_Flow, Spec_Structured and Spec_Trouble. *)
From Verif Require Import Base Types Ops Groups Glsl450 ControlFlow Spec_Flow Spec_Structured Spec_Trouble Samples Samples_Flow Proofs_Trouble.

(** ** C71 *)
Theorem C71_exact_error : forall E (f : FunctionDefinition E) e, returns f (Err e) <-> trouble_with f (Reported e).
Proof. intros E f e. exact (trouble_iff f (Reported e)). Qed.
Print Assumptions C71_exact_error.

Theorem C71_exact_panic : forall E (f : FunctionDefinition E), returns f Panic <-> trouble_with f NotImplemented.
Proof. intros E f. exact (trouble_iff f NotImplemented). Qed.
Print Assumptions C71_exact_panic.

Theorem C71_one_trouble : forall E (f : FunctionDefinition E) t1 t2, trouble_with f t1 -> trouble_with f t2 -> t1 = t2.
Proof. intros E f t1 t2. exact (trouble_unique f t1 t2). Qed.
Print Assumptions C71_one_trouble.

(** loop_function, but after the selection it returns instead of looping: the exit of block 11 does not lead back to
    the header.  With a condition in block 15 that has no merge instruction the error is that of the inner block. *)
Definition returning : FunctionDefinition Inst := function_of
  (firstn 6 loop_blocks ++ [simple_block 13%N None (GroupBranch_OpReturn Build_OpReturn)] ++ skipn 7 loop_blocks).
Definition undecided : FunctionDefinition Inst := function_of
  (firstn 4 loop_blocks ++ [simple_block 15%N None (branch_on 13%N 16%N None)] ++ skipn 5 loop_blocks).
Definition mismatched : FunctionDefinition Inst := function_of
  (firstn 4 loop_blocks ++ [simple_block 15%N (Some (GroupMerge_OpSelectionMerge (Build_OpSelectionMerge 13%N flatten))) (branch_to 13%N)] ++ skipn 5 loop_blocks).

Ltac absent := cbn; intros H; repeat destruct H as [H|H]; first [discriminate H|exact H].
Ltac present := cbn; repeat first [left; reflexivity|right].
Example C71_example : trouble_with returning (Reported (InvalidConvergePrediction ControlType_Loop 11%N))
  /\ trouble_with undecided (Reported (CouldNotPredictConverge 15%N)) /\ trouble_with mismatched NotImplemented
  /\ find_control_flow 20 returning = Err (InvalidConvergePrediction ControlType_Loop 11%N).
Proof.
  split; [|split; [|split; [|vm_compute; reflexivity]]].
  - apply (trouble_reading _ 9%N); [repeat constructor; absent|eexists _, _; split; reflexivity|].
    apply (wrong_later _ _ _ (Step 9%N) 10%N); [split; [cbn; tauto|intros x [<-|[]]; present]|].
    eapply (wrong_body _ _ _ 10%N 14%N 13%N unroll 11%N); [absent|present|].
    eapply (wrong_exit _ _ 10%N 14%N 11%N 1%N 12%N 14%N _ None); [absent|present|auto| |discriminate].
    exists [Choose 12%N 1%N [Step 15%N] [Step 16%N] flatten None], 13%N. split; [reflexivity|]. split; [|split; [absent|exists None; present]].
    split; [|exact I]. split; [cbn; repeat split; absent|]. intros x [<-|[<-|[<-|[]]]]; present.
  - apply (C71_exact_error _ undecided). split; [discriminate|]. exists 20. vm_compute. reflexivity.
  - apply (C71_exact_panic _ mismatched). split; [discriminate|]. exists 20. vm_compute. reflexivity.
Qed.

(** ** C72 *)
Theorem C72_exact_divergence : forall E (f : FunctionDefinition E), (forall depth, find_control_flow depth f = OutOfFuel) <-> never_ends f.
Proof. intros E f. exact (endless_iff f). Qed.
Print Assumptions C72_exact_divergence.

(** Every function is understood, in trouble, or read forever; only one of them. *)
Theorem C72_classified : forall E (f : FunctionDefinition E),
  ((exists chain, returns f (Ok chain)) \/ (exists t, trouble_with f t) \/ never_ends f)
  /\ ~ ((exists chain, returns f (Ok chain)) /\ (exists t, trouble_with f t))
  /\ ~ ((exists chain, returns f (Ok chain)) /\ never_ends f)
  /\ ~ ((exists t, trouble_with f t) /\ never_ends f).
Proof. intros E f. exact (classified f). Qed.
Print Assumptions C72_classified.

(** A block that branches to itself behind another one. *)
Definition spinning : FunctionDefinition Inst := function_of [simple_block 1%N None (branch_to 2%N); simple_block 2%N None (branch_to 2%N)].
Example C72_example : never_ends spinning /\ ~ never_ends loop_function.
Proof.
  split.
  - split; [repeat constructor; absent|]. exists 1%N. split; [eexists _, _; split; reflexivity|].
    assert (X : endless spinning [] None 2%N).
    { cofix CH. apply (endless_later _ _ _ (Step 2%N) 2%N); [|exact CH]. split; [cbn; tauto|intros x [<-|[]]; present]. }
    apply (endless_later _ _ _ (Step 1%N) 2%N); [|exact X]. split; [cbn; tauto|intros x [<-|[]]; present].
  - intros N. apply C72_exact_divergence with (depth := 20) in N. vm_compute in N. discriminate N.
Qed.
