(** Functions that obey the rules of the standard and are, or are not, simple (C115). *)
From Verif Require Import Base Types Ops Groups Glsl450 ControlFlow Spec_Flow Samples Samples_Flow Spec_Standard Spec_Returns Spec_Simple Proofs_Flow3 Proofs_Returns Proofs_Rules
  Proofs_SimpleCheck Proofs_Simple Samples_Returns.
Local Open Scope N_scope.

Lemma loop_simple : simple loop_function.
Proof. apply (simple_check_ok _ 9 (entry_1 _ _ : entry loop_function 9)). vm_compute. reflexivity. Qed.

(** [while (a) { if (b) { break; } }]: the loop is left out of the selection. *)
Definition break_function : FunctionDefinition Inst := function_of
  [ simple_block 1 None (branch_to 2);
    simple_block 2 (loop_to 8 7) (branch_to 3);
    simple_block 3 None (branch_on 4 8 None);
    simple_block 4 (Some (GroupMerge_OpSelectionMerge (Build_OpSelectionMerge 6 flatten))) (branch_on 5 6 None);
    simple_block 5 None (branch_to 8);
    simple_block 6 None (branch_to 7);
    simple_block 7 None (branch_to 2);
    simple_block 8 None (GroupBranch_OpReturn Build_OpReturn) ].
Lemma break_rules : NoDup (labels break_function) /\ obeys break_function /\ loops_close break_function /\ merges_reached break_function
  /\ returns break_function (Err (InvalidConvergePrediction ControlType_Selection 4)) /\ ~ simple break_function.
Proof.
  pose proof (entry_1 _ _ : entry break_function 1) as En.
  assert (ND : NoDup (labels break_function)) by (repeat constructor; cbn; intros H; repeat destruct H as [H|H]; first [discriminate H|exact H]).
  assert (OB : obeys break_function) by (apply (check_obeys _ 1 En in_order); vm_compute; reflexivity).
  assert (LC : loops_close break_function) by (apply (close_check_ok _ 1 En); vm_compute; reflexivity).
  assert (RM : merges_reached break_function) by (apply (reached_check_ok _ 1 En); vm_compute; reflexivity).
  assert (RE : find_control_flow (depth_limit break_function) break_function = Err (InvalidConvergePrediction ControlType_Selection 4)) by (vm_compute; reflexivity).
  split; [exact ND|]. split; [exact OB|]. split; [exact LC|]. split; [exact RM|]. split; [apply returns_iff; split; [discriminate|exact RE]|].
  intros SI. destruct OB as (MR & _ & CR). destruct (simple_understood _ _ ND ltac:(discriminate) MR CR LC RM SI) as [c R]. apply returns_iff in R as [_ R]. congruence.
Qed.
