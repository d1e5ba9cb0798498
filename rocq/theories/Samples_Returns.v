(** Functions that obey the rules of the standard, and whose control flow the search does or does not find (C114). *)
From Verif Require Import Base Types Ops Groups Glsl450 ControlFlow Spec_Flow Samples Samples_Flow Spec_Standard Spec_Returns Proofs_Flow3 Proofs_Returns Proofs_Rules.
Local Open Scope N_scope.

Definition loop_to (merge continue : BlockId) : option GroupMerge := Some (GroupMerge_OpLoopMerge (Build_OpLoopMerge merge continue unroll)).

(** [loop { body }] without an exit; the block after it cannot be reached, and branches to itself. *)
Definition endless_function : FunctionDefinition Inst := function_of
  [ simple_block 1 None (branch_to 2);
    simple_block 2 (loop_to 4 3) (branch_to 3);
    simple_block 3 None (branch_to 2);
    simple_block 4 None (branch_to 4) ].
(** A loop that starts again from the block after it. *)
Definition late_function : FunctionDefinition Inst := function_of
  [ simple_block 1 None (branch_to 2);
    simple_block 2 (loop_to 4 4) (branch_to 3);
    simple_block 3 None (branch_to 4);
    simple_block 4 None (branch_to 2) ].
(** Two loops, one of which is entered and left in its middle. *)
Definition crossed_function : FunctionDefinition Inst := function_of
  [ simple_block 1 None (branch_to 2);
    simple_block 2 (loop_to 5 6) (branch_to 3);
    simple_block 3 (loop_to 6 5) (branch_to 4);
    simple_block 4 None (branch_on 5 6 None);
    simple_block 5 None (branch_to 3);
    simple_block 6 None (branch_to 2) ].

Definition in_order (id : BlockId) : nat := N.to_nat id.
Definition loop_order (id : BlockId) : nat := match id with 15 | 16 => 13 | 13 => 17 | 14 => 18 | x => N.to_nat x end.

Lemma entry_1 : forall (b : BasicBlock Inst) r, entry (function_of (b :: r)) (label_of b).
Proof. intros b r. exists b, r. split; reflexivity. Qed.
Lemma diverges : forall E (f : FunctionDefinition E), find_control_flow (depth_limit f) f = OutOfFuel -> ~ exists r, returns f r.
Proof. intros E f Q (r & R). apply returns_iff in R as [N R]. congruence. Qed.

Lemma endless_obeys : NoDup (labels endless_function) /\ obeys endless_function /\ loops_close endless_function /\ ~ exists r, returns endless_function r.
Proof.
  pose proof (entry_1 _ _ : entry endless_function 1) as En. split; [|split; [|split]].
  - repeat constructor; cbn; intros H; repeat destruct H as [H|H]; first [discriminate H|exact H].
  - apply (check_obeys _ 1 En in_order). vm_compute. reflexivity.
  - apply (close_check_ok _ 1 En). vm_compute. reflexivity.
  - apply diverges. vm_compute. reflexivity.
Qed.
Lemma late_obeys : NoDup (labels late_function) /\ obeys late_function /\ merges_reached late_function /\ ~ exists r, returns late_function r.
Proof.
  pose proof (entry_1 _ _ : entry late_function 1) as En. split; [|split; [|split]].
  - repeat constructor; cbn; intros H; repeat destruct H as [H|H]; first [discriminate H|exact H].
  - apply (check_obeys _ 1 En in_order). vm_compute. reflexivity.
  - apply (reached_check_ok _ 1 En). vm_compute. reflexivity.
  - apply diverges. vm_compute. reflexivity.
Qed.
Lemma crossed_rules : NoDup (labels crossed_function) /\ merge_rules crossed_function /\ loops_close crossed_function /\ merges_reached crossed_function
  /\ ~ exists r, returns crossed_function r.
Proof.
  pose proof (entry_1 _ _ : entry crossed_function 1) as En. split; [|split; [|split; [|split]]].
  - repeat constructor; cbn; intros H; repeat destruct H as [H|H]; first [discriminate H|exact H].
  - apply (merge_check_ok _ 1 En in_order). vm_compute. reflexivity.
  - apply (close_check_ok _ 1 En). vm_compute. reflexivity.
  - apply (reached_check_ok _ 1 En). vm_compute. reflexivity.
  - apply diverges. vm_compute. reflexivity.
Qed.
Lemma loop_obeys : obeys loop_function /\ loops_close loop_function /\ merges_reached loop_function.
Proof.
  pose proof (entry_1 _ _ : entry loop_function 9) as En. split; [|split].
  - apply (check_obeys _ 9 En loop_order). vm_compute. reflexivity.
  - apply (close_check_ok _ 9 En). vm_compute. reflexivity.
  - apply (reached_check_ok _ 9 En). vm_compute. reflexivity.
Qed.
(** Three blocks, the last of which branches to a block that does not exist. *)
Definition missing_function : FunctionDefinition Inst := function_of
  [ simple_block 1 None (branch_to 2); simple_block 2 None (branch_to 3); simple_block 3 None (branch_to 4) ].
Lemma missing_needs : NoDup (labels missing_function) /\ obeys missing_function /\ loops_close missing_function /\ merges_reached missing_function
  /\ find_control_flow (length (FunctionDefinition_blocks missing_function)) missing_function = OutOfFuel.
Proof.
  pose proof (entry_1 _ _ : entry missing_function 1) as En. split; [|split; [|split; [|split]]].
  - repeat constructor; cbn; intros H; repeat destruct H as [H|H]; first [discriminate H|exact H].
  - apply (check_obeys _ 1 En in_order). vm_compute. reflexivity.
  - apply (close_check_ok _ 1 En). vm_compute. reflexivity.
  - apply (reached_check_ok _ 1 En). vm_compute. reflexivity.
  - vm_compute. reflexivity.
Qed.
