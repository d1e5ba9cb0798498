(** Functions with a block that is cut in two, C121. *)
From Verif Require Import Base Types Ops Groups ControlFlow Glsl450 Spec_Flow Spec_Split Samples Samples_Flow.
Local Open Scope N_scope.

Lemma fresh_in : forall (f : FunctionDefinition Inst) n,
  forallb (fun b => negb (existsb (N.eqb n) (label_of b :: branch_targets b ++ merge_targets b))) (FunctionDefinition_blocks f) = true -> fresh f n.
Proof.
  intros f n H. apply Forall_forall. intros b I. rewrite forallb_forall in H. specialize (H b I). apply Bool.negb_true_iff in H.
  assert (X : ~ In n (label_of b :: branch_targets b ++ merge_targets b)).
  { intros J. assert (existsb (N.eqb n) (label_of b :: branch_targets b ++ merge_targets b) = true) by (apply existsb_exists; exists n; split; [exact J|apply N.eqb_refl]). congruence. }
  cbn [In] in X. rewrite in_app_iff in X. tauto.
Qed.
Lemma loop_fresh : fresh loop_function 20.
Proof. apply fresh_in. vm_compute. reflexivity. Qed.

(* the exit of the loop is cut *)
Definition cut_exit : FunctionDefinition Inst := function_of (firstn 2 loop_blocks ++
  [ simple_block 11 None (branch_to 20); simple_block 20 None (branch_on 12 14 (Some (Build_BranchWeights 7 1))) ] ++ skipn 3 loop_blocks).
Lemma exit_cut : cut_at loop_function cut_exit (nth 2 loop_blocks (simple_block 0 None (branch_to 0))) 20.
Proof. exists (firstn 2 loop_blocks), (skipn 3 loop_blocks), [], []. split; [reflexivity|]. split; [reflexivity|]. split; [reflexivity|]. exact loop_fresh. Qed.

(* a loop that starts again early *)
Definition early_header := simple_block 10 (Some (GroupMerge_OpLoopMerge (Build_OpLoopMerge 14 13 unroll))) (branch_to 11).
Definition early_rest :=
  [ simple_block 11 None (branch_on 12 10 None); simple_block 12 None (branch_on 13 14 None); simple_block 13 None (branch_to 10);
    simple_block 14 None (GroupBranch_OpReturn Build_OpReturn) ].
Definition early : FunctionDefinition Inst := function_of (early_header :: early_rest).
Definition early_cut : FunctionDefinition Inst := function_of (
  [ simple_block 10 None (branch_to 20); simple_block 20 (Some (GroupMerge_OpLoopMerge (Build_OpLoopMerge 14 13 unroll))) (branch_to 11) ] ++ early_rest).
Lemma header_cut : exists (f g : FunctionDefinition Inst) cut n chain, cut_at f g cut n /\ starts_loop cut
  /\ returns f (Ok chain) /\ returns g (Err (CouldNotPredictConverge 11)).
Proof.
  exists early, early_cut, early_header, 20. eexists. split; [|split; [|split]].
  - exists [], early_rest, [], []. split; [reflexivity|]. split; [reflexivity|]. split; [reflexivity|]. apply fresh_in. vm_compute. reflexivity.
  - eexists. reflexivity.
  - split; [|exists 10%nat; vm_compute; reflexivity]. discriminate.
  - split; [discriminate|exists 10%nat; vm_compute; reflexivity].
Qed.
