(** A function inlined into another one, C122. *)
From Verif Require Import Base Types Ops Groups ControlFlow Glsl450 Spec_Flow Spec_Inline Samples Samples_Flow.
Local Open Scope N_scope.

Definition ids_of (f : FunctionDefinition Inst) : list N := flat_map (fun b => label_of b :: branch_targets b ++ merge_targets b) (FunctionDefinition_blocks f).
Lemma used_in : forall f id, used f id -> existsb (N.eqb id) (ids_of f) = true.
Proof.
  intros f id (b & I & H). apply existsb_exists. exists id. split; [|apply N.eqb_refl]. apply in_flat_map. exists b. split; [exact I|].
  cbn [In]. rewrite in_app_iff. destruct H as [->|H]; auto.
Qed.
Lemma unused : forall f id, existsb (N.eqb id) (ids_of f) = false -> ~ used f id.
Proof. intros f id H U. apply used_in in U. congruence. Qed.
Lemma disjoint : forall f h, forallb (fun id => negb (existsb (N.eqb id) (ids_of h))) (ids_of f) = true -> forall id, used f id -> ~ used h id.
Proof.
  intros f h H id U V. apply used_in in U, V. apply existsb_exists in U as (x & I & Q). apply N.eqb_eq in Q. subst x.
  rewrite forallb_forall in H. specialize (H id I). rewrite V in H. discriminate H.
Qed.

(* a function that chooses, and returns *)
Definition choice_merge := Some (GroupMerge_OpSelectionMerge (Build_OpSelectionMerge 33 flatten)).
Definition choice : FunctionDefinition Inst := function_of
  [ simple_block 30 choice_merge (branch_on 31 32 None); simple_block 31 None (branch_to 33); simple_block 32 None (branch_to 33);
    simple_block 33 None (GroupBranch_OpReturn Build_OpReturn) ].
Definition choice_chain : ControlFlowChain := Block [Selection 30 (Block [Atom 31]) (Block [Atom 32]) flatten None; Atom 33].

(* it is called where the loop function chooses *)
Definition called : BasicBlock Inst := nth 3 loop_blocks (simple_block 0 None (branch_to 0)).
Definition with_choice : FunctionDefinition Inst := function_of (firstn 3 loop_blocks ++
  [ simple_block 12 None (branch_to 30);
    simple_block 30 choice_merge (branch_on 31 32 None); simple_block 31 None (branch_to 33); simple_block 32 None (branch_to 33);
    simple_block 33 None (branch_to 20);
    simple_block 20 (BasicBlock_merge called) (BasicBlock_branch called) ] ++ skipn 4 loop_blocks).
Lemma choice_inlined : inlined_at loop_function choice with_choice called 20.
Proof.
  exists (firstn 3 loop_blocks), (skipn 4 loop_blocks), 30. split; [reflexivity|]. split; [eexists _, _; split; reflexivity|]. split; [reflexivity|].
  split; [apply unused; vm_compute; reflexivity|]. split; [apply unused; vm_compute; reflexivity|]. apply disjoint. vm_compute. reflexivity.
Qed.

(* the call is in the first block of a loop that starts again early *)
Definition head := simple_block 10 (Some (GroupMerge_OpLoopMerge (Build_OpLoopMerge 14 13 unroll))) (branch_to 11).
Definition rest :=
  [ simple_block 11 None (branch_on 12 10 None); simple_block 12 None (branch_on 13 14 None); simple_block 13 None (branch_to 10);
    simple_block 14 None (GroupBranch_OpReturn Build_OpReturn) ].
Definition in_head : FunctionDefinition Inst := function_of (
  [ simple_block 10 None (branch_to 30);
    simple_block 30 choice_merge (branch_on 31 32 None); simple_block 31 None (branch_to 33); simple_block 32 None (branch_to 33);
    simple_block 33 None (branch_to 20);
    simple_block 20 (Some (GroupMerge_OpLoopMerge (Build_OpLoopMerge 14 13 unroll))) (branch_to 11) ] ++ rest).
Lemma head_inlined : exists (f h g : FunctionDefinition Inst) cut n chain body, inlined_at f h g cut n /\ begins_loop cut /\ returns h (Ok body)
  /\ returns f (Ok chain) /\ returns g (Err (CouldNotPredictConverge 11)).
Proof.
  exists (function_of (head :: rest)), choice, in_head, head, 20. eexists _, _. split; [|split; [|split; [|split]]].
  - exists [], rest, 30. split; [reflexivity|]. split; [eexists _, _; split; reflexivity|]. split; [reflexivity|].
    split; [apply unused; vm_compute; reflexivity|]. split; [apply unused; vm_compute; reflexivity|]. apply disjoint. vm_compute. reflexivity.
  - eexists. reflexivity.
  - split; [|exists 10%nat; vm_compute; reflexivity]. discriminate.
  - split; [|exists 10%nat; vm_compute; reflexivity]. discriminate.
  - split; [discriminate|exists 10%nat; vm_compute; reflexivity].
Qed.
