(** Functions with exchanged arms, C123. *)
From Verif Require Import Base Types Ops Groups ExtSet ControlFlow Glsl450 Spec_Flow Spec_Mirror Samples Samples_Flow.
Local Open Scope N_scope.

(* the loop function with the arms of its selection exchanged *)
Definition the_selection : BlockId -> bool := N.eqb 12.
Definition loop_mirror : FunctionDefinition Inst := function_of (firstn 3 loop_blocks ++
  [ simple_block 12 (Some (GroupMerge_OpSelectionMerge (Build_OpSelectionMerge 13 flatten))) (branch_on 16 15 None) ] ++ skipn 4 loop_blocks).
Lemma loop_mirrored : mirror_of the_selection loop_function loop_mirror.
Proof.
  unfold mirror_of. cbn. repeat (apply Forall2_cons; [split; [reflexivity|split; [reflexivity|cbn; try reflexivity]]|]); [|constructor].
  do 3 eexists. repeat (split; [reflexivity|]). reflexivity.
Qed.

(* one arm is missing, the other goes round for ever *)
Definition selects := Some (GroupMerge_OpSelectionMerge (Build_OpSelectionMerge 4 flatten)).
Definition missing_first : FunctionDefinition Inst := function_of
  [ simple_block 1 selects (branch_on 2 3 None); simple_block 3 None (branch_to 3); simple_block 4 None (GroupBranch_OpReturn Build_OpReturn) ].
Definition missing_second : FunctionDefinition Inst := function_of
  [ simple_block 1 selects (branch_on 3 2 None); simple_block 3 None (branch_to 3); simple_block 4 None (GroupBranch_OpReturn Build_OpReturn) ].
Lemma round_and_round : forall d fl m, merges fl 3 = false -> map_get 3 m = Some (simple_block 3 None (branch_to 3)) -> search_block d 3 fl m = OutOfFuel.
Proof. induction d as [|d IH]; intros fl m M G; [reflexivity|]. cbn [search_block]. rewrite M, G. cbn. rewrite (IH fl m M G). reflexivity. Qed.
Lemma missing_arm : exists (chosen : BlockId -> bool) (f g : FunctionDefinition Inst), mirror_of chosen f g
  /\ returns f (Err (UnknownBlockId 2)) /\ forall r, ~ returns g r.
Proof.
  exists (N.eqb 1), missing_first, missing_second. split; [|split].
  - unfold mirror_of. cbn. repeat (apply Forall2_cons; [split; [reflexivity|split; [reflexivity|cbn; try reflexivity]]|]); [|constructor].
    do 3 eexists. repeat (split; [reflexivity|]). reflexivity.
  - split; [discriminate|exists 5%nat; vm_compute; reflexivity].
  - intros r [N [d <-]]. apply N. destruct d as [|d]; [reflexivity|]. unfold find_control_flow.
    assert (B : build_map (FunctionDefinition_blocks missing_second) None [] = Ok (Some 1,
      [ (4, simple_block 4 None (GroupBranch_OpReturn Build_OpReturn)); (3, simple_block 3 None (branch_to 3)); (1, simple_block 1 selects (branch_on 3 2 None)) ])) by (vm_compute; reflexivity).
    rewrite B. cbn [bind search_block merges map_get]. cbn. rewrite round_and_round by reflexivity. reflexivity.
Qed.

(* the exit of the loop is not a selection *)
Definition exit_mirror : FunctionDefinition Inst := function_of (firstn 2 loop_blocks ++
  [ simple_block 11 None (branch_on 14 12 (Some (Build_BranchWeights 1 7))) ] ++ skipn 3 loop_blocks).
