(** Property theorems about find_control_flow, C36-C51.  The vocabulary of the statements is in Spec_Flow. *)
From Coq Require Import Permutation.
From Verif Require Import Base Types Ops Groups Glsl450 ControlFlow DisplayFlow Spec_Flow Samples Samples_Flow Proofs_Flow Proofs_Flow2 Proofs_Flow3 Proofs_Flow4 Proofs_DepthLimit.

Example loop_found : find_control_flow 20 loop_function = Ok loop_chain.
Proof. vm_compute. reflexivity. Qed.

(** ** C36 *)
Theorem C36_same_complete_runs : forall E (f : FunctionDefinition E) depth chain, find_control_flow depth f = Ok chain ->
  forall t, exec chain t Normal <-> complete_run f t.
Proof. intros E f depth chain. exact (runs_complete f depth chain). Qed.
Print Assumptions C36_same_complete_runs.

(** One iteration through the left arm, then the loop is left. *)
Definition one_iteration : list event :=
  [(9, None); (10, None); (11, Some true); (12, Some true); (15, None); (13, None); (10, None); (11, Some false); (14, None)]%N.
Example C36_example : exec loop_chain one_iteration Normal /\ complete_run loop_function one_iteration.
Proof.
  assert (W : complete_run loop_function one_iteration).
  { exists 9%N. split; [eexists _, _; split; reflexivity|].
    assert (B : forall id b, In b loop_blocks -> label_of b = id -> has_block loop_function id b) by (intros id b H L; split; assumption).
    eapply walk_branch; [apply B; [left; reflexivity|reflexivity]|reflexivity|].
    eapply walk_branch; [apply B; [right; left; reflexivity|reflexivity]|reflexivity|].
    eapply walk_true; [apply B; [right; right; left; reflexivity|reflexivity]|reflexivity|].
    eapply walk_true; [apply B; [do 3 right; left; reflexivity|reflexivity]|reflexivity|].
    eapply walk_branch; [apply B; [do 4 right; left; reflexivity|reflexivity]|reflexivity|].
    eapply walk_branch; [apply B; [do 6 right; left; reflexivity|reflexivity]|reflexivity|].
    eapply walk_branch; [apply B; [right; left; reflexivity|reflexivity]|reflexivity|].
    eapply walk_false; [apply B; [right; right; left; reflexivity|reflexivity]|reflexivity|].
    eapply walk_return; [apply B; [do 7 right; left; reflexivity|reflexivity]|reflexivity]. }
  split; [|exact W]. apply (C36_same_complete_runs _ _ _ _ loop_found). exact W.
Qed.

(** ** C37 *)
Theorem C37_same_unfinished_runs : forall E (f : FunctionDefinition E) depth chain, find_control_flow depth f = Ok chain ->
  forall t, exec chain t Interrupted <-> unfinished_run f t.
Proof. intros E f depth chain. exact (runs_unfinished f depth chain). Qed.
Print Assumptions C37_same_unfinished_runs.

(** Infinite executions: all their finite beginnings are unfinished runs. *)
Theorem C37_same_infinite_runs : forall E (f : FunctionDefinition E) depth chain, find_control_flow depth f = Ok chain ->
  forall s : nat -> event,
  (forall n, exec chain (map s (seq 0 n)) Interrupted) <-> (forall n, unfinished_run f (map s (seq 0 n))).
Proof. intros E f depth chain H s. exact (infinite_runs E f depth chain H s). Qed.
Print Assumptions C37_same_infinite_runs.

Example C37_example : exec loop_chain [(9, None); (10, None); (11, Some true)]%N Interrupted.
Proof.
  apply exec_block. apply (exec_cons _ _ [(9, None)]%N [(10, None); (11, Some true)]%N); [apply exec_atom|].
  apply exec_exit; [|discriminate]. apply exec_loop_interrupted. apply exec_selection. apply exec_interrupted.
Qed.

(** ** C38 *)
Theorem C38_well_scoped : forall E (f : FunctionDefinition E) depth chain, find_control_flow depth f = Ok chain ->
  chain <> Break /\ chain <> Continue /\ everywhere (well_scoped f) None chain.
Proof. intros E f depth chain. exact (chain_well_scoped f depth chain). Qed.
Print Assumptions C38_well_scoped.

(** So no execution of the whole chain ends by breaking or continuing. *)
Theorem C38_no_stray_exit : forall E (f : FunctionDefinition E) depth chain, find_control_flow depth f = Ok chain ->
  forall t e, exec chain t e -> e = Normal \/ e = Interrupted.
Proof. intros E f depth chain. exact (runs_no_exit f depth chain). Qed.
Print Assumptions C38_no_stray_exit.

Example C38_example : exists before after lhs hint weights h m t control w,
  loop_chain = Block [before; Loop 10 (Selection 11 lhs Break hint weights) unroll None; after]%N
  /\ h = 10%N /\ loop_header loop_function h m control /\ conditional loop_function 11%N t m w None.
Proof.
  eexists _, _, _, _, _, _, 14%N, 12%N, unroll, (Some (Build_BranchWeights 7%N 1%N)). split; [reflexivity|]. split; [reflexivity|]. split.
  - eexists _, _. split; [split; [right; left; reflexivity|reflexivity]|]. repeat split.
  - eexists _, _. split; [split; [right; right; left; reflexivity|reflexivity]|]. repeat split.
Qed.

(** ** C39 *)
Theorem C39_ids_exist : forall E (f : FunctionDefinition E) depth chain, find_control_flow depth f = Ok chain ->
  forall id, In id (chain_ids chain) -> exists b, has_block f id b.
Proof. intros E f depth chain. exact (chain_ids_exist f depth chain). Qed.
Print Assumptions C39_ids_exist.

Theorem C39_reachable_named : forall E (f : FunctionDefinition E) depth chain, find_control_flow depth f = Ok chain ->
  forall id, reachable f id -> In id (chain_ids chain).
Proof. intros E f depth chain. exact (chain_ids_reachable f depth chain). Qed.
Print Assumptions C39_reachable_named.

(** The converse fails: the merge block of a loop that is never left is in the chain and not reachable. *)
Theorem C39_only_reachable_refuted : exists depth chain id,
  find_control_flow depth endless_function = Ok chain /\ In id (chain_ids chain) /\ ~ reachable endless_function id.
Proof. exact endless_unreachable. Qed.
Print Assumptions C39_only_reachable_refuted.

Example C39_example : chain_ids loop_chain = [9; 10; 11; 12; 15; 16; 13; 14]%N.
Proof. reflexivity. Qed.

(** ** C40 *)
Theorem C40_entry_first : forall E (f : FunctionDefinition E) depth chain, find_control_flow depth f = Ok chain ->
  exists id rest, entry f id /\ chain_ids chain = id :: rest.
Proof. intros E f depth chain. exact (chain_entry_first f depth chain). Qed.
Print Assumptions C40_entry_first.
Example C40_example : entry loop_function 9%N.
Proof. eexists _, _. split; reflexivity. Qed.

(** ** C41 *)
Theorem C41_hints_and_weights : forall E (f : FunctionDefinition E) depth chain, find_control_flow depth f = Ok chain ->
  everywhere (carries f) None chain.
Proof. intros E f depth chain. exact (chain_carries f depth chain). Qed.
Print Assumptions C41_hints_and_weights.
Example C41_example : exists op, conditional loop_function 12%N 15%N 16%N None (Some (GroupMerge_OpSelectionMerge op)) /\ OpSelectionMerge_selection_control op = flatten.
Proof. eexists. split; [|shelve]. eexists _, _. split; [split; [do 3 right; left; reflexivity|reflexivity]|]. repeat split. Unshelve. reflexivity. Qed.

(** ** C42 *)
Theorem C42_flat : forall E (f : FunctionDefinition E) depth chain, find_control_flow depth f = Ok chain ->
  everywhere (fun _ => flat) None chain.
Proof. intros E f depth chain. exact (chain_flat f depth chain). Qed.
Print Assumptions C42_flat.
(** A Block with a single element is possible. *)
Example C42_example : exists before loop after, loop_chain = Block [before; loop; after] /\ everywhere (fun _ => flat) None loop_chain
  /\ In 15%N (chain_ids (Block [Atom 15%N])).
Proof. eexists _, _, _. split; [reflexivity|]. split; [exact (C42_flat _ _ _ _ loop_found)|left; reflexivity]. Qed.

(** ** C43 *)
Theorem C43_duplicate : forall E (f : FunctionDefinition E) depth id, find_control_flow depth f = Err (DuplicateBlockId id) <->
  exists before b after, FunctionDefinition_blocks f = before ++ b :: after
    /\ NoDup (map label_of before) /\ In (label_of b) (map label_of before) /\ label_of b = id.
Proof. intros E f depth id. exact (duplicate_iff f depth id). Qed.
Print Assumptions C43_duplicate.

Theorem C43_no_blocks : forall E (f : FunctionDefinition E) depth, find_control_flow depth f = Err NoBlocks <-> FunctionDefinition_blocks f = [].
Proof. intros E f depth. exact (no_blocks_iff f depth). Qed.
Print Assumptions C43_no_blocks.

Example C43_example : find_control_flow 0 (function_of (loop_blocks ++ rev loop_blocks)) = Err (DuplicateBlockId 14%N).
Proof. vm_compute. reflexivity. Qed.

(** ** C44 *)
Theorem C44_payloads : forall E (f : FunctionDefinition E) depth e, find_control_flow depth f = Err e ->
  match e with
  | UnknownBlockId x => (forall b, ~ has_block f x b) /\ exists y b, has_block f y b /\ (In x (branch_targets b) \/ In x (merge_targets b))
  | CouldNotPredictConverge x => exists t e w, conditional f x t e w None
  | InvalidConvergePrediction ControlType_Selection x => exists t e w op, conditional f x t e w (Some (GroupMerge_OpSelectionMerge op))
  | InvalidConvergePrediction ControlType_Loop x =>
      (exists b op m c, has_block f x b /\ BasicBlock_branch b = GroupBranch_OpBranch op /\ loop_header f x m c)
      \/ (exists t e w h m c, conditional f x t e w None /\ loop_header f h m c /\ (e = h \/ e = m))
  | DuplicateBlockId _ | NoBlocks => True
  | Failed => False
  end.
Proof. intros E f depth e. exact (error_payloads f depth e). Qed.
Print Assumptions C44_payloads.

Example C44_example :
  find_control_flow 9 (function_of (firstn 7 loop_blocks)) = Err (UnknownBlockId 14%N)
  /\ find_control_flow 9 (function_of (skipn 2 loop_blocks)) = Err (CouldNotPredictConverge 11%N)
  /\ find_control_flow 9 (function_of [simple_block 1%N (Some (GroupMerge_OpSelectionMerge (Build_OpSelectionMerge 2%N flatten))) (branch_on 2%N 3%N None);
       simple_block 2%N None (GroupBranch_OpReturn Build_OpReturn); simple_block 3%N None (GroupBranch_OpReturn Build_OpReturn)])
     = Err (InvalidConvergePrediction ControlType_Selection 1%N)
  /\ find_control_flow 9 (function_of [simple_block 1%N (Some (GroupMerge_OpLoopMerge (Build_OpLoopMerge 2%N 1%N unroll))) (branch_to 2%N);
       simple_block 2%N None (GroupBranch_OpReturn Build_OpReturn)])
     = Err (InvalidConvergePrediction ControlType_Loop 1%N).
Proof. repeat split; vm_compute; reflexivity. Qed.

(** ** C45 *)
Theorem C45_panics : forall E (f : FunctionDefinition E) depth, find_control_flow depth f = Panic ->
  exists b, In b (FunctionDefinition_blocks f) /\ unimplemented b.
Proof. intros E f depth. exact (panics f depth). Qed.
Print Assumptions C45_panics.

Theorem C45_entry_panics : forall E (f : FunctionDefinition E) b rest depth, FunctionDefinition_blocks f = b :: rest -> NoDup (labels f) ->
  unimplemented b -> find_control_flow (S depth) f = Panic.
Proof. intros E f b rest depth. exact (entry_panics f b rest depth). Qed.
Print Assumptions C45_entry_panics.

Example C45_example : unimplemented (simple_block 1%N (Some (GroupMerge_OpSelectionMerge (Build_OpSelectionMerge 2%N flatten))) (branch_to 2%N)).
Proof. left. eexists _, _. split; reflexivity. Qed.

(** ** C46 *)
Theorem C46_depth_limit : forall E (f : FunctionDefinition E) r, returns f r <-> r <> OutOfFuel /\ find_control_flow (depth_limit f) f = r.
Proof. intros E f r. exact (returns_iff f r). Qed.
Print Assumptions C46_depth_limit.

(** For every n there is a function of n blocks that returns, with an error, and needs all of that depth. *)
Theorem C46_depth_limit_needed : forall E n, exists f : FunctionDefinition E, length (FunctionDefinition_blocks f) = S n /\
  (exists e, returns f (Err e)) /\ forall depth, depth < depth_limit f -> find_control_flow depth f = OutOfFuel.
Proof. exact limit_needed. Qed.
Print Assumptions C46_depth_limit_needed.

(** A larger depth changes nothing once the search has returned. *)
Theorem C46_depth_irrelevant : forall E (f : FunctionDefinition E) d1 d2, find_control_flow d1 f <> OutOfFuel -> d1 <= d2 ->
  find_control_flow d2 f = find_control_flow d1 f.
Proof. intros E f d1 d2. exact (depth_irrelevant f d1 d2). Qed.
Print Assumptions C46_depth_irrelevant.

Theorem C46_always_terminates_refuted : exists f : FunctionDefinition Inst, forall depth, find_control_flow depth f = OutOfFuel.
Proof. exact self_loop_diverges. Qed.
Print Assumptions C46_always_terminates_refuted.

Example C46_example : depth_limit loop_function = 37 /\ returns loop_function (Ok loop_chain).
Proof. split; [reflexivity|]. split; [discriminate|]. exists 20. exact loop_found. Qed.

(** ** C47 *)
Theorem C47_forward_returns : forall E (f : FunctionDefinition E) rank inside, forward f rank inside -> exists r, returns f r.
Proof. intros E f rank inside. exact (forward_returns f rank inside). Qed.
Print Assumptions C47_forward_returns.

Example C47_example : exists rank inside, forward loop_function rank inside /\ inside 13%N 10%N.
Proof.
  exists (fun id => N.to_nat (match id with 9 => 9 | 10 => 8 | 11 => 7 | 12 => 6 | 15 => 5 | 16 => 5 | 13 => 4 | _ => 0 end)%N),
    (fun id h => h = 10%N /\ In id [11; 12; 15; 16; 13]%N). split; [|split; [reflexivity|cbn; tauto]].
  assert (LH : exists m c, loop_header loop_function 10%N m c).
  { eexists _, _. eexists _, _. split; [split; [right; left; reflexivity|reflexivity]|]. repeat split. }
  split.
  - intros id h (b & rest & Q & <-). injection Q as <- _. intros [_ H]. cbn in H. decompose [or] H; try discriminate; tauto.
  - intros id b [Hin <-]. cbn in Hin. decompose [or] Hin; try tauto; subst b; (split; intros t Ht; cbn in Ht; decompose [or] Ht; try tauto; subst t).
    all: try (left; split; [vm_compute; lia|intros h [-> H]; cbn in H; decompose [or] H; try discriminate; try tauto; cbn; tauto]).
    all: try (right; left; split; [reflexivity|cbn; tauto]).
Qed.

(** ** C48 *)
Theorem C48_block_order : forall E (f1 f2 : FunctionDefinition E) first rest1 rest2,
  FunctionDefinition_blocks f1 = first :: rest1 -> FunctionDefinition_blocks f2 = first :: rest2 ->
  Permutation rest1 rest2 -> NoDup (labels f1) -> forall depth, find_control_flow depth f1 = find_control_flow depth f2.
Proof. intros E f1 f2 first rest1 rest2. exact (block_order f1 f2 first rest1 rest2). Qed.
Print Assumptions C48_block_order.
Example C48_example : Permutation (skipn 1 loop_blocks) (rev (skipn 1 loop_blocks)) /\ NoDup (labels loop_function).
Proof.
  split; [apply Permutation_rev|]. assert (labels loop_function = [9; 10; 11; 12; 15; 16; 13; 14]%N) as -> by reflexivity.
  repeat constructor; cbn; intros H; decompose [or] H; try discriminate; tauto.
Qed.

(** ** C49 *)
Theorem C49_code_irrelevant : forall E1 E2 (f1 : FunctionDefinition E1) (f2 : FunctionDefinition E2),
  map skeleton (FunctionDefinition_blocks f1) = map skeleton (FunctionDefinition_blocks f2) ->
  forall depth, find_control_flow depth f1 = find_control_flow depth f2.
Proof. intros E1 E2 f1 f2. exact (same_skeleton f1 f2). Qed.
Print Assumptions C49_code_irrelevant.
Example C49_example : exists b : BasicBlock Inst, BasicBlock_code b <> [] /\ skeleton b = skeleton (simple_block 9%N None (branch_to 10%N)).
Proof. exists (Build_BasicBlock (Build_OpLabel 9%N) [GroupCode_OpNop Build_OpNop] None (branch_to 10%N)). split; [discriminate|reflexivity]. Qed.

(** ** C50 *)
Theorem C50_exponential : forall E n, exists (f : FunctionDefinition E) chain id,
  length (FunctionDefinition_blocks f) = 2 * n + 1 /\ returns f (Ok chain) /\ occurrences id (chain_ids chain) = (2 ^ N.of_nat n)%N.
Proof. intros E n. exact (exponential n). Qed.
Print Assumptions C50_exponential.
Example C50_example : exists chain, find_control_flow 9 (diamonds (E := Inst) 2) = Ok chain /\ chain_ids chain = [1; 3; 5; 5; 4; 3; 5; 5; 4; 2]%N.
Proof. eexists. split; vm_compute; reflexivity. Qed.

(** ** C51 *)
Theorem C51_printer_never_panics : forall E (disp_ext : E -> string) (f : FunctionDefinition E) depth chain, find_control_flow depth f = Ok chain ->
  exists s, disp_ControlFlowFunctionPrinter disp_ext f chain = Ok s.
Proof. intros E disp_ext f depth chain. exact (printer_total f disp_ext depth chain). Qed.
Print Assumptions C51_printer_never_panics.
(** Printing with a chain of another function can panic. *)
Example C51_example : disp_ControlFlowFunctionPrinter disp_Inst loop_function (Atom 99%N) = Panic.
Proof. vm_compute. reflexivity. Qed.
