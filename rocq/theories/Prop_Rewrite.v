(** C139: What the instructions of a rewritten function do. *)
From Coq Require Import Lia.
From Verif Require Import Base Types Ops Groups ExtSet Reader Validate ControlFlow Glsl450 Spec_Layout Spec_Flow Spec_Machine Spec_Invariance Spec_Structured Spec_Renumber Spec_Split Spec_Mirror Spec_Prune Spec_Unshare Spec_Rewrite Spec_Inline Spec_Inlined
  Samples Samples_Flow Samples_Inline Proofs_Flow2 Proofs_Rewrite Proofs_Rewrite2 Proofs_Rewrite3 Proofs_Inlined2.

(** A function with copies of blocks, as in C138: its instructions do what those of the other function do, in the copies of the blocks. *)
Theorem C139_copies : forall E (f f' : FunctionDefinition E) chain chain' origin, returns f (Ok chain) -> returns f' (Ok chain') -> rename_chain origin chain' = chain -> made_of_copies origin f f' ->
  forall m m' pc pc', stands_at m pc f -> stands_at m' pc' f' ->
  forall a, can_do m pc a <-> exists a', can_do m' pc' a' /\ a = map (origin_action origin) a'.
Proof. exact @copies_do. Qed.
Print Assumptions C139_copies.
Theorem C139_copies_so_far : forall E (f f' : FunctionDefinition E) chain chain' origin, returns f (Ok chain) -> returns f' (Ok chain') -> rename_chain origin chain' = chain -> made_of_copies origin f f' ->
  forall m m' pc pc', stands_at m pc f -> stands_at m' pc' f' ->
  forall a, can_begin_with m pc a <-> exists a', can_begin_with m' pc' a' /\ a = map (origin_action origin) a'.
Proof. exact @copies_begin. Qed.
Print Assumptions C139_copies_so_far.

(** A function without the blocks that are not needed, as in C137: its instructions do the same. *)
Theorem C139_pruned : forall E (d d' : FunctionDefinition E), pruned d d' -> forall m m' pc pc', stands_at m pc d -> stands_at m' pc' d' ->
  forall a, can_do m' pc' a <-> can_do m pc a.
Proof. exact @pruned_do. Qed.
Print Assumptions C139_pruned.
Theorem C139_pruned_so_far : forall E (d d' : FunctionDefinition E), pruned d d' -> forall m m' pc pc', stands_at m pc d -> stands_at m' pc' d' ->
  forall a, can_begin_with m' pc' a <-> can_begin_with m pc a.
Proof. exact @pruned_begin. Qed.
Print Assumptions C139_pruned_so_far.

(** A block cut in two, as in C121, but also if it starts a loop and if the function is not understood: the instructions do the same, and pass the new label on the way. *)
Theorem C139_cut : forall E (f g : FunctionDefinition E) cut n, cut_at f g cut n -> NoDup (labels f) -> (forall j, reachable f j -> exists b, has_block f j b) ->
  forall m m' pc pc', stands_at m pc f -> stands_at m' pc' g ->
  forall a, (can_do m pc a <-> exists a', can_do m' pc' a' /\ a = without_entering n a')
    /\ (can_begin_with m pc a <-> exists a', can_begin_with m' pc' a' /\ a = without_entering n a').
Proof. exact cut_does. Qed.
Print Assumptions C139_cut.

(** Other numbers for the ids of a file, as in C136: from any position, the instructions do the same with the other numbers. *)
Theorem C139_renumbered : forall E f (g : E -> E) (m : RawModule E), injective f -> forall pc a',
  can_do (renumbered f g m) pc a' <-> exists a, can_do m pc a /\ a' = map (renumber_action f g) a.
Proof. exact renumbered_do. Qed.
Print Assumptions C139_renumbered.
Theorem C139_renumbered_so_far : forall E f (g : E -> E) (m : RawModule E), injective f -> forall pc a',
  can_begin_with (renumbered f g m) pc a' <-> exists a, can_begin_with m pc a /\ a' = map (renumber_action f g) a.
Proof. exact renumbered_begin. Qed.
Print Assumptions C139_renumbered_so_far.

(** Arms of selections exchanged, as in C123, with the same instructions and conditions, and whether or not the function is understood: the instructions do the same if the conditions of these selections turn out the other way. *)
Theorem C139_exchanged : forall E chosen (f g : FunctionDefinition E), mirror_of chosen f g -> same_work f g -> NoDup (labels f) -> (forall j, reachable f j -> exists b, has_block f j b) ->
  forall m m' pc pc', stands_at m pc f -> stands_at m' pc' g -> FunctionDefinition_blocks f <> [] ->
  forall a, (can_do m' pc' (with_decisions_turned chosen a) <-> can_do m pc a) /\ (can_begin_with m' pc' (with_decisions_turned chosen a) <-> can_begin_with m pc a).
Proof. exact mirror_does. Qed.
Print Assumptions C139_exchanged.

(** What a function does can be read off its control flow and the blocks named there: functions with the same control flow whose blocks work alike do the same. *)
Theorem C139_same_control_flow : forall E (f g : FunctionDefinition E) chain, returns f (Ok chain) -> returns g (Ok chain) ->
  (forall id b b', In id (chain_ids chain) -> has_block f id b -> has_block g id b' -> works_like b b') ->
  forall m m' pc pc', stands_at m pc f -> stands_at m' pc' g ->
  forall a, (can_do m pc a <-> can_do m' pc' a) /\ (can_begin_with m pc a <-> can_begin_with m' pc' a).
Proof. exact same_chain_does. Qed.
Print Assumptions C139_same_control_flow.

(** A function inlined behind the first instructions of a block, as in C122, but also if the block starts a loop and if the functions are not understood: whenever these instructions are done, something is done that the instructions of that function can do, wherever they stand, and everything else is the same. *)
Theorem C139_inlined : forall E (f h g : FunctionDefinition E) cut n code1, inlined_after f h g cut n code1 -> NoDup (labels f) -> NoDup (labels h) ->
  (forall j, reachable f j -> exists b, has_block f j b) -> (forall j, reachable h j -> exists b, has_block h j b) ->
  forall m mh m' pc pch pc', stands_at m pc f -> stands_at mh pch h -> stands_at m' pc' g ->
  forall a', can_do m' pc' a' <-> exists a, can_do m pc a /\ with_work (can_do mh pch) (label_of cut) n code1 a a'.
Proof. exact inlined_does. Qed.
Print Assumptions C139_inlined.
Theorem C139_inlined_so_far : forall E (f h g : FunctionDefinition E) cut n code1, inlined_after f h g cut n code1 -> NoDup (labels f) -> NoDup (labels h) ->
  (forall j, reachable f j -> exists b, has_block f j b) -> (forall j, reachable h j -> exists b, has_block h j b) ->
  forall m mh m' pc pch pc', stands_at m pc f -> stands_at mh pch h -> stands_at m' pc' g ->
  forall a', can_begin_with m' pc' a' <-> exists a, can_begin_with m pc a /\ with_work_begun (can_do mh pch) (can_begin_with mh pch) (label_of cut) n code1 a a'.
Proof. exact inlined_begins. Qed.
Print Assumptions C139_inlined_so_far.

(** ** Examples *)
Local Open Scope N_scope.
Ltac jump_there := split; [reflexivity|]; let k := fresh in let R := fresh in intros k ? R; do 30 (destruct k as [|k]; [intros [= <-]; first [exact I|exfalso; cbn in R; lia]|]); cbn in R; lia.
Definition pause : list (GroupCode Inst) := [GroupCode_OpNop Build_OpNop].

(** Both arms go to block 4, which has a nop. *)
Definition shared_end : FunctionDefinition Inst := function_of
  [ simple_block 1 (Some (GroupMerge_OpSelectionMerge (Build_OpSelectionMerge 5 flatten))) (branch_on 2 3 None);
    simple_block 2 None (branch_to 4); simple_block 3 None (branch_to 4);
    Build_BasicBlock (Build_OpLabel 4) pause None (branch_to 5); simple_block 5 None (GroupBranch_OpReturn Build_OpReturn) ].
(** Two copies of block 4. *)
Definition copied_end : FunctionDefinition Inst := function_of
  [ simple_block 1 (Some (GroupMerge_OpSelectionMerge (Build_OpSelectionMerge 5 flatten))) (branch_on 2 3 None);
    simple_block 2 None (branch_to 4); Build_BasicBlock (Build_OpLabel 4) pause None (branch_to 5);
    simple_block 3 None (branch_to 6); Build_BasicBlock (Build_OpLabel 6) pause None (branch_to 5);
    simple_block 5 None (GroupBranch_OpReturn Build_OpReturn) ].
Definition six_is_four (id : BlockId) : BlockId := if N.eqb id 6 then 4 else id.
Definition module_with (d : FunctionDefinition Inst) : RawModule Inst :=
  module_of (Core_OpMemoryModel (Build_OpMemoryModel AddressingModel_Logical MemoryModel_Simple) :: write_definition d).
Definition pause_action : action Inst := Does (Core_OpNop Build_OpNop).

Example C139_copies_example : exists chain chain', returns shared_end (Ok chain) /\ returns copied_end (Ok chain') /\ rename_chain six_is_four chain' = chain
  /\ made_of_copies six_is_four shared_end copied_end /\ stands_at (module_with shared_end) 1 shared_end /\ stands_at (module_with copied_end) 1 copied_end
  /\ can_do (module_with copied_end) 1 [Enters 1; Decides 1 false; Enters 3; Enters 6; pause_action; Enters 5]
  /\ can_do (module_with shared_end) 1 [Enters 1; Decides 1 false; Enters 3; Enters 4; pause_action; Enters 5].
Proof.
  assert (A : exists c c', returns shared_end (Ok c) /\ returns copied_end (Ok c') /\ rename_chain six_is_four c' = c).
  { eexists _, _. split; [split; [discriminate|exists 9%nat; vm_compute; reflexivity]|]. split; [split; [discriminate|exists 9%nat; vm_compute; reflexivity]|]. vm_compute. reflexivity. }
  destruct A as (c & c' & A1 & A2 & A3).
  assert (C : made_of_copies six_is_four shared_end copied_end).
  { intros b' H. cbn in H. repeat (destruct H as [<-|H]; [|]); try destruct H.
    all: let at_ n := (exists (nth n (FunctionDefinition_blocks shared_end) (simple_block 0 None (branch_to 0))); split; [cbn; tauto|split; reflexivity]) in
      first [at_ 0%nat | at_ 1%nat | at_ 2%nat | at_ 3%nat | at_ 4%nat]. }
  assert (S : forall d, stands_at (module_with d) 1 d) by (intros d; eexists [_], []; rewrite app_nil_r; split; reflexivity).
  assert (W : can_do (module_with copied_end) 1 [Enters 1; Decides 1 false; Enters 3; Enters 6; pause_action; Enters 5]).
  { eapply run_passive; [reflexivity|reflexivity|]. apply (run_label _ _ (Build_OpLabel 1)); [reflexivity|]. eapply run_passive; [reflexivity|reflexivity|].
    apply (run_conditional _ _ (Build_OpBranchConditional 1 2 3 None) false 10%nat); [reflexivity|jump_there|].
    apply (run_label _ _ (Build_OpLabel 3)); [reflexivity|]. apply (run_branch _ _ (Build_OpBranch 6) 12%nat); [reflexivity|jump_there|].
    apply (run_label _ _ (Build_OpLabel 6)); [reflexivity|]. eapply run_does; [reflexivity|reflexivity|]. apply (run_branch _ _ (Build_OpBranch 5) 15%nat); [reflexivity|jump_there|].
    apply (run_label _ _ (Build_OpLabel 5)); [reflexivity|]. eapply run_return. reflexivity. }
  exists c, c'. split; [exact A1|]. split; [exact A2|]. split; [exact A3|]. split; [exact C|]. split; [apply S|]. split; [apply S|]. split; [exact W|].
  apply (proj2 (C139_copies _ _ _ _ _ _ A1 A2 A3 C _ _ _ _ (S _) (S _) _)). eexists. split; [exact W|reflexivity].
Qed.

(** The copy that only the false arm uses is not needed in a function whose branch always goes to block 2. *)
Definition one_arm (rest : list (BasicBlock Inst)) : FunctionDefinition Inst := function_of
  (simple_block 1 None (branch_to 2) :: Build_BasicBlock (Build_OpLabel 2) pause None (GroupBranch_OpReturn Build_OpReturn) :: rest).
Lemma one_arm_does : can_do (module_with (one_arm [])) 1 [Enters 1; Enters 2; pause_action].
Proof.
  eapply run_passive; [reflexivity|reflexivity|]. apply (run_label _ _ (Build_OpLabel 1)); [reflexivity|]. apply (run_branch _ _ (Build_OpBranch 2) 4%nat); [reflexivity|jump_there|].
  apply (run_label _ _ (Build_OpLabel 2)); [reflexivity|]. eapply run_does; [reflexivity|reflexivity|]. eapply run_return. reflexivity.
Qed.
Example C139_pruned_example : let d := one_arm [simple_block 6 None (branch_to 2)] in pruned d (one_arm []) /\ stands_at (module_with d) 1 d /\ stands_at (module_with (one_arm [])) 1 (one_arm [])
  /\ can_do (module_with (one_arm [])) 1 [Enters 1; Enters 2; pause_action] /\ can_do (module_with d) 1 [Enters 1; Enters 2; pause_action].
Proof.
  intros d. assert (R : exists c, returns d (Ok c) /\ FunctionDefinition_blocks (one_arm []) = filter (needed_for c) (FunctionDefinition_blocks d)).
  { eexists. split; [split; [discriminate|exists 9%nat; vm_compute; reflexivity]|vm_compute; reflexivity]. }
  destruct R as (c & R1 & R2). assert (P : pruned d (one_arm [])) by (split; [reflexivity|]; split; [reflexivity|]; exists c; split; [exact R1|exact R2]).
  assert (S : forall d, stands_at (module_with d) 1 d) by (intros d'; eexists [_], []; rewrite app_nil_r; split; reflexivity).
  split; [exact P|]. split; [apply S|]. split; [apply S|]. split; [exact one_arm_does|]. exact (proj1 (C139_pruned _ _ _ P _ _ _ _ (S _) (S _) _) one_arm_does).
Qed.

(** Block 2 cut behind its nop. *)
Definition one_arm_cut : FunctionDefinition Inst := function_of
  [ simple_block 1 None (branch_to 2); Build_BasicBlock (Build_OpLabel 2) pause None (branch_to 9); Build_BasicBlock (Build_OpLabel 9) [] None (GroupBranch_OpReturn Build_OpReturn) ].
Example C139_cut_example : cut_at (one_arm []) one_arm_cut (Build_BasicBlock (Build_OpLabel 2) pause None (GroupBranch_OpReturn Build_OpReturn)) 9
  /\ NoDup (labels (one_arm [])) /\ (forall j, reachable (one_arm []) j -> exists b, has_block (one_arm []) j b)
  /\ stands_at (module_with (one_arm [])) 1 (one_arm []) /\ stands_at (module_with one_arm_cut) 1 one_arm_cut
  /\ can_do (module_with one_arm_cut) 1 [Enters 1; Enters 2; pause_action; Enters 9].
Proof.
  split; [|split; [|split; [|split; [|split]]]].
  - exists [simple_block 1 None (branch_to 2)], [], pause, []. split; [reflexivity|]. split; [reflexivity|]. split; [reflexivity|].
    unfold fresh. cbn. repeat constructor; cbn; intuition discriminate.
  - vm_compute. repeat constructor; cbn; intuition discriminate.
  - intros j (id & t & (b & rest & Q & L) & W). injection Q as <- <-. cbn in L. subst id.
    inversion W as [| ? b ? [I B]|? b ? t0 ? [I B] Q W1|? b ? ? ? [I B] Q W1|? b ? ? ? [I B] Q W1]; subst; [eexists; split; [left; reflexivity|reflexivity]| | |]; destruct I as [<-|[<-|[]]]; try discriminate B; try discriminate Q.
    injection Q as <-. cbn in W1. inversion W1 as [| ? b ? [I' B']|? b ? t1 ? [I' B'] Q W2|? b ? ? ? [I' B'] Q W2|? b ? ? ? [I' B'] Q W2]; subst; [eexists; split; [right; left; reflexivity|reflexivity]| | |]; destruct I' as [<-|[<-|[]]]; try discriminate B'; discriminate Q.
  - eexists [_], []. rewrite app_nil_r. split; reflexivity.
  - eexists [_], []. rewrite app_nil_r. split; reflexivity.
  - eapply run_passive; [reflexivity|reflexivity|]. apply (run_label _ _ (Build_OpLabel 1)); [reflexivity|]. apply (run_branch _ _ (Build_OpBranch 2) 4%nat); [reflexivity|jump_there|].
    apply (run_label _ _ (Build_OpLabel 2)); [reflexivity|]. eapply run_does; [reflexivity|reflexivity|]. apply (run_branch _ _ (Build_OpBranch 9) 7%nat); [reflexivity|jump_there|].
    apply (run_label _ _ (Build_OpLabel 9)); [reflexivity|]. eapply run_return. reflexivity.
Qed.

Example C139_renumbered_example : let f := fun n => n + 100 in injective f
  /\ can_do (renumbered f (renumber_glsl f) (module_with (one_arm []))) 1 [Enters 101; Enters 102; pause_action].
Proof.
  intros f. assert (J : injective f) by (intros x y Q; exact (proj1 (N.add_cancel_r x y 100) Q)). split; [exact J|].
  apply (proj2 (C139_renumbered _ f (renumber_glsl f) _ J _ _)). eexists. split; [exact one_arm_does|reflexivity].
Qed.

(** The function with the shared block, and the same with the arms of its selection exchanged. *)
Definition shared_turned : FunctionDefinition Inst := function_of
  (simple_block 1 (Some (GroupMerge_OpSelectionMerge (Build_OpSelectionMerge 5 flatten))) (branch_on 3 2 None) :: tl (FunctionDefinition_blocks shared_end)).
Example C139_exchanged_example : mirror_of (N.eqb 1) shared_end shared_turned /\ same_work shared_end shared_turned /\ NoDup (labels shared_end)
  /\ (forall j, reachable shared_end j -> exists b, has_block shared_end j b) /\ stands_at (module_with shared_end) 1 shared_end /\ stands_at (module_with shared_turned) 1 shared_turned
  /\ with_decisions_turned (N.eqb 1) [Enters 1; Decides 1 true; Enters 2; Enters 4; pause_action; Enters 5] = [Enters 1; Decides 1 false; Enters 2; Enters 4; pause_action; Enters 5]
  /\ can_do (module_with shared_end) 1 [Enters 1; Decides 1 true; Enters 2; Enters 4; pause_action; Enters 5].
Proof.
  split; [|split; [|split; [|split; [|split; [|split; [|split]]]]]].
  - constructor.
    + split; [reflexivity|]. split; [reflexivity|]. cbn. eexists _, _, _. split; [reflexivity|]. split; [reflexivity|]. split; [reflexivity|]. repeat split; reflexivity.
    + repeat constructor; vm_compute; reflexivity.
  - repeat constructor.
  - vm_compute. repeat constructor; cbn; intuition discriminate.
  - assert (K2 : forall id, In id [1; 2; 3; 4; 5] -> exists b, has_block shared_end id b).
    { intros id J. cbn in J. repeat (destruct J as [<-|J]); [eexists; split; [left; reflexivity|reflexivity]|eexists; split; [right; left; reflexivity|reflexivity]|
        eexists; split; [do 2 right; left; reflexivity|reflexivity]|eexists; split; [do 3 right; left; reflexivity|reflexivity]|eexists; split; [do 4 right; left; reflexivity|reflexivity]|destruct J]. }
    assert (Z : forall id t d, walk shared_end id t d -> (exists b, has_block shared_end id b) -> forall j, d = Some j -> exists b, has_block shared_end j b).
    { intros id t d W. induction W as [id|id b op [J L] B|id b op t d [J L] B W IH|id b op t d [J L] B W IH|id b op t d [J L] B W IH]; intros K j Q; try discriminate Q.
      - injection Q as <-. exact K.
      - apply IH; [|exact Q]. cbn in J. repeat (destruct J as [<-|J]; [try discriminate B; injection B as <-; apply K2; cbn; auto 6|]). destruct J.
      - apply IH; [|exact Q]. cbn in J. repeat (destruct J as [<-|J]; [try discriminate B; injection B as <-; apply K2; cbn; auto 6|]). destruct J.
      - apply IH; [|exact Q]. cbn in J. repeat (destruct J as [<-|J]; [try discriminate B; injection B as <-; apply K2; cbn; auto 6|]). destruct J. }
    intros j (id & t & (b & rest & Q & L) & W). apply (Z id t _ W); [|reflexivity]. exists b. split; [rewrite Q; left; reflexivity|exact L].
  - eexists [_], []. rewrite app_nil_r. split; reflexivity.
  - eexists [_], []. rewrite app_nil_r. split; reflexivity.
  - reflexivity.
  - eapply run_passive; [reflexivity|reflexivity|]. apply (run_label _ _ (Build_OpLabel 1)); [reflexivity|]. eapply run_passive; [reflexivity|reflexivity|].
    apply (run_conditional _ _ (Build_OpBranchConditional 1 2 3 None) true 5%nat); [reflexivity|jump_there|].
    apply (run_label _ _ (Build_OpLabel 2)); [reflexivity|]. apply (run_branch _ _ (Build_OpBranch 4) 9%nat); [reflexivity|jump_there|].
    apply (run_label _ _ (Build_OpLabel 4)); [reflexivity|]. eapply run_does; [reflexivity|reflexivity|]. apply (run_branch _ _ (Build_OpBranch 5) 12%nat); [reflexivity|jump_there|].
    apply (run_label _ _ (Build_OpLabel 5)); [reflexivity|]. eapply run_return. reflexivity.
Qed.

(** The same blocks in another order, and one more. *)
Definition shared_shuffled : FunctionDefinition Inst := function_of
  [ simple_block 1 (Some (GroupMerge_OpSelectionMerge (Build_OpSelectionMerge 5 flatten))) (branch_on 2 3 None);
    simple_block 5 None (GroupBranch_OpReturn Build_OpReturn); simple_block 7 None (branch_to 3); Build_BasicBlock (Build_OpLabel 4) pause None (branch_to 5);
    simple_block 3 None (branch_to 4); simple_block 2 None (branch_to 4) ].
Example C139_same_control_flow_example : exists chain, returns shared_end (Ok chain) /\ returns shared_shuffled (Ok chain) /\ length (chain_ids chain) = 6%nat
  /\ (forall id b b', In id (chain_ids chain) -> has_block shared_end id b -> has_block shared_shuffled id b' -> works_like b b')
  /\ stands_at (module_with shared_end) 1 shared_end /\ stands_at (module_with shared_shuffled) 1 shared_shuffled
  /\ can_do (module_with shared_shuffled) 1 [Enters 1; Decides 1 false; Enters 3; Enters 4; pause_action; Enters 5].
Proof.
  eexists. split; [split; [discriminate|exists 9%nat; vm_compute; reflexivity]|]. split; [split; [discriminate|exists 9%nat; vm_compute; reflexivity]|]. split; [reflexivity|].
  split; [|split; [eexists [_], []; rewrite app_nil_r; split; reflexivity|split; [eexists [_], []; rewrite app_nil_r; split; reflexivity|]]].
  - intros id b b' _ [J L] [J' L']. cbn in J, J'. repeat (destruct J as [<-|J]; [|]); [..|destruct J]; cbn in L; subst id.
    all: repeat (destruct J' as [<-|J']; [|]); [..|destruct J']; try discriminate L'; split; [reflexivity|cbn; trivial].
  - eapply run_passive; [reflexivity|reflexivity|]. apply (run_label _ _ (Build_OpLabel 1)); [reflexivity|]. eapply run_passive; [reflexivity|reflexivity|].
    apply (run_conditional _ _ (Build_OpBranchConditional 1 2 3 None) false 12%nat); [reflexivity|jump_there|].
    apply (run_label _ _ (Build_OpLabel 3)); [reflexivity|]. apply (run_branch _ _ (Build_OpBranch 4) 9%nat); [reflexivity|jump_there|].
    apply (run_label _ _ (Build_OpLabel 4)); [reflexivity|]. eapply run_does; [reflexivity|reflexivity|]. apply (run_branch _ _ (Build_OpBranch 5) 5%nat); [reflexivity|jump_there|].
    apply (run_label _ _ (Build_OpLabel 5)); [reflexivity|]. eapply run_return. reflexivity.
Qed.

(** A function with a nop inlined into block 4, behind its nop. *)
Definition just_pause : FunctionDefinition Inst := function_of [ Build_BasicBlock (Build_OpLabel 30) pause None (GroupBranch_OpReturn Build_OpReturn) ].
Definition with_pause : FunctionDefinition Inst := function_of
  [ simple_block 1 (Some (GroupMerge_OpSelectionMerge (Build_OpSelectionMerge 5 flatten))) (branch_on 2 3 None);
    simple_block 2 None (branch_to 4); simple_block 3 None (branch_to 4);
    Build_BasicBlock (Build_OpLabel 4) pause None (branch_to 30); Build_BasicBlock (Build_OpLabel 30) pause None (branch_to 9); Build_BasicBlock (Build_OpLabel 9) [] None (branch_to 5);
    simple_block 5 None (GroupBranch_OpReturn Build_OpReturn) ].
Example C139_inlined_example : let cut := Build_BasicBlock (Build_OpLabel 4) pause None (branch_to 5) in
  inlined_after shared_end just_pause with_pause cut 9 pause /\ NoDup (labels shared_end) /\ NoDup (labels just_pause)
  /\ (forall j, reachable shared_end j -> exists b, has_block shared_end j b) /\ (forall j, reachable just_pause j -> exists b, has_block just_pause j b)
  /\ stands_at (module_with shared_end) 1 shared_end /\ stands_at (module_with just_pause) 1 just_pause /\ stands_at (module_with with_pause) 1 with_pause
  /\ can_do (module_with shared_end) 1 [Enters 1; Decides 1 false; Enters 3; Enters 4; pause_action; Enters 5]
  /\ can_do (module_with just_pause) 1 [Enters 30; pause_action]
  /\ can_do (module_with with_pause) 1 [Enters 1; Decides 1 false; Enters 3; Enters 4; pause_action; Enters 30; pause_action; Enters 9; Enters 5]
  /\ can_begin_with (module_with with_pause) 1 [Enters 1; Decides 1 false; Enters 3; Enters 4; pause_action; Enters 30].
Proof.
  intros cut.
  assert (I : inlined_after shared_end just_pause with_pause cut 9 pause).
  { exists (firstn 3 (FunctionDefinition_blocks shared_end)), [simple_block 5 None (GroupBranch_OpReturn Build_OpReturn)], 30, []. split; [reflexivity|]. split; [reflexivity|].
    split; [eexists _, _; split; reflexivity|]. split; [reflexivity|]. split; [apply unused; vm_compute; reflexivity|]. split; [apply unused; vm_compute; reflexivity|]. apply disjoint. vm_compute. reflexivity. }
  assert (Uf : NoDup (labels shared_end)) by (vm_compute; repeat constructor; cbn; intuition discriminate). assert (Uh : NoDup (labels just_pause)) by (vm_compute; repeat constructor; cbn; intuition discriminate).
  assert (Rf : exists c, returns shared_end (Ok c)) by (eexists; split; [discriminate|exists 9%nat; vm_compute; reflexivity]).
  assert (Rh : exists c, returns just_pause (Ok c)) by (eexists; split; [discriminate|exists 9%nat; vm_compute; reflexivity]).
  destruct Rf as (cf & Rf), Rh as (ch & Rh).
  assert (S : forall d, stands_at (module_with d) 1 d) by (intros d; eexists [_], []; rewrite app_nil_r; split; reflexivity).
  assert (Wf : can_do (module_with shared_end) 1 [Enters 1; Decides 1 false; Enters 3; Enters 4; pause_action; Enters 5]).
  { eapply run_passive; [reflexivity|reflexivity|]. apply (run_label _ _ (Build_OpLabel 1)); [reflexivity|]. eapply run_passive; [reflexivity|reflexivity|].
    apply (run_conditional _ _ (Build_OpBranchConditional 1 2 3 None) false 7%nat); [reflexivity|jump_there|].
    apply (run_label _ _ (Build_OpLabel 3)); [reflexivity|]. apply (run_branch _ _ (Build_OpBranch 4) 9%nat); [reflexivity|jump_there|].
    apply (run_label _ _ (Build_OpLabel 4)); [reflexivity|]. eapply run_does; [reflexivity|reflexivity|]. apply (run_branch _ _ (Build_OpBranch 5) 12%nat); [reflexivity|jump_there|].
    apply (run_label _ _ (Build_OpLabel 5)); [reflexivity|]. eapply run_return. reflexivity. }
  assert (Wh : can_do (module_with just_pause) 1 [Enters 30; pause_action]).
  { eapply run_passive; [reflexivity|reflexivity|]. apply (run_label _ _ (Build_OpLabel 30)); [reflexivity|]. eapply run_does; [reflexivity|reflexivity|]. eapply run_return. reflexivity. }
  assert (Xf : forall j, reachable shared_end j -> exists b, has_block shared_end j b) by (intros j R; destruct Rf as (_ & k & Q); exact (Proofs_Flow2.chain_ids_exist _ _ _ Q _ (Proofs_Flow2.chain_ids_reachable _ _ _ Q _ R))).
  assert (Xh : forall j, reachable just_pause j -> exists b, has_block just_pause j b) by (intros j R; destruct Rh as (_ & k & Q); exact (Proofs_Flow2.chain_ids_exist _ _ _ Q _ (Proofs_Flow2.chain_ids_reachable _ _ _ Q _ R))).
  split; [exact I|]. split; [exact Uf|]. split; [exact Uh|]. split; [exact Xf|]. split; [exact Xh|]. split; [apply S|]. split; [apply S|]. split; [apply S|]. split; [exact Wf|]. split; [exact Wh|].
  split.
  - apply (C139_inlined _ _ _ _ _ _ _ I Uf Uh Xf Xh _ _ _ _ _ _ (S _) (S _) (S _)). eexists. split; [exact Wf|]. do 3 (apply work_other; [discriminate|]).
    apply (work_there _ 4 9 pause [Enters 30; pause_action]); [exact Wh|]. apply work_other; [discriminate|]. apply work_nothing.
  - apply (C139_inlined_so_far _ _ _ _ _ _ _ I Uf Uh Xf Xh _ _ _ _ _ _ (S _) (S _) (S _)). exists [Enters 1; Decides 1 false; Enters 3; Enters 4; pause_action].
    split; [exact (Proofs_Machine.run_prefix shared_end [Core_OpMemoryModel (Build_OpMemoryModel AddressingModel_Logical MemoryModel_Simple)] [] _ _ _ Wf [Enters 1; Decides 1 false; Enters 3; Enters 4; pause_action] [Enters 5] eq_refl)|]. do 3 (apply begun_other; [discriminate|]).
    apply (begun_inside _ _ 4 9 pause [Enters 30]). exact (Proofs_Machine.run_prefix just_pause [Core_OpMemoryModel (Build_OpMemoryModel AddressingModel_Logical MemoryModel_Simple)] [] _ _ _ Wh [Enters 30] [pause_action] eq_refl).
Qed.
