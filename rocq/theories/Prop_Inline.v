(** Property theorems about inlining, C122.  The vocabulary of the statements is in Spec_Flow, Spec_Link, Spec_Prune, Spec_Standard, Spec_Inline and Spec_Inlined. *)
From Coq Require Import Permutation.
From Verif Require Import Base Types Ops Groups ExtSet Reader Validate ControlFlow Glsl450 Spec_Wire Spec_Layout Spec_Flow Spec_Link Spec_Prune Spec_Standard Spec_Inline Spec_Inlined Samples Samples_Flow Samples_Inline Proofs_Flow2 Proofs_Inline Proofs_Inlined Proofs_Inlined3 Proofs_Replace Proofs_Inlined4 Proofs_Inlined5.

(** ** C122 *)
(** The answer is the same, chain, error or panic, with the chain of the inlined function at the place of the call, and there is none if there was none. *)
Theorem C122_inline : forall E (f h g : FunctionDefinition E) cut n body, inlined_at f h g cut n -> returns h (Ok body) -> ~ begins_loop cut ->
  forall r, returns g r <-> exists r0, returns f r0 /\ r = inline_answer (label_of cut) n body r0.
Proof. exact @inline_iff. Qed.
Print Assumptions C122_inline.

(** Whether or not the functions are understood, and also if the block starts a loop, the executions are those of the first function with executions of the inlined one put in. *)
Theorem C122_executions : forall E (f h g : FunctionDefinition E) cut n, inlined_at f h g cut n -> NoDup (labels f) ->
  forall t', complete_run g t' <-> exists t, complete_run f t /\ with_inlined h (label_of cut) n t t'.
Proof. exact inlined_executions. Qed.
Print Assumptions C122_executions.

(** What has been executed before the function returns is such a thing as well, or it ends within the inlined function or just after it. *)
Theorem C122_unfinished : forall E (f h g : FunctionDefinition E) cut n, inlined_at f h g cut n -> NoDup (labels f) ->
  forall t', unfinished_run g t' <-> (exists t, unfinished_run f t /\ with_inlined h (label_of cut) n t t')
  \/ exists t t1 inner, gets_to f t (label_of cut) /\ with_inlined h (label_of cut) n t t1 /\ (unfinished_run h inner \/ complete_run h inner) /\ t' = t1 ++ (label_of cut, None) :: inner.
Proof. exact inlined_unfinished_executions. Qed.
Print Assumptions C122_unfinished.

(** With the block that is executed next: on the way in the first function, in the inlined one, or just after it. *)
Theorem C122_on_the_way : forall E (f h g : FunctionDefinition E) cut n, inlined_at f h g cut n -> NoDup (labels f) -> forall t' j, gets_to g t' j <->
  (exists t, gets_to f t j /\ with_inlined h (label_of cut) n t t')
  \/ exists t t1 inner, gets_to f t (label_of cut) /\ with_inlined h (label_of cut) n t t1 /\ t' = t1 ++ (label_of cut, None) :: inner /\ (gets_to h inner j \/ complete_run h inner /\ j = n).
Proof. exact inlined_on_the_way. Qed.
Print Assumptions C122_on_the_way.

(** What an execution must have come through, if the inlined function can return.  Between two blocks of one function that is as before.  To get into the inlined function it must
    have come through what leads to the call.  A block of the inlined function is always come through on the way to another block if the call is, and no execution of the inlined function leaves the block out. *)
Theorem C122_dominates : forall E (f h g : FunctionDefinition E) cut n, inlined_at f h g cut n -> NoDup (labels f) -> (exists inner, complete_run h inner) ->
  (forall a b, used f a -> used f b -> (dominates g a b <-> dominates f a b))
  /\ (forall a b, used f a -> reachable h b -> (dominates g a b <-> dominates f a (label_of cut)))
  /\ (forall a b, used h a -> used h b -> reachable f (label_of cut) -> (dominates g a b <-> dominates h a b))
  /\ (forall a b, used h a -> used f b -> reachable f b -> (dominates g a b <-> dominates f (label_of cut) b /\ b <> label_of cut /\ forall inner, complete_run h inner -> In a (map fst inner))).
Proof. exact inlined_dominates. Qed.
Print Assumptions C122_dominates.

(** The labels are those of both functions and the new one. *)
Theorem C122_labels : forall E (f h g : FunctionDefinition E) cut n, inlined_at f h g cut n -> Permutation (labels g) (labels f ++ n :: labels h).
Proof. exact inlined_labels. Qed.
Print Assumptions C122_labels.

(** Which blocks are reached: those of the first function, if there is a way to them that does not pass the block, or the inlined function can return; and if the block is reached, those that the inlined function reaches, and the second part of the block if that function can return. *)
Theorem C122_reached : forall E (f h g : FunctionDefinition E) cut n, inlined_at f h g cut n -> NoDup (labels f) -> forall j, reachable g j <->
  (exists t, gets_to f t j /\ (In (label_of cut) (map fst t) -> exists inner, complete_run h inner))
  \/ reachable f (label_of cut) /\ (reachable h j \/ j = n /\ exists inner, complete_run h inner).
Proof. exact @inlined_reached. Qed.
Print Assumptions C122_reached.

(** If both functions have different labels and all the blocks they reach, so has the function with the inlined one: more can be inlined into it, and it can be inlined. *)
Theorem C122_again : forall E (f h g : FunctionDefinition E) cut n, inlined_at f h g cut n -> NoDup (labels f) -> NoDup (labels h) ->
  (forall j, reachable f j -> exists b, has_block f j b) -> (forall j, reachable h j -> exists b, has_block h j b) ->
  NoDup (labels g) /\ forall j, reachable g j -> exists b, has_block g j b.
Proof. exact inlined_again. Qed.
Print Assumptions C122_again.

(** If both functions are in a file that is read and accepted and the new label fits into a word, there is such a file with the function and its inlined instructions in place of the first function. *)
Theorem C122_file : forall E (known : list (ExtInstSet E)) lm before f after h g cut n code1, has_file known lm ->
  LogicalModule_function_definitions lm = before ++ f :: after -> In h (LogicalModule_function_definitions lm) -> inlined_after f h g cut n code1 ->
  FunctionDefinition_function g = FunctionDefinition_function f -> FunctionDefinition_parameters g = FunctionDefinition_parameters f -> (n < 2 ^ 32)%N ->
  has_file known (with_definitions lm (before ++ g :: after)).
Proof. exact @inlined_file. Qed.
Print Assumptions C122_file.

(** The other way, what was inlined can be taken out of a file again. *)
Theorem C122_taken_out : forall E (known : list (ExtInstSet E)) lm before f after h g cut n code1, has_file known lm ->
  LogicalModule_function_definitions lm = before ++ g :: after -> inlined_after f h g cut n code1 ->
  FunctionDefinition_function g = FunctionDefinition_function f -> FunctionDefinition_parameters g = FunctionDefinition_parameters f ->
  has_file known (with_definitions lm (before ++ f :: after)).
Proof. exact @taken_out_file. Qed.
Print Assumptions C122_taken_out.

(** The condition is needed: a loop whose first block has the call is not understood if it starts again early. *)
Theorem C122_header_refuted : exists (f h g : FunctionDefinition Inst) cut n chain body, inlined_at f h g cut n /\ begins_loop cut /\ returns h (Ok body)
  /\ returns f (Ok chain) /\ returns g (Err (CouldNotPredictConverge 11%N)).
Proof. exact head_inlined. Qed.
Print Assumptions C122_header_refuted.

(** A function with a selection is inlined into the loop function, where that has its own selection. *)
Example C122_example :
  inlined_at loop_function choice with_choice called 20%N
  /\ returns choice (Ok choice_chain) /\ ~ begins_loop called
  /\ returns loop_function (Ok loop_chain)
  /\ returns with_choice (Ok (Block
    [ Atom 9;
      Loop 10 (Selection 11 (Block
        [ Atom 12; Selection 30 (Block [Atom 31]) (Block [Atom 32]) flatten None; Atom 33;
          Selection 20 (Block [Atom 15]) (Block [Atom 16]) flatten None; Atom 13 ])
        Break (Build_SelectionControl false false) (Some (Build_BranchWeights 7 1))) unroll None; Atom 14 ]))%N
  /\ inline_answer 14%N 20%N choice_chain (Ok loop_chain) = Ok (Block
    [ Atom 9;
      Loop 10 (Selection 11 (Block [Selection 12 (Block [Atom 15]) (Block [Atom 16]) flatten None; Atom 13])
        Break (Build_SelectionControl false false) (Some (Build_BranchWeights 7 1))) unroll None;
      Atom 14; Selection 30 (Block [Atom 31]) (Block [Atom 32]) flatten None; Atom 33; Atom 20 ])%N.
Proof.
  split; [exact choice_inlined|].
  split; [split; [discriminate|exists 10; vm_compute; reflexivity]|]. split; [intros [op X]; discriminate X|].
  split; [split; [discriminate|exists 10; vm_compute; reflexivity]|].
  split; [split; [discriminate|exists 20; vm_compute; reflexivity]|]. vm_compute. reflexivity.
Qed.

(** Two rounds of the loop, in which the inlined function goes different ways; and an execution that is in the middle of it. *)
Local Open Scope N_scope.
Ltac next_block := match goal with |- has_block ?f ?id _ => let b := eval cbv in (find (fun b => N.eqb (label_of b) id) (FunctionDefinition_blocks f)) in
  match b with Some ?x => assert (has_block f id x) as ?H by (split; [cbn; tauto|reflexivity]); eassumption end end.
Definition two_rounds : list event := [(9, None); (10, None); (11, Some true); (12, Some true); (15, None); (13, None); (10, None); (11, Some true); (12, Some false); (16, None); (13, None); (10, None); (11, Some false); (14, None)].
Definition two_rounds_inlined : list event :=
  [(9, None); (10, None); (11, Some true); (12, None); (30, Some true); (31, None); (33, None); (20, Some true); (15, None); (13, None);
   (10, None); (11, Some true); (12, None); (30, Some false); (32, None); (33, None); (20, Some false); (16, None); (13, None); (10, None); (11, Some false); (14, None)].
Example C122_executions_example : NoDup (labels loop_function) /\ complete_run loop_function two_rounds /\ with_inlined choice (label_of called) 20 two_rounds two_rounds_inlined
  /\ complete_run with_choice two_rounds_inlined
  /\ unfinished_run with_choice ([(9, None); (10, None); (11, Some true)] ++ (label_of called, None) :: [(30, Some true)]).
Proof.
  assert (U : NoDup (labels loop_function)) by (vm_compute; repeat constructor; cbn; intuition discriminate).
  assert (C : complete_run loop_function two_rounds).
  { exists 9. split; [eexists _, _; split; reflexivity|]. unfold two_rounds.
    repeat first [eapply walk_return; [next_block|reflexivity]
      |eapply walk_branch; [next_block|reflexivity|cbn]
      |eapply walk_true; [next_block|reflexivity|cbn]
      |eapply walk_false; [next_block|reflexivity|cbn]]. }
  assert (Y : complete_run choice [(30, Some true); (31, None); (33, None)]).
  { exists 30. split; [eexists _, _; split; reflexivity|]. eapply walk_true; [next_block|reflexivity|]. eapply walk_branch; [next_block|reflexivity|]. eapply walk_return; [next_block|reflexivity]. }
  assert (N : complete_run choice [(30, Some false); (32, None); (33, None)]).
  { exists 30. split; [eexists _, _; split; reflexivity|]. eapply walk_false; [next_block|reflexivity|]. eapply walk_branch; [next_block|reflexivity|]. eapply walk_return; [next_block|reflexivity]. }
  assert (W : with_inlined choice (label_of called) 20 two_rounds two_rounds_inlined).
  { unfold two_rounds, two_rounds_inlined. do 3 (apply inlined_other; [vm_compute; discriminate|]).
    apply (inlined_there choice 12 20 (Some true) [(30, Some true); (31, None); (33, None)]); [exact Y|]. do 4 (apply inlined_other; [vm_compute; discriminate|]).
    apply (inlined_there choice 12 20 (Some false) [(30, Some false); (32, None); (33, None)]); [exact N|]. do 5 (apply inlined_other; [vm_compute; discriminate|]). constructor. }
  split; [exact U|]. split; [exact C|]. split; [exact W|]. split; [apply (C122_executions _ _ _ _ _ _ choice_inlined U); exists two_rounds; auto|].
  apply (C122_unfinished _ _ _ _ _ _ choice_inlined U). right. exists [(9, None); (10, None); (11, Some true)], [(9, None); (10, None); (11, Some true)], [(30, Some true)]. split; [|split; [|split; [|reflexivity]]].
  - exists 9. split; [eexists _, _; split; reflexivity|]. eapply walk_branch; [next_block|reflexivity|]. eapply walk_branch; [next_block|reflexivity|]. eapply walk_true; [next_block|reflexivity|]. constructor.
  - do 3 (apply inlined_other; [vm_compute; discriminate|]). constructor.
  - left. exists 30, 31. split; [eexists _, _; split; reflexivity|]. eapply walk_true; [next_block|reflexivity|]. constructor.
Qed.

(** The second part of the block is reached, and every block of the inlined function. *)
Example C122_reached_example : NoDup (labels loop_function) /\ NoDup (labels choice)
  /\ (forall j, reachable loop_function j -> exists b, has_block loop_function j b) /\ (forall j, reachable choice j -> exists b, has_block choice j b)
  /\ NoDup (labels with_choice) /\ reachable with_choice 20 /\ reachable with_choice 32.
Proof.
  assert (Uf : NoDup (labels loop_function)) by (vm_compute; repeat constructor; cbn; intuition discriminate).
  assert (Uh : NoDup (labels choice)) by (vm_compute; repeat constructor; cbn; intuition discriminate).
  assert (Xf : forall j, reachable loop_function j -> exists b, has_block loop_function j b).
  { intros j R. assert (Q : find_control_flow 10 loop_function = Ok loop_chain) by (vm_compute; reflexivity). exact (Proofs_Flow2.chain_ids_exist _ _ _ Q _ (Proofs_Flow2.chain_ids_reachable _ _ _ Q _ R)). }
  assert (Xh : forall j, reachable choice j -> exists b, has_block choice j b).
  { intros j R. assert (Q : find_control_flow 10 choice = Ok choice_chain) by (vm_compute; reflexivity). exact (Proofs_Flow2.chain_ids_exist _ _ _ Q _ (Proofs_Flow2.chain_ids_reachable _ _ _ Q _ R)). }
  assert (Y : complete_run choice [(30, Some true); (31, None); (33, None)]).
  { exists 30. split; [eexists _, _; split; reflexivity|]. eapply walk_true; [next_block|reflexivity|]. eapply walk_branch; [next_block|reflexivity|]. eapply walk_return; [next_block|reflexivity]. }
  assert (R : reachable loop_function (label_of called)).
  { exists 9, [(9, None); (10, None); (11, Some true)]. split; [eexists _, _; split; reflexivity|]. eapply walk_branch; [next_block|reflexivity|]. eapply walk_branch; [next_block|reflexivity|]. eapply walk_true; [next_block|reflexivity|]. constructor. }
  split; [exact Uf|]. split; [exact Uh|]. split; [exact Xf|]. split; [exact Xh|]. split; [exact (proj1 (C122_again _ _ _ _ _ _ choice_inlined Uf Uh Xf Xh))|].
  split; apply (C122_reached _ _ _ _ _ _ choice_inlined Uf); right; (split; [exact R|]); [right; split; [reflexivity|]; eexists; exact Y|left].
  exists 30, [(30, Some false)]. split; [eexists _, _; split; reflexivity|]. eapply walk_false; [next_block|reflexivity|]. constructor.
Qed.

(** The first block of each function; and an arm of the selection, which can be left out. *)
Example C122_dominates_example : (exists inner, complete_run choice inner) /\ dominates with_choice 9 14 /\ dominates with_choice 9 33 /\ dominates with_choice 30 33 /\ ~ dominates with_choice 31 13.
Proof.
  assert (Uf : NoDup (labels loop_function)) by (vm_compute; repeat constructor; cbn; intuition discriminate).
  assert (K : complete_run choice [(30, Some false); (32, None); (33, None)]).
  { exists 30. split; [eexists _, _; split; reflexivity|]. eapply walk_false; [next_block|reflexivity|]. eapply walk_branch; [next_block|reflexivity|]. eapply walk_return; [next_block|reflexivity]. }
  assert (R : reachable loop_function (label_of called)).
  { exists 9, [(9, None); (10, None); (11, Some true)]. split; [eexists _, _; split; reflexivity|]. eapply walk_branch; [next_block|reflexivity|]. eapply walk_branch; [next_block|reflexivity|]. eapply walk_true; [next_block|reflexivity|]. constructor. }
  assert (R2 : reachable loop_function 13).
  { exists 9, [(9, None); (10, None); (11, Some true); (12, Some true); (15, None)]. split; [eexists _, _; split; reflexivity|]. eapply walk_branch; [next_block|reflexivity|]. eapply walk_branch; [next_block|reflexivity|].
    eapply walk_true; [next_block|reflexivity|]. eapply walk_true; [next_block|reflexivity|]. eapply walk_branch; [next_block|reflexivity|]. constructor. }
  assert (R3 : reachable choice 33).
  { exists 30, [(30, Some false); (32, None)]. split; [eexists _, _; split; reflexivity|]. eapply walk_false; [next_block|reflexivity|]. eapply walk_branch; [next_block|reflexivity|]. constructor. }
  assert (En : forall (f : FunctionDefinition Inst) a b, entry f a -> dominates f a b).
  { intros f a b (x & l & Q & <-) first t (x' & l' & Q' & <-) W. assert (x' = x) as -> by congruence. apply Proofs_Inlined.walk_inv in W as [[-> J]|(d & dst & t1 & -> & _)]; [injection J as ->|]; left; reflexivity. }
  assert (In9 : used loop_function 9) by (eexists; split; [left; reflexivity|left; reflexivity]).
  assert (In14 : used loop_function 14) by (exists (nth 2 loop_blocks (simple_block 0 None (branch_to 0))); split; [right; right; left; reflexivity|right; left; cbn; auto]).
  assert (In13 : used loop_function 13) by (apply Proofs_Inlined4.reach_gets in R2 as [t G]; exact (Proofs_Inlined4.gets_used _ _ _ G)).
  assert (In30 : used choice 30) by (eexists; split; [left; reflexivity|left; reflexivity]).
  assert (In31 : used choice 31) by (eexists; split; [right; left; reflexivity|left; reflexivity]).
  assert (In33 : used choice 33) by (apply Proofs_Inlined4.reach_gets in R3 as [t G]; exact (Proofs_Inlined4.gets_used _ _ _ G)).
  assert (X : exists inner, complete_run choice inner) by (eexists; exact K). split; [exact X|]. destruct (C122_dominates _ _ _ _ _ _ choice_inlined Uf X) as (A & B & C & D).
  split; [apply (A 9 14 In9 In14); apply En; eexists _, _; split; reflexivity|]. split; [apply (B 9 33 In9 R3); apply En; eexists _, _; split; reflexivity|].
  split; [apply (C 30 33 In30 In33 R); apply En; eexists _, _; split; reflexivity|]. intros Q. apply (D 31 13 In31 In13 R2) in Q as (_ & _ & Q). specialize (Q _ K). cbn in Q. intuition discriminate.
Qed.

(** A file with both functions. *)
Example C122_file_example :
  let m := with_instructions sample ([Core_OpMemoryModel (Build_OpMemoryModel AddressingModel_Logical MemoryModel_Glsl450)] ++ write_definition loop_function ++ write_definition choice) in
  exists lm, validate m = Ok lm /\ has_file [InstSet] lm /\ LogicalModule_function_definitions lm = [] ++ loop_function :: [choice] /\ inlined_after loop_function choice with_choice called 20 []
    /\ has_file [InstSet] (with_definitions lm [with_choice; choice])
    /\ has_file [InstSet] (with_definitions (with_definitions lm [with_choice; choice]) [loop_function; choice]).
Proof.
  intros m. assert (V : exists lm, validate m = Ok lm /\ LogicalModule_function_definitions lm = [loop_function; choice]) by (eexists; split; vm_compute; reflexivity).
  destruct V as (lm & V & D). exists lm. split; [exact V|].
  assert (F : has_file [InstSet] lm) by (exists (encode_module LittleEndian m []), m; split; [vm_compute; reflexivity|exact V]).
  assert (I : inlined_after loop_function choice with_choice called 20 []).
  { exists (firstn 3 loop_blocks), (skipn 4 loop_blocks), 30, []. split; [reflexivity|]. split; [reflexivity|]. split; [eexists _, _; split; reflexivity|]. split; [reflexivity|].
    destruct choice_inlined as (_ & _ & _ & _ & _ & _ & X). exact X. }
  split; [exact F|]. split; [exact D|]. split; [exact I|].
  assert (G : has_file [InstSet] (with_definitions lm [with_choice; choice])).
  { apply (C122_file _ [InstSet] lm [] loop_function [choice] choice with_choice called 20 []); [exact F|exact D|rewrite D; right; left; reflexivity|exact I|reflexivity|reflexivity|reflexivity]. }
  split; [exact G|]. apply (C122_taken_out _ [InstSet] _ [] loop_function [choice] choice with_choice called 20 [] G eq_refl I); reflexivity.
Qed.
