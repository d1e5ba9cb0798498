(** Property theorems about exchanged arms, C123.  The vocabulary of the statements is in Spec_Flow, Spec_Link, Spec_Prune, Spec_Rewrite, Spec_Standard, Spec_Returns, Spec_Inlined, Spec_Turned and Spec_Mirror. *)
From Verif Require Import Base Types Ops Groups ReadErr ReadBase ExtSet ReadOps Reader Validate ControlFlow Glsl450 Spec_Wire Spec_Layout Spec_Flow Spec_Link Spec_Prune Spec_Mirror Spec_Rewrite Spec_Standard Spec_Returns Spec_Inlined Spec_Turned Samples Samples_Flow Samples_Mirror Samples_Returns Proofs_Mirror Proofs_Replace Proofs_Turned Proofs_Turned2.

(** ** C123 *)
(** The chains are those of the function with the arms exchanged; one is understood if and only if the other is. *)
Theorem C123_arms : forall E (chosen : BlockId -> bool) (f g : FunctionDefinition E), mirror_of chosen f g ->
  forall c', returns g (Ok c') <-> exists c, returns f (Ok c) /\ c' = mirror_chain chosen c.
Proof. exact @mirror_iff. Qed.
Print Assumptions C123_arms.

(** Whether or not the function is understood, the executions are those in which the chosen blocks decide the other way, when they have returned and on the way. *)
Theorem C123_executions : forall E chosen (f g : FunctionDefinition E), mirror_of chosen f g -> forall t, complete_run g (turned_events chosen t) <-> complete_run f t.
Proof. exact @turned_executions. Qed.
Print Assumptions C123_executions.
Theorem C123_on_the_way : forall E chosen (f g : FunctionDefinition E), mirror_of chosen f g -> forall t j, gets_to g (turned_events chosen t) j <-> gets_to f t j.
Proof. exact @turned_on_the_way. Qed.
Print Assumptions C123_on_the_way.

(** So the same blocks are reached. *)
Theorem C123_reached : forall E chosen (f g : FunctionDefinition E), mirror_of chosen f g -> labels g = labels f /\ forall j, reachable g j <-> reachable f j.
Proof. exact @turned_reached. Qed.
Print Assumptions C123_reached.

(** It obeys the rules of the standard for structured control flow if and only if the other function does, and dominators and post-dominators are the same. *)
Theorem C123_obeys : forall E chosen (f g : FunctionDefinition E), mirror_of chosen f g -> (obeys g <-> obeys f)
  /\ (forall a b, dominates g a b <-> dominates f a b) /\ (forall a b, post_dominates g a b <-> post_dominates f a b).
Proof. exact turned_obeys. Qed.
Print Assumptions C123_obeys.
(** The same for the conditions of C114. *)
Theorem C123_conditions : forall E chosen (f g : FunctionDefinition E), mirror_of chosen f g -> (loops_close g <-> loops_close f) /\ (merges_reached g <-> merges_reached f).
Proof. exact turned_conditions. Qed.
Print Assumptions C123_conditions.

(** If the function is in a file that is read and accepted, there is such a file with the arms of the function exchanged. *)
Theorem C123_file : forall E (known : list (ExtInstSet E)) lm before f after g chosen, has_file known lm -> LogicalModule_function_definitions lm = before ++ f :: after ->
  mirror_of chosen f g -> same_work f g -> FunctionDefinition_function g = FunctionDefinition_function f -> FunctionDefinition_parameters g = FunctionDefinition_parameters f ->
  has_file known (with_definitions lm (before ++ g :: after)).
Proof. exact @mirror_file. Qed.
Print Assumptions C123_file.

(** For functions that are not understood it matters which arm comes first: one returns an error and the other does not return. *)
Theorem C123_error_refuted : exists (chosen : BlockId -> bool) (f g : FunctionDefinition Inst), mirror_of chosen f g
  /\ returns f (Err (UnknownBlockId 2%N)) /\ forall r, ~ returns g r.
Proof. exact missing_arm. Qed.
Print Assumptions C123_error_refuted.

(** The selection of the loop function, and its exit, which is no selection: with its labels exchanged it is not understood. *)
Example C123_example :
  mirror_of the_selection loop_function loop_mirror
  /\ returns loop_function (Ok loop_chain)
  /\ returns loop_mirror (Ok (Block
    [ Atom 9;
      Loop 10 (Selection 11 (Block [Selection 12 (Block [Atom 16]) (Block [Atom 15]) flatten None; Atom 13])
        Break (Build_SelectionControl false false) (Some (Build_BranchWeights 7 1))) unroll None; Atom 14 ]))%N
  /\ (mirror_chain the_selection (Selection 12 (Atom 1) (Block [Atom 2; Break]) flatten (Some (Build_BranchWeights 7 1)))
     = Selection 12 (Block [Atom 2; Break]) (Atom 1) flatten (Some (Build_BranchWeights 1 7)))%N
  /\ returns exit_mirror (Err (CouldNotPredictConverge 11%N)).
Proof.
  split; [exact loop_mirrored|]. split; [split; [discriminate|exists 10; vm_compute; reflexivity]|].
  split; [split; [discriminate|exists 10; vm_compute; reflexivity]|]. split; [reflexivity|]. split; [discriminate|exists 10; vm_compute; reflexivity].
Qed.

(** A file with the loop function, its selection turned. *)
Example C123_file_example :
  let m := with_instructions sample (Core_OpMemoryModel (Build_OpMemoryModel AddressingModel_Logical MemoryModel_Glsl450) :: write_definition loop_function) in
  exists lm, validate m = Ok lm /\ has_file [InstSet] lm /\ LogicalModule_function_definitions lm = [] ++ loop_function :: [] /\ same_work loop_function loop_mirror
    /\ has_file [InstSet] (with_definitions lm [loop_mirror]).
Proof.
  intros m. assert (V : exists lm, validate m = Ok lm /\ LogicalModule_function_definitions lm = [loop_function]) by (eexists; split; vm_compute; reflexivity).
  destruct V as (lm & V & D). exists lm. split; [exact V|].
  assert (F : has_file [InstSet] lm) by (exists (encode_module LittleEndian m []), m; split; [vm_compute; reflexivity|exact V]).
  assert (S : same_work loop_function loop_mirror) by (repeat constructor).
  split; [exact F|]. split; [exact D|]. split; [exact S|]. apply (C123_file _ [InstSet] lm [] loop_function [] loop_mirror _ F D loop_mirrored S); reflexivity.
Qed.

(** A round of the loop with one arm of the selection, and with the other. *)
Local Open Scope N_scope.
Ltac next_block := match goal with |- has_block ?f ?id _ => let b := eval cbv in (find (fun b => N.eqb (label_of b) id) (FunctionDefinition_blocks f)) in
  match b with Some ?x => assert (has_block f id x) as ?H by (split; [cbn; tauto|reflexivity]); eassumption end end.
Example C123_executions_example : complete_run loop_function [(9, None); (10, None); (11, Some true); (12, Some true); (15, None); (13, None); (10, None); (11, Some false); (14, None)]
  /\ complete_run loop_mirror [(9, None); (10, None); (11, Some true); (12, Some false); (15, None); (13, None); (10, None); (11, Some false); (14, None)]
  /\ gets_to loop_mirror [(9, None); (10, None); (11, Some true); (12, Some false)] 15 /\ reachable loop_mirror 15.
Proof.
  assert (C : complete_run loop_function [(9, None); (10, None); (11, Some true); (12, Some true); (15, None); (13, None); (10, None); (11, Some false); (14, None)]).
  { exists 9. split; [eexists _, _; split; reflexivity|].
    repeat first [eapply walk_return; [next_block|reflexivity] |eapply walk_branch; [next_block|reflexivity|cbn] |eapply walk_true; [next_block|reflexivity|cbn] |eapply walk_false; [next_block|reflexivity|cbn]]. }
  assert (G : gets_to loop_function [(9, None); (10, None); (11, Some true); (12, Some true)] 15).
  { exists 9. split; [eexists _, _; split; reflexivity|]. do 2 (eapply walk_branch; [next_block|reflexivity|]). do 2 (eapply walk_true; [next_block|reflexivity|]). constructor. }
  split; [exact C|]. split; [exact (proj2 (C123_executions _ _ _ _ loop_mirrored _) C)|]. split; [exact (proj2 (C123_on_the_way _ _ _ _ loop_mirrored _ _) G)|].
  apply (C123_reached _ _ _ _ loop_mirrored). destruct G as (id & G). exists id. eexists. exact G.
Qed.

Example C123_obeys_example : obeys loop_function /\ obeys loop_mirror /\ loops_close loop_mirror /\ merges_reached loop_mirror.
Proof.
  destruct loop_obeys as (O & C & R). split; [exact O|]. split; [apply (C123_obeys _ _ _ _ loop_mirrored); exact O|]. split; apply (C123_conditions _ _ _ _ loop_mirrored); assumption.
Qed.
