(** Property theorems about a block cut in two, C121.  The vocabulary of the statements is in Spec_Flow, Spec_Link, Spec_Prune, Spec_Standard, Spec_Returns, Spec_Inlined, Spec_Halves and Spec_Split. *)
From Coq Require Import Permutation.
From Verif Require Import Base Types Ops Groups ReadErr ReadBase ExtSet ReadOps Reader Validate ControlFlow Glsl450 Spec_Wire Spec_Layout Spec_Flow Spec_Link Spec_Prune Spec_Standard Spec_Returns Spec_Split Spec_Inlined Spec_Halves Samples Samples_Flow Samples_Split Samples_Returns Samples_Joined Proofs_Split Proofs_Replace Proofs_Halves Proofs_Halves2 Proofs_Halves3.

(** ** C121 *)
(** The answer is the same, chain, error or panic, with two blocks where there was one, and there is none if there was none. *)
Theorem C121_cut : forall E (f g : FunctionDefinition E) cut n, cut_at f g cut n -> ~ starts_loop cut ->
  forall r, returns g r <-> exists r0, returns f r0 /\ r = cut_answer (label_of cut) n r0.
Proof. exact @cut_iff. Qed.
Print Assumptions C121_cut.

(** Whether or not the function is understood, and also if the block starts a loop, the executions are the same with two blocks where there was one. *)
Theorem C121_executions : forall E (f g : FunctionDefinition E) cut n, cut_at f g cut n -> NoDup (labels f) ->
  forall t', complete_run g t' <-> exists t, complete_run f t /\ t' = with_halves (label_of cut) n t.
Proof. exact halves_executions. Qed.
Print Assumptions C121_executions.

(** On the way it is the same, or the first part has been executed and the second is next. *)
Theorem C121_on_the_way : forall E (f g : FunctionDefinition E) cut n, cut_at f g cut n -> NoDup (labels f) ->
  forall t' j, gets_to g t' j <-> (exists t, gets_to f t j /\ t' = with_halves (label_of cut) n t)
    \/ j = n /\ exists t, gets_to f t (label_of cut) /\ t' = with_halves (label_of cut) n t ++ [(label_of cut, None)].
Proof. exact halves_on_the_way. Qed.
Print Assumptions C121_on_the_way.

(** So the same blocks are reached, and the second part if the block was. *)
Theorem C121_reached : forall E (f g : FunctionDefinition E) cut n, cut_at f g cut n -> NoDup (labels f) -> forall j, reachable g j <-> reachable f j \/ j = n /\ reachable f (label_of cut).
Proof. exact halves_reached. Qed.
Print Assumptions C121_reached.

(** There is one more label, and it is a new one. *)
Theorem C121_labels : forall E (f g : FunctionDefinition E) cut n, cut_at f g cut n -> Permutation (labels g) (n :: labels f) /\ (NoDup (labels f) -> NoDup (labels g)).
Proof. exact halves_labels. Qed.
Print Assumptions C121_labels.

(** What an execution must have come through is the same, with the second part always after the first. *)
Theorem C121_dominates : forall E (f g : FunctionDefinition E) cut n, cut_at f g cut n -> NoDup (labels f) ->
  (forall a b, a <> n -> b <> n -> (dominates g a b <-> dominates f a b)) /\ (forall a, a <> n -> (dominates g a n <-> dominates f a (label_of cut)))
  /\ (forall b, b <> n -> b <> label_of cut -> (dominates g n b <-> dominates f (label_of cut) b)) /\ (reachable f (label_of cut) -> ~ dominates g n (label_of cut)).
Proof. exact halves_dominates. Qed.
Print Assumptions C121_dominates.
(** If the function obeys the rules of the standard for structured control flow, and those that C114 needs, it still does with a block cut that does not start a loop. *)
Theorem C121_obeys : forall E (f g : FunctionDefinition E) cut n, cut_at f g cut n -> NoDup (labels f) -> ~ starts_loop cut ->
  (obeys f -> obeys g) /\ (loops_close f -> loops_close g) /\ (merges_reached f -> merges_reached g).
Proof. exact halves_obeys. Qed.
Print Assumptions C121_obeys.
(** And only then, unless a loop of the first function names the new label as its continue target, which is a block only after the cut. *)
Theorem C121_obeys_back : forall E (f g : FunctionDefinition E) cut n, cut_at f g cut n -> NoDup (labels f) -> ~ starts_loop cut ->
  ((forall h m ct, heads_loop f h m ct -> ct <> n) -> obeys g -> obeys f) /\ (loops_close g -> loops_close f) /\ (merges_reached g -> merges_reached f).
Proof. exact joined_obeys. Qed.
Print Assumptions C121_obeys_back.
(** That exception is real. *)
Theorem C121_obeys_back_refuted : exists (f g : FunctionDefinition Inst) cut n, cut_at f g cut n /\ NoDup (labels f) /\ ~ starts_loop cut /\ obeys g /\ ~ obeys f.
Proof. exact early_obeys. Qed.
Print Assumptions C121_obeys_back_refuted.
(** With the first block of a loop cut it never does, unless the loop is not reached. *)
Theorem C121_header_disobeys : forall E (f g : FunctionDefinition E) cut n, cut_at f g cut n -> NoDup (labels f) -> starts_loop cut -> reachable f (label_of cut) -> obeys f -> ~ obeys g.
Proof. exact halves_header. Qed.
Print Assumptions C121_header_disobeys.

(** If the function is in a file that is read and accepted and the new label fits into a word, there is such a file with the two blocks in place of the one. *)
Theorem C121_file : forall E (known : list (ExtInstSet E)) lm before f after g cut n, has_file known lm -> LogicalModule_function_definitions lm = before ++ f :: after -> cut_at f g cut n ->
  FunctionDefinition_function g = FunctionDefinition_function f -> FunctionDefinition_parameters g = FunctionDefinition_parameters f -> (n < 2 ^ 32)%N ->
  has_file known (with_definitions lm (before ++ g :: after)).
Proof. exact @cut_at_file. Qed.
Print Assumptions C121_file.

(** The other way, two blocks that are one block cut in two can be joined again in a file. *)
Theorem C121_joined : forall E (known : list (ExtInstSet E)) lm before f after g cut n, has_file known lm -> LogicalModule_function_definitions lm = before ++ g :: after -> cut_at f g cut n ->
  FunctionDefinition_function g = FunctionDefinition_function f -> FunctionDefinition_parameters g = FunctionDefinition_parameters f ->
  has_file known (with_definitions lm (before ++ f :: after)).
Proof. exact @joined_file. Qed.
Print Assumptions C121_joined.

(** The condition is needed: a loop whose first block is cut is not understood if it starts again early. *)
Theorem C121_header_refuted : exists (f g : FunctionDefinition Inst) cut n chain, cut_at f g cut n /\ starts_loop cut
  /\ returns f (Ok chain) /\ returns g (Err (CouldNotPredictConverge 11%N)).
Proof. exact header_cut. Qed.
Print Assumptions C121_header_refuted.

(** The loop function: the block before the loop, the exit of the loop, the selection and the last block are cut in turn. *)
Example C121_example :
  (exists g, cut_at loop_function g (simple_block 9%N None (branch_to 10%N)) 20%N)
  /\ cut_answer 9%N 20%N (Ok loop_chain) = Ok (Block
    [ Atom 9; Atom 20;
      Loop 10 (Selection 11 (Block [Selection 12 (Block [Atom 15]) (Block [Atom 16]) flatten None; Atom 13])
        Break (Build_SelectionControl false false) (Some (Build_BranchWeights 7 1))) unroll None; Atom 14 ])%N
  /\ cut_answer 11%N 20%N (Ok loop_chain) = Ok (Block
    [ Atom 9;
      Loop 10 (Block [Atom 11; Selection 20 (Block [Selection 12 (Block [Atom 15]) (Block [Atom 16]) flatten None; Atom 13])
        Break (Build_SelectionControl false false) (Some (Build_BranchWeights 7 1))]) unroll None; Atom 14 ])%N
  /\ find_control_flow 10 cut_exit = cut_answer 11%N 20%N (Ok loop_chain)
  /\ cut_at loop_function cut_exit (nth 2 loop_blocks (simple_block 0%N None (branch_to 0%N))) 20%N
  /\ ~ starts_loop (nth 2 loop_blocks (simple_block 0%N None (branch_to 0%N)))
  /\ find_control_flow 10 loop_function = Ok loop_chain
  /\ cut_answer 12%N 20%N (Ok loop_chain) = Ok (Block
    [ Atom 9;
      Loop 10 (Selection 11 (Block [Atom 12; Selection 20 (Block [Atom 15]) (Block [Atom 16]) flatten None; Atom 13])
        Break (Build_SelectionControl false false) (Some (Build_BranchWeights 7 1))) unroll None; Atom 14 ])%N.
Proof.
  split; [|split; [reflexivity|split; [reflexivity|split; [vm_compute; reflexivity|split; [exact exit_cut|split; [intros [op X]; discriminate X|split; vm_compute; reflexivity]]]]]].
  eexists (function_of _), [], _, [], []. split; [reflexivity|]. split; [reflexivity|]. split; [reflexivity|]. exact loop_fresh.
Qed.

(** A file with the loop function, its exit cut. *)
Example C121_file_example :
  let m := with_instructions sample (Core_OpMemoryModel (Build_OpMemoryModel AddressingModel_Logical MemoryModel_Glsl450) :: write_definition loop_function) in
  exists lm, validate m = Ok lm /\ has_file [InstSet] lm /\ LogicalModule_function_definitions lm = [] ++ loop_function :: [] /\ has_file [InstSet] (with_definitions lm [cut_exit])
    /\ has_file [InstSet] (with_definitions (with_definitions lm [cut_exit]) [loop_function]).
Proof.
  intros m. assert (V : exists lm, validate m = Ok lm /\ LogicalModule_function_definitions lm = [loop_function]) by (eexists; split; vm_compute; reflexivity).
  destruct V as (lm & V & D). exists lm. split; [exact V|].
  assert (F : has_file [InstSet] lm) by (exists (encode_module LittleEndian m []), m; split; [vm_compute; reflexivity|exact V]).
  split; [exact F|]. split; [exact D|].
  assert (G : has_file [InstSet] (with_definitions lm [cut_exit])) by (apply (C121_file _ [InstSet] lm [] loop_function [] cut_exit _ _ F D exit_cut); reflexivity).
  split; [exact G|]. apply (C121_joined _ [InstSet] _ [] loop_function [] cut_exit _ _ G eq_refl exit_cut); reflexivity.
Qed.

(** The loop is left at once: the exit of the loop is executed in two parts. *)
Local Open Scope N_scope.
Ltac next_block := match goal with |- has_block ?f ?id _ => let b := eval cbv in (find (fun b => N.eqb (label_of b) id) (FunctionDefinition_blocks f)) in
  match b with Some ?x => assert (has_block f id x) as ?H by (split; [cbn; tauto|reflexivity]); eassumption end end.
Example C121_executions_example : NoDup (labels loop_function) /\ complete_run loop_function [(9, None); (10, None); (11, Some false); (14, None)]
  /\ complete_run cut_exit [(9, None); (10, None); (11, None); (20, Some false); (14, None)] /\ gets_to cut_exit [(9, None); (10, None); (11, None)] 20 /\ reachable cut_exit 20 /\ NoDup (labels cut_exit).
Proof.
  assert (U : NoDup (labels loop_function)) by (vm_compute; repeat constructor; cbn; intuition discriminate).
  assert (C : complete_run loop_function [(9, None); (10, None); (11, Some false); (14, None)]).
  { exists 9. split; [eexists _, _; split; reflexivity|]. eapply walk_branch; [next_block|reflexivity|]. eapply walk_branch; [next_block|reflexivity|]. eapply walk_false; [next_block|reflexivity|]. eapply walk_return; [next_block|reflexivity]. }
  assert (G : gets_to loop_function [(9, None); (10, None)] 11).
  { exists 9. split; [eexists _, _; split; reflexivity|]. eapply walk_branch; [next_block|reflexivity|]. eapply walk_branch; [next_block|reflexivity|]. constructor. }
  split; [exact U|]. split; [exact C|]. split; [apply (C121_executions _ _ _ _ _ exit_cut U); eexists; split; [exact C|reflexivity]|].
  split; [apply (C121_on_the_way _ _ _ _ _ exit_cut U); right; split; [reflexivity|]; eexists; split; [exact G|reflexivity]|].
  split; [apply (C121_reached _ _ _ _ _ exit_cut U); right; split; [reflexivity|]; destruct G as (id & G); exists id; eexists; exact G|]. exact (proj2 (C121_labels _ _ _ _ _ exit_cut) U).
Qed.

(** The exit of the loop can be cut, its first block cannot. *)
Example C121_dominates_example : reachable loop_function 9 /\ exists g, cut_at loop_function g (simple_block 9 None (branch_to 10)) 20 /\ dominates g 9 20 /\ dominates g 20 10 /\ ~ dominates g 20 9.
Proof.
  assert (U : NoDup (labels loop_function)) by (vm_compute; repeat constructor; cbn; intuition discriminate).
  assert (R : reachable loop_function 9) by (exists 9, []; split; [eexists _, _; split; reflexivity|constructor]).
  assert (En : forall b, dominates loop_function 9 b).
  { intros b first t (x' & l' & Q' & <-) W. injection Q' as <- _. apply Proofs_Inlined.walk_inv in W as [[-> J]|(d & dst & t1 & -> & _)]; [injection J as ->|]; left; reflexivity. }
  split; [exact R|]. assert (K : exists g, cut_at loop_function g (simple_block 9 None (branch_to 10)) 20).
  { eexists (function_of _), [], (skipn 1 loop_blocks), [], []. split; [reflexivity|]. split; [reflexivity|]. split; [reflexivity|]. exact loop_fresh. }
  destruct K as [g K]. exists g. split; [exact K|]. destruct (C121_dominates _ _ _ _ _ K U) as (_ & B & C & D). split; [apply (B 9); [discriminate|apply En]|]. split; [apply (C 10); [discriminate|vm_compute; discriminate|apply En]|exact (D R)].
Qed.
Example C121_obeys_back_example : (forall h m ct, heads_loop loop_function h m ct -> ct <> 20) /\ obeys cut_exit /\ loops_close cut_exit /\ merges_reached cut_exit.
Proof.
  assert (U : NoDup (labels loop_function)) by (vm_compute; repeat constructor; cbn; intuition discriminate). destruct loop_obeys as (O & C & R).
  split; [|destruct (C121_obeys _ _ _ _ _ exit_cut U) as (X & Y & Z); [intros [op K]; discriminate K|auto]].
  intros h m ct (b & hint & [I _] & Q) ->. cbn in I. repeat (destruct I as [<-|I]; [discriminate Q|]). exact I.
Qed.
Example C121_obeys_example : obeys loop_function /\ obeys cut_exit
  /\ exists g, cut_at loop_function g (nth 1 loop_blocks (simple_block 0 None (branch_to 0))) 20 /\ starts_loop (nth 1 loop_blocks (simple_block 0 None (branch_to 0))) /\ ~ obeys g.
Proof.
  assert (U : NoDup (labels loop_function)) by (vm_compute; repeat constructor; cbn; intuition discriminate).
  split; [exact (proj1 loop_obeys)|]. split; [apply (C121_obeys _ _ _ _ _ exit_cut U); [intros [op X]; discriminate X|exact (proj1 loop_obeys)]|].
  assert (K : exists g, cut_at loop_function g (nth 1 loop_blocks (simple_block 0 None (branch_to 0))) 20).
  { eexists (function_of _), (firstn 1 loop_blocks), (skipn 2 loop_blocks), [], []. split; [reflexivity|]. split; [reflexivity|]. split; [reflexivity|]. exact loop_fresh. }
  destruct K as [g K]. assert (S : starts_loop (nth 1 loop_blocks (simple_block 0 None (branch_to 0)))) by (eexists; reflexivity). exists g. split; [exact K|]. split; [exact S|].
  apply (C121_header_disobeys _ _ _ _ _ K U S); [|exact (proj1 loop_obeys)]. exists 9, [(9, None)]. split; [eexists _, _; split; reflexivity|]. eapply walk_branch; [next_block|reflexivity|]. constructor.
Qed.
