(** Property theorems about the rules of the SPIR-V standard for structured control flow, C93.  The vocabulary of the
    statements is in Spec_Flow, Spec_Structured and Spec_Standard. *)
From Coq Require Import Permutation.
From Verif Require Import Base Types Ops Groups Glsl450 ControlFlow Spec_Flow Spec_Structured Samples Samples_Flow Spec_Standard Samples_Standard
  Proofs_Standard2.

(** ** C93 *)
Theorem C93_exact : forall E (f : FunctionDefinition E) program last, written_plainly f program last -> every loops_end program ->
  (merge_rules f <-> neat_program program).
Proof. intros E f program last. exact (rules_exact f program last). Qed.
Print Assumptions C93_exact.

Theorem C93_constructs : forall E (f : FunctionDefinition E) program last, written_plainly f program last -> every loops_end program ->
  merge_rules f -> construct_rules f.
Proof. intros E f program last. exact (rules_construct f program last). Qed.
Print Assumptions C93_constructs.

Theorem C93_continue_targets : forall E (f : FunctionDefinition E) program last, written_plainly f program last -> every loops_end program ->
  neat_program program -> every continue_placed program -> continue_rules f.
Proof. intros E f program last. exact (rules_continue f program last). Qed.
Print Assumptions C93_continue_targets.

Theorem C93_no_continue : forall E (f : FunctionDefinition E) program last, written_plainly f program last -> every loops_end program ->
  merge_rules f -> exists chain, returns f (Ok chain) /\ ~ continues chain.
Proof. intros E f program last. exact (rules_chain f program last). Qed.
Print Assumptions C93_no_continue.

(** loop_function as a program. *)
Definition neat_loop : list statement :=
  [ Step 9; Repeat 10 13
      [ LeaveUnless 11 1 [ Choose 12 1 [Step 15] [Step 16] flatten None; Step 13 ] (Some (Build_BranchWeights 7 1)) ] unroll ]%N.
Lemma plainly : forall l s, is_construct s = false -> ends_plainly (l ++ [s]).
Proof. intros l s C l' s' Q. apply app_inj_tail in Q as [_ <-]. exact C. Qed.
Lemma neat_loop_facts : written_plainly loop_function neat_loop 14%N /\ every loops_end neat_loop /\ neat_program neat_loop /\ every continue_placed neat_loop.
Proof.
  split; [|split; [|split]].
  - split; [cbn; tauto|]. split; [|split; [reflexivity|eexists _, _; split; reflexivity]].
    cbn. repeat constructor; cbn; intros H; repeat destruct H as [H|H]; first [discriminate H|exact H].
  - cbn. tauto.
  - split; [intros; discriminate|]. cbn [every neat neat_loop].
    assert (X : forall a s, is_construct s = false -> ends_plainly [a; s]) by (intros a s; exact (plainly [a] s)).
    assert (Y : forall s, is_construct s = false -> ends_plainly [s]) by (intros s; exact (plainly [] s)).
    repeat split; try (apply X; reflexivity); try (apply Y; reflexivity).
  - cbn [every continue_placed neat_loop]. repeat split. apply continues_rest, continues_later, continues_here.
    apply (closes_intro 13%N [] (Step 13%N)); [reflexivity|exact I|left; reflexivity].
Qed.
Example C93_example : written_plainly loop_function neat_loop 14%N /\ every loops_end neat_loop /\ neat_program neat_loop /\ every continue_placed neat_loop.
Proof. exact neat_loop_facts. Qed.
(** A loop that starts again in its middle does not obey the rules. *)
Example C93_example_restart : ~ neat_program [Step 1; Repeat 2 4 [RestartUnless 3 9 [LeaveUnless 4 9 [] None] None] unroll]%N.
Proof. intros [_ (_ & (_ & [] & _) & _)]. Qed.

(** Negating conditions does not touch the rules. *)
Theorem C93_negated : forall E (f g : FunctionDefinition E), NoDup (labels f) -> negated f g -> obeys f -> obeys g.
Proof. intros E f g ND H (A & B & C). destruct (negated_rules f g H ND) as (X & Y & Z). exact (conj (X A) (conj (Y B) (Z C))). Qed.
Print Assumptions C93_negated.

Lemma obeys_loop : obeys loop_function.
Proof.
  destruct neat_loop_facts as (W & EN & N & C). pose proof (proj2 (C93_exact _ _ _ _ W EN) N) as M. split; [exact M|]. split.
  - exact (C93_continue_targets _ _ _ _ W EN N C).
  - exact (C93_constructs _ _ _ _ W EN M).
Qed.
Lemma loop_labels : NoDup (labels loop_function).
Proof. cbn. repeat constructor; cbn; intros H; repeat destruct H as [H|H]; first [discriminate H|exact H]. Qed.
Lemma negated_loop : negated loop_function negated_loop_function.
Proof. repeat (apply Forall2_cons; [split; [reflexivity|]; split; [reflexivity|]; first [left; reflexivity|right; reflexivity]|]). apply Forall2_nil. Qed.

(** But whether the function is understood depends on it. *)
Theorem C93_negated_refuted : exists (f g : FunctionDefinition Inst) chain, NoDup (labels f) /\ negated f g /\ obeys f /\ obeys g
  /\ returns f (Ok chain) /\ returns g (Err (CouldNotPredictConverge 11%N)).
Proof.
  exists loop_function, negated_loop_function, loop_chain.
  split; [exact loop_labels|]. split; [exact negated_loop|]. split; [exact obeys_loop|]. split; [exact (C93_negated _ _ _ loop_labels negated_loop obeys_loop)|].
  split; (split; [discriminate|exists 40; vm_compute; reflexivity]).
Qed.
Print Assumptions C93_negated_refuted.

(** A function that is understood returns in one place. *)
Theorem C93_one_return : forall E (f : FunctionDefinition E) chain, returns f (Ok chain) ->
  forall a b, reachable f a -> reachable f b -> ends_function f a -> ends_function f b -> a = b.
Proof. intros E f chain. exact (one_return f chain). Qed.
Print Assumptions C93_one_return.

Example C93_example_return : returns loop_function (Ok loop_chain) /\ ends_function loop_function 14%N.
Proof. split; [split; [discriminate|exists 40; vm_compute; reflexivity]|]. exists (simple_block 14 None (GroupBranch_OpReturn Build_OpReturn)), Build_OpReturn. split; [split; [|reflexivity]|reflexivity]. cbn. tauto. Qed.

(** So not every function that obeys the rules is understood. *)
Theorem C93_early_return_refuted : exists f : FunctionDefinition Inst, NoDup (labels f) /\ obeys f
  /\ returns f (Err (InvalidConvergePrediction ControlType_Selection 1%N)).
Proof.
  exists early_return_function. split; [cbn; repeat constructor; cbn; intros H; repeat destruct H as [H|H]; first [discriminate H|exact H]|].
  split; [exact early_rules|]. split; [discriminate|]. exists 20. vm_compute. reflexivity.
Qed.
Print Assumptions C93_early_return_refuted.
