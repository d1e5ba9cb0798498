(** How many calls the control-flow search takes on functions that obey the rules (C114). *)
From Verif Require Import Base Types Ops Groups ExtSet ControlFlow ControlFlowCount Spec_Flow Spec_Standard Spec_Returns Proofs_Cost Proofs_AnyCalls Proofs_Returns.

Lemma counted_more : forall E (f : FunctionDefinition E) d more, fst (find_control_flow_counted d f) <> OutOfFuel ->
  find_control_flow_counted (more + d) f = find_control_flow_counted d f.
Proof.
  intros E f d more X. unfold find_control_flow_counted in *. destruct (build_map (FunctionDefinition_blocks f) None []) as [[[s|] m]|e| |]; cbn [count_bind answer] in *; try reflexivity.
  rewrite counted_mono; [reflexivity|]. intros Y. apply X. rewrite (surjective_pairing (search_block_counted d s [] m)), Y. reflexivity.
Qed.
Theorem rules_calls : forall E (f : FunctionDefinition E), merge_rules f -> construct_rules f -> loops_close f -> merges_reached f ->
  let n := length (FunctionDefinition_blocks f) in
  forall depth, n < depth -> fst (find_control_flow_counted depth f) <> OutOfFuel /\ snd (find_control_flow_counted depth f) <= (n + 1) * (6 * 2 ^ n - 3).
Proof.
  intros E f M K C R n depth L. destruct (rules_return E f M K C R) as (r & N & Q). fold n in Q.
  split; [rewrite counted_find, (Q depth L); exact N|]. assert (F : fst (find_control_flow_counted (n + 1) f) <> OutOfFuel) by (rewrite counted_find, (Q (n + 1) ltac:(lia)); exact N).
  replace depth with (depth - (n + 1) + (n + 1)) by lia. rewrite (counted_more _ f _ _ F). apply calls_at_depth.
Qed.
