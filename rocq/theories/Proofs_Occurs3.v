(** Functions in which branches come together at merge blocks only are searched with work linear in their blocks (C116). *)
From Verif Require Import Base Types Ops Groups ControlFlow ControlFlowCount Spec_Flow Spec_Standard Spec_Returns Spec_Occurs Proofs_Flow Proofs_Flow2 Proofs_Flow3 Proofs_Cost Proofs_Returns Proofs_Occurs2.

Theorem occurs_linear : forall E (f : FunctionDefinition E) chain, merge_rules f -> construct_rules f -> loops_close f -> merges_reached f -> returns f (Ok chain) -> one_way f ->
  let n := length (FunctionDefinition_blocks f) in
  length (chain_ids chain) <= n /\ forall depth, n < depth -> exists calls, find_control_flow_counted depth f = (Ok chain, calls) /\ calls <= 3 * n - 2.
Proof.
  intros E f chain MR CR LC RM RET OW n. apply (occurs_once f chain MR CR LC RM RET) in OW.
  assert (LE : length (chain_ids chain) <= n).
  { unfold n. rewrite <- (map_length label_of). apply NoDup_incl_length; [exact OW|]. intros x I. destruct RET as (_ & depth & Q). destruct (chain_ids_exist f depth chain Q x I) as (b & IB & LB).
    rewrite <- LB. apply in_map. exact IB. }
  split; [exact LE|]. intros depth L. destruct (chain_calls f chain RET) as (calls & (L1 & L2) & C). exists calls. split; [apply C|lia].
  destruct (rules_return E f MR CR LC RM) as (r & NR & A). pose proof (A depth L) as Q.
  assert (RET' : returns f r) by (split; [exact NR|exists depth; exact Q]). rewrite Q. apply returns_iff in RET as [_ X], RET' as [_ Y]. congruence.
Qed.
