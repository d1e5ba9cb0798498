(** Property theorems about how often a chain names a block of a structured function, C116.  The vocabulary of the
    statements is in Spec_Flow, Spec_Standard, Spec_Returns and Spec_Occurs. *)
From Verif Require Import Base Types Ops Groups Glsl450 ControlFlow ControlFlowCount Spec_Flow Samples Samples_Flow Spec_Standard Spec_Returns Spec_Occurs
  Proofs_Occurs2 Proofs_Occurs3 Samples_Returns Samples_Occurs Samples_Nested.

(** ** C116 *)
(** The first block once; a merge block as often as its header; any other block once for each time that the chain names
    a block that branches to it, other than back to the start of a loop. *)
Theorem C116_first : forall E (f : FunctionDefinition E) chain, merge_rules f -> construct_rules f -> loops_close f -> merges_reached f -> returns f (Ok chain) ->
  forall e, entry f e -> occurrences chain e = 1.
Proof. exact @occurs_first. Qed.
Print Assumptions C116_first.

Theorem C116_merge : forall E (f : FunctionDefinition E) chain, merge_rules f -> construct_rules f -> loops_close f -> merges_reached f -> returns f (Ok chain) ->
  forall h m, declares f h m -> reachable f h -> occurrences chain m = occurrences chain h.
Proof. exact @occurs_merge. Qed.
Print Assumptions C116_merge.

Theorem C116_other : forall E (f : FunctionDefinition E) chain, merge_rules f -> construct_rules f -> loops_close f -> merges_reached f -> returns f (Ok chain) ->
  forall v from, ~ entry f v -> ~ merges_at f v -> NoDup from -> (forall u n, In (u, n) from <-> comes_from f v u n) ->
  occurrences chain v = list_sum (map (fun b => occurrences chain (fst b)) from).
Proof. exact @occurs_other. Qed.
Print Assumptions C116_other.

(** So it names no block twice exactly when branches come together at merge blocks only. *)
Theorem C116_once : forall E (f : FunctionDefinition E) chain, merge_rules f -> construct_rules f -> loops_close f -> merges_reached f -> returns f (Ok chain) ->
  (NoDup (chain_ids chain) <-> one_way f).
Proof. exact @occurs_once. Qed.
Print Assumptions C116_once.

(** Then finding it takes work linear in the blocks. *)
Theorem C116_linear : forall E (f : FunctionDefinition E) chain, merge_rules f -> construct_rules f -> loops_close f -> merges_reached f -> returns f (Ok chain) -> one_way f ->
  let n := length (FunctionDefinition_blocks f) in
  length (chain_ids chain) <= n /\ forall depth, n < depth -> exists calls, find_control_flow_counted depth f = (Ok chain, calls) /\ calls <= 3 * n - 2.
Proof. exact @occurs_linear. Qed.
Print Assumptions C116_linear.

(** Obeying the rules does not keep the chain small. *)
Theorem C116_large : forall k, exists (f : FunctionDefinition Inst) chain v, length (FunctionDefinition_blocks f) = 4 * k + 1
  /\ obeys f /\ loops_close f /\ merges_reached f /\ returns f (Ok chain) /\ occurrences chain v = 2 ^ k.
Proof. exact nested_large. Qed.
Print Assumptions C116_large.

(** Block 4 of twice_function, which both arms of its selection branch to, is named twice; no block of loop_function is. *)
Example C116_example : merge_rules twice_function /\ construct_rules twice_function /\ loops_close twice_function /\ merges_reached twice_function
  /\ returns twice_function (Ok twice_chain) /\ ~ entry twice_function 4%N /\ ~ merges_at twice_function 4%N
  /\ (forall u n, In (u, n) [(2%N, 0); (3%N, 0)] <-> comes_from twice_function 4%N u n) /\ chain_ids twice_chain = [1; 2; 4; 3; 4; 5]%N
  /\ ~ one_way twice_function /\ one_way loop_function.
Proof.
  destruct twice_rules as ((M & _ & K) & C & R & RET). split; [exact M|]. split; [exact K|]. split; [exact C|]. split; [exact R|]. split; [exact RET|].
  split; [exact (proj1 twice_other)|]. split; [exact (proj2 twice_other)|]. split; [exact twice_comes|]. split; [vm_compute; reflexivity|]. split.
  - intros W. destruct (W 4%N 2%N 0 3%N 0 (proj2 twice_other) (proj1 (twice_comes 2%N 0) ltac:(cbn; auto)) (proj1 (twice_comes 3%N 0) ltac:(cbn; auto))) as [Q _]. discriminate Q.
  - destruct loop_obeys as ((M' & _ & K') & C' & R'). assert (RET' : returns loop_function (Ok loop_chain)) by (split; [discriminate|]; exists 9; vm_compute; reflexivity).
    apply (occurs_once _ _ M' K' C' R' RET'). vm_compute. repeat (constructor; [intros H; repeat destruct H as [H|H]; first [discriminate H|exact H]|]). constructor.
Qed.
