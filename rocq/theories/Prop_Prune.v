(** C137: Leaving out the blocks that are not needed. *)
From Verif Require Import Base Types Ops Groups Reader ExtSet Validate Glsl450 ControlFlow Spec_Wire Spec_Layout Spec_Flow Spec_Link Spec_Prune Samples Samples_Flow Proofs_Prune.

(** The blocks that the control flow of a function does not name can be left out of an accepted file, in any of its functions. *)
Theorem C137_file : forall E (known : list (ExtInstSet E)) lm ds, has_file known lm ->
  Forall2 (fun d d' => d' = d \/ pruned d d') (LogicalModule_function_definitions lm) ds -> has_file known (with_definitions lm ds).
Proof. exact @prune_file. Qed.
Print Assumptions C137_file.

(** The control flow stays the same. *)
Theorem C137_control_flow : forall E (d d' : FunctionDefinition E), pruned d d' -> forall chain, returns d' (Ok chain) <-> returns d (Ok chain).
Proof. exact @pruned_flow. Qed.
Print Assumptions C137_control_flow.

(** So do the executions. *)
Theorem C137_executions : forall E (d d' : FunctionDefinition E), pruned d d' -> forall t, complete_run d' t <-> complete_run d t.
Proof. exact @pruned_runs. Qed.
Print Assumptions C137_executions.

(** No function with this control flow has fewer blocks: each has blocks of all the labels that are left. *)
Theorem C137_smallest : forall E (d d' d'' : FunctionDefinition E) chain, pruned d d' -> returns d (Ok chain) -> returns d'' (Ok chain) ->
  incl (labels d') (labels d'') /\ length (FunctionDefinition_blocks d') <= length (FunctionDefinition_blocks d'').
Proof. exact @pruned_smallest. Qed.
Print Assumptions C137_smallest.

(** Doing it again changes nothing. *)
Theorem C137_again : forall E (d d' d'' : FunctionDefinition E), pruned d d' -> pruned d' d'' -> d'' = d'.
Proof. exact @pruned_again. Qed.
Print Assumptions C137_again.

(** It would not do to leave out all the blocks that no execution reaches: the function may no longer be understood. *)
Theorem C137_reachable_refuted : ~ (forall E (d d' : FunctionDefinition E) chain, returns d (Ok chain) -> reachable_part d d' -> exists chain', returns d' (Ok chain')).
Proof. exact reachable_not_enough. Qed.
Print Assumptions C137_reachable_refuted.

(** The loop with one more block, which branches into the loop. *)
Example C137_example : let more := simple_block 77%N None (branch_to 11%N) in let d := function_of (loop_blocks ++ [more]) in
  pruned d loop_function /\ returns d (Ok loop_chain) /\ returns loop_function (Ok loop_chain) /\ length (FunctionDefinition_blocks d) = 9
  /\ length (FunctionDefinition_blocks loop_function) = 8.
Proof.
  intros more d. assert (R : returns d (Ok loop_chain)) by (split; [discriminate|exists 100; vm_compute; reflexivity]).
  assert (P : pruned d loop_function).
  { split; [reflexivity|]. split; [reflexivity|]. exists loop_chain. split; [exact R|vm_compute; reflexivity]. }
  split; [exact P|]. split; [exact R|]. split; [exact (proj2 (C137_control_flow _ _ _ P _) R)|]. split; reflexivity.
Qed.

(** A file with a block that nothing refers to, and the file without it. *)
Example C137_file_example :
  let m := with_instructions sample (removelast sample_instructions ++ [Core_OpLabel (Build_OpLabel 10); Core_OpBranch (Build_OpBranch 6); Core_OpFunctionEnd Build_OpFunctionEnd])%N in
  exists lm d d', validate m = Ok lm /\ has_file [InstSet] lm /\ LogicalModule_function_definitions lm = [d] /\ labels d = [6; 10]%N
    /\ pruned d d' /\ labels d' = [6]%N /\ has_file [InstSet] (with_definitions lm [d']) /\ validate sample = Ok (with_definitions lm [d']).
Proof.
  intros m. assert (V : exists lm d d', validate m = Ok lm /\ LogicalModule_function_definitions lm = [d] /\ labels d = [6; 10]%N /\ pruned d d' /\ labels d' = [6]%N /\ validate sample = Ok (with_definitions lm [d'])).
  { assert (A : exists a, validate sample = Ok a) by (eexists; vm_compute; reflexivity). destruct A as [a A].
    assert (B : exists b, validate m = Ok b) by (eexists; vm_compute; reflexivity). destruct B as [b B].
    exists b, (hd (function_of []) (LogicalModule_function_definitions b)), (hd (function_of []) (LogicalModule_function_definitions a)).
    split; [exact B|]. vm_compute in A, B. injection A as <-. injection B as <-. split; [reflexivity|]. split; [reflexivity|]. split.
    - split; [reflexivity|]. split; [reflexivity|]. exists (Atom 6%N). split; [split; [discriminate|exists 9; vm_compute; reflexivity]|vm_compute; reflexivity].
    - split; [reflexivity|vm_compute; reflexivity]. }
  destruct V as (lm & d & d' & V & D & L & P & L' & S). exists lm, d, d'.
  assert (H : has_file [InstSet] lm) by (exists (encode_module LittleEndian m sample_payloads), m; split; [vm_compute; reflexivity|exact V]).
  split; [exact V|]. split; [exact H|]. split; [exact D|]. split; [exact L|]. split; [exact P|]. split; [exact L'|]. split; [|exact S].
  apply C137_file; [exact H|]. rewrite D. constructor; [right; exact P|constructor].
Qed.
