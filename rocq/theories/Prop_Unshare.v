(** C138: Functions in which every block is used once. *)
From Coq Require Import Lia.
From Verif Require Import Base Types Ops Groups ExtSet Reader Validate ControlFlow Glsl450 Spec_Wire Spec_Layout Spec_Flow Spec_Invariance Spec_Structured Spec_Link Spec_Prune Spec_Unshare Samples Samples_Flow Samples_Occurs
  Proofs_Unshare Proofs_Unshare2 Proofs_Unshare3.
Local Open Scope N_scope.

(** Whatever function is understood, there is one made of copies of its blocks that is written from a structured program, with each block used once, and that has the same control flow. Its labels are consecutive numbers from any number on. *)
Theorem C138_unshare : forall E (f : FunctionDefinition E) chain, returns f (Ok chain) -> forall base, exists f' chain' origin, returns f' (Ok chain') /\ rename_chain origin chain' = chain
  /\ labels f' = numbers_from base (length (chain_ids chain)) /\ chain_ids chain' = labels f' /\ made_of_copies origin f f'
  /\ FunctionDefinition_function f' = FunctionDefinition_function f /\ FunctionDefinition_parameters f' = FunctionDefinition_parameters f
  /\ exists program last, written_from f' program last.
Proof. exact unshare. Qed.
Print Assumptions C138_unshare.

(** Functions with the same control flow but for the labels have the same executions but for the labels. *)
Theorem C138_executions : forall E E' (f : FunctionDefinition E) (f' : FunctionDefinition E') chain chain' origin,
  returns f (Ok chain) -> returns f' (Ok chain') -> rename_chain origin chain' = chain ->
  forall t, complete_run f t <-> exists t', complete_run f' t' /\ t = origin_events origin t'.
Proof. exact same_executions. Qed.
Print Assumptions C138_executions.

(** If the labels fit into words, there is a file that is read and accepted with this function in place of the other. *)
Theorem C138_file : forall E (known : list (ExtInstSet E)) lm before d after chain base, has_file known lm ->
  LogicalModule_function_definitions lm = before ++ d :: after -> returns d (Ok chain) -> base + N.of_nat (length (chain_ids chain)) <= 2 ^ 32 ->
  exists d' chain' origin, has_file known (with_definitions lm (before ++ d' :: after)) /\ returns d' (Ok chain') /\ rename_chain origin chain' = chain
  /\ labels d' = numbers_from base (length (chain_ids chain)) /\ chain_ids chain' = labels d' /\ made_of_copies origin d d'.
Proof. exact @unshare_file. Qed.
Print Assumptions C138_file.

(** There is only one such function with these labels. *)
Theorem C138_unique : forall E (f : FunctionDefinition E) chain f' chain' origin' f'' chain'' origin'', returns f (Ok chain) ->
  returns f' (Ok chain') -> rename_chain origin' chain' = chain -> chain_ids chain' = labels f' -> made_of_copies origin' f f' ->
  returns f'' (Ok chain'') -> rename_chain origin'' chain'' = chain -> chain_ids chain'' = labels f'' -> made_of_copies origin'' f f'' ->
  labels f' = labels f'' -> FunctionDefinition_function f' = FunctionDefinition_function f'' -> FunctionDefinition_parameters f' = FunctionDefinition_parameters f'' -> f' = f''.
Proof. exact unshare_unique. Qed.
Print Assumptions C138_unique.

(** No function in which the control flow names each block once has fewer blocks. *)
Theorem C138_size : forall E E' (f : FunctionDefinition E) (f' : FunctionDefinition E') chain chain' origin,
  returns f (Ok chain) -> returns f' (Ok chain') -> rename_chain origin chain' = chain -> NoDup (chain_ids chain') ->
  (length (chain_ids chain) <= length (FunctionDefinition_blocks f'))%nat.
Proof. exact unshared_size. Qed.
Print Assumptions C138_size.

(** That can be very many. *)
Theorem C138_large : forall E n, exists (f : FunctionDefinition E) chain, length (FunctionDefinition_blocks f) = (2 * n + 1)%nat /\ returns f (Ok chain)
  /\ forall E' (f' : FunctionDefinition E') chain' origin, returns f' (Ok chain') -> rename_chain origin chain' = chain -> NoDup (chain_ids chain') ->
     2 ^ N.of_nat n <= N.of_nat (length (FunctionDefinition_blocks f')).
Proof. exact unshared_large. Qed.
Print Assumptions C138_large.

(** Both arms of the selection of twice_function go to block 4. With two copies of it, block 102 for the first and block 104 for the second. *)
Definition twice_origin (id : BlockId) : BlockId :=
  if N.eqb id 100 then 1 else if N.eqb id 101 then 2 else if N.eqb id 102 then 4 else if N.eqb id 103 then 3 else if N.eqb id 104 then 4 else 5.
Definition twice_copied : FunctionDefinition Inst := function_of
  [ simple_block 100 (Some (GroupMerge_OpSelectionMerge (Build_OpSelectionMerge 105 flatten))) (branch_on 101 103 None);
    simple_block 101 None (branch_to 102);
    simple_block 102 None (branch_to 105);
    simple_block 103 None (branch_to 104);
    simple_block 104 None (branch_to 105);
    simple_block 105 None (GroupBranch_OpReturn Build_OpReturn) ].
Example C138_example : returns twice_function (Ok twice_chain) /\ chain_ids twice_chain = [1; 2; 4; 3; 4; 5]%N
  /\ exists chain', returns twice_copied (Ok chain') /\ rename_chain twice_origin chain' = twice_chain
    /\ labels twice_copied = numbers_from 100 (length (chain_ids twice_chain)) /\ chain_ids chain' = labels twice_copied /\ NoDup (chain_ids chain')
    /\ made_of_copies twice_origin twice_function twice_copied
    /\ complete_run twice_function [(1, Some true); (2, None); (4, None); (5, None)]
    /\ complete_run twice_copied [(100, Some true); (101, None); (102, None); (105, None)].
Proof.
  assert (R : returns twice_function (Ok twice_chain)) by (split; [discriminate|exists 9%nat; vm_compute; reflexivity]).
  split; [exact R|]. split; [vm_compute; reflexivity|].
  assert (A : exists c, returns twice_copied (Ok c) /\ rename_chain twice_origin c = twice_chain /\ chain_ids c = labels twice_copied).
  { eexists. split; [split; [discriminate|exists 9%nat; vm_compute; reflexivity]|]. split; vm_compute; reflexivity. }
  destruct A as (c & A1 & A2 & A3). exists c. split; [exact A1|]. split; [exact A2|]. split; [vm_compute; reflexivity|]. split; [exact A3|].
  split; [rewrite A3; vm_compute; repeat constructor; cbn; intuition discriminate|]. split.
  - intros b' H. cbn in H. repeat (destruct H as [<-|H]; [|]); try destruct H.
    all: let at_ n := (exists (nth n (FunctionDefinition_blocks twice_function) (simple_block 0 None (branch_to 0))); split; [cbn; tauto|split; reflexivity]) in
      first [at_ 0%nat | at_ 1%nat | at_ 2%nat | at_ 3%nat | at_ 4%nat].
  - assert (W : complete_run twice_copied [(100, Some true); (101, None); (102, None); (105, None)]%N).
    { exists 100%N. split; [eexists _, _; split; reflexivity|].
      eapply walk_true; [split; [left; reflexivity|reflexivity]|reflexivity|]. eapply walk_branch; [split; [right; left; reflexivity|reflexivity]|reflexivity|].
      eapply walk_branch; [split; [do 2 right; left; reflexivity|reflexivity]|reflexivity|]. eapply walk_return; [split; [do 5 right; left; reflexivity|reflexivity]|reflexivity]. }
    split; [|exact W]. apply (proj2 (C138_executions _ _ _ _ _ _ _ R A1 A2 _)). eexists. split; [exact W|reflexivity].
Qed.

(** A file with this function. *)
Example C138_file_example :
  let m := with_instructions sample ([Core_OpMemoryModel (Build_OpMemoryModel AddressingModel_Logical MemoryModel_Glsl450)] ++ write_definition twice_function) in
  exists lm, validate m = Ok lm /\ has_file [InstSet] lm /\ LogicalModule_function_definitions lm = [] ++ twice_function :: [] /\ returns twice_function (Ok twice_chain)
    /\ 100 + N.of_nat (length (chain_ids twice_chain)) <= 2 ^ 32.
Proof.
  intros m. assert (V : exists lm, validate m = Ok lm /\ LogicalModule_function_definitions lm = [twice_function]) by (eexists; split; vm_compute; reflexivity).
  destruct V as (lm & V & D). exists lm. split; [exact V|]. split; [exists (encode_module LittleEndian m []), m; split; [vm_compute; reflexivity|exact V]|].
  split; [exact D|]. split; [split; [discriminate|exists 9%nat; vm_compute; reflexivity]|]. vm_compute. discriminate.
Qed.

(** So the function that C138_unshare speaks of is twice_copied, for labels from 100 on. *)
Example C138_unique_example : forall f' chain' origin', returns f' (Ok chain') -> rename_chain origin' chain' = twice_chain -> labels f' = numbers_from 100 (length (chain_ids twice_chain)) ->
  chain_ids chain' = labels f' -> made_of_copies origin' twice_function f' ->
  FunctionDefinition_function f' = FunctionDefinition_function twice_function -> FunctionDefinition_parameters f' = FunctionDefinition_parameters twice_function -> f' = twice_copied.
Proof.
  intros f' chain' origin' R Q L I C F P. destruct C138_example as (R0 & _ & c & R1 & Q1 & L1 & I1 & _ & C1 & _).
  eapply C138_unique; [exact R0|exact R|exact Q|exact I|exact C|exact R1|exact Q1|exact I1|exact C1|congruence|exact F|exact P].
Qed.
