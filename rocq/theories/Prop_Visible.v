(** C108: a chain says everything find_control_flow looks at, and nothing else matters to it. *)
From Verif Require Import Base Types Ops Groups ControlFlow Glsl450 Spec_Flow Spec_Visible Proofs_Visible Samples_Flow.

(** Another function gets the chain that one got exactly when its labels are distinct, it begins with the same block, and
    under every identifier the chain names it has a block that looks the same. *)
Theorem C108_same_chain : forall E F (f : FunctionDefinition E) (g : FunctionDefinition F) chain, returns f (Ok chain) ->
  (returns g (Ok chain)
   <-> NoDup (labels g) /\ (exists id, entry f id /\ entry g id)
       /\ forall id, In id (chain_ids chain) -> exists a b, has_block f id a /\ has_block g id b /\ visible a = visible b).
Proof. exact @same_chain_iff. Qed.
Print Assumptions C108_same_chain.

(** And whatever the answer, an error, a panic or none at all, it is the same for functions whose blocks have the same
    labels and look the same: instructions, conditions, continue targets, the function's own type and parameters and the
    extended instruction set do not matter. *)
Theorem C108_only_visible : forall E F (f : FunctionDefinition E) (g : FunctionDefinition F),
  Forall2 (fun a b => label_of a = label_of b /\ visible a = visible b) (FunctionDefinition_blocks f) (FunctionDefinition_blocks g) ->
  forall depth, find_control_flow depth f = find_control_flow depth g.
Proof. exact only_visible. Qed.
Print Assumptions C108_only_visible.

(** The function with a loop, with every condition and continue target replaced by 7, its instructions removed and an
    unreachable block added at the end, gets the same chain. *)
Definition faceless (b : BasicBlock Inst) : BasicBlock unit :=
  Build_BasicBlock (BasicBlock_label b) []
    (match BasicBlock_merge b with
     | Some (GroupMerge_OpLoopMerge m) => Some (GroupMerge_OpLoopMerge (Build_OpLoopMerge (OpLoopMerge_merge_block m) 7%N (OpLoopMerge_loop_control m)))
     | m => m
     end)
    (match BasicBlock_branch b with
     | GroupBranch_OpBranchConditional c =>
         GroupBranch_OpBranchConditional (Build_OpBranchConditional 7%N (OpBranchConditional_true_label c) (OpBranchConditional_false_label c) (OpBranchConditional_weights c))
     | b => b
     end).
Definition other_function : FunctionDefinition unit :=
  Build_FunctionDefinition (FunctionDefinition_function loop_function) []
    (map faceless (FunctionDefinition_blocks loop_function) ++ [Build_BasicBlock (Build_OpLabel 900%N) [] None (GroupBranch_OpReturn Build_OpReturn)]).
Example C108_example : returns loop_function (Ok loop_chain) /\ returns other_function (Ok loop_chain)
  /\ FunctionDefinition_blocks loop_function <> []
  /\ Forall2 (fun a b => label_of a = label_of b /\ visible a = visible b) (FunctionDefinition_blocks loop_function)
       (map faceless (FunctionDefinition_blocks loop_function)).
Proof.
  split; [split; [discriminate|]; exists 8%nat; vm_compute; reflexivity|].
  split; [split; [discriminate|]; exists 8%nat; vm_compute; reflexivity|].
  split; [discriminate|]. vm_compute. repeat constructor.
Qed.
