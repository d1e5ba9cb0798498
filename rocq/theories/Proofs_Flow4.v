(** Two concrete functions: an endless loop and a branch to itself (C39, C46). *)
From Verif Require Import Base Types Ops Groups Glsl450 ExtSet ControlFlow Spec_Flow Samples Samples_Flow Proofs_Flow Proofs_Flow2 Proofs_Flow3.
Local Open Scope N_scope.

Lemma endless_walk : forall id t d, walk endless_function id t d -> id = 1 -> d = Some 1.
Proof.
  intros id t d W. induction W as [id|id b op HB BR|id b op t d HB BR W IH|id b op t d HB BR W IH|id b op t d HB BR W IH]; intros ->; [reflexivity| | | |];
    destruct HB as [[<-|[<-|[]]] L]; try discriminate L; try discriminate BR. injection BR as <-. apply IH. reflexivity.
Qed.

Lemma endless_unreachable : exists depth chain id,
  find_control_flow depth endless_function = Ok chain /\ In id (chain_ids chain) /\ ~ reachable endless_function id.
Proof.
  exists 5%nat. eexists. exists 2. split; [vm_compute; reflexivity|]. split; [right; left; reflexivity|].
  intros (s & t & (b & r & Q & <-) & W). injection Q as <- <-. apply endless_walk in W; [discriminate W|reflexivity].
Qed.

Lemma self_loop_diverges : exists f : FunctionDefinition Inst, forall depth, find_control_flow depth f = OutOfFuel.
Proof.
  exists (function_of [simple_block 1 None (branch_to 1)]). apply termination_bound. vm_compute. reflexivity.
Qed.
