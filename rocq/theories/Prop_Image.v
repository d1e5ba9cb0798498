(** Property theorems about structured graphs and structured programs, C117.  The vocabulary of the statements is in
    Spec_Flow, Spec_Structured, Spec_Standard and Spec_Image. *)
From Verif Require Import Base Types Ops Groups Glsl450 ControlFlow Spec_Flow Spec_Structured Samples Samples_Flow Spec_Standard Spec_Returns Spec_Simple Spec_Occurs Spec_Image
  Proofs_Rules Proofs_Occurs2 Proofs_Image Proofs_Image2 Samples_Returns Samples_Simple Samples_Occurs.

(** ** C117 *)
(** The functions that are structured as graphs are exactly those written from a neat program whose loops can be left. *)
Theorem C117_exact : forall E (f : FunctionDefinition E), structured_graph f <->
  exists program last, written_plainly f program last /\ every loops_end program /\ neat_program program.
Proof. exact @graph_iff. Qed.
Print Assumptions C117_exact.

(** There is only one such program. *)
Theorem C117_unique : forall E (f : FunctionDefinition E) program last program' last', written_plainly f program last -> written_plainly f program' last' ->
  program' = program /\ last' = last.
Proof. exact @one_program. Qed.
Print Assumptions C117_unique.

(** Not all functions that obey the rules and are understood are written from a program: the two arms of a selection may
    share a block. *)
Theorem C117_shared_refuted : exists (f : FunctionDefinition Inst) chain, obeys f /\ loops_close f /\ merges_reached f /\ returns f (Ok chain)
  /\ forall program last, ~ written_plainly f program last.
Proof. exact (ex_intro _ twice_function (ex_intro _ twice_chain twice_unwritten)). Qed.
Print Assumptions C117_shared_refuted.

(** loop_function is structured as a graph: a loop with an exit, and a selection in it. *)
Example C117_example : structured_graph loop_function.
Proof.
  destruct loop_obeys as ((M & _ & K) & C & R). split; [discriminate|]. split; [cbn; repeat constructor; cbn; intros H; repeat destruct H as [H|H]; first [discriminate H|exact H]|]. split.
  - intros b I. apply (reachb_ok _ 9%N (entry_1 _ _ : entry loop_function 9%N)). cbn in I. repeat (destruct I as [<-|I]; [vm_compute; reflexivity|]). destruct I.
  - split; [exact M|]. split; [exact K|]. split; [exact C|]. split; [exact R|]. split; [exact loop_simple|].
    assert (RET : returns loop_function (Ok loop_chain)) by (split; [discriminate|]; exists 9; vm_compute; reflexivity).
    apply (occurs_once _ _ M K C R RET). vm_compute. repeat (constructor; [intros H; repeat destruct H as [H|H]; first [discriminate H|exact H]|]). constructor.
Qed.
