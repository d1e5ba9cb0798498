(** A function with a block that its chain names twice (C116). *)
From Verif Require Import Base Types Ops Groups Glsl450 ControlFlow Spec_Flow Samples Samples_Flow Spec_Standard Spec_Returns Spec_Occurs Spec_Structured Proofs_Flow Proofs_Flow3 Proofs_Structured Proofs_Cost Proofs_Returns Proofs_Rules
  Samples_Returns.
Local Open Scope N_scope.

(** [if (a) { } else { }], whose two arms go to a common block before the merge block. *)
Definition twice_function : FunctionDefinition Inst := function_of
  [ simple_block 1 (Some (GroupMerge_OpSelectionMerge (Build_OpSelectionMerge 5 flatten))) (branch_on 2 3 None);
    simple_block 2 None (branch_to 4);
    simple_block 3 None (branch_to 4);
    simple_block 4 None (branch_to 5);
    simple_block 5 None (GroupBranch_OpReturn Build_OpReturn) ].
Definition twice_chain : ControlFlowChain := match find_control_flow 9 twice_function with Ok c => c | _ => Block [] end.
Lemma twice_entry : entry twice_function 1.
Proof. exact (entry_1 _ _). Qed.
Lemma twice_rules : obeys twice_function /\ loops_close twice_function /\ merges_reached twice_function /\ returns twice_function (Ok twice_chain).
Proof.
  pose proof twice_entry as En.
  split; [apply (check_obeys _ 1 En in_order); vm_compute; reflexivity|]. split; [apply (close_check_ok _ 1 En); vm_compute; reflexivity|]. split; [apply (reached_check_ok _ 1 En); vm_compute; reflexivity|].
  split; [discriminate|]. exists 9%nat. vm_compute. reflexivity.
Qed.
Lemma twice_comes : forall u n, In (u, n) [(2, 0%nat); (3, 0%nat)] <-> comes_from twice_function 4 u n.
Proof.
  intros u n. pose proof twice_entry as En. split.
  - intros [Q|[Q|[]]]; injection Q as <- <-; (split; [eexists; split; [unfold has_block, labels; cbn; eauto 8|reflexivity]|]); (split; [apply (reachb_ok _ 1 En); vm_compute; reflexivity|apply (ndomb_ok _ 1 En); vm_compute; reflexivity]).
  - intros (B & _). apply edges_in in B. cbn in B. repeat (destruct B as [Q|B]; [inversion Q; subst; cbn; auto|]). destruct B.
Qed.
Lemma twice_other : ~ entry twice_function 4 /\ ~ merges_at twice_function 4.
Proof.
  split; [intros En; pose proof (start_only _ 1 twice_entry 4 En) as Q; discriminate Q|].
  intros (h & (b & (IN & _) & M) & _). cbn in IN. repeat (destruct IN as [<-|IN]; [cbn in M; repeat (destruct M as [M|M]; [discriminate M|]); destruct M|]). destruct IN.
Qed.
(** It is not written from a program. *)
Lemma twice_unwritten : obeys twice_function /\ loops_close twice_function /\ merges_reached twice_function /\ returns twice_function (Ok twice_chain)
  /\ forall program last, ~ written_plainly twice_function program last.
Proof.
  destruct twice_rules as (O & C & R & RET). split; [exact O|]. split; [exact C|]. split; [exact R|]. split; [exact RET|]. intros p last (T & ND & P & En).
  pose proof (structured_round_trip twice_function p last None T ND P En) as RET'. apply returns_iff in RET as [_ X], RET' as [_ X']. assert (Q : program_chain p last = twice_chain) by congruence.
  rewrite <- program_ids, Q in ND. vm_compute in ND. inversion ND as [|a b _ N1]; subst. inversion N1 as [|a b _ N2]; subst. inversion N2 as [|a b N3 _]; subst. apply N3. right. left. reflexivity.
Qed.
