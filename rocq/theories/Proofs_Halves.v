(** Executions of a function with a block cut in two, C121. *)
From Coq Require Import Permutation.
From Verif Require Import Base Types Ops Groups ControlFlow Spec_Flow Spec_Split Spec_Inlined Spec_Halves Proofs_Rewrite2 Proofs_Inlined Proofs_Inlined4.

Theorem halves_executions : forall E (f g : FunctionDefinition E) cut n, cut_at f g cut n -> NoDup (labels f) ->
  forall t', complete_run g t' <-> exists t, complete_run f t /\ t' = with_halves (label_of cut) n t.
Proof. intros E f g cut n (before & after & code1 & code2 & Bf & Code & Bg & Fr) U. exact (run_cut f g cut n before after code1 code2 Bf Bg Fr U). Qed.

Theorem halves_on_the_way : forall E (f g : FunctionDefinition E) cut n, cut_at f g cut n -> NoDup (labels f) ->
  forall t' j, gets_to g t' j <-> (exists t, gets_to f t j /\ t' = with_halves (label_of cut) n t) \/ j = n /\ exists t, gets_to f t (label_of cut) /\ t' = with_halves (label_of cut) n t ++ [(label_of cut, None)].
Proof.
  intros E f g cut n (before & after & code1 & code2 & Bf & Code & Bg & Fr) U t' j. pose proof (entry_cut f g cut n before after code1 code2 Bf Bg) as En. split.
  - intros (id & S & W). apply En in S. destruct (proj1 (walk_cut f g cut n before after code1 code2 Bf Bg Fr U _ _ _ W) (entry_not_n f n Fr id S)) as [(t & -> & W0 & _)|(t & -> & Q & W0)].
    + left. exists t. split; [exists id; auto|reflexivity].
    + injection Q as ->. right. split; [reflexivity|]. exists t. split; [exists id; auto|reflexivity].
  - assert (K : forall t k, gets_to f t k -> gets_to g (with_halves (label_of cut) n t) k).
    { intros t k (id & S & W). exists id. split; [apply En; exact S|]. exact (cut_walk f g cut n before after code1 code2 Bf Bg U _ _ _ W). }
    intros [(t & H & ->)|(-> & t & H & ->)]; [exact (K _ _ H)|]. apply gets_further; [exact (K _ _ H)|].
    apply (goes_block g _ _ None (Some n) (g_first g cut n before after code1 code2 Bg)). reflexivity.
Qed.

Theorem halves_labels : forall E (f g : FunctionDefinition E) cut n, cut_at f g cut n -> Permutation (labels g) (n :: labels f) /\ (NoDup (labels f) -> NoDup (labels g)).
Proof.
  intros E f g cut n (before & after & code1 & code2 & Bf & Code & Bg & Fr).
  assert (P : Permutation (labels g) (n :: labels f)).
  { unfold labels. rewrite Bf, Bg, !map_app. cbn [map label_of BasicBlock_label OpLabel_result_id]. symmetry. rewrite Permutation_middle. apply Permutation_app_head. apply perm_swap. }
  split; [exact P|]. intros U. apply (Permutation_NoDup (Permutation_sym P)). constructor; [|exact U]. intros I. apply in_map_iff in I as (b & Q & I). exact (proj1 (proj1 (Forall_forall _ _) Fr b I) Q).
Qed.

Theorem halves_reached : forall E (f g : FunctionDefinition E) cut n, cut_at f g cut n -> NoDup (labels f) -> forall j, reachable g j <-> reachable f j \/ j = n /\ reachable f (label_of cut).
Proof.
  intros E f g cut n H U j. rewrite !reach_gets. split.
  - intros [t' K]. apply (halves_on_the_way _ _ _ _ _ H U) in K as [(t & K & _)|(Q & t & K & _)]; eauto.
  - intros [[t K]|(Q & t & K)]; eexists; apply (halves_on_the_way _ _ _ _ _ H U); [left|right; split; [exact Q|]]; eauto.
Qed.
