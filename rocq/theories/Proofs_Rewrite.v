(** What the instructions of a rewritten function do, C139. *)
From Coq Require Import Lia.
From Verif Require Import Base Types Ops Groups ExtSet Reader ControlFlow Spec_Layout Spec_Flow Spec_Machine Spec_Invariance Spec_Renumber Spec_Split Spec_Prune Spec_Unshare Spec_Rewrite
  Proofs_Flow Proofs_Flow2 Proofs_Machine Proofs_Prune Proofs_Unshare.

(** ** Copies *)
Section Copies.
Context {E : Type} (f f' : FunctionDefinition E) (o : BlockId -> BlockId) (U : NoDup (labels f)) (C : made_of_copies o f f').
Notation back := (map (origin_action o)).

Lemma one_block : forall (d : FunctionDefinition E) id b b', NoDup (labels d) -> has_block d id b -> has_block d id b' -> b = b'.
Proof.
  intros d id b b' N [I Q] [I' Q']. unfold labels in N. revert N I I'. generalize (FunctionDefinition_blocks d). induction l as [|x l IH]; intros N I I'; [destruct I|].
  cbn in N. inversion N as [|? ? N1 N2]; subst. destruct I as [->|I], I' as [->|I'].
  - reflexivity.
  - destruct N1. rewrite <- Q'. apply in_map. exact I'.
  - destruct N1. rewrite Q'. apply in_map. exact I.
  - apply IH; assumption.
Qed.

Lemma copy_actions : forall id' b' dec, has_block f' id' b' -> exists b, has_block f (o id') b /\ block_actions b dec = back (block_actions b' dec).
Proof.
  intros id' b' dec [I <-]. destruct (C b' I) as (b & Ib & K & S). exists b. destruct b as [[l] code merge branch], b' as [[l'] code' merge' branch']. cbn in K. subst code'.
  unfold skeleton in S. cbn in S.
  assert (L : l = o l' /\ match branch, branch' with
              | GroupBranch_OpBranchConditional x, GroupBranch_OpBranchConditional y => OpBranchConditional_condition x = OpBranchConditional_condition y
              | GroupBranch_OpBranchConditional _, _ => False | _, GroupBranch_OpBranchConditional _ => False | _, _ => True end).
  { destruct branch' as [y|y|y]; injection S as -> _ ->; split; cbn; trivial. }
  destruct L as [-> B]. split; [split; [exact Ib|reflexivity]|]. unfold block_actions. cbn [BasicBlock_code BasicBlock_branch label_of BasicBlock_label OpLabel_result_id map origin_action].
  f_equal. rewrite map_app, map_map. f_equal.
  destruct branch, branch'; try contradiction; try reflexivity. destruct dec; [|reflexivity]. cbn. rewrite B. reflexivity.
Qed.

Lemma copies_perform : forall t' a', performs f' t' a' -> performs f (origin_events o t') (back a').
Proof.
  intros t' a' P. induction P as [|id b dec t a B P IH]; [constructor|]. destruct (copy_actions id b dec B) as (b0 & B0 & Q). rewrite map_app, <- Q.
  cbn. apply performs_block; [exact B0|exact IH].
Qed.
Lemma copied_perform : forall t', (forall id dec, In (id, dec) t' -> exists b, has_block f' id b) -> forall a, performs f (origin_events o t') a -> exists a', performs f' t' a' /\ a = back a'.
Proof.
  induction t' as [|[id dec] t' IH]; intros H a P; cbn in P; inversion P; subst.
  - exists []. split; [constructor|reflexivity].
  - destruct (H id dec (or_introl eq_refl)) as [b' B']. destruct (copy_actions id b' dec B') as (b0 & B0 & Q).
    assert (b0 = b) as -> by (eapply one_block; eassumption).
    destruct (IH (fun i x I => H i x (or_intror I)) _ ltac:(eassumption)) as (a' & P' & ->). exists (block_actions b' dec ++ a'). split; [apply performs_block; assumption|].
    rewrite map_app, Q. reflexivity.
Qed.
End Copies.

Lemma exec_ids : (forall c t e, exec c t e -> forall id dec, In (id, dec) t -> In id (chain_ids c))
  /\ (forall l t e, exec_list l t e -> forall id dec, In (id, dec) t -> In id (flat_map chain_ids l)).
Proof.
  apply exec_exec_list_ind; cbn; intros.
  all: repeat match goal with H : False |- _ => destruct H | H : _ \/ _ |- _ => destruct H | H : In _ (_ ++ _) |- _ => apply in_app_iff in H | H : (_, _) = (_, _) |- _ => injection H as <- <- end; auto.
  all: try (destruct taken); eauto 6 using in_or_app.
Qed.

Section CopiedFunctions.
Context {E : Type} (f f' : FunctionDefinition E) (chain chain' : ControlFlowChain) (o : BlockId -> BlockId).
Context (F : returns f (Ok chain)) (F' : returns f' (Ok chain')) (R : rename_chain o chain' = chain) (C : made_of_copies o f f').
Context (m m' : RawModule E) (pc pc' : nat) (M : stands_at m pc f) (M' : stands_at m' pc' f').

Theorem copies_do : forall a, can_do m pc a <-> exists a', can_do m' pc' a' /\ a = map (origin_action o) a'.
Proof.
  intros a. pose proof (returns_unique_labels _ _ F) as U. destruct (returns_at _ _ F) as [n N], (returns_at _ _ F') as [n' N'].
  destruct M as (pre & post & Q & <-), M' as (pre' & post' & Q' & <-). unfold can_do. rewrite Q, Q', (chain_complete _ _ _ _ N). split.
  - intros (t & X & P). subst chain. destruct (proj1 (exec_forth o) _ _ _ X chain' eq_refl) as (t' & Y & ->).
    destruct (copied_perform f f' o U C t' (fun id dec I => chain_ids_exist f' _ _ N' id (proj1 exec_ids _ _ _ Y id dec I)) a P) as (a' & P' & ->).
    exists a'. split; [|reflexivity]. apply (chain_complete _ _ _ _ N'). eauto.
  - intros (a' & X & ->). apply (chain_complete _ _ _ _ N') in X as (t' & Y & P). exists (origin_events o t'). split; [rewrite <- R; apply exec_back; exact Y|].
    apply (copies_perform f f' o C). exact P.
Qed.
Theorem copies_begin : forall a, can_begin_with m pc a <-> exists a', can_begin_with m' pc' a' /\ a = map (origin_action o) a'.
Proof.
  intros a. pose proof (returns_unique_labels _ _ F) as U. destruct (returns_at _ _ F) as [n N], (returns_at _ _ F') as [n' N'].
  destruct M as (pre & post & Q & <-), M' as (pre' & post' & Q' & <-). unfold can_begin_with. rewrite Q, Q', (chain_prefix _ _ _ _ N). split.
  - intros (t & e & r & X & P). subst chain. destruct (proj1 (exec_forth o) _ _ _ X chain' eq_refl) as (t' & Y & ->).
    destruct (copied_perform f f' o U C t' (fun id dec I => chain_ids_exist f' _ _ N' id (proj1 exec_ids _ _ _ Y id dec I)) _ P) as (a' & P' & S).
    symmetry in S. apply map_eq_app in S as (a1 & a2 & -> & <- & <-). exists a1. split; [|reflexivity]. apply (chain_prefix _ _ _ _ N'). eauto.
  - intros (a' & X & ->). apply (chain_prefix _ _ _ _ N') in X as (t' & e & r & Y & P). exists (origin_events o t'), e, (map (origin_action o) r). split; [rewrite <- R; apply exec_back; exact Y|].
    rewrite <- map_app. apply (copies_perform f f' o C). exact P.
Qed.
End CopiedFunctions.

(** ** Blocks left out *)
Lemma no_origin : forall E (a : list (action E)), map (origin_action (fun id => id)) a = a.
Proof. intros E a. rewrite <- (map_id a) at 2. apply map_ext. intros []; reflexivity. Qed.
Lemma same_chain : forall c, rename_chain (fun id => id) c = c.
Proof. apply chain_ind'; cbn; intros; try reflexivity; try congruence. f_equal. induction H; cbn; congruence. Qed.
Lemma pruned_copies : forall E (d d' : FunctionDefinition E), pruned d d' -> made_of_copies (fun id => id) d d'.
Proof.
  intros E d d' (_ & _ & chain & _ & Q) b' I. rewrite Q in I. apply filter_In in I as [I _]. exists b'. split; [exact I|]. split; [reflexivity|].
  destruct b' as [[l] code merge branch]. unfold skeleton. cbn. destruct branch as [[t]|[c t e w]|[]]; cbn; try reflexivity.
  all: f_equal; f_equal; destruct merge as [[[]|[]]|]; reflexivity.
Qed.

Section Pruned.
Context {E : Type} (d d' : FunctionDefinition E) (P : pruned d d') (m m' : RawModule E) (pc pc' : nat) (M : stands_at m pc d) (M' : stands_at m' pc' d').
Theorem pruned_do : forall a, can_do m' pc' a <-> can_do m pc a.
Proof.
  intros a. destruct P as (_ & _ & chain & F & _). rewrite (copies_do d d' chain chain (fun id => id) F (proj2 (pruned_flow _ _ P _) F) (same_chain _) (pruned_copies _ _ _ P) m m' pc pc' M M' a).
  split; [intros X; exists a; split; [exact X|symmetry; apply no_origin]|]. intros (a' & X & ->). rewrite no_origin. exact X.
Qed.
Theorem pruned_begin : forall a, can_begin_with m' pc' a <-> can_begin_with m pc a.
Proof.
  intros a. destruct P as (_ & _ & chain & F & _). rewrite (copies_begin d d' chain chain (fun id => id) F (proj2 (pruned_flow _ _ P _) F) (same_chain _) (pruned_copies _ _ _ P) m m' pc pc' M M' a).
  split; [intros X; exists a; split; [exact X|symmetry; apply no_origin]|]. intros (a' & X & ->). rewrite no_origin. exact X.
Qed.
End Pruned.

(** ** Other numbers *)
Section Renumbered.
Context {E : Type} (f : N -> N) (g : E -> E).
Notation R := (renumber f g).
Notation act := (renumber_action f g).

Lemma r_passive : forall i, passive (R i) = passive i.
Proof. intros []; match goal with |- context [renumber f g (_ ?x)] => destruct x end; reflexivity. Qed.
Lemma r_ordinary : forall i, ordinary (R i) = ordinary i.
Proof. intros []; match goal with |- context [renumber f g (_ ?x)] => destruct x end; reflexivity. Qed.
Lemma r_label : forall i op, R i = Core_OpLabel op -> exists t, i = Core_OpLabel (Build_OpLabel t) /\ op = Build_OpLabel (f t).
Proof. intros i op Q. destruct i; try discriminate Q; match type of Q with R (_ ?x) = _ => destruct x end; try discriminate Q. injection Q as <-. eexists. split; reflexivity. Qed.
Lemma r_branch : forall i op, R i = Core_OpBranch op -> exists t, i = Core_OpBranch (Build_OpBranch t) /\ op = Build_OpBranch (f t).
Proof. intros i op Q. destruct i; try discriminate Q; match type of Q with R (_ ?x) = _ => destruct x end; try discriminate Q. injection Q as <-. eexists. split; reflexivity. Qed.
Lemma r_conditional : forall i op, R i = Core_OpBranchConditional op -> exists c t e w, i = Core_OpBranchConditional (Build_OpBranchConditional c t e w) /\ op = Build_OpBranchConditional (f c) (f t) (f e) w.
Proof. intros i op Q. destruct i; try discriminate Q; match type of Q with R (_ ?x) = _ => destruct x end; try discriminate Q. injection Q as <-. do 4 eexists. split; reflexivity. Qed.
Lemma r_return : forall i op, R i = Core_OpReturn op -> i = Core_OpReturn op.
Proof. intros i op Q. destruct i; try discriminate Q; try exact Q; match type of Q with R (_ ?x) = _ => destruct x end; discriminate Q. Qed.
Definition boundary (i : Core E) : Prop := match i with Core_OpFunction _ | Core_OpFunctionEnd _ => False | _ => True end.
Lemma r_boundary : forall i, boundary (R i) <-> boundary i.
Proof. intros []; match goal with |- context [renumber f g (_ ?x)] => destruct x end; reflexivity. Qed.

Lemma nth_map : forall (l : list (Core E)) k i, nth_error (map R l) k = Some i -> exists j, nth_error l k = Some j /\ i = R j.
Proof. intros l k i Q. rewrite nth_error_map in Q. destruct (nth_error l k) as [j|]; [|discriminate Q]. injection Q as <-. eauto. Qed.
Lemma map_nth_some : forall (l : list (Core E)) k i, nth_error l k = Some i -> nth_error (map R l) k = Some (R i).
Proof. intros l k i Q. rewrite nth_error_map, Q. reflexivity. Qed.

Lemma jump_forth : forall l pc t pc', jump l pc t pc' -> jump (map R l) pc (f t) pc'.
Proof.
  intros l pc t pc' [L B]. split; [exact (map_nth_some _ _ _ L)|]. intros k i K Q. apply nth_map in Q as (j & Q & ->). apply (r_boundary j). exact (B k j K Q).
Qed.
Lemma jump_back : injective f -> forall l pc t pc', jump (map R l) pc (f t) pc' -> jump l pc t pc'.
Proof.
  intros J l pc t pc' [L B]. split.
  - apply nth_map in L as (j & Q & L). symmetry in L. apply r_label in L as (x & -> & T). injection T as T. apply J in T as <-. exact Q.
  - intros k i K Q. apply (r_boundary i). exact (B k (R i) K (map_nth_some _ _ _ Q)).
Qed.

Lemma run_forth : forall l pc a d, run l pc a d -> run (map R l) pc (map act a) d.
Proof.
  intros l pc a d X. induction X as [pc|pc i a dest N P X IH|pc op a dest N X IH|pc i a dest N O X IH|pc op pc' a dest N J X IH|pc op h pc' a dest N J X IH|pc op N]; cbn [map renumber_action].
  - apply run_here.
  - eapply run_passive; [exact (map_nth_some _ _ _ N)|rewrite r_passive; exact P|exact IH].
  - destruct op as [t]. apply (run_label _ _ (Build_OpLabel (f t))); [exact (map_nth_some _ _ _ N)|exact IH].
  - eapply run_does; [exact (map_nth_some _ _ _ N)|rewrite r_ordinary; exact O|exact IH].
  - destruct op as [t]. eapply run_branch; [exact (map_nth_some _ _ _ N)|exact (jump_forth _ _ _ _ J)|exact IH].
  - destruct op as [c t e w]. apply (run_conditional _ _ (Build_OpBranchConditional (f c) (f t) (f e) w) h pc'); [exact (map_nth_some _ _ _ N)| |exact IH].
    apply jump_forth in J. destruct h; exact J.
  - eapply run_return. exact (map_nth_some _ _ _ N).
Qed.
Lemma run_back : injective f -> forall l pc a' d, run (map R l) pc a' d -> exists a, run l pc a d /\ a' = map act a.
Proof.
  intros J l pc a' d X. induction X as [pc|pc i a dest N P X IH|pc op a dest N X IH|pc i a dest N O X IH|pc op pc' a dest N K X IH|pc op h pc' a dest N K X IH|pc op N].
  - exists []. split; [apply run_here|reflexivity].
  - destruct IH as (b & Y & ->). apply nth_map in N as (j & N & ->). rewrite r_passive in P. exists b. split; [eapply run_passive; eassumption|reflexivity].
  - destruct IH as (b & Y & ->). apply nth_map in N as (j & N & Q). symmetry in Q. apply r_label in Q as (t & -> & ->).
    exists (Enters t :: b). split; [exact (run_label _ _ _ _ _ N Y)|reflexivity].
  - destruct IH as (b & Y & ->). apply nth_map in N as (j & N & ->). rewrite r_ordinary in O. exists (Does j :: b). split; [eapply run_does; eassumption|reflexivity].
  - destruct IH as (b & Y & ->). apply nth_map in N as (j & N & Q). symmetry in Q. apply r_branch in Q as (t & -> & ->). exists b. split; [|reflexivity].
    eapply run_branch; [exact N|exact (jump_back J _ _ _ _ K)|exact Y].
  - destruct IH as (b & Y & ->). apply nth_map in N as (j & N & Q). symmetry in Q. apply r_conditional in Q as (c & t & e & w & -> & ->). exists (Decides c h :: b). split; [|reflexivity].
    apply (run_conditional l pc (Build_OpBranchConditional c t e w) h pc'); [exact N| |exact Y]. apply (jump_back J). destruct h; exact K.
  - apply nth_map in N as (j & N & Q). symmetry in Q. apply r_return in Q as ->. exists []. split; [eapply run_return; exact N|reflexivity].
Qed.
End Renumbered.

Theorem renumbered_do : forall E f (g : E -> E) (m : RawModule E), injective f -> forall pc a',
  can_do (renumbered f g m) pc a' <-> exists a, can_do m pc a /\ a' = map (renumber_action f g) a.
Proof. intros E f g m J pc a'. split; [exact (run_back f g J _ _ _ _)|]. intros (a & X & ->). exact (run_forth f g _ _ _ _ X). Qed.
Theorem renumbered_begin : forall E f (g : E -> E) (m : RawModule E), injective f -> forall pc a',
  can_begin_with (renumbered f g m) pc a' <-> exists a, can_begin_with m pc a /\ a' = map (renumber_action f g) a.
Proof.
  intros E f g m J pc a'. split.
  - intros [pc' X]. destruct (run_back f g J _ _ _ _ X) as (a & Y & ->). exists a. split; [exists pc'; exact Y|reflexivity].
  - intros (a & [pc' X] & ->). exists pc'. exact (run_forth f g _ _ _ _ X).
Qed.
