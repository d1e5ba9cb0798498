(** There is only one function in which every block is used once, C138. *)
From Coq Require Import Lia.
From Verif Require Import Base Types Ops Groups ExtSet ControlFlow Spec_Flow Spec_Invariance Spec_Structured Spec_Unshare
  Proofs_Flow Proofs_Flow2 Proofs_Flow3 Proofs_Structured Proofs_Cost Proofs_Prune Proofs_Unshare.

(** ** Chains of the same shape with the same labels *)
Lemma same_ids_length : forall o c, length (chain_ids (rename_chain o c)) = length (chain_ids c).
Proof. intros o c. rewrite rename_ids. apply map_length. Qed.
Lemma app_both : forall A (a b c d : list A), length a = length c -> a ++ b = c ++ d -> a = c /\ b = d.
Proof. induction a as [|x a IH]; intros b [|y c] d L Q; try discriminate L; [auto|]. injection Q as -> Q. injection L as L. destruct (IH b c d L Q) as [-> ->]. auto. Qed.
Lemma same_shape : forall o o' c c', rename_chain o c = rename_chain o' c' -> chain_ids c = chain_ids c' -> c = c'.
Proof.
  intros o o'. induction c as [id|l IH|id lhs rhs h w IHl IHr|id inner h w IHi| |] using chain_ind'; intros [] Q I; try discriminate Q; cbn [rename_chain chain_ids] in *.
  - injection I as ->. reflexivity.
  - f_equal. injection Q as Q. revert l0 Q I. induction IH as [|x l H IH IH2]; intros [|y l'] Q I; try discriminate Q; [reflexivity|]. cbn [map flat_map] in *. injection Q as Q1 Q2.
    assert (L : length (chain_ids x) = length (chain_ids y)) by (rewrite <- (same_ids_length o x), <- (same_ids_length o' y), Q1; reflexivity).
    apply app_both in I as [I1 I2]; [|exact L]. f_equal; [exact (H y Q1 I1)|exact (IH2 l' Q2 I2)].
  - injection Q as _ Q1 Q2 -> ->. injection I as -> I.
    match type of Q1 with _ = rename_chain o' ?y => assert (L : length (chain_ids lhs) = length (chain_ids y)) by (rewrite <- (same_ids_length o lhs), <- (same_ids_length o' y), Q1; reflexivity) end.
    apply app_both in I as [I1 I2]; [|exact L]. f_equal; [exact (IHl _ Q1 I1)|exact (IHr _ Q2 I2)].
  - injection Q as _ Q1 -> ->. injection I as -> I. f_equal. exact (IHi _ Q1 I).
  - reflexivity.
  - reflexivity.
Qed.
Lemma same_origins : forall o o' c, rename_chain o c = rename_chain o' c -> forall id, In id (chain_ids c) -> o id = o' id.
Proof.
  intros o o' c Q id I. assert (X : map o (chain_ids c) = map o' (chain_ids c)) by (rewrite <- !rename_ids, Q; reflexivity). revert X I. generalize (chain_ids c). clear.
  induction l as [|x l IH]; intros X I; [destruct I|]. injection X as X1 X2. destruct I as [->|I]; auto.
Qed.

(** ** Programs with the same chain *)
Definition like (s s' : BlockId * option GroupMerge * GroupBranch) : Prop :=
  let '(l, m, b) := s in let '(l', m', b') := s' in
  l = l'
  /\ match b, b' with
     | GroupBranch_OpReturn _, GroupBranch_OpReturn _ => True
     | GroupBranch_OpBranch x, GroupBranch_OpBranch y => x = y
     | GroupBranch_OpBranchConditional x, GroupBranch_OpBranchConditional y =>
         OpBranchConditional_true_label x = OpBranchConditional_true_label y /\ OpBranchConditional_false_label x = OpBranchConditional_false_label y
         /\ OpBranchConditional_weights x = OpBranchConditional_weights y
     | _, _ => False
     end
  /\ (match b with GroupBranch_OpReturn _ => True | _ =>
     match m, m' with
     | None, None => True
     | Some (GroupMerge_OpSelectionMerge x), Some (GroupMerge_OpSelectionMerge y) => x = y
     | Some (GroupMerge_OpLoopMerge x), Some (GroupMerge_OpLoopMerge y) => OpLoopMerge_merge_block x = OpLoopMerge_merge_block y /\ OpLoopMerge_loop_control x = OpLoopMerge_loop_control y
     | _, _ => False
     end end).
Definition twin (s : statement) : Prop := forall s', chain_of s = chain_of s' -> start s = start s' /\ forall loop next, Forall2 like (lower loop s next) (lower loop s' next).

Lemma chain_not_block : forall s l, chain_of s <> Block l. Proof. intros [] l; discriminate. Qed.
Lemma arm_no_exit : forall l, arm chain_of l <> Break /\ arm chain_of l <> Continue.
Proof. intros [|s [|s' l]]; cbn; try (split; discriminate). destruct s; cbn; split; discriminate. Qed.
Lemma map_twin : forall l, Forall twin l -> forall l', map chain_of l = map chain_of l' ->
  (forall next, first_of l next = first_of l' next) /\ forall loop next, Forall2 like (sequence (lower loop) l next) (sequence (lower loop) l' next).
Proof.
  intros l H. induction H as [|s l T H IH]; intros [|s' l'] Q; try discriminate Q; [split; [reflexivity|constructor]|]. injection Q as Q1 Q2. destruct (T s' Q1) as [S L], (IH l' Q2) as [F R].
  split; [intros next; exact S|]. intros loop next. cbn [sequence]. rewrite F. apply Forall2_app; [apply L|apply R].
Qed.
Lemma arm_maps : forall l l', arm chain_of l = arm chain_of l' -> map chain_of l = map chain_of l'.
Proof.
  intros l l' Q. destruct l as [|s [|t l]], l' as [|s' [|t' l']]; cbn [arm map] in *; try reflexivity; try discriminate Q.
  all: repeat match type of Q with context [is_exit ?x] => destruct (is_exit x) end; try (injection Q as Q; congruence); try (injection Q; intros; congruence); try congruence.
  all: exfalso; solve [exact (chain_not_block _ _ Q)|exact (chain_not_block _ _ (eq_sym Q))].
Qed.
Lemma all_twins : forall s, twin s.
Proof.
  induction s as [id|id cond yes no hint w IHy IHn|id ct body hint IHb|id cond rest w IHr|id cond rest w IHr] using statement_ind'; intros [] Q; cbn [chain_of] in Q; try discriminate Q; cbn [start lower].
  - injection Q as ->. split; [reflexivity|]. intros loop next. constructor; [|constructor]. repeat split.
  - injection Q as -> Q1 Q2 -> ->. destruct (map_twin yes IHy _ (arm_maps _ _ Q1)) as [F1 R1], (map_twin no IHn _ (arm_maps _ _ Q2)) as [F2 R2]. split; [reflexivity|]. intros loop next.
    constructor; [cbn; rewrite F1, F2; auto|]. apply Forall2_app; [apply R1|apply R2].
  - exfalso. injection Q as _ _ Q _ _. exact (proj1 (arm_no_exit _) Q).
  - exfalso. injection Q as _ _ Q _ _. exact (proj2 (arm_no_exit _) Q).
  - injection Q as -> Q1 ->. destruct (map_twin body IHb _ (arm_maps _ _ Q1)) as [F1 R1]. split; [reflexivity|]. intros loop next. constructor; [cbn; rewrite F1; auto|apply R1].
  - exfalso. injection Q as _ _ Q _ _. exact (proj1 (arm_no_exit _) (eq_sym Q)).
  - injection Q as -> Q1 ->. destruct (map_twin rest IHr _ (arm_maps _ _ Q1)) as [F1 R1]. split; [reflexivity|]. intros loop next. constructor; [cbn; rewrite F1; auto|apply R1].
  - exfalso. injection Q as _ _ Q _ _. exact (proj2 (arm_no_exit _) (eq_sym Q)).
  - injection Q as -> Q1 ->. destruct (map_twin rest IHr _ (arm_maps _ _ Q1)) as [F1 R1]. split; [reflexivity|]. intros loop next. constructor; [cbn; rewrite F1; auto|apply R1].
Qed.
Lemma program_twins : forall p last p' last', program_chain p last = program_chain p' last' -> forall m m', Forall2 like (lower_program p last m) (lower_program p' last' m').
Proof.
  intros p last p' last' Q m m'. assert (X : map chain_of p = map chain_of p' /\ last = last').
  { unfold program_chain in Q. destruct p as [|s p], p' as [|s' p']; try discriminate Q; [injection Q as ->; auto|]. apply (f_equal (fun c => match c with Block l => l | _ => [] end)) in Q. cbn [map app] in Q.
    change (chain_of s :: map chain_of p ++ [Atom last]) with (map chain_of (s :: p) ++ [Atom last]) in Q. change (chain_of s' :: map chain_of p' ++ [Atom last']) with (map chain_of (s' :: p') ++ [Atom last']) in Q.
    apply app_inj_tail in Q as [Q1 Q2]. injection Q2 as ->. auto. }
  destruct X as [X ->]. unfold lower_program. apply Forall2_app; [|repeat constructor].
  apply (map_twin p); [apply Forall_forall; intros s _; apply all_twins|exact X].
Qed.

(** ** The same copies *)
Lemma like_equal : forall o o' s s', like s s' -> origin_skeleton o s = origin_skeleton o' s' -> s = s'.
Proof.
  intros o o' [[l m] b] [[l' m'] b'] (-> & B & M) Q. destruct b as [x|x|[]], b' as [y|y|[]]; try contradiction; cbn [origin_skeleton] in Q; injection Q; intros.
  - subst y. f_equal. f_equal. destruct m as [[u|u]|], m' as [[v|v]|]; try contradiction; [|subst; reflexivity|reflexivity].
    destruct u, v. cbn in *. destruct M as [-> ->]. congruence.
  - destruct x, y. cbn in *. destruct B as (-> & -> & ->). subst. f_equal. f_equal. destruct m as [[u|u]|], m' as [[v|v]|]; try contradiction; [|subst; reflexivity|reflexivity].
    destruct u, v. cbn in *. destruct M as [-> ->]. congruence.
  - subst. reflexivity.
Qed.

Lemma labelled_in : forall E (d : FunctionDefinition E) (L : list (BlockId * option GroupMerge * GroupBranch)), NoDup (labels d) -> incl L (map skeleton (FunctionDefinition_blocks d)) ->
  incl (labels d) (map (fun s => fst (fst s)) L) -> forall b, In b (FunctionDefinition_blocks d) -> In (skeleton b) L.
Proof.
  intros E d L N I J b B. assert (X : In (label_of b) (labels d)) by (unfold labels; apply in_map; exact B). apply J in X. apply in_map_iff in X as (s & Q & X). pose proof (I s X) as Y.
  apply in_map_iff in Y as (x & <- & Y). assert (x = b) as <-; [|exact X]. revert N B Y Q. unfold labels, skeleton. cbn [fst]. generalize (FunctionDefinition_blocks d). clear.
  induction l as [|y l IH]; intros N B Y Q; [destruct B|]. cbn in N. inversion N as [|? ? N1 N2]; subst. destruct B as [->|B], Y as [->|Y]; auto.
  - destruct N1. rewrite <- Q. apply in_map. exact Y.
  - destruct N1. rewrite Q. apply in_map. exact B.
Qed.

Lemma same_label : forall E (d : FunctionDefinition E) b b', NoDup (labels d) -> In b (FunctionDefinition_blocks d) -> In b' (FunctionDefinition_blocks d) -> label_of b = label_of b' -> b = b'.
Proof.
  intros E d b b' N I I' Q. unfold labels in N. revert N I I'. generalize (FunctionDefinition_blocks d). induction l as [|x l IH]; intros N I I'; [destruct I|].
  cbn in N. inversion N as [|? ? N1 N2]; subst. destruct I as [->|I], I' as [->|I'].
  - reflexivity.
  - destruct N1. rewrite Q. apply in_map. exact I'.
  - destruct N1. rewrite <- Q. apply in_map. exact I.
  - apply IH; assumption.
Qed.
Lemma Forall2_left : forall A B (P : A -> B -> Prop) l l' x, Forall2 P l l' -> In x l -> exists y, In y l' /\ P x y.
Proof. intros A B P l l' x H. induction H as [|a b l l' H1 H IH]; intros I; [destruct I|]. destruct I as [->|I]; [exists b; cbn; auto|]. destruct (IH I) as (y & J & K). exists y. cbn. auto. Qed.

Section Unique.
Context {E : Type} (f f' f'' : FunctionDefinition E) (chain chain' chain'' : ControlFlowChain) (o' o'' : BlockId -> BlockId).
Context (R : returns f (Ok chain)).
Context (R' : returns f' (Ok chain')) (Q' : rename_chain o' chain' = chain) (I' : chain_ids chain' = labels f') (C' : made_of_copies o' f f').
Context (R'' : returns f'' (Ok chain'')) (Q'' : rename_chain o'' chain'' = chain) (I'' : chain_ids chain'' = labels f'') (C'' : made_of_copies o'' f f'').
Context (L : labels f' = labels f'').

Lemma unique_blocks : FunctionDefinition_blocks f' = FunctionDefinition_blocks f''.
Proof.
  assert (X : chain' = chain'') by (apply (same_shape o' o''); congruence). pose proof (returns_unique_labels _ _ R) as U.
  pose proof (returns_unique_labels _ _ R') as U'. pose proof (returns_unique_labels _ _ R'') as U''.
  assert (O : forall id, In id (labels f') -> o' id = o'' id) by (rewrite <- I'; apply same_origins; congruence).
  pose proof (proj1 (structured_iff f' chain') R') as (_ & p' & last' & m' & _ & In' & _ & P'). pose proof (proj1 (structured_iff f'' chain'') R'') as (_ & p'' & last'' & m'' & _ & In'' & _ & P'').
  assert (T : Forall2 like (lower_program p' last' m') (lower_program p'' last'' m'')) by (apply program_twins; congruence).
  assert (J' : incl (labels f') (map (fun s => fst (fst s)) (lower_program p' last' m'))) by (rewrite program_labels, <- (program_ids p' last'), <- P', I'; apply incl_refl).
  assert (J'' : incl (labels f'') (map (fun s => fst (fst s)) (lower_program p'' last'' m''))) by (rewrite program_labels, <- (program_ids p'' last''), <- P'', I''; apply incl_refl).
  assert (S : forall b' b'', In b' (FunctionDefinition_blocks f') -> In b'' (FunctionDefinition_blocks f'') -> label_of b' = label_of b'' -> b' = b'').
  { intros b' b'' B' B'' Q. pose proof (labelled_in _ _ _ U' In' J' b' B') as K'. pose proof (labelled_in _ _ _ U'' In'' J'' b'' B'') as K''.
    destruct (Forall2_left _ _ _ _ _ _ T K') as (s & Ks & Ls).
    assert (skeleton b'' = s) as <-.
    { assert (Z : fst (fst s) = label_of b'') by (destruct s as [[l m] br]; cbn in Ls; destruct Ls as [Z _]; cbn; congruence).
      apply In'' in Ks. apply in_map_iff in Ks as (x & <- & Kx). f_equal. symmetry. eapply same_label; [exact U''|exact Kx|exact B''|exact Z]. }
    destruct (C' b' B') as (b1 & B1 & E1 & S1), (C'' b'' B'') as (b2 & B2 & E2 & S2).
    assert (Z : b1 = b2).
    { eapply same_label; [exact U|exact B1|exact B2|]. assert (Y1 : label_of b1 = o' (label_of b')) by (change (label_of b1) with (fst (fst (skeleton b1))); rewrite S1; unfold skeleton; destruct (BasicBlock_branch b'); reflexivity).
      assert (Y2 : label_of b2 = o'' (label_of b'')) by (change (label_of b2) with (fst (fst (skeleton b2))); rewrite S2; unfold skeleton; destruct (BasicBlock_branch b''); reflexivity).
      rewrite Y1, Y2, <- Q. apply O. unfold labels. apply in_map. exact B'. }
    subst b2. assert (V : skeleton b' = skeleton b'') by (apply (like_equal o' o''); [exact Ls|congruence]).
    destruct b' as [[l1] c1 mg1 br1], b'' as [[l2] c2 mg2 br2]. unfold skeleton in V. cbn in V, E1, E2. injection V as -> -> ->. f_equal. congruence. }
  revert S L. unfold labels. generalize (FunctionDefinition_blocks f'), (FunctionDefinition_blocks f''). clear.
  induction l as [|x l IH]; intros [|y l'] S L; try discriminate L; [reflexivity|]. cbn in L. injection L as L1 L2. f_equal; [apply S; cbn; auto|]. apply IH; [|exact L2]. intros; apply S; cbn; auto.
Qed.
End Unique.

Theorem unshare_unique : forall E (f : FunctionDefinition E) chain f' chain' origin' f'' chain'' origin'', returns f (Ok chain) ->
  returns f' (Ok chain') -> rename_chain origin' chain' = chain -> chain_ids chain' = labels f' -> made_of_copies origin' f f' ->
  returns f'' (Ok chain'') -> rename_chain origin'' chain'' = chain -> chain_ids chain'' = labels f'' -> made_of_copies origin'' f f'' ->
  labels f' = labels f'' -> FunctionDefinition_function f' = FunctionDefinition_function f'' -> FunctionDefinition_parameters f' = FunctionDefinition_parameters f'' -> f' = f''.
Proof.
  intros E f chain f' chain' o' f'' chain'' o'' R R' Q' I' C' R'' Q'' I'' C'' L F P.
  pose proof (unique_blocks f f' f'' chain chain' chain'' o' o'' R R' Q' I' C' R'' Q'' I'' C'' L) as B. destruct f', f''. cbn in *. congruence.
Qed.
