(** Proofs about what the results do not depend on, C84 to C86. *)
From Coq Require Import Permutation Lia.
From Verif Require Import Base Types Ops ReadErr ReadBase ReadOperands ExtSet ReadOps Reader Groups ControlFlow Spec_Wire Spec_Operands Spec_Flow Spec_Structured Spec_Invariance
  Proofs_Operands Proofs_Ops Proofs_Instr Proofs_Reader Proofs_Facts2 Proofs_Failure Proofs_Flow Proofs_Flow2 Proofs_Structured Proofs_Cost.

(** ** Renaming *)

Section Renaming.
Context {E1 E2 : Type} (r : N -> N) (S : list BlockId).
Context (Hinj : forall a b, In a S -> In b S -> r a = r b -> a = b).
Context (m1 : BlockMap (E := E1)) (m2 : BlockMap (E := E2)).
Context (Hget : forall id, In id S -> option_map skeleton (map_get (r id) m2) = option_map (fun b => rename_skeleton r (skeleton b)) (map_get id m1)).
Context (Hclosed : forall id b, map_get id m1 = Some b -> incl (mentions (skeleton b)) S).

Definition rename_converge (c : Converge) : Converge :=
  match c with Converge_If j h => Converge_If (r j) h | Converge_Loop a b h => Converge_Loop (r a) (r b) h end.
Definition converge_ids (c : Converge) : list BlockId := match c with Converge_If j _ => [j] | Converge_Loop a b _ => [a; b] end.
Definition rename_cont (c : Cont) : Cont := match c with Cont_Next x => Cont_Next (r x) | Cont_Return => Cont_Return end.
Definition cont_in (c : Cont) : Prop := match c with Cont_Next x => In x S | Cont_Return => True end.

Lemma eqb_rename : forall a b, In a S -> In b S -> N.eqb (r a) (r b) = N.eqb a b.
Proof.
  intros a b Ha Hb. destruct (N.eqb_spec a b) as [->|X]; [apply N.eqb_refl|]. apply N.eqb_neq. intro Y. apply X. apply Hinj; assumption.
Qed.
Lemma merges_rename : forall fl id, incl (flat_map converge_ids fl) S -> In id S -> merges (map rename_converge fl) (r id) = merges fl id.
Proof.
  induction fl as [|[j h|a b h] fl IH]; intros id Hf Hid; [reflexivity|..]; cbn [map rename_converge merges flat_map converge_ids app] in *.
  - rewrite eqb_rename; [|apply Hf; left; reflexivity|exact Hid]. rewrite IH; [reflexivity| |exact Hid]. intros x X. apply Hf. right. exact X.
  - rewrite eqb_rename; [|apply Hf; left; reflexivity|exact Hid]. rewrite IH; [reflexivity| |exact Hid]. intros x X. apply Hf. right. right. exact X.
Qed.
Lemma innermost_rename : forall fl, innermost_loop (map rename_converge fl) = option_map (fun p => (r (fst p), r (snd p))) (innermost_loop fl).
Proof. induction fl as [|[j h|a b h] fl IH]; [reflexivity|exact IH|reflexivity]. Qed.
Lemma innermost_in : forall fl a b, incl (flat_map converge_ids fl) S -> innermost_loop fl = Some (a, b) -> In a S /\ In b S.
Proof.
  induction fl as [|[j h|x y h] fl IH]; intros a b Hf H; cbn [innermost_loop flat_map converge_ids app] in *; [discriminate|..].
  - eapply IH; [|exact H]. intros z Z. apply Hf. right. exact Z.
  - injection H as <- <-. split; apply Hf; [left|right; left]; reflexivity.
Qed.
Lemma cont_rename : forall a x, cont_in a -> In x S -> cont_eqb (rename_cont a) (Cont_Next (r x)) = cont_eqb a (Cont_Next x).
Proof. intros [y|] x Ha Hx; cbn [rename_cont cont_eqb cont_in] in *; [apply eqb_rename; assumption|reflexivity]. Qed.
Lemma conts_rename : forall a b, cont_in a -> cont_in b -> cont_eqb (rename_cont a) (rename_cont b) = cont_eqb a b.
Proof. intros [y|] [x|] Ha Hb; cbn [rename_cont cont_eqb cont_in] in *; try reflexivity. apply eqb_rename; assumption. Qed.

Lemma merge_rename : forall l acc, merge_chains (map (rename_chain r) l) (map (rename_chain r) acc) = map (rename_chain r) (merge_chains l acc).
Proof.
  induction l as [|c l IH]; intro acc; [reflexivity|]. destruct c; cbn [map rename_chain merge_chains]; rewrite <- IH, map_app; reflexivity.
Qed.
Lemma block_rename : forall l, block (map (rename_chain r) l) = rename_chain r (block l).
Proof.
  intros [|c [|c' l]]; [reflexivity|reflexivity|]. cbn [map]. unfold block. cbn [rename_chain]. f_equal.
  exact (merge_rename (c :: c' :: l) []).
Qed.

Definition renamed (x : outcome ControlFlowError (ControlFlowChain * Cont)) : outcome ControlFlowError (ControlFlowChain * Cont) :=
  match x with Ok (c, n) => Ok (rename_chain r c, rename_cont n) | Err e => Err (rename_error r e) | Panic => Panic | OutOfFuel => OutOfFuel end.

Lemma search_rename : forall fuel id fl, In id S -> incl (flat_map converge_ids fl) S ->
  search_block fuel (r id) (map rename_converge fl) m2 = renamed (search_block fuel id fl m1)
  /\ (forall c n, search_block fuel id fl m1 = Ok (c, n) -> cont_in n).
Proof.
  induction fuel as [|fuel IH]; intros id fl Hid Hfl; [split; [reflexivity|discriminate]|]. cbn [search_block].
  rewrite (merges_rename fl id Hfl Hid). destruct (merges fl id).
  { split; [reflexivity|]. intros c n H. injection H as <- <-. exact Hid. }
  pose proof (Hget id Hid) as G. pose proof (Hclosed id) as C. destruct (map_get id m1) as [b1|]; cbn [option_map] in G.
  2:{ destruct (map_get (r id) m2); [discriminate G|]. split; [reflexivity|discriminate]. }
  destruct (map_get (r id) m2) as [b2|]; [|discriminate G]. cbn [option_map] in G. specialize (C _ eq_refl).
  assert (GM : BasicBlock_merge b2 = option_map (rename_merge r) (BasicBlock_merge b1)) by (injection G; auto).
  assert (GB : BasicBlock_branch b2 = rename_branch r (BasicBlock_branch b1)) by (injection G; auto). clear G.
  rewrite GM, GB. unfold skeleton, mentions in C. cbn [fst snd] in C.
  destruct (BasicBlock_branch b1) as [op|op|op]; cbn [rename_branch].
  - (* OpBranch *)
    destruct (BasicBlock_merge b1) as [[lm|sm]|]; cbn [option_map rename_merge OpBranch_target_label OpLoopMerge_merge_block OpLoopMerge_loop_control] in *.
    + assert (I1 : In (OpBranch_target_label op) S) by (apply C; right; right; left; reflexivity).
      assert (I2 : In (OpLoopMerge_merge_block lm) S) by (apply C; right; left; reflexivity).
      destruct (IH (OpBranch_target_label op) (Converge_Loop id (OpLoopMerge_merge_block lm) (OpLoopMerge_loop_control lm) :: fl) I1) as [Q1 N1].
      { cbn [flat_map converge_ids app]. intros x [<-|[<-|X]]; auto. }
      cbn [map rename_converge] in Q1. rewrite Q1. clear Q1.
      destruct (search_block fuel (OpBranch_target_label op) _ m1) as [[ic inext]|e| |]; cbn [renamed bind]; try (split; [reflexivity|discriminate]).
      specialize (N1 _ _ eq_refl). rewrite (cont_rename inext id N1 Hid). destruct (cont_eqb inext (Cont_Next id)); [|split; [reflexivity|discriminate]].
      destruct (IH (OpLoopMerge_merge_block lm) fl I2 Hfl) as [Q2 N2]. rewrite Q2.
      destruct (search_block fuel (OpLoopMerge_merge_block lm) fl m1) as [[ac anext]|e| |]; cbn [renamed bind]; try (split; [reflexivity|discriminate]).
      specialize (N2 _ _ eq_refl). split; [|intros c n H; injection H as <- <-; exact N2].
      change [Loop (r id) (rename_chain r ic) (OpLoopMerge_loop_control lm) None; rename_chain r ac]
        with (map (rename_chain r) [Loop id ic (OpLoopMerge_loop_control lm) None; ac]). rewrite block_rename. reflexivity.
    + split; [reflexivity|discriminate].
    + assert (I1 : In (OpBranch_target_label op) S) by (apply C; right; left; reflexivity).
      destruct (IH (OpBranch_target_label op) fl I1 Hfl) as [Q2 N2]. rewrite Q2.
      destruct (search_block fuel (OpBranch_target_label op) fl m1) as [[ac anext]|e| |]; cbn [renamed bind]; try (split; [reflexivity|discriminate]).
      specialize (N2 _ _ eq_refl). split; [|intros c n H; injection H as <- <-; exact N2].
      change [Atom (r id); rename_chain r ac] with (map (rename_chain r) [Atom id; ac]). rewrite block_rename. reflexivity.
  - (* OpBranchConditional *)
    destruct (BasicBlock_merge b1) as [[lm|sm]|];
      cbn [option_map rename_merge OpBranchConditional_true_label OpBranchConditional_false_label OpBranchConditional_weights OpSelectionMerge_merge_block OpSelectionMerge_selection_control] in *.
    + split; [reflexivity|discriminate].
    + assert (I0 : In (OpSelectionMerge_merge_block sm) S) by (apply C; right; left; reflexivity).
      assert (I1 : In (OpBranchConditional_true_label op) S) by (apply C; right; right; left; reflexivity).
      assert (I2 : In (OpBranchConditional_false_label op) S) by (apply C; right; right; right; left; reflexivity).
      assert (HF : incl (flat_map converge_ids (Converge_If (OpSelectionMerge_merge_block sm) (OpSelectionMerge_selection_control sm) :: fl)) S).
      { cbn [flat_map converge_ids app]. intros x [<-|X]; auto. }
      destruct (IH _ _ I1 HF) as [Q1 N1]. destruct (IH _ _ I2 HF) as [Q2 N2]. cbn [map rename_converge] in Q1, Q2. rewrite Q1, Q2. clear Q1 Q2.
      destruct (search_block fuel (OpBranchConditional_true_label op) _ m1) as [[c1 n1]|e| |]; cbn [renamed bind]; try (split; [reflexivity|discriminate]).
      destruct (search_block fuel (OpBranchConditional_false_label op) _ m1) as [[c2 n2]|e| |]; cbn [renamed bind]; try (split; [reflexivity|discriminate]).
      specialize (N1 _ _ eq_refl). specialize (N2 _ _ eq_refl). rewrite (conts_rename n1 n2 N1 N2), (cont_rename n1 _ N1 I0).
      destruct (_ && _); [|split; [reflexivity|discriminate]].
      destruct (IH _ fl I0 Hfl) as [Q3 N3]. rewrite Q3.
      destruct (search_block fuel (OpSelectionMerge_merge_block sm) fl m1) as [[ac anext]|e| |]; cbn [renamed bind]; try (split; [reflexivity|discriminate]).
      specialize (N3 _ _ eq_refl). split; [|intros c n H; injection H as <- <-; exact N3].
      match goal with |- context [block [Selection (r id) ?a ?b ?h ?w; ?z]] =>
        change (block [Selection (r id) a b h w; z]) with (block (map (rename_chain r) [Selection id c1 c2 h w; ac])) end.
      rewrite block_rename. reflexivity.
    + assert (I1 : In (OpBranchConditional_true_label op) S) by (apply C; right; left; reflexivity).
      assert (I2 : In (OpBranchConditional_false_label op) S) by (apply C; right; right; left; reflexivity).
      rewrite innermost_rename. destruct (innermost_loop fl) as [[head merge]|] eqn:HI; cbn [option_map fst snd]; [|split; [reflexivity|discriminate]].
      destruct (innermost_in _ _ _ Hfl HI) as [J1 J2]. rewrite (eqb_rename _ _ I2 J1), (eqb_rename _ _ I2 J2).
      destruct (N.eqb (OpBranchConditional_false_label op) merge) eqn:EM, (N.eqb (OpBranchConditional_false_label op) head) eqn:EH; cbn [orb]; try (split; [reflexivity|discriminate]).
      all: destruct (IH _ fl I1 Hfl) as [Q1 N1]; rewrite Q1;
        destruct (search_block fuel (OpBranchConditional_true_label op) fl m1) as [[c1 n1]|e| |]; cbn [renamed bind]; try (split; [reflexivity|discriminate]);
        specialize (N1 _ _ eq_refl); rewrite (cont_rename n1 head N1 J1); destruct (cont_eqb n1 (Cont_Next head)); try (split; [reflexivity|discriminate]);
        (split; [reflexivity|intros c n H; injection H as <- <-; exact N1]).
  - split; [reflexivity|]. intros c n H. injection H as <- <-. exact I.
Qed.
End Renaming.

Section RenamedFunctions.
Context {E1 E2 : Type}.

Lemma map_get_rename : forall (r : N -> N) S (l1 : list (BasicBlock E1)) (l2 : list (BasicBlock E2)),
  (forall a b, In a S -> In b S -> r a = r b -> a = b) -> incl (map label_of l1) S ->
  map skeleton l2 = map (rename_skeleton r) (map skeleton l1) -> forall id, In id S ->
  option_map skeleton (map_get (r id) (map (fun b => (label_of b, b)) l2))
  = option_map (fun b => rename_skeleton r (skeleton b)) (map_get id (map (fun b => (label_of b, b)) l1)).
Proof.
  intros r S l1 l2 Hinj. revert l2. induction l1 as [|b1 l1 IH]; intros [|b2 l2] HS H id Hid; try discriminate H; [reflexivity|].
  cbn [map] in H, HS |- *. pose proof (f_equal (hd (skeleton b2)) H) as HB. pose proof (f_equal (@tl _) H) as HT. cbn [hd tl] in HB, HT.
  assert (HL : label_of b2 = r (label_of b1)) by (injection HB; auto).
  cbn [map_get]. rewrite HL, (eqb_rename r S Hinj id (label_of b1) Hid (HS _ (or_introl eq_refl))).
  destruct (N.eqb id (label_of b1)); [cbn [option_map]; rewrite HB; reflexivity|].
  apply IH; [intros x X; apply HS; right; exact X|exact HT|exact Hid].
Qed.

Lemma mentioned_block : forall (f : FunctionDefinition E1) b, In b (FunctionDefinition_blocks f) -> incl (mentions (skeleton b)) (mentioned f).
Proof.
  intros f b Hb x X. unfold mentioned. apply in_flat_map. exists (skeleton b). split; [apply in_map; exact Hb|exact X].
Qed.
Lemma mentioned_labels : forall (f : FunctionDefinition E1), incl (labels f) (mentioned f).
Proof. intros f x X. apply in_map_iff in X as (b & <- & Hb). eapply mentioned_block; [exact Hb|left; reflexivity]. Qed.

Lemma NoDup_map_inj : forall (r : N -> N) (l S : list N), (forall a b, In a S -> In b S -> r a = r b -> a = b) -> incl l S -> NoDup (map r l) <-> NoDup l.
Proof.
  intros r l S Hinj Hl. split.
  - apply NoDup_map_inv.
  - intro H. induction H as [|x l Hx _ IH]; [constructor|]. cbn [map]. constructor.
    + intro X. apply in_map_iff in X as (y & Hy & Iy). apply Hx. replace x with y; [exact Iy|]. apply Hinj; [apply Hl; right; exact Iy|apply Hl; left; reflexivity|exact Hy].
    + apply IH. intros y Y. apply Hl. right. exact Y.
Qed.

Theorem find_rename : forall (r : N -> N) (f : FunctionDefinition E1) (f' : FunctionDefinition E2),
  map skeleton (FunctionDefinition_blocks f') = map (rename_skeleton r) (map skeleton (FunctionDefinition_blocks f)) ->
  (forall a b, In a (mentioned f) -> In b (mentioned f) -> r a = r b -> a = b) ->
  forall depth, find_control_flow depth f' = rename_result r (find_control_flow depth f).
Proof.
  intros r f f' H Hinj depth.
  assert (L : labels f' = map r (labels f)).
  { unfold labels. apply (f_equal (map (fun s => fst (fst s)))) in H. rewrite !map_map in H. rewrite map_map. exact H. }
  assert (N : NoDup (labels f') <-> NoDup (labels f)) by (rewrite L; eapply NoDup_map_inj; [exact Hinj|apply mentioned_labels]).
  destruct (labels_dec f) as [N1|N1].
  - pose proof (proj2 N N1) as N2. rewrite (find_eq f N1), (find_eq f' N2).
    destruct (FunctionDefinition_blocks f) as [|b1 l1] eqn:F1, (FunctionDefinition_blocks f') as [|b2 l2] eqn:F2; try discriminate H; [reflexivity|].
    assert (HL : label_of b2 = r (label_of b1)) by (unfold labels in L; rewrite F1, F2 in L; injection L; auto).
    rewrite HL. destruct (search_rename r (mentioned f) Hinj (block_map f) (block_map f')) with (fuel := depth) (id := label_of b1) (fl := @nil Converge) as [Q _].
    + intros id Hid. unfold block_map. rewrite <- !map_rev. apply map_get_rename with (S := mentioned f); [exact Hinj| | |exact Hid].
      * intros x X. apply mentioned_labels. unfold labels. rewrite map_rev in X. apply in_rev in X. exact X.
      * rewrite !map_rev. f_equal. rewrite F1, F2. exact H.
    + intros id b G. apply map_get_In in G. unfold block_map in G. apply in_rev in G. apply in_map_iff in G as (b' & X & Hb). injection X as _ <-.
      apply mentioned_block. exact Hb.
    + apply mentioned_labels. unfold labels. rewrite F1. left. reflexivity.
    + intros x [].
    + cbn [map] in Q. rewrite Q. destruct (search_block depth (label_of b1) [] (block_map f)) as [[c [n|]]|e| |]; reflexivity.
  - assert (X : exists id, find_control_flow depth f = Err (DuplicateBlockId id)).
    { unfold find_control_flow. destruct (build_map (FunctionDefinition_blocks f) None []) as [[s m]|e| |] eqn:B.
      - pose proof (proj1 (build_map_dup (FunctionDefinition_blocks f) None []) _ B (NoDup_nil _)) as N'. apply build_map_spec in B as [M _]. cbn [snd] in *. rewrite app_nil_r in M.
        destruct N1. apply NoDup_labels. rewrite M in N'. exact N'.
      - apply build_map_Err in B as (pre & b & post & Q & ND & _ & _ & ->). eexists. reflexivity.
      - exfalso. exact (build_map_plain _ (or_introl B)).
      - exfalso. exact (build_map_plain _ (or_intror B)). }
    destruct X as [id Q0]. rewrite Q0. cbn [rename_result rename_error]. apply duplicate_iff. apply duplicate_iff in Q0 as (pre & b & post & Q & ND & I & <-).
    rewrite Q, !map_app in H. cbn [map] in H. apply map_eq_app in H as (pre2 & l2 & Q2 & HP & HL2). apply map_eq_cons in HL2 as (b2 & post2 & -> & HS & HP2).
    assert (LP : map label_of pre2 = map r (map label_of pre)).
    { apply (f_equal (map (fun s => fst (fst s)))) in HP. rewrite !map_map in HP. rewrite map_map. exact HP. }
    assert (LB2 : label_of b2 = r (label_of b)) by (injection HS; auto).
    exists pre2, b2, post2. rewrite LP, LB2. split; [exact Q2|]. split; [|split; [apply in_map; exact I|reflexivity]].
    eapply NoDup_map_inj; [exact Hinj| |exact ND]. intros x X. apply mentioned_labels. unfold labels. rewrite Q, map_app. apply in_app_iff. auto.
Qed.
End RenamedFunctions.

(** ** More blocks *)

Section MoreBlocks.
Context {E : Type}.

Lemma search_more : forall (m m' : BlockMap (E := E)), (forall id b, map_get id m = Some b -> map_get id m' = Some b) ->
  forall fuel id fl, (forall x, search_block fuel id fl m = Err (UnknownBlockId x) -> map_get x m' = None) ->
  search_block fuel id fl m' = search_block fuel id fl m.
Proof.
  intros m m' Hm. induction fuel as [|fuel IH]; intros id fl HU; [reflexivity|]. cbn [search_block] in *.
  destruct (merges fl id); [reflexivity|]. destruct (map_get id m) as [b|] eqn:G.
  2:{ rewrite (HU id eq_refl). reflexivity. }
  rewrite (Hm _ _ G). clear G. destruct (BasicBlock_branch b) as [op|op|op]; [| |reflexivity].
  - destruct (BasicBlock_merge b) as [[lm|sm]|]; [|reflexivity|].
    + rewrite IH.
      2:{ intros x X. rewrite X in HU. cbn [bind] in HU. auto. }
      destruct (search_block fuel (OpBranch_target_label op) _ m) as [[ic inext]|e| |]; cbn [bind] in *; try reflexivity.
      destruct (cont_eqb inext (Cont_Next id)); [|reflexivity]. rewrite IH; [reflexivity|]. intros x X. rewrite X in HU. cbn [bind] in HU. auto.
    + rewrite IH; [reflexivity|]. intros x X. rewrite X in HU. cbn [bind] in HU. auto.
  - destruct (BasicBlock_merge b) as [[lm|sm]|]; [reflexivity|..].
    + rewrite IH.
      2:{ intros x X. rewrite X in HU. cbn [bind] in HU. auto. }
      destruct (search_block fuel (OpBranchConditional_true_label op) _ m) as [[c1 n1]|e| |]; cbn [bind] in *; try reflexivity.
      rewrite IH.
      2:{ intros x X. rewrite X in HU. cbn [bind] in HU. auto. }
      destruct (search_block fuel (OpBranchConditional_false_label op) _ m) as [[c2 n2]|e| |]; cbn [bind] in *; try reflexivity.
      destruct (_ && _); [|reflexivity]. rewrite IH; [reflexivity|]. intros x X. rewrite X in HU. cbn [bind] in HU. auto.
    + destruct (innermost_loop fl) as [[head merge]|]; [|reflexivity]. destruct (_ || _); [|reflexivity].
      rewrite IH; [reflexivity|]. intros x X. rewrite X in HU. cbn [bind] in HU. auto.
Qed.

Theorem find_more : forall (f f' : FunctionDefinition E) first rest rest' more,
  FunctionDefinition_blocks f = first :: rest -> FunctionDefinition_blocks f' = first :: rest' ->
  Permutation rest' (rest ++ more) -> NoDup (labels f') -> forall depth,
  (forall x, find_control_flow depth f = Err (UnknownBlockId x) -> ~ In x (map label_of more)) ->
  find_control_flow depth f' = find_control_flow depth f.
Proof.
  intros f f' first rest rest' more Q Q' P N' depth HU.
  assert (PL : Permutation (labels f') (labels f ++ map label_of more)).
  { unfold labels. rewrite Q, Q'. cbn [map app]. constructor. rewrite <- map_app. apply Permutation_map. exact P. }
  pose proof (Permutation_NoDup PL N') as NA. assert (N : NoDup (labels f)).
  { clear - NA. induction (labels f) as [|x l IH]; [constructor|]. inversion NA; subst. constructor; [intro X; apply H1; apply in_app_iff; auto|auto]. }
  rewrite (find_eq f N), Q in HU. rewrite (find_eq f N), (find_eq f' N'), Q, Q'.
  assert (S : search_block depth (label_of first) [] (block_map f') = search_block depth (label_of first) [] (block_map f)).
  { apply search_more.
    - intros id b G. apply map_get_NoDup; [apply NoDup_keys; exact N'|]. apply map_get_In in G. unfold block_map in *.
      apply -> in_rev. apply in_rev in G. apply in_map_iff in G as (b' & X & Hb). apply in_map_iff. exists b'. split; [exact X|].
      rewrite Q' . rewrite Q in Hb. destruct Hb as [<-|Hb]; [left; reflexivity|]. right. eapply Permutation_in; [apply Permutation_sym; exact P|]. apply in_app_iff. auto.
    - intros x X. rewrite X in HU. cbn [bind] in HU. specialize (HU x eq_refl). apply map_get_None. intro K.
      assert (G : map_get x (block_map f) = None).
      { clear - X. revert X. generalize (label_of first) (@nil Converge). induction depth as [|fuel IH]; intros id fl X; cbn [search_block] in X; [discriminate|].
        destruct (merges fl id); [discriminate|]. destruct (map_get id (block_map f)) as [b|] eqn:G; [|injection X as <-; exact G].
        repeat match type of X with
        | (let! (_, _) := search_block fuel ?i ?l ?m in _) = _ => destruct (search_block fuel i l m) as [[? ?]|?| |] eqn:?; cbn [bind] in X; try discriminate;
            try (injection X as ->; eapply IH; eassumption)
        | (match ?y with _ => _ end) = _ => destruct y; try discriminate
        end. }
      apply map_get_None in G. apply G. assert (KL : In x (labels f')).
      { assert (T : In x (rev (labels f'))) by (rewrite <- keys_block_map; exact K). apply in_rev in T. exact T. }
      pose proof (Permutation_in _ PL KL) as T. apply in_app_iff in T as [T|T]; [|destruct (HU T)].
      assert (R : In x (rev (labels f))) by (apply -> in_rev; exact T). rewrite <- keys_block_map in R. exact R. }
  rewrite S. reflexivity.
Qed.
End MoreBlocks.

Theorem only_named : forall E E' (f : FunctionDefinition E) (f' : FunctionDefinition E') chain,
  Spec_Flow.returns f (Ok chain) -> NoDup (labels f') -> (forall id, entry f id -> entry f' id) ->
  (forall b, In b (FunctionDefinition_blocks f) -> In (label_of b) (chain_ids chain) -> In (skeleton b) (map skeleton (FunctionDefinition_blocks f'))) ->
  Spec_Flow.returns f' (Ok chain).
Proof.
  intros E E' f f' chain H N' HE HB. apply structured_iff in H as (N & p & last & mg & PL & IN & En & ->). apply structured_iff.
  split; [exact N'|]. exists p, last, mg. split; [exact PL|]. split; [|split; [apply HE; exact En|reflexivity]].
  intros x X. pose proof (IN x X) as Y. apply in_map_iff in Y as (b & <- & Hb). apply HB; [exact Hb|]. rewrite program_ids.
  unfold lower_program in X. apply in_app_iff. apply in_app_iff in X as [X|[X|[]]].
  - left. rewrite <- (sequence_labels p None last). apply in_map_iff. exists (skeleton b). split; [reflexivity|exact X].
  - right. left. injection X as Q _ _. exact Q.
Qed.

(** ** The known sets *)

Section Sets.
Context {E : Type}.
Implicit Types known : list (ExtInstSet E).

Lemma import_loop_named : forall id name block (bound : bound_sets E) known,
  (exists r, set_named known name r /\ import_loop id name block bound known =
     match map_get id bound with
     | Some _ => Err (DuplicateResultId id)
     | None => Ok (block, Core_OpExtInstImport (Build_OpExtInstImport id name), (id, r) :: bound)
     end)
  \/ (forall r, ~ set_named known name r) /\ import_loop id name block bound known = Err (UnknownInstSet name).
Proof.
  intros id name block bound known. induction known as [|s known IH].
  - right. split; [|reflexivity]. intros r (before & s & after & Q & _). destruct before; discriminate Q.
  - cbn [import_loop]. destruct (String.eqb_spec (get_name s) name) as [X|X].
    + left. exists (duplicate s). split; [exists [], s, known; auto|]. unfold map_insert. destruct (map_get id bound); reflexivity.
    + destruct IH as [(r & (before & s' & after & -> & Hn & Hf & Hr) & IH)|[IH0 IH]].
      * left. exists r. split; [|exact IH]. exists (s :: before), s', after. auto.
      * right. split; [|exact IH]. intros r (before & s' & after & Q & Hn & Hf & Hr). destruct before as [|s0 before].
        -- injection Q as -> ->. auto.
        -- injection Q as -> ->. inversion Hf; subst. apply (IH0 (duplicate s')). exists before, s', after. auto.
Qed.

Lemma set_named_unique : forall known name r r', set_named known name r -> set_named known name r' -> r = r'.
Proof.
  induction known as [|s known IH]; intros name r r' (b & s1 & a & Q & Hn & Hf & ->) (b' & s1' & a' & Q' & Hn' & Hf' & ->); [destruct b; discriminate|].
  destruct b as [|x b], b' as [|x' b']; injection Q as -> Q; injection Q' as -> Q'.
  - congruence.
  - inversion Hf'; subst. contradiction.
  - inversion Hf; subst. contradiction.
  - inversion Hf; inversion Hf'; subst. eapply IH; [exists b, s1, a; auto|exists b', s1', a'; auto].
Qed.

Lemma import_loop_agrees : forall known1 known2 id name block bound, (forall r, set_named known1 name r <-> set_named known2 name r) ->
  import_loop (E := E) id name block bound known1 = import_loop id name block bound known2.
Proof.
  intros known1 known2 id name block bound H.
  destruct (import_loop_named id name block bound known1) as [(r1 & S1 & ->)|[N1 ->]], (import_loop_named id name block bound known2) as [(r2 & S2 & ->)|[N2 ->]].
  - apply H in S1. rewrite (set_named_unique _ _ _ _ S1 S2). reflexivity.
  - exfalso. apply (N2 r1). apply H. exact S1.
  - exfalso. apply (N1 r2). apply H. exact S2.
  - reflexivity.
Qed.

Lemma read_instruction_agrees : forall known1 known2, (forall name r, set_named known1 name r <-> set_named known2 name r) ->
  forall stream bound, read_instruction (E := E) stream known1 bound = read_instruction stream known2 bound.
Proof.
  intros known1 known2 H stream bound. unfold read_instruction.
  destruct (stream_read_word stream) as [[s head]|?| |]; cbn [bind]; try reflexivity.
  destruct (read_words _ s) as [[s' body]|?| |]; cbn [bind]; try reflexivity.
  destruct (dispatch (as_u16 (N.land head 65535)) (as_u16 (N.shiftr head 16))) as [f|?| |] eqn:D; cbn [bind]; try reflexivity.
  assert (Q : f body known1 bound = f body known2 bound).
  { destruct (N.eq_dec (as_u16 (N.land head 65535)) 11) as [X|X]; [|destruct (N.eq_dec (as_u16 (N.land head 65535)) 12) as [Y|Y]].
    - rewrite X in D. cbn in D. injection D as <-. unfold read_core_OpExtInstImport.
      destruct (read_ResultId body) as [[b1 id]|?| |]; cbn [bind]; try reflexivity.
      destruct (read_LitString b1) as [[b2 name]|?| |]; cbn [bind]; try reflexivity. apply import_loop_agrees. intro r. apply H.
    - rewrite Y in D. cbn in D. injection D as <-. reflexivity.
    - destruct (decoded_tracked _ _ _ D X Y) as (A & R & wrap & -> & _). reflexivity. }
  rewrite Q. reflexivity.
Qed.

Theorem known_sets : forall known1 known2, (forall name r, set_named known1 name r <-> set_named known2 name r) ->
  forall data, read_module data known1 = read_module data known2.
Proof.
  intros known1 known2 H data. unfold read_module.
  repeat match goal with |- (let! (_, _) := ?x in _) = _ => destruct x as [[? ?]|?| |]; cbn [bind]; try reflexivity
    | |- (let! _ := check_magic ?a ?b in _) = _ => destruct (check_magic a b); cbn [bind]; try reflexivity
    | |- (let! _ := read_version ?a in _) = _ => destruct (read_version a); cbn [bind]; try reflexivity
    | |- (let! _ := check_version ?a in _) = _ => destruct (check_version a); cbn [bind]; try reflexivity
    | |- (if ?b then _ else _) = _ => destruct b; try reflexivity end.
  assert (Q : forall k st bd acc, read_instructions k st known1 bd acc = read_instructions (E := E) k st known2 bd acc).
  { induction k as [|k IH]; intros st bd acc; cbn [read_instructions]; [reflexivity|]. destruct (stream_is_end st); [reflexivity|].
    rewrite (read_instruction_agrees _ _ H). destruct (read_instruction st known2 bd) as [[[st' i] bd']|?| |]; cbn [bind]; try reflexivity. apply IH. }
  rewrite Q. reflexivity.
Qed.

Lemma set_named_perm : forall known1 known2, Permutation known1 known2 -> NoDup (map get_name known1) ->
  forall name r, set_named known1 name r -> set_named known2 name r.
Proof.
  intros known1 known2 P N name r (b & s & a & Q & Hn & Hf & ->).
  assert (I : In s known2) by (eapply Permutation_in; [exact P|]; rewrite Q; apply in_app_iff; right; left; reflexivity).
  apply in_split in I as (b' & a' & Q'). exists b', s, a'. repeat split; auto. apply Forall_forall. intros s' Hs' X.
  pose proof (Permutation_NoDup (Permutation_map get_name P) N) as N2. rewrite Q', map_app in N2. cbn [map] in N2. apply NoDup_remove_2 in N2.
  apply N2. apply in_app_iff. left. apply in_map_iff. exists s'. split; [congruence|exact Hs'].
Qed.

Theorem known_order : forall known1 known2, Permutation known1 known2 -> NoDup (map get_name known1) ->
  forall data, read_module data known1 = read_module data known2.
Proof.
  intros known1 known2 P N. apply known_sets. intros name r. split; [apply set_named_perm; assumption|].
  apply set_named_perm; [apply Permutation_sym; exact P|]. eapply Permutation_NoDup; [apply Permutation_map; exact P|exact N].
Qed.
End Sets.

Section Accepted.
Context {E : Type}.

Lemma wire_agrees : forall (known1 known2 : list (ExtInstSet E)) earlier is ws, wire_instructions known1 earlier is ws ->
  (forall op r, In op (imports_of (earlier ++ is)) -> set_named known1 (OpExtInstImport_name op) r -> set_named known2 (OpExtInstImport_name op) r) ->
  wire_instructions known2 earlier is ws.
Proof.
  intros known1 known2 earlier is ws H. induction H as [earlier|earlier i is wc body ws Hi Hw Hb _ IH]; intro A; [constructor|].
  constructor; [|exact Hw|exact Hb|].
  - assert (X : forall op, In (Core_OpExtInstImport op) earlier -> In op (imports_of (earlier ++ i :: is))).
    { intros op I. unfold imports_of. apply in_flat_map. exists (Core_OpExtInstImport op). split; [apply in_app_iff; auto|left; reflexivity]. }
    destruct i; try exact Hi.
    + destruct Hi as (H1 & (r & H2) & H3). split; [exact H1|]. split; [|exact H3]. exists r. apply A; [|exact H2].
      unfold imports_of. apply in_flat_map. eexists. split; [apply in_app_iff; right; left; reflexivity|left; reflexivity].
    + destruct Hi as (number & rest & r & -> & (name & I & S) & H3). exists number, rest, r. split; [reflexivity|]. split; [|exact H3].
      exists name. split; [exact I|]. specialize (X _ I). exact (A _ r X S).
  - apply IH. rewrite <- app_assoc. exact A.
Qed.

Theorem accepted_sets : forall (known1 known2 : list (ExtInstSet E)) data m, read_module data known1 = Ok m ->
  (forall op r, In op (imports_of (RawModule_instructions m)) -> set_named known1 (OpExtInstImport_name op) r -> set_named known2 (OpExtInstImport_name op) r) ->
  read_module data known2 = Ok m.
Proof.
  intros known1 known2 data m H A. apply read_exact in H. apply read_exact. destruct H as (o & v & g & ws & D & F & V & V' & G & H).
  exists o, v, g, ws. repeat (split; [assumption|]). eapply wire_agrees; [exact H|exact A].
Qed.

Theorem more_sets : forall (known more : list (ExtInstSet E)) data m, read_module data known = Ok m -> read_module data (known ++ more) = Ok m.
Proof.
  intros known more data m H. eapply accepted_sets; [exact H|]. intros op r _ (b & s & a & -> & X). exists b, s, (a ++ more). rewrite <- app_assoc. exact (conj eq_refl X).
Qed.
End Accepted.
