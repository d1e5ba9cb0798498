(** Neighbouring instructions, C132. *)
From Coq Require Import Lia.
From Verif Require Import Base Types Ops Groups Validate Spec_Tables Spec_Layout Proofs_Layout Proofs_Layout2 Proofs_Cut Spec_Neighbours.

(** ** The state after an instruction depends on nothing else *)
Definition after_kind (k : kind) : state :=
  match k with
  | KCapability => Before 0 | KExtension => Before 1 | KImport => Before 2 | KMemoryModel => After 0
  | KEntryPoint => After 0 | KExecutionMode => After 1 | KDebug => After 2 | KAnnotation => After 3 | KGlobal => After 4
  | KFunction | KParameter => Header | KLabel | KCode => InCode | KMerge => Merged | KTerminator => Between | KFunctionEnd => After 5
  end.
Lemma step_after : forall s k s', step s k = Some s' -> s' = after_kind k.
Proof.
  intros s k s' H. destruct s, k; cbn in H; try discriminate H; try (injection H as <-; reflexivity);
    match type of H with (if ?b then _ else _) = _ => destruct b; [injection H as <-; reflexivity|discriminate H] end.
Qed.
Lemma step_follow : forall p q, step (after_kind p) q = if may_follow p q then Some (after_kind q) else None.
Proof. intros [] []; reflexivity. Qed.
Lemma step_start : forall q, step (Before 0) q = if may_start q then Some (after_kind q) else None.
Proof. intros []; reflexivity. Qed.

Fixpoint klinks (k : kind) (ks : list kind) : bool := match ks with [] => may_end k | q :: ks => may_follow k q && klinks q ks end.
Definition kfit (ks : list kind) : bool := match ks with [] => false | k :: ks => may_start k && klinks k ks end.
Lemma go_links : forall ks k, (exists j, go (after_kind k) ks = Some (After j)) <-> klinks k ks = true.
Proof.
  induction ks as [|q ks IH]; intros k; cbn [go klinks].
  - destruct k; cbn; split; intros H; try discriminate H; try reflexivity; try (destruct H as [j H]; discriminate H); eauto.
  - rewrite step_follow. destruct (may_follow k q); cbn [andb]; [apply IH|]. split; [intros [j H]; discriminate H|discriminate].
Qed.
Lemma go_fit : forall ks, (exists j, go (Before 0) ks = Some (After j)) <-> kfit ks = true.
Proof.
  intros [|k ks]; cbn [go kfit]; [split; [intros [j H]; discriminate H|discriminate]|].
  rewrite step_start. destruct (may_start k); cbn [andb]; [apply go_links|]. split; [intros [j H]; discriminate H|discriminate].
Qed.

(** ** A list in two pieces *)
Definition ok (o : option kind) (k : kind) : bool := match o with None => may_start k | Some p => may_follow p k end.
Definition ok_end (o : option kind) : bool := match o with None => false | Some p => may_end p end.
Definition next (o : option kind) (f : option kind) : bool := match f with None => ok_end o | Some q => ok o q end.
Definition from (o : option kind) (ks : list kind) : bool := match o with None => kfit ks | Some k => klinks k ks end.
Fixpoint lead (o : option kind) (ks : list kind) : bool := match ks with [] => true | k :: ks => ok o k && lead (Some k) ks end.
Fixpoint last_or (o : option kind) (ks : list kind) : option kind := match ks with [] => o | k :: ks => last_or (Some k) ks end.
Definition first_of (ks : list kind) : option kind := match ks with [] => None | k :: _ => Some k end.
Definition rest_of (ks : list kind) : bool := match ks with [] => true | k :: ks => klinks k ks end.
Lemma from_cons : forall o k ks, from o (k :: ks) = ok o k && from (Some k) ks.
Proof. intros [p|] k ks; reflexivity. Qed.
Lemma from_next : forall o ks, from o ks = next o (first_of ks) && rest_of ks.
Proof. intros o [|k ks]; [destruct o; cbn; rewrite ?andb_true_r; reflexivity|apply from_cons]. Qed.
Lemma from_app : forall a b o, from o (a ++ b) = lead o a && from (last_or o a) b.
Proof.
  induction a as [|k a IH]; intros b o; [reflexivity|]. cbn [app lead last_or]. rewrite from_cons, IH. apply andb_assoc.
Qed.
Lemma kfit_app : forall a b, kfit (a ++ b) = lead None a && from (last_or None a) b.
Proof. intros a b. exact (from_app a b None). Qed.

Definition addable (L : option kind) (k : kind) (F : option kind) : bool := ok L k && next (Some k) F.
Lemma add_local : forall a b k, kfit (a ++ b) = true -> kfit (a ++ k :: b) = addable (last_or None a) k (first_of b) /\ next (last_or None a) (first_of b) = true.
Proof.
  intros a b k. rewrite !kfit_app. rewrite from_cons, (from_next (last_or None a) b), (from_next (Some k) b). unfold addable.
  destruct (lead None a), (rest_of b); cbn [andb]; rewrite ?andb_true_r, ?andb_false_r; try discriminate. auto.
Qed.
Lemma remove_local : forall a b k, kfit (a ++ k :: b) = true -> kfit (a ++ b) = next (last_or None a) (first_of b) /\ addable (last_or None a) k (first_of b) = true.
Proof.
  intros a b k. rewrite !kfit_app. rewrite from_cons, (from_next (last_or None a) b), (from_next (Some k) b). unfold addable.
  destruct (lead None a), (rest_of b); cbn [andb]; rewrite ?andb_true_r, ?andb_false_r; try discriminate. auto.
Qed.

(** ** The parts come in order *)
Definition below (o : option kind) (n : nat) : bool := match o with None => true | Some p => part p <=? n end.
Definition above (o : option kind) (n : nat) : bool := match o with None => true | Some p => n <=? part p end.
Lemma follow_part : forall p q, may_follow p q = true -> part p <= part q.
Proof. intros [] []; cbn; intros H; try discriminate H; repeat constructor. Qed.
Lemma links_above : forall ks k, klinks k ks = true -> Forall (fun q => part k <= part q) ks.
Proof.
  induction ks as [|q ks IH]; intros k H; constructor; cbn [klinks] in H; apply andb_true_iff in H as [H1 H2]; apply follow_part in H1; [exact H1|].
  eapply Forall_impl; [|apply (IH q H2)]. cbn. intros x X. lia.
Qed.
Lemma rest_above : forall ks n, rest_of ks = true -> (Forall (fun q => n <= part q) ks <-> above (first_of ks) n = true).
Proof.
  intros [|k ks] n H; cbn [first_of above rest_of] in *; [split; [reflexivity|constructor]|]. rewrite Nat.leb_le. split; [intros X; inversion X; assumption|].
  intros X. constructor; [exact X|]. eapply Forall_impl; [|apply links_above; exact H]. cbn. intros x Y. lia.
Qed.
Lemma lead_below : forall ks o n, lead o ks = true -> below (last_or o ks) n = true -> below o n = true /\ Forall (fun q => part q <= n) ks.
Proof.
  induction ks as [|k ks IH]; intros o n H B; cbn [lead last_or] in *; [auto|]. apply andb_true_iff in H as [H1 H2].
  destruct (IH (Some k) n H2 B) as [X Y]. cbn [below] in X. apply Nat.leb_le in X. split; [|constructor; assumption].
  destruct o as [p|]; cbn [below ok] in *; [|reflexivity]. apply follow_part in H1. apply Nat.leb_le. lia.
Qed.
Lemma last_below : forall ks o n, Forall (fun q => part q <= n) ks -> below o n = true -> below (last_or o ks) n = true.
Proof.
  induction ks as [|k ks IH]; intros o n F B; [exact B|]. inversion F; subst. cbn [last_or]. apply IH; [assumption|]. cbn. apply Nat.leb_le. assumption.
Qed.

Definition module_level (k : kind) : bool :=
  match k with KCapability | KExtension | KImport | KEntryPoint | KExecutionMode | KDebug | KAnnotation | KGlobal => true | _ => false end.
Lemma table_module : forall L k F, next L F = true -> module_level k = true -> addable L k F = below L (part k) && above F (part k).
Proof. intros [[]|] [] [[]|] H M; try discriminate H; try discriminate M; reflexivity. Qed.
Definition inside (L : option kind) (k : kind) (F : option kind) : bool :=
  match k, L with
  | KParameter, Some (KFunction | KParameter) => true
  | KCode, Some (KLabel | KCode) => true
  | KMerge, Some (KLabel | KCode) => match F with Some KTerminator => true | _ => false end
  | _, _ => false
  end.
Lemma table_inside : forall L k F, next L F = true -> module_level k = false -> addable L k F = inside L k F.
Proof. intros [[]|] [] [[]|] H M; try discriminate H; try discriminate M; reflexivity. Qed.
Lemma table_remove : forall L k F, addable L k F = true -> next L F = can_remove k.
Proof. intros [[]|] [] [[]|] H; try discriminate H; reflexivity. Qed.

Section Edit.
Context {E : Type}.
Implicit Types (is : list (Core E)) (i j : Core E).

Lemma links_kinds : forall is i, links i is = klinks (kind_of i) (map kind_of is).
Proof. induction is as [|j is IH]; intros i; [reflexivity|]. cbn [links klinks map]. rewrite IH. reflexivity. Qed.
Lemma fit_kinds : forall is, neighbours_fit is = kfit (map kind_of is).
Proof. intros [|i is]; [reflexivity|]. cbn [neighbours_fit kfit map]. rewrite links_kinds. reflexivity. Qed.
Theorem accepts_fit : forall is, accepts is <-> neighbours_fit is = true.
Proof.
  intros is. rewrite fit_kinds, <- go_fit, <- (layout_go _ _ 0). split; [|apply accepts_valid].
  intros A. destruct (A (Build_Version 1%N 0%N) (Build_Generator Tool_Valve 0%N) 1%N) as [lm V].
  assert (X : valid (RawModule_instructions (Build_RawModule (Build_Version 1%N 0%N) (Build_Generator Tool_Valve 0%N) 1%N is))) by (apply valid_iff; eauto). exact X.
Qed.

Lemma last_kinds : forall is, last_or None (map kind_of is) = last_kind is.
Proof.
  intros is. unfold last_kind. assert (G : forall o, last_or o (map kind_of is) = match rev is with i :: _ => Some (kind_of i) | [] => o end); [|apply G].
  induction is as [|i is IH]; intros o; [reflexivity|]. cbn [map last_or rev]. rewrite IH. destruct (rev is); reflexivity.
Qed.
Lemma first_kinds : forall is, first_of (map kind_of is) = first_kind is.
Proof. intros [|i is]; reflexivity. Qed.

Theorem add_iff : forall before i behind, accepts (before ++ behind) -> (accepts (before ++ i :: behind) <-> can_add before i behind).
Proof.
  intros a i b. rewrite !accepts_fit, !fit_kinds, !map_app. cbn [map]. intros H. destruct (add_local _ _ (kind_of i) H) as [-> N].
  rewrite kfit_app in H. apply andb_true_iff in H as [H1 H2]. rewrite from_next in H2. apply andb_true_iff in H2 as [_ H2].
  destruct (module_level (kind_of i)) eqn:M.
  - rewrite (table_module _ _ _ N M), andb_true_iff. transitivity (Forall (fun j => part (kind_of j) <= part (kind_of i)) a /\ Forall (fun j => part (kind_of i) <= part (kind_of j)) b).
    + rewrite <- (rest_above _ _ H2), Forall_map. apply and_iff_compat_r. split.
      * intros B. destruct (lead_below _ _ _ H1 B) as [_ X]. apply Forall_map in X. exact X.
      * intros X. apply last_below; [apply Forall_map; exact X|reflexivity].
    + unfold can_add. destruct (kind_of i); try discriminate M; reflexivity.
  - rewrite (table_inside _ _ _ N M). rewrite last_kinds, first_kinds. unfold can_add.
    destruct (kind_of i); try discriminate M; cbn [inside]; try (split; [discriminate|contradiction]);
      destruct (last_kind a) as [[]|]; try (split; [discriminate|intuition congruence]); try (split; [auto|reflexivity]);
      destruct (first_kind b) as [[]|]; split; try discriminate; try reflexivity; try (intros _; split; [auto|reflexivity]); intros [_ X]; discriminate X.
Qed.
Theorem remove_iff : forall before i behind, accepts (before ++ i :: behind) -> (accepts (before ++ behind) <-> can_remove (kind_of i) = true).
Proof.
  intros a i b. rewrite !accepts_fit, !fit_kinds, !map_app. cbn [map]. intros H. destruct (remove_local _ _ (kind_of i) H) as [-> N].
  rewrite (table_remove _ _ _ N). reflexivity.
Qed.
End Edit.
