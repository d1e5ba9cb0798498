(** Files made of the instructions of another file, C133. *)
From Coq Require Permutation.
From Coq Require Import Lia.
From Verif Require Import Base Types Ops ReadErr ReadBase ExtSet ReadOps Reader Spec_Operands Spec_Wire Spec_Layout Spec_Rearrange Proofs_Reader Proofs_Facts Proofs_Facts2.

Section Rearrange.
Context {E : Type} (known : list (ExtInstSet E)).
Implicit Types (is : list (Core E)) (i : Core E) (m : RawModule E).

(** ** Each instruction in its place *)
Definition placed (earlier : list (Core E)) i : Prop := exists wc body, wire_instruction known earlier i body
  /\ (wc = 1 + N.of_nat (List.length body) \/ (wc = 0 /\ body = []))%N /\ (wc < 65536)%N /\ Forall word ((opcode i + 65536 * wc)%N :: body).
Lemma wire_iff : forall is earlier, (exists ws, wire_instructions known earlier is ws /\ Forall word ws)
  <-> forall before i behind, is = before ++ i :: behind -> placed (earlier ++ before) i.
Proof.
  induction is as [|i is IH]; intros earlier.
  - split; [intros _ before i behind Q; destruct before; discriminate Q|]. intros _. exists []. split; constructor.
  - split.
    + intros (ws & W & F). inversion W; subst. inversion F as [|? ? F1 F2]; subst. apply Forall_app in F2 as [F2 F3]. intros before j behind Q. destruct before as [|b before].
      * injection Q as <- <-. rewrite app_nil_r. exists wc, body. split; [assumption|]. split; [assumption|]. split; [assumption|]. constructor; assumption.
      * injection Q as <- ->. change (i :: before) with ([i] ++ before). rewrite app_assoc. eapply (proj1 (IH (earlier ++ [i]))); [eauto|reflexivity].
    + intros H. destruct (H [] i is eq_refl) as (wc & body & W & C & L & F). rewrite app_nil_r in W.
      destruct (proj2 (IH (earlier ++ [i]))) as (ws & W' & F').
      { intros before j behind ->. rewrite <- app_assoc. apply (H (i :: before) j behind). reflexivity. }
      exists ((opcode i + 65536 * wc)%N :: body ++ ws). inversion F; subst. split; [apply wire_cons; assumption|]. constructor; [assumption|]. apply Forall_app. auto.
Qed.

Lemma read_placed : forall m is, (exists data, read_module data known = Ok m) ->
  (can_be_read known m is <-> forall before i behind, is = before ++ i :: behind -> placed before i).
Proof.
  intros m is [data0 R0]. apply read_exact in R0 as (o & vw & gw & ws0 & _ & F0 & A & V & G & _).
  rewrite <- (wire_iff is []). unfold can_be_read. split.
  - intros [data R]. apply read_exact in R as (o' & vw' & gw' & ws & _ & F & _ & _ & _ & W). exists ws. split; [exact W|]. inversion F as [|? ? _ F2]; subst. inversion F2; assumption.
  - intros (ws & W & F). eexists. apply read_exact. exists o, vw, gw, ws. split; [reflexivity|]. inversion F0 as [|? ? F1 F2]; subst. inversion F2; subst.
    split; [constructor; [assumption|constructor; assumption]|]. split; [exact A|]. split; [exact V|]. split; [exact G|exact W].
Qed.

Lemma in_imports : forall is id name, In (Core_OpExtInstImport (Build_OpExtInstImport id name)) is <-> In (Build_OpExtInstImport id name) (imports_of is).
Proof.
  intros is id name. unfold imports_of. rewrite in_flat_map. split.
  - intros H. eexists. split; [exact H|]. left. reflexivity.
  - intros (x & X & Y). destruct x; cbn in Y; try contradiction. destruct Y as [->|[]]. exact X.
Qed.
Lemma one_name : forall is id name name', imports_differ is -> In (Core_OpExtInstImport (Build_OpExtInstImport id name)) is ->
  In (Core_OpExtInstImport (Build_OpExtInstImport id name')) is -> name = name'.
Proof.
  intros is id name name' D X Y. apply in_imports in X, Y. unfold imports_differ in D. induction (imports_of is) as [|x l IH]; [destruct X|].
  cbn in D. inversion D as [|? ? D1 D2]; subst. destruct X as [->|X], Y as [Y|Y].
  - congruence.
  - exfalso. apply D1. apply (in_map OpExtInstImport_result_id) in Y. exact Y.
  - subst x. exfalso. apply D1. apply (in_map OpExtInstImport_result_id) in X. exact X.
  - exact (IH D2 X Y).
Qed.
Lemma differ_before : forall before op behind, imports_differ (before ++ Core_OpExtInstImport op :: behind : list (Core E)) ->
  forall name, ~ In (Core_OpExtInstImport (Build_OpExtInstImport (OpExtInstImport_result_id op) name)) before.
Proof.
  intros before op behind D name X. unfold imports_differ, imports_of in D. rewrite flat_map_app, map_app in D. cbn [flat_map app map] in D.
  apply NoDup_remove_2 in D. apply D. apply in_or_app. left. apply in_imports in X. apply (in_map OpExtInstImport_result_id) in X. exact X.
Qed.

Theorem rearranged : forall data m, read_module data known = Ok m -> forall is, incl is (RawModule_instructions m) ->
  (can_be_read known m is <-> imports_first is /\ imports_differ is).
Proof.
  intros data m R is I. split.
  - intros [data' R']. split.
    + intros before op behind Q. destruct (ext_inst_resolved data' known (with_instructions m is) before op behind R' Q) as (name & _ & _ & _ & X & _). eauto.
    + exact (proj1 (imports_unique' data' known _ R')).
  - intros [F D]. apply (read_placed m is ltac:(eauto)).
    assert (R0 : can_be_read known m (RawModule_instructions m)) by (exists data; rewrite R; destruct m; reflexivity).
    pose proof (proj1 (read_placed m (RawModule_instructions m) (ex_intro _ data R)) R0) as R1. clear R0. rename R1 into R0. intros before i behind Q.
    assert (X : In i (RawModule_instructions m)) by (apply I; rewrite Q; apply in_elt).
    apply in_split in X as (b0 & a0 & X). destruct (R0 b0 i a0 X) as (wc & body & W & C & L & FW). exists wc, body.
    split; [|split; [exact C|]; split; [exact L|exact FW]].
    destruct i; try exact W.
    + destruct W as (W1 & W2 & _). split; [exact W1|]. split; [exact W2|]. apply (differ_before before _ behind). rewrite <- Q. exact D.
    + destruct W as (number & rest & r & B & (name & N1 & N2) & P). exists number, rest, r. split; [exact B|]. split; [|exact P].
      destruct (F _ _ _ Q) as [name' N3]. exists name'. split; [exact N3|]. replace name' with name; [exact N2|].
      apply (one_name (RawModule_instructions m) (OpExtInst_set o)); [exact (proj1 (imports_unique' data known _ R))| |].
      * rewrite X. apply in_or_app. left. exact N1.
      * apply I. rewrite Q. apply in_or_app. left. exact N3.
Qed.

Lemma read_both : forall data m, read_module data known = Ok m -> imports_first (RawModule_instructions m) /\ imports_differ (RawModule_instructions m).
Proof.
  intros data m R. apply (rearranged data m R (RawModule_instructions m) (fun x X => X)). exists data. rewrite R. destruct m; reflexivity.
Qed.
(** Where the import of an extended instruction stands. *)
Definition provided (before : list (Core E)) (j : Core E) : Prop :=
  match j with Core_OpExtInst x => exists name, In (Core_OpExtInstImport (Build_OpExtInstImport (OpExtInst_set x) name)) before | _ => True end.
Lemma first_iff : forall is, imports_first is <-> forall before j behind, is = before ++ j :: behind -> provided before j.
Proof.
  intros is. split.
  - intros H before j behind Q. destruct j; try exact Logic.I. exact (H _ _ _ Q).
  - intros H before op behind Q. exact (H _ _ _ Q).
Qed.
Lemma provided_incl : forall a b j, incl a b -> provided a j -> provided b j.
Proof. intros a b j I P. destruct j; try exact Logic.I. destruct P as [name P]. exists name. apply I. exact P. Qed.
Lemma provided_without : forall a i j, provided (i :: a) j -> ~ imports_for i j -> provided a j.
Proof.
  intros a i j P N. destruct j; try exact Logic.I. destruct P as [name [->|P]]; [|exists name; exact P]. exfalso. apply N. do 2 eexists. split; [reflexivity|]. split; reflexivity.
Qed.
Fixpoint follows (before is : list (Core E)) : Prop := match is with [] => True | j :: is => provided before j /\ follows (before ++ [j]) is end.
Lemma follows_iff : forall is a, follows a is <-> forall before j behind, is = before ++ j :: behind -> provided (a ++ before) j.
Proof.
  induction is as [|i is IH]; intros a; cbn [follows].
  - split; [|trivial]. intros _ before j behind Q. destruct before; discriminate Q.
  - split.
    + intros [P F] before j behind Q. destruct before as [|b before].
      * injection Q as <- <-. rewrite app_nil_r. exact P.
      * injection Q as <- ->. change (i :: before) with ([i] ++ before). rewrite app_assoc. exact (proj1 (IH _) F _ _ _ eq_refl).
    + intros H. split; [specialize (H [] i is eq_refl); rewrite app_nil_r in H; exact H|]. apply IH. intros before j behind ->. rewrite <- app_assoc. exact (H (i :: before) j behind eq_refl).
Qed.
Lemma first_follows : forall is, imports_first is <-> follows [] is.
Proof. intros is. rewrite first_iff, follows_iff. reflexivity. Qed.
Lemma follows_app : forall a is is', follows a (is ++ is') <-> follows a is /\ follows (a ++ is) is'.
Proof.
  intros a is. revert a. induction is as [|i is IH]; intros a is'; cbn [follows app].
  - rewrite app_nil_r. intuition.
  - rewrite IH, <- app_assoc. cbn [app]. intuition.
Qed.
Lemma follows_incl : forall is a b, incl a b -> follows a is -> follows b is.
Proof.
  induction is as [|i is IH]; intros a b I F; [exact Logic.I|]. destruct F as [P F]. split; [exact (provided_incl _ _ _ I P)|]. apply (IH (a ++ [i])); [|exact F].
  intros x X. apply in_app_or in X. apply in_or_app. destruct X as [X|X]; [left; apply I; exact X|right; exact X].
Qed.
Lemma follows_without : forall is a i, follows (i :: a) is -> (forall j, In j is -> ~ imports_for i j) -> follows a is.
Proof.
  induction is as [|j is IH]; intros a i F N; [exact Logic.I|]. destruct F as [P F]. split; [apply (provided_without a i j P); apply N; left; reflexivity|].
  apply (IH (a ++ [j]) i); [exact F|]. intros x X. apply N. right. exact X.
Qed.

Lemma differ_app : forall a b i, imports_differ (a ++ i :: b) -> imports_differ (a ++ b).
Proof.
  intros a b i D. unfold imports_differ, imports_of in *. rewrite flat_map_app, map_app in *. cbn [flat_map] in D. rewrite map_app in D.
  set (f := fun i : Core E => match i with Core_OpExtInstImport op => [op] | _ => [] end) in *.
  assert (L : forall l l' k : list N, length k <= 1 -> NoDup (l ++ k ++ l') -> NoDup (l ++ l')).
  { intros l l' [|x [|y k]] L X; cbn in *; [exact X|apply NoDup_remove_1 in X; exact X|lia]. }
  eapply L; [|exact D]. destruct i; cbn; lia.
Qed.
Lemma differ_swap : forall a b i j, imports_differ (a ++ i :: j :: b) -> imports_differ (a ++ j :: i :: b).
Proof.
  intros a b i j D. unfold imports_differ, imports_of in *. rewrite flat_map_app, map_app in *. cbn [flat_map] in *. rewrite !map_app in *.
  eapply Permutation.Permutation_NoDup; [|exact D]. apply Permutation.Permutation_app_head. rewrite !app_assoc. apply Permutation.Permutation_app_tail. apply Permutation.Permutation_app_comm.
Qed.

Theorem remove_one : forall data m, read_module data known = Ok m -> forall before i behind, RawModule_instructions m = before ++ i :: behind ->
  (can_be_read known m (before ++ behind) <-> forall j, In j behind -> ~ imports_for i j).
Proof.
  intros data m R before i behind Q. destruct (read_both data m R) as [F D]. rewrite Q in F, D. rewrite (rearranged data m R).
  2: { rewrite Q. intros x X. apply in_app_or in X. apply in_or_app. destruct X; [left|right; right]; assumption. }
  split.
  - intros [F' _] j J (op & x & -> & -> & S). apply in_split in J as (b1 & b2 & ->). destruct (F' (before ++ b1) x b2 ltac:(rewrite <- app_assoc; reflexivity)) as [name X].
    rewrite S in X. pose proof (differ_before before op _ D) as N1. apply in_app_or in X as [X|X]; [exact (N1 _ X)|].
    unfold imports_differ, imports_of in D. rewrite flat_map_app, map_app in D. cbn [flat_map app map] in D. apply NoDup_remove_2 in D. apply D. apply in_or_app. right.
    rewrite flat_map_app, map_app. apply in_or_app. left. apply in_imports in X. apply (in_map OpExtInstImport_result_id) in X. exact X.
  - intros N. split; [|exact (differ_app _ _ _ D)]. rewrite first_follows, follows_app in *. destruct F as [F1 F2]. split; [exact F1|].
    cbn [follows app] in *. destruct F2 as [_ F2]. apply (follows_without _ _ i); [|exact N]. eapply follows_incl; [|exact F2]. intros x X. apply in_app_or in X as [X|[<-|[]]]; [right; exact X|left; reflexivity].
Qed.
Theorem swap_two : forall data m, read_module data known = Ok m -> forall before i j behind, RawModule_instructions m = before ++ i :: j :: behind ->
  (can_be_read known m (before ++ j :: i :: behind) <-> ~ imports_for i j).
Proof.
  intros data m R before i j behind Q. destruct (read_both data m R) as [F D]. rewrite Q in F, D. rewrite (rearranged data m R).
  2: { rewrite Q. intros x X. apply in_app_or in X. apply in_or_app. destruct X as [X|[X|[X|X]]]; [left; exact X|right; right; left; exact X|right; left; exact X|right; right; right; exact X]. }
  split.
  - intros [F' _] (op & x & -> & -> & S). destruct (F' before x _ eq_refl) as [name X]. rewrite S in X. exact (differ_before before op _ D _ X).
  - intros N. split; [|exact (differ_swap _ _ _ _ D)]. rewrite first_follows, follows_app in *. destruct F as [F1 F2]. split; [exact F1|].
    cbn [follows app] in *. destruct F2 as (P1 & P2 & F2). split; [|split].
    + apply (provided_without _ i j); [|exact N]. eapply provided_incl; [|exact P2]. intros x X. apply in_app_or in X as [X|[<-|[]]]; [right; exact X|left; reflexivity].
    + eapply provided_incl; [|exact P1]. apply incl_appl. apply incl_refl.
    + eapply follows_incl; [|exact F2]. intros x X. rewrite <- app_assoc in *. apply in_app_or in X. apply in_or_app. destruct X as [X|[X|[X|[]]]]; [left; exact X|right; right; left; exact X|right; left; exact X].
Qed.
End Rearrange.

(** ** Not every selection *)
From Verif Require Import Glsl450 Samples.
Lemma not_any_selection : ~ (forall E (known : list (ExtInstSet E)) data m, read_module data known = Ok m -> forall is, incl is (RawModule_instructions m) -> can_be_read known m is).
Proof.
  intros H. specialize (H Inst [InstSet] _ _ (sample_read LittleEndian) [Core_OpExtInst (Build_OpExtInst 4%N 7%N 1%N (Inst_Sin (Build_Sin 8%N)))]).
  assert (I : incl [Core_OpExtInst (Build_OpExtInst 4%N 7%N 1%N (Inst_Sin (Build_Sin 8%N)))] (RawModule_instructions sample)).
  { intros x [<-|[]]. cbn. repeat (first [left; reflexivity | right]). }
  apply (rearranged [InstSet] _ _ (sample_read LittleEndian) _ I) in H; [|exact I]. destruct H as [F _]. destruct (F [] _ [] eq_refl) as [name []].
Qed.
