(** Which bits of an input matter, C125. *)
From Coq Require Import Lia ZArith.
From Verif Require Import Base Types Ops ReadErr ExtSet Reader Spec_Wire Proofs_Operands Proofs_Stream Proofs_CareBits Spec_Care.
Local Open Scope N_scope.

Lemma every_land : forall w, word w -> N.land w every_bit = w.
Proof. intros w W. change every_bit with (N.ones 32). rewrite N.land_ones. apply N.mod_small. exact W. Qed.
Lemma every_agree : forall ws ws', Forall word ws -> Forall word ws' -> (agree (repeat every_bit (List.length ws)) ws ws' <-> ws = ws').
Proof.
  induction ws as [|w ws IH]; intros [|w' ws'] W W'; cbn [repeat List.length agree]; split; intros H; try reflexivity; try discriminate H; try contradiction H; try exact I.
  - inversion W; inversion W'; subst. destruct H as [Q R]. rewrite !every_land in Q by assumption. subst. f_equal. apply IH; assumption.
  - injection H as -> ->. split; [reflexivity|]. inversion W; subst. apply IH; auto.
Qed.
Lemma agree_length : forall masks ws ws', agree masks ws ws' -> List.length ws = List.length masks /\ List.length ws' = List.length masks.
Proof. induction masks as [|k masks IH]; intros [|w ws] [|w' ws'] H; try contradiction H; [auto|]. destruct H as [_ H]. apply IH in H. cbn. lia. Qed.
Lemma agree_app : forall k1 k2 a1 a2 b1 b2, List.length a1 = List.length k1 -> List.length b1 = List.length k1 ->
  (agree (k1 ++ k2) (a1 ++ a2) (b1 ++ b2) <-> agree k1 a1 b1 /\ agree k2 a2 b2).
Proof.
  induction k1 as [|k k1 IH]; intros k2 [|a a1] a2 [|b b1] b2 A B; try discriminate; cbn [app agree]; [tauto|].
  rewrite IH by (cbn in A, B; lia). tauto.
Qed.
Lemma agree_split : forall k1 k2 a1 a2 ws', List.length a1 = List.length k1 -> agree (k1 ++ k2) (a1 ++ a2) ws' ->
  exists b1 b2, ws' = b1 ++ b2 /\ List.length b1 = List.length k1 /\ agree k1 a1 b1 /\ agree k2 a2 b2.
Proof.
  intros k1 k2 a1 a2 ws' A H. pose proof (agree_length _ _ _ H) as [_ L]. rewrite app_length in L.
  exists (firstn (List.length k1) ws'), (skipn (List.length k1) ws'). rewrite firstn_skipn. split; [reflexivity|].
  assert (F : List.length (firstn (List.length k1) ws') = List.length k1) by (rewrite firstn_length; lia). split; [exact F|].
  apply agree_app; [exact A|exact F|]. rewrite firstn_skipn. exact H.
Qed.

(** ** Strings *)
Definition starts_bytes (bs ws : list N) : Prop := exists padding, (List.length padding < 4)%nat /\ word_bytes ws = bs ++ padding.
Definition masks_of (bs : list N) : list N := pack (map (fun _ => 0xFF) bs).
Lemma bytes_small : forall bs ws, (List.length bs < 4)%nat -> bs <> [] -> starts_bytes bs ws -> exists w, ws = [w].
Proof.
  intros bs ws L NE (p & P & H). apply (f_equal (@List.length N)) in H. rewrite word_bytes_length, app_length in H.
  destruct bs; [contradiction NE; reflexivity|]. cbn in H, L. destruct ws as [|w [|w2 ws]]; cbn in H; try lia. exists w. reflexivity.
Qed.
Lemma starts_agree : forall n bs ws ws', (List.length bs <= n)%nat -> Forall word ws -> Forall word ws' -> starts_bytes bs ws ->
  (starts_bytes bs ws' <-> agree (masks_of bs) ws ws').
Proof.
  induction n as [|n IH]; intros bs ws ws' L W W' S.
  { destruct bs; [|cbn in L; lia]. revert S. unfold starts_bytes. intros (p & P & H).
    assert (X : forall v q, (List.length q < 4)%nat -> word_bytes v = [] ++ q -> v = []).
    { intros [|v0 v] q Q X; [reflexivity|]. cbn in X. subst q. cbn in Q. lia. }
    rewrite (X _ _ P H). cbn. destruct ws' as [|w' ws']; split; intros Y; try exact I; try contradiction Y; [exists []; split; [cbn; lia|reflexivity]|].
    destruct Y as (q & Q & Y). discriminate (X _ _ Q Y). }
  destruct bs as [|a [|b [|c [|d bs]]]].
  - apply (IH [] ws ws'); [cbn; lia|assumption..].
  - destruct (bytes_small [a] ws) as [w ->]; [cbn; lia|discriminate|exact S|]. inversion W as [|? ? Hw _]; subst. unfold masks_of. cbn [map pack].
    destruct S as (p & P & S). injection S as S _. split.
    + intros T. destruct (bytes_small [a] ws') as [w' ->]; [cbn; lia|discriminate|exact T|]. destruct T as (q & Q & T). injection T as T _. cbn [agree]. rewrite !byte1. split; [congruence|exact I].
    + intros T. destruct ws' as [|w' [|? ?]]; try (cbn [agree] in T; tauto). cbn [agree] in T. rewrite !byte1 in T. exists [w' / 256 mod 256; w' / 65536 mod 256; w' / 16777216]. split; [cbn; lia|].
      cbn [word_bytes app]. f_equal. destruct T; congruence.
  - destruct (bytes_small [a; b] ws) as [w ->]; [cbn; lia|discriminate|exact S|]. inversion W as [|? ? Hw _]; subst. unfold masks_of. cbn [map pack].
    change (255 + 256 * 255) with 65535. destruct S as (p & P & S). injection S as S1 S2 _. split.
    + intros T. destruct (bytes_small [a; b] ws') as [w' ->]; [cbn; lia|discriminate|exact T|]. destruct T as (q & Q & T). injection T as T1 T2 _. cbn [agree]. rewrite !byte2. split; [|exact I]. congruence.
    + intros T. destruct ws' as [|w' [|? ?]]; try (cbn [agree] in T; tauto). cbn [agree] in T. rewrite !byte2 in T. exists [w' / 65536 mod 256; w' / 16777216]. split; [cbn; lia|].
      cbn [word_bytes app]. destruct T as [T _]. apply digit in T as [T1 T2]; [|apply N.mod_lt; discriminate..]. congruence.
  - destruct (bytes_small [a; b; c] ws) as [w ->]; [cbn; lia|discriminate|exact S|]. inversion W as [|? ? Hw _]; subst. unfold masks_of. cbn [map pack].
    change (255 + 256 * 255 + 65536 * 255) with 16777215. destruct S as (p & P & S). injection S as S1 S2 S3 _. split.
    + intros T. destruct (bytes_small [a; b; c] ws') as [w' ->]; [cbn; lia|discriminate|exact T|]. destruct T as (q & Q & T). injection T as T1 T2 T3 _. cbn [agree]. rewrite !byte3. split; [|exact I]. congruence.
    + intros T. destruct ws' as [|w' [|? ?]]; try (cbn [agree] in T; tauto). cbn [agree] in T. rewrite !byte3 in T. exists [w' / 16777216]. split; [cbn; lia|].
      cbn [word_bytes app]. destruct T as [T _]. apply digit in T as [T1 T2]; [|apply N.mod_lt; discriminate..].
      apply digit in T2 as [T2 T3]; [|apply N.mod_lt; discriminate..]. congruence.
  - unfold masks_of. cbn [map pack]. fold (masks_of bs). change (255 + 256 * 255 + 65536 * 255 + 16777216 * 255) with every_bit.
    destruct S as (p & P & S). destruct ws as [|w ws]; [discriminate S|]. cbn [word_bytes app] in S. injection S as S1 S2 S3 S4 S. inversion W as [|? ? Hw Hws]; subst a b c d. 
    assert (S' : starts_bytes bs ws) by (exists p; auto). cbn [List.length] in L. split.
    + intros (q & Q & T). destruct ws' as [|w' ws']; [discriminate T|]. cbn [word_bytes app] in T. injection T as T1 T2 T3 T4 T. inversion W' as [|? ? Hw' Hws']; subst. cbn [agree].
      split; [f_equal; rewrite (byte4 w Hw), (byte4 w' Hw'); congruence|]. apply IH; [lia|assumption..|]. exists q. auto.
    + intros T. destruct ws' as [|w' ws']; [contradiction T|]. cbn [agree] in T. destruct T as [T1 T2]. inversion W' as [|? ? Hw' Hws']; subst. rewrite !every_land in T1 by assumption. subst w'.
      apply IH in T2; [|lia|assumption..]. destruct T2 as (q & Q & T). exists q. split; [exact Q|]. cbn [word_bytes app]. rewrite T. reflexivity.
Qed.

(** ** Operands *)
Lemma operand_agree : forall o ws ws', Forall word ws -> Forall word ws' -> wire_operand o ws -> (wire_operand o ws' <-> agree (care_operand o) ws ws').
Proof.
  intros o ws ws' W W' H. destruct o as [n|s|v ig]; cbn [wire_operand care_operand] in *.
  - subst ws. split; intros H; [subst ws'; apply (every_agree [n] [n] W W); reflexivity|symmetry; apply (every_agree [n] ws' W W'); exact H].
  - destruct H as [H T]. assert (X : forall v, wire_string s v <-> starts_bytes (bytes_of_string s ++ [0]) v).
    { intros v. unfold wire_string, starts_bytes. split; intros (p & P & Q); exists p; (split; [exact P|]); rewrite Q, <- ?app_assoc; reflexivity. }
    apply X in H. split; [intros [Y _]; apply X in Y|intros Y; split; [|exact T]; apply X].
    + exact (proj1 (starts_agree _ _ _ _ (le_n _) W W' H) Y).
    + exact (proj2 (starts_agree _ _ _ _ (le_n _) W W' H) Y).
  - destruct H as (w & -> & H). inversion W as [|? ? Hw _]; subst. assert (X : forall u, word u -> N.land u (N.ldiff every_bit ig) = N.ldiff u ig).
    { intros u U. rewrite <- (every_land u U) at 2. apply N.bits_inj. intros k. rewrite !N.land_spec, !N.ldiff_spec, N.land_spec. destruct (N.testbit u k), (N.testbit every_bit k); reflexivity. }
    split.
    + intros (w' & -> & H). inversion W'; subst. cbn [agree]. rewrite !X by assumption. auto.
    + intros H. destruct ws' as [|w' [|? ?]]; try (cbn [agree] in H; tauto). inversion W'; subst. cbn [agree] in H. rewrite !X in H by assumption. exists w'. split; [reflexivity|]. symmetry. apply H.
Qed.
Lemma operand_self : forall o ws, Forall word ws -> wire_operand o ws -> List.length ws = List.length (care_operand o).
Proof. intros o ws W H. exact (proj1 (agree_length _ _ _ (proj1 (operand_agree o ws ws W W H) H))). Qed.
Lemma operands_agree : forall os ws ws', Forall word ws -> Forall word ws' -> wire_operands os ws -> (wire_operands os ws' <-> agree (care_operands os) ws ws').
Proof.
  induction os as [|o os IH]; intros ws ws' W W' H.
  - cbn in H. subst ws. cbn. destruct ws'; split; intros X; try exact I; try reflexivity; [discriminate X|contradiction X].
  - destruct H as (w1 & w2 & -> & H1 & H2). apply Forall_app in W as [W1 W2]. cbn [care_operands flat_map]. split.
    + intros (v1 & v2 & -> & V1 & V2). apply Forall_app in W' as [W1' W2']. apply agree_app; [apply operand_self; assumption..|].
      split; [apply (operand_agree o); assumption|apply (IH w2 v2); assumption].
    + intros A. apply agree_split in A as (v1 & v2 & -> & L & A1 & A2); [|apply operand_self; assumption]. apply Forall_app in W' as [W1' W2'].
      exists v1, v2. split; [reflexivity|]. split; [apply (operand_agree o w1 v1); assumption|apply (IH w2 v2); assumption].
Qed.
