(** The UTF-8 validator accepts exactly the encodings of scalar values. *)
From Coq Require Import ZArith ZifyBool ZifyNat ZifyN.
From Verif Require Import Base Utf8 Spec_Unicode.
Local Open Scope N_scope.
Ltac Zify.zify_post_hook ::= Z.div_mod_to_equations.

Ltac branch :=
  match goal with
  | |- context [if ?b then _ else _] => let H := fresh "B" in destruct b eqn:H
  end.

Ltac bools :=
  unfold ok3, ok4, is_cont, in_range in *;
  repeat rewrite ?andb_true_iff, ?orb_true_iff, ?andb_false_iff, ?orb_false_iff,
    ?N.leb_le, ?N.leb_gt, ?N.ltb_lt, ?N.ltb_ge, ?N.eqb_eq, ?N.eqb_neq in *.

Lemma utf8_char_valid : forall c rest, scalar c ->
  valid_utf8 (utf8_char c ++ rest) = valid_utf8 rest.
Proof.
  intros c rest [Hc|[Hc1 Hc2]]; unfold utf8_char.
  - destruct (c <? 0x80) eqn:H1; [cbn [app valid_utf8]; rewrite H1; reflexivity|].
    destruct (c <? 0x800) eqn:H2.
    { cbn [app valid_utf8].
      replace (0xC0 + c / 64 <? 0x80) with false by (symmetry; bools; lia).
      replace (in_range 0xC2 0xDF (0xC0 + c / 64)) with true by (symmetry; bools; lia).
      replace (is_cont (0x80 + c mod 64)) with true by (symmetry; bools; lia).
      reflexivity. }
    destruct (c <? 0x10000) eqn:H3; [|bools; lia].
    cbn [app valid_utf8].
    replace (0xE0 + c / 4096 <? 0x80) with false by (symmetry; bools; lia).
    replace (in_range 0xC2 0xDF (0xE0 + c / 4096)) with false by (symmetry; bools; lia).
    replace (in_range 0xE0 0xEF (0xE0 + c / 4096)) with true by (symmetry; bools; lia).
    replace (ok3 (0xE0 + c / 4096) (0x80 + c / 64 mod 64)) with true
      by (symmetry; bools; lia).
    replace (is_cont (0x80 + c mod 64)) with true by (symmetry; bools; lia).
    reflexivity.
  - destruct (c <? 0x80) eqn:H1; [bools; lia|].
    destruct (c <? 0x800) eqn:H2; [bools; lia|].
    destruct (c <? 0x10000) eqn:H3; cbn [app valid_utf8].
    + replace (0xE0 + c / 4096 <? 0x80) with false by (symmetry; bools; lia).
      replace (in_range 0xC2 0xDF (0xE0 + c / 4096)) with false by (symmetry; bools; lia).
      replace (in_range 0xE0 0xEF (0xE0 + c / 4096)) with true by (symmetry; bools; lia).
      replace (ok3 (0xE0 + c / 4096) (0x80 + c / 64 mod 64)) with true
        by (symmetry; bools; lia).
      replace (is_cont (0x80 + c mod 64)) with true by (symmetry; bools; lia).
      reflexivity.
    + replace (0xF0 + c / 262144 <? 0x80) with false by (symmetry; bools; lia).
      replace (in_range 0xC2 0xDF (0xF0 + c / 262144)) with false by (symmetry; bools; lia).
      replace (in_range 0xE0 0xEF (0xF0 + c / 262144)) with false by (symmetry; bools; lia).
      replace (in_range 0xF0 0xF4 (0xF0 + c / 262144)) with true by (symmetry; bools; lia).
      replace (ok4 (0xF0 + c / 262144) (0x80 + c / 4096 mod 64)) with true
        by (symmetry; bools; lia).
      replace (is_cont (0x80 + c / 64 mod 64)) with true by (symmetry; bools; lia).
      replace (is_cont (0x80 + c mod 64)) with true by (symmetry; bools; lia).
      reflexivity.
Qed.

Lemma is_utf8_cons : forall c l, scalar c -> is_utf8 l -> is_utf8 (utf8_char c ++ l).
Proof.
  intros c l Hc (t & Ht & ->). exists (c :: t). split; [constructor; assumption|reflexivity].
Qed.

Lemma valid_utf8_sound_len : forall n l, (List.length l <= n)%nat -> valid_utf8 l = true -> is_utf8 l.
Proof.
  induction n as [|n IH]; intros l Hn Hv.
  - destruct l; [exists []; split; [constructor|reflexivity] | cbn in Hn; lia].
  - destruct l as [|b0 l1]; [exists []; split; [constructor|reflexivity] |].
    cbn [valid_utf8] in Hv.
    destruct (b0 <? 0x80) eqn:H1.
    { replace (b0 :: l1) with (utf8_char b0 ++ l1) by (unfold utf8_char; rewrite H1; reflexivity).
      apply is_utf8_cons; [left; bools; lia|]. apply IH; [cbn in Hn; lia|assumption]. }
    destruct (in_range 0xC2 0xDF b0) eqn:H2.
    { destruct l1 as [|b1 l2]; [discriminate|].
      apply andb_true_iff in Hv. destruct Hv as [Hc Hv].
      set (c := (b0 - 0xC0) * 64 + (b1 - 0x80)).
      assert (Hr : utf8_char c = [b0; b1]).
      { unfold utf8_char. bools.
        replace (c <? 0x80) with false by (symmetry; apply N.ltb_ge; subst c; lia).
        replace (c <? 0x800) with true by (symmetry; apply N.ltb_lt; subst c; lia).
        repeat f_equal; subst c; lia. }
      change (b0 :: b1 :: l2) with ([b0; b1] ++ l2). rewrite <- Hr.
      apply is_utf8_cons; [left; subst c; bools; lia|]. apply IH; [cbn in Hn; lia|assumption]. }
    destruct (in_range 0xE0 0xEF b0) eqn:H3.
    { destruct l1 as [|b1 [|b2 l3]]; try discriminate.
      apply andb_true_iff in Hv. destruct Hv as [Hc Hv].
      apply andb_true_iff in Hc. destruct Hc as [Hok Hc].
      set (c := (b0 - 0xE0) * 4096 + (b1 - 0x80) * 64 + (b2 - 0x80)).
      assert (Hr : utf8_char c = [b0; b1; b2]).
      { unfold utf8_char. bools.
        replace (c <? 0x80) with false by (symmetry; apply N.ltb_ge; subst c; lia).
        replace (c <? 0x800) with false by (symmetry; apply N.ltb_ge; subst c; lia).
        replace (c <? 0x10000) with true by (symmetry; apply N.ltb_lt; subst c; lia).
        repeat f_equal; subst c; lia. }
      change (b0 :: b1 :: b2 :: l3) with ([b0; b1; b2] ++ l3). rewrite <- Hr.
      apply is_utf8_cons; [unfold scalar; subst c; bools; lia|]. apply IH; [cbn in Hn; lia|assumption]. }
    destruct (in_range 0xF0 0xF4 b0) eqn:H4; [|discriminate].
    destruct l1 as [|b1 [|b2 [|b3 l4]]]; try discriminate.
    apply andb_true_iff in Hv. destruct Hv as [Hc Hv].
    apply andb_true_iff in Hc. destruct Hc as [Hc Hc3].
    apply andb_true_iff in Hc. destruct Hc as [Hok Hc].
    set (c := (b0 - 0xF0) * 262144 + (b1 - 0x80) * 4096 + (b2 - 0x80) * 64 + (b3 - 0x80)).
    assert (Hr : utf8_char c = [b0; b1; b2; b3]).
    { unfold utf8_char. bools.
      replace (c <? 0x80) with false by (symmetry; apply N.ltb_ge; subst c; lia).
      replace (c <? 0x800) with false by (symmetry; apply N.ltb_ge; subst c; lia).
      replace (c <? 0x10000) with false by (symmetry; apply N.ltb_ge; subst c; lia).
      repeat f_equal; subst c; lia. }
    change (b0 :: b1 :: b2 :: b3 :: l4) with ([b0; b1; b2; b3] ++ l4). rewrite <- Hr.
    apply is_utf8_cons; [unfold scalar; subst c; bools; lia|]. apply IH; [cbn in Hn; lia|assumption].
Qed.

Lemma valid_utf8_complete : forall l, is_utf8 l -> valid_utf8 l = true.
Proof.
  intros l (t & Ht & ->). induction Ht as [|c t Hc Ht IH]; [reflexivity|].
  cbn [utf8 flat_map]. rewrite utf8_char_valid by assumption. exact IH.
Qed.

Lemma valid_utf8_iff : forall l, valid_utf8 l = true <-> is_utf8 l.
Proof.
  intro l. split; [apply (valid_utf8_sound_len (List.length l)); lia | apply valid_utf8_complete].
Qed.
