(** Lemmas for C109: the default values of the flag operands. *)
From Verif Require Import Base Types ReadErr ReadBase ReadOperands DisplayBase DisplayTypes EqBase Equality Spec_Default.
Local Open Scope N_scope.

Lemma zero_or : forall a b, N.lor a b = 0 <-> a = 0 /\ b = 0.
Proof. intros a b. apply N.lor_eq_0_iff. Qed.
Lemma nonzero_false : forall n, nonzero n = false <-> n = 0.
Proof. intros n. unfold nonzero. destruct (N.eqb_spec n 0); cbn; split; intros; congruence. Qed.

Lemma memory_zero : forall rest, read_MemoryAccess (0 :: rest) = Ok (rest, MemoryAccess_default).
Proof. reflexivity. Qed.
Lemma function_zero : forall rest, read_FunctionControl (0 :: rest) = Ok (rest, FunctionControl_default).
Proof. reflexivity. Qed.
Lemma loop_zero : forall rest, read_LoopControl (0 :: rest) = Ok (rest, LoopControl_default).
Proof. reflexivity. Qed.
Lemma selection_zero : forall rest, read_SelectionControl (0 :: rest) = Ok (rest, SelectionControl_default).
Proof. reflexivity. Qed.

Ltac split_mask w m parts :=
  replace (N.land w m) with parts by (rewrite <- ?N.land_lor_distr_r; reflexivity).
Lemma memory_read : forall w rest rest' v, read_MemoryAccess (w :: rest) = Ok (rest', v) -> (v = MemoryAccess_default <-> N.land w 7 = 0).
Proof.
  intros w rest rest' v H. unfold read_MemoryAccess, read_word in H. cbn [bind] in H. destruct (nonzero (N.land w 0xFFF8)); [discriminate H|]. injection H as <- <-.
  split_mask w 7 (N.lor (N.lor (N.land w 1) (N.land w 2)) (N.land w 4)). rewrite !zero_or, <- !nonzero_false. unfold MemoryAccess_default. split.
  - intros H. injection H. tauto.
  - intros [[-> ->] ->]. reflexivity.
Qed.
Lemma function_read : forall w rest rest' v, read_FunctionControl (w :: rest) = Ok (rest', v) -> (v = FunctionControl_default <-> N.land w 15 = 0).
Proof.
  intros w rest rest' v H. unfold read_FunctionControl, read_word in H. cbn [bind] in H. injection H as <- <-.
  split_mask w 15 (N.lor (N.lor (N.lor (N.land w 1) (N.land w 2)) (N.land w 4)) (N.land w 8)). rewrite !zero_or, <- !nonzero_false. unfold FunctionControl_default. split.
  - intros H. injection H. tauto.
  - intros [[[-> ->] ->] ->]. reflexivity.
Qed.
Lemma loop_read : forall w rest rest' v, read_LoopControl (w :: rest) = Ok (rest', v) -> (v = LoopControl_default <-> N.land w 15 = 0).
Proof.
  intros w rest rest' v H. unfold read_LoopControl, read_word in H. cbn [bind] in H. destruct (nonzero (N.land w 0xFFF0)); [discriminate H|].
  split_mask w 15 (N.lor (N.lor (N.lor (N.land w 1) (N.land w 2)) (N.land w 4)) (N.land w 8)). rewrite !zero_or, <- !nonzero_false. unfold LoopControl_default.
  destruct (nonzero (N.land w 8)).
  - destruct rest as [|n rest]; [discriminate H|]. injection H as <- <-. split; [intros H; injection H; discriminate|intros [_ H]; discriminate H].
  - cbn [bind] in H. injection H as <- <-. split; [intros H; injection H; tauto|]. intros [[[-> ->] ->] _]. reflexivity.
Qed.
Lemma selection_read : forall w rest rest' v, read_SelectionControl (w :: rest) = Ok (rest', v) -> (v = SelectionControl_default <-> N.land w 3 = 0).
Proof.
  intros w rest rest' v H. unfold read_SelectionControl, read_word in H. cbn [bind] in H. destruct (nonzero (N.land w 0xFFFC)); [discriminate H|]. injection H as <- <-.
  split_mask w 3 (N.lor (N.land w 1) (N.land w 2)). rewrite !zero_or, <- !nonzero_false. unfold SelectionControl_default. split.
  - intros H. injection H. tauto.
  - intros [-> ->]. reflexivity.
Qed.

Lemma memory_text : forall v, disp_MemoryAccess v = "None"%string <-> v = MemoryAccess_default.
Proof. intros [[] [] []]; split; intros H; try reflexivity; discriminate H. Qed.
Lemma function_text : forall v, disp_FunctionControl v = "None"%string <-> v = FunctionControl_default.
Proof. intros [[] [] [] []]; split; intros H; try reflexivity; discriminate H. Qed.
Lemma loop_text : forall v, disp_LoopControl v = "None"%string <-> v = LoopControl_default.
Proof. intros [[] [] [] [n|]]; split; intros H; try reflexivity; discriminate H. Qed.
Lemma selection_text : forall v, disp_SelectionControl v = "None"%string <-> v = SelectionControl_default.
Proof. intros [[] []]; split; intros H; try reflexivity; discriminate H. Qed.

Lemma memory_equal : forall v, eq_MemoryAccess v MemoryAccess_default = true <-> v = MemoryAccess_default.
Proof. intros [[] [] []]; split; intros H; try reflexivity; discriminate H. Qed.
Lemma function_equal : forall v, eq_FunctionControl v FunctionControl_default = true <-> v = FunctionControl_default.
Proof. intros [[] [] [] []]; split; intros H; try reflexivity; discriminate H. Qed.
Lemma loop_equal : forall v, eq_LoopControl v LoopControl_default = true <-> v = LoopControl_default.
Proof. intros [[] [] [] [n|]]; split; intros H; try reflexivity; discriminate H. Qed.
Lemma selection_equal : forall v, eq_SelectionControl v SelectionControl_default = true <-> v = SelectionControl_default.
Proof. intros [[] []]; split; intros H; try reflexivity; discriminate H. Qed.
Lemma memory_plain : plain_value read_MemoryAccess disp_MemoryAccess eq_MemoryAccess 7 MemoryAccess_default.
Proof. split; [exact memory_zero|]. split; [exact memory_read|]. split; [exact memory_text|exact memory_equal]. Qed.
Lemma function_plain : plain_value read_FunctionControl disp_FunctionControl eq_FunctionControl 15 FunctionControl_default.
Proof. split; [exact function_zero|]. split; [exact function_read|]. split; [exact function_text|exact function_equal]. Qed.
Lemma loop_plain : plain_value read_LoopControl disp_LoopControl eq_LoopControl 15 LoopControl_default.
Proof. split; [exact loop_zero|]. split; [exact loop_read|]. split; [exact loop_text|exact loop_equal]. Qed.
Lemma selection_plain : plain_value read_SelectionControl disp_SelectionControl eq_SelectionControl 3 SelectionControl_default.
Proof. split; [exact selection_zero|]. split; [exact selection_read|]. split; [exact selection_text|exact selection_equal]. Qed.
