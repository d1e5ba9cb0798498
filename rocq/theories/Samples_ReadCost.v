(** Inputs that are expensive to read (C126). *)
From Verif Require Import Base Types Ops ReadErr ReadBase ReadOperands ExtSet ReadOps Reader CountBase CountOperands CountOps CountReader Spec_Wire.
Local Open Scope N_scope.

(** An import of the set with the empty name. *)
Definition nameless_import : list ascii := bytes_of_words LittleEndian [0x07230203; 0x00010000; 0; 4; 0; 0x0003000B; 1; 0].

Section Sets.
Context {E : Type}.

(** Sets that are called a. *)
Definition others (n : nat) : list (ExtInstSet E) := repeat (Build_ExtInstSet "a"%string (fun _ _ => Panic)) n.

Lemma others_asked : forall n rid block bound,
  count_import_loop rid ""%string block bound (others n) = (n, Err (UnknownInstSet ""%string)).
Proof. induction n as [|n IH]; intros; [reflexivity|]. cbn in *. unfold others in IH. rewrite IH. reflexivity. Qed.

Definition import_stream : Stream := Build_Stream (bytes_of_words LittleEndian [0x0003000B; 1; 0]) true.

Lemma nameless_instruction : forall n, count_instruction import_stream (others n) [] = ((6 + n)%nat, Err (UnknownInstSet ""%string)).
Proof.
  intros n. generalize (others_asked n). generalize (others n). intros known H.
  specialize (H 1 [] []). cbv -[count_import_loop] in H |- *. rewrite H. reflexivity.
Qed.

Lemma nameless_costs : forall n, count_module nameless_import (others n) = ((11 + n)%nat, Err (UnknownInstSet ""%string)).
Proof.
  intros n. assert (H : forall fuel, count_instructions (S fuel) import_stream (others n) [] [] = ((6 + n)%nat, Err (UnknownInstSet ""%string))).
  { intros fuel. cbn [count_instructions]. change (stream_is_end import_stream) with false. cbv iota.
    rewrite nameless_instruction. reflexivity. }
  specialize (H 11%nat). revert H. generalize (others n). intros known H.
  cbv -[count_instructions] in H |- *. rewrite H. reflexivity.
Qed.

Lemma many_sets : forall K : nat, exists (data : list ascii) (known : list (ExtInstSet E)),
  (K * length data < fst (count_module data known))%nat.
Proof.
  intros K. exists nameless_import, (others (K * 32)). rewrite nameless_costs. cbn [fst].
  change (length nameless_import) with 32%nat. lia.
Qed.
End Sets.

(** A source text of 60 words. *)
Definition long_words : list N :=
  [0x07230203; 0x00010000; 0; 4; 0; 0x003E0002] ++ repeat 0x61616161 60 ++ [0].
Definition long_input : list ascii := bytes_of_words LittleEndian long_words.

Lemma nine_not_enough : forall E (known : list (ExtInstSet E)), exists m, read_module long_input known = Ok m /\
  (9 * (length long_input / 4) + 1 < fst (count_module long_input known))%nat.
Proof.
  intros E known. eexists. split; [vm_compute; reflexivity|].
  replace (fst (count_module long_input known)) with 610%nat by (vm_compute; reflexivity).
  change (length long_input) with (67 * 4)%nat. rewrite Nat.div_mul; lia.
Qed.

Lemma nine_refuted : forall E (known : list (ExtInstSet E)), exists data m, read_module data known = Ok m
  /\ (9 * (length data / 4) + 1 < fst (count_module data known))%nat.
Proof. intros E known. exists long_input. apply nine_not_enough. Qed.
