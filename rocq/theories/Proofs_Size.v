(** Proofs about the size of accepted input, C87. *)
From Coq Require Import Lia ZArith ZifyNat.
From Verif Require Import Base Types Ops ReadErr ExtSet Reader Spec_Wire Spec_Size Proofs_Stream Proofs_Reader Proofs_Facts2.

Ltac Zify.zify_post_hook ::= Z.div_mod_to_equations.
Lemma word_bytes_length : forall ws, List.length (word_bytes ws) = 4 * List.length ws.
Proof. induction ws as [|w ws IH]; [reflexivity|]. cbn [word_bytes List.length]. lia. Qed.
Lemma bytes_length : forall s, List.length (bytes_of_string s) = String.length s.
Proof. induction s as [|c s IH]; [reflexivity|]. cbn. f_equal. exact IH. Qed.
Lemma operand_length : forall o ws, wire_operand o ws -> List.length ws = operand_words o.
Proof.
  intros [n|s|v g] ws H; cbn [wire_operand operand_words] in *.
  - subst. reflexivity.
  - destruct H as [(p & Hp & H) _]. apply (f_equal (@List.length N)) in H. rewrite app_length, word_bytes_length, bytes_length in H. cbn [List.length] in H. lia.
  - destruct H as (w & -> & _). reflexivity.
Qed.
Lemma operands_length : forall os ws, wire_operands os ws -> List.length ws = list_sum (map operand_words os).
Proof.
  induction os as [|o os IH]; intros ws H; cbn [wire_operands map] in *; [subst; reflexivity|].
  destruct H as (w1 & w2 & -> & H1 & H2). rewrite app_length, (operand_length _ _ H1), (IH _ H2). reflexivity.
Qed.
Lemma instruction_length : forall E known earlier (i : Core E) body, wire_instruction known earlier i body ->
  exists own, 1 + List.length body = words_of i own.
Proof.
  intros E known earlier i body H. unfold words_of.
  assert (X : (exists op, i = Core_OpExtInst op) \/ wire_operands (operands i) body /\ match i with Core_OpExtInst _ => False | _ => True end).
  { destruct i; try (right; split; [apply H|exact I]). left. eexists. reflexivity. }
  destruct X as [(op & ->)|[X Y]].
  - destruct H as (number & rest & r & -> & _). exists (List.length rest). reflexivity.
  - exists 0. rewrite (operands_length _ _ X). destruct i; try contradiction; lia.
Qed.
Lemma instructions_length : forall E known earlier (is : list (Core E)) ws, wire_instructions known earlier is ws ->
  exists own, List.length own = List.length is /\ List.length ws = list_sum (map (fun p => words_of (fst p) (snd p)) (combine is own))
    /\ Forall (fun p => words_of (fst p) (snd p) < N.to_nat 65536) (combine is own).
Proof.
  intros E known earlier is ws H. induction H as [|earlier i is wc body ws Hi Hw Hb _ IH].
  - exists []. repeat split. constructor.
  - destruct IH as (own & L & IH1 & IH2). destruct (instruction_length _ _ _ _ _ Hi) as (k & Hk). exists (k :: own).
    split; [cbn [List.length]; congruence|]. cbn [combine map fst snd List.length]. rewrite app_length. split.
    + change (list_sum (words_of i k :: ?l)) with (words_of i k + list_sum l). cbn [list_sum fold_right].
      change (fold_right Nat.add 0 (map (fun p => words_of (fst p) (snd p)) (combine is own))) with (list_sum (map (fun p => words_of (fst p) (snd p)) (combine is own))). lia.
    + constructor; [|exact IH2]. cbn [fst snd]. destruct Hw as [->|[-> ->]]; [lia|]. cbn [List.length] in Hk. lia.
Qed.

Theorem module_size : forall E (known : list (ExtInstSet E)) data m, read_module data known = Ok m ->
  exists own, List.length own = List.length (RawModule_instructions m)
    /\ List.length data = 20 + 4 * list_sum (map (fun p => words_of (fst p) (snd p)) (combine (RawModule_instructions m) own))
    /\ Forall (fun p => words_of (fst p) (snd p) < N.to_nat 65536) (combine (RawModule_instructions m) own).
Proof.
  intros E known data m H. apply read_exact in H. destruct H as (o & v & g & ws & -> & _ & _ & _ & _ & H).
  destruct (instructions_length _ _ _ _ _ H) as (own & L & H1 & H2). exists own. split; [exact L|]. split; [|exact H2].
  assert (X : forall l, List.length (bytes_of_words o l) = 4 * List.length l).
  { induction l as [|w l IH]; [reflexivity|]. rewrite bytes_of_words_cons, app_length, bytes_of_word_length. cbn [List.length]. lia. }
  rewrite X, app_length, H1. cbn [List.length]. lia.
Qed.

Lemma words_plain : forall E (is : list (Core E)) own, Forall (fun i => ~ is_extended i) is -> List.length own = List.length is ->
  list_sum (map (fun p => words_of (fst p) (snd p)) (combine is own)) = list_sum (map (fun i => words_of i 0) is).
Proof.
  intros E is. induction is as [|i is IH]; intros [|k own] H L; try discriminate L; [reflexivity|]. inversion H; subst. injection L as L.
  specialize (IH own H3 L). cbn [combine map fst snd]. cbn [list_sum fold_right].
  change (fold_right Nat.add 0 ?l) with (list_sum l). rewrite IH. f_equal. unfold words_of. destruct i; try reflexivity. destruct H2. exact I.
Qed.

Theorem plain_size : forall E (known : list (ExtInstSet E)) data m, read_module data known = Ok m ->
  Forall (fun i => ~ is_extended i) (RawModule_instructions m) ->
  List.length data = 20 + 4 * list_sum (map (fun i => words_of i 0) (RawModule_instructions m)).
Proof.
  intros E known data m H P. destruct (module_size _ _ _ _ H) as (own & L & Q & _). rewrite Q, words_plain by assumption. reflexivity.
Qed.

(** What a module keeps in memory per instruction: itself, its operands, and the bytes of its strings. *)
Lemma kept_words : forall E (i : Core E) own, kept i <= 4 * words_of i own.
Proof.
  intros E i own. unfold kept, words_of.
  assert (X : list_sum (map operand_kept (operands i)) <= 4 * list_sum (map operand_words (operands i))).
  { induction (operands i) as [|o os IH]; [reflexivity|]. cbn [map list_sum fold_right].
    change (fold_right Nat.add 0 ?l) with (list_sum l). destruct o; cbn [operand_kept operand_words]; lia. }
  destruct i; lia.
Qed.
Theorem no_amplification : forall E (known : list (ExtInstSet E)) data m, read_module data known = Ok m ->
  20 + list_sum (map kept (RawModule_instructions m)) <= List.length data.
Proof.
  intros E known data m H. destruct (module_size _ _ _ _ H) as (own & L & Q & _). rewrite Q. clear - L.
  assert (X : forall (is : list (Core E)) own, List.length own = List.length is ->
    list_sum (map kept is) <= 4 * list_sum (map (fun p => words_of (fst p) (snd p)) (combine is own))).
  { clear. intro is. induction is as [|i is IH]; intros [|k own] L; try discriminate L; [cbn; lia|]. injection L as L. specialize (IH own L).
    cbn [combine map fst snd list_sum fold_right]. change (fold_right Nat.add 0 ?l) with (list_sum l). pose proof (kept_words _ i k). lia. }
  specialize (X _ own L). lia.
Qed.
