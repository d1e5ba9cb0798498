(** Property theorems about the size of what read_module accepts, C87.  The vocabulary of the statements is in Spec_Size. *)
From Verif Require Import Base Types Ops ReadErr ExtSet Reader Spec_Wire Spec_Size Samples Glsl450 Proofs_Size.

(** ** C87 *)
(** The input is the 20 bytes of the header and the words of the instructions: nothing is skipped, nothing is read twice.
    [own] is the number of words the extended instructions have as their own operands. *)
Theorem C87_size_is_exact : forall E (known : list (ExtInstSet E)) data m, read_module data known = Ok m ->
  exists own, List.length own = List.length (RawModule_instructions m)
    /\ List.length data = 20 + 4 * list_sum (map (fun p => words_of (fst p) (snd p)) (combine (RawModule_instructions m) own))
    /\ Forall (fun p => words_of (fst p) (snd p) < N.to_nat 65536) (combine (RawModule_instructions m) own).
Proof. exact module_size. Qed.
Print Assumptions C87_size_is_exact.

(** Without extended instructions the module alone decides the size of the input. *)
Theorem C87_module_decides_size : forall E (known : list (ExtInstSet E)) data m, read_module data known = Ok m ->
  Forall (fun i => ~ is_extended i) (RawModule_instructions m) ->
  List.length data = 20 + 4 * list_sum (map (fun i => words_of i 0) (RawModule_instructions m)).
Proof. exact plain_size. Qed.
Print Assumptions C87_module_decides_size.

(** The module is never bigger than its input: instructions, operands and bytes of strings, all counted. *)
Theorem C87_no_amplification : forall E (known : list (ExtInstSet E)) data m, read_module data known = Ok m ->
  20 + list_sum (map kept (RawModule_instructions m)) <= List.length data.
Proof. exact no_amplification. Qed.
Print Assumptions C87_no_amplification.

(** The sample has an extended instruction with one operand of its own. *)
Example C87_example : forall o, read_module (sample_bytes o) [InstSet] = Ok sample
  /\ List.length (sample_bytes o) = 20 + 4 * list_sum (map (fun i => words_of i (match i with Core_OpExtInst _ => 1 | _ => 0 end)) (RawModule_instructions sample))
  /\ 20 + list_sum (map kept (RawModule_instructions sample)) < List.length (sample_bytes o)
  /\ Exists is_extended (RawModule_instructions sample).
Proof.
  intro o. split; [apply sample_read|]. split; [destruct o; vm_compute; reflexivity|]. split; [destruct o; apply PeanoNat.Nat.ltb_lt; vm_compute; reflexivity|].
  unfold sample, sample_instructions, RawModule_instructions. repeat first [apply Exists_cons_hd; exact I | apply Exists_cons_tl].
Qed.
(** A string of seven bytes needs two words, one of eight needs three. *)
Example C87_example_strings : operand_words (OStr "seven b") = 2 /\ operand_words (OStr "eight by") = 3 /\ operand_words (OStr "") = 1.
Proof. repeat split. Qed.
