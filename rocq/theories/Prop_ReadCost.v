(** Property theorems about what reading costs, C126.  CountReader models read_module with a count of its steps, which are
    listed in CountBase; Spec_ReadCost says which instructions ask the known sets for their names. *)
From Verif Require Import Base Types Ops ReadErr ReadBase ExtSet Reader CountBase CountReader Spec_ReadCost Spec_Wire Samples Glsl450.
From Verif Require Import Proofs_ReadCost3 Samples_ReadCost.
Local Open Scope nat_scope.

(** ** C126 *)
(** Counting does not change the result. *)
Theorem C126_counting_is_faithful : forall E data (known : list (ExtInstSet E)),
  snd (count_module data known) = read_module data known.
Proof. exact @faithful. Qed.
Print Assumptions C126_counting_is_faithful.

(** An accepted input takes a step for each word, and at most ten, and one more for each import and known set. *)
Theorem C126_accepted : forall E data (known : list (ExtInstSet E)) m, read_module data known = Ok m ->
  length data / 4 <= fst (count_module data known)
  /\ fst (count_module data known) <= 10 * (length data / 4) + length known * imports (RawModule_instructions m).
Proof. exact @accepted_costs. Qed.
Print Assumptions C126_accepted.

(** Every input takes a number of steps that is linear in its length. *)
Theorem C126_any_input : forall E data (known : list (ExtInstSet E)),
  fst (count_module data known) <= (10 + length known) * (length data / 4) + 1.
Proof. exact @any_costs. Qed.
Print Assumptions C126_any_input.

(** The known sets have to be counted. *)
Theorem C126_any_number_of_sets_refuted : forall E K, exists data (known : list (ExtInstSet E)),
  K * length data < fst (count_module data known).
Proof. exact @many_sets. Qed.
Print Assumptions C126_any_number_of_sets_refuted.

(** Nine steps for each word are not enough. *)
Theorem C126_nine_refuted : forall E (known : list (ExtInstSet E)), exists data m, read_module data known = Ok m
  /\ 9 * (length data / 4) + 1 < fst (count_module data known).
Proof. exact nine_refuted. Qed.
Print Assumptions C126_nine_refuted.

(** The sample has 55 words. *)
Example C126_example : forall o, read_module (sample_bytes o) [InstSet] = Ok sample /\ length (sample_bytes o) = 4 * 55
  /\ imports (RawModule_instructions sample) = 1 /\ fst (count_module (sample_bytes o) [InstSet]) = 144.
Proof. intros []; (split; [vm_compute; reflexivity|]); repeat split; vm_compute; reflexivity. Qed.
