(** Property theorems about the bits of the input, C125.  The vocabulary of the statements is in Spec_Wire and Spec_Care. *)
From Verif Require Import Base Types Ops ReadErr ExtSet Reader Glsl450 Spec_Wire Spec_Care Samples Samples_Care Proofs_Care2.
Local Open Scope N_scope.

(** ** C125 *)
(** An input reads as the same module if and only if it consists of as many words, in either byte order, that are the same
    in every bit that matters. *)
Theorem C125_bits : forall E (known : list (ExtInstSet E)), (forall s, In s known -> tells_apart (duplicate s)) ->
  forall data m, read_module data known = Ok m ->
  exists sizes order ws, data = bytes_of_words order ws /\ Forall word ws
    /\ forall data', read_module data' known = Ok m
         <-> exists order' ws', data' = bytes_of_words order' ws' /\ Forall word ws' /\ agree (care_module m sizes) ws ws'.
Proof. exact care_exact. Qed.
Print Assumptions C125_bits.

(** The built-in set tells its instructions apart. *)
Theorem C125_built_in : forall data m, read_module data [InstSet] = Ok m ->
  exists sizes order ws, data = bytes_of_words order ws /\ Forall word ws
    /\ forall data', read_module data' [InstSet] = Ok m
         <-> exists order' ws', data' = bytes_of_words order' ws' /\ Forall word ws' /\ agree (care_module m sizes) ws ws'.
Proof. exact care_built_in. Qed.
Print Assumptions C125_built_in.

(** If the user's set does not tell its instructions apart, more inputs read as the same module. *)
Theorem C125_any_set_refuted : exists E (known : list (ExtInstSet E)) m order ws ws', Forall word ws /\ Forall word ws'
  /\ read_module (bytes_of_words order ws) known = Ok m /\ read_module (bytes_of_words order ws') known = Ok m
  /\ forall sizes, ~ agree (care_module m sizes) ws ws'.
Proof. exact blind_apart. Qed.
Print Assumptions C125_any_set_refuted.

(** The sample: 55 words, of which seven have bits that do not matter; with all of these bits flipped, in either byte order, it
    reads the same. *)
Example C125_example :
  (forall o, read_module (sample_bytes o) [InstSet] = Ok sample) /\ (forall o, sample_bytes o = bytes_of_words o sample_words)
  /\ length (care_module sample [1%nat]) = 55%nat
  /\ filter (fun mask => negb (mask =? every_bit)) (care_module sample [1%nat]) = [0xFF0F0F0F; 0xFF; 0xFF; 0xF; 0xFFFF; 0xFFFEFFFF; 0xFFFEFFFF]
  /\ agree (care_module sample [1%nat]) sample_words flipped_words
  /\ (forall o, read_module (bytes_of_words o flipped_words) [InstSet] = Ok sample)
  /\ ~ agree (care_module sample [1%nat]) sample_words (firstn 54 sample_words ++ [57]).
Proof.
  split; [exact sample_read|]. split; [intros o; reflexivity|]. split; [vm_compute; reflexivity|]. split; [vm_compute; reflexivity|].
  split; [vm_compute; repeat (split; [reflexivity|]); exact I|]. split; [intros []; vm_compute; reflexivity|].
  intros H. vm_compute in H. repeat (destruct H as [? H]). discriminate.
Qed.
