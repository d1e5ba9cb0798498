(** Examples for C125. *)
From Coq Require Import Lia.
From Verif Require Import Base Types Ops ReadErr ExtSet Reader Glsl450 Spec_Wire Spec_Care Samples.
Local Open Scope N_scope.

(** A set that reads everything as the same instruction. *)
Definition blind_set : ExtInstSet unit := Build_ExtInstSet "blind"%string (fun _ _ => Ok ([], tt)).
Definition blind_module : RawModule unit := Build_RawModule (Build_Version 1 0) (Build_Generator Tool_KhronosGlslang 0) 4
  [Core_OpExtInstImport (Build_OpExtInstImport 1 "blind"%string); Core_OpExtInst (Build_OpExtInst 2 3 1 tt)].
Definition blind_words (number : N) : list N := encode_header blind_module ++ encode_instructions (RawModule_instructions blind_module) [(number, [])].
Lemma blind_apart : exists E (known : list (ExtInstSet E)) m order ws ws', Forall word ws /\ Forall word ws'
  /\ read_module (bytes_of_words order ws) known = Ok m /\ read_module (bytes_of_words order ws') known = Ok m
  /\ forall sizes, ~ agree (care_module m sizes) ws ws'.
Proof.
  exists unit, [blind_set], blind_module, LittleEndian, (blind_words 0), (blind_words 1).
  split; [repeat constructor|]. split; [repeat constructor|]. split; [vm_compute; reflexivity|]. split; [vm_compute; reflexivity|].
  intros sizes H. assert (X : exists a b, agree (every_bit :: a) [0] (1 :: b)); [|destruct X as (a & b & X & _); discriminate X].
  unfold care_module, blind_module, blind_words in H. cbn in H.
  exists [], []. split; [|exact I]. repeat (destruct H as [? H]). first [assumption|contradiction].
Qed.

(** The sample, and the sample with every bit flipped that does not matter. *)
Definition sample_words : list N := encode_header sample ++ encode_instructions sample_instructions sample_payloads.
Definition flipped (masks ws : list N) : list N := map (fun p => N.lxor (fst p) (N.ldiff every_bit (snd p))) (combine ws masks).
Definition flipped_words : list N := flipped (care_module sample [1%nat]) sample_words.
