(** Property theorems about the length of the disassembly of accepted input, C99.  [extended_of] (Spec_Calls) lists the
    extended instructions among some instructions. *)
From Verif Require Import Base Types Ops ReadErr ExtSet Reader Glsl450 DisplayModule Spec_Wire Spec_Calls Samples Proofs_TextSize.

(** ** C99 *)
(** At most 7.75 bytes of text for each byte of input, besides what the user's own instructions print. *)
Theorem C99_text_size : forall E (text : E -> string) (known : list (ExtInstSet E)) data m, read_module data known = Ok m ->
  4 * String.length (disp_RawModule text m)
    <= 31 * List.length data + 4 * list_sum (map (fun x => String.length (text x)) (extended_of (RawModule_instructions m))).
Proof. exact text_size. Qed.
Print Assumptions C99_text_size.

(** With the set of the crate, under any names, nothing is added. *)
Theorem C99_text_size_built_in : forall (known : list (ExtInstSet Inst)) data m, (forall s, In s known -> duplicate s = duplicate InstSet) ->
  read_module data known = Ok m -> 4 * String.length (disp_RawModule disp_Inst m) <= 31 * List.length data.
Proof. exact text_size_glsl. Qed.
Print Assumptions C99_text_size_built_in.

(** The factor cannot be lowered: there are inputs of every size 20 + 8n that stay within 84 bytes of it. *)
Theorem C99_factor_is_exact : forall n, exists data m, read_module data [InstSet] = Ok m /\ List.length data = 20 + 8 * n
  /\ 4 * String.length (disp_RawModule disp_Inst m) + 4 * 84 = 31 * List.length data.
Proof. exact factor_exact. Qed.
Print Assumptions C99_factor_is_exact.

(** The sample module meets the hypotheses; its extended instruction prints six bytes. *)
Example C99_example : forall o, read_module (sample_bytes o) [InstSet] = Ok sample
  /\ (forall s, In s [InstSet] -> duplicate s = duplicate InstSet)
  /\ list_sum (map (fun x => String.length (disp_Inst x)) (extended_of (RawModule_instructions sample))) = 6
  /\ Nat.ltb (2 * List.length (sample_bytes o)) (String.length (disp_RawModule disp_Inst sample)) = true.
Proof.
  intro o. split; [apply sample_read|]. split; [intros s [<-|[]]; reflexivity|]. split; [vm_compute; reflexivity|]. destruct o; vm_compute; reflexivity.
Qed.
