(** C128: Cutting a module short, and adding functions. *)
From Verif Require Import Base Types Ops Groups Validate Glsl450 Spec_Tables Spec_Layout Spec_Cut Samples Proofs_Layout Proofs_Cut.

(** The start of a valid module is valid exactly if it has the memory model and does not end within a function. *)
Theorem C128_cut : forall E (m : RawModule E) lm, validate m = Ok lm -> forall start rest, RawModule_instructions m = start ++ rest ->
  (accepts start <-> complete start).
Proof. intros E m lm. exact (cut_accepted m lm). Qed.
Print Assumptions C128_cut.

(** Nothing that was read before the cut is read differently without the rest. *)
Theorem C128_cut_result : forall E (m : RawModule E) lm, validate m = Ok lm -> forall start rest small, RawModule_instructions m = start ++ rest ->
  validate (with_instructions m start) = Ok small -> begins lm small.
Proof. intros E m lm. exact (cut_result m lm). Qed.
Print Assumptions C128_cut_result.

(** After a function with a body exactly functions can be added, and they are added at the end. *)
Theorem C128_more_functions : forall E (m : RawModule E) lm, validate m = Ok lm -> LogicalModule_function_definitions lm <> [] -> forall more larger,
  validate (with_instructions m (RawModule_instructions m ++ more)) = Ok larger
  <-> exists ds, more = flat_map write_definition ds /\ Forall canonical_definition ds /\ larger = with_more lm ds.
Proof. intros E m lm. exact (more_functions m lm). Qed.
Print Assumptions C128_more_functions.

(** Not so in a module without definitions: a function without body is added as a declaration. *)
Theorem C128_no_definition_refuted : ~ (forall E (m : RawModule E) lm, validate m = Ok lm -> forall ds larger, Forall canonical_definition ds ->
  validate (with_instructions m (RawModule_instructions m ++ flat_map write_definition ds)) = Ok larger -> larger = with_more lm ds).
Proof. exact no_definition. Qed.
Print Assumptions C128_no_definition_refuted.

(** Being complete does not make an instruction list valid by itself. *)
Theorem C128_complete_refuted : ~ (forall E (is : list (Core E)), complete is -> accepts is).
Proof. exact complete_not_enough. Qed.
Print Assumptions C128_complete_refuted.

Example C128_example : exists lm, validate (module_of layout_sample) = Ok lm /\ LogicalModule_function_definitions lm <> []
  /\ complete (firstn 7 layout_sample) /\ ~ complete (firstn 9 layout_sample) /\ ~ complete (firstn 1 layout_sample)
  /\ layout_sample = firstn 7 layout_sample ++ skipn 7 layout_sample
  /\ (exists small, validate (with_instructions (module_of layout_sample) (firstn 7 layout_sample)) = Ok small
       /\ LogicalModule_function_declarations small = LogicalModule_function_declarations lm /\ LogicalModule_function_definitions small = []).
Proof.
  eexists. split; [vm_compute; reflexivity|]. split; [discriminate|]. split; [split; reflexivity|]. split; [intros [_ X]; discriminate X|].
  split; [intros [X _]; discriminate X|]. split; [reflexivity|]. eexists. split; [vm_compute; reflexivity|]. split; reflexivity.
Qed.
