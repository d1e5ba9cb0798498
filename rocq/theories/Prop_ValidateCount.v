(** Property theorems about the work validation does, C98.  The vocabulary of the statements is in Spec_ValidateCount;
    ValidateCount models the validator counting how often it looks at an instruction. *)
From Verif Require Import Base Types Ops Groups Validate ValidateCount Spec_ValidateCount Spec_Machine Samples Samples_Flow Prop_Machine Glsl450 Proofs_ValidateCount.

(** ** C98 *)
(** Counting changes nothing. *)
Theorem C98_same_result : forall E (m : RawModule E), fst (validate_counted m) = validate m.
Proof. exact @count_transparent. Qed.
Print Assumptions C98_same_result.

(** Accepted modules: the number of looks is a function of the result. *)
Theorem C98_exact_looks : forall E (m : RawModule E) lm, validate m = Ok lm -> snd (validate_counted m) = module_looks lm.
Proof. exact @count_exact. Qed.
Print Assumptions C98_exact_looks.

(** All modules, rejected ones too: linear in the number of instructions. *)
Theorem C98_linear : forall E (m : RawModule E), snd (validate_counted m) <= 3 * length (RawModule_instructions m) + 10.
Proof. exact @count_bound. Qed.
Print Assumptions C98_linear.

(** One function of three blocks, and a module without a memory model, for which four looks are taken at nothing. *)
Example C98_example : exists lm, validate if_module = Ok lm /\ module_looks lm = snd (validate_counted if_module) /\ length (RawModule_instructions if_module) < module_looks lm.
Proof. eexists. split; [vm_compute; reflexivity|]. split; [vm_compute; reflexivity|]. vm_compute. repeat constructor. Qed.
Example C98_example_rejected : validate_counted (module_of []) = (Err MemoryModelMissing, 4).
Proof. vm_compute. reflexivity. Qed.
