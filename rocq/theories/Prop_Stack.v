(** Property theorems about the depth of the validator's recursion, C80.  The vocabulary of the statements is in
    Spec_Stack; ValidateStack models the validator with a limit on the calls that are active at the same time. *)
From Verif Require Import Base Types Ops Groups Validate ValidateStack Spec_Stack Spec_Machine Spec_Layout Samples Samples_Flow Prop_Machine Glsl450 Proofs_Stack.

(** ** C80 *)
(** Accepted modules: the depth is a function of the result. *)
Theorem C80_exact_depth : forall E n (m : RawModule E) lm, validate_within n m = Ok lm <-> validate m = Ok lm /\ module_calls lm <= n.
Proof. exact @stack_exact. Qed.
Print Assumptions C80_exact_depth.

(** All modules, rejected ones too: one number decides, and it is at most the number of instructions plus one. *)
Theorem C80_depth_is_bounded : forall E (m : RawModule E), exists need, need <= S (length (RawModule_instructions m)) /\
  forall n, validate_within n m = if need <=? n then validate m else OutOfFuel.
Proof. exact @stack_threshold. Qed.
Print Assumptions C80_depth_is_bounded.

(** No fixed limit is enough, and the bound is met. *)
Theorem C80_depth_grows_with_module : forall E n v g b, exists (m : RawModule E) lm,
  m = Build_RawModule v g b (RawModule_instructions m) /\ length (RawModule_instructions m) = S n /\
  validate m = Ok lm /\ validate_within n m = OutOfFuel.
Proof. exact stack_unbounded. Qed.
Print Assumptions C80_depth_grows_with_module.

(** One function of three blocks: one call for the function, one for each block, one that finds the end of the blocks. *)
Example C80_example : exists lm, validate if_module = Ok lm /\ module_calls lm = 5 /\ validate_within 5 if_module = Ok lm /\ validate_within 4 if_module = OutOfFuel.
Proof. eexists. split; [vm_compute; reflexivity|]. split; [reflexivity|]. split; vm_compute; reflexivity. Qed.
(** A module without a memory model is rejected; to see that, a call is made. *)
Example C80_example_rejected : validate_within 1 (module_of []) = Err MemoryModelMissing /\ validate_within 0 (module_of []) = OutOfFuel.
Proof. split; vm_compute; reflexivity. Qed.
