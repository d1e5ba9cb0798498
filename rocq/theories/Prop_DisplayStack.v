(** Property theorems about how deeply printing a chain recurses, C97.  The vocabulary of the statements is in Spec_Flow and
    Spec_DisplayStack; DisplayStack models the printers with a limit on the calls that are active at the same time. *)
From Verif Require Import Base Types Ops Groups ControlFlow DisplayFlow DisplayStack Spec_Flow Spec_DisplayStack Glsl450 Samples_Flow Proofs_DisplayStack.

(** ** C97 *)
(** Printing a chain: the depth is the nesting of the chain, and the counter of the indentation does not overflow. *)
Theorem C97_chain : forall n chain, (N.of_nat n < 2 ^ 32)%N ->
  disp_ControlFlowChain_within n chain = if nesting chain <=? n then Ok (disp_ControlFlowChain chain) else OutOfFuel.
Proof. exact print_chain_exact. Qed.
Print Assumptions C97_chain.

(** Printing a function along a chain: the same, if it prints. *)
Theorem C97_function : forall E (disp_ext : E -> string) f chain text, disp_ControlFlowFunctionPrinter disp_ext f chain = Ok text ->
  forall n, (N.of_nat n < 2 ^ 32)%N -> disp_ControlFlowFunctionPrinter_within disp_ext n f chain = if nesting chain <=? n then Ok text else OutOfFuel.
Proof. exact @print_function_exact. Qed.
Print Assumptions C97_function.

(** If it panics, because a block is missing or there twice, one number decides, and it is at most the nesting. *)
Theorem C97_function_bound : forall E (disp_ext : E -> string) f chain, exists need, need <= nesting chain /\ forall n, (N.of_nat n < 2 ^ 32)%N ->
  disp_ControlFlowFunctionPrinter_within disp_ext n f chain = if need <=? n then disp_ControlFlowFunctionPrinter disp_ext f chain else OutOfFuel.
Proof. exact @print_function_threshold. Qed.
Print Assumptions C97_function_bound.

(** With as many calls as the nesting needs, and in a build with overflow checks: it prints exactly if there are fewer than 2^32 selections and loops around one another. *)
Theorem C97_overflow : forall n chain, nesting chain <= n ->
  disp_ControlFlowChain_within n chain = if N.ltb (N.of_nat (indentation chain)) (2 ^ 32) then Ok (disp_ControlFlowChain chain) else Panic.
Proof. exact print_chain_overflow. Qed.
Print Assumptions C97_overflow.
Theorem C97_function_overflow : forall E (disp_ext : E -> string) f n chain, nesting chain <= n ->
  disp_ControlFlowFunctionPrinter_within disp_ext n f chain
  = if N.ltb (N.of_nat (indentation chain)) (2 ^ 32) then disp_ControlFlowFunctionPrinter disp_ext f chain else Panic.
Proof. exact @print_function_overflow. Qed.
Print Assumptions C97_function_overflow.
(** Chains that deep exist; C97_found and C97_size say how big a function would have to be. *)
Theorem C97_overflow_happens : forall k, (2 ^ 32 <= N.of_nat k)%N -> exists chain, indentation chain = k
  /\ forall n, nesting chain <= n -> disp_ControlFlowChain_within n chain = Panic.
Proof. exact overflow_happens. Qed.
Print Assumptions C97_overflow_happens.

(** Printing goes less than twice as deep as finding did. *)
Theorem C97_found : forall E n (f : FunctionDefinition E) chain, find_control_flow n f = Ok chain -> nesting chain <= 2 * n - 1.
Proof. exact @found_nesting. Qed.
Print Assumptions C97_found.

(** So it goes less than twice as deep as there are blocks named in the chain. *)
Theorem C97_size : forall E (f : FunctionDefinition E) chain, returns f (Ok chain) -> nesting chain <= 2 * length (chain_ids chain) - 1.
Proof. exact @found_size. Qed.
Print Assumptions C97_size.

(** Both bounds are met, at every depth. *)
Theorem C97_bound_is_met : forall E n, exists (f : FunctionDefinition E) chain,
  length (FunctionDefinition_blocks f) = S n /\ find_control_flow (S n) f = Ok chain /\ nesting chain = 2 * S n - 1.
Proof. exact deep_chain. Qed.
Print Assumptions C97_bound_is_met.

Example C97_example : find_control_flow 6 loop_function = Ok loop_chain /\ nesting loop_chain = 7 /\ indentation loop_chain = 3
  /\ disp_ControlFlowChain_within 6 loop_chain = OutOfFuel /\ disp_ControlFlowChain_within 7 loop_chain = Ok (disp_ControlFlowChain loop_chain)
  /\ disp_ControlFlowFunctionPrinter_within disp_Inst 6 loop_function loop_chain = OutOfFuel
  /\ (exists text, disp_ControlFlowFunctionPrinter disp_Inst loop_function loop_chain = Ok text)
  /\ disp_ControlFlowFunctionPrinter_within disp_Inst 1 loop_function (Block []) = Ok ""%string
  /\ disp_ControlFlowFunctionPrinter_within disp_Inst 1 loop_function (Loop 77%N loop_chain unroll None) = Panic.
Proof.
  split; [vm_compute; reflexivity|]. split; [vm_compute; reflexivity|]. split; [vm_compute; reflexivity|]. split; [vm_compute; reflexivity|]. split; [vm_compute; reflexivity|].
  split; [vm_compute; reflexivity|]. split; [eexists; vm_compute; reflexivity|]. split; vm_compute; reflexivity.
Qed.
