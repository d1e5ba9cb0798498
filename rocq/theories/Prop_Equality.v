(** Property theorems about equality of modules, C73-C75.  The vocabulary of the statements is in Spec_Equality;
    [eq_ext] is the equality of the extended instructions, whatever it may be. *)
From Verif Require Import Base Types Ops ReadErr Groups Validate ControlFlow Glsl450 DisplayModule DisplayFlow EqBase Equality EqMore
  Spec_Layout Spec_Equality Samples Samples_Equality Proofs_Equality Proofs_Equality2 Proofs_Equality3.

(** ** C73 *)
Theorem C73_modules : forall E (eq_ext : E -> E -> bool) (a b : RawModule E),
  eq_RawModule eq_ext a b = true <-> same_header a b /\ same_instructions (fun x y => eq_ext x y = true) a b.
Proof. intros E eq_ext a b. exact (eq_RawModule_iff eq_ext a b). Qed.
Print Assumptions C73_modules.

Theorem C73_structural : forall E (eq_ext : E -> E -> bool), (forall x y, eq_ext x y = true <-> x = y) ->
  (forall a b, eq_RawModule eq_ext a b = true <-> a = b)
  /\ (forall a b, eq_LogicalModule eq_ext a b = true <-> a = b)
  /\ (forall a b, eq_FunctionDefinition eq_ext a b = true <-> a = b)
  /\ (forall a b, eq_Core eq_ext a b = true <-> a = b).
Proof.
  intros E eq_ext X.
  exact (conj (exact_RawModule eq_ext X) (conj (exact_LogicalModule eq_ext X) (conj (exact_FunctionDefinition eq_ext X) (exact_Core eq_ext X)))).
Qed.
Print Assumptions C73_structural.

Theorem C73_results : (forall a b, eq_ReadError a b = true <-> a = b)
  /\ (forall a b, eq_ValidationError a b = true <-> a = b)
  /\ (forall a b, eq_ControlFlowChain a b = true <-> a = b).
Proof. exact (conj exact_ReadError (conj exact_ValidationError exact_chain)). Qed.
Print Assumptions C73_results.

Example C73_example : eq_RawModule same_parity (called 0%N 3%N) (called 0%N 5%N) = true
  /\ eq_RawModule same_parity (called 0%N 3%N) (called 0%N 4%N) = false
  /\ eq_RawModule same_parity (called 0%N 3%N) (called 1%N 3%N) = false
  /\ eq_RawModule eq_Inst sample sample = true
  /\ eq_ControlFlowChain (Block [Atom 1%N; Break]) (Block [Atom 1%N]) = false.
Proof. repeat split; vm_compute; reflexivity. Qed.

(** ** C74 *)
Theorem C74_built_in : forall F (eq_user : F -> AnyInst -> bool) (user_as_Inst : F -> option Inst) i x,
  eq_ExtInstBox eq_user user_as_Inst (inl i) x = true <->
  match x with inl j => i = j | inr u => user_as_Inst u = Some i end.
Proof. intros F eq_user user_as_Inst i x. exact (built_in_eq eq_user user_as_Inst i x). Qed.
Print Assumptions C74_built_in.

(** With well-behaved user instructions, as_any of which is themselves, modules are equal only to themselves. *)
Theorem C74_mixed_modules : forall F (eq_user : F -> AnyInst -> bool) (user_as_Inst : F -> option Inst),
  (forall u, user_as_Inst u = None) -> (forall u x, eq_user u x = true <-> x = inr u) ->
  forall a b, eq_RawModule (eq_ExtInstBox eq_user user_as_Inst) a b = true <-> a = b.
Proof. intros F eq_user user_as_Inst A U. exact (exact_RawModule _ (exact_ExtInstBox eq_user user_as_Inst A U)). Qed.
Print Assumptions C74_mixed_modules.

Theorem C74_equivalence : forall E (eq_ext : E -> E -> bool),
  ((forall x, eq_ext x x = true) -> forall a, eq_RawModule eq_ext a a = true)
  /\ ((forall x y, eq_ext x y = true -> eq_ext y x = true) -> forall a b, eq_RawModule eq_ext a b = true -> eq_RawModule eq_ext b a = true)
  /\ ((forall x y z, eq_ext x y = true -> eq_ext y z = true -> eq_ext x z = true) ->
        forall a b c, eq_RawModule eq_ext a b = true -> eq_RawModule eq_ext b c = true -> eq_RawModule eq_ext a c = true).
Proof. intros E eq_ext. exact (conj (module_refl eq_ext) (conj (module_sym eq_ext) (module_trans eq_ext))). Qed.
Print Assumptions C74_equivalence.

(** Nothing makes equality symmetric when a user's instruction claims to equal everything. *)
Theorem C74_symmetry_refuted : exists F (eq_user : F -> AnyInst -> bool) (user_as_Inst : F -> option Inst) a b,
  eq_RawModule (eq_ExtInstBox eq_user user_as_Inst) a b = true /\ eq_RawModule (eq_ExtInstBox eq_user user_as_Inst) b a = false.
Proof. exists bool, claims_all, not_glsl, (called 0%N (inr true)), (called 0%N (inl (Inst_Sin (Build_Sin 3%N)))). split; reflexivity. Qed.
Print Assumptions C74_symmetry_refuted.

Example C74_example : (forall u, not_glsl u = None) /\ (forall u x, compares u x = true <-> x = inr u)
  /\ eq_ExtInstBox compares not_glsl (inl (Inst_Sin (Build_Sin 3%N))) (inl (Inst_Cos (Build_Cos 3%N))) = false
  /\ eq_ExtInstBox compares not_glsl (inl (Inst_Sin (Build_Sin 3%N))) (inr true) = false
  /\ eq_ExtInstBox compares not_glsl (inr true) (inr true) = true.
Proof.
  split; [reflexivity|]. split; [|repeat split; reflexivity]. intros u [i|v]; cbn; [split; discriminate|].
  rewrite Bool.eqb_true_iff. split; [intros ->; reflexivity|intros [= ->]; reflexivity].
Qed.

(** ** C75 *)
Theorem C75_validation : forall E (eq_ext : E -> E -> bool) (a b : RawModule E), eq_RawModule eq_ext a b = true ->
  match validate a, validate b with
  | Ok la, Ok lb => eq_LogicalModule eq_ext la lb = true
  | Err ea, Err eb => ea = eb
  | _, _ => False
  end.
Proof. intros E eq_ext a b H. exact (validate_equal eq_ext a b (proj2 (proj1 (eq_RawModule_iff eq_ext a b) H))). Qed.
Print Assumptions C75_validation.

Theorem C75_exact : forall E (eq_ext : E -> E -> bool) (a b : RawModule E) la lb, validate a = Ok la -> validate b = Ok lb ->
  (eq_LogicalModule eq_ext la lb = true <-> same_instructions (fun x y => eq_ext x y = true) a b).
Proof. intros E eq_ext a b la lb. exact (equal_logical eq_ext a b la lb). Qed.
Print Assumptions C75_exact.

Theorem C75_text : forall E (eq_ext : E -> E -> bool) (ext_text : E -> string), (forall x y, eq_ext x y = true -> ext_text x = ext_text y) ->
  (forall a b, eq_RawModule eq_ext a b = true -> disp_RawModule ext_text a = disp_RawModule ext_text b)
  /\ (forall f g, eq_FunctionDefinition eq_ext f g = true -> forall chain,
        disp_ControlFlowFunctionPrinter ext_text f chain = disp_ControlFlowFunctionPrinter ext_text g chain).
Proof. intros E eq_ext ext_text H. exact (conj (same_text eq_ext ext_text H) (same_function_text eq_ext ext_text H)). Qed.
Print Assumptions C75_text.

Theorem C75_control_flow : forall E (eq_ext : E -> E -> bool) (f g : FunctionDefinition E), eq_FunctionDefinition eq_ext f g = true ->
  forall depth, find_control_flow depth f = find_control_flow depth g.
Proof. intros E eq_ext f g. exact (same_flow eq_ext f g). Qed.
Print Assumptions C75_control_flow.

Example C75_example : called 0%N 3%N <> called 0%N 5%N /\ eq_RawModule same_parity (called 0%N 3%N) (called 0%N 5%N) = true
  /\ (exists lm, validate (called 0%N 3%N) = Ok lm)
  /\ (forall x y, same_parity x y = true -> parity_text x = parity_text y)
  /\ eq_FunctionDefinition same_parity (caller 3%N) (caller 5%N) = true
  /\ find_control_flow 3 (caller 3%N) = Ok (Atom 10%N).
Proof.
  split; [discriminate|]. split; [reflexivity|]. split; [eexists; vm_compute; reflexivity|].
  split; [|split; [reflexivity|vm_compute; reflexivity]].
  intros x y H. apply Bool.eqb_prop in H. unfold parity_text. rewrite H. reflexivity.
Qed.
