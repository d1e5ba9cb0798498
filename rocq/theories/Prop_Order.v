(** C130: The order of the instructions of a module. *)
From Verif Require Import Base Types Ops Groups Validate Glsl450 Spec_Tables Spec_Layout Spec_Order Samples Proofs_Order.

(** Two valid modules with the same instructions in different orders have the same things in the parts before the functions, and the same functions with and without body. *)
Theorem C130_same_instructions : forall E (m m' : RawModule E) lm lm', Permutation (RawModule_instructions m) (RawModule_instructions m') ->
  validate m = Ok lm -> validate m' = Ok lm' -> same_parts lm lm' /\ Permutation (functions lm) (functions lm').
Proof. intros E. exact order_parts. Qed.
Print Assumptions C130_same_instructions.

(** The parts and the functions of a valid module may be put in any order in which the first function of the definitions has a body. *)
Theorem C130_any_order : forall E (m : RawModule E) lm, validate m = Ok lm -> forall lm', same_parts lm lm' -> same_functions lm lm' ->
  Permutation (RawModule_instructions m) (write_module lm')
  /\ (validate (with_instructions m (write_module lm')) = Ok lm' <-> first_has_body lm').
Proof. intros E. exact reorder. Qed.
Print Assumptions C130_any_order.

(** Two neighbours of the same kind may change places anywhere in any module. *)
Theorem C130_neighbours : forall E (m : RawModule E) before i j behind, kind_of i = kind_of j ->
  match validate (with_instructions m (before ++ i :: j :: behind)), validate (with_instructions m (before ++ j :: i :: behind)) with
  | Ok lm, Ok lm' => same_parts lm lm' /\ Permutation (functions lm) (functions lm')
  | Err e, Err e' => e = e'
  | _, _ => False
  end.
Proof. intros E. exact swap. Qed.
Print Assumptions C130_neighbours.

(** Not what the functions contain: a parameter or an instruction of a block can be moved from one function to another. *)
Theorem C130_contents_refuted : ~ (forall E (m m' : RawModule E) lm lm', Permutation (RawModule_instructions m) (RawModule_instructions m') ->
  validate m = Ok lm -> validate m' = Ok lm' -> same_functions lm lm').
Proof. exact functions_not_kept. Qed.
Print Assumptions C130_contents_refuted.

(** Not every order is accepted, not even of the functions alone. *)
Theorem C130_every_order_refuted : ~ (forall E (is is' : list (Core E)), Permutation is is' -> accepts is -> accepts is')
  /\ ~ (forall E (m : RawModule E) lm, validate m = Ok lm -> forall lm', same_parts lm lm' -> same_functions lm lm' ->
         validate (with_instructions m (write_module lm')) = Ok lm').
Proof. exact (conj not_every_order not_every_first). Qed.
Print Assumptions C130_every_order_refuted.

(** Two names change places, in the module of the samples with one name more. *)
Example C130_example : let i := Core_OpName (Build_OpName 4%N "main"%string) in let j := Core_OpString (Build_OpString 9%N "file"%string) in
  let is := firstn 2 layout_sample ++ i :: j :: skipn 3 layout_sample in let is' := firstn 2 layout_sample ++ j :: i :: skipn 3 layout_sample in
  kind_of i = kind_of j /\ Permutation is is' /\ exists lm lm', validate (module_of is) = Ok lm /\ validate (module_of is') = Ok lm' /\ lm <> lm'
    /\ LogicalModule_debug lm = rev (LogicalModule_debug lm') /\ same_parts lm lm' /\ same_functions lm lm' /\ first_has_body lm'.
Proof.
  intros i j is is'. split; [reflexivity|]. split; [apply Permutation_app_head; apply perm_swap|].
  do 2 eexists. split; [vm_compute; reflexivity|]. split; [vm_compute; reflexivity|]. split; [discriminate|]. split; [reflexivity|].
  split; [constructor; cbn; first [reflexivity | apply perm_swap]|]. split; [split; cbn; reflexivity|]. discriminate.
Qed.
