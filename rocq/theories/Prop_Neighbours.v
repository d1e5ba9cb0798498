(** C132: Neighbouring instructions; adding and removing one. *)
From Verif Require Import Base Types Ops Groups Validate Glsl450 Spec_Tables Spec_Layout Spec_Neighbours Samples Proofs_Neighbours.

(** A module is valid exactly if its first and its last instruction and all pairs of neighbours are allowed. *)
Theorem C132_neighbours : forall E (is : list (Core E)), accepts is <-> neighbours_fit is = true.
Proof. intros E. exact accepts_fit. Qed.
Print Assumptions C132_neighbours.

(** Where one instruction can be added to a valid module. *)
Theorem C132_add : forall E before (i : Core E) behind, accepts (before ++ behind) -> (accepts (before ++ i :: behind) <-> can_add before i behind).
Proof. intros E. exact add_iff. Qed.
Print Assumptions C132_add.

(** Which instruction can be removed from a valid module. *)
Theorem C132_remove : forall E before (i : Core E) behind, accepts (before ++ i :: behind) -> (accepts (before ++ behind) <-> can_remove (kind_of i) = true).
Proof. intros E. exact remove_iff. Qed.
Print Assumptions C132_remove.

(** In the sample module, a name can be added after the name only up to the variable, an instruction of a block only in the blocks. *)
Example C132_example : accepts layout_sample /\ neighbours_fit layout_sample = true
  /\ (let fits i n := can_add (firstn n layout_sample) i (skipn n layout_sample) in
      let name : Core Inst := Core_OpName (Build_OpName 9%N "x"%string) in let nop : Core Inst := Core_OpNop Build_OpNop in
      ~ fits name 1 /\ fits name 2 /\ fits name 3 /\ ~ fits name 4 /\ ~ fits nop 8 /\ fits nop 9 /\ fits nop 10 /\ ~ fits nop 11)
  /\ map (fun i => can_remove (kind_of i)) (firstn 12 layout_sample) = [true; false; true; true; false; true; false; false; false; true; true; false].
Proof.
  split; [intros v g b; eexists; vm_compute; reflexivity|]. split; [reflexivity|]. split; [|reflexivity].
  intros fits name nop. subst fits. cbv beta.
  split; [intros [_ X]; cbn in X; inversion X as [|? ? Y]; cbn in Y; repeat (apply le_S_n in Y); inversion Y|].
  split; [split; repeat constructor|]. split; [split; repeat constructor|].
  split; [intros [X _]; cbn in X; do 3 (apply Forall_inv_tail in X); apply Forall_inv in X; cbn in X; repeat (apply le_S_n in X); inversion X|].
  split; [intros [X|X]; discriminate X|]. split; [left; reflexivity|]. split; [right; reflexivity|]. intros [X|X]; discriminate X.
Qed.
