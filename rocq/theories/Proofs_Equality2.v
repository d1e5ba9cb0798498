(** What equal modules have in common (C73-C75). *)
From Verif Require Import Base Types Ops ReadErr Groups Validate ControlFlow Glsl450 EqBase Equality EqMore Spec_Layout Spec_Equality Proofs_Layout Proofs_Layout2 Proofs_Equality.

Lemma eq_Vec_Forall2 : forall {A} (eq : A -> A -> bool) a b, eq_Vec eq a b = true <-> Forall2 (fun x y => eq x y = true) a b.
Proof.
  intros A eq a. induction a as [|x a IH]; intros [|y b]; cbn.
  - split; [constructor|reflexivity].
  - split; [discriminate|intros H; inversion H].
  - split; [discriminate|intros H; inversion H].
  - fold (eq_Vec eq). rewrite andb_true_iff, IH. split; [intros [H1 H2]; constructor; assumption|intros H; inversion H; subst; split; assumption].
Qed.

Lemma eq_Vec_app : forall {A} (eq : A -> A -> bool) a a' b b', length a = length b ->
  eq_Vec eq (a ++ a') (b ++ b') = eq_Vec eq a b && eq_Vec eq a' b'.
Proof.
  intros A eq a. induction a as [|x a IH]; intros a' [|y b] b' L; try discriminate; [reflexivity|].
  cbn. fold (eq_Vec eq). injection L as L. rewrite (IH a' b b' L). apply andb_assoc.
Qed.

Lemma eq_Vec_map : forall {A B} (eq : B -> B -> bool) (eq' : A -> A -> bool) (f : A -> B), (forall x y, eq (f x) (f y) = eq' x y) ->
  forall a b, eq_Vec eq (map f a) (map f b) = eq_Vec eq' a b.
Proof.
  intros A B eq eq' f H a. induction a as [|x a IH]; intros [|y b]; try reflexivity.
  cbn. fold (eq_Vec eq). fold (eq_Vec eq'). rewrite H, IH. reflexivity.
Qed.

Lemma Forall2_impl : forall {A B} (P Q : A -> B -> Prop), (forall x y, P x y -> Q x y) -> forall a b, Forall2 P a b -> Forall2 Q a b.
Proof. intros A B P Q H a b F. induction F; constructor; auto. Qed.
Lemma Forall2_iff : forall {A B} (P Q : A -> B -> Prop), (forall x y, P x y <-> Q x y) -> forall a b, Forall2 P a b <-> Forall2 Q a b.
Proof. intros A B P Q H a b. split; apply Forall2_impl; intros x y; apply H. Qed.

Section Raw.
Context {E : Type} (eq_ext : E -> E -> bool).
Notation R := (fun x y => eq_ext x y = true).

Lemma eq_OpExtInst_iff : forall a b, eq_OpExtInst eq_ext a b = true <-> exists t i s x y,
  a = Build_OpExtInst t i s x /\ b = Build_OpExtInst t i s y /\ R x y.
Proof.
  intros [t i s x] [t' i' s' y]. unfold eq_OpExtInst. cbn [OpExtInst_result_type OpExtInst_result_id OpExtInst_set OpExtInst_instruction]. rewrite !andb_true_iff, !N.eqb_eq. split.
  - intros [[[-> ->] ->] H]. exists t', i', s', x, y. repeat split. exact H.
  - intros (t0 & i0 & s0 & x0 & y0 & [= -> -> -> ->] & [= -> -> -> ->] & H). repeat split. exact H.
Qed.

Lemma eq_Core_refl : forall c : Core E, (forall op, c <> Core_OpExtInst op) -> eq_Core eq_ext c c = true.
Proof.
  intros c N. destruct c; cbn [eq_Core]; try (apply exact_iff; reflexivity). exfalso. exact (N _ eq_refl).
Qed.

Lemma eq_Core_alike : forall c d, eq_Core eq_ext c d = true <-> alike R c d.
Proof.
  intros c d. split.
  - intros H. destruct c, d; try discriminate H; cbn [eq_Core] in H;
    try (rewrite exact_iff in H; subst; apply alike_same; intros ? Q; discriminate Q).
    apply eq_OpExtInst_iff in H. destruct H as (t & i & s & x & y & -> & -> & H). apply alike_ext. exact H.
  - intros H. destruct H as [t i s x y H|c N].
    + cbn [eq_Core]. apply eq_OpExtInst_iff. exists t, i, s, x, y. repeat split. exact H.
    + apply eq_Core_refl. exact N.
Qed.

Lemma eq_cores : forall a b, eq_Vec (eq_Core eq_ext) a b = true <-> Forall2 (alike R) a b.
Proof. intros a b. rewrite eq_Vec_Forall2. apply Forall2_iff. apply eq_Core_alike. Qed.

Lemma eq_RawModule_iff : forall a b, eq_RawModule eq_ext a b = true <-> same_header a b /\ same_instructions R a b.
Proof.
  intros a b. unfold eq_RawModule, same_header, same_instructions. rewrite !andb_true_iff, eq_cores.
  rewrite (exact_iff (RawModule_version a)), (exact_iff (RawModule_generator a)), (exact_iff (RawModule_bound a)). tauto.
Qed.

(** ** Logical modules *)
Lemma eq_code : forall x y, eq_Core eq_ext (core_of_code x) (core_of_code y) = eq_GroupCode eq_ext x y.
Proof. intros x y. destruct x, y; reflexivity. Qed.
Lemma eq_debug : forall x y, eq_Core eq_ext (core_of_debug x) (core_of_debug y) = eq_GroupDebug x y.
Proof. intros x y. destruct x, y; reflexivity. Qed.
Lemma eq_annotation : forall x y, eq_Core eq_ext (core_of_annotation x) (core_of_annotation y) = eq_GroupAnnotation x y.
Proof. intros x y. destruct x, y; reflexivity. Qed.
Lemma eq_global : forall x y, eq_Core eq_ext (core_of_global x) (core_of_global y) = eq_GroupGlobal x y.
Proof. intros x y. destruct x as [x|x|x], y as [y|y|y]; try reflexivity; destruct x; try destruct y; reflexivity. Qed.
Lemma eq_merge : forall x y, eq_Core eq_ext (core_of_merge x) (core_of_merge y) = eq_GroupMerge x y.
Proof. intros x y. destruct x, y; reflexivity. Qed.
Lemma eq_branch : forall x y, eq_Core eq_ext (core_of_branch x) (core_of_branch y) = eq_GroupBranch x y.
Proof. intros x y. destruct x, y; reflexivity. Qed.

Lemma eq_cons : forall {A} (eq : A -> A -> bool) x a y b, eq_Vec eq (x :: a) (y :: b) = eq x y && eq_Vec eq a b.
Proof. reflexivity. Qed.

Lemma eq_block : forall x y, block_shape x = block_shape y -> eq_Vec (eq_Core eq_ext) (write_block x) (write_block y) = eq_BasicBlock eq_ext x y.
Proof.
  intros [l c m t] [l' c' m' t'] S. unfold block_shape in S. cbn in S. injection S as L M.
  unfold write_block, eq_BasicBlock. cbn. fold (eq_Vec (eq_Core eq_ext)).
  rewrite eq_Vec_app by (rewrite !map_length; exact L). rewrite (eq_Vec_map _ _ _ eq_code).
  destruct m as [m|], m' as [m'|]; try discriminate M; cbn; rewrite ?eq_merge, eq_branch, ?andb_true_r, ?andb_assoc; reflexivity.
Qed.

Lemma block_length : forall x y : BasicBlock E, block_shape x = block_shape y -> length (write_block x) = length (write_block y).
Proof.
  intros [l c m t] [l' c' m' t'] S. unfold block_shape in S. cbn in S. injection S as L M.
  unfold write_block. cbn. rewrite !app_length, !map_length, L. destruct m, m'; try discriminate M; reflexivity.
Qed.

Lemma flat_length : forall {A B} (f : A -> list B) {S} (shape : A -> S), (forall x y, shape x = shape y -> length (f x) = length (f y)) ->
  forall a b, map shape a = map shape b -> length (flat_map f a) = length (flat_map f b).
Proof.
  intros A B f S shape H a. induction a as [|x a IH]; intros [|y b] M; try discriminate M; [reflexivity|].
  injection M as M1 M2. cbn. rewrite !app_length. rewrite (H _ _ M1), (IH _ M2). reflexivity.
Qed.

Lemma flat_eq : forall {A B} (eq : B -> B -> bool) (eq' : A -> A -> bool) (f : A -> list B) {S} (shape : A -> S),
  (forall x y, shape x = shape y -> length (f x) = length (f y)) ->
  (forall x y, shape x = shape y -> eq_Vec eq (f x) (f y) = eq' x y) ->
  forall a b, map shape a = map shape b -> eq_Vec eq (flat_map f a) (flat_map f b) = eq_Vec eq' a b.
Proof.
  intros A B eq eq' f S shape L H a. induction a as [|x a IH]; intros [|y b] M; try discriminate M; [reflexivity|].
  injection M as M1 M2. cbn [flat_map]. rewrite eq_Vec_app by (apply L; exact M1). rewrite (H _ _ M1), (IH _ M2). reflexivity.
Qed.

Definition declaration_shape (d : FunctionDeclaration) : nat := length (FunctionDeclaration_parameters d).
Definition definition_shape (d : FunctionDefinition E) : nat * list (nat * bool) :=
  (length (FunctionDefinition_parameters d), map block_shape (FunctionDefinition_blocks d)).

Lemma declaration_length : forall x y, declaration_shape x = declaration_shape y -> length (write_declaration (E := E) x) = length (write_declaration (E := E) y).
Proof. intros [f p] [f' p'] S. unfold declaration_shape in S. cbn in *. rewrite !app_length, !map_length, S. reflexivity. Qed.
Lemma eq_declaration : forall x y, declaration_shape x = declaration_shape y ->
  eq_Vec (eq_Core eq_ext) (write_declaration x) (write_declaration y) = eq_FunctionDeclaration x y.
Proof.
  intros [f p] [f' p'] S. unfold declaration_shape in S. cbn in S. unfold write_declaration, eq_FunctionDeclaration. cbn. fold (eq_Vec (eq_Core eq_ext)).
  rewrite eq_Vec_app by (rewrite !map_length; exact S). rewrite (eq_Vec_map _ eq_OpFunctionParameter) by reflexivity. cbn. rewrite andb_true_r. reflexivity.
Qed.
Lemma definition_length : forall x y, definition_shape x = definition_shape y -> length (write_definition x) = length (write_definition y).
Proof.
  intros [f p b] [f' p' b'] S. unfold definition_shape in S. cbn in *. injection S as L M.
  rewrite !app_length, !map_length, L, (flat_length write_block block_shape block_length b b' M). reflexivity.
Qed.
Lemma eq_definition : forall x y, definition_shape x = definition_shape y ->
  eq_Vec (eq_Core eq_ext) (write_definition x) (write_definition y) = eq_FunctionDefinition eq_ext x y.
Proof.
  intros [f p b] [f' p' b'] S. unfold definition_shape in S. cbn in S. injection S as L M.
  unfold write_definition, eq_FunctionDefinition. cbn. fold (eq_Vec (eq_Core eq_ext)).
  rewrite eq_Vec_app by (rewrite !map_length; exact L). rewrite (eq_Vec_map _ eq_OpFunctionParameter) by reflexivity.
  rewrite eq_Vec_app by (exact (flat_length write_block block_shape block_length b b' M)).
  rewrite (flat_eq _ _ write_block block_shape block_length eq_block b b' M). cbn. rewrite andb_true_r, andb_assoc. reflexivity.
Qed.

Lemma eq_written : forall x y, shape_of x = shape_of y -> eq_Vec (eq_Core eq_ext) (write_module x) (write_module y) = eq_LogicalModule eq_ext x y.
Proof.
  intros x y S. unfold shape_of in S. injection S as H1 H2 H3 H4 H5 H6 H7 H8 H9 H10. unfold write_module, eq_LogicalModule.
  repeat (rewrite eq_Vec_app by (rewrite ?map_length; first [assumption | reflexivity | exact (flat_length _ declaration_shape declaration_length _ _ H9)])).
  rewrite (eq_Vec_map _ eq_Capability) by reflexivity. rewrite (eq_Vec_map _ String.eqb) by reflexivity.
  rewrite (eq_Vec_map _ eq_OpExtInstImport) by reflexivity. rewrite (eq_Vec_map _ eq_OpEntryPoint) by reflexivity.
  rewrite (eq_Vec_map _ eq_OpExecutionMode) by reflexivity.
  rewrite (eq_Vec_map _ _ _ eq_debug), (eq_Vec_map _ _ _ eq_annotation), (eq_Vec_map _ _ _ eq_global).
  rewrite (flat_eq _ _ _ declaration_shape declaration_length eq_declaration _ _ H9).
  rewrite (flat_eq _ _ _ definition_shape definition_length eq_definition _ _ H10).
  cbn [eq_Vec eq_Core]. rewrite ?andb_true_r, ?andb_assoc. reflexivity.
Qed.

(** Equal logical modules have the same shape. *)
Lemma eq_Vec_length : forall {A} (eq : A -> A -> bool) a b, eq_Vec eq a b = true -> length a = length b.
Proof. intros A eq a b H. apply eq_Vec_Forall2 in H. induction H as [|x y a b _ _ IH]; [reflexivity|]. cbn. rewrite IH. reflexivity. Qed.
Lemma eq_Vec_shape : forall {A} (eq : A -> A -> bool) {S} (shape : A -> S), (forall x y, eq x y = true -> shape x = shape y) ->
  forall a b, eq_Vec eq a b = true -> map shape a = map shape b.
Proof. intros A eq S shape H a b F. apply eq_Vec_Forall2 in F. induction F; [reflexivity|]. cbn. rewrite (H _ _ H0), IHF. reflexivity. Qed.

Lemma shape_block : forall x y, eq_BasicBlock eq_ext x y = true -> block_shape x = block_shape y.
Proof.
  intros x y H. unfold eq_BasicBlock in H. rewrite !andb_true_iff in H. destruct H as [[[_ H] M] _]. unfold block_shape.
  rewrite (eq_Vec_length _ _ _ H). apply (exact_iff (eq := eq_Option eq_GroupMerge)) in M. rewrite M. reflexivity.
Qed.
Lemma shape_definition : forall x y, eq_FunctionDefinition eq_ext x y = true -> definition_shape x = definition_shape y.
Proof.
  intros x y H. unfold eq_FunctionDefinition in H. rewrite !andb_true_iff in H. destruct H as [[_ P] B]. unfold definition_shape.
  rewrite (eq_Vec_length _ _ _ P), (eq_Vec_shape _ _ shape_block _ _ B). reflexivity.
Qed.
Lemma shape_module : forall x y, eq_LogicalModule eq_ext x y = true -> shape_of x = shape_of y.
Proof.
  intros x y H. unfold eq_LogicalModule in H. rewrite !andb_true_iff in H. decompose [and] H. unfold shape_of.
  repeat match goal with H : eq_Vec (eq_FunctionDefinition _) _ _ = true |- _ => apply (eq_Vec_shape _ _ shape_definition) in H
    | H : eq_Vec eq_FunctionDeclaration _ _ = true |- _ => apply (exact_iff (eq := eq_Vec eq_FunctionDeclaration)) in H
    | H : eq_Vec _ _ _ = true |- _ => apply eq_Vec_length in H end.
  unfold definition_shape in *. f_equal; try assumption. f_equal. assumption.
Qed.

Lemma alike_kind : forall c d, alike R c d -> same_kind c d.
Proof.
  intros c d H. destruct H as [t i s x y H|c N].
  - split; [reflexivity|]. intros v w Q. discriminate Q.
  - split; [reflexivity|]. intros v w -> [= <-]. reflexivity.
Qed.

Lemma validate_equal : forall a b, same_instructions R a b ->
  match validate a, validate b with
  | Ok la, Ok lb => eq_LogicalModule eq_ext la lb = true
  | Err ea, Err eb => ea = eb
  | _, _ => False
  end.
Proof.
  intros a b H. pose proof (same_kinds a b) as K. unfold same_instructions in H.
  specialize (K (Forall2_impl _ _ alike_kind _ _ H)).
  destruct (validate a) as [la| | |] eqn:Va, (validate b) as [lb| | |] eqn:Vb; try exact K.
  apply validate_iff in Va. apply validate_iff in Vb. destruct Va as [Wa _], Vb as [Wb _].
  rewrite Wa, Wb in H. apply eq_cores in H. rewrite <- (eq_written la lb K). exact H.
Qed.

Lemma equal_logical : forall a b la lb, validate a = Ok la -> validate b = Ok lb ->
  (eq_LogicalModule eq_ext la lb = true <-> same_instructions R a b).
Proof.
  intros a b la lb Va Vb. split.
  - intros H. unfold same_instructions. apply validate_iff in Va. apply validate_iff in Vb. destruct Va as [-> _], Vb as [-> _].
    apply eq_cores. rewrite (eq_written la lb (shape_module la lb H)). exact H.
  - intros H. pose proof (validate_equal a b H) as K. rewrite Va, Vb in K. exact K.
Qed.
End Raw.
