(** Control flow of renumbered files, C136. *)
From Verif Require Import Base Types Ops Groups ReadErr ExtSet Reader Validate ControlFlow Spec_Tables Spec_Wire Spec_Layout Spec_Flow Spec_Invariance Spec_Renumber
  Proofs_Layout Proofs_Layout2 Proofs_Invariance.

Ltac r_core := first [reflexivity | match goal with |- context [?c ?y] => is_var y; destruct y; reflexivity end].
Ltac r_glob := match goal with C : canonical_global (_ (_ ?y)) |- _ => destruct y end; split; [reflexivity|exact I].
Ltac r_cod := match goal with C : canonical_code (_ ?y) |- _ => destruct y end; split; [reflexivity|exact I].

Section Flow.
Context {E : Type} (f : N -> N) (g : E -> E).
Notation R := (renumber f g).
Definition r_import (x : OpExtInstImport) := match R (Core_OpExtInstImport x) with Core_OpExtInstImport y => y | _ => x end.
Definition r_entry (x : OpEntryPoint) := match R (Core_OpEntryPoint x) with Core_OpEntryPoint y => y | _ => x end.
Definition r_exec (x : OpExecutionMode) := match R (Core_OpExecutionMode x) with Core_OpExecutionMode y => y | _ => x end.
Definition r_debug (x : GroupDebug) := match from_Core (R (core_of_debug x)) with OpByBlock_GroupDebug y => y | _ => x end.
Definition r_annotation (x : GroupAnnotation) := match from_Core (R (core_of_annotation x)) with OpByBlock_GroupAnnotation y => y | _ => x end.
Definition r_global (x : GroupGlobal) := match from_Core (R (core_of_global x)) with OpByBlock_GroupGlobal y => y | _ => x end.
Definition r_code (x : GroupCode E) := match from_Core (R (core_of_code x)) with OpByBlock_GroupCode y => y | _ => x end.
Definition r_merge (x : GroupMerge) := match from_Core (R (core_of_merge x)) with OpByBlock_GroupMerge y => y | _ => x end.
Definition r_branch (x : GroupBranch) := match from_Core (R (core_of_branch x)) with OpByBlock_GroupBranch y => y | _ => x end.
Definition r_label (x : OpLabel) := match R (Core_OpLabel x) with Core_OpLabel y => y | _ => x end.
Definition r_function (x : OpFunction) := match R (Core_OpFunction x) with Core_OpFunction y => y | _ => x end.
Definition r_parameter (x : OpFunctionParameter) := match R (Core_OpFunctionParameter x) with Core_OpFunctionParameter y => y | _ => x end.
Definition r_block (b : BasicBlock E) := Build_BasicBlock (r_label (BasicBlock_label b)) (map r_code (BasicBlock_code b)) (option_map r_merge (BasicBlock_merge b)) (r_branch (BasicBlock_branch b)).
Definition r_declaration (d : FunctionDeclaration) := Build_FunctionDeclaration (r_function (FunctionDeclaration_function d)) (map r_parameter (FunctionDeclaration_parameters d)).
Definition r_definition (d : FunctionDefinition E) := Build_FunctionDefinition (r_function (FunctionDefinition_function d)) (map r_parameter (FunctionDefinition_parameters d)) (map r_block (FunctionDefinition_blocks d)).
Definition r_module (lm : LogicalModule E) : LogicalModule E :=
  Build_LogicalModule (LogicalModule_capabilities lm) (LogicalModule_extensions lm) (map r_import (LogicalModule_ext_inst_imports lm)) (LogicalModule_memory_model lm)
    (map r_entry (LogicalModule_entry_points lm)) (map r_exec (LogicalModule_execution_modes lm)) (map r_debug (LogicalModule_debug lm)) (map r_annotation (LogicalModule_annotations lm))
    (map r_global (LogicalModule_globals lm)) (map r_declaration (LogicalModule_function_declarations lm)) (map r_definition (LogicalModule_function_definitions lm)).

Lemma r_global_core : forall x, canonical_global x -> core_of_global (r_global x) = R (core_of_global x) /\ canonical_global (r_global x).
Proof.
  intros [t|c|v] C; [destruct t; r_glob|destruct c; r_glob|].
  destruct v as [t r class init]. cbn in C. unfold function_variable in C. cbn in C. unfold r_global. cbn. destruct class; try (exfalso; apply C; reflexivity); cbn; (split; [reflexivity|]); unfold function_variable; cbn; discriminate.
Qed.
Lemma r_code_core : forall x : GroupCode E, canonical_code x -> core_of_code (r_code x) = R (core_of_code x) /\ canonical_code (r_code x).
Proof.
  intros x C. destruct x; try r_cod.
  match goal with v : OpVariable |- _ => rename v into x end.
  destruct x as [t r class init]. cbn in C. unfold function_variable in C. cbn in C. subst class. split; reflexivity.
Qed.
Lemma r_map : forall A (h : A -> A) (c : A -> Core E) l, (forall x, c (h x) = R (c x)) -> map c (map h l) = map R (map c l).
Proof. intros A h c l H. rewrite !map_map. apply map_ext. exact H. Qed.
Lemma r_map_in : forall A (P : A -> Prop) (h : A -> A) (c : A -> Core E) l, Forall P l -> (forall x, P x -> c (h x) = R (c x)) -> map c (map h l) = map R (map c l).
Proof. intros A P h c l F H. induction F as [|x l X F IH]; [reflexivity|]. cbn. rewrite IH, (H x X). reflexivity. Qed.
Lemma r_flat : forall A (P : A -> Prop) (h : A -> A) (w : A -> list (Core E)) l, Forall P l -> (forall x, P x -> w (h x) = map R (w x)) -> flat_map w (map h l) = map R (flat_map w l).
Proof. intros A P h w l F H. induction F as [|x l X F IH]; [reflexivity|]. cbn. rewrite map_app, IH, (H x X). reflexivity. Qed.
Lemma r_write_block : forall b, canonical_block b -> write_block (r_block b) = map R (write_block b).
Proof.
  intros [label code merge branch] C. unfold write_block, r_block. cbn [BasicBlock_label BasicBlock_code BasicBlock_merge BasicBlock_branch map]. rewrite !map_app.
  rewrite (r_map_in _ canonical_code) by (first [exact C | intros x X; apply r_code_core; exact X]). f_equal; [destruct label; reflexivity|]. f_equal. f_equal.
  - destruct merge as [[x|x]|]; try destruct x; reflexivity.
  - destruct branch as [x|x|x]; destruct x; reflexivity.
Qed.
Lemma r_write_definition : forall d, canonical_definition d -> write_definition (r_definition d) = map R (write_definition d).
Proof.
  intros [fn ps bs] C. unfold write_definition, r_definition. cbn [FunctionDefinition_function FunctionDefinition_parameters FunctionDefinition_blocks map]. rewrite !map_app.
  rewrite (r_map _ r_parameter) by (intros []; reflexivity). rewrite (r_flat _ canonical_block r_block) by (first [exact C | exact r_write_block]). f_equal. destruct fn; reflexivity.
Qed.
Lemma r_write_declaration : forall d, write_declaration (r_declaration d) = map R (write_declaration d).
Proof.
  intros [fn ps]. unfold write_declaration, r_declaration. cbn [FunctionDeclaration_function FunctionDeclaration_parameters map]. rewrite !map_app.
  rewrite (r_map _ r_parameter) by (intros []; reflexivity). f_equal. destruct fn; reflexivity.
Qed.
Lemma r_write_module : forall lm, canonical lm -> write_module (r_module lm) = map R (write_module lm).
Proof.
  intros lm (C1 & C2 & _). unfold write_module. cbn [r_module LogicalModule_capabilities LogicalModule_extensions LogicalModule_ext_inst_imports LogicalModule_memory_model LogicalModule_entry_points
    LogicalModule_execution_modes LogicalModule_debug LogicalModule_annotations LogicalModule_globals LogicalModule_function_declarations LogicalModule_function_definitions]. rewrite !map_app.
  rewrite (r_map _ r_import) by (intros []; reflexivity). rewrite (r_map _ r_entry) by (intros []; reflexivity). rewrite (r_map _ r_exec) by (intros []; reflexivity).
  rewrite (r_map _ r_debug) by (intros x; destruct x; r_core). rewrite (r_map _ r_annotation) by (intros x; destruct x; r_core).
  rewrite (r_map_in _ canonical_global r_global) by (first [exact C1 | intros x X; apply r_global_core; exact X]).
  rewrite (r_flat _ (fun _ => True) r_declaration) by (first [apply Forall_forall; intros; exact I | intros x _; apply r_write_declaration]).
  rewrite (r_flat _ canonical_definition r_definition) by (first [exact C2 | exact r_write_definition]).
  rewrite !map_map. reflexivity.
Qed.
Lemma r_canonical : forall lm, canonical lm -> canonical (r_module lm).
Proof.
  intros lm (C1 & C2 & C3). split; [|split].
  - cbn [r_module LogicalModule_globals]. rewrite Forall_map. eapply Forall_impl; [|exact C1]. intros x X. apply r_global_core. exact X.
  - cbn [r_module LogicalModule_function_definitions]. rewrite Forall_map. eapply Forall_impl; [|exact C2]. intros d X. unfold canonical_definition, r_definition in *. cbn [FunctionDefinition_blocks].
    rewrite Forall_map. eapply Forall_impl; [|exact X]. intros b B. unfold canonical_block, r_block in *. cbn [BasicBlock_code]. rewrite Forall_map. eapply Forall_impl; [|exact B]. intros c K. apply r_code_core. exact K.
  - cbn [r_module LogicalModule_function_definitions]. destruct (LogicalModule_function_definitions lm) as [|d ds]; [exact I|]. cbn. intros X. apply C3. destruct (FunctionDefinition_blocks d); [reflexivity|discriminate X].
Qed.
Theorem validate_renumbered : forall m lm, validate m = Ok lm -> validate (renumbered f g m) = Ok (r_module lm).
Proof.
  intros m lm V. apply validate_iff in V as [W C]. apply validate_iff. split; [|exact (r_canonical lm C)]. unfold renumbered. cbn [with_instructions RawModule_instructions]. rewrite W. symmetry. exact (r_write_module lm C).
Qed.
Lemma r_skeletons : forall d, map skeleton (FunctionDefinition_blocks (r_definition d)) = map (rename_skeleton f) (map skeleton (FunctionDefinition_blocks d)).
Proof.
  intros d. cbn [r_definition FunctionDefinition_blocks]. rewrite !map_map. apply map_ext. intros [[label] code merge branch].
  destruct merge as [[x|x]|]; try destruct x; destruct branch as [y|y|y]; destruct y; reflexivity.
Qed.
Theorem flow_renumbered : forall m lm, validate m = Ok lm -> injective f -> exists lm', validate (renumbered f g m) = Ok lm'
  /\ Forall2 (fun d d' => forall depth, find_control_flow depth d' = rename_result f (find_control_flow depth d)) (LogicalModule_function_definitions lm) (LogicalModule_function_definitions lm').
Proof.
  intros m lm V J. exists (r_module lm). split; [exact (validate_renumbered m lm V)|]. cbn [r_module LogicalModule_function_definitions].
  induction (LogicalModule_function_definitions lm) as [|d ds IH]; [constructor|]. cbn [map]. constructor; [|exact IH]. intros depth. apply find_rename; [apply r_skeletons|]. intros a b _ _ X. exact (J a b X).
Qed.
End Flow.
