(** Instruction lists in another order, C130. *)
From Verif Require Import Base Types Ops Groups Validate Glsl450 Samples Spec_Tables Spec_Layout Proofs_Layout Proofs_Layout2 Spec_Order.

Section Order.
Context {E : Type}.
Notation ob := (OpByBlock E).
Implicit Types (m : RawModule E) (lm : LogicalModule E) (i j : Core E).

(** ** Picking the parts out of an instruction list *)
Definition picks {T} (pick : ob -> option T) (l : list ob) : list T := flat_map (fun o => match pick o with Some x => [x] | None => [] end) l.
Lemma picks_app : forall T (pick : ob -> option T) l l', picks pick (l ++ l') = picks pick l ++ picks pick l'.
Proof. intros. apply flat_map_app. Qed.
Lemma picks_inj : forall T (pick : ob -> option T) (inj : T -> ob), (forall x, pick (inj x) = Some x) -> forall l, picks pick (map inj l) = l.
Proof. intros T pick inj H l. induction l as [|x l IH]; [reflexivity|]. unfold picks in *. cbn [map flat_map]. rewrite H, IH. reflexivity. Qed.
Lemma picks_none : forall T U (pick : ob -> option T) (f : U -> ob), (forall x, pick (f x) = None) -> forall l, picks pick (map f l) = [].
Proof. intros T U pick f H l. induction l as [|x l IH]; [reflexivity|]. unfold picks in *. cbn [map flat_map]. rewrite H, IH. reflexivity. Qed.
Lemma picks_flat : forall T U (pick : ob -> option T) (f : U -> list ob), (forall x, picks pick (f x) = []) -> forall l, picks pick (flat_map f l) = [].
Proof. intros T U pick f H l. induction l as [|x l IH]; [reflexivity|]. cbn [flat_map]. rewrite picks_app, H, IH. reflexivity. Qed.

Definition pick_memory (o : ob) := match o with OpByBlock_OpMemoryModel op => Some op | _ => None end.
Definition pick_function (o : ob) := match o with OpByBlock_OpFunction op => Some op | _ => None end.
(** None of the instructions of a block, nor the parameters and the end of a function. *)
Definition outside {T} (pick : ob -> option T) : Prop := forall o, match o with
  | OpByBlock_OpLabel _ | OpByBlock_GroupCode _ | OpByBlock_GroupMerge _ | OpByBlock_GroupBranch _ | OpByBlock_OpFunctionParameter _ | OpByBlock_OpFunctionEnd _ => pick o = None
  | _ => True end.
Lemma picks_block : forall T (pick : ob -> option T), outside pick -> forall b, picks pick (obs_block b) = [].
Proof.
  intros T pick O b. unfold obs_block. change (picks pick ([OpByBlock_OpLabel (BasicBlock_label b)] ++ map OpByBlock_GroupCode (BasicBlock_code b)
    ++ match BasicBlock_merge b with None => [] | Some x => [OpByBlock_GroupMerge x] end ++ [OpByBlock_GroupBranch (BasicBlock_branch b)]) = []).
  rewrite !picks_app, (picks_none _ _ pick OpByBlock_GroupCode) by (intros x; exact (O (OpByBlock_GroupCode x))).
  unfold picks. cbn [flat_map app]. rewrite (O (OpByBlock_OpLabel _)), (O (OpByBlock_GroupBranch _)).
  destruct (BasicBlock_merge b); cbn [flat_map app]; [rewrite (O (OpByBlock_GroupMerge _))|]; reflexivity.
Qed.
Lemma picks_decl : forall T (pick : ob -> option T), outside pick -> forall d,
  picks pick (obs_decl d) = picks pick [OpByBlock_OpFunction (FunctionDeclaration_function d)].
Proof.
  intros T pick O d. unfold obs_decl. change (picks pick ([OpByBlock_OpFunction (FunctionDeclaration_function d)]
    ++ map OpByBlock_OpFunctionParameter (FunctionDeclaration_parameters d) ++ [OpByBlock_OpFunctionEnd Build_OpFunctionEnd]) = picks pick [OpByBlock_OpFunction (FunctionDeclaration_function d)]).
  rewrite !picks_app, (picks_none _ _ pick OpByBlock_OpFunctionParameter) by (intros x; exact (O (OpByBlock_OpFunctionParameter x))).
  unfold picks. cbn [flat_map app]. rewrite (O (OpByBlock_OpFunctionEnd _)). rewrite !app_nil_r. reflexivity.
Qed.
Lemma picks_def : forall T (pick : ob -> option T), outside pick -> forall d,
  picks pick (obs_def d) = picks pick [OpByBlock_OpFunction (FunctionDefinition_function d)].
Proof.
  intros T pick O d. unfold obs_def. change (picks pick ([OpByBlock_OpFunction (FunctionDefinition_function d)]
    ++ map OpByBlock_OpFunctionParameter (FunctionDefinition_parameters d) ++ flat_map obs_block (FunctionDefinition_blocks d)
    ++ [OpByBlock_OpFunctionEnd Build_OpFunctionEnd]) = picks pick [OpByBlock_OpFunction (FunctionDefinition_function d)]).
  rewrite !picks_app, (picks_none _ _ pick OpByBlock_OpFunctionParameter) by (intros x; exact (O (OpByBlock_OpFunctionParameter x))).
  rewrite (picks_flat _ _ pick obs_block (picks_block _ pick O)).
  unfold picks. cbn [flat_map app]. rewrite (O (OpByBlock_OpFunctionEnd _)). rewrite !app_nil_r. reflexivity.
Qed.
(** A pick that does not see functions sees only the parts before them. *)
Lemma picks_module : forall T (pick : ob -> option T), outside pick -> (forall f, pick (OpByBlock_OpFunction f) = None) -> forall lm,
  picks pick (obs_module lm) = picks pick (map (fun c => OpByBlock_OpCapability (Build_OpCapability c)) (LogicalModule_capabilities lm))
    ++ picks pick (map (fun s => OpByBlock_OpExtension (Build_OpExtension s)) (LogicalModule_extensions lm))
    ++ picks pick (map OpByBlock_OpExtInstImport (LogicalModule_ext_inst_imports lm))
    ++ picks pick [OpByBlock_OpMemoryModel (LogicalModule_memory_model lm)]
    ++ picks pick (map OpByBlock_OpEntryPoint (LogicalModule_entry_points lm))
    ++ picks pick (map OpByBlock_OpExecutionMode (LogicalModule_execution_modes lm))
    ++ picks pick (map OpByBlock_GroupDebug (LogicalModule_debug lm))
    ++ picks pick (map OpByBlock_GroupAnnotation (LogicalModule_annotations lm))
    ++ picks pick (map OpByBlock_GroupGlobal (LogicalModule_globals lm)).
Proof.
  intros T pick O F lm. unfold obs_module. rewrite !picks_app.
  assert (X : forall d, picks pick (obs_decl d) = []) by (intros d; rewrite (picks_decl _ pick O); unfold picks; cbn [flat_map]; rewrite F; reflexivity).
  assert (Y : forall d, picks pick (obs_def d) = []) by (intros d; rewrite (picks_def _ pick O); unfold picks; cbn [flat_map]; rewrite F; reflexivity).
  rewrite (picks_flat _ _ pick obs_decl X), (picks_flat _ _ pick obs_def Y), !app_nil_r. reflexivity.
Qed.

Ltac part := intros lm; rewrite picks_module; [|intros []; exact I || reflexivity|reflexivity];
  repeat match goal with |- context [picks ?p (map ?f ?l)] => first
    [rewrite (picks_none _ _ p f (fun x => eq_refl) l) | rewrite (picks_inj _ p f (fun x => eq_refl) l)] end;
  cbn [picks flat_map pick_memory pick_capability pick_extension pick_import pick_entry pick_mode pick_debug pick_annotation pick_global app];
  rewrite ?app_nil_r; first [reflexivity | exact (picks_inj string pick_extension (fun s => OpByBlock_OpExtension (Build_OpExtension s)) (fun x => eq_refl) _)].
Lemma part_capability : forall lm, picks pick_capability (obs_module lm) = LogicalModule_capabilities lm.
Proof. part. Qed.
Lemma part_extension : forall lm, picks pick_extension (obs_module lm) = LogicalModule_extensions lm.
Proof. part. Qed.
Lemma part_import : forall lm, picks pick_import (obs_module lm) = LogicalModule_ext_inst_imports lm.
Proof. part. Qed.
Lemma part_memory : forall lm, picks pick_memory (obs_module lm) = [LogicalModule_memory_model lm].
Proof. part. Qed.
Lemma part_entry : forall lm, picks pick_entry (obs_module lm) = LogicalModule_entry_points lm.
Proof. part. Qed.
Lemma part_mode : forall lm, picks pick_mode (obs_module lm) = LogicalModule_execution_modes lm.
Proof. part. Qed.
Lemma part_debug : forall lm, picks pick_debug (obs_module lm) = LogicalModule_debug lm.
Proof. part. Qed.
Lemma part_annotation : forall lm, picks pick_annotation (obs_module lm) = LogicalModule_annotations lm.
Proof. part. Qed.
Lemma part_global : forall lm, picks pick_global (obs_module lm) = LogicalModule_globals lm.
Proof. part. Qed.

Lemma part_function : forall lm, picks pick_function (obs_module lm) = functions lm.
Proof.
  intros lm. unfold obs_module, functions. rewrite !picks_app.
  rewrite !(picks_none _ _ pick_function) by reflexivity. cbn [picks flat_map pick_function app].
  assert (O : outside pick_function) by (intros []; exact I || reflexivity). f_equal.
  - induction (LogicalModule_function_declarations lm) as [|d ds IH]; [reflexivity|]. cbn [flat_map map]. rewrite picks_app, (picks_decl _ pick_function O), IH. reflexivity.
  - induction (LogicalModule_function_definitions lm) as [|d ds IH]; [reflexivity|]. cbn [flat_map map]. rewrite picks_app, (picks_def _ pick_function O), IH. reflexivity.
Qed.

Theorem order_parts : forall m m' lm lm', Permutation (RawModule_instructions m) (RawModule_instructions m') -> validate m = Ok lm -> validate m' = Ok lm' ->
  same_parts lm lm' /\ Permutation (functions lm) (functions lm').
Proof.
  intros m m' lm lm' P V V'. apply validate_iff in V as [W C], V' as [W' C']. rewrite W, W' in P.
  apply (Permutation_map from_Core) in P. rewrite !obs_of_write in P by assumption.
  assert (G : forall T (pick : ob -> option T), Permutation (picks pick (obs_module lm)) (picks pick (obs_module lm'))) by (intros T pick; apply Permutation_flat_map; exact P).
  split; [constructor|].
  - rewrite <- !part_capability. apply G.
  - rewrite <- !part_extension. apply G.
  - rewrite <- !part_import. apply G.
  - pose proof (G _ pick_memory) as X. rewrite !part_memory in X. apply Permutation_length_1 in X. exact X.
  - rewrite <- !part_entry. apply G.
  - rewrite <- !part_mode. apply G.
  - rewrite <- !part_debug. apply G.
  - rewrite <- !part_annotation. apply G.
  - rewrite <- !part_global. apply G.
  - rewrite <- !part_function. apply G.
Qed.

Theorem reorder : forall m lm, validate m = Ok lm -> forall lm', same_parts lm lm' -> same_functions lm lm' ->
  Permutation (RawModule_instructions m) (write_module lm')
  /\ (validate (with_instructions m (write_module lm')) = Ok lm' <-> first_has_body lm').
Proof.
  intros m lm V lm' P [F1 F2]. apply validate_iff in V as [W (C1 & C2 & C3)]. split.
  - rewrite W. destruct P as [P1 P2 P3 P4 P5 P6 P7 P8 P9]. unfold write_module. rewrite P4.
    repeat (apply Permutation_app; [first [apply Permutation_map; assumption | apply Permutation_flat_map; assumption | reflexivity]|]).
    apply Permutation_flat_map. exact F2.
  - rewrite validate_iff. cbn [RawModule_instructions with_instructions]. unfold canonical, first_has_body. split; [intros (_ & _ & _ & H); exact H|].
    intros H. split; [reflexivity|]. split; [exact (Permutation_Forall (same_globals _ _ P) C1)|]. split; [exact (Permutation_Forall F2 C2)|exact H].
Qed.

Theorem swap : forall m before i j after_, kind_of i = kind_of j ->
  match validate (with_instructions m (before ++ i :: j :: after_)), validate (with_instructions m (before ++ j :: i :: after_)) with
  | Ok lm, Ok lm' => same_parts lm lm' /\ Permutation (functions lm) (functions lm')
  | Err e, Err e' => e = e'
  | _, _ => False
  end.
Proof.
  intros m l i j l' K.
  pose proof (validate_layout (with_instructions m (l ++ i :: j :: l'))) as L1. pose proof (validate_layout (with_instructions m (l ++ j :: i :: l'))) as L2.
  cbn [with_instructions RawModule_instructions] in L1, L2.
  assert (Q : map kind_of (l ++ j :: i :: l') = map kind_of (l ++ i :: j :: l')) by (rewrite !map_app; cbn [map]; rewrite K; reflexivity).
  rewrite Q in L2. destruct (layout (Before 0) 0 (map kind_of (l ++ i :: j :: l'))) as [e|].
  - unfold with_instructions in *. rewrite L1, L2. reflexivity.
  - destruct L1 as (lm & V1 & _), L2 as (lm' & V2 & _).
    pose proof (fun P => order_parts _ _ _ _ P V1 V2) as R. unfold with_instructions in *. rewrite V1, V2. apply R.
    cbn [RawModule_instructions]. apply Permutation_app_head. apply perm_swap.
Qed.
End Order.

(** ** What does not hold *)
(** The parameter of the declaration becomes one of the function after it. *)
Definition moved : list (Core Inst) := firstn 5 layout_sample ++ [Core_OpFunctionEnd Build_OpFunctionEnd; Core_OpFunction (Build_OpFunction 1%N 4%N control0 5%N);
  Core_OpFunctionParameter (Build_OpFunctionParameter 7%N 8%N)] ++ skipn 8 layout_sample.
Lemma moved_permutation : Permutation layout_sample moved.
Proof.
  unfold moved, layout_sample. cbn [firstn skipn app]. do 5 apply perm_skip.
  match goal with |- Permutation (?a :: ?b :: ?c :: ?l) (_ :: _ :: _ :: _) => apply (Permutation_trans (l' := b :: a :: c :: l)); [apply perm_swap|] end.
  apply perm_skip. apply perm_swap.
Qed.
Lemma functions_not_kept : ~ (forall E (m m' : RawModule E) lm lm', Permutation (RawModule_instructions m) (RawModule_instructions m') ->
  validate m = Ok lm -> validate m' = Ok lm' -> same_functions lm lm').
Proof.
  intros H. assert (X : exists lm lm', validate (module_of layout_sample) = Ok lm /\ validate (module_of moved) = Ok lm'
    /\ exists d d', LogicalModule_function_declarations lm = [d] /\ LogicalModule_function_declarations lm' = [d']
      /\ FunctionDeclaration_parameters d <> FunctionDeclaration_parameters d').
  { do 2 eexists. split; [vm_compute; reflexivity|]. split; [vm_compute; reflexivity|]. do 2 eexists. split; [reflexivity|]. split; [reflexivity|]. discriminate. }
  destruct X as (lm & lm' & V & V' & d & d' & D & D' & N). destruct (H _ (module_of layout_sample) (module_of moved) lm lm' moved_permutation V V') as [P _].
  rewrite D, D' in P. apply Permutation_length_1 in P. congruence.
Qed.
Lemma not_every_order : ~ (forall E (is is' : list (Core E)), Permutation is is' -> accepts is -> accepts is').
Proof.
  intros H. assert (A : accepts layout_sample) by (intros v g b; eexists; vm_compute; reflexivity).
  destruct (H _ _ _ (Permutation_rev layout_sample) A (Build_Version 1%N 0%N) (Build_Generator Tool_Valve 1%N) 21%N) as [lm V]. vm_compute in V. discriminate V.
Qed.
Lemma not_every_first : ~ (forall E (m : RawModule E) lm, validate m = Ok lm -> forall lm', same_parts lm lm' -> same_functions lm lm' ->
  validate (with_instructions m (write_module lm')) = Ok lm').
Proof.
  intros H.
  set (f d := Build_LogicalModule [Capability_Shader] [] [] (Build_OpMemoryModel AddressingModel_Logical MemoryModel_Glsl450) [] [] [] [] [] [] d : LogicalModule Inst).
  set (a := Build_FunctionDefinition (Build_OpFunction 1%N 4%N control0 5%N) [] [Build_BasicBlock (Build_OpLabel 10%N) [] None (GroupBranch_OpReturn Build_OpReturn)] : FunctionDefinition Inst).
  set (b := Build_FunctionDefinition (Build_OpFunction 1%N 20%N control0 6%N) [] [] : FunctionDefinition Inst).
  assert (V : validate (module_of (write_module (f [a; b]))) = Ok (f [a; b])) by (vm_compute; reflexivity).
  assert (P : same_parts (f [a; b]) (f [b; a])) by (constructor; cbn; reflexivity).
  pose proof (H _ _ _ V (f [b; a]) P (conj (Permutation_refl _) (perm_swap _ _ _))) as X. vm_compute in X. discriminate X.
Qed.
