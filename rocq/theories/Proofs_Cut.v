(** Instruction lists that are cut short or made longer, C128. *)
From Coq Require Import Lia.
From Verif Require Import Base Types Ops Groups Validate Spec_Tables Spec_Layout Proofs_Layout Proofs_Layout2 Spec_Cut.

(** ** Where the automaton is *)
Fixpoint go (s : state) (ks : list kind) : option state :=
  match ks with [] => Some s | k :: ks => match step s k with Some s' => go s' ks | None => None end end.
Lemma go_app : forall ks1 ks2 s, go s (ks1 ++ ks2) = match go s ks1 with Some s' => go s' ks2 | None => None end.
Proof. induction ks1 as [|k ks1 IH]; intros ks2 s; [reflexivity|]. cbn [app go]. destruct (step s k); [apply IH|reflexivity]. Qed.
Lemma layout_go : forall ks s n, layout s n ks = None <-> exists j, go s ks = Some (After j).
Proof.
  induction ks as [|k ks IH]; intros s n.
  - cbn. split; [destruct s; try discriminate; eauto|]. intros [j H]. injection H as ->. reflexivity.
  - split.
    + intros H. apply layout_step_none in H as (s' & S & H). cbn [go]. rewrite S. exact (proj1 (IH _ _) H).
    + cbn [go]. intros [j H]. destruct (step s k) as [s'|] eqn:S; [|discriminate H]. apply (layout_step_ok _ _ _ _ _ S). apply IH. eauto.
Qed.

Definition kcount (k : kind) (ks : list kind) : nat := length (filter (fun k' => match k, k' with
  | KMemoryModel, KMemoryModel | KFunction, KFunction | KFunctionEnd, KFunctionEnd => true | _, _ => false end) ks).
Definition place (s : state) (mm f e : nat) : Prop :=
  match s with Before _ => mm = 0 /\ f = 0 /\ e = 0 | After _ => mm = 1 /\ f = e | _ => mm = 1 /\ f = S e end.
Lemma step_place : forall s k s' mm f e, step s k = Some s' -> place s mm f e ->
  place s' (mm + kcount KMemoryModel [k]) (f + kcount KFunction [k]) (e + kcount KFunctionEnd [k]).
Proof.
  intros s k s' mm f e S P. destruct s, k; cbn in S; try discriminate S;
    try match type of S with (if ?b then _ else _) = _ => destruct b; [|discriminate S] end; injection S as <-; cbn in *; lia.
Qed.
Lemma go_place : forall ks s s' mm f e, go s ks = Some s' -> place s mm f e ->
  place s' (mm + kcount KMemoryModel ks) (f + kcount KFunction ks) (e + kcount KFunctionEnd ks).
Proof.
  induction ks as [|k ks IH]; intros s s' mm f e H P.
  - injection H as <-. cbn. rewrite !Nat.add_0_r. exact P.
  - cbn [go] in H. destruct (step s k) as [s1|] eqn:S; [|discriminate H]. pose proof (IH _ _ _ _ _ H (step_place _ _ _ _ _ _ S P)) as Q.
    assert (X : forall K, kcount K (k :: ks) = kcount K [k] + kcount K ks) by (intros K; unfold kcount; cbn [filter]; destruct K, k; reflexivity).
    rewrite !X, !Nat.add_assoc. exact Q.
Qed.

Section Cut.
Context {E : Type}.
Notation ob := (OpByBlock E).
Implicit Types (m : RawModule E) (lm : LogicalModule E).

Lemma kcount_many : forall K op, (forall i : Core E, (match K, kind_of i with
  | KMemoryModel, KMemoryModel | KFunction, KFunction | KFunctionEnd, KFunctionEnd => true | _, _ => false end) = N.eqb (opcode i) op) ->
  forall is : list (Core E), kcount K (map kind_of is) = how_many op is.
Proof.
  intros K op H. induction is as [|i is IH]; [reflexivity|]. unfold kcount, how_many in *. cbn [map filter]. rewrite H. destruct (N.eqb (opcode i) op); cbn [length]; congruence.
Qed.
Lemma kind14 : forall i : Core E, match kind_of i with KMemoryModel => true | _ => false end = N.eqb (opcode i) 14.
Proof. intros i. destruct i; try reflexivity. cbn. destruct (OpVariable_storage_class _); reflexivity. Qed.
Lemma kind54 : forall i : Core E, match kind_of i with KFunction => true | _ => false end = N.eqb (opcode i) 54.
Proof. intros i. destruct i; try reflexivity. cbn. destruct (OpVariable_storage_class _); reflexivity. Qed.
Lemma kind56 : forall i : Core E, match kind_of i with KFunctionEnd => true | _ => false end = N.eqb (opcode i) 56.
Proof. intros i. destruct i; try reflexivity. cbn. destruct (OpVariable_storage_class _); reflexivity. Qed.

Theorem cut_accepted : forall m lm, validate m = Ok lm -> forall start rest, RawModule_instructions m = start ++ rest ->
  (accepts start <-> complete start).
Proof.
  intros m lm V start rest Q. assert (L : valid (RawModule_instructions m)) by (apply valid_iff; eauto). unfold valid in L. apply layout_go in L as [j L].
  rewrite Q, map_app, go_app in L. destruct (go (Before 0) (map kind_of start)) as [s|] eqn:G; [|discriminate L].
  pose proof (go_place _ _ _ 0 0 0 G (conj eq_refl (conj eq_refl eq_refl))) as P.
  rewrite (kcount_many KMemoryModel 14) in P by (intros i; exact (kind14 i)).
  rewrite (kcount_many KFunction 54) in P by (intros i; exact (kind54 i)).
  rewrite (kcount_many KFunctionEnd 56) in P by (intros i; exact (kind56 i)). cbn [Nat.add] in P. unfold complete.
  assert (X : accepts start <-> exists j, s = After j).
  { split.
    - intros A. destruct (A (RawModule_version m) (RawModule_generator m) (RawModule_bound m)) as [lm' A']. assert (VV : valid start) by (apply (valid_iff (Build_RawModule (RawModule_version m) (RawModule_generator m) (RawModule_bound m) start)); eauto).
      unfold valid in VV. apply layout_go in VV as [j' VV]. rewrite G in VV. injection VV as ->. eauto.
    - intros [j' ->]. apply accepts_valid. unfold valid. apply layout_go. eauto. }
  rewrite X. clear X. split.
  - intros [j' ->]. exact P.
  - intros Y. destruct s; cbn [place] in P; try lia. eauto.
Qed.

(** ** Sections *)
Definition collect {T} (pick : ob -> option T) (l : list ob) : list T := flat_map (fun o => match pick o with Some x => [x] | None => [] end) l.
Lemma collect_app : forall {T} (pick : ob -> option T) l1 l2, collect pick (l1 ++ l2) = collect pick l1 ++ collect pick l2.
Proof. intros. apply flat_map_app. Qed.
Lemma collect_all : forall {T} (pick : ob -> option T) inj xs, (forall x, pick (inj x) = Some x) -> collect pick (map inj xs) = xs.
Proof. intros T pick inj xs H. induction xs as [|x xs IH]; [reflexivity|]. cbn. rewrite H. cbn. f_equal. exact IH. Qed.
Lemma collect_none : forall {T U} (pick : ob -> option T) (inj : U -> ob) xs, (forall x, pick (inj x) = None) -> collect pick (map inj xs) = [].
Proof. intros T U pick inj xs H. induction xs as [|x xs IH]; [reflexivity|]. cbn. rewrite H. exact IH. Qed.
Lemma collect_flat : forall {T U} (pick : ob -> option T) (obs : U -> list ob) xs, (forall x, collect pick (obs x) = []) -> collect pick (flat_map obs xs) = [].
Proof. intros T U pick obs xs H. induction xs as [|x xs IH]; [reflexivity|]. cbn [flat_map]. rewrite collect_app, H. exact IH. Qed.
Definition sectional (o : ob) : Prop := match kind_b o with KFunction | KParameter | KFunctionEnd | KLabel | KCode | KMerge | KTerminator => False | _ => True end.
Lemma collect_def : forall {T} (pick : ob -> option T), (forall o, pick o <> None -> sectional o) -> forall d : FunctionDefinition E, collect pick (obs_def d) = [].
Proof.
  intros T pick H d. assert (X : forall o, ~ sectional o -> pick o = None).
  { intros o N. destruct (pick o) eqn:P; [|reflexivity]. contradiction N. apply H. congruence. }
  unfold obs_def. change (?a :: ?l) with ([a] ++ l). rewrite !collect_app. rewrite collect_none by (intros x; apply X; exact (fun f => f)).
  rewrite collect_flat.
  - cbn. rewrite !X by exact (fun f => f). reflexivity.
  - intros b. unfold obs_block. change (?a :: ?l) with ([a] ++ l) at 1. rewrite !collect_app. rewrite collect_none by (intros x; apply X; exact (fun f => f)).
    cbn. rewrite !X by exact (fun f => f). destruct (BasicBlock_merge b); cbn; [|reflexivity]. rewrite X by exact (fun f => f). reflexivity.
Qed.
Definition as_definition (d : FunctionDeclaration) : FunctionDefinition E := Build_FunctionDefinition (FunctionDeclaration_function d) (FunctionDeclaration_parameters d) [].
Definition functions lm : list (FunctionDefinition E) := map as_definition (LogicalModule_function_declarations lm) ++ LogicalModule_function_definitions lm.
Definition head_obs lm : list ob :=
  map (fun c => OpByBlock_OpCapability (Build_OpCapability c)) (LogicalModule_capabilities lm)
  ++ map (fun s => OpByBlock_OpExtension (Build_OpExtension s)) (LogicalModule_extensions lm)
  ++ map OpByBlock_OpExtInstImport (LogicalModule_ext_inst_imports lm)
  ++ [OpByBlock_OpMemoryModel (LogicalModule_memory_model lm)]
  ++ map OpByBlock_OpEntryPoint (LogicalModule_entry_points lm)
  ++ map OpByBlock_OpExecutionMode (LogicalModule_execution_modes lm)
  ++ map OpByBlock_GroupDebug (LogicalModule_debug lm)
  ++ map OpByBlock_GroupAnnotation (LogicalModule_annotations lm)
  ++ map OpByBlock_GroupGlobal (LogicalModule_globals lm).
Lemma obs_functions : forall lm, obs_module lm = head_obs lm ++ flat_map obs_def (functions lm).
Proof.
  intros lm. assert (D : forall cs, flat_map obs_def (map as_definition cs) = flat_map (@obs_decl E) cs).
  { induction cs as [|c cs IH]; [reflexivity|]. cbn [map flat_map]. rewrite IH. reflexivity. }
  unfold obs_module, head_obs, functions. rewrite flat_map_app, D, <- !app_assoc. reflexivity.
Qed.
Definition pick_memory (o : ob) := match o with OpByBlock_OpMemoryModel op => Some op | _ => None end.

Lemma head_sections : forall {T} (pick : ob -> option T) lm, (forall o, pick o <> None -> sectional o) -> collect pick (obs_module lm) = collect pick (head_obs lm).
Proof. intros T pick lm H. rewrite obs_functions, collect_app, (collect_flat pick obs_def), app_nil_r; [reflexivity|]. apply collect_def. exact H. Qed.
Ltac picked := unfold head_obs; rewrite !collect_app; repeat (first [rewrite collect_none by reflexivity | rewrite collect_all by reflexivity]); cbn; rewrite ?app_nil_r; reflexivity.
Lemma of_head : forall lm, 
  collect pick_capability (head_obs lm) = LogicalModule_capabilities lm /\ collect pick_extension (head_obs lm) = LogicalModule_extensions lm
  /\ collect pick_import (head_obs lm) = LogicalModule_ext_inst_imports lm /\ collect pick_memory (head_obs lm) = [LogicalModule_memory_model lm]
  /\ collect pick_entry (head_obs lm) = LogicalModule_entry_points lm /\ collect pick_mode (head_obs lm) = LogicalModule_execution_modes lm
  /\ collect pick_debug (head_obs lm) = LogicalModule_debug lm /\ collect pick_annotation (head_obs lm) = LogicalModule_annotations lm
  /\ collect pick_global (head_obs lm) = LogicalModule_globals lm.
Proof. intros lm. repeat split; picked. Qed.

Lemma def_unique : forall (d d' : FunctionDefinition E) rest rest', obs_def d ++ rest = obs_def d' ++ rest' -> d = d' /\ rest = rest'.
Proof.
  intros d d' rest rest' H. pose proof (def_forward [] d rest) as F. rewrite H, (def_forward [] d' rest') in F. injection F as -> _.
  split; [reflexivity|]. exact (app_inv_head _ _ _ H).
Qed.
Lemma defs_prefix : forall (small big : list (FunctionDefinition E)) more, flat_map obs_def big = flat_map obs_def small ++ more ->
  exists r, big = small ++ r /\ more = flat_map obs_def r.
Proof.
  induction small as [|d small IH]; intros big more H; [exists big; auto|]. destruct big as [|d' big]; [discriminate H|].
  cbn [flat_map] in H. rewrite <- app_assoc in H. apply def_unique in H as [-> H]. destruct (IH _ _ H) as (r & -> & ->). exists r. auto.
Qed.
Lemma functions_prefix : forall lm lm' r, first_has_block lm -> first_has_block lm' -> functions lm = functions lm' ++ r ->
  starts_with (LogicalModule_function_declarations lm) (LogicalModule_function_declarations lm')
  /\ starts_with (LogicalModule_function_definitions lm) (LogicalModule_function_definitions lm')
  /\ (LogicalModule_function_definitions lm' <> [] ->
        LogicalModule_function_declarations lm = LogicalModule_function_declarations lm' /\ LogicalModule_function_definitions lm = LogicalModule_function_definitions lm' ++ r).
Proof.
  intros lm lm' r. unfold first_has_block, functions, starts_with. generalize (LogicalModule_function_definitions lm), (LogicalModule_function_definitions lm').
  intros ds ds' B B'. generalize (LogicalModule_function_declarations lm). induction (LogicalModule_function_declarations lm') as [|c cs IH]; intros cs0 H.
  - cbn [map app] in H. split; [exists cs0; reflexivity|]. destruct ds' as [|d' ds']; [split; [exists ds; reflexivity|congruence]|].
    destruct cs0 as [|c0 cs0]; [|injection H as X _; subst d'; contradiction B'; reflexivity]. cbn [map app] in H. split; [exists r; exact H|]. intros _. auto.
  - destruct cs0 as [|c0 cs0]; cbn [map app] in H.
    + subst ds. contradiction B. reflexivity.
    + injection H as X Y H. destruct c, c0; cbn in X, Y. subst. destruct (IH _ H) as ((r1 & ->) & D & G). split; [exists r1; reflexivity|]. split; [exact D|]. intros Z. destruct (G Z) as [-> ->]. auto.
Qed.

Lemma head_sectional : forall lm, Forall sectional (head_obs lm).
Proof.
  intros lm. unfold head_obs. rewrite !Forall_app. repeat split; try (apply Forall_map_iff; apply Forall_true; intros; exact I). repeat constructor.
Qed.
Lemma split_head : forall (a a' f f' more : list ob), Forall sectional a -> Forall sectional a' ->
  match f with o :: _ => ~ sectional o | [] => True end -> match f' with o :: _ => ~ sectional o | [] => True end -> f' <> [] ->
  a ++ f = a' ++ f' ++ more -> a = a' /\ f = f' ++ more.
Proof.
  induction a as [|x a IH]; intros a' f f' more A A' F F' NE H.
  - destruct a' as [|x' a']; [auto|]. cbn in H. subst f. inversion A'; subst. contradiction.
  - inversion A; subst. destruct a' as [|x' a'].
    + destruct f' as [|o f']; [congruence|]. injection H as -> _. contradiction.
    + injection H as -> H. inversion A'; subst. destruct (IH a' f f' more) as [-> ->]; auto.
Qed.
Lemma functions_head : forall fs : list (FunctionDefinition E), match flat_map obs_def fs with o :: _ => ~ sectional o | [] => True end.
Proof. intros [|d fs]; cbn; [exact I|]. exact (fun x => x). Qed.

Lemma written : forall lm, canonical lm -> first_has_block lm.
Proof. intros lm C. apply canonical_obs_module in C. apply C. Qed.
Lemma obs_start : forall lm lm' more, canonical lm -> canonical lm' -> write_module lm = write_module lm' ++ more ->
  obs_module lm = obs_module lm' ++ map from_Core more.
Proof. intros lm lm' more C C' H. apply (f_equal (map from_Core)) in H. rewrite map_app, !obs_of_write in H by assumption. exact H. Qed.
Lemma functions_more : forall lm lm' more, obs_module lm = obs_module lm' ++ more -> functions lm' <> [] ->
  head_obs lm = head_obs lm' /\ exists r, functions lm = functions lm' ++ r /\ more = flat_map obs_def r.
Proof.
  intros lm lm' more H NE. rewrite !obs_functions, <- app_assoc in H.
  apply split_head in H as [A B]; [|apply head_sectional|apply head_sectional|apply functions_head|apply functions_head|].
  - split; [exact A|]. apply defs_prefix. exact B.
  - destruct (functions lm'); [congruence|discriminate].
Qed.

Theorem cut_result : forall m lm, validate m = Ok lm -> forall start rest lm', RawModule_instructions m = start ++ rest ->
  validate (with_instructions m start) = Ok lm' -> begins lm lm'.
Proof.
  intros m lm V start rest lm' Q V'. apply validate_iff in V as [W C], V' as [W' C']. cbn [with_instructions RawModule_instructions] in W'.
  rewrite W, W' in Q. pose proof (obs_start _ _ _ C C' Q) as O.
  assert (S : forall T (pick : ob -> option T), (forall o, pick o <> None -> sectional o) -> starts_with (collect pick (head_obs lm)) (collect pick (head_obs lm'))).
  { intros T pick H. rewrite <- !head_sections by exact H. rewrite O, collect_app. eexists. reflexivity. }
  destruct (of_head lm) as (E1 & E2 & E3 & E4 & E5 & E6 & E7 & E8 & E9). destruct (of_head lm') as (F1 & F2 & F3 & F4 & F5 & F6 & F7 & F8 & F9).
  assert (D : starts_with (LogicalModule_function_declarations lm) (LogicalModule_function_declarations lm')
    /\ starts_with (LogicalModule_function_definitions lm) (LogicalModule_function_definitions lm')).
  { destruct (functions lm') as [|d fs] eqn:FS.
    - unfold functions in FS. apply app_eq_nil in FS as [X ->]. apply map_eq_nil in X as ->. split; eexists; reflexivity.
    - destruct (functions_more _ _ _ O) as (_ & r & X & _); [congruence|]. destruct (functions_prefix lm lm' r (written _ C) (written _ C') X) as (P1 & P2 & _). auto. }
  destruct D as [D1 D2]. constructor; try assumption; rewrite <- ?E1, <- ?E2, <- ?E3, <- ?E5, <- ?E6, <- ?E7, <- ?E8, <- ?E9, <- ?F1, <- ?F2, <- ?F3, <- ?F5, <- ?F6, <- ?F7, <- ?F8, <- ?F9;
    try (apply S; intros o; destruct o; cbn; intros N; try exact I; congruence).
  destruct (S _ pick_memory) as [x X]; [intros o; destruct o; cbn; intros N; try exact I; congruence|]. rewrite E4, F4 in X. injection X as -> _. reflexivity.
Qed.

Lemma write_more : forall lm ds, write_module (with_more lm ds) = write_module lm ++ flat_map write_definition ds.
Proof.
  intros lm ds. unfold write_module, with_more. cbn [LogicalModule_capabilities LogicalModule_extensions LogicalModule_ext_inst_imports LogicalModule_memory_model LogicalModule_entry_points
    LogicalModule_execution_modes LogicalModule_debug LogicalModule_annotations LogicalModule_globals LogicalModule_function_declarations LogicalModule_function_definitions].
  rewrite flat_map_app, <- !app_assoc. reflexivity.
Qed.
Theorem more_functions : forall m lm, validate m = Ok lm -> LogicalModule_function_definitions lm <> [] -> forall more lm',
  validate (with_instructions m (RawModule_instructions m ++ more)) = Ok lm'
  <-> exists ds, more = flat_map write_definition ds /\ Forall canonical_definition ds /\ lm' = with_more lm ds.
Proof.
  intros m lm V NE more lm'. apply validate_iff in V as [W C]. split.
  - intros V'. apply validate_iff in V' as [W' C']. cbn [with_instructions RawModule_instructions] in W'. rewrite W in W'. symmetry in W'.
    pose proof (obs_start _ _ _ C' C W') as O. destruct (functions_more _ _ _ O) as (A & r & X & Y).
    { unfold functions. intros Z. apply app_eq_nil in Z as [_ Z]. contradiction. }
    destruct (functions_prefix lm' lm r (written _ C') (written _ C) X) as (_ & _ & P). destruct (P NE) as [P1 P2]. exists r.
    assert (Q : lm' = with_more lm r).
    { pose proof (of_head lm) as G. rewrite <- A in G. destruct G as (F1 & F2 & F3 & F4 & F5 & F6 & F7 & F8 & F9).
      destruct (of_head lm') as (E1 & E2 & E3 & E4 & E5 & E6 & E7 & E8 & E9). rewrite E1 in F1. rewrite E2 in F2. rewrite E3 in F3. rewrite E4 in F4. rewrite E5 in F5. rewrite E6 in F6.
      rewrite E7 in F7. rewrite E8 in F8. rewrite E9 in F9. injection F4 as F4. unfold with_more. rewrite <- F1, <- F2, <- F3, <- F4, <- F5, <- F6, <- F7, <- F8, <- F9, <- P1, <- P2. destruct lm'; reflexivity. }
    split; [|split; [|exact Q]].
    + subst lm'. apply (app_inv_head (write_module lm)). rewrite <- W'. apply write_more.
    + destruct C' as (_ & C' & _). rewrite P2 in C'. apply Forall_app in C'. apply C'.
  - intros (ds & -> & F & ->). apply validate_iff. cbn [with_instructions RawModule_instructions]. rewrite W. split.
    + symmetry. apply write_more.
    + destruct C as (C1 & C2 & C3). unfold with_more. split; [exact C1|]. cbn. split; [apply Forall_app; auto|]. destruct (LogicalModule_function_definitions lm); [congruence|exact C3].
Qed.
End Cut.

Lemma no_definition : ~ (forall E (m : RawModule E) lm, validate m = Ok lm -> forall ds larger, Forall canonical_definition ds ->
  validate (with_instructions m (RawModule_instructions m ++ flat_map write_definition ds)) = Ok larger -> larger = with_more lm ds).
Proof.
  intros H. pose (f := Build_OpFunction 1%N 2%N (Build_FunctionControl false false false false) 3%N).
  pose (mm := Build_OpMemoryModel AddressingModel_Logical MemoryModel_Simple).
  assert (K : Forall (@canonical_definition unit) [Build_FunctionDefinition f [] []]) by (constructor; constructor).
  specialize (H unit (Build_RawModule (Build_Version 1%N 0%N) (Build_Generator Tool_Valve 0%N) 10%N [Core_OpMemoryModel mm]) _ eq_refl [Build_FunctionDefinition f [] []] _ K eq_refl). discriminate H.
Qed.
Lemma complete_not_enough : ~ (forall E (is : list (Core E)), complete is -> accepts is).
Proof.
  intros H. pose (mm := Build_OpMemoryModel AddressingModel_Logical MemoryModel_Simple).
  destruct (H unit [Core_OpMemoryModel mm; Core_OpCapability (Build_OpCapability Capability_Shader)] (conj eq_refl eq_refl) (Build_Version 1%N 0%N) (Build_Generator Tool_Valve 0%N) 10%N) as [lm X].
  discriminate X.
Qed.
