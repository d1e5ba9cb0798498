(** Consequences of validate_layout and validate_iff: C25-C35. *)
From Verif Require Import Base Types Ops ExtSet ReadErr Reader Groups Validate Spec_Tables Spec_Wire Spec_Layout Proofs_Layout
  Proofs_Reader Proofs_Encode.

Definition complete_with (l : list kind) : Prop := l = [] \/ l = [KFunctionEnd] \/ l = [KTerminator; KFunctionEnd].

Lemma layout_cons : forall s n k ks, ks <> [] ->
  layout s n (k :: ks) = match step s k with None => stuck s n (length (k :: ks)) | Some s' => layout s' (S n) ks end.
Proof. intros s n k ks H. destruct ks; [congruence|]. cbn [layout]. destruct s, k; reflexivity. Qed.

Lemma layout_lone : forall s n k,
  layout s n [k] = match s, k with
    | After _, KFunction => Some (UnexpectedInstruction n)
    | _, _ => match step s k with None => stuck s n 1 | Some s' => layout s' (S n) [] end end.
Proof. reflexivity. Qed.

Lemma layout_step_none : forall s n k ks, layout s n (k :: ks) = None -> exists s', step s k = Some s' /\ layout s' (S n) ks = None.
Proof.
  intros s n k ks H. destruct ks as [|k2 ks].
  - rewrite layout_lone in H. destruct s, k; try discriminate H; cbn [step] in *; try (eexists; split; [reflexivity|exact H]);
      match type of H with context [match (match section_of ?k with _ => _ end) with _ => _ end] => cbn [section_of] in * end;
      match goal with |- context [if ?b then _ else _] => destruct b end; try discriminate H; eexists; split; reflexivity || exact H.
  - rewrite layout_cons in H by discriminate. destruct (step s k) as [s'|]; [eauto|]. destruct s; discriminate H.
Qed.

Lemma layout_step_ok : forall s n k ks s', step s k = Some s' -> layout s' (S n) ks = None -> layout s n (k :: ks) = None.
Proof.
  intros s n k ks s' St L. destruct ks as [|k2 ks].
  - rewrite layout_lone, St. destruct s, k; try exact L. cbn in St. injection St as <-. discriminate L.
  - rewrite layout_cons, St by discriminate. exact L.
Qed.

Lemma stuck_viable : forall s n, (forall b, s <> Before b) -> exists suf, complete_with suf /\ layout s n suf = None.
Proof.
  intros s n H. destruct s.
  - destruct (H section eq_refl).
  - exists []. split; [left; reflexivity|reflexivity].
  - exists [KFunctionEnd]. split; [right; left; reflexivity|reflexivity].
  - exists [KTerminator; KFunctionEnd]. split; [right; right; reflexivity|reflexivity].
  - exists [KTerminator; KFunctionEnd]. split; [right; right; reflexivity|reflexivity].
  - exists [KFunctionEnd]. split; [right; left; reflexivity|reflexivity].
Qed.

Lemma layout_error : forall ks s n e i, layout s n ks = Some e -> error_index e = Some i ->
  exists j, i = n + j /\ j <= length ks /\ (exists suf, complete_with suf /\ layout s n (firstn j ks ++ suf) = None) /\
    (j = length ks
     \/ (j < length ks /\ forall suf, layout s n (firstn (S j) ks ++ suf) <> None)
     \/ (S j = length ks /\ nth_error ks j = Some KFunction /\ e = UnexpectedInstruction i /\ layout s n (ks ++ [KFunctionEnd]) = None)).
Proof.
  induction ks as [|k ks IH]; intros s n e i L Ei.
  - exists 0. cbn [layout] in L. assert (Hs : i = n /\ forall b, s <> Before b).
    { destruct s; cbn in L; try discriminate L; injection L as <-; cbn in Ei; try discriminate Ei; injection Ei as <-; split; congruence. }
    destruct Hs as [-> Hs]. repeat split; [lia|lia| |left; reflexivity]. apply stuck_viable. exact Hs.
  - destruct (step s k) as [s'|] eqn:St.
    + assert (D : (exists b, s = After b /\ k = KFunction /\ ks = []) \/ layout s' (S n) ks = Some e).
      { destruct ks as [|k2 ks]; [|right; rewrite layout_cons, St in L by discriminate; exact L].
        rewrite layout_lone, St in L. destruct s; try (right; exact L). destruct k; try (right; exact L). left. eauto. }
      destruct D as [(b & -> & -> & ->)|L'].
      * cbn in L. injection L as <-. cbn in Ei. injection Ei as <-. exists 0. cbn [firstn length app]. repeat split; [lia|lia| |].
        -- exists []. split; [left; reflexivity|reflexivity].
        -- right; right. repeat split.
      * destruct (IH s' (S n) e i L' Ei) as (j & -> & Lj & (suf & Cs & Ls) & D). exists (S j). cbn [firstn length].
        split; [lia|]. split; [lia|]. split.
        -- exists suf. split; [exact Cs|]. cbn [app]. eapply layout_step_ok; [exact St|exact Ls].
        -- destruct D as [->|[[Lt D]|(Ej & Nf & Ee & D)]].
           ++ left. reflexivity.
           ++ right; left. split; [lia|]. intros suf' Hn. cbn [app] in Hn. apply layout_step_none in Hn. destruct Hn as (s2 & St2 & Hn).
              rewrite St in St2. injection St2 as <-. exact (D suf' Hn).
           ++ right; right. split; [lia|]. split; [exact Nf|]. split; [exact Ee|]. cbn [app]. eapply layout_step_ok; [exact St|exact D].
    + exists 0. assert (Hs : i = n /\ forall b, s <> Before b).
      { assert (Lk : layout s n (k :: ks) = stuck s n (length (k :: ks))).
        { destruct ks as [|k2 ks]; [|rewrite layout_cons, St by discriminate; reflexivity]. rewrite layout_lone, St.
          destruct s; try reflexivity. destruct k; reflexivity. }
        rewrite Lk in L. destruct s; cbn [stuck length] in L; try discriminate L; try destruct ks; injection L as <-; cbn in Ei; try discriminate Ei; injection Ei as <-; split; congruence. }
      destruct Hs as [-> Hs]. split; [lia|]. split; [cbn; lia|]. split; [apply stuck_viable; exact Hs|].
      right; left. split; [cbn; lia|]. intros suf Hn. cbn [firstn app] in Hn. apply layout_step_none in Hn. destruct Hn as (s2 & St2 & _). congruence.
Qed.

Section Facts.
Context {E : Type}.
Implicit Types (m : RawModule E) (lm : LogicalModule E).

Definition valid (l : list (Core E)) : Prop := layout (Before 0) 0 (map kind_of l) = None.

Lemma valid_iff : forall m, (exists lm, validate m = Ok lm) <-> valid (RawModule_instructions m).
Proof.
  intros m. unfold valid. pose proof (validate_layout m) as H. destruct (layout _ _ _).
  - split; [intros [lm V]; congruence|discriminate].
  - destruct H as (lm & V & _). split; eauto.
Qed.

Lemma validate_total : forall m, (exists lm, validate m = Ok lm) \/ (exists e, validate m = Err e).
Proof. intros m. pose proof (validate_layout m) as H. destruct (layout _ _ _); [right; eauto|left]. destruct H as (lm & V & _). eauto. Qed.

Lemma kind_suffix : forall suf, complete_with suf -> exists l : list (Core E), map kind_of l = suf.
Proof.
  intros suf [->|[->| ->]].
  - exists []. reflexivity.
  - exists [Core_OpFunctionEnd Build_OpFunctionEnd]. reflexivity.
  - exists [Core_OpReturn Build_OpReturn; Core_OpFunctionEnd Build_OpFunctionEnd]. reflexivity.
Qed.

Lemma kind_function : forall i : Core E, kind_of i = KFunction -> exists op, i = Core_OpFunction op.
Proof.
  intros i H. rewrite <- kind_from in H. rewrite <- (ungroup_from i). destruct (from_Core i); try discriminate H. eexists. reflexivity.
Qed.

Lemma accepts_valid : forall l, valid l -> accepts l.
Proof. intros l V v g b. apply valid_iff. exact V. Qed.
Lemma rejects_invalid : forall l, ~ valid l -> rejects l.
Proof. intros l V v g b lm H. apply V. apply (valid_iff (Build_RawModule v g b l)). eauto. Qed.

Lemma error_position : forall m e i, validate m = Err e -> error_index e = Some i ->
  let l := RawModule_instructions m in
  i <= length l
  /\ (exists suffix, accepts (firstn i l ++ suffix))
  /\ (i < length l ->
       (forall suffix, rejects (firstn (S i) l ++ suffix))
       \/ (exists op, S i = length l /\ nth_error l i = Some (Core_OpFunction op)
            /\ e = UnexpectedInstruction i /\ exists suffix, accepts (l ++ suffix))).
Proof.
  intros m e i V Ei l. pose proof (validate_layout m) as H. fold l in H.
  destruct (layout _ _ _) as [e'|] eqn:L; [|destruct H as (lm & V' & _); congruence].
  assert (e' = e) as -> by congruence.
  destruct (layout_error _ _ _ _ _ L Ei) as (j & -> & Lj & (suf & Cs & Ls) & D). cbn [Nat.add] in *. rewrite map_length in *.
  split; [exact Lj|]. split.
  - destruct (kind_suffix suf Cs) as [sl Hs]. exists sl. apply accepts_valid. unfold valid. rewrite map_app, <- firstn_map, Hs. exact Ls.
  - intros Lt. destruct D as [D|[[_ D]|(Ej & Nf & Ee & D)]]; [lia| |].
    + left. intros sl. apply rejects_invalid. unfold valid. rewrite map_app, <- firstn_map. apply D.
    + right. rewrite nth_error_map in Nf. destruct (nth_error l j) as [x|] eqn:Nx; [|discriminate Nf]. cbn in Nf. injection Nf as Kx.
      destruct (kind_function x Kx) as [op ->]. exists op. split; [exact Ej|]. split; [reflexivity|].
      split; [exact Ee|]. exists [Core_OpFunctionEnd Build_OpFunctionEnd]. apply accepts_valid. unfold valid. rewrite map_app. exact D.
Qed.

Lemma validate_unique : forall lm1 lm2, canonical lm1 -> canonical lm2 -> write_module lm1 = write_module lm2 -> lm1 = lm2.
Proof.
  intros lm1 lm2 C1 C2 W. pose (m := Build_RawModule (Build_Version 1 0) (Build_Generator Tool_Valve 0) 0 (write_module lm1)).
  assert (V1 : validate m = Ok lm1) by (apply validate_iff; split; [reflexivity|exact C1]).
  assert (V2 : validate m = Ok lm2) by (apply validate_iff; split; [exact W|exact C2]). congruence.
Qed.

(** ** C29 *)
Lemma no_missing : forall ks s n, (forall b, s <> Before b) -> layout s n ks <> Some MemoryModelMissing.
Proof.
  induction ks as [|k ks IH]; intros s n Hs.
  - destruct s; try discriminate. destruct (Hs section eq_refl).
  - destruct (step s k) as [s'|] eqn:St.
    + assert (Hs' : forall b, s' <> Before b).
      { intros b ->. destruct s; try (destruct (Hs section eq_refl)); destruct k; try discriminate St; cbn in St;
          match type of St with (if ?c then _ else _) = _ => destruct c; discriminate St end. }
      destruct ks as [|k2 ks]; [|rewrite layout_cons, St by discriminate; apply IH; exact Hs'].
      rewrite layout_lone, St. specialize (IH s' (S n) Hs'). destruct s; try exact IH. destruct k; try exact IH. discriminate.
    + destruct ks as [|k2 ks]; [rewrite layout_lone, St|rewrite layout_cons, St by discriminate]; destruct s; try discriminate;
        try (destruct (Hs section eq_refl)). destruct k; discriminate.
Qed.

Lemma run_kind : forall {T} (f : T -> Core E) K s xs n ks,
  (forall x, kind_of (f x) = K) -> (forall n ks, layout s n (K :: ks) = layout s (S n) ks) ->
  layout s n (map kind_of (map f xs) ++ ks) = layout s (n + length xs) ks.
Proof.
  intros T f K s xs. induction xs as [|x xs IH]; intros n ks Hf Hs; cbn [map app length].
  - f_equal. lia.
  - rewrite Hf, Hs, IH by assumption. f_equal. lia.
Qed.

Lemma before_mono : forall a ks n, match ks with KCapability :: _ => a = 0 | KExtension :: _ => a <= 1 | KImport :: _ => a <= 2 | _ => True end ->
  layout (Before a) n ks = layout (Before 0) n ks.
Proof.
  intros a [|k ks] n H; [reflexivity|]. destruct k; destruct ks; try reflexivity; cbn in *; subst; try reflexivity;
    destruct a as [|[|[|a]]]; try reflexivity; lia.
Qed.

Lemma memory_model_missing : forall m, validate m = Err MemoryModelMissing <->
  ~ exists caps exts imports mm rest, RawModule_instructions m =
      map Core_OpCapability caps ++ map Core_OpExtension exts ++ map Core_OpExtInstImport imports ++ Core_OpMemoryModel mm :: rest.
Proof.
  intros m. pose proof (validate_layout m) as H. split.
  - intros V (caps & exts & imps & mm & rest & El). rewrite El in H. rewrite !map_app in H.
    rewrite (run_kind Core_OpCapability KCapability (Before 0)) in H by (reflexivity || (intros ? [|? ?]; reflexivity)).
    rewrite <- (before_mono 1) in H by (destruct exts; [destruct imps|]; cbn; lia || exact I).
    rewrite (run_kind Core_OpExtension KExtension (Before 1)) in H by (reflexivity || (intros ? [|? ?]; reflexivity)).
    rewrite (before_mono 1), <- (before_mono 2) in H by (destruct imps; cbn; lia || exact I).
    rewrite (run_kind Core_OpExtInstImport KImport (Before 2)) in H by (reflexivity || (intros ? [|? ?]; reflexivity)).
    cbn [map] in H. change (kind_of (Core_OpMemoryModel mm)) with KMemoryModel in H.
    assert (L : forall n ks, layout (Before 2) n (KMemoryModel :: ks) = layout (After 0) (S n) ks) by (intros ? [|? ?]; reflexivity).
    rewrite L in H. destruct (layout (After 0) _ _) eqn:La.
    + rewrite V in H. injection H as <-. apply no_missing in La; [exact La|discriminate].
    + destruct H as (lm & V' & _). congruence.
  - intros N. set (l := RawModule_instructions m) in *.
    rewrite validate_is_obs. fold l. set (obs := map from_Core l). pose proof (validate_obs_layout obs) as HL.
    assert (Hl : l = map ungroup obs).
    { unfold obs. rewrite map_map. rewrite <- (map_id l) at 1. apply map_ext. intros; symmetry; apply ungroup_from. }
    clearbody obs. assert (K : layout (Before 0) 0 (map kind_b obs) = Some MemoryModelMissing).
    { rewrite run_capability, run_extension, run_import.
      destruct (left_ pick_import _) as [|x l3] eqn:E3; [reflexivity|]. destruct x; try (destruct l3; reflexivity).
      exfalso. apply N.
      exists (map Build_OpCapability (items pick_capability obs)), (map Build_OpExtension (items pick_extension (left_ pick_capability obs))),
        (items pick_import (left_ pick_extension (left_ pick_capability obs))), o, (map ungroup l3).
      rewrite Hl. rewrite <- (taken_left pick_capability obs) at 1. rewrite map_app.
      rewrite <- (taken_left pick_extension (left_ pick_capability obs)) at 1. rewrite map_app.
      rewrite <- (taken_left pick_import (left_ pick_extension (left_ pick_capability obs))) at 1. rewrite map_app.
      rewrite E3.
      rewrite (items_taken pick_capability (fun c => OpByBlock_OpCapability (E := E) (Build_OpCapability c))) by (intros [] i; try discriminate; intros [= <-]; match goal with |- _ ?o = _ => destruct o; reflexivity end).
      rewrite (items_taken pick_extension (fun c => OpByBlock_OpExtension (E := E) (Build_OpExtension c))) by (intros [] i; try discriminate; intros [= <-]; match goal with |- _ ?o = _ => destruct o; reflexivity end).
      rewrite (items_taken pick_import (OpByBlock_OpExtInstImport (E := E))) by (intros [] i; try discriminate; intros [= <-]; reflexivity).
      rewrite !map_map. reflexivity. }
    rewrite K in HL. exact HL.
Qed.

Lemma filter_none : forall {A B} (p : B -> bool) (f : A -> B) l, (forall a, p (f a) = false) -> filter p (map f l) = [].
Proof. intros A B p f l H. induction l as [|a l IH]; [reflexivity|]. cbn. rewrite H. exact IH. Qed.
Lemma filter_flat_none : forall {A B} (p : B -> bool) (f : A -> list B) l, (forall a, filter p (f a) = []) -> filter p (flat_map f l) = [].
Proof. intros A B p f l H. induction l as [|a l IH]; [reflexivity|]. cbn. rewrite filter_app, H. exact IH. Qed.

Lemma one_memory_model : forall m lm, validate m = Ok lm ->
  filter (fun i => N.eqb (opcode i) 14) (RawModule_instructions m) = [Core_OpMemoryModel (LogicalModule_memory_model lm)].
Proof.
  intros m lm V. apply validate_iff in V. destruct V as [-> _]. rewrite <- ungroup_module.
  set (mm := fun o : OpByBlock E => match o with OpByBlock_OpMemoryModel _ => true | _ => false end).
  assert (Hf : forall l : list (OpByBlock E), filter (fun i => N.eqb (opcode i) 14) (map ungroup l) = map ungroup (filter mm l)).
  { induction l as [|o l IH]; [reflexivity|]. cbn [map filter].
    assert (Ho : N.eqb (opcode (ungroup o)) 14 = mm o) by (destruct o as [| | | | | |[]|[]|[[]|[]|]| | | | |[]|[]|[]]; reflexivity).
    rewrite Ho. destruct (mm o); cbn [map]; rewrite IH; reflexivity. }
  rewrite Hf. unfold obs_module. rewrite !filter_app, !filter_none by reflexivity. rewrite !filter_flat_none.
  - reflexivity.
  - intros d. unfold obs_def. cbn [filter mm]. rewrite !filter_app, filter_none by reflexivity.
    rewrite filter_flat_none; [reflexivity|]. intros b. unfold obs_block. cbn [filter mm]. rewrite !filter_app, filter_none by reflexivity.
    destruct (BasicBlock_merge b); reflexivity.
  - intros d. unfold obs_decl. cbn [filter mm]. rewrite !filter_app, filter_none by reflexivity. reflexivity.
Qed.

(** ** C30, C31 *)
Lemma variables_sorted : forall m lm, validate m = Ok lm ->
  (forall v, In (GroupGlobal_OpVariable v) (LogicalModule_globals lm) -> OpVariable_storage_class v <> StorageClass_Function)
  /\ (forall d b v, In d (LogicalModule_function_definitions lm) -> In b (FunctionDefinition_blocks d) ->
        In (GroupCode_OpVariable v) (BasicBlock_code b) -> OpVariable_storage_class v = StorageClass_Function).
Proof.
  intros m lm V. apply validate_iff in V. destruct V as [_ (Hg & Hd & _)]. rewrite Forall_forall in Hg, Hd. split.
  - intros v Hv. exact (Hg _ Hv).
  - intros d b v Hi Hb Hv. specialize (Hd d Hi). unfold canonical_definition in Hd. rewrite Forall_forall in Hd. specialize (Hd b Hb).
    unfold canonical_block in Hd. rewrite Forall_forall in Hd. exact (Hd _ Hv).
Qed.

Lemma flat_map_split : forall {A B} (f : A -> list B) l a, In a l -> exists l1 l2, flat_map f l = l1 ++ f a ++ l2.
Proof.
  intros A B f l a H. apply in_split in H. destruct H as (l1 & l2 & ->). exists (flat_map f l1), (flat_map f l2).
  rewrite flat_map_app. reflexivity.
Qed.

Lemma blocks_well_formed : forall m lm d, validate m = Ok lm -> In d (LogicalModule_function_definitions lm) ->
  exists before after bodies,
    RawModule_instructions m = before ++ Core_OpFunction (FunctionDefinition_function d)
      :: map Core_OpFunctionParameter (FunctionDefinition_parameters d) ++ concat bodies
      ++ Core_OpFunctionEnd Build_OpFunctionEnd :: after
    /\ Forall2 (fun b body => exists code merge terminator,
         body = Core_OpLabel (BasicBlock_label b) :: code ++ merge ++ [terminator]
         /\ code = map core_of_code (BasicBlock_code b) /\ terminator = core_of_branch (BasicBlock_branch b)
         /\ merge = match BasicBlock_merge b with Some g => [core_of_merge g] | None => [] end
         /\ Forall (fun i => kind_of i = KCode) code /\ Forall (fun i => kind_of i = KMerge) merge /\ kind_of terminator = KTerminator)
       (FunctionDefinition_blocks d) bodies.
Proof.
  intros m lm d V Hd. apply validate_iff in V. destruct V as [-> C].
  destruct (flat_map_split write_definition _ _ Hd) as (l1 & l2 & El).
  assert (P : exists pre, write_module lm = pre ++ flat_map write_definition (LogicalModule_function_definitions lm)).
  { unfold write_module. rewrite !app_assoc. eexists. reflexivity. }
  destruct P as [pre ->]. rewrite El. exists (pre ++ l1), l2, (map write_block (FunctionDefinition_blocks d)). split.
  - rewrite <- app_assoc. f_equal. f_equal. unfold write_definition at 1. cbn [app]. f_equal. rewrite <- !app_assoc. f_equal.
    rewrite flat_map_concat_map. reflexivity.
  - destruct C as (_ & C & _). rewrite Forall_forall in C. specialize (C d Hd). unfold canonical_definition in C. clear - C.
    induction C as [|b bs Cb C IH]; constructor; [|exact IH].
    exists (map core_of_code (BasicBlock_code b)), (match BasicBlock_merge b with Some g => [core_of_merge g] | None => [] end), (core_of_branch (BasicBlock_branch b)).
    repeat split.
    + apply Forall_map_iff. unfold canonical_block in Cb. revert Cb. apply Forall_impl. intros c Hc.
      destruct c; try (vm_compute; reflexivity). cbn in Hc |- *. unfold function_variable in Hc. rewrite Hc. reflexivity.
    + destruct (BasicBlock_merge b) as [[]|]; repeat constructor.
    + destruct (BasicBlock_branch b); reflexivity.
Qed.

(** ** C32 *)
Lemma first_definition : forall m lm d ds, validate m = Ok lm -> LogicalModule_function_definitions lm = d :: ds ->
  FunctionDefinition_blocks d <> [].
Proof. intros m lm d ds V Ed. apply validate_iff in V. destruct V as (_ & _ & _ & C). rewrite Ed in C. exact C. Qed.

Definition is_function (i : Core E) : bool := N.eqb (opcode i) 54.
Definition is_label (i : Core E) : bool := N.eqb (opcode i) 248.

(** Splitting a concatenation of functions before an OpFunction. *)
Lemma split_functions : forall {T} (w : T -> list (Core E)) (hd : T -> OpFunction) (tl : T -> list (Core E)),
  (forall d, w d = Core_OpFunction (hd d) :: tl d) -> (forall d, existsb is_function (tl d) = false) ->
  forall ds rest pre f post, flat_map w ds ++ rest = pre ++ Core_OpFunction f :: post ->
  (exists ds1 d ds2, ds = ds1 ++ d :: ds2 /\ pre = flat_map w ds1 /\ hd d = f /\ post = tl d ++ flat_map w ds2 ++ rest)
  \/ (exists pre', pre = flat_map w ds ++ pre' /\ rest = pre' ++ Core_OpFunction f :: post).
Proof.
  intros T w hd tl Hw Ht. induction ds as [|d ds IH]; intros rest pre f post H.
  - right. exists pre. split; [reflexivity|exact H].
  - cbn [flat_map] in H. rewrite Hw in H. cbn [app] in H. destruct pre as [|p pre].
    + cbn [app] in H. injection H as Hf Hp. left. exists [], d, ds. repeat split; [exact Hf|]. rewrite <- Hp, <- app_assoc. reflexivity.
    + cbn [app] in H. injection H as <- H.
      assert (S : exists pre', pre = tl d ++ pre' /\ flat_map w ds ++ rest = pre' ++ Core_OpFunction f :: post).
      { specialize (Ht d). revert pre H. generalize (tl d) Ht. clear. induction l as [|x l IHl]; intros Hx pre H; [exists pre; auto|].
        cbn [existsb] in Hx. apply orb_false_iff in Hx. destruct Hx as [Hx Hl]. destruct pre as [|p pre].
        - cbn in H. injection H as -> _. discriminate Hx.
        - cbn in H. injection H as -> H. destruct (IHl Hl pre H) as (pre' & -> & H'). exists pre'. auto. }
      destruct S as (pre' & -> & S). destruct (IH rest pre' f post S) as [(ds1 & d' & ds2 & -> & -> & Hf & Hp)|(pre'' & -> & Hr)].
      * left. exists (d :: ds1), d', ds2. cbn [flat_map app]. rewrite Hw. repeat split; assumption.
      * right. exists pre''. cbn [flat_map]. rewrite Hw. cbn [app]. rewrite <- app_assoc. auto.
Qed.

Lemma map_param_end : forall ps qs (r1 r2 : list (Core E)),
  map Core_OpFunctionParameter ps ++ Core_OpFunctionEnd Build_OpFunctionEnd :: r1
  = map Core_OpFunctionParameter qs ++ Core_OpFunctionEnd Build_OpFunctionEnd :: r2 -> ps = qs.
Proof.
  induction ps as [|p ps IH]; intros [|q qs] r1 r2 H; cbn in H; try discriminate H; [reflexivity|].
  injection H as -> H. f_equal. eapply IH. exact H.
Qed.

Lemma map_param_blocks : forall ps qs (bs : list (BasicBlock E)) (r1 r2 : list (Core E)),
  map Core_OpFunctionParameter ps ++ flat_map write_block bs ++ Core_OpFunctionEnd Build_OpFunctionEnd :: r1
  = map Core_OpFunctionParameter qs ++ Core_OpFunctionEnd Build_OpFunctionEnd :: r2 -> ps = qs /\ bs = [].
Proof.
  induction ps as [|p ps IH]; intros [|q qs] bs r1 r2 H; cbn in H; try discriminate H.
  - split; [reflexivity|]. destruct bs; [reflexivity|discriminate H].
  - destruct bs; discriminate H.
  - injection H as -> H. destruct (IH _ _ _ _ H) as [-> ->]. auto.
Qed.

Lemma existsb_map_false : forall {A} (p : Core E -> bool) (f : A -> Core E) l, (forall a, p (f a) = false) -> existsb p (map f l) = false.
Proof. intros A p f l H. induction l as [|a l IH]; [reflexivity|]. cbn. rewrite H. exact IH. Qed.
Lemma existsb_flat_false : forall {A} (p : Core E -> bool) (f : A -> list (Core E)) l, (forall a, existsb p (f a) = false) -> existsb p (flat_map f l) = false.
Proof. intros A p f l H. induction l as [|a l IH]; [reflexivity|]. cbn. rewrite existsb_app, H. exact IH. Qed.

Lemma bodiless_function : forall m lm pre f ps post, validate m = Ok lm ->
  RawModule_instructions m = pre ++ Core_OpFunction f :: map Core_OpFunctionParameter ps ++ Core_OpFunctionEnd Build_OpFunctionEnd :: post ->
  if existsb is_label pre
  then In (Build_FunctionDefinition f ps []) (LogicalModule_function_definitions lm)
  else In (Build_FunctionDeclaration f ps) (LogicalModule_function_declarations lm).
Proof.
  intros m lm pre f ps post V El. apply validate_iff in V. destruct V as [W C]. rewrite W in El. clear W.
  unfold write_module in El. rewrite !app_assoc in El.
  match type of El with ((?p ++ _) ++ _) = _ => remember p as prelude eqn:Ep end.
  assert (Np : existsb is_function prelude = false /\ existsb is_label prelude = false).
  { rewrite Ep, !existsb_app. split; rewrite !existsb_map_false; try reflexivity; intros []; try reflexivity; destruct g || destruct o; reflexivity. }
  destruct Np as [Nf Nl]. clear Ep.
  assert (S : exists pre', pre = prelude ++ pre' /\
    flat_map write_declaration (LogicalModule_function_declarations lm) ++ flat_map write_definition (LogicalModule_function_definitions lm)
    = pre' ++ Core_OpFunction f :: map Core_OpFunctionParameter ps ++ Core_OpFunctionEnd Build_OpFunctionEnd :: post).
  { rewrite <- app_assoc in El. revert pre Nf El. clear. induction prelude as [|x l IHl]; intros pre Hx H; [exists pre; auto|].
    cbn [existsb] in Hx. apply orb_false_iff in Hx. destruct Hx as [Hx Hl]. destruct pre as [|p pre].
    - cbn in H. injection H as -> _. discriminate Hx.
    - cbn in H. injection H as -> H. destruct (IHl pre Hl H) as (pre' & -> & H'). exists pre'. auto. }
  destruct S as (pre' & -> & S). rewrite existsb_app, Nl. cbn [orb].
  assert (Ld : forall ds : list FunctionDeclaration, existsb is_label (flat_map write_declaration ds) = false).
  { intros ds. apply existsb_flat_false. intros d. unfold write_declaration. cbn. rewrite existsb_app, existsb_map_false by reflexivity. reflexivity. }
  eapply (split_functions write_declaration FunctionDeclaration_function
    (fun d => map Core_OpFunctionParameter (FunctionDeclaration_parameters d) ++ [Core_OpFunctionEnd Build_OpFunctionEnd])) in S;
    [|reflexivity|intros d; rewrite existsb_app, existsb_map_false by reflexivity; reflexivity].
  destruct S as [(ds1 & d & ds2 & Ed & -> & Hf & Hp)|(pre'' & -> & S)].
  - rewrite Ld, Ed. rewrite <- app_assoc in Hp. apply map_param_end in Hp. apply in_or_app. right. left. destruct d; cbn in *. congruence.
  - rewrite <- (app_nil_r (flat_map write_definition _)) in S.
    eapply (split_functions write_definition FunctionDefinition_function
      (fun d => map Core_OpFunctionParameter (FunctionDefinition_parameters d) ++ flat_map write_block (FunctionDefinition_blocks d) ++ [Core_OpFunctionEnd Build_OpFunctionEnd])) in S;
      [|reflexivity|].
    2: { intros d. rewrite !existsb_app, existsb_map_false by reflexivity. rewrite existsb_flat_false; [reflexivity|].
         intros b. unfold write_block. cbn. rewrite !existsb_app, existsb_map_false by (intros []; reflexivity).
         destruct (BasicBlock_merge b) as [[]|]; destruct (BasicBlock_branch b); reflexivity. }
    destruct S as [(ds1 & d & ds2 & Ed & -> & Hf & Hp)|(pre3 & -> & S)].
    2: { destruct pre3; discriminate S. }
    rewrite <- !app_assoc in Hp. symmetry in Hp. apply map_param_blocks in Hp. destruct Hp as [Hp Hb].
    destruct C as (_ & _ & C). rewrite Ed in C.
    destruct ds1 as [|d1 ds1]; [cbn in C; contradiction|]. cbn [app] in C.
    rewrite existsb_app. cbn [flat_map]. rewrite existsb_app. unfold write_definition at 1. cbn [existsb].
    destruct (FunctionDefinition_blocks d1) as [|b bs] eqn:Eb; [congruence|]. cbn [flat_map]. unfold write_block at 1. rewrite !existsb_app. cbn [app existsb].
    rewrite !orb_true_r. cbn [orb]. change (is_label (Core_OpLabel (BasicBlock_label b))) with true. rewrite ?orb_true_l, ?orb_true_r.
    cbn [orb]. rewrite ?orb_true_r. rewrite Ed. apply in_or_app. right. left. destruct d; cbn in *. congruence.
Qed.

(** ** C33, C34 *)
Definition kind_by_opcode (op : N) : kind :=
  if N.eqb op 17 then KCapability
  else if N.eqb op 10 then KExtension
  else if N.eqb op 11 then KImport
  else if N.eqb op 14 then KMemoryModel
  else if N.eqb op 15 then KEntryPoint
  else if N.eqb op 16 then KExecutionMode
  else if ((2 <=? op) && (op <=? 7))%N then KDebug
  else if ((71 <=? op) && (op <=? 72))%N then KAnnotation
  else if ((19 <=? op) && (op <=? 44))%N then KGlobal
  else if N.eqb op 54 then KFunction
  else if N.eqb op 55 then KParameter
  else if N.eqb op 56 then KFunctionEnd
  else if N.eqb op 248 then KLabel
  else if ((246 <=? op) && (op <=? 247))%N then KMerge
  else if ((249 <=? op) && (op <=? 253))%N then KTerminator
  else KCode.

Lemma kind_cases : forall i : Core E, (exists v, i = Core_OpVariable v) \/ (opcode i <> 59%N /\ kind_of i = kind_by_opcode (opcode i)).
Proof. intros i. destruct i; try (right; split; [discriminate|reflexivity]). left. eexists. reflexivity. Qed.

Lemma same_kind_kind : forall i j : Core E, same_kind i j -> kind_of i = kind_of j.
Proof.
  intros i j [Ho Hv]. destruct (kind_cases i) as [[v ->]|[Ni Ki]], (kind_cases j) as [[w ->]|[Nj Kj]];
    try (exfalso; (apply Ni; rewrite Ho; reflexivity) || (apply Nj; rewrite <- Ho; reflexivity)).
  - specialize (Hv _ _ eq_refl eq_refl). unfold function_variable in Hv. cbn [kind_of].
    destruct (OpVariable_storage_class v) eqn:E1, (OpVariable_storage_class w) eqn:E2; try reflexivity; destruct Hv as [Hv1 Hv2];
      first [discriminate (Hv1 eq_refl)|discriminate (Hv2 eq_refl)].
  - rewrite Ki, Kj, Ho. reflexivity.
Qed.

(** kinds of a shape *)
Definition block_kinds (b : nat * bool) : list kind := KLabel :: repeat KCode (fst b) ++ (if snd b then [KMerge] else []) ++ [KTerminator].
Definition decl_kinds (n : nat) : list kind := KFunction :: repeat KParameter n ++ [KFunctionEnd].
Definition def_kinds (d : nat * list (nat * bool)) : list kind := KFunction :: repeat KParameter (fst d) ++ flat_map block_kinds (snd d) ++ [KFunctionEnd].
Definition shape_kinds (s : shape) : list kind :=
  repeat KCapability (n_capabilities s) ++ repeat KExtension (n_extensions s) ++ repeat KImport (n_imports s) ++ [KMemoryModel]
  ++ repeat KEntryPoint (n_entry_points s) ++ repeat KExecutionMode (n_execution_modes s) ++ repeat KDebug (n_debug s)
  ++ repeat KAnnotation (n_annotations s) ++ repeat KGlobal (n_globals s)
  ++ flat_map decl_kinds (declarations_shape s) ++ flat_map def_kinds (definitions_shape s).

Lemma map_repeat : forall {A} (f : A -> kind) k l, (forall a, In a l -> f a = k) -> map f l = repeat k (length l).
Proof.
  intros A f k l H. induction l as [|a l IH]; [reflexivity|]. cbn. rewrite H by (left; reflexivity). f_equal. apply IH. intros; apply H; right; assumption.
Qed.

Lemma kinds_of_module : forall lm, canonical lm -> map kind_of (write_module lm) = shape_kinds (shape_of lm).
Proof.
  intros lm C. rewrite <- kinds_from, obs_of_write by exact C. unfold obs_module, shape_kinds, shape_of.
  cbn [n_capabilities n_extensions n_imports n_entry_points n_execution_modes n_debug n_annotations n_globals declarations_shape definitions_shape].
  rewrite !map_app, !map_map.
  do 3 (apply f_equal2; [apply map_repeat; reflexivity|]). apply f_equal2; [reflexivity|].
  do 5 (apply f_equal2; [apply map_repeat; reflexivity|]). apply f_equal2.
  - rewrite (map_flat_map kind_b obs_decl (fun d => decl_kinds (length (FunctionDeclaration_parameters d)))).
    + rewrite !flat_map_concat_map, map_map. reflexivity.
    + intros d. unfold obs_decl, decl_kinds. cbn [map kind_b]. rewrite map_app, map_map. f_equal. f_equal. apply map_repeat. reflexivity.
  - rewrite (map_flat_map kind_b obs_def (fun d => def_kinds (length (FunctionDefinition_parameters d), map block_shape (FunctionDefinition_blocks d)))).
    + rewrite !flat_map_concat_map, map_map. reflexivity.
    + intros d. unfold obs_def, def_kinds. cbn [map kind_b fst snd]. rewrite !map_app, map_map. f_equal. f_equal; [apply map_repeat; reflexivity|]. f_equal.
      rewrite (map_flat_map kind_b obs_block (fun b => block_kinds (block_shape b))).
      * rewrite !flat_map_concat_map, map_map. reflexivity.
      * intros b. unfold obs_block, block_kinds, block_shape. cbn [map kind_b fst snd]. rewrite !map_app, map_map. f_equal.
        f_equal; [apply map_repeat; reflexivity|]. f_equal. destruct (BasicBlock_merge b); reflexivity.
Qed.

Lemma repeat_inj : forall (K : kind) n1 n2 r1 r2, repeat K n1 ++ r1 = repeat K n2 ++ r2 ->
  hd_error r1 <> Some K -> hd_error r2 <> Some K -> n1 = n2 /\ r1 = r2.
Proof.
  intros K. induction n1 as [|n1 IH]; intros [|n2] r1 r2 H N1 N2; cbn in H.
  - auto.
  - subst r1. destruct N1. reflexivity.
  - subst r2. destruct N2. reflexivity.
  - injection H as H. destruct (IH n2 r1 r2 H N1 N2). auto.
Qed.

Lemma hd_repeat : forall (K : kind) n (r : list kind) K', K <> K' -> hd_error r <> Some K' -> hd_error (repeat K n ++ r) <> Some K'.
Proof. intros K [|n] r K' N H; [exact H|]. cbn. congruence. Qed.

Lemma blocks_inj : forall bs1 bs2 r1 r2, flat_map block_kinds bs1 ++ KFunctionEnd :: r1 = flat_map block_kinds bs2 ++ KFunctionEnd :: r2 ->
  bs1 = bs2 /\ r1 = r2.
Proof.
  induction bs1 as [|[n m] bs1 IH]; intros [|[n' m'] bs2] r1 r2 H; cbn in H; try discriminate H.
  - injection H as H. auto.
  - injection H as H. rewrite <- !app_assoc in H. apply repeat_inj in H; [|destruct m; discriminate|destruct m'; discriminate].
    destruct H as [-> H]. destruct m, m'; cbn in H; try discriminate H; injection H as H; apply IH in H; destruct H as [-> ->]; auto.
Qed.

Lemma defs_inj : forall ds1 ds2, flat_map def_kinds ds1 = flat_map def_kinds ds2 -> ds1 = ds2.
Proof.
  induction ds1 as [|[n bs] ds1 IH]; intros [|[n' bs'] ds2] H; cbn in H; try discriminate H; [reflexivity|].
  injection H as H. rewrite <- !app_assoc in H. apply repeat_inj in H; [|destruct bs; discriminate|destruct bs'; discriminate].
  destruct H as [-> H]. cbn in H. apply blocks_inj in H. destruct H as [-> H]. f_equal. apply IH. exact H.
Qed.

Lemma decls_inj : forall ns1 ns2 ds1 ds2,
  (match ds1 with [] => True | d :: _ => snd d <> [] end) -> (match ds2 with [] => True | d :: _ => snd d <> [] end) ->
  flat_map decl_kinds ns1 ++ flat_map def_kinds ds1 = flat_map decl_kinds ns2 ++ flat_map def_kinds ds2 -> ns1 = ns2 /\ ds1 = ds2.
Proof.
  assert (X : forall n ns ds1 ds2, (match ds2 with [] => True | d :: _ => snd d <> [] end) ->
    flat_map decl_kinds (n :: ns) ++ flat_map def_kinds ds1 <> flat_map def_kinds ds2).
  { intros n ns ds1 [|[p [|[c b] bs]] ds2] Hd H; cbn in H; try discriminate H; [destruct Hd; reflexivity|].
    injection H as H. rewrite <- !app_assoc in H. apply repeat_inj in H; [|discriminate|discriminate]. destruct H as [_ H]. discriminate H. }
  induction ns1 as [|n ns1 IH]; intros [|n' ns2] ds1 ds2 H1 H2 H.
  - split; [reflexivity|]. apply defs_inj. exact H.
  - exfalso. symmetry in H. exact (X _ _ _ _ H1 H).
  - exfalso. exact (X _ _ _ _ H2 H).
  - cbn in H. injection H as H. rewrite <- !app_assoc in H. apply repeat_inj in H; [|discriminate|discriminate]. destruct H as [-> H].
    cbn in H. injection H as H. destruct (IH _ _ _ H1 H2 H) as [-> ->]. auto.
Qed.

Lemma shape_inj : forall s1 s2,
  (match definitions_shape s1 with [] => True | d :: _ => snd d <> [] end) ->
  (match definitions_shape s2 with [] => True | d :: _ => snd d <> [] end) ->
  shape_kinds s1 = shape_kinds s2 -> s1 = s2.
Proof.
  intros s1 s2 H1 H2 H. unfold shape_kinds in H.
  assert (F : forall K ns ds, K <> KFunction -> hd_error (flat_map decl_kinds ns ++ flat_map def_kinds ds) <> Some K).
  { intros K [|n ns] [|d ds] N; cbn; congruence. }
  Ltac hds F := repeat first [discriminate | apply hd_repeat; [discriminate|] | apply F; discriminate].
  do 3 (apply repeat_inj in H; [|hds F|hds F]; destruct H as [? H]). cbn [app] in H. injection H as H.
  do 5 (apply repeat_inj in H; [|hds F|hds F]; destruct H as [? H]).
  apply decls_inj in H; [|exact H1|exact H2]. destruct s1, s2; cbn in *. destruct H. congruence.
Qed.

Lemma same_kinds : forall m1 m2, Forall2 same_kind (RawModule_instructions m1) (RawModule_instructions m2) ->
  match validate m1, validate m2 with
  | Ok lm1, Ok lm2 => shape_of lm1 = shape_of lm2
  | Err e1, Err e2 => e1 = e2
  | _, _ => False
  end.
Proof.
  intros m1 m2 H. pose proof (validate_layout m1) as V1. pose proof (validate_layout m2) as V2.
  assert (K : map kind_of (RawModule_instructions m1) = map kind_of (RawModule_instructions m2)).
  { clear V1 V2. revert H. generalize (RawModule_instructions m1) (RawModule_instructions m2). intros l1 l2 H.
    induction H as [|i j l1 l2 Hij H IH]; [reflexivity|]. cbn [map]. rewrite IH, (same_kind_kind _ _ Hij). reflexivity. }
  rewrite <- K in V2. destruct (layout _ _ _) as [e|].
  - rewrite V1, V2. reflexivity.
  - destruct V1 as (lm1 & -> & W1 & C1), V2 as (lm2 & -> & W2 & C2). rewrite <- W1, <- W2, !kinds_of_module in K by assumption.
    apply shape_inj; [| |exact K].
    + destruct C1 as (_ & _ & C1). cbn [shape_of definitions_shape]. destruct (LogicalModule_function_definitions lm1) as [|d ds]; [exact I|].
      cbn. destruct (FunctionDefinition_blocks d); [congruence|discriminate].
    + destruct C2 as (_ & _ & C2). cbn [shape_of definitions_shape]. destruct (LogicalModule_function_definitions lm2) as [|d ds]; [exact I|].
      cbn. destruct (FunctionDefinition_blocks d); [congruence|discriminate].
Qed.

Lemma only_instructions : forall m1 m2, RawModule_instructions m1 = RawModule_instructions m2 -> validate m1 = validate m2.
Proof. intros m1 m2 H. rewrite !validate_is_obs, H. reflexivity. Qed.

Lemma renaming : forall (rename : Core E -> Core E) m, (forall i, same_kind i (rename i)) ->
  ((exists lm, validate m = Ok lm) <-> exists lm, validate (with_instructions m (map rename (RawModule_instructions m))) = Ok lm).
Proof.
  intros rename m H. pose proof (same_kinds m (with_instructions m (map rename (RawModule_instructions m)))) as K. cbn [with_instructions RawModule_instructions] in K.
  assert (F : forall l, Forall2 same_kind l (map rename l)) by (induction l; constructor; auto). specialize (K (F _)).
  destruct (validate m), (validate (with_instructions m _)); try (destruct K; fail).
  - split; intros _; eauto.
  - split; intros [lm L]; discriminate L.
Qed.
Lemma renaming_exact : forall (rename : Core E -> Core E) m, (forall i, same_kind i (rename i)) ->
  match validate m, validate (with_instructions m (map rename (RawModule_instructions m))) with
  | Ok lm1, Ok lm2 => shape_of lm1 = shape_of lm2 /\ write_module lm2 = map rename (write_module lm1)
  | Err e1, Err e2 => e1 = e2
  | _, _ => False
  end.
Proof.
  intros rename m H. pose proof (same_kinds m (with_instructions m (map rename (RawModule_instructions m)))) as K. cbn [with_instructions RawModule_instructions] in K.
  assert (F : forall l, Forall2 same_kind l (map rename l)) by (induction l; constructor; auto). specialize (K (F _)).
  destruct (validate m) as [lm1|e1| |] eqn:V1;
    destruct (validate (with_instructions m (map rename (RawModule_instructions m)))) as [lm2|e2| |] eqn:V2; try exact K.
  split; [exact K|]. apply validate_iff in V1, V2. destruct V1 as [V1 _], V2 as [V2 _]. rewrite <- V1, <- V2. reflexivity.
Qed.

(** ** C35 *)
Lemma read_validate_lossless : forall (known : list (ExtInstSet E)) data m lm,
  read_module data known = Ok m -> validate m = Ok lm ->
  exists p, encodable known (with_instructions m (write_module lm)) p
    /\ forall o, read_module (encode_module o (with_instructions m (write_module lm)) p) known = Ok m.
Proof.
  intros known data m lm R V. apply validate_iff in V. destruct V as [W _].
  assert (Em : with_instructions m (write_module lm) = m) by (unfold with_instructions; rewrite <- W; destruct m; reflexivity).
  rewrite Em. destruct (accepted_normalises _ _ _ R) as (p & He & Hp). exists p. split; [exact He|]. intros o. apply Hp.
Qed.
End Facts.
