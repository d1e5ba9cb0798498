(** Proofs about the validator: it is the layout automaton, and its result writes out to
    the input. *)
From Verif Require Import Base Types Ops Groups Validate Spec_Tables Spec_Layout.

Section Layout.
Context {E : Type}.
Notation ob := (OpByBlock E).

(** ** Cursors *)
Definition at_ (pre rest : list ob) : OpSlice := Build_OpSlice (pre ++ rest) (length pre).

Lemma first_at : forall pre rest, first (at_ pre rest) = hd_error rest.
Proof.
  intros pre rest. unfold first, at_; cbn [insts index]. rewrite app_length.
  destruct rest as [|x rest]; cbn [length hd_error].
  - replace (length pre <? length pre + 0) with false; [reflexivity|]. symmetry. apply Nat.ltb_ge. lia.
  - replace (length pre <? length pre + S (length rest)) with true.
    + rewrite nth_error_app2 by lia. rewrite Nat.sub_diag. reflexivity.
    + symmetry. apply Nat.ltb_lt. lia.
Qed.

Lemma advance_at : forall pre x rest, advance (at_ pre (x :: rest)) = Ok (at_ (pre ++ [x]) rest).
Proof.
  intros pre x rest. unfold advance, at_; cbn [insts index]. rewrite app_length. cbn [length].
  replace (length pre <? length pre + S (length rest)) with true by (symmetry; apply Nat.ltb_lt; lia).
  rewrite <- app_assoc, app_length. cbn [app length]. reflexivity.
Qed.

Lemma remaining_at : forall pre rest, get_remaining (at_ pre rest) = length rest.
Proof. intros. unfold get_remaining, at_; cbn [insts index]. rewrite app_length. lia. Qed.

Lemma slot_at : forall pre rest, get_slot (at_ pre rest) = length pre.
Proof. reflexivity. Qed.

(** ** Runs of one kind *)
Section Items.
Context {T : Type} (pick : ob -> option T).
Fixpoint items (l : list ob) : list T :=
  match l with [] => [] | x :: l' => match pick x with Some i => i :: items l' | None => [] end end.
Fixpoint taken (l : list ob) : list ob :=
  match l with [] => [] | x :: l' => match pick x with Some i => x :: taken l' | None => [] end end.
Fixpoint left_ (l : list ob) : list ob :=
  match l with [] => [] | x :: l' => match pick x with Some i => left_ l' | None => l end end.

Lemma taken_left : forall l, taken l ++ left_ l = l.
Proof. induction l as [|x l IH]; cbn; [reflexivity|]. destruct (pick x); cbn; congruence. Qed.

Definition nohead (l : list ob) : Prop := match l with [] => True | x :: _ => pick x = None end.
Lemma left_nohead : forall l, nohead (left_ l).
Proof. induction l as [|x l IH]; cbn; [exact I|]. destruct (pick x) eqn:P; [exact IH|exact P]. Qed.

Lemma items_taken : forall (inj : T -> ob), (forall x i, pick x = Some i -> x = inj i) ->
  forall l, taken l = map inj (items l).
Proof.
  intros inj Hi. induction l as [|x l IH]; cbn; [reflexivity|]. destruct (pick x) eqn:P; [|reflexivity].
  cbn. rewrite IH. f_equal. apply Hi. exact P.
Qed.

Lemma many_one : forall pre rest,
  read_many (at_ pre rest) (one pick) = Ok (items rest, at_ (pre ++ taken rest) (left_ rest)).
Proof.
  intros pre rest. unfold read_many. rewrite remaining_at.
  assert (H : forall rest fuel pre acc, length rest <= fuel ->
    read_rest fuel (at_ pre rest) (one pick) acc = Ok (acc ++ items rest, at_ (pre ++ taken rest) (left_ rest))).
  { clear. induction rest as [|x rest IH]; intros fuel pre acc L.
    - destruct fuel; cbn [read_rest]; unfold one; rewrite first_at; cbn; rewrite !app_nil_r; reflexivity.
    - cbn [length] in L. destruct fuel as [|fuel]; [lia|]. cbn [read_rest]. unfold one at 1. rewrite first_at. cbn [hd_error].
      cbn [items taken left_]. destruct (pick x) as [i|] eqn:P.
      + rewrite advance_at. cbn [bind]. rewrite IH by lia. rewrite <- !app_assoc. reflexivity.
      + cbn [bind]. rewrite !app_nil_r. reflexivity. }
  rewrite H by lia. reflexivity.
Qed.

Lemma items_map : forall (inj : T -> ob), (forall i, pick (inj i) = Some i) -> forall xs rest, nohead rest ->
  items (map inj xs ++ rest) = xs /\ taken (map inj xs ++ rest) = map inj xs /\ left_ (map inj xs ++ rest) = rest.
Proof.
  intros inj Hi xs rest N. induction xs as [|x xs IH]; cbn.
  - destruct rest as [|y rest]; cbn; [auto|]. cbn in N. rewrite N. auto.
  - rewrite Hi. destruct IH as (-> & -> & ->). auto.
Qed.
End Items.

(** ** Kinds and writing out at the level of grouped instructions *)
Definition ungroup (o : ob) : Core E :=
  match o with
  | OpByBlock_OpCapability op => Core_OpCapability op
  | OpByBlock_OpExtension op => Core_OpExtension op
  | OpByBlock_OpExtInstImport op => Core_OpExtInstImport op
  | OpByBlock_OpMemoryModel op => Core_OpMemoryModel op
  | OpByBlock_OpEntryPoint op => Core_OpEntryPoint op
  | OpByBlock_OpExecutionMode op => Core_OpExecutionMode op
  | OpByBlock_GroupDebug g => core_of_debug g
  | OpByBlock_GroupAnnotation g => core_of_annotation g
  | OpByBlock_GroupGlobal g => core_of_global g
  | OpByBlock_OpFunction op => Core_OpFunction op
  | OpByBlock_OpFunctionParameter op => Core_OpFunctionParameter op
  | OpByBlock_OpFunctionEnd op => Core_OpFunctionEnd op
  | OpByBlock_OpLabel op => Core_OpLabel op
  | OpByBlock_GroupCode g => core_of_code g
  | OpByBlock_GroupMerge g => core_of_merge g
  | OpByBlock_GroupBranch g => core_of_branch g
  end.

Definition kind_b (o : ob) : kind :=
  match o with
  | OpByBlock_OpCapability _ => KCapability
  | OpByBlock_OpExtension _ => KExtension
  | OpByBlock_OpExtInstImport _ => KImport
  | OpByBlock_OpMemoryModel _ => KMemoryModel
  | OpByBlock_OpEntryPoint _ => KEntryPoint
  | OpByBlock_OpExecutionMode _ => KExecutionMode
  | OpByBlock_GroupDebug _ => KDebug
  | OpByBlock_GroupAnnotation _ => KAnnotation
  | OpByBlock_GroupGlobal _ => KGlobal
  | OpByBlock_OpFunction _ => KFunction
  | OpByBlock_OpFunctionParameter _ => KParameter
  | OpByBlock_OpFunctionEnd _ => KFunctionEnd
  | OpByBlock_OpLabel _ => KLabel
  | OpByBlock_GroupCode _ => KCode
  | OpByBlock_GroupMerge _ => KMerge
  | OpByBlock_GroupBranch _ => KTerminator
  end.

Definition canonical_b (o : ob) : Prop :=
  match o with OpByBlock_GroupGlobal g => canonical_global g | OpByBlock_GroupCode c => canonical_code c | _ => True end.

Lemma ungroup_from : forall i : Core E, ungroup (from_Core i) = i.
Proof. intros i. destruct i as []; try reflexivity. cbn [from_Core]. unfold from_OpVariable. destruct (OpVariable_storage_class o); reflexivity. Qed.

Lemma kind_from : forall i : Core E, kind_b (from_Core i) = kind_of i.
Proof.
  intros i. destruct i as []; try (vm_compute; reflexivity). cbn [from_Core kind_of]. unfold from_OpVariable.
  destruct (OpVariable_storage_class o); reflexivity.
Qed.

Lemma canonical_from : forall i : Core E, canonical_b (from_Core i).
Proof.
  intros i. destruct i as []; try exact I. cbn [from_Core]. unfold from_OpVariable.
  destruct (OpVariable_storage_class o) eqn:C; cbn; unfold function_variable; rewrite C; congruence || reflexivity.
Qed.

Lemma from_ungroup : forall o : ob, canonical_b o -> from_Core (ungroup o) = o.
Proof.
  intros o C. destruct o as [| | | | | |[]|[]|[[]|[]|v]| | | | |[]|[]|[]]; try reflexivity; cbn in *.
  - unfold function_variable in C. unfold from_OpVariable. destruct (OpVariable_storage_class v); congruence || reflexivity.
  - unfold function_variable in C. unfold from_OpVariable. rewrite C. reflexivity.
Qed.

(** ** Phases against the automaton *)
Notation kinds l := (map kind_b l).

Lemma section_run : forall {T} (pick : ob -> option T) K sa sb,
  (forall x, (exists i, pick x = Some i) <-> kind_b x = K) ->
  (forall n ks, layout sa n (K :: ks) = layout sa (S n) ks) ->
  (forall n ks, hd_error ks <> Some K -> layout sa n ks = layout sb n ks) ->
  forall l n, layout sa n (kinds l) = layout sb (n + length (taken pick l)) (kinds (left_ pick l)).
Proof.
  intros T pick K sa sb HK Ha Hb. induction l as [|x l IH]; intros n; cbn [taken left_ map].
  - cbn [length map]. rewrite Nat.add_0_r. apply Hb. discriminate.
  - destruct (pick x) as [i|] eqn:P.
    + assert (Kx : kind_b x = K) by (apply HK; eauto). rewrite Kx, Ha, IH. cbn [length]. f_equal. lia.
    + cbn [length map]. rewrite Nat.add_0_r. apply Hb. cbn. intros [= Kx]. apply HK in Kx. destruct Kx as (i & Kx). congruence.
Qed.

Ltac picks := intros x; destruct x; (split; [intros (? & Hp); (discriminate Hp || reflexivity)|intros Hp; (discriminate Hp || (eexists; reflexivity))]).
Ltac stays := intros n [|? ?]; reflexivity.
Ltac moves := intros n [|[] ks] Hh; try reflexivity; exfalso; apply Hh; reflexivity.

Definition pick_param (o : ob) := match o with OpByBlock_OpFunctionParameter op => Some op | _ => None end.
Definition pick_code (o : ob) := match o with OpByBlock_GroupCode op => Some op | _ => None end.

Definition obs_block (b : BasicBlock E) : list ob :=
  OpByBlock_OpLabel (BasicBlock_label b) :: map OpByBlock_GroupCode (BasicBlock_code b)
  ++ match BasicBlock_merge b with None => [] | Some m => [OpByBlock_GroupMerge m] end
  ++ [OpByBlock_GroupBranch (BasicBlock_branch b)].
Definition obs_decl (d : FunctionDeclaration) : list ob :=
  OpByBlock_OpFunction (FunctionDeclaration_function d)
  :: map OpByBlock_OpFunctionParameter (FunctionDeclaration_parameters d) ++ [OpByBlock_OpFunctionEnd Build_OpFunctionEnd].
Definition obs_def (d : FunctionDefinition E) : list ob :=
  OpByBlock_OpFunction (FunctionDefinition_function d)
  :: map OpByBlock_OpFunctionParameter (FunctionDefinition_parameters d)
  ++ flat_map obs_block (FunctionDefinition_blocks d) ++ [OpByBlock_OpFunctionEnd Build_OpFunctionEnd].

Lemma header_params : forall l n,
  layout Header n (kinds l) = layout Between (n + length (taken pick_param l)) (kinds (left_ pick_param l)).
Proof. apply (section_run pick_param KParameter); [picks|stays|moves]. Qed.

Lemma incode_code : forall l n,
  layout InCode n (kinds l) = layout InCode (n + length (taken pick_code l)) (kinds (left_ pick_code l)).
Proof. apply (section_run pick_code KCode); [picks|stays|reflexivity]. Qed.

(** A phase result, seen from the automaton. *)
Definition follows {T} (s : state) (obs : T -> list ob) (r : outcome ValidationError (PhaseResult T)) (pre rest : list ob)
  (stop : list ob -> Prop) : Prop :=
  match r with
  | Ok (PhaseOk d c) => exists rest', rest = obs d ++ rest' /\ c = at_ (pre ++ obs d) rest' /\ obs d <> [] /\
      layout s (length pre) (kinds rest) = layout s (length pre + length (obs d)) (kinds rest')
  | Ok (PhaseNext c) => c = at_ pre rest /\ stop rest
  | Err e => layout s (length pre) (kinds rest) = Some e
  | Panic | OutOfFuel => False
  end.

Lemma many_follows : forall {T} s (obs : T -> list ob) (f : Phase T) stop,
  (forall pre rest, follows s obs (f (at_ pre rest)) pre rest stop) ->
  forall pre rest,
  match read_many (at_ pre rest) f with
  | Ok (ds, c) => exists rest', rest = flat_map obs ds ++ rest' /\ c = at_ (pre ++ flat_map obs ds) rest' /\ stop rest' /\
      layout s (length pre) (kinds rest) = layout s (length pre + length (flat_map obs ds)) (kinds rest')
  | Err e => layout s (length pre) (kinds rest) = Some e
  | Panic | OutOfFuel => False
  end.
Proof.
  intros T s obs f stop Hf pre rest. unfold read_many. rewrite remaining_at.
  assert (H : forall fuel pre rest acc, length rest <= fuel ->
    match read_rest fuel (at_ pre rest) f acc with
    | Ok (ds', c) => exists ds rest', ds' = acc ++ ds /\ rest = flat_map obs ds ++ rest' /\ c = at_ (pre ++ flat_map obs ds) rest' /\ stop rest' /\
        layout s (length pre) (kinds rest) = layout s (length pre + length (flat_map obs ds)) (kinds rest')
    | Err e => layout s (length pre) (kinds rest) = Some e
    | Panic | OutOfFuel => False
    end).
  { clear pre rest. induction fuel as [|fuel IH]; intros pre rest acc L; cbn [read_rest];
      specialize (Hf pre rest); unfold follows in Hf; destruct (f (at_ pre rest)) as [[d c|c]|e| |]; cbn [bind]; try exact Hf.
    - destruct Hf as (rest' & -> & -> & N & _). rewrite app_length in L. destruct (obs d); [congruence|cbn [length] in L; lia].
    - destruct Hf as [-> St]. exists [], rest. cbn [flat_map]. rewrite !app_nil_r, Nat.add_0_r. auto.
    - destruct Hf as (rest' & -> & -> & N & Lay). specialize (IH (pre ++ obs d) rest' (acc ++ [d])).
      assert (L' : length rest' <= fuel). { rewrite app_length in L. destruct (obs d); [congruence|cbn [length] in L; lia]. }
      specialize (IH L'). rewrite app_length in IH.
      destruct (read_rest fuel (at_ (pre ++ obs d) rest') f (acc ++ [d])) as [[ds' c]|e| |]; try exact IH.
      + destruct IH as (ds & rest'' & -> & -> & -> & St & Lay'). exists (d :: ds), rest''. cbn [flat_map].
        rewrite <- !app_assoc. cbn [app]. repeat split; [exact St|]. rewrite Lay, Lay', app_length. f_equal. lia.
      + rewrite Lay. exact IH.
    - destruct Hf as [-> St]. exists [], rest. cbn [flat_map]. rewrite !app_nil_r, Nat.add_0_r. auto. }
  specialize (H (length rest) pre rest [] (le_n _)).
  destruct (read_rest (length rest) (at_ pre rest) f []) as [[ds' c]|e| |]; try exact H.
  destruct H as (ds & rest' & -> & H). exists rest'. exact H.
Qed.

Definition no_label (l : list ob) : Prop := match l with OpByBlock_OpLabel _ :: _ => False | _ => True end.

Lemma pick_param_inv : forall x i, pick_param x = Some i -> x = OpByBlock_OpFunctionParameter i.
Proof. intros [] i [=]; congruence. Qed.
Lemma pick_code_inv : forall x i, pick_code x = Some i -> x = OpByBlock_GroupCode i.
Proof. intros [] i [=]; congruence. Qed.

Lemma block_follows : forall pre rest, follows Between obs_block (read_basic_block (at_ pre rest)) pre rest no_label.
Proof.
  intros pre rest. unfold read_basic_block. rewrite first_at.
  destruct rest as [|x rest]; cbn [hd_error]; [split; [reflexivity|exact I]|].
  destruct x; try (split; [reflexivity|exact I]).
  rewrite advance_at. cbn [bind]. change read_code with (one pick_code). rewrite many_one. cbn [bind].
  assert (Lay : layout Between (length pre) (kinds (OpByBlock_OpLabel o :: rest))
    = layout InCode (length pre + S (length (taken pick_code rest))) (kinds (left_ pick_code rest))).
  { cbn [map kind_b]. cbn [layout step]. rewrite incode_code. f_equal. lia. }
  unfold read_merge. rewrite first_at.
  pose proof (taken_left pick_code rest) as TL. rewrite (items_taken pick_code _ pick_code_inv) in *. rewrite map_length in Lay.
  set (code := items pick_code rest) in *.
  pose proof (left_nohead pick_code rest) as NH.
  set (l := left_ pick_code rest) in *. clearbody code l. subst rest.
  assert (Tail : forall m l',
     let ms := match m with None => [] | Some g => [OpByBlock_GroupMerge g] end in
     layout Between (length pre) (kinds (OpByBlock_OpLabel o :: map OpByBlock_GroupCode code ++ l))
       = layout (match m with None => InCode | Some _ => Merged end) (length pre + S (length code) + length ms) (kinds l') ->
     l = ms ++ l' ->
     match l' with
     | OpByBlock_GroupMerge _ :: _ => m <> None
     | OpByBlock_GroupCode _ :: _ => m <> None
     | _ => True
     end ->
     follows Between obs_block
       (let! (branch, s) := read_branch (at_ (((pre ++ [OpByBlock_OpLabel o]) ++ map OpByBlock_GroupCode code) ++ ms) l') in
        Ok (PhaseOk {| BasicBlock_label := o; BasicBlock_code := code; BasicBlock_merge := m; BasicBlock_branch := branch |} s))
       pre (OpByBlock_OpLabel o :: map OpByBlock_GroupCode code ++ l) no_label).
  { intros m l' ms Hl El Nh. unfold read_branch. rewrite first_at.
    assert (Bad : match l' with OpByBlock_GroupBranch _ :: _ => False | _ => True end ->
      layout Between (length pre) (kinds (OpByBlock_OpLabel o :: map OpByBlock_GroupCode code ++ l))
        = Some (ExpectedBranch (get_slot (at_ (((pre ++ [OpByBlock_OpLabel o]) ++ map OpByBlock_GroupCode code) ++ ms) l')))).
    { intros Hb. rewrite Hl, slot_at, !app_length, map_length. cbn [length].
      replace (length pre + 1 + length code + length ms) with (length pre + S (length code) + length ms) by lia.
      destruct l' as [|y l']; [destruct m; reflexivity|]. destruct y; destruct m; try reflexivity; try (destruct Hb; fail);
      exfalso; apply Nh; reflexivity. }
    destruct l' as [|y l']; cbn [hd_error]; [cbn [bind follows]; apply Bad; exact I|].
    destruct y; try (cbn [bind follows]; apply Bad; exact I).
    rewrite advance_at. cbn [bind follows]. exists l'. unfold obs_block. cbn [BasicBlock_label BasicBlock_code BasicBlock_merge BasicBlock_branch].
    fold ms. subst l. repeat split.
    - cbn [app]. rewrite <- !app_assoc. reflexivity.
    - rewrite <- ?app_assoc. cbn [app]. rewrite <- ?app_assoc. reflexivity.
    - discriminate.
    - rewrite Hl. cbn [length]. rewrite !app_length, map_length. cbn [length]. cbn [map kind_b].
      replace (length pre + S (length code + (length ms + 1))) with (S (length pre + S (length code) + length ms)) by lia.
      destruct m; reflexivity. }
  assert (None_ : match l with OpByBlock_GroupMerge _ :: _ => False | _ => True end ->
     follows Between obs_block
       (let! (branch, s) := read_branch (at_ ((pre ++ [OpByBlock_OpLabel o]) ++ map OpByBlock_GroupCode code) l) in
        Ok (PhaseOk {| BasicBlock_label := o; BasicBlock_code := code; BasicBlock_merge := None; BasicBlock_branch := branch |} s))
       pre (OpByBlock_OpLabel o :: map OpByBlock_GroupCode code ++ l) no_label).
  { intros Hm. specialize (Tail None l). cbn zeta in Tail. rewrite app_nil_r in Tail. apply Tail.
    - rewrite Lay. cbn [length]. f_equal. lia.
    - reflexivity.
    - destruct l as [|[] l]; try exact I; [discriminate NH|destruct Hm]. }
  destruct l as [|y l]; cbn [hd_error]; [cbn [bind]; apply None_; exact I|].
  destruct y; try (cbn [bind]; apply None_; exact I).
  rewrite advance_at. cbn [bind]. apply (Tail (Some g) l).
  - rewrite Lay. cbn [length map kind_b layout step]. f_equal. lia.
  - reflexivity.
  - destruct l as [|[] l]; try exact I; discriminate.
Qed.

Definition no_declaration (l : list ob) : Prop :=
  match l with
  | [] | [_] => True
  | OpByBlock_OpFunction _ :: l' => match left_ pick_param l' with OpByBlock_OpFunctionEnd _ :: _ => False | _ => True end
  | _ => False
  end.

Lemma no_declaration_function : forall o l, l <> [] -> no_declaration (OpByBlock_OpFunction o :: l) ->
  match left_ pick_param l with OpByBlock_OpFunctionEnd _ :: _ => False | _ => True end.
Proof. intros o [|y l] N H; [congruence|exact H]. Qed.

Definition short (l : list ob) : Prop := length l < 2.

Lemma params_obs : forall l, taken pick_param l = map OpByBlock_OpFunctionParameter (items pick_param l).
Proof. apply items_taken. exact pick_param_inv. Qed.

Lemma not_function : forall x y rest n, match x with OpByBlock_OpFunction _ => False | _ => True end ->
  layout (After 5) n (kinds (x :: y :: rest)) = Some (ExpectedOpFunction n).
Proof. intros x y rest n H. destruct x; try reflexivity. destruct H. Qed.

Lemma declaration_follows : forall pre rest,
  follows (After 5) obs_decl (read_function_declaration (at_ pre rest)) pre rest no_declaration.
Proof.
  intros pre rest. unfold read_function_declaration. rewrite remaining_at.
  destruct rest as [|x [|y rest]]; [split; [reflexivity|exact I]|split; [reflexivity|destruct x; exact I]|].
  cbn [length Nat.ltb Nat.leb]. rewrite first_at. cbn [hd_error].
  destruct x; try (cbn [follows]; rewrite slot_at; apply not_function; exact I).
  rewrite advance_at. cbn [bind]. remember (y :: rest) as l eqn:El.
  change read_function_parameter with (one pick_param). rewrite many_one. cbn [bind]. rewrite first_at.
  pose proof (taken_left pick_param l) as TL. pose proof (header_params l (S (length pre))) as HP. rewrite params_obs in *.
  assert (Step : layout (After 5) (length pre) (kinds (OpByBlock_OpFunction o :: l)) = layout Header (S (length pre)) (kinds l)).
  { subst l. reflexivity. }
  assert (Nd : match left_ pick_param l with OpByBlock_OpFunctionEnd _ :: _ => False | _ => True end ->
    no_declaration (OpByBlock_OpFunction o :: l)) by (subst l; exact (fun h => h)).
  destruct (left_ pick_param l) as [|z l'] eqn:Lf; cbn [hd_error]; [split; [reflexivity|apply Nd; exact I]|].
  destruct z; try (split; [reflexivity|apply Nd; exact I]).
  rewrite advance_at. cbn [bind follows]. exists l'. unfold obs_decl. cbn [FunctionDeclaration_function FunctionDeclaration_parameters].
  destruct o0. repeat split.
  - rewrite <- TL at 1. cbn [app]. rewrite <- app_assoc. reflexivity.
  - rewrite <- !app_assoc. reflexivity.
  - discriminate.
  - rewrite Step, HP. cbn [map kind_b layout step length]. rewrite !app_length. cbn [length]. f_equal. lia.
Qed.

Lemma definition_follows : forall pre rest,
  follows (After 5) obs_def (read_function_definition (at_ pre rest)) pre rest short.
Proof.
  intros pre rest. unfold read_function_definition. rewrite remaining_at.
  destruct rest as [|x [|y rest]]; try (split; [reflexivity|unfold short; cbn; lia]).
  cbn [length Nat.ltb Nat.leb]. rewrite first_at. cbn [hd_error].
  destruct x; try (cbn [follows]; rewrite slot_at; apply not_function; exact I).
  rewrite advance_at. cbn [bind]. remember (y :: rest) as l eqn:El.
  change read_function_parameter with (one pick_param). rewrite many_one. cbn [bind].
  pose proof (taken_left pick_param l) as TL. pose proof (header_params l (S (length pre))) as HP. rewrite params_obs in *.
  assert (Step : layout (After 5) (length pre) (kinds (OpByBlock_OpFunction o :: l)) = layout Header (S (length pre)) (kinds l)).
  { subst l. reflexivity. }
  set (ps := items pick_param l) in *. pose proof (left_nohead pick_param l) as NH. set (l1 := left_ pick_param l) in *. clearbody ps l1.
  pose proof (many_follows Between obs_block read_basic_block no_label block_follows
    ((pre ++ [OpByBlock_OpFunction o]) ++ map OpByBlock_OpFunctionParameter ps) l1) as MB.
  assert (Len : length ((pre ++ [OpByBlock_OpFunction o]) ++ map OpByBlock_OpFunctionParameter ps)
     = S (length pre) + length (map (OpByBlock_OpFunctionParameter (E := E)) ps)).
  { rewrite !app_length. cbn [length]. lia. }
  rewrite Len in MB.
  destruct (read_many _ read_basic_block) as [[blocks c]|e| |]; cbn [bind]; try (destruct MB; fail).
  2: { cbn [follows]. rewrite Step, HP. exact MB. }
  destruct MB as (rest' & El1 & -> & NL & Lay). rewrite first_at.
  assert (Bad : match rest' with OpByBlock_OpFunctionEnd _ :: _ => False | _ => True end ->
    layout (After 5) (length pre) (kinds (OpByBlock_OpFunction o :: l)) =
    Some (ExpectedOpFunctionEnd (get_slot (at_ (((pre ++ [OpByBlock_OpFunction o]) ++ map OpByBlock_OpFunctionParameter ps) ++ flat_map obs_block blocks) rest')))).
  { intros Hb. rewrite Step, HP, Lay, slot_at, app_length, Len.
    destruct rest' as [|z rest']; [reflexivity|]. destruct z; try reflexivity; [destruct Hb|destruct NL]. }
  destruct rest' as [|z rest']; cbn [hd_error]; [cbn [follows]; apply Bad; exact I|].
  destruct z; try (cbn [follows]; apply Bad; exact I).
  rewrite advance_at. cbn [bind follows]. exists rest'. unfold obs_def.
  cbn [FunctionDefinition_function FunctionDefinition_parameters FunctionDefinition_blocks]. destruct o0. repeat split.
  - rewrite <- TL at 1. rewrite El1. cbn [app]. rewrite <- !app_assoc. reflexivity.
  - rewrite <- !app_assoc. reflexivity.
  - discriminate.
  - rewrite Step, HP, Lay. cbn [map kind_b layout step length]. rewrite !app_length. cbn [length]. f_equal. lia.
Qed.

(** ** The whole validator *)
Definition obs_module (m : LogicalModule E) : list ob :=
  map (fun c => OpByBlock_OpCapability (Build_OpCapability c)) (LogicalModule_capabilities m)
  ++ map (fun s => OpByBlock_OpExtension (Build_OpExtension s)) (LogicalModule_extensions m)
  ++ map OpByBlock_OpExtInstImport (LogicalModule_ext_inst_imports m)
  ++ [OpByBlock_OpMemoryModel (LogicalModule_memory_model m)]
  ++ map OpByBlock_OpEntryPoint (LogicalModule_entry_points m)
  ++ map OpByBlock_OpExecutionMode (LogicalModule_execution_modes m)
  ++ map OpByBlock_GroupDebug (LogicalModule_debug m)
  ++ map OpByBlock_GroupAnnotation (LogicalModule_annotations m)
  ++ map OpByBlock_GroupGlobal (LogicalModule_globals m)
  ++ flat_map obs_decl (LogicalModule_function_declarations m)
  ++ flat_map obs_def (LogicalModule_function_definitions m).

Definition first_has_block (m : LogicalModule E) : Prop :=
  match LogicalModule_function_definitions m with [] => True | d :: _ => FunctionDefinition_blocks d <> [] end.

Definition pick_capability (o : ob) := match o with OpByBlock_OpCapability op => Some (OpCapability_capability op) | _ => None end.
Definition pick_extension (o : ob) : option string := match o with OpByBlock_OpExtension op => Some (OpExtension_name op) | _ => None end.
Definition pick_import (o : ob) := match o with OpByBlock_OpExtInstImport op => Some op | _ => None end.
Definition pick_entry (o : ob) := match o with OpByBlock_OpEntryPoint op => Some op | _ => None end.
Definition pick_mode (o : ob) := match o with OpByBlock_OpExecutionMode op => Some op | _ => None end.
Definition pick_debug (o : ob) := match o with OpByBlock_GroupDebug op => Some op | _ => None end.
Definition pick_annotation (o : ob) := match o with OpByBlock_GroupAnnotation op => Some op | _ => None end.
Definition pick_global (o : ob) := match o with OpByBlock_GroupGlobal op => Some op | _ => None end.

Lemma run_capability : forall l n, layout (Before 0) n (kinds l) = layout (Before 1) (n + length (taken pick_capability l)) (kinds (left_ pick_capability l)).
Proof. apply (section_run pick_capability KCapability); [picks|stays|moves]. Qed.
Lemma run_extension : forall l n, layout (Before 1) n (kinds l) = layout (Before 2) (n + length (taken pick_extension l)) (kinds (left_ pick_extension l)).
Proof. apply (section_run pick_extension KExtension); [picks|stays|moves]. Qed.
Lemma run_import : forall l n, layout (Before 2) n (kinds l) = layout (Before 3) (n + length (taken pick_import l)) (kinds (left_ pick_import l)).
Proof. apply (section_run pick_import KImport); [picks|stays|moves]. Qed.
Lemma run_entry : forall l n, layout (After 0) n (kinds l) = layout (After 1) (n + length (taken pick_entry l)) (kinds (left_ pick_entry l)).
Proof. apply (section_run pick_entry KEntryPoint); [picks|stays|moves]. Qed.
Lemma run_mode : forall l n, layout (After 1) n (kinds l) = layout (After 2) (n + length (taken pick_mode l)) (kinds (left_ pick_mode l)).
Proof. apply (section_run pick_mode KExecutionMode); [picks|stays|moves]. Qed.
Lemma run_debug : forall l n, layout (After 2) n (kinds l) = layout (After 3) (n + length (taken pick_debug l)) (kinds (left_ pick_debug l)).
Proof. apply (section_run pick_debug KDebug); [picks|stays|moves]. Qed.
Lemma run_annotation : forall l n, layout (After 3) n (kinds l) = layout (After 4) (n + length (taken pick_annotation l)) (kinds (left_ pick_annotation l)).
Proof. apply (section_run pick_annotation KAnnotation); [picks|stays|moves]. Qed.
Lemma run_global : forall l n, layout (After 4) n (kinds l) = layout (After 5) (n + length (taken pick_global l)) (kinds (left_ pick_global l)).
Proof. apply (section_run pick_global KGlobal); [picks|stays|moves]. Qed.

Lemma run_short : forall l n, short l ->
  layout (After 5) n (kinds l) = if 0 <? length l then Some (UnexpectedInstruction n) else None.
Proof.
  intros l n Sh. unfold short in Sh. destruct l as [|x [|y l]]; cbn [length] in Sh; [reflexivity| |lia].
  destruct x; reflexivity.
Qed.

Lemma phase_section : forall {T} (pick : ob -> option T) inj sa sb,
  (forall x i, pick x = Some i -> x = inj i) ->
  (forall l n, layout sa n (kinds l) = layout sb (n + length (taken pick l)) (kinds (left_ pick l))) ->
  forall pre l, exists xs r, l = map inj xs ++ r
    /\ read_many (at_ pre l) (one pick) = Ok (xs, at_ (pre ++ map inj xs) r)
    /\ layout sa (length pre) (kinds l) = layout sb (length (pre ++ map inj xs)) (kinds r).
Proof.
  intros T pick inj sa sb Hi Hr pre l. exists (items pick l), (left_ pick l).
  rewrite <- (items_taken pick inj Hi), (many_one pick). repeat split.
  - symmetry. apply taken_left.
  - rewrite Hr, app_length. reflexivity.
Qed.

Ltac inverts := intros x i; destruct x; try discriminate; intros [= <-]; try reflexivity;
  match goal with |- _ ?o = _ => destruct o; reflexivity end.
Ltac phase f pick run inj xs r e1 :=
  change f with (one pick);
  match goal with |- context [read_many (at_ ?pre ?l) (one pick)] =>
    let e2 := fresh in let e3 := fresh in
    destruct (phase_section pick inj _ _ ltac:(inverts) run pre l) as (xs & r & e1 & e2 & e3);
    rewrite e2, e3; clear e2 e3; cbn [bind]
  end.

Definition validate_obs (l : list ob) : outcome ValidationError (LogicalModule E) :=
  let s := slice_new l in
  let! (capabilities, s) := read_many s read_capability in
  let! (extensions, s) := read_many s read_extension in
  let! (ext_inst_imports, s) := read_many s read_ext_inst_import in
  let! (memory_model, s) := read_memory_model s in
  let! (entry_points, s) := read_many s read_entry_point in
  let! (execution_modes, s) := read_many s read_execution_mode in
  let! (debug, s) := read_many s read_debug in
  let! (annotations, s) := read_many s read_annotation in
  let! (globals, s) := read_many s read_global in
  let! (function_declarations, s) := read_many s read_function_declaration in
  let! (function_definitions, s) := read_many s read_function_definition in
  if 0 <? get_remaining s then Err (UnexpectedInstruction (get_slot s)) else
  Ok {| LogicalModule_capabilities := capabilities;
        LogicalModule_extensions := extensions;
        LogicalModule_ext_inst_imports := ext_inst_imports;
        LogicalModule_memory_model := memory_model;
        LogicalModule_entry_points := entry_points;
        LogicalModule_execution_modes := execution_modes;
        LogicalModule_debug := debug;
        LogicalModule_annotations := annotations;
        LogicalModule_globals := globals;
        LogicalModule_function_declarations := function_declarations;
        LogicalModule_function_definitions := function_definitions |}.

Lemma validate_is_obs : forall m, validate m = validate_obs (map from_Core (RawModule_instructions m)).
Proof. reflexivity. Qed.

Lemma validate_obs_layout : forall l,
  match layout (Before 0) 0 (kinds l) with
  | Some e => validate_obs l = Err e
  | None => exists m, validate_obs l = Ok m /\ obs_module m = l /\ first_has_block m
  end.
Proof.
  intros l. unfold validate_obs. change (slice_new l) with (at_ [] l).
  change (layout (Before 0) 0 (kinds l)) with (layout (Before 0) (length (@nil ob)) (kinds l)).
  phase (@read_capability E) pick_capability run_capability (fun c => OpByBlock_OpCapability (E := E) (Build_OpCapability c)) caps l1 E1.
  phase (@read_extension E) pick_extension run_extension (fun c => OpByBlock_OpExtension (E := E) (Build_OpExtension c)) exts l2 E2.
  phase (@read_ext_inst_import E) pick_import run_import (OpByBlock_OpExtInstImport (E := E)) imps l3 E3.
  unfold read_memory_model. rewrite first_at.
  destruct l3 as [|x l3]; [reflexivity|]. cbn [hd_error].
  destruct x; try reflexivity.
  rewrite advance_at. cbn [bind map kind_b].
  match goal with |- context [layout (Before 3) ?n (KMemoryModel :: ?ks)] =>
    change (layout (Before 3) n (KMemoryModel :: ks)) with (layout (After 0) (S n) ks) end.
  match goal with |- context [at_ (?p ++ [OpByBlock_OpMemoryModel o]) l3] =>
    replace (S (length p)) with (length (p ++ [OpByBlock_OpMemoryModel o])) by (rewrite app_length; cbn [length]; lia) end.
  phase (@read_entry_point E) pick_entry run_entry (OpByBlock_OpEntryPoint (E := E)) eps l4 E4.
  phase (@read_execution_mode E) pick_mode run_mode (OpByBlock_OpExecutionMode (E := E)) ems l5 E5.
  phase (@read_debug E) pick_debug run_debug (OpByBlock_GroupDebug (E := E)) dbs l6 E6.
  phase (@read_annotation E) pick_annotation run_annotation (OpByBlock_GroupAnnotation (E := E)) ans l7 E7.
  phase (@read_global E) pick_global run_global (OpByBlock_GroupGlobal (E := E)) gls l8 E8.
  match goal with |- context [at_ ?p l8] => set (pre := p) end.
  pose proof (many_follows (After 5) obs_decl read_function_declaration no_declaration declaration_follows pre l8) as MD.
  destruct (read_many (at_ pre l8) read_function_declaration) as [[decls c]|e| |]; try (destruct MD; fail).
  2: { rewrite MD. reflexivity. }
  cbn [bind]. destruct MD as (l9 & E9 & -> & ND & ->).
  replace (length pre + length (flat_map obs_decl decls)) with (length (pre ++ flat_map obs_decl decls)) by (rewrite app_length; reflexivity).
  pose proof (many_follows (After 5) obs_def read_function_definition short definition_follows (pre ++ flat_map obs_decl decls) l9) as MD.
  destruct (read_many (at_ (pre ++ flat_map obs_decl decls) l9) read_function_definition) as [[defs c]|e| |]; try (destruct MD; fail).
  2: { rewrite MD. reflexivity. }
  cbn [bind]. destruct MD as (l10 & E10 & -> & Sh & ->).
  rewrite (run_short l10 _ Sh), remaining_at.
  destruct (0 <? length l10) eqn:L10.
  - rewrite slot_at, <- app_length. reflexivity.
  - assert (l10 = []) as -> by (destruct l10; [reflexivity|discriminate L10]). rewrite app_nil_r in E10.
    eexists. split; [reflexivity|]. unfold obs_module, first_has_block.
    cbn [LogicalModule_capabilities LogicalModule_extensions LogicalModule_ext_inst_imports LogicalModule_memory_model
      LogicalModule_entry_points LogicalModule_execution_modes LogicalModule_debug LogicalModule_annotations LogicalModule_globals
      LogicalModule_function_declarations LogicalModule_function_definitions].
    split; [rewrite E1, E2, E3, E4, E5, E6, E7, E8, E9, E10; reflexivity|].
    destruct defs as [|d defs]; [exact I|]. intros Nb. subst l9. cbn [flat_map obs_def] in ND.
    unfold obs_def in ND. rewrite Nb in ND. cbn [flat_map app] in ND. rewrite <- app_assoc in ND. cbn [app] in ND.
    apply no_declaration_function in ND; [|destruct (FunctionDefinition_parameters d); discriminate].
    pose proof (fun r => proj2 (proj2 (items_map pick_param OpByBlock_OpFunctionParameter (fun _ => eq_refl) (FunctionDefinition_parameters d)
      (OpByBlock_OpFunctionEnd Build_OpFunctionEnd :: r) eq_refl))) as EL.
    rewrite EL in ND. exact ND.
Qed.

(** ** Every written-out module is read back *)
Lemma many_forward : forall {T} (obs : T -> list ob) (f : Phase T) stop,
  (forall pre d rest, f (at_ pre (obs d ++ rest)) = Ok (PhaseOk d (at_ (pre ++ obs d) rest))) ->
  (forall d, obs d <> []) ->
  (forall pre, f (at_ pre stop) = Ok (PhaseNext (at_ pre stop))) ->
  forall ds pre, read_many (at_ pre (flat_map obs ds ++ stop)) f = Ok (ds, at_ (pre ++ flat_map obs ds) stop).
Proof.
  intros T obs f stop Hf Hn Hs ds pre. unfold read_many. rewrite remaining_at.
  assert (H : forall ds fuel pre acc, length (flat_map obs ds) <= fuel ->
    read_rest fuel (at_ pre (flat_map obs ds ++ stop)) f acc = Ok (acc ++ ds, at_ (pre ++ flat_map obs ds) stop)).
  { clear ds pre. induction ds as [|d ds IH]; intros fuel pre acc L; cbn [flat_map app].
    - rewrite !app_nil_r. destruct fuel; cbn [read_rest]; rewrite Hs; reflexivity.
    - cbn [flat_map] in L. rewrite app_length in L. specialize (Hn d).
      destruct fuel as [|fuel]; [destruct (obs d); [congruence|cbn [length] in L; lia]|].
      cbn [read_rest]. rewrite <- app_assoc, Hf. cbn [bind]. rewrite IH.
      + rewrite <- !app_assoc. reflexivity.
      + destruct (obs d); [congruence|cbn [length] in L; lia]. }
  rewrite H by (rewrite app_length; lia). reflexivity.
Qed.

Lemma section_forward : forall {T} (pick : ob -> option T) inj pre xs rest,
  (forall i, pick (inj i) = Some i) -> nohead pick rest ->
  read_many (at_ pre (map inj xs ++ rest)) (one pick) = Ok (xs, at_ (pre ++ map inj xs) rest).
Proof.
  intros T pick inj pre xs rest Hi Nh. rewrite (many_one pick). destruct (items_map pick inj Hi xs rest Nh) as (-> & -> & ->). reflexivity.
Qed.

Lemma block_forward : forall pre b rest, read_basic_block (at_ pre (obs_block b ++ rest)) = Ok (PhaseOk b (at_ (pre ++ obs_block b) rest)).
Proof.
  intros pre b rest. unfold obs_block. cbn [app]. unfold read_basic_block. rewrite first_at. cbn [hd_error].
  rewrite advance_at. cbn [bind]. change (@read_code E) with (one pick_code). rewrite <- !app_assoc.
  rewrite (section_forward pick_code) by (reflexivity || (destruct (BasicBlock_merge b); reflexivity)).
  cbn [bind]. unfold read_merge, read_branch. rewrite first_at.
  destruct b as [lab code [m|] br]; cbn [BasicBlock_merge BasicBlock_branch BasicBlock_label BasicBlock_code app hd_error];
    rewrite ?advance_at; cbn [bind]; rewrite ?first_at; cbn [hd_error]; rewrite ?advance_at; cbn [bind];
    rewrite <- ?app_assoc; cbn [app]; rewrite <- ?app_assoc; reflexivity.
Qed.

Lemma decl_forward : forall pre d rest,
  read_function_declaration (at_ pre (obs_decl d ++ rest)) = Ok (PhaseOk d (at_ (pre ++ obs_decl d) rest)).
Proof.
  intros pre d rest. unfold read_function_declaration. rewrite remaining_at.
  replace (length (obs_decl d ++ rest) <? 2) with false.
  2: { symmetry. apply Nat.ltb_ge. unfold obs_decl. cbn [app length]. rewrite !app_length. cbn [length]. lia. }
  unfold obs_decl. cbn [app]. rewrite first_at. cbn [hd_error]. rewrite advance_at. cbn [bind].
  change (@read_function_parameter E) with (one pick_param). rewrite <- !app_assoc.
  rewrite (section_forward pick_param) by reflexivity. cbn [bind app]. rewrite first_at. cbn [hd_error]. rewrite advance_at. cbn [bind].
  rewrite <- ?app_assoc. destruct d. reflexivity.
Qed.

Lemma def_forward : forall pre d rest,
  read_function_definition (at_ pre (obs_def d ++ rest)) = Ok (PhaseOk d (at_ (pre ++ obs_def d) rest)).
Proof.
  intros pre d rest. unfold read_function_definition. rewrite remaining_at.
  replace (length (obs_def d ++ rest) <? 2) with false.
  2: { symmetry. apply Nat.ltb_ge. unfold obs_def. cbn [app length]. rewrite !app_length. cbn [length]. lia. }
  unfold obs_def. cbn [app]. rewrite first_at. cbn [hd_error]. rewrite advance_at. cbn [bind].
  change (@read_function_parameter E) with (one pick_param). rewrite <- !app_assoc.
  rewrite (section_forward pick_param) by (reflexivity || (destruct (FunctionDefinition_blocks d); reflexivity)). cbn [bind].
  rewrite (many_forward obs_block read_basic_block ([OpByBlock_OpFunctionEnd Build_OpFunctionEnd] ++ rest) block_forward).
  - cbn [bind app]. rewrite first_at. cbn [hd_error]. rewrite advance_at. cbn [bind].
    rewrite <- ?app_assoc. destruct d. reflexivity.
  - discriminate.
  - intros p. unfold read_basic_block. rewrite first_at. reflexivity.
Qed.

Lemma decl_stops : forall pre (ds : list (FunctionDefinition E)),
  match ds with [] => True | d :: _ => FunctionDefinition_blocks d <> [] end ->
  read_function_declaration (at_ pre (flat_map obs_def ds)) = Ok (PhaseNext (at_ pre (flat_map obs_def ds))).
Proof.
  intros pre [|d ds] Hb; [unfold read_function_declaration; rewrite remaining_at; reflexivity|]. remember (flat_map obs_def (d :: ds)) as rest eqn:Er.
  unfold read_function_declaration. rewrite remaining_at.
  destruct (length rest <? 2); [reflexivity|].
  destruct (FunctionDefinition_blocks d) as [|b bs] eqn:Eb; [congruence|].
  assert (Er' : exists r, rest = OpByBlock_OpFunction (FunctionDefinition_function d)
     :: map OpByBlock_OpFunctionParameter (FunctionDefinition_parameters d) ++ OpByBlock_OpLabel (BasicBlock_label b) :: r).
  { subst rest. cbn [flat_map]. unfold obs_def at 1. rewrite Eb. cbn [flat_map]. unfold obs_block at 1. cbn [app]. rewrite <- !app_assoc. cbn [app].
    eexists. reflexivity. }
  destruct Er' as [r ->]. rewrite first_at. cbn [hd_error].
  rewrite advance_at. cbn [bind]. change (@read_function_parameter E) with (one pick_param).
  rewrite (section_forward pick_param) by reflexivity. cbn [bind]. rewrite first_at. reflexivity.
Qed.

Lemma nohead_map : forall {T U} (pick : ob -> option T) (inj : U -> ob) xs rest,
  (forall x, pick (inj x) = None) -> nohead pick rest -> nohead pick (map inj xs ++ rest).
Proof. intros T U pick inj [|x xs] rest H N; [exact N|apply H]. Qed.
Lemma nohead_flat : forall {T U} (pick : ob -> option T) (obs : U -> list ob) xs rest,
  (forall x r, nohead pick (obs x ++ r)) -> nohead pick rest -> nohead pick (flat_map obs xs ++ rest).
Proof. intros T U pick obs [|x xs] rest H N; [exact N|cbn [flat_map]; rewrite <- app_assoc; apply H]. Qed.
Lemma nohead_defs : forall {T} (pick : ob -> option T) (xs : list (FunctionDefinition E)),
  (forall x r, nohead pick (obs_def x ++ r)) -> nohead pick (flat_map obs_def xs).
Proof. intros T pick xs H. rewrite <- (app_nil_r (flat_map obs_def xs)). apply nohead_flat; [exact H|exact I]. Qed.

Lemma validate_obs_forward : forall m, first_has_block m -> validate_obs (obs_module m) = Ok m.
Proof.
  intros m Hb. unfold validate_obs. change (slice_new (obs_module m)) with (at_ [] (obs_module m)). unfold obs_module.
  Ltac heads := repeat first [reflexivity | apply nohead_map | apply nohead_flat | apply nohead_defs | intros ? | intros ? ?].
  change (@read_capability E) with (one pick_capability). rewrite (section_forward pick_capability) by heads. cbn [bind].
  change (@read_extension E) with (one pick_extension). rewrite (section_forward pick_extension) by heads. cbn [bind].
  change (@read_ext_inst_import E) with (one pick_import). rewrite (section_forward pick_import) by heads. cbn [bind].
  unfold read_memory_model. rewrite first_at. cbn [app hd_error]. rewrite advance_at. cbn [bind].
  change (@read_entry_point E) with (one pick_entry). rewrite (section_forward pick_entry) by heads. cbn [bind].
  change (@read_execution_mode E) with (one pick_mode). rewrite (section_forward pick_mode) by heads. cbn [bind].
  change (@read_debug E) with (one pick_debug). rewrite (section_forward pick_debug) by heads. cbn [bind].
  change (@read_annotation E) with (one pick_annotation). rewrite (section_forward pick_annotation) by heads. cbn [bind].
  change (@read_global E) with (one pick_global). rewrite (section_forward pick_global) by heads. cbn [bind].
  rewrite (many_forward obs_decl read_function_declaration _ decl_forward); [|discriminate|intros p; apply decl_stops; exact Hb].
  cbn [bind]. rewrite <- (app_nil_r (flat_map obs_def _)).
  rewrite (many_forward obs_def read_function_definition [] def_forward); [|discriminate|
    intros p; unfold read_function_definition; rewrite remaining_at; reflexivity].
  cbn [bind]. rewrite remaining_at. cbn [length Nat.ltb Nat.leb]. destruct m. reflexivity.
Qed.

(** ** Back to instructions *)
Lemma ungroup_block : forall b, map ungroup (obs_block b) = write_block b.
Proof.
  intros b. unfold obs_block, write_block. cbn [map ungroup]. f_equal. rewrite !map_app, map_map. f_equal. f_equal. destruct (BasicBlock_merge b); reflexivity.
Qed.
Lemma map_flat_map : forall {A B C} (f : B -> C) (g : A -> list B) (h : A -> list C) l,
  (forall a, map f (g a) = h a) -> map f (flat_map g l) = flat_map h l.
Proof. intros A B C f g h l H. induction l as [|a l IH]; [reflexivity|]. cbn [flat_map]. rewrite map_app, IH, H. reflexivity. Qed.
Lemma ungroup_module : forall m, map ungroup (obs_module m) = write_module m.
Proof.
  intros m. unfold obs_module, write_module. rewrite !map_app, !map_map. cbn [map ungroup].
  rewrite (map_flat_map ungroup obs_decl write_declaration), (map_flat_map ungroup obs_def write_definition); [reflexivity| |].
  - intros d. unfold obs_def, write_definition. cbn [map ungroup]. rewrite !map_app, map_map, (map_flat_map ungroup obs_block write_block _ ungroup_block). reflexivity.
  - intros d. unfold obs_decl, write_declaration. cbn [map ungroup]. rewrite map_app, map_map. reflexivity.
Qed.

Lemma Forall_map_iff : forall {A B} (f : A -> B) (P : B -> Prop) l, Forall P (map f l) <-> Forall (fun a => P (f a)) l.
Proof. intros A B f P l. rewrite !Forall_forall. setoid_rewrite in_map_iff. firstorder subst; eauto. Qed.
Lemma Forall_flat_map_iff : forall {A B} (f : A -> list B) (P : B -> Prop) l, Forall P (flat_map f l) <-> Forall (fun a => Forall P (f a)) l.
Proof.
  intros A B f P l. induction l as [|a l IH]; [split; constructor|]. cbn [flat_map]. rewrite Forall_app, IH, Forall_cons_iff. reflexivity.
Qed.
Lemma Forall_true : forall {A} (P : A -> Prop) l, (forall a, P a) -> Forall P l.
Proof. intros. apply Forall_forall. auto. Qed.

Lemma canonical_obs_block : forall b, Forall canonical_b (obs_block b) <-> canonical_block b.
Proof.
  intros b. unfold obs_block, canonical_block. rewrite Forall_cons_iff, !Forall_app, Forall_map_iff. cbn [canonical_b].
  split; [tauto|]. intros H. repeat split; [exact H|destruct (BasicBlock_merge b); repeat constructor|repeat constructor].
Qed.
Lemma canonical_obs_def : forall d, Forall canonical_b (obs_def d) <-> canonical_definition d.
Proof.
  intros d. unfold obs_def, canonical_definition. rewrite Forall_cons_iff, !Forall_app, Forall_map_iff, Forall_flat_map_iff.
  assert (H : Forall (fun a => Forall canonical_b (obs_block a)) (FunctionDefinition_blocks d) <-> Forall canonical_block (FunctionDefinition_blocks d)).
  { split; apply Forall_impl; intros b; apply canonical_obs_block. }
  rewrite H. split; [tauto|]. intros Hc. repeat split; try exact Hc; try (apply Forall_true; intros; exact I); repeat constructor.
Qed.
Lemma canonical_obs_module : forall m, (Forall canonical_b (obs_module m) /\ first_has_block m) <-> canonical m.
Proof.
  intros m. unfold obs_module, canonical, first_has_block. rewrite !Forall_app, !Forall_map_iff, !Forall_flat_map_iff. cbn [canonical_b].
  assert (H : Forall (fun a => Forall canonical_b (obs_def a)) (LogicalModule_function_definitions m)
     <-> Forall canonical_definition (LogicalModule_function_definitions m)).
  { split; apply Forall_impl; intros b; apply canonical_obs_def. }
  rewrite H. split; [tauto|]. intros (Hg & Hd & Hb). repeat split; try assumption; try (apply Forall_true; intros; exact I); try (repeat constructor).
  apply Forall_true. intros d. unfold obs_decl. constructor; [exact I|]. rewrite Forall_app, Forall_map_iff. split; [apply Forall_true; intros; exact I|repeat constructor].
Qed.

Lemma obs_of_write : forall m, canonical m -> map from_Core (write_module m) = obs_module m.
Proof.
  intros m C. apply canonical_obs_module in C. destruct C as [C _]. rewrite <- ungroup_module, map_map.
  rewrite <- (map_id (obs_module m)) at 2. apply map_ext_in. intros o Ho. apply from_ungroup. rewrite Forall_forall in C. apply C. exact Ho.
Qed.

Lemma kinds_from : forall l : list (Core E), kinds (map from_Core l) = map kind_of l.
Proof. intros l. rewrite map_map. apply map_ext. exact kind_from. Qed.

(** ** The theorems *)
Theorem validate_layout : forall m : RawModule E,
  match layout (Before 0) 0 (map kind_of (RawModule_instructions m)) with
  | Some e => validate m = Err e
  | None => exists lm, validate m = Ok lm /\ write_module lm = RawModule_instructions m /\ canonical lm
  end.
Proof.
  intros m. rewrite validate_is_obs. rewrite <- kinds_from. pose proof (validate_obs_layout (map from_Core (RawModule_instructions m))) as H.
  destruct (layout _ _ _); [exact H|]. destruct H as (lm & V & O & B). exists lm. split; [exact V|]. split.
  - rewrite <- ungroup_module, O, map_map. rewrite <- (map_id (RawModule_instructions m)) at 2. apply map_ext. exact ungroup_from.
  - apply canonical_obs_module. split; [|exact B]. rewrite O, Forall_map_iff. apply Forall_true. exact canonical_from.
Qed.

Theorem validate_iff : forall (m : RawModule E) lm,
  validate m = Ok lm <-> RawModule_instructions m = write_module lm /\ canonical lm.
Proof.
  intros m lm. split.
  - intros V. pose proof (validate_layout m) as H. destruct (layout _ _ _); [congruence|].
    destruct H as (lm' & V' & W & C). rewrite V in V'. injection V' as <-. auto.
  - intros [W C]. rewrite validate_is_obs, W, obs_of_write by exact C. apply validate_obs_forward. apply canonical_obs_module in C. apply C.
Qed.
End Layout.
