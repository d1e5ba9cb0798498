(** Proofs: the text of an instruction determines the instruction. *)
From Coq Require Import DecimalString ZArith ZifyBool ZifyNat ZifyN.
From Verif Require Import Base Types Ops Groups Glsl450 Spec_Tables Spec_Opcodes Spec_Wire Spec_Names Spec_Text
  DisplayBase DisplayTypes DisplayOps DisplayModule Proofs_Text Proofs_Text2.
Local Open Scope string_scope.

(** ** Tokens *)
Definition stop (s : string) : Prop := s = "" \/ exists s', s = String " " s'.

Lemma blank_split : forall a b s t, ~ contains " " a -> ~ contains " " b -> stop s -> stop t -> a ++ s = b ++ t -> a = b /\ s = t.
Proof.
  induction a as [|x a IH]; intros [|y b] s t A B S T H; cbn [append contains] in *.
  - auto.
  - destruct S as [->|(s' & ->)]; [discriminate|]. injection H as <- _. tauto.
  - destruct T as [->|(t' & ->)]; [discriminate|]. injection H as -> _. tauto.
  - injection H as -> H. destruct (IH b s t) as [-> ->]; tauto.
Qed.

(** Texts of [A] can be recognised at the start of a text when a blank or nothing follows. *)
Definition token {A} (d : A -> string) : Prop :=
  forall a b s t, stop s -> stop t -> d a ++ s = d b ++ t -> a = b /\ s = t.

Lemma token_word : forall A (d : A -> string), (forall a, ~ contains " " (d a)) -> (forall a b, d a = d b -> a = b) -> token d.
Proof. intros A d B I a b s t S T H. apply blank_split in H; auto. destruct H as [H ->]. split; [apply I; exact H|reflexivity]. Qed.
Lemma token_inj : forall A (d : A -> string), token d -> forall a b, d a = d b -> a = b.
Proof. intros A d T a b H. apply (T a b "" ""); [left; reflexivity..|]. rewrite !sapp_nil. exact H. Qed.

Lemma u32_token : token disp_u32.
Proof. apply token_word; [intro a; apply decimal_not; reflexivity|apply decimal_inj]. Qed.
Lemma id_token : token disp_OpId.
Proof.
  apply token_word.
  - intros a [H|H]; [discriminate|]. revert H. apply decimal_not. reflexivity.
  - intros a b H. injection H as H. apply decimal_inj. exact H.
Qed.
Lemma version_token : token disp_SourceVersion. Proof. exact u32_token. Qed.
Lemma member_token : token disp_MemberIndex. Proof. exact u32_token. Qed.

Fixpoint blankless (s : string) : bool := match s with "" => true | String c s => negb (Ascii.eqb c " ") && blankless s end.
Lemma blankless_spec : forall s, blankless s = true -> ~ contains " " s.
Proof.
  induction s as [|c s IH]; cbn [blankless]; intro H; [intros []|]. apply andb_prop in H. destruct H as [H1 H2].
  intros [Q|Q]; [subst c; discriminate H1|]. exact (IH H2 Q).
Qed.
Ltac enumeration := apply token_word; [intros []; apply blankless_spec; vm_compute; reflexivity
  |intros [] []; first [reflexivity|discriminate]].

Lemma language_token : token disp_SourceLanguage.
Proof.
  apply token_word.
  - intros []; try (apply blankless_spec; vm_compute; reflexivity). cbn [disp_SourceLanguage]. rewrite !contains_app.
    intros [H|[H|H]]; [revert H; apply blankless_spec; reflexivity|revert H; apply decimal_not; reflexivity|revert H; apply blankless_spec; reflexivity].
  - intros a b H. destruct a as [| | | | |n]; destruct b as [| | | | |m]; try reflexivity; try discriminate H. cbn [disp_SourceLanguage] in H.
    apply sapp_cancel in H. f_equal. apply decimal_inj.
    apply (f_equal (fun s => s)) in H. change (disp_u32 n ++ ")" = disp_u32 m ++ ")") in H.
    assert (R : forall a b c : string, a ++ c = b ++ c -> a = b).
    { clear. intros a. induction a as [|x a IH]; intros [|y b] c Q; [reflexivity| | |].
      - apply (f_equal String.length) in Q. cbn in Q. rewrite slength_app in Q. lia.
      - apply (f_equal String.length) in Q. cbn in Q. rewrite slength_app in Q. lia.
      - injection Q as -> Q. f_equal. eauto. }
    eapply R. exact H.
Qed.
Lemma addressing_token : token disp_AddressingModel. Proof. enumeration. Qed.
Lemma memory_model_token : token disp_MemoryModel. Proof. enumeration. Qed.
Lemma execution_model_token : token disp_ExecutionModel. Proof. enumeration. Qed.
Lemma capability_token : token disp_Capability. Proof. enumeration. Qed.
Lemma signedness_token : token disp_Signedness. Proof. enumeration. Qed.
Lemma storage_class_token : token disp_StorageClass. Proof. enumeration. Qed.
Lemma dim_token : token disp_Dim. Proof. enumeration. Qed.
Lemma depth_token : token disp_DepthStatus. Proof. enumeration. Qed.
Lemma arrayed_token : token disp_Arrayed. Proof. enumeration. Qed.
Lemma ms_token : token disp_MS. Proof. enumeration. Qed.
Lemma sampled_token : token disp_SampledStatus. Proof. enumeration. Qed.
Lemma format_token : token disp_ImageFormat. Proof. enumeration. Qed.
Lemma access_token : token disp_AccessQualifier. Proof. enumeration. Qed.
Lemma built_in_token : token disp_BuiltIn. Proof. enumeration. Qed.
Lemma attribute_token : token disp_FunctionParameterAttribute. Proof. enumeration. Qed.
Lemma rounding_token : token disp_FpRoundingMode. Proof. enumeration. Qed.
Lemma linkage_token : token disp_LinkageType. Proof. enumeration. Qed.

Lemma pair_token : forall A B (d : A -> string) (e : B -> string), token d -> token e ->
  forall a b a' b' s t, stop s -> stop t -> (d a ++ " " ++ e b) ++ s = (d a' ++ " " ++ e b') ++ t -> a = a' /\ b = b' /\ s = t.
Proof.
  intros A B d e D T a b a' b' s t S S' H. rewrite !sapp_assoc in H.
  apply D in H; [|right; eexists; reflexivity..]. destruct H as [-> H]. injection H as H.
  destruct (T _ _ _ _ S S' H) as [-> ->]. auto.
Qed.
Lemma phi_token : token disp_PhiArg.
Proof.
  intros [a b] [a' b'] s t S T H. unfold disp_PhiArg in H. cbn [PhiArg_variable PhiArg_parent] in H.
  destruct (pair_token _ _ _ _ id_token id_token _ _ _ _ _ _ S T H) as (-> & -> & ->). auto.
Qed.
Lemma weights_token : token disp_BranchWeights.
Proof.
  intros [a b] [a' b'] s t S T H. unfold disp_BranchWeights in H. cbn [BranchWeights_true_weight BranchWeights_false_weight] in H.
  destruct (pair_token _ _ _ _ u32_token u32_token _ _ _ _ _ _ S T H) as (-> & -> & ->). auto.
Qed.

Lemma sapp_cancel_r : forall a b c : string, a ++ c = b ++ c -> a = b.
Proof.
  intros a. induction a as [|x a IH]; intros [|y b] c Q; [reflexivity| | |].
  - apply (f_equal String.length) in Q. cbn in Q. rewrite slength_app in Q. lia.
  - apply (f_equal String.length) in Q. cbn in Q. rewrite slength_app in Q. lia.
  - injection Q as -> Q. f_equal. eauto.
Qed.
Lemma sapp_same_suffix : forall a b c e : string, String.length c = String.length e -> a ++ c = b ++ e -> a = b /\ c = e.
Proof.
  intros a b c e L H. apply sapp_same_length; [|exact H]. apply (f_equal String.length) in H. rewrite !slength_app in H. lia.
Qed.

(** ** Masks and the operand-carrying enumerations: injective *)
Ltac by_bools := cbn; try reflexivity; try discriminate.
Lemma fast_math_inj : forall a b, disp_FpFastMathMode a = disp_FpFastMathMode b -> a = b.
Proof. intros [[] [] [] [] []] [[] [] [] [] []] H; first [reflexivity|discriminate H]. Qed.
Lemma memory_access_inj : forall a b, disp_MemoryAccess a = disp_MemoryAccess b -> a = b.
Proof. intros [[] [] []] [[] [] []] H; first [reflexivity|discriminate H]. Qed.
Lemma selection_control_inj : forall a b, disp_SelectionControl a = disp_SelectionControl b -> a = b.
Proof. intros [[] []] [[] []] H; first [reflexivity|discriminate H]. Qed.
Lemma function_control_inj : forall a b s t, disp_FunctionControl a ++ " %" ++ s = disp_FunctionControl b ++ " %" ++ t -> a = b /\ s = t.
Proof.
  intros [[] [] [] []] [[] [] [] []] s t H; first [discriminate H|split; [reflexivity|]; eapply sapp_cancel; rewrite <- !sapp_assoc in H; exact H
    |split; [reflexivity|]; repeat (injection H as H); exact H].
Qed.

Lemma u32_inj : forall a b, disp_u32 a = disp_u32 b -> a = b.
Proof. exact decimal_inj. Qed.

Lemma loop_control_inj : forall a b, disp_LoopControl a = disp_LoopControl b -> a = b.
Proof.
  intros [u1 u2 u3 [n|]] [v1 v2 v3 [m|]] H.
  - assert (n = m /\ u1 = v1 /\ u2 = v2 /\ u3 = v3) as (-> & -> & -> & ->); [|reflexivity].
    destruct u1, u2, u3, v1, v2, v3; try discriminate H; (split; [|auto]); unfold disp_LoopControl in H; cbn in H;
      injection H as H; apply sapp_cancel_r in H; exact (u32_inj _ _ H).
  - exfalso. destruct u1, u2, u3, v1, v2, v3; discriminate H.
  - exfalso. destruct u1, u2, u3, v1, v2, v3; discriminate H.
  - destruct u1, u2, u3, v1, v2, v3; first [reflexivity|discriminate H].
Qed.

Lemma stop_blank : forall s, stop (" " ++ s). Proof. intro s. right. eexists. reflexivity. Qed.
Lemma triple_inj : forall x y z x' y' z',
  disp_u32 x ++ " " ++ disp_u32 y ++ " " ++ disp_u32 z = disp_u32 x' ++ " " ++ disp_u32 y' ++ " " ++ disp_u32 z' ->
  x = x' /\ y = y' /\ z = z'.
Proof.
  intros x y z x' y' z' H. apply u32_token in H; [|apply stop_blank..]. destruct H as [-> H]. apply sapp_cancel in H.
  apply u32_token in H; [|apply stop_blank..]. destruct H as [-> H]. apply sapp_cancel in H. apply u32_inj in H. auto.
Qed.

Lemma execution_mode_inj : forall a b, disp_ExecutionMode a = disp_ExecutionMode b -> a = b.
Proof.
  intros a b H. destruct a; destruct b; try reflexivity; try discriminate H; cbn [disp_ExecutionMode] in H; apply sapp_cancel in H.
  - apply u32_inj in H. congruence.
  - apply triple_inj in H. destruct H as (-> & -> & ->). reflexivity.
  - apply triple_inj in H. destruct H as (-> & -> & ->). reflexivity.
  - apply u32_inj in H. congruence.
  - apply (token_inj _ _ id_token) in H. congruence.
Qed.

Lemma decoration_inj : forall a b, disp_Decoration a = disp_Decoration b -> a = b.
Proof.
  intros a b H. destruct a; destruct b; try reflexivity; try discriminate H; cbn [disp_Decoration] in H; apply sapp_cancel in H;
    try (apply u32_inj in H; congruence).
  - apply (token_inj _ _ built_in_token) in H. congruence.
  - apply (token_inj _ _ attribute_token) in H. congruence.
  - apply (token_inj _ _ rounding_token) in H. congruence.
  - apply fast_math_inj in H. congruence.
  - rewrite <- !sapp_assoc in H. apply sapp_same_suffix in H.
    + destruct H as [H1 H2]. apply sapp_cancel_r in H1. apply (token_inj _ _ linkage_token) in H2. congruence.
    + repeat match goal with t : LinkageType |- _ => destruct t end; reflexivity.
Qed.

(** ** Arguments *)
Section Args.
Context {A : Type} (d : A -> string).

Lemma arg_cancel : token d -> forall x y r r', stop r -> stop r' -> format_arg d x ++ r = format_arg d y ++ r' -> x = y /\ r = r'.
Proof. intros T x y r r' R R' H. unfold format_arg in H. rewrite !sapp_assoc in H. apply sapp_cancel in H. exact (T _ _ _ _ R R' H). Qed.
Lemma arg_last : (forall x y, d x = d y -> x = y) -> forall x y, format_arg d x = format_arg d y -> x = y.
Proof. intros I x y H. apply sapp_cancel in H. apply I. exact H. Qed.
Lemma stop_arg : forall x r, stop (format_arg d x ++ r).
Proof. intros x r. right. eexists. reflexivity. Qed.
Lemma stop_arg_last : forall x, stop (format_arg d x).
Proof. intros x. right. eexists. reflexivity. Qed.
Lemma stop_option : forall x, stop (format_arg_Option d x).
Proof. intros [x|]; [right; eexists; reflexivity|left; reflexivity]. Qed.
Lemma stop_option_more : forall x r, stop r -> stop (format_arg_Option d x ++ r).
Proof. intros [x|] r R; [right; eexists; reflexivity|exact R]. Qed.
Lemma stop_vec : forall l, stop (format_arg_Vec d l).
Proof. intros [|x l]; [left; reflexivity|right; eexists; reflexivity]. Qed.

Lemma option_last : (forall x y, d x = d y -> x = y) -> forall x y, format_arg_Option d x = format_arg_Option d y -> x = y.
Proof. intros I [x|] [y|] H; try discriminate H; [|reflexivity]. apply sapp_cancel in H. apply I in H. congruence. Qed.
Lemma vec_last : token d -> forall l l', format_arg_Vec d l = format_arg_Vec d l' -> l = l'.
Proof.
  intros T l. induction l as [|x l IH]; intros [|y l'] H; try discriminate H; [reflexivity|].
  cbn [format_arg_Vec] in H. apply sapp_cancel in H. apply T in H; [|apply stop_vec..]. destruct H as [-> H]. f_equal. auto.
Qed.
End Args.

Lemma string_inj : forall s t, display_arg_String s = display_arg_String t -> s = t.
Proof. intros s t H. injection H as H. apply sapp_cancel_r in H. exact H. Qed.

Lemma quote_free_ids : forall l, ~ contains """" (format_arg_Vec disp_OpId l).
Proof.
  induction l as [|x l IH]; [intros []|]. cbn [format_arg_Vec]. unfold disp_OpId. rewrite !contains_app.
  intros [H|[[H|H]|H]]; [|destruct H as [H|[]]; discriminate H|revert H; apply decimal_not; reflexivity|exact (IH H)].
  destruct H as [H|[]]. discriminate H.
Qed.

Lemma last_quote : forall s t u v, ~ contains """" u -> ~ contains """" v -> s ++ """" ++ u = t ++ """" ++ v -> s = t /\ u = v.
Proof.
  induction s as [|x s IH]; intros [|y t] u v U V H.
  - injection H as ->. auto.
  - exfalso. cbn in H. injection H as _ H. apply U. rewrite H. rewrite contains_app. right. cbn. left. reflexivity.
  - exfalso. cbn in H. injection H as _ H. apply V. rewrite <- H. rewrite contains_app. right. cbn. left. reflexivity.
  - cbn [append] in H. injection H as -> H. destruct (IH t u v U V H) as [-> ->]. auto.
Qed.

Lemma string_ids : forall s t l l', format_arg display_arg_String s ++ format_arg_Vec disp_OpId l
  = format_arg display_arg_String t ++ format_arg_Vec disp_OpId l' -> s = t /\ l = l'.
Proof.
  intros s t l l' H. unfold format_arg, display_arg_String in H. rewrite !sapp_assoc in H. do 2 apply sapp_cancel in H.
  apply last_quote in H; [|apply quote_free_ids..]. destruct H as [-> H]. apply vec_last in H; [|exact id_token]. auto.
Qed.
Lemma source_last : forall f f' s s', format_arg_Option disp_OpId f ++ format_arg_Option display_arg_String s
  = format_arg_Option disp_OpId f' ++ format_arg_Option display_arg_String s' -> f = f' /\ s = s'.
Proof.
  intros [f|] [f'|] s s' H.
  - cbn [format_arg_Option] in H. rewrite !sapp_assoc in H. apply sapp_cancel in H. apply id_token in H; [|apply stop_option..].
    destruct H as [-> H]. apply option_last in H; [|exact string_inj]. auto.
  - destruct s'; discriminate H.
  - destruct s; discriminate H.
  - cbn [format_arg_Option append] in H. apply option_last in H; [|exact string_inj]. auto.
Qed.
Lemma control_id_last : forall c c' t t', format_arg disp_FunctionControl c ++ format_arg disp_OpId t
  = format_arg disp_FunctionControl c' ++ format_arg disp_OpId t' -> c = c' /\ t = t'.
Proof.
  intros c c' t t' H. unfold format_arg in H. rewrite !sapp_assoc in H. apply sapp_cancel in H.
  apply (function_control_inj c c' (disp_u32 t) (disp_u32 t')) in H. destruct H as [-> H]. apply u32_inj in H. auto.
Qed.

Lemma result_inj : forall r r', String.length (disp_Result r) = 15 -> String.length (disp_Result r') = 15 -> forall x y,
  disp_Result r ++ x = disp_Result r' ++ y -> r = r' /\ x = y.
Proof.
  intros r r' L L' x y H. apply sapp_same_length in H; [|congruence]. destruct H as [H ->]. split; [|reflexivity].
  unfold disp_Result in H. apply sapp_cancel_r in H. unfold pad_right12 in H. rewrite !spaces_blanks in H.
  revert H. generalize (12 - String.length (disp_OpId r)) (12 - String.length (disp_OpId r')).
  unfold disp_OpId. induction n as [|n IH]; intros [|m] H; cbn in H; try discriminate H.
  - injection H as H. apply u32_inj. exact H.
  - injection H as H. exact (IH m H).
Qed.

Lemma opcode_name_inj : forall n m name, opcode_name n = Some name -> opcode_name m = Some name -> n = m.
Proof.
  assert (D : NoDup (map snd opcode_names)).
    { assert (B : forall l : list string, (fix nd l := match l with [] => true | x :: l => negb (existsb (String.eqb x) l) && nd l end) l = true -> NoDup l).
      { induction l as [|x l IH]; intro H; [constructor|]. apply andb_prop in H. destruct H as [H1 H2]. constructor; [|exact (IH H2)].
        intro Hin. assert (existsb (String.eqb x) l = true) by (apply existsb_exists; exists x; split; [exact Hin|apply String.eqb_refl]).
        rewrite H in H1. discriminate H1. }
      apply B. vm_compute. reflexivity. }
    intros n m name Hn Hm. unfold opcode_name in *. destruct (find _ opcode_names) as [[k s]|] eqn:F in Hn; [|discriminate].
    destruct (find _ opcode_names) as [[k' s']|] eqn:F' in Hm; [|discriminate]. injection Hn as ->. injection Hm as ->.
    apply find_some in F. apply find_some in F'. cbn [fst] in F, F'. destruct F as [F1 F2], F' as [F1' F2'].
    apply N.eqb_eq in F2, F2'. subst k k'. clear - D F1 F1'.
    induction opcode_names as [|p l IH]; [destruct F1|]. cbn [map] in D. inversion D as [|? ? N1 N2]; subst.
    destruct F1 as [->|F1], F1' as [Q|F1']; [congruence| | |auto].
    - exfalso. apply N1. apply in_map_iff. exists (m, name). auto.
    - subst p. exfalso. apply N1. apply in_map_iff. exists (n, name). auto.
Qed.

Section Faithful.
Context {E : Type} (d : E -> string).

Lemma name_blankless : forall i : Core E, ~ contains " " (name_of i).
Proof. intros []; apply blankless_spec; vm_compute; reflexivity. Qed.

Lemma name_opcode : forall i j : Core E, name_of i = name_of j -> opcode i = opcode j.
Proof. intros i j H. eapply opcode_name_inj; [apply name_of_some|]. rewrite H. apply name_of_some. Qed.

Lemma stop_spaced : forall l, stop (spaced l).
Proof. intros [|x l]; [left; reflexivity|right; eexists; reflexivity]. Qed.

Lemma same_opcode : forall i j : Core E, result_fits i -> result_fits j -> disp_Core d i = disp_Core d j -> opcode i = opcode j.
Proof.
  intros i j Fi Fj H. destruct (line_shape d i) as (ti & Hi), (line_shape d j) as (tj & Hj). rewrite Hi, Hj in H.
  apply sapp_same_length in H.
  - destruct H as [_ H]. apply blank_split in H; try apply name_blankless; try apply stop_spaced. apply name_opcode. apply H.
  - destruct (column_form i Fi) as [-> _], (column_form j Fj) as [-> _]. reflexivity.
Qed.

Ltac stops := match goal with
  | |- stop (format_arg _ _ ++ _) => apply stop_arg
  | |- stop (format_arg _ _) => apply stop_arg_last
  | |- stop (format_arg_Option _ _) => apply stop_option
  | |- stop (format_arg_Option _ _ ++ _) => apply stop_option_more; stops
  | |- stop (format_arg_Vec _ _) => apply stop_vec
  end.
Ltac tokens := match goal with
  | |- token disp_u32 => exact u32_token
  | |- token disp_OpId => exact id_token
  | |- token disp_SourceVersion => exact version_token
  | |- token disp_MemberIndex => exact member_token
  | |- token disp_SourceLanguage => exact language_token
  | |- token disp_AddressingModel => exact addressing_token
  | |- token disp_MemoryModel => exact memory_model_token
  | |- token disp_ExecutionModel => exact execution_model_token
  | |- token disp_Capability => exact capability_token
  | |- token disp_Signedness => exact signedness_token
  | |- token disp_StorageClass => exact storage_class_token
  | |- token disp_Dim => exact dim_token
  | |- token disp_DepthStatus => exact depth_token
  | |- token disp_Arrayed => exact arrayed_token
  | |- token disp_MS => exact ms_token
  | |- token disp_SampledStatus => exact sampled_token
  | |- token disp_ImageFormat => exact format_token
  | |- token disp_AccessQualifier => exact access_token
  | |- token disp_BuiltIn => exact built_in_token
  | |- token disp_FunctionParameterAttribute => exact attribute_token
  | |- token disp_FpRoundingMode => exact rounding_token
  | |- token disp_LinkageType => exact linkage_token
  | |- token disp_PhiArg => exact phi_token
  | |- token disp_BranchWeights => exact weights_token
  end.
Ltac injs := match goal with
  | |- forall x y, display_arg_String x = _ -> _ => exact string_inj
  | |- forall x y, disp_ExecutionMode x = _ -> _ => exact execution_mode_inj
  | |- forall x y, disp_Decoration x = _ -> _ => exact decoration_inj
  | |- forall x y, disp_LoopControl x = _ -> _ => exact loop_control_inj
  | |- forall x y, disp_SelectionControl x = _ -> _ => exact selection_control_inj
  | |- forall x y, disp_MemoryAccess x = _ -> _ => exact memory_access_inj
  | I : forall x y, ?d x = ?d y -> x = y |- forall x y, ?d x = _ -> _ => exact I
  | |- _ => apply token_inj; tokens
  end.
Ltac peel H := repeat (match type of H with
  | format_arg display_arg_String _ ++ _ = _ => apply string_ids in H
  | format_arg_Option _ _ ++ _ = _ => apply source_last in H
  | format_arg disp_FunctionControl _ ++ _ = _ => apply control_id_last in H
  | format_arg ?f _ ++ _ = _ => apply (arg_cancel f ltac:(tokens)) in H; [|stops..]
  | format_arg ?f _ = _ => apply (arg_last f ltac:(injs)) in H
  | format_arg_Option ?f _ = _ => apply (option_last f ltac:(injs)) in H
  | format_arg_Vec ?f _ = _ => apply (vec_last f ltac:(tokens)) in H
  end;
  repeat match type of H with _ /\ _ => let Q := fresh "Q" in destruct H as [Q H] end).

Hypothesis d_inj : forall a b, d a = d b -> a = b.

Ltac column H Li Lj := match type of H with
  | disp_NoResult ++ _ = _ => apply sapp_cancel in H
  | disp_Result ?r ++ _ = disp_Result ?r' ++ _ =>
      let Q := fresh "Q" in
      apply (result_inj r r' ltac:(match type of Li with _ (_ (_ ?o)) = _ => clear H; destruct o; exact Li end)
                             ltac:(match type of Lj with _ (_ (_ ?o)) = _ => clear H; destruct o; exact Lj end)) in H; destruct H as [Q H]
  end; try (apply sapp_cancel in H).

Theorem core_inj : forall i j : Core E, result_fits i -> result_fits j -> disp_Core d i = disp_Core d j -> i = j.
Proof.
  intros i j Fi Fj H. pose proof (same_opcode i j Fi Fj H) as O.
  assert (Li : String.length (column_of i) = 15) by apply (column_form i Fi).
  assert (Lj : String.length (column_of j) = 15) by apply (column_form j Fj).
  destruct i; destruct j; try discriminate O; clear O Fi Fj; revert H; cbn [disp_Core]; unfold_ops; intro H.
  all: column H Li Lj.
  all: peel H; clear Li Lj; match goal with |- _ ?x = _ ?y => destruct x, y end; cbn in *; try congruence.
Qed.
End Faithful.
