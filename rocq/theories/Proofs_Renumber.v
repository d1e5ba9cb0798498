(** Giving other numbers to the ids of a module, C136. *)
From Coq Require Import Lia.
From Coq Require FinFun.
From Verif Require Import Base Types Ops Groups ReadErr ReadBase ExtSet ReadOps Reader Glsl450 Validate Spec_Tables Spec_Operands Spec_Wire Spec_Layout Spec_Order Spec_Rearrange Spec_Link Spec_Renumber
  Proofs_Layout Proofs_Layout2 Proofs_Reader Proofs_Facts Proofs_Facts2 Proofs_Rearrange Proofs_Link.

(** ** The words of a renumbered instruction *)
Definition like (f : N -> N) (o o' : operand) : Prop := o' = o \/ exists n, o = OWord n /\ o' = OWord (f n).
Section Renumber.
Context (f : N -> N).
Lemma like_same : forall o, like f o o. Proof. left. reflexivity. Qed.
Lemma like_id : forall n, like f (OWord n) (OWord (f n)). Proof. right. exists n. split; reflexivity. Qed.
Lemma likes_same : forall os, Forall2 (like f) os os. Proof. induction os; constructor; [apply like_same|assumption]. Qed.
Lemma likes_num : forall n, Forall2 (like f) (num n) (num (f n)). Proof. intros n. constructor; [apply like_id|constructor]. Qed.
Lemma likes_app : forall a a' b b', Forall2 (like f) a a' -> Forall2 (like f) b b' -> Forall2 (like f) (a ++ b) (a' ++ b').
Proof. intros. apply Forall2_app; assumption. Qed.
Lemma likes_many : forall l, Forall2 (like f) (many num l) (many num (map f l)).
Proof. induction l as [|x l IH]; [constructor|]. cbn. constructor; [apply like_id|exact IH]. Qed.
Lemma likes_opt : forall o, Forall2 (like f) (opt num o) (opt num (option_map f o)).
Proof. intros [n|]; cbn; [apply likes_num|constructor]. Qed.
Context {E : Type} (g : E -> E).
Lemma likes_operands : forall i : Core E, Forall2 (like f) (operands i) (operands (renumber f g i)).
Proof.
  intros i. destruct i as [x|x|x|x|x|x|x|x|x|x|x|x|x|x|x|x|x|x|x|x|x|x|x|x|x|x|x|x|x|x|x|x|x|x|x|x|x|x|x|x|x|x|x|x|x|x|x|x|x|x|x|x|x|x|x|x|x|x|x|x|x|x|x|x|x|x|x|x|x|x|x|x|x|x|x|x|x|x|x|x|x|x|x|x|x|x|x|x|x|x|x|x|x|x|x|x|x|x];
    destruct x; cbn [renumber operands];
    repeat first [ apply likes_same | apply likes_num | apply likes_many | apply likes_opt | apply likes_app
      | apply Forall2_cons; [first [apply like_same | apply like_id]|] | apply Forall2_nil ].
  - destruct OpExecutionMode_mode; cbn [renumber_mode]; try apply likes_same. cbn. constructor; [left; reflexivity|]. apply likes_num.
  - induction OpPhi_variables as [|v l IH]; [constructor|]. cbn. constructor; [apply like_id|]. constructor; [apply like_id|exact IH].
Qed.
Lemma renumber_opcode : forall i : Core E, opcode (renumber f g i) = opcode i.
Proof. intros i. destruct i as [x|x|x|x|x|x|x|x|x|x|x|x|x|x|x|x|x|x|x|x|x|x|x|x|x|x|x|x|x|x|x|x|x|x|x|x|x|x|x|x|x|x|x|x|x|x|x|x|x|x|x|x|x|x|x|x|x|x|x|x|x|x|x|x|x|x|x|x|x|x|x|x|x|x|x|x|x|x|x|x|x|x|x|x|x|x|x|x|x|x|x|x|x|x|x|x|x|x]; destruct x; reflexivity. Qed.
Lemma renumber_kind : forall i : Core E, same_kind i (renumber f g i).
Proof.
  intros i. split; [symmetry; apply renumber_opcode|]. intros v w -> X. destruct v. cbn [renumber] in X. injection X as <-. reflexivity.
Qed.
Lemma renumber_representable : forall i : Core E, representable i -> representable (renumber f g i).
Proof.
  intros i. destruct i as [x|x|x|x|x|x|x|x|x|x|x|x|x|x|x|x|x|x|x|x|x|x|x|x|x|x|x|x|x|x|x|x|x|x|x|x|x|x|x|x|x|x|x|x|x|x|x|x|x|x|x|x|x|x|x|x|x|x|x|x|x|x|x|x|x|x|x|x|x|x|x|x|x|x|x|x|x|x|x|x|x|x|x|x|x|x|x|x|x|x|x|x|x|x|x|x|x|x]; destruct x; try (intros H; exact H).
  intros (A & B & C). split; [exact A|]. split; [|exact C]. cbn in *. intros X. apply B. destruct OpSource_file; [discriminate X|reflexivity].
Qed.
Hypothesis F : words_to_words f.
Lemma like_words : forall os os' ws, Forall2 (like f) os os' -> wire_operands os ws -> Forall word ws -> exists ws', wire_operands os' ws' /\ length ws' = length ws /\ Forall word ws'.
Proof.
  intros os os' ws L. revert ws. induction L as [|o o' os os' L Ls IH]; intros ws W FW; [exists ws; split; [exact W|]; split; [reflexivity|exact FW]|].
  destruct W as (w1 & w2 & -> & W1 & W2). apply Forall_app in FW as [FW1 FW2]. destruct (IH w2 W2 FW2) as (w2' & X & Y & Z).
  destruct L as [->|(n & -> & ->)].
  - exists (w1 ++ w2'). split; [exists w1, w2'; split; [reflexivity|]; split; assumption|]. split; [rewrite !app_length, Y; reflexivity|apply Forall_app; split; assumption].
  - cbn in W1. subst w1. inversion FW1; subst. exists ([f n] ++ w2'). split; [exists [f n], w2'; split; [reflexivity|]; split; [reflexivity|exact X]|].
    split; [cbn; rewrite Y; reflexivity|]. constructor; [apply F; assumption|exact Z].
Qed.

Context (known : list (ExtInstSet E)) (G : carried_by g known).
Lemma renumber_import : forall (i : Core E) id name, renumber f g i = Core_OpExtInstImport (Build_OpExtInstImport id name) -> exists n, id = f n /\ i = Core_OpExtInstImport (Build_OpExtInstImport n name).
Proof.
  intros i id name. destruct i as [x|x|x|x|x|x|x|x|x|x|x|x|x|x|x|x|x|x|x|x|x|x|x|x|x|x|x|x|x|x|x|x|x|x|x|x|x|x|x|x|x|x|x|x|x|x|x|x|x|x|x|x|x|x|x|x|x|x|x|x|x|x|x|x|x|x|x|x|x|x|x|x|x|x|x|x|x|x|x|x|x|x|x|x|x|x|x|x|x|x|x|x|x|x|x|x|x|x]; destruct x; try discriminate.
  cbn [renumber]. intros X. injection X as <- <-. eexists. split; reflexivity.
Qed.
Lemma imports_renumber : forall is : list (Core E), imports_of (map (renumber f g) is) = map (fun op => Build_OpExtInstImport (f (OpExtInstImport_result_id op)) (OpExtInstImport_name op)) (imports_of is).
Proof.
  induction is as [|i is IH]; [reflexivity|]. unfold imports_of in *. cbn [map flat_map]. rewrite IH, map_app. f_equal.
  destruct i as [x|x|x|x|x|x|x|x|x|x|x|x|x|x|x|x|x|x|x|x|x|x|x|x|x|x|x|x|x|x|x|x|x|x|x|x|x|x|x|x|x|x|x|x|x|x|x|x|x|x|x|x|x|x|x|x|x|x|x|x|x|x|x|x|x|x|x|x|x|x|x|x|x|x|x|x|x|x|x|x|x|x|x|x|x|x|x|x|x|x|x|x|x|x|x|x|x|x]; destruct x; reflexivity.
Qed.
Lemma placed_renumber : forall before i, placed known before i -> (forall op name, i = Core_OpExtInstImport op ->
    ~ In (Core_OpExtInstImport (Build_OpExtInstImport (f (OpExtInstImport_result_id op)) name)) (map (renumber f g) before)) ->
  placed known (map (renumber f g) before) (renumber f g i).
Proof.
  intros before i (wc & body & W & L1 & L2 & L3) N. inversion L3 as [|? ? L4 L5]; subst.
  assert (P : exists body', wire_instruction known (map (renumber f g) before) (renumber f g i) body' /\ length body' = length body /\ Forall word body').
  { assert (GEN : representable i /\ wire_operands (operands i) body -> exists body', (representable (renumber f g i) /\ wire_operands (operands (renumber f g i)) body') /\ length body' = length body /\ Forall word body').
    { intros [R O]. destruct (like_words _ _ _ (likes_operands i) O L5) as (body' & X & Y). exists body'. split; [|exact Y]. split; [exact (renumber_representable i R)|exact X]. }
    destruct i as [x|x|x|x|x|x|x|x|x|x|x|x|x|x|x|x|x|x|x|x|x|x|x|x|x|x|x|x|x|x|x|x|x|x|x|x|x|x|x|x|x|x|x|x|x|x|x|x|x|x|x|x|x|x|x|x|x|x|x|x|x|x|x|x|x|x|x|x|x|x|x|x|x|x|x|x|x|x|x|x|x|x|x|x|x|x|x|x|x|x|x|x|x|x|x|x|x|x]; destruct x; try (exact (GEN W)); clear GEN.
    - destruct W as (W1 & W2 & W3). destruct (like_words _ _ _ (likes_operands (Core_OpExtInstImport (Build_OpExtInstImport OpExtInstImport_result_id OpExtInstImport_name))) W1 L5) as (body' & X & Y).
      exists body'. split; [|exact Y]. split; [exact X|]. split; [exact W2|]. intros name. apply (N _ name eq_refl).
    - destruct W as (number & rest & r & -> & (name & I1 & I2) & R). cbn [Ops.OpExtInst_result_type Ops.OpExtInst_result_id Ops.OpExtInst_set Ops.OpExtInst_instruction] in *.
      apply Forall_app in L5 as [L5 L6]. inversion L5 as [|? ? X1 X2]; subst. inversion X2 as [|? ? X3 X4]; subst. inversion X4 as [|? ? X5 X6]; subst.
      destruct I2 as (b0 & s & a0 & K & K1 & K2 & ->).
      destruct (G s number rest OpExtInst_instruction ltac:(rewrite K; apply in_elt) L6 R) as (rest' & Y1 & Y2 & Y3).
      exists ([f OpExtInst_result_type; f OpExtInst_result_id; f OpExtInst_set; number] ++ rest'). split; [|split].
      + exists number, rest', (duplicate s). split; [reflexivity|]. split; [|exact Y3]. exists name. split; [|exists b0, s, a0; auto].
        apply (in_map (renumber f g)) in I1. exact I1.
      + rewrite !app_length, Y2. reflexivity.
      + apply Forall_app. split; [|exact Y1]. repeat (constructor; [first [apply F; assumption | assumption]|]). exact X6. }
  destruct P as (body' & P1 & P2 & P3). exists wc, body'. split; [exact P1|]. split.
  - destruct L1 as [L1|[L1 ->]]; [left; rewrite P2; exact L1|right; split; [exact L1|]]. destruct body'; [reflexivity|discriminate P2].
  - split; [exact L2|]. rewrite renumber_opcode. constructor; assumption.
Qed.
Theorem renumber_read : forall data m, read_module data known = Ok m ->
  ((exists data', read_module data' known = Ok (renumbered f g m)) <-> imports_differ (map (renumber f g) (RawModule_instructions m))).
Proof.
  intros data m R. split.
  - intros [data' R']. exact (proj2 (read_both known data' _ R')).
  - intros D. change (exists data', read_module data' known = Ok (renumbered f g m)) with (can_be_read known m (map (renumber f g) (RawModule_instructions m))).
    apply (read_placed known m _ (ex_intro _ data R)). intros before' i' behind' Q.
    assert (S : exists before i behind, RawModule_instructions m = before ++ i :: behind /\ before' = map (renumber f g) before /\ i' = renumber f g i).
    { apply map_eq_app in Q as (before & r & Q & <- & Q2). destruct r as [|i behind]; [discriminate Q2|]. injection Q2 as <- <-. exists before, i, behind. auto. }
    destruct S as (before & i & behind & S & -> & ->).
    assert (R1 : can_be_read known m (RawModule_instructions m)) by (exists data; rewrite R; destruct m; reflexivity).
    apply placed_renumber; [exact (proj1 (read_placed known m _ (ex_intro _ data R)) R1 _ _ _ S)|].
    intros op name -> X. rewrite Q in D. destruct op as [id nm]. cbn in X. exact (differ_before _ _ _ D name X).
Qed.
Lemma differ_apart : forall m, imports_differ (map (renumber f g) (RawModule_instructions m)) <-> imports_stay_apart f m.
Proof. intros m. unfold imports_differ, imports_stay_apart. rewrite imports_renumber, map_map. reflexivity. Qed.
Theorem renumber_iff : forall data m, read_module data known = Ok m -> ((exists data', read_module data' known = Ok (renumbered f g m)) <-> imports_stay_apart f m).
Proof. intros data m R. rewrite (renumber_read data m R). apply differ_apart. Qed.
Theorem renumber_injective : injective f -> forall data m, read_module data known = Ok m -> exists data', read_module data' known = Ok (renumbered f g m).
Proof.
  intros I data m R. apply (renumber_iff data m R). pose proof (proj2 (read_both known data m R)) as D. unfold imports_differ in D. unfold imports_stay_apart.
  rewrite <- (map_map OpExtInstImport_result_id f). apply FinFun.Injective_map_NoDup; [exact I|exact D].
Qed.
End Renumber.

Theorem renumber_validate : forall E f (g : E -> E) (m : RawModule E),
  match validate m, validate (renumbered f g m) with
  | Ok lm, Ok lm' => shape_of lm = shape_of lm' /\ write_module lm' = map (renumber f g) (write_module lm)
  | Err e, Err e' => e = e'
  | _, _ => False
  end.
Proof. intros E f g m. exact (renaming_exact (renumber f g) m (renumber_kind f g)). Qed.

Lemma glsl_carried : forall f, words_to_words f -> carried_by (renumber_glsl f) [InstSet].
Proof.
  intros f F s number ws e [<-|[]] W R. cbn [InstSet duplicate] in *. unfold glsl450_read_instruction in *.
  destruct (N.eq_dec number 13) as [->|N1]; [|destruct (N.eq_dec number 14) as [->|N2]].
  - destruct ws as [|w ws]; [discriminate R|]. cbn in R. injection R as -> <-. inversion W; subst. exists [f w]. split; [constructor; [apply F; assumption|constructor]|]. split; reflexivity.
  - destruct ws as [|w ws]; [discriminate R|]. cbn in R. injection R as -> <-. inversion W; subst. exists [f w]. split; [constructor; [apply F; assumption|constructor]|]. split; reflexivity.
  - exfalso. destruct number as [|p]; [discriminate R|]. repeat (destruct p as [p|p|]; try discriminate R; try (apply N1; reflexivity); try (apply N2; reflexivity)).
Qed.

Theorem renumber_link : forall f, words_to_words f -> forall data data' m m' a b, read_module data [InstSet] = Ok m -> validate m = Ok a -> read_module data' [InstSet] = Ok m' -> validate m' = Ok b ->
  imports_stay_apart f m' -> (forall x y, In x (LogicalModule_ext_inst_imports a) -> In y (LogicalModule_ext_inst_imports b) -> OpExtInstImport_result_id x <> f (OpExtInstImport_result_id y)) ->
  exists c, validate (renumbered f (renumber_glsl f) m') = Ok c /\ has_file [InstSet] (link a c).
Proof.
  intros f F data data' m m' a b R V R' V' S D. pose proof (renumber_validate _ f (renumber_glsl f) m') as K. rewrite V' in K.
  destruct (validate (renumbered f (renumber_glsl f) m')) as [c|e| |] eqn:VC; try contradiction. exists c. split; [reflexivity|]. destruct K as [_ K].
  destruct (proj2 (renumber_iff f (renumber_glsl f) F [InstSet] (glsl_carried f F) data' m' R') S) as [data'' R''].
  apply (linked [InstSet] a c); [exists data, m; split; assumption|exists data'', (renumbered f (renumber_glsl f) m'); split; assumption|].
  intros x y X Y Q. apply (f_equal imports_of) in K. rewrite imports_renumber, !imports_write in K. rewrite K in Y. apply in_map_iff in Y as (z & <- & Z). exact (D x z X Z Q).
Qed.

(** ** Undoing it *)
Theorem renumber_undo : forall E f f' (g g' : E -> E) (m : RawModule E), (forall n, f' (f n) = n) -> (forall e, g' (g e) = e) -> renumbered f' g' (renumbered f g m) = m.
Proof.
  intros E f f' g g' [v gen bound is] F G. assert (X : map (renumber f' g') (map (renumber f g) is) = is).
  2: { unfold renumbered, with_instructions. cbn. rewrite X. reflexivity. }
  rewrite map_map. rewrite <- (map_id is) at 2. apply map_ext. clear is.
  assert (L : forall l, map f' (map f l) = l) by (intros l; rewrite map_map; rewrite <- (map_id l) at 2; apply map_ext; exact F).
  assert (O : forall o, option_map f' (option_map f o) = o) by (intros [n|]; cbn; [rewrite F|]; reflexivity).
  assert (M : forall x, renumber_mode f' (renumber_mode f x) = x) by (intros []; try reflexivity; cbn; rewrite F; reflexivity).
  assert (P : forall l, map (renumber_phi f') (map (renumber_phi f) l) = l) by (intros l; rewrite map_map; rewrite <- (map_id l) at 2; apply map_ext; intros [a b]; unfold renumber_phi; cbn; rewrite !F; reflexivity).
  intros i. destruct i as [x|x|x|x|x|x|x|x|x|x|x|x|x|x|x|x|x|x|x|x|x|x|x|x|x|x|x|x|x|x|x|x|x|x|x|x|x|x|x|x|x|x|x|x|x|x|x|x|x|x|x|x|x|x|x|x|x|x|x|x|x|x|x|x|x|x|x|x|x|x|x|x|x|x|x|x|x|x|x|x|x|x|x|x|x|x|x|x|x|x|x|x|x|x|x|x|x|x];
    destruct x; cbn [renumber]; rewrite ?F, ?G, ?L, ?O, ?M, ?P; reflexivity.
Qed.

(** ** Not without conditions *)
From Verif Require Import Samples.
Definition two_imports : RawModule Inst := Build_RawModule (Build_Version 1%N 0%N) (Build_Generator (Tool_Other 77%N) 3%N) 3%N
  [Core_OpExtInstImport (Build_OpExtInstImport 1%N "GLSL.std.450"%string); Core_OpExtInstImport (Build_OpExtInstImport 2%N "GLSL.std.450"%string)].
Lemma two_imports_read : read_module (encode_module LittleEndian two_imports []) [InstSet] = Ok two_imports.
Proof. vm_compute. reflexivity. Qed.
Lemma not_every_numbering : ~ (forall f, words_to_words f -> forall data m, read_module data [InstSet] = Ok m -> exists data', read_module data' [InstSet] = Ok (renumbered f (renumber_glsl f) m)).
Proof.
  intros H. assert (F : words_to_words (fun _ => 1%N)) by (intros n _; reflexivity).
  pose proof (H _ F _ _ two_imports_read) as K. apply (renumber_iff _ _ F _ (glsl_carried _ F) _ _ two_imports_read) in K. unfold imports_stay_apart in K. cbn in K.
  inversion K as [|? ? K1 _]; subst. apply K1. left. reflexivity.
Qed.
