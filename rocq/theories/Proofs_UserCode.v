(** Copying and comparing modules with the user's clone and eq: C105, C106. *)
From Verif Require Import Base Types Ops Groups EqBase Equality ModuleState Spec_Layout Spec_Copies Spec_Equality Spec_UserCode
  Proofs_Equality Proofs_Equality2.

Section Clone.
Context {E W : Type} (clone : E -> W -> option E * W).

Lemma copied_app : forall a b w js w', copied clone w (a ++ b) js w' <->
  exists js1 js2 w1, js = js1 ++ js2 /\ copied clone w a js1 w1 /\ copied clone w1 b js2 w'.
Proof.
  induction a as [|i a IH]; intros b w js w'.
  - split; [intros H; exists [], js, w; repeat split; [constructor|exact H]|].
    intros (js1 & js2 & w1 & -> & H1 & H2). inversion H1; subst. exact H2.
  - split.
    + cbn. intros H. inversion H; subst.
      * match goal with K : copied _ _ (a ++ b) _ _ |- _ => apply IH in K; destruct K as (js1 & js2 & w1 & -> & H1 & H2) end.
        exists (i :: js1), js2, w1. repeat split; [constructor; assumption|exact H2].
      * match goal with K : copied _ _ (a ++ b) _ _ |- _ => apply IH in K; destruct K as (js1 & js2 & w2 & -> & H1 & H2) end.
        eexists (extended _ _ _ _ :: js1), js2, w2. repeat split; [econstructor; eassumption|exact H2].
    + intros (js1 & js2 & w1 & -> & H1 & H2). cbn. inversion H1; subst; cbn.
      * constructor; [assumption|]. apply IH. eexists _, _, _. repeat split; eassumption.
      * econstructor; [eassumption|]. apply IH. eexists _, _, _. repeat split; eassumption.
Qed.

Lemma copied_same_length : forall w is js w', copied clone w is js w' -> length is = length js.
Proof. intros w is js w' H. induction H; cbn; congruence. Qed.

Lemma panics_app : forall a b w w', copying_panics clone w (a ++ b) w' <->
  copying_panics clone w a w' \/ exists js w1, copied clone w a js w1 /\ copying_panics clone w1 b w'.
Proof.
  intros a b w w'. split.
  - intros (before & t & r & s & x & after & js & w1 & Q & H1 & H2).
    assert (forall (a before : list (Core E)) b i after, a ++ b = before ++ i :: after ->
      (exists rest, a = before ++ i :: rest /\ after = rest ++ b) \/ (exists more, before = a ++ more /\ b = more ++ i :: after)) as Split.
    { clear. induction a as [|x a IH]; intros before b i after H.
      - right. exists before. split; [reflexivity|exact H].
      - destruct before as [|y before]; cbn in H; injection H as -> H.
        + left. exists a. split; [reflexivity|congruence].
        + destruct (IH _ _ _ _ H) as [(rest & -> & ->)|(more & -> & ->)]; [left; exists rest|right; exists more]; split; reflexivity. }
    destruct (Split _ _ _ _ _ Q) as [(rest & -> & _)|(more & -> & ->)].
    + left. exists before, t, r, s, x, rest, js, w1. repeat split; assumption.
    + apply copied_app in H1. destruct H1 as (js1 & js2 & w2 & -> & H1 & H3). right. exists js1, w2. split; [exact H1|].
      exists more, t, r, s, x, after, js2, w1. repeat split; assumption.
  - intros [(before & t & r & s & x & after & js & w1 & -> & H1 & H2)|(js1 & w2 & H0 & before & t & r & s & x & after & js & w1 & -> & H1 & H2)].
    + exists before, t, r, s, x, (after ++ b), js, w1. rewrite <- app_assoc. repeat split; assumption.
    + exists (a ++ before), t, r, s, x, after, (js1 ++ js), w1. rewrite <- app_assoc. repeat split; [|exact H2].
      apply copied_app. exists js1, js, w2. repeat split; assumption.
Qed.

Lemma copied_unique : forall w is js w', copied clone w is js w' -> forall js2 w2, copied clone w is js2 w2 -> js = js2 /\ w' = w2.
Proof.
  intros w is js w' H. induction H as [w|w i is js w' P H IH|w t r s x y w1 is js w' C H IH]; intros js2 w2 H2; inversion H2; subst.
  - split; reflexivity.
  - match goal with K : copied _ _ is _ _ |- _ => destruct (IH _ _ K) as [-> ->] end. split; reflexivity.
  - destruct (P _ eq_refl).
  - match goal with K : plain _ |- _ => destruct (K _ eq_refl) end.
  - match goal with K : clone x w = (Some ?z, ?v) |- _ => rewrite C in K; injection K as <- <- end.
    match goal with K : copied _ _ is _ _ |- _ => destruct (IH _ _ K) as [-> ->] end. split; reflexivity.
Qed.

(** A computation that copies the instructions [code a] of [a], and gives a value of the same shape. *)
Record copies {A} (code : A -> list (Core E)) (shape : A -> A -> Prop) (run : A -> crun A) : Prop := {
  copies_value : forall a w a' w', run a w = (Some a', w') <-> shape a a' /\ copied clone w (code a) (code a') w';
  copies_panic : forall a w w', run a w = (None, w') <-> copying_panics clone w (code a) w';
  copies_shape : forall a a', shape a a' -> length (code a) = length (code a') }.

Lemma no_panic_empty : forall w w', ~ copying_panics clone w [] w'.
Proof. intros w w' (before & t & r & s & x & after & js & w1 & Q & _). destruct before; discriminate. Qed.

Lemma app_same_length : forall {A} (a b c d : list A), a ++ b = c ++ d -> length a = length c -> a = c /\ b = d.
Proof.
  intros A a. induction a as [|x a IH]; intros b [|y c] d H L; cbn in *; try discriminate; [split; [reflexivity|exact H]|].
  injection H as -> H. injection L as L. destruct (IH _ _ _ H L) as [-> ->]. split; reflexivity.
Qed.

Lemma copies_Vec : forall A code shape (run : A -> crun A), copies code shape run ->
  copies (flat_map code) (Forall2 shape) (clone_Vec_in run).
Proof.
  intros A code shape run [V P L]. constructor.
  - induction a as [|a l IH]; intros w l' w'.
    + cbn. split.
      * intros [= <- <-]. split; constructor.
      * intros [F C]. inversion F; subst. inversion C; subst. reflexivity.
    + cbn [clone_Vec_in flat_map]. unfold cthen. split.
      * destruct (run a w) as [[a'|] w1] eqn:R; [|discriminate]. destruct (clone_Vec_in run l w1) as [[l1|] w2] eqn:R2; [|discriminate].
        intros [= <- <-]. apply V in R. apply IH in R2. destruct R as [S1 C1], R2 as [S2 C2]. split; [constructor; assumption|].
        cbn [flat_map]. apply copied_app. eexists _, _, w1. repeat split; eassumption.
      * intros [F C]. inversion F; subst. cbn [flat_map] in C. apply copied_app in C. destruct C as (js1 & js2 & w1 & Q & C1 & C2).
        pose proof (copied_same_length _ _ _ _ C1) as L1. match goal with S : shape a _ |- _ => pose proof (L _ _ S) as L2 end.
        apply app_same_length in Q; [|congruence]. destruct Q as [<- <-].
        match goal with S : shape a ?y |- _ => assert (run a w = (Some y, w1)) as -> by (apply V; split; assumption) end.
        match goal with S : Forall2 shape l ?y |- _ => assert (clone_Vec_in run l w1 = (Some y, w')) as -> by (apply IH; split; assumption) end.
        reflexivity.
  - induction a as [|a l IH]; intros w w'.
    + cbn. split; [discriminate|]. intros H. destruct (no_panic_empty _ _ H).
    + cbn [clone_Vec_in flat_map]. unfold cthen. split.
      * destruct (run a w) as [[a'|] w1] eqn:R.
        -- destruct (clone_Vec_in run l w1) as [[l1|] w2] eqn:R2; [discriminate|]. intros [= <-]. apply V in R. apply IH in R2.
           apply panics_app. right. exists (code a'), w1. split; [apply R|exact R2].
        -- intros [= <-]. apply P in R. apply panics_app. left. exact R.
      * intros H. apply panics_app in H. destruct H as [H|(js & w1 & C & H)].
        -- apply P in H. rewrite H. reflexivity.
        -- destruct (run a w) as [[a'|] w2] eqn:R.
           ++ apply V in R. destruct R as [S C2].
              destruct (copied_unique _ _ _ _ C _ _ C2) as [-> ->].
              apply IH in H. rewrite H. reflexivity.
           ++ apply P in R. destruct R as (before & t & r & s & x & after & js2 & w3 & Q & C2 & X). exfalso. rewrite Q in C.
              apply copied_app in C. destruct C as (js3 & js4 & w4 & _ & C3 & C4).
              destruct (copied_unique _ _ _ _ C2 _ _ C3) as [-> ->].
              inversion C4; subst; [match goal with K : plain _ |- _ => destruct (K _ eq_refl) end|]. congruence.
  - intros a a' F. induction F as [|x y l l' S F IH]; [reflexivity|]. cbn. rewrite !app_length, IH, (L _ _ S). reflexivity.
Qed.

Lemma plain_or_extended : forall i : Core E, plain i \/ exists t r s x, i = extended t r s x.
Proof.
  intros i. destruct i; try (left; intros op; discriminate). right.
  match goal with op : OpExtInst E |- _ => destruct op as [t r s x] end. exists t, r, s, x. reflexivity.
Qed.
Lemma clone_plain : forall (i : Core E) w, plain i -> clone_Core_in clone i w = (Some i, w).
Proof. intros i w P. destruct i; try reflexivity. destruct (P _ eq_refl). Qed.

Lemma copied_one : forall w i j w', copied clone w [i] [j] w' <->
  (plain i /\ j = i /\ w' = w) \/ (exists t r s x y, i = extended t r s x /\ j = extended t r s y /\ clone x w = (Some y, w')).
Proof.
  intros w i j w'. split.
  - intros H. inversion H; subst; match goal with K : copied _ _ [] _ _ |- _ => inversion K; subst end.
    + left. repeat split. assumption.
    + right. do 5 eexists. repeat split. assumption.
  - intros [(P & -> & ->)|(t & r & s & x & y & -> & -> & C)]; [constructor; [exact P|constructor]|econstructor; [exact C|constructor]].
Qed.
Lemma panics_one : forall w i w', copying_panics clone w [i] w' <-> exists t r s x, i = extended t r s x /\ clone x w = (None, w').
Proof.
  intros w i w'. split.
  - intros (before & t & r & s & x & after & js & w1 & Q & C & X). destruct before as [|b [|c before]]; cbn in Q; try discriminate.
    injection Q as -> <-. inversion C; subst. do 4 eexists. split; [reflexivity|exact X].
  - intros (t & r & s & x & -> & X). exists [], t, r, s, x, [], [], w. repeat split; [constructor|exact X].
Qed.

Lemma copies_Core : copies (fun i => [i]) (fun _ _ => True) (clone_Core_in clone).
Proof.
  constructor; [| |reflexivity].
  - intros i w j w'. rewrite copied_one. destruct (plain_or_extended i) as [P|(t & r & s & x & ->)].
    + rewrite (clone_plain _ _ P). split; [intros [= <- <-]; split; [exact I|left; repeat split; exact P]|].
      intros [_ [(_ & -> & ->)|(t & r & s & x & y & -> & _)]]; [reflexivity|destruct (P _ eq_refl)].
    + cbn. unfold clone_OpExtInst_in, cthen, cpure. cbn. destruct (clone x w) as [[y|] w1] eqn:C.
      * split.
        -- intros [= <- <-]. split; [exact I|]. right. exists t, r, s, x, y. repeat split. exact C.
        -- intros [_ [(P & _)|(t2 & r2 & s2 & x2 & y2 & Q & -> & C2)]]; [destruct (P _ eq_refl)|]. injection Q as <- <- <- <-.
           rewrite C in C2. injection C2 as <- <-. reflexivity.
      * split; [discriminate|]. intros [_ [(P & _)|(t2 & r2 & s2 & x2 & y2 & Q & -> & C2)]]; [destruct (P _ eq_refl)|].
        injection Q as <- <- <- <-. rewrite C in C2. discriminate.
  - intros i w w'. rewrite panics_one. destruct (plain_or_extended i) as [P|(t & r & s & x & ->)].
    + rewrite (clone_plain _ _ P). split; [discriminate|]. intros (t & r & s & x & -> & _). destruct (P _ eq_refl).
    + cbn. unfold clone_OpExtInst_in, cthen, cpure. cbn. destruct (clone x w) as [[y|] w1] eqn:C.
      * split; [discriminate|]. intros (t2 & r2 & s2 & x2 & Q & C2). injection Q as <- <- <- <-. rewrite C in C2. discriminate.
      * split; [intros [= <-]; exists t, r, s, x; split; [reflexivity|exact C]|].
        intros (t2 & r2 & s2 & x2 & Q & C2). injection Q as <- <- <- <-. rewrite C in C2. injection C2 as <-. reflexivity.
Qed.

Lemma clone_code : forall (g : GroupCode E) w,
  clone_Core_in clone (core_of_code g) w
  = (let (r, w) := clone_GroupCode_in clone g w in (match r with Some g => Some (core_of_code g) | None => None end, w)).
Proof. intros g w. destruct g; try reflexivity. cbn. unfold cthen, cpure. destruct (clone_OpExtInst_in clone _ w) as [[y|] w1]; reflexivity. Qed.
Lemma core_of_code_injective : forall g h : GroupCode E, core_of_code g = core_of_code h -> g = h.
Proof.
  intros g h H. destruct g, h; try discriminate H; try (injection H as H; f_equal; exact H).
  all: repeat match goal with x : OpNop |- _ => destruct x end; reflexivity.
Qed.

Lemma copies_GroupCode : copies (fun g => [core_of_code g]) (fun _ _ => True) (clone_GroupCode_in clone).
Proof.
  constructor; [| |reflexivity].
  - intros g w h w'. rewrite <- (copies_value _ _ _ copies_Core (core_of_code g) w (core_of_code h) w'), clone_code.
    destruct (clone_GroupCode_in clone g w) as [[k|] w1]; [|split; discriminate].
    split; [intros [= <- <-]; reflexivity|]. intros H. injection H as H <-. apply core_of_code_injective in H. congruence.
  - intros g w w'. rewrite <- (copies_panic _ _ _ copies_Core (core_of_code g) w w'), clone_code.
    destruct (clone_GroupCode_in clone g w) as [[k|] w1]; split; try discriminate; intros [= <-]; reflexivity.
Qed.

Lemma flat_singletons : forall {A B} (f : A -> B) l, flat_map (fun a => [f a]) l = map f l.
Proof. intros A B f l. induction l as [|a l IH]; [reflexivity|]. cbn. rewrite IH. reflexivity. Qed.
Lemma Forall2_True : forall {A B} (a : list A) (b : list B), Forall2 (fun _ _ => True) a b <-> length a = length b.
Proof.
  intros A B a. induction a as [|x a IH]; intros [|y b]; cbn; split; intros H; try (inversion H; fail); try constructor; try discriminate.
  - inversion H; subst. f_equal. apply IH. assumption.
  - exact I.
  - apply IH. congruence.
Qed.

(** A structure around a list. *)
Lemma copies_struct : forall A B (code : B -> list (Core E)) (shape : B -> B -> Prop) (field : A -> list B) (put : A -> list B -> A)
  (code' : A -> list (Core E)) (shape' : A -> A -> Prop) (runs : list B -> crun (W := W) (list B)),
  copies (flat_map code) (Forall2 shape) runs ->
  (forall a, code' a = flat_map code (field a)) ->
  (forall a a', shape' a a' <-> Forall2 shape (field a) (field a') /\ a' = put a (field a')) ->
  (forall a l, field (put a l) = l) ->
  copies code' shape' (fun a => cthen (runs (field a)) (fun l => cpure (put a l))).
Proof.
  intros A B code shape field put code' shape' runs [V P L] HC HS HF. constructor.
  - intros a w a' w'. unfold cthen, cpure. rewrite !HC, HS. split.
    + destruct (runs (field a) w) as [[l|] w1] eqn:R; [|discriminate]. intros [= <- <-]. apply V in R. rewrite HF. destruct R as [S C].
      repeat split; assumption.
    + intros [[S Q] C]. assert (runs (field a) w = (Some (field a'), w')) as -> by (apply V; split; assumption). rewrite <- Q. reflexivity.
  - intros a w w'. unfold cthen, cpure. rewrite HC, <- P. destruct (runs (field a) w) as [[l|] w1]; split; try discriminate; intros [= <-]; reflexivity.
  - intros a a' S. apply HS in S. rewrite !HC. apply L. apply S.
Qed.

Lemma copies_BasicBlock : copies block_code same_block (clone_BasicBlock_in clone).
Proof.
  apply (copies_struct (BasicBlock E) (GroupCode E) (fun g => [core_of_code g]) (fun _ _ => True) BasicBlock_code
    (fun b code => Build_BasicBlock (BasicBlock_label b) code (BasicBlock_merge b) (BasicBlock_branch b)) block_code same_block
    (clone_Vec_in (clone_GroupCode_in clone))).
  - apply copies_Vec. exact copies_GroupCode.
  - intros a. unfold block_code. rewrite flat_singletons. reflexivity.
  - intros [l c m b] [l' c' m' b']. unfold same_block. cbn. rewrite Forall2_True. split.
    + intros (-> & L & -> & ->). split; [exact L|reflexivity].
    + intros [L [= -> -> ->]]. repeat split. exact L.
  - reflexivity.
Qed.

Lemma copies_FunctionDefinition : copies function_code same_function (clone_FunctionDefinition_in clone).
Proof.
  apply (copies_struct (FunctionDefinition E) (BasicBlock E) block_code same_block FunctionDefinition_blocks
    (fun f blocks => Build_FunctionDefinition (FunctionDefinition_function f) (FunctionDefinition_parameters f) blocks) function_code same_function
    (clone_Vec_in (clone_BasicBlock_in clone))).
  - apply copies_Vec. exact copies_BasicBlock.
  - reflexivity.
  - intros [f p b] [f' p' b']. unfold same_function. cbn. split.
    + intros (-> & -> & L). split; [exact L|reflexivity].
    + intros [L [= -> ->]]. repeat split. exact L.
  - reflexivity.
Qed.

Lemma copies_LogicalModule : copies module_code same_module (clone_LogicalModule_in clone).
Proof.
  apply (copies_struct (LogicalModule E) (FunctionDefinition E) function_code same_function LogicalModule_function_definitions
    (fun lm definitions => Build_LogicalModule (LogicalModule_capabilities lm) (LogicalModule_extensions lm) (LogicalModule_ext_inst_imports lm)
      (LogicalModule_memory_model lm) (LogicalModule_entry_points lm) (LogicalModule_execution_modes lm) (LogicalModule_debug lm)
      (LogicalModule_annotations lm) (LogicalModule_globals lm) (LogicalModule_function_declarations lm) definitions) module_code same_module
    (clone_Vec_in (clone_FunctionDefinition_in clone))).
  - apply copies_Vec. exact copies_FunctionDefinition.
  - reflexivity.
  - intros a b. destruct a, b. unfold same_module. cbn. split.
    + intros (-> & -> & -> & -> & -> & -> & -> & -> & -> & -> & L). split; [exact L|reflexivity].
    + intros [L H]. injection H as -> -> -> -> -> -> -> -> -> ->. repeat split. exact L.
  - reflexivity.
Qed.

Lemma copies_RawModule : copies (@RawModule_instructions E) (fun m m' => same_header m m' /\ length (RawModule_instructions m) = length (RawModule_instructions m'))
  (clone_RawModule_in clone).
Proof.
  apply (copies_struct (RawModule E) (Core E) (fun i => [i]) (fun _ _ => True) RawModule_instructions
    (fun m l => Build_RawModule (RawModule_version m) (RawModule_generator m) (RawModule_bound m) l) (@RawModule_instructions E)
    (fun m m' => same_header m m' /\ length (RawModule_instructions m) = length (RawModule_instructions m'))
    (clone_Vec_in (clone_Core_in clone))).
  - apply copies_Vec. exact copies_Core.
  - intros a. symmetry. rewrite (flat_singletons (fun i => i)). apply map_id.
  - intros [v g b l] [v' g' b' l']. unfold same_header. cbn. rewrite Forall2_True. split.
    + intros [(-> & -> & ->) L]. split; [exact L|reflexivity].
    + intros [L [= -> -> ->]]. repeat split. exact L.
  - reflexivity.
Qed.

Theorem clone_instruction : forall i w,
  (forall j w', clone_Core_in clone i w = (Some j, w') <-> copied clone w [i] [j] w')
  /\ (forall w', clone_Core_in clone i w = (None, w') <-> copying_panics clone w [i] w').
Proof.
  intros i w. split; intros; [rewrite (copies_value _ _ _ copies_Core); tauto|apply (copies_panic _ _ _ copies_Core)].
Qed.
Theorem clone_raw_module : forall m w,
  (forall m' w', clone_RawModule_in clone m w = (Some m', w')
     <-> same_header m m' /\ copied clone w (RawModule_instructions m) (RawModule_instructions m') w')
  /\ (forall w', clone_RawModule_in clone m w = (None, w') <-> copying_panics clone w (RawModule_instructions m) w').
Proof.
  intros m w. split; intros; [rewrite (copies_value _ _ _ copies_RawModule)|apply (copies_panic _ _ _ copies_RawModule)].
  split; [tauto|]. intros [S C]. repeat split; try apply S; [exact (copied_same_length _ _ _ _ C)|exact C].
Qed.
Theorem clone_function : forall f w,
  (forall f' w', clone_FunctionDefinition_in clone f w = (Some f', w')
     <-> same_function f f' /\ copied clone w (function_code f) (function_code f') w')
  /\ (forall w', clone_FunctionDefinition_in clone f w = (None, w') <-> copying_panics clone w (function_code f) w').
Proof.
  intros f w. split; intros; [apply (copies_value _ _ _ copies_FunctionDefinition)|apply (copies_panic _ _ _ copies_FunctionDefinition)].
Qed.
Theorem clone_logical_module : forall lm w,
  (forall lm' w', clone_LogicalModule_in clone lm w = (Some lm', w')
     <-> same_module lm lm' /\ copied clone w (module_code lm) (module_code lm') w')
  /\ (forall w', clone_LogicalModule_in clone lm w = (None, w') <-> copying_panics clone w (module_code lm) w').
Proof.
  intros lm w. split; intros; [apply (copies_value _ _ _ copies_LogicalModule)|apply (copies_panic _ _ _ copies_LogicalModule)].
Qed.

(** Copies that are what they copy. *)
Lemma faithful : forall A code shape (run : A -> crun A), copies code shape run -> (forall a, shape a a) -> (forall x w, fst (clone x w) = Some x) ->
  forall a w, fst (run a w) = Some a.
Proof.
  intros A code shape run [V P L] R F a w.
  assert (forall l w, exists w', copied clone w l l w') as C.
  { induction l as [|i l IH]; intros v; [exists v; constructor|]. destruct (plain_or_extended i) as [Pl|(t & r & s & x & ->)].
    - destruct (IH v) as [w' H]. exists w'. constructor; assumption.
    - destruct (clone x v) as [y v1] eqn:C. destruct (IH v1) as [w' H]. exists w'. econstructor; [|exact H].
      rewrite C. f_equal. pose proof (F x v) as Q. rewrite C in Q. exact Q. }
  destruct (C (code a) w) as [w' H]. assert (run a w = (Some a, w')) as -> by (apply V; split; [apply R|exact H]). reflexivity.
Qed.
Lemma same_function_refl : forall f : FunctionDefinition E, same_function f f.
Proof.
  intros f. unfold same_function. repeat split. induction (FunctionDefinition_blocks f); constructor; [|assumption]. repeat split.
Qed.
Theorem clone_faithful : (forall x w, fst (clone x w) = Some x) ->
  (forall i w, fst (clone_Core_in clone i w) = Some i) /\ (forall m w, fst (clone_RawModule_in clone m w) = Some m)
  /\ (forall f w, fst (clone_FunctionDefinition_in clone f w) = Some f) /\ (forall lm w, fst (clone_LogicalModule_in clone lm w) = Some lm).
Proof.
  intros F. split; [|split; [|split]].
  - apply (faithful _ _ _ _ copies_Core); [intros; exact I|exact F].
  - apply (faithful _ _ _ _ copies_RawModule); [intros; repeat split|exact F].
  - apply (faithful _ _ _ _ copies_FunctionDefinition); [apply same_function_refl|exact F].
  - apply (faithful _ _ _ _ copies_LogicalModule); [|exact F]. intros lm. repeat split. induction (LogicalModule_function_definitions lm); constructor;
    [apply same_function_refl|assumption].
Qed.
End Clone.
