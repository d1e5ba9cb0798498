(** Files with one function replaced, C121, C122 and C123. *)
From Coq Require Import Lia.
From Verif Require Import Base Types Ops Groups ReadErr ReadBase ExtSet ReadOps Reader Validate ControlFlow Spec_Operands Spec_Wire Spec_Layout Spec_Flow Spec_Order
  Spec_Rearrange Spec_Link Spec_Prune Spec_Split Spec_Mirror Spec_Rewrite Spec_Inlined Proofs_Layout Proofs_Layout2 Proofs_Reader Proofs_Rearrange Proofs_Link Proofs_Unshare2 Proofs_Inlined3.

Section Replace.
Context {E : Type} (known : list (ExtInstSet E)).
Definition elsewhere (m : RawModule E) (i : Core E) : Prop := (forall x, i <> Core_OpExtInst x) /\ exists data, read_module data known = Ok (with_instructions m [i]).
Lemma replaced_file : forall data m lm before f after g, read_module data known = Ok m -> validate m = Ok lm -> LogicalModule_function_definitions lm = before ++ f :: after ->
  (FunctionDefinition_blocks f <> [] -> FunctionDefinition_blocks g <> []) -> (canonical_definition f -> canonical_definition g) -> (forall i, In i (write_definition g) -> In i (write_definition f) \/ elsewhere m i) ->
  has_file known (with_definitions lm (before ++ g :: after)).
Proof.
  intros data m lm before f after g R V D NE Can G. destruct (file_facts known lm (ex_intro _ data (ex_intro _ m (conj R V)))) as (DI & _ & _). apply validate_iff in V as [Q (C1 & C2 & C3)].
  assert (Ins : forall d i, In d (LogicalModule_function_definitions lm) -> In i (write_definition d) -> In i (RawModule_instructions m)).
  { intros d i Id Ii. rewrite Q. unfold write_module. do 10 (apply in_or_app; right). apply in_flat_map. exists d. auto. }
  assert (LM : with_definitions lm (before ++ f :: after) = lm) by (rewrite <- D; destruct lm; reflexivity).
  apply (build known).
  - exists data, m. exact R.
  - split; [exact C1|]. cbn [with_definitions LogicalModule_function_definitions]. rewrite D in C2, C3. apply Forall_app in C2 as [C2 C4]. inversion C4 as [|? ? C5 C6]; subst. split.
    + apply Forall_app. split; [exact C2|]. constructor; [exact (Can C5)|exact C6].
    + destruct before as [|x before]; [exact (NE C3)|exact C3].
  - exact DI.
  - assert (Old : forall i, In i (RawModule_instructions m) -> exists data m, read_module data known = Ok m /\ In i (RawModule_instructions m)
      /\ forall x name, i = Core_OpExtInst x -> In (Core_OpExtInstImport (Build_OpExtInstImport (OpExtInst_set x) name)) (RawModule_instructions m) ->
         In (Build_OpExtInstImport (OpExtInst_set x) name) (LogicalModule_ext_inst_imports (with_definitions lm (before ++ g :: after)))).
    { intros i X. exists data, m. split; [exact R|]. split; [exact X|]. intros x name _ Z. cbn [with_definitions LogicalModule_ext_inst_imports]. rewrite Q in Z. apply import_in_write in Z. exact Z. }
    intros i X. apply in_definitions in X as [X|X]; [|apply Old; rewrite Q, <- LM; apply X].
    apply in_flat_map in X as (d & Id & X). apply in_app_or in Id as [Id|[<-|Id]].
    + apply Old. apply (Ins d); [rewrite D; apply in_or_app; auto|exact X].
    + destruct (G i X) as [Y|[N [data' R']]]; [apply Old; apply (Ins f); [rewrite D; apply in_elt|exact Y]|]. exists data', (with_instructions m [i]). split; [exact R'|].
      split; [left; reflexivity|]. intros x name Z. destruct (N x Z).
    + apply Old. apply (Ins d); [rewrite D; apply in_or_app; right; right; exact Id|exact X].
Qed.
Lemma block_instruction : forall (d : FunctionDefinition E) b i, In b (FunctionDefinition_blocks d) -> In i (write_block b) -> In i (write_definition d).
Proof. intros d b i B I. right. apply in_or_app. right. apply in_or_app. left. apply in_flat_map. exists b. auto. Qed.
Lemma definition_cases : forall f g : FunctionDefinition E, FunctionDefinition_function g = FunctionDefinition_function f -> FunctionDefinition_parameters g = FunctionDefinition_parameters f ->
  forall i, In i (write_definition g) -> In i (write_definition f) \/ exists b, In b (FunctionDefinition_blocks g) /\ In i (write_block b).
Proof.
  intros f g F P i X. unfold write_definition in *. rewrite F, P in X. destruct X as [<-|X]; [left; left; reflexivity|].
  apply in_app_or in X as [X|X]; [left; right; apply in_or_app; auto|]. apply in_app_or in X as [X|X]; [|left; right; apply in_or_app; right; apply in_or_app; auto].
  right. apply in_flat_map in X. exact X.
Qed.
Lemma small_elsewhere : forall data m i, read_module data known = Ok m -> small i -> elsewhere m i.
Proof. intros data m i R (w & W & I). split; [intros x Q; destruct I; congruence|]. exact (small_file known data m w i R W I). Qed.

Theorem cut_at_file : forall lm before f after g cut n, has_file known lm -> LogicalModule_function_definitions lm = before ++ f :: after -> cut_at f g cut n ->
  FunctionDefinition_function g = FunctionDefinition_function f -> FunctionDefinition_parameters g = FunctionDefinition_parameters f -> (n < 2 ^ 32)%N ->
  has_file known (with_definitions lm (before ++ g :: after)).
Proof.
  intros lm before f after g cut n (data & m & R & V) D (b1 & b2 & code1 & code2 & Bf & Code & Bg & _) F P W.
  apply (replaced_file data m lm before f after g R V D).
  - intros _. rewrite Bg. destruct b1; discriminate.
  - unfold canonical_definition. rewrite Bf, Bg. intros C. apply Forall_app in C as [K1 K2]. inversion K2 as [|? ? K3 K4]; subst. unfold canonical_block in K3. rewrite Code in K3. apply Forall_app in K3 as [K5 K6].
    apply Forall_app. split; [exact K1|]. constructor; [exact K5|]. constructor; [exact K6|exact K4].
  - intros i X. destruct (definition_cases f g F P i X) as [Y|(b & B & Y)]; [left; exact Y|]. rewrite Bg in B. assert (Cut : In cut (FunctionDefinition_blocks f)) by (rewrite Bf; apply in_elt).
    apply in_app_or in B as [B|[<-|[<-|B]]].
    + left. apply (block_instruction f b); [rewrite Bf; apply in_or_app; auto|exact Y].
    + unfold write_block in Y. cbn in Y. destruct Y as [<-|Y]; [left; apply (block_instruction f cut); [exact Cut|left; reflexivity]|]. apply in_app_or in Y as [Y|[<-|[]]].
      * left. apply (block_instruction f cut); [exact Cut|]. right. apply in_or_app. left. rewrite Code, map_app. apply in_or_app. auto.
      * right. apply (small_elsewhere data); [exact R|]. exists n. split; [exact W|]. right. reflexivity.
    + unfold write_block in Y. cbn in Y. destruct Y as [<-|Y]; [right; apply (small_elsewhere data); [exact R|]; exists n; split; [exact W|left; reflexivity]|].
      left. apply (block_instruction f cut); [exact Cut|]. right. apply in_or_app. apply in_app_or in Y as [Y|Y]; [left; rewrite Code, map_app; apply in_or_app; auto|right; exact Y].
    + left. apply (block_instruction f b); [rewrite Bf; apply in_or_app; right; right; exact B|exact Y].
Qed.

Theorem joined_file : forall lm before f after g cut n, has_file known lm -> LogicalModule_function_definitions lm = before ++ g :: after -> cut_at f g cut n ->
  FunctionDefinition_function g = FunctionDefinition_function f -> FunctionDefinition_parameters g = FunctionDefinition_parameters f ->
  has_file known (with_definitions lm (before ++ f :: after)).
Proof.
  intros lm before f after g cut n (data & m & R & V) D (b1 & b2 & code1 & code2 & Bf & Code & Bg & _) F P.
  apply (replaced_file data m lm before g after f R V D).
  - intros _. rewrite Bf. destruct b1; discriminate.
  - unfold canonical_definition. rewrite Bf, Bg. intros C. apply Forall_app in C as [K1 K2]. inversion K2 as [|? ? K3 K4]; subst. inversion K4 as [|? ? K5 K6]; subst.
    apply Forall_app. split; [exact K1|]. constructor; [|exact K6]. unfold canonical_block. rewrite Code. apply Forall_app. split; [exact K3|exact K5].
  - intros i X. left. destruct (definition_cases g f (eq_sym F) (eq_sym P) i X) as [Y|(b & B & Y)]; [exact Y|]. rewrite Bf in B. apply in_app_or in B as [B|[<-|B]].
    + apply (block_instruction g b); [rewrite Bg; apply in_or_app; auto|exact Y].
    + unfold write_block in Y. rewrite Code, map_app, <- app_assoc in Y. destruct Y as [<-|Y]; [|apply in_app_or in Y as [Y|Y]].
      * eapply block_instruction; [rewrite Bg; apply in_elt|]. left. reflexivity.
      * eapply block_instruction; [rewrite Bg; apply in_elt|]. right. apply in_or_app. left. exact Y.
      * eapply block_instruction; [rewrite Bg; apply in_or_app; right; right; left; reflexivity|]. right. exact Y.
    + apply (block_instruction g b); [rewrite Bg; apply in_or_app; right; right; right; exact B|exact Y].
Qed.

Theorem taken_out_file : forall lm before f after h g cut n code1, has_file known lm -> LogicalModule_function_definitions lm = before ++ g :: after -> inlined_after f h g cut n code1 ->
  FunctionDefinition_function g = FunctionDefinition_function f -> FunctionDefinition_parameters g = FunctionDefinition_parameters f ->
  has_file known (with_definitions lm (before ++ f :: after)).
Proof.
  intros lm before f after h g cut n code1 (data & m & R & V) D (b1 & b2 & start & code2 & Bf & Code & _ & Bg & _) F P.
  apply (replaced_file data m lm before g after f R V D).
  - intros _. rewrite Bf. destruct b1; discriminate.
  - unfold canonical_definition. rewrite Bf, Bg. intros C. apply Forall_app in C as [K1 K2]. inversion K2 as [|? ? K3 K4]; subst. apply Forall_app in K4 as [_ K4]. inversion K4 as [|? ? K5 K6]; subst.
    apply Forall_app. split; [exact K1|]. constructor; [|exact K6]. unfold canonical_block. rewrite Code. apply Forall_app. split; [exact K3|exact K5].
  - intros i X. left. destruct (definition_cases g f (eq_sym F) (eq_sym P) i X) as [Y|(b & B & Y)]; [exact Y|]. rewrite Bf in B. apply in_app_or in B as [B|[<-|B]].
    + apply (block_instruction g b); [rewrite Bg; apply in_or_app; auto|exact Y].
    + unfold write_block in Y. rewrite Code, map_app, <- app_assoc in Y. destruct Y as [<-|Y]; [|apply in_app_or in Y as [Y|Y]].
      * eapply block_instruction; [rewrite Bg; apply in_elt|]. left. reflexivity.
      * eapply block_instruction; [rewrite Bg; apply in_elt|]. right. apply in_or_app. left. exact Y.
      * eapply block_instruction; [rewrite Bg; apply in_or_app; right; right; apply in_elt|]. right. exact Y.
    + apply (block_instruction g b); [rewrite Bg; apply in_or_app; right; right; apply in_or_app; right; right; exact B|exact Y].
Qed.

Lemma turned_elsewhere : forall data m c t f w, read_module data known = Ok m -> In (Core_OpBranchConditional (Build_OpBranchConditional c t f w)) (RawModule_instructions m) ->
  elsewhere m (Core_OpBranchConditional (Build_OpBranchConditional c f t (option_map turned w))).
Proof.
  intros data m c t f w R X. split; [discriminate|]. apply (read_placed known m _ (ex_intro _ data R)). intros before j behind Q. destruct before as [|? [|? ?]]; try discriminate Q. injection Q as <- <-.
  assert (R1 : can_be_read known m (RawModule_instructions m)) by (exists data; rewrite R; destruct m; reflexivity).
  apply in_split in X as (b0 & a0 & X). destruct (proj1 (read_placed known m (RawModule_instructions m) (ex_intro _ data R)) R1 b0 _ a0 X) as (wc & body & W & L1 & L2 & L3).
  inversion L3 as [|? ? L4 L5]; subst. destruct W as [W1 W2]. destruct w as [[tw fw]|]; cbn in W2.
  - destruct W2 as (? & ? & -> & -> & ? & ? & -> & -> & ? & ? & -> & -> & ? & ? & -> & -> & ? & ? & -> & -> & ->). cbn [app] in *. exists wc, [c; f; t; fw; tw].
    split; [split; [split; [cbn; repeat split; try discriminate|exact Logic.I]|]; cbn; do 5 (eexists [_], _; split; [reflexivity|]; split; [reflexivity|]); reflexivity|].
    split; [destruct L1 as [L1|[_ L1]]; [left; exact L1|discriminate L1]|]. split; [exact L2|]. constructor; [exact L4|]. repeat match goal with H : Forall word (_ :: _) |- _ => inversion H; clear H; subst end. repeat (constructor; [assumption|]). constructor.
  - destruct W2 as (? & ? & -> & -> & ? & ? & -> & -> & ? & ? & -> & -> & ->). cbn [app] in *. exists wc, [c; f; t].
    split; [split; [split; [cbn; repeat split; try discriminate|exact Logic.I]|]; cbn; do 3 (eexists [_], _; split; [reflexivity|]; split; [reflexivity|]); reflexivity|].
    split; [destruct L1 as [L1|[_ L1]]; [left; exact L1|discriminate L1]|]. split; [exact L2|]. constructor; [exact L4|]. repeat match goal with H : Forall word (_ :: _) |- _ => inversion H; clear H; subst end. repeat (constructor; [assumption|]). constructor.
Qed.

Theorem mirror_file : forall lm before f after g chosen, has_file known lm -> LogicalModule_function_definitions lm = before ++ f :: after -> mirror_of chosen f g -> same_work f g ->
  FunctionDefinition_function g = FunctionDefinition_function f -> FunctionDefinition_parameters g = FunctionDefinition_parameters f ->
  has_file known (with_definitions lm (before ++ g :: after)).
Proof.
  intros lm before f after g chosen (data & m & R & V) D M S F P.
  assert (Ins : forall i, In i (write_definition f) -> In i (RawModule_instructions m)).
  { intros i Ii. apply validate_iff in V as [Q _]. rewrite Q. unfold write_module. do 10 (apply in_or_app; right). apply in_flat_map. exists f. split; [rewrite D; apply in_elt|exact Ii]. }
  assert (B : forall b', In b' (FunctionDefinition_blocks g) -> exists b, In b (FunctionDefinition_blocks f) /\ mirrored chosen b b' /\ works_like b b').
  { unfold mirror_of, same_work in *. revert M S. generalize (FunctionDefinition_blocks f), (FunctionDefinition_blocks g). intros l l' M. induction M as [|x y l l' M1 M IH]; intros S b' I; [destruct I|].
    inversion S as [|? ? ? ? S1 S2]; subst. destruct I as [<-|I]; [exists x; cbn; auto|]. destruct (IH S2 b' I) as (b & J & K). exists b. cbn. auto. }
  apply (replaced_file data m lm before f after g R V D).
  - unfold mirror_of in M. intros NE Q. rewrite Q in M. inversion M. congruence.
  - unfold canonical_definition. rewrite !Forall_forall. intros C b' I. destruct (B b' I) as (b & J & _ & K & _). unfold canonical_block. rewrite K. exact (C b J).
  - intros i X. destruct (definition_cases f g F P i X) as [Y|(b' & I & Y)]; [left; exact Y|]. destruct (B b' I) as (b & J & (M1 & M2 & M3) & K1 & K2). unfold write_block in Y. destruct Y as [<-|Y].
    + left. apply (block_instruction f b); [exact J|]. left. f_equal. unfold label_of in M1. destruct (BasicBlock_label b), (BasicBlock_label b'). cbn in M1. congruence.
    + rewrite K1, M2 in Y. apply in_app_or in Y as [Y|Y]; [left; apply (block_instruction f b); [exact J|]; right; apply in_or_app; auto|].
      apply in_app_or in Y as [Y|[<-|[]]]; [left; apply (block_instruction f b); [exact J|]; right; apply in_or_app; right; apply in_or_app; auto|].
      destruct (chosen (label_of b)).
      * right. destruct M3 as (sel & op & op' & Q0 & Q1 & Q2 & Q3 & Q4 & Q5). rewrite Q1, Q2 in K2. rewrite Q2. destruct op as [c t e w], op' as [c' t' e' w']. cbn in *. subst. apply (turned_elsewhere data); [exact R|].
        apply Ins. apply (block_instruction f b); [exact J|]. right. apply in_or_app. right. apply in_or_app. right. left. rewrite Q1. reflexivity.
      * left. rewrite M3. apply (block_instruction f b); [exact J|]. right. apply in_or_app. right. apply in_or_app. right. left. reflexivity.
Qed.
End Replace.
