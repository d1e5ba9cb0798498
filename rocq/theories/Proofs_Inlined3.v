(** Files with an inlined function, C122. *)
From Coq Require Import Lia.
From Verif Require Import Base Types Ops Groups ReadErr ReadBase ExtSet ReadOps Reader Validate ControlFlow Spec_Operands Spec_Wire Spec_Layout Spec_Flow Spec_Order
  Spec_Rearrange Spec_Link Spec_Prune Spec_Inline Spec_Inlined Proofs_Layout Proofs_Layout2 Proofs_Reader Proofs_Rearrange Proofs_Link Proofs_Unshare2.

Section File.
Context {E : Type} (known : list (ExtInstSet E)).
(** Labels and branches that fit into words stand in files. *)
Lemma small_file : forall data m w i, read_module data known = Ok m -> word w -> i = Core_OpLabel (Build_OpLabel w) \/ i = Core_OpBranch (Build_OpBranch w) ->
  exists data', read_module data' known = Ok (with_instructions m [i]).
Proof.
  intros data m w i R W I. apply (read_placed known m [i] (ex_intro _ data R)). intros before j behind Q. destruct before as [|? [|? ?]]; try discriminate Q. injection Q as <- <-.
  exists 2%N, [w]. split; [|split; [|split; [|constructor; [|constructor; [exact W|constructor]]]]].
  - destruct I as [I1|I1]; rewrite I1.
    + split; [split; [cbn; repeat split; try discriminate|exact Logic.I]|]. exists [w], []. repeat split.
    + split; [split; [cbn; repeat split; try discriminate|exact Logic.I]|]. exists [w], []. repeat split.
  - left. reflexivity.
  - vm_compute. reflexivity.
  - destruct I as [I1|I1]; rewrite I1; vm_compute; reflexivity.
Qed.
(** Labels in files fit into words. *)
Lemma label_word : forall data m w, read_module data known = Ok m -> In (Core_OpLabel (Build_OpLabel w)) (RawModule_instructions m) -> word w.
Proof.
  intros data m w R X. assert (R1 : can_be_read known m (RawModule_instructions m)) by (exists data; rewrite R; destruct m; reflexivity).
  apply in_split in X as (b0 & a0 & X). destruct (proj1 (read_placed known m (RawModule_instructions m) (ex_intro _ data R)) R1 b0 _ a0 X) as (wc & body & W & _ & _ & L).
  inversion L as [|? ? _ L2]; subst. destruct W as [_ W]. cbn in W. destruct W as (w1 & w2 & -> & -> & _). inversion L2. assumption.
Qed.

Definition small (i : Core E) : Prop := exists w, word w /\ (i = Core_OpLabel (Build_OpLabel w) \/ i = Core_OpBranch (Build_OpBranch w)).
Lemma going_written : forall n (b : BasicBlock E) i, word n -> In i (write_block (going_on_block n b)) -> In i (write_block b) \/ small i.
Proof.
  intros n b i W X. unfold going_on_block in X. destruct (BasicBlock_branch b) eqn:B; try (left; exact X). unfold write_block in X. cbn in X. destruct X as [<-|X]; [left; left; reflexivity|].
  apply in_app_or in X as [X|[<-|[]]]; [left; right; apply in_or_app; auto|]. right. exists n. split; [exact W|]. right. reflexivity.
Qed.

Theorem inlined_file : forall lm before f after h g cut n code1, has_file known lm -> LogicalModule_function_definitions lm = before ++ f :: after -> In h (LogicalModule_function_definitions lm) ->
  inlined_after f h g cut n code1 -> FunctionDefinition_function g = FunctionDefinition_function f -> FunctionDefinition_parameters g = FunctionDefinition_parameters f -> (n < 2 ^ 32)%N ->
  has_file known (with_definitions lm (before ++ g :: after)).
Proof.
  intros lm before f after h g cut n code1 H D Hh (b1 & b2 & start & code2 & Bf & Code & (bh & rh & Sh & Lh) & Bg & _) F P W.
  destruct (file_facts known lm H) as (DI & _ & _). destruct H as (data & m & R & V). apply validate_iff in V as [Q (C1 & C2 & C3)].
  assert (Wn : word n) by exact W.
  assert (Ins : forall d i, In d (LogicalModule_function_definitions lm) -> In i (write_definition d) -> In i (RawModule_instructions m)).
  { intros d i Id Ii. rewrite Q. unfold write_module. do 10 (apply in_or_app; right). apply in_flat_map. exists d. auto. }
  assert (Blk : forall d b i, In d (LogicalModule_function_definitions lm) -> In b (FunctionDefinition_blocks d) -> In i (write_block b) -> In i (RawModule_instructions m)).
  { intros d b i Id Ib Ii. apply (Ins d); [exact Id|]. right. apply in_or_app. right. apply in_or_app. left. apply in_flat_map. exists b. auto. }
  assert (If : In f (LogicalModule_function_definitions lm)) by (rewrite D; apply in_elt).
  assert (Ws : word start).
  { apply (label_word data m start R). apply (Blk h bh); [exact Hh|rewrite Sh; left; reflexivity|]. left. rewrite <- Lh. unfold label_of. destruct (BasicBlock_label bh). reflexivity. }
  assert (Icut : forall i, In i (write_block cut) -> In i (RawModule_instructions m)) by (intros i; apply (Blk f); [exact If|rewrite Bf; apply in_elt]).
  assert (G : forall i, In i (write_definition g) -> In i (RawModule_instructions m) \/ small i).
  { intros i X. unfold write_definition in X. rewrite F, P in X. destruct X as [<-|X]; [left; apply (Ins f); [exact If|left; reflexivity]|].
    apply in_app_or in X as [X|X]; [left; apply (Ins f); [exact If|]; right; apply in_or_app; auto|].
    apply in_app_or in X as [X|X]; [|left; apply (Ins f); [exact If|]; right; apply in_or_app; right; apply in_or_app; auto].
    apply in_flat_map in X as (b & Ib & X). rewrite Bg in Ib. apply in_app_or in Ib as [Ib|[<-|Ib]]; [left; apply (Blk f b); [exact If|rewrite Bf; apply in_or_app; auto|exact X]| |].
    - unfold write_block in X. cbn in X. destruct X as [<-|X]; [left; apply Icut; left; reflexivity|]. apply in_app_or in X as [X|[<-|[]]].
      + left. apply Icut. right. apply in_or_app. left. rewrite Code, map_app. apply in_or_app. auto.
      + right. exists start. split; [exact Ws|]. right. reflexivity.
    - apply in_app_or in Ib as [Ib|[<-|Ib]]; [| |left; apply (Blk f b); [exact If|rewrite Bf; apply in_or_app; right; right; exact Ib|exact X]].
      + apply in_map_iff in Ib as (y & <- & Iy). destruct (going_written n y i Wn X) as [X'|X']; [left; apply (Blk h y); assumption|right; exact X'].
      + unfold write_block in X. cbn in X. destruct X as [<-|X]; [right; exists n; split; [exact Wn|left; reflexivity]|]. left. apply Icut. right. apply in_app_or in X as [X|X]; apply in_or_app.
        * left. rewrite Code, map_app. apply in_or_app. auto.
        * right. exact X. }
  assert (LM : with_definitions lm (before ++ f :: after) = lm) by (rewrite <- D; destruct lm; reflexivity).
  apply (build known).
  - exists data, m. exact R.
  - split; [exact C1|]. cbn [with_definitions LogicalModule_function_definitions]. pose proof (proj1 (Forall_forall _ _) C2 h Hh) as Ch. rewrite D in C2, C3. apply Forall_app in C2 as [C2 C4]. inversion C4 as [|? ? C5 C6]; subst. split.
    + apply Forall_app. split; [exact C2|]. constructor; [|exact C6]. unfold canonical_definition in *. rewrite Bf in C5. rewrite Bg. apply Forall_app in C5 as [K1 K2]. inversion K2 as [|? ? K3 K4]; subst.
      unfold canonical_block in K3. rewrite Code in K3. apply Forall_app in K3 as [K5 K6]. apply Forall_app. split; [exact K1|]. constructor; [exact K5|]. apply Forall_app. split; [|constructor; [exact K6|exact K4]].
      apply Forall_forall. intros b I. apply in_map_iff in I as (y & <- & Iy). pose proof (proj1 (Forall_forall _ _) Ch y Iy) as K. unfold canonical_block, going_on_block in *. destruct (BasicBlock_branch y); exact K.
    + destruct before as [|x before]; [cbn; rewrite Bg; destruct b1; discriminate|exact C3].
  - exact DI.
  - assert (Old : forall i, In i (RawModule_instructions m) -> exists data m, read_module data known = Ok m /\ In i (RawModule_instructions m)
      /\ forall x name, i = Core_OpExtInst x -> In (Core_OpExtInstImport (Build_OpExtInstImport (OpExtInst_set x) name)) (RawModule_instructions m) ->
         In (Build_OpExtInstImport (OpExtInst_set x) name) (LogicalModule_ext_inst_imports (with_definitions lm (before ++ g :: after)))).
    { intros i X. exists data, m. split; [exact R|]. split; [exact X|]. intros x name _ Z. cbn [with_definitions LogicalModule_ext_inst_imports]. rewrite Q in Z. apply import_in_write in Z. exact Z. }
    intros i X. apply in_definitions in X as [X|X]; [|apply Old; rewrite Q, <- LM; apply X].
    apply in_flat_map in X as (d & Id & X). apply in_app_or in Id as [Id|[<-|Id]].
    + apply Old. apply (Ins d); [rewrite D; apply in_or_app; auto|exact X].
    + destruct (G i X) as [Y|(w & Ww & Y)]; [apply Old; exact Y|]. destruct (small_file data m w i R Ww Y) as [data' R']. exists data', (with_instructions m [i]). split; [exact R'|].
      split; [left; reflexivity|]. intros x name ->. destruct Y; discriminate.
    + apply Old. apply (Ins d); [rewrite D; apply in_or_app; right; right; exact Id|exact X].
Qed.
End File.
