(** Files with functions in which every block is used once, C138. *)
From Coq Require Import Lia Permutation.
From Verif Require Import Base Types Ops Groups ReadErr ReadBase ExtSet ReadOps Reader Validate ControlFlow Spec_Operands Spec_Wire Spec_Layout Spec_Flow Spec_Invariance Spec_Structured Spec_Order
  Spec_Rearrange Spec_Link Spec_Prune Spec_Unshare Proofs_Layout Proofs_Layout2 Proofs_Reader Proofs_Rearrange Proofs_Link Proofs_Flow Proofs_Structured Proofs_Unshare.

(** ** The labels of a written function are words *)
Definition words_in (s : BlockId * option GroupMerge * GroupBranch) : Prop :=
  word (fst (fst s)) /\ match snd s with
  | GroupBranch_OpReturn _ => True
  | GroupBranch_OpBranch op => word (OpBranch_target_label op)
  | GroupBranch_OpBranchConditional op => word (OpBranchConditional_true_label op) /\ word (OpBranchConditional_false_label op)
  end /\ match snd s, snd (fst s) with
  | GroupBranch_OpReturn _, _ | _, None => True
  | _, Some (GroupMerge_OpLoopMerge op) => word (OpLoopMerge_merge_block op)
  | _, Some (GroupMerge_OpSelectionMerge op) => word (OpSelectionMerge_merge_block op)
  end.
Definition loop_words (loop : option (BlockId * BlockId)) : Prop := match loop with Some (h, m) => word h /\ word m | None => True end.
Lemma first_word : forall l next, Forall word (flat_map blocks_of l) -> word next -> word (first_of l next).
Proof. intros [|s l] next W N; [exact N|]. cbn [flat_map first_of] in *. destruct s; cbn [blocks_of start app] in *; inversion W; assumption. Qed.
Definition lowers_words (s : statement) : Prop := forall loop next, Forall word (blocks_of s) -> word next -> loop_words loop -> Forall words_in (lower loop s next).
Lemma sequence_words : forall l, Forall lowers_words l -> forall loop next, Forall word (flat_map blocks_of l) -> word next -> loop_words loop -> Forall words_in (sequence (lower loop) l next).
Proof.
  intros l F. induction F as [|s l Fs F IH]; intros loop next W N L; [constructor|]. cbn [flat_map sequence] in *. apply Forall_app in W as [W1 W2]. apply Forall_app.
  split; [apply Fs; [exact W1|exact (first_word l next W2 N)|exact L]|exact (IH loop next W2 N L)].
Qed.
Lemma lower_words : forall s, lowers_words s.
Proof.
  induction s as [id|id cond yes no hint w IHy IHn|id ct body hint IHb|id cond rest w IHr|id cond rest w IHr] using statement_ind'; intros loop next W N L; cbn [blocks_of lower] in *;
    inversion W as [|? ? W0 W1]; subst.
  - constructor; [|constructor]. split; [exact W0|]. split; [exact N|exact I].
  - apply Forall_app in W1 as [W1 W2]. constructor; [|apply Forall_app; split; [exact (sequence_words yes IHy _ _ W1 N L)|exact (sequence_words no IHn _ _ W2 N L)]].
    split; [exact W0|]. split; [|exact N]. split; apply first_word; assumption.
  - constructor; [|apply (sequence_words body IHb _ _ W1 W0); split; assumption]. split; [exact W0|]. split; [exact (first_word body id W1 W0)|exact N].
  - constructor; [|exact (sequence_words rest IHr _ _ W1 N L)]. split; [exact W0|]. split; [|exact I]. split; [exact (first_word rest next W1 N)|]. destruct loop as [[h m]|]; [exact (proj2 L)|exact N].
  - constructor; [|exact (sequence_words rest IHr _ _ W1 N L)]. split; [exact W0|]. split; [|exact I]. split; [exact (first_word rest next W1 N)|]. destruct loop as [[h m]|]; [exact (proj1 L)|exact N].
Qed.
Lemma written_words : forall E (f : FunctionDefinition E) program last, written_from f program last -> Forall word (labels f) -> forall b, In b (FunctionDefinition_blocks f) -> words_in (skeleton b).
Proof.
  intros E f program last (_ & _ & (mg & P) & _) W b B.
  assert (L : Permutation (labels f) (flat_map blocks_of program ++ [last])).
  { rewrite <- (program_labels program last mg). apply (Permutation_map (fun b : BlockId * option GroupMerge * GroupBranch => fst (fst b))) in P. rewrite map_map in P. exact P. }
  assert (W' : Forall word (flat_map blocks_of program ++ [last])) by (apply (Permutation_Forall L); exact W). apply Forall_app in W' as [W1 W2]. inversion W2 as [|? ? W3 _]; subst.
  assert (X : Forall words_in (lower_program program last mg)).
  { apply Forall_app. split; [apply sequence_words; [apply Forall_forall; intros s _; apply lower_words|exact W1|exact W3|exact I]|]. constructor; [|constructor]. split; [exact W3|]. split; exact I. }
  rewrite Forall_forall in X. apply X. apply (Permutation_in _ P). apply in_map. exact B.
Qed.

(** ** Files with an instruction that has other words *)
Section Variant.
Context {E : Type} (known : list (ExtInstSet E)).
Definition other_word (o o' : operand) : Prop := o' = o \/ exists n n', o = OWord n /\ o' = OWord n' /\ word n'.
Lemma other_words : forall os os' ws, Forall2 other_word os os' -> wire_operands os ws -> Forall word ws -> exists ws', wire_operands os' ws' /\ length ws' = length ws /\ Forall word ws'.
Proof.
  intros os os' ws L. revert ws. induction L as [|o o' os os' L Ls IH]; intros ws W FW; [exists ws; split; [exact W|]; split; [reflexivity|exact FW]|].
  destruct W as (w1 & w2 & -> & W1 & W2). apply Forall_app in FW as [FW1 FW2]. destruct (IH w2 W2 FW2) as (w2' & X & Y & Z).
  destruct L as [->|(n & n' & -> & -> & F)].
  - exists (w1 ++ w2'). split; [exists w1, w2'; split; [reflexivity|]; split; assumption|]. split; [rewrite !app_length, Y; reflexivity|apply Forall_app; split; assumption].
  - cbn in W1. subst w1. exists ([n'] ++ w2'). split; [exists [n'], w2'; split; [reflexivity|]; split; [reflexivity|exact X]|].
    split; [cbn; rewrite Y; reflexivity|]. constructor; [exact F|exact Z].
Qed.
(** instructions that differ in words only *)
Inductive variant : Core E -> Core E -> Prop :=
| variant_label : forall a b, word b -> variant (Core_OpLabel (Build_OpLabel a)) (Core_OpLabel (Build_OpLabel b))
| variant_branch : forall a b, word b -> variant (Core_OpBranch (Build_OpBranch a)) (Core_OpBranch (Build_OpBranch b))
| variant_conditional : forall c t f w t' f', word t' -> word f' -> variant (Core_OpBranchConditional (Build_OpBranchConditional c t f w)) (Core_OpBranchConditional (Build_OpBranchConditional c t' f' w))
| variant_loop : forall m c h m', word m' -> variant (Core_OpLoopMerge (Build_OpLoopMerge m c h)) (Core_OpLoopMerge (Build_OpLoopMerge m' c h))
| variant_selection : forall m h m', word m' -> variant (Core_OpSelectionMerge (Build_OpSelectionMerge m h)) (Core_OpSelectionMerge (Build_OpSelectionMerge m' h)).
Lemma same_operands : forall os, Forall2 other_word os os. Proof. induction os; constructor; [left; reflexivity|assumption]. Qed.
Lemma variant_operands : forall i i', variant i i' -> Forall2 other_word (operands i) (operands i').
Proof.
  intros i i' V. destruct V; cbn; repeat (first [constructor; [first [right; eexists _, _; split; [reflexivity|]; split; [reflexivity|assumption] | left; reflexivity]|] | apply same_operands]).
Qed.
Lemma variant_file : forall data m i i', read_module data known = Ok m -> In i (RawModule_instructions m) -> variant i i' -> exists data', read_module data' known = Ok (with_instructions m [i']).
Proof.
  intros data m i i' R X V. apply (read_placed known m [i'] (ex_intro _ data R)). intros before j behind Q. destruct before as [|? [|? ?]]; try discriminate Q. injection Q as <- <-.
  assert (R1 : can_be_read known m (RawModule_instructions m)) by (exists data; rewrite R; destruct m; reflexivity).
  apply in_split in X as (b0 & a0 & X). destruct (proj1 (read_placed known m (RawModule_instructions m) (ex_intro _ data R)) R1 b0 i a0 X) as (wc & body & W & L1 & L2 & L3).
  inversion L3 as [|? ? L4 L5]; subst. pose proof (variant_operands i i' V) as VO.
  assert (P : exists body', wire_instruction known [] i' body' /\ length body' = length body /\ Forall word body').
  { destruct V; destruct W as [W1 W2]; destruct (other_words _ _ _ VO W2 L5) as (body' & Y1 & Y2 & Y3); exists body'; (split; [split; [exact W1|exact Y1]|]; split; [exact Y2|exact Y3]). }
  destruct P as (body' & P1 & P2 & P3). exists wc, body'. split; [exact P1|]. split.
  - destruct L1 as [L1|[L1 ->]]; [left; rewrite P2; exact L1|right; split; [exact L1|]]. destruct body'; [reflexivity|discriminate P2].
  - split; [exact L2|]. constructor; [|exact P3]. destruct V; exact L4.
Qed.

(** ** The file *)
Lemma copied_written : forall o (d d' : FunctionDefinition E), made_of_copies o d d' -> (forall b, In b (FunctionDefinition_blocks d') -> words_in (skeleton b)) ->
  forall b' i', In b' (FunctionDefinition_blocks d') -> In i' (write_block b') -> exists b i, In b (FunctionDefinition_blocks d) /\ In i (write_block b) /\ (i' = i \/ variant i i').
Proof.
  intros o d d' M W b' i' B X. destruct (M b' B) as (b & B' & C & S). pose proof (W b' B) as (W1 & W2 & W3). exists b.
  destruct b as [[l] code merge branch], b' as [[l'] code' merge' branch']. cbn [BasicBlock_code] in C. subst code'. unfold skeleton, label_of in *. cbn in S, W1, W2, W3.
  unfold write_block in *. cbn [BasicBlock_label BasicBlock_code BasicBlock_merge BasicBlock_branch] in *.
  destruct X as [<-|X]; [eexists; split; [exact B'|]; split; [left; reflexivity|right; constructor; exact W1]|].
  apply in_app_or in X as [X|X]; [exists i'; split; [exact B'|]; split; [right; apply in_or_app; left; exact X|left; reflexivity]|].
  apply in_app_or in X as [X|[<-|[]]].
  - destruct merge' as [g'|]; [|destruct X]. destruct X as [<-|[]].
    assert (Y : exists g, merge = Some g /\ (core_of_merge g' = core_of_merge (E := E) g \/ variant (core_of_merge g) (core_of_merge g'))).
    { destruct branch'; cbn in S; injection S as _ S _; subst merge; [| |eexists; split; [reflexivity|left; reflexivity]].
      all: cbn; eexists; split; [reflexivity|]; right; destruct g' as [[]|[]]; cbn in *; constructor; assumption. }
    destruct Y as (g & -> & Y). exists (core_of_merge g). split; [exact B'|]. split; [right; apply in_or_app; right; left; reflexivity|exact Y].
  - exists (core_of_branch branch). split; [exact B'|]. split; [right; apply in_or_app; right; apply in_or_app; right; left; reflexivity|].
    destruct branch'; cbn in S; injection S as _ _ S; subst branch.
    + right. match goal with x : OpBranch |- _ => destruct x end. cbn in *. constructor. exact W2.
    + right. match goal with x : OpBranchConditional |- _ => destruct x end. cbn in *. destruct W2. constructor; assumption.
    + left. reflexivity.
Qed.
Lemma copied_definition : forall o (d d' : FunctionDefinition E), made_of_copies o d d' -> (forall b, In b (FunctionDefinition_blocks d') -> words_in (skeleton b)) ->
  FunctionDefinition_function d' = FunctionDefinition_function d -> FunctionDefinition_parameters d' = FunctionDefinition_parameters d ->
  forall i', In i' (write_definition d') -> exists i, In i (write_definition d) /\ (i' = i \/ variant i i').
Proof.
  intros o d d' M W F P i' X. unfold write_definition in *. rewrite F, P in X. destruct X as [<-|X]; [eexists; split; [left; reflexivity|left; reflexivity]|].
  apply in_app_or in X as [X|X]; [exists i'; split; [right; apply in_or_app; left; exact X|left; reflexivity]|].
  apply in_app_or in X as [X|X]; [|exists i'; split; [right; apply in_or_app; right; apply in_or_app; right; exact X|left; reflexivity]].
  apply in_flat_map in X as (b' & B & X). destruct (copied_written o d d' M W b' i' B X) as (b & i & B' & I & V). exists i. split; [|exact V].
  right. apply in_or_app. right. apply in_or_app. left. apply in_flat_map. exists b. split; assumption.
Qed.
Lemma in_definitions : forall (lm : LogicalModule E) ds i, In i (write_module (with_definitions lm ds)) -> In i (flat_map write_definition ds) \/ forall ds', In i (write_module (with_definitions lm ds')).
Proof.
  intros lm ds i X. unfold write_module in *. cbn [with_definitions LogicalModule_capabilities LogicalModule_extensions LogicalModule_ext_inst_imports LogicalModule_memory_model LogicalModule_entry_points
        LogicalModule_execution_modes LogicalModule_debug LogicalModule_annotations LogicalModule_globals LogicalModule_function_declarations LogicalModule_function_definitions] in *.
  rewrite !in_app_iff in X. repeat (destruct X as [X|X]; [right; intros ds'; rewrite !in_app_iff; tauto|]). left. exact X.
Qed.
Theorem copied_file : forall lm before d after d' o, has_file known lm -> LogicalModule_function_definitions lm = before ++ d :: after ->
  made_of_copies o d d' -> (forall b, In b (FunctionDefinition_blocks d') -> words_in (skeleton b)) -> FunctionDefinition_blocks d' <> [] ->
  FunctionDefinition_function d' = FunctionDefinition_function d -> FunctionDefinition_parameters d' = FunctionDefinition_parameters d ->
  has_file known (with_definitions lm (before ++ d' :: after)).
Proof.
  intros lm before d after d' o H D M W NE F P. destruct (file_facts known lm H) as (DI & _ & _). destruct H as (data & m & R & V). apply validate_iff in V as [Q (C1 & C2 & C3)].
  assert (LM : with_definitions lm (before ++ d :: after) = lm) by (rewrite <- D; destruct lm; reflexivity).
  apply (build known).
  - exists data, m. exact R.
  - split; [exact C1|]. cbn [with_definitions LogicalModule_function_definitions]. rewrite D in C2, C3. apply Forall_app in C2 as [C2 C4]. inversion C4 as [|? ? C5 C6]; subst. split.
    + apply Forall_app. split; [exact C2|]. constructor; [|exact C6]. unfold canonical_definition, canonical_block in *. rewrite Forall_forall in *. intros b' B'. destruct (M b' B') as (b & B & C & _). rewrite C. exact (C5 b B).
    + destruct before as [|x before]; [exact NE|exact C3].
  - exact DI.
  - intros i X. apply in_definitions in X as [X|X].
    + rewrite flat_map_app in X. cbn [flat_map] in X. apply in_app_or in X as [X|X]; [|apply in_app_or in X as [X|X]].
      2: { destruct (copied_definition o d d' M W F P i X) as (i0 & I0 & [->|VA]).
        - exists data, m. split; [exact R|]. assert (Y : In i0 (RawModule_instructions m)).
          { rewrite Q, <- LM. unfold write_module. cbn [with_definitions LogicalModule_function_definitions]. do 10 (apply in_or_app; right). rewrite flat_map_app. apply in_or_app. right. apply in_or_app. left. exact I0. }
          split; [exact Y|]. intros x name _ Z. cbn [with_definitions LogicalModule_ext_inst_imports]. rewrite Q in Z. apply import_in_write in Z. exact Z.
        - assert (Y : In i0 (RawModule_instructions m)).
          { rewrite Q, <- LM. unfold write_module. cbn [with_definitions LogicalModule_function_definitions]. do 10 (apply in_or_app; right). rewrite flat_map_app. apply in_or_app. right. apply in_or_app. left. exact I0. }
          destruct (variant_file data m i0 i R Y VA) as [data' R']. exists data', (with_instructions m [i]). split; [exact R'|]. split; [left; reflexivity|]. intros x name ->. inversion VA. }
      all: exists data, m; split; [exact R|]; (assert (Y : In i (RawModule_instructions m)); [|split; [exact Y|]; intros x name _ Z; cbn [with_definitions LogicalModule_ext_inst_imports]; rewrite Q in Z; apply import_in_write in Z; exact Z]).
      all: rewrite Q, <- LM; unfold write_module; cbn [with_definitions LogicalModule_function_definitions]; do 10 (apply in_or_app; right); rewrite flat_map_app; apply in_or_app.
      * left. exact X.
      * right. apply in_or_app. right. exact X.
    + exists data, m. split; [exact R|]. split; [rewrite Q, <- LM; apply X|]. intros x name _ Z. cbn [with_definitions LogicalModule_ext_inst_imports]. rewrite Q in Z. apply import_in_write in Z. exact Z.
Qed.
Theorem unshare_file : forall lm before d after chain base, has_file known lm -> LogicalModule_function_definitions lm = before ++ d :: after -> returns d (Ok chain) ->
  (base + N.of_nat (length (chain_ids chain)) <= 2 ^ 32)%N -> exists d' chain' origin,
  has_file known (with_definitions lm (before ++ d' :: after)) /\ returns d' (Ok chain') /\ rename_chain origin chain' = chain
  /\ labels d' = numbers_from base (length (chain_ids chain)) /\ chain_ids chain' = labels d' /\ made_of_copies origin d d'.
Proof.
  intros lm before d after chain base H D R B. destruct (unshare E d chain R base) as (d' & chain' & o & R' & Q & L & C & M & F & P & program & last & W).
  exists d', chain', o. split; [|repeat split; try assumption; apply R'].
  apply (copied_file lm before d after d' o H D M); try assumption.
  - apply (written_words E d' program last W). rewrite L. apply Forall_forall. intros x X. apply in_map_iff in X as (k & <- & K). apply in_seq in K. unfold word. change (2 ^ 32)%N with 4294967296%N in *. lia.
  - destruct W as (_ & _ & _ & (b & rest & X & _)). rewrite X. discriminate.
Qed.
End Variant.
