(** Text of accepted modules. *)
From Coq Require Import Lia.
From Verif Require Import Base Types Ops ReadErr ExtSet Reader Glsl450 DisplayBase DisplayOps DisplayModule
  Spec_Wire Spec_Names Spec_Text Proofs_Stream Proofs_Text Proofs_Text2 Proofs_Text3 Proofs_Text5.

Lemma wire_word_in : forall os ws r, wire_operands os ws -> In (OWord r) os -> In r ws.
Proof.
  induction os as [|o os IH]; intros ws r H I; [contradiction I|]. destruct H as (ws1 & ws2 & -> & Ho & H). apply in_or_app.
  destruct I as [->|I]; [left|right; apply IH; assumption]. cbn in Ho. destruct ws1 as [|w ws1]; [discriminate Ho|]. injection Ho as -> ->. left. reflexivity.
Qed.

Lemma wire_fits : forall E (known : list (ExtInstSet E)) earlier i body, wire_instruction known earlier i body -> Forall word body -> result_fits i /\ canonical i.
Proof.
  intros E known earlier i body H W. rewrite Forall_forall in W. split.
  - intros r R. unfold result_of in R.
    destruct (Spec_Names.result_position (opcode i)) as [k|] eqn:P; [|discriminate]. destruct (nth_error (operands i) k) as [[n| |]|] eqn:N; try discriminate R.
    injection R as ->. apply nth_error_In in N. apply W.
    assert (G : wire_operands (operands i) body -> In r body) by (intro G; eapply wire_word_in; eassumption).
    destruct i; try (apply G; apply H).
    destruct H as (number & rest & rd & -> & _). cbn [operands num app] in N. apply in_or_app. left.
    destruct N as [N|[N|[N|[]]]]; injection N as <-; cbn; auto.
  - destruct i; try exact I. apply H.
Qed.

Theorem accepted_fits : forall E data (known : list (ExtInstSet E)) m i, read_module data known = Ok m -> In i (RawModule_instructions m) ->
  result_fits i /\ canonical i.
Proof.
  intros E data known m i H Hin. apply read_module_sound in H. destruct H as (o & v & g & ws & _ & W & _ & _ & _ & H).
  inversion W as [|? ? _ W1]; subst. inversion W1 as [|? ? _ W2]; subst. clear W W1. revert W2 Hin.
  induction H as [|earlier j is wc body ws Hj Hwc Hlt H IH]; intros W I; [contradiction I|].
  inversion W as [|? ? _ W1]; subst. apply Forall_app in W1. destruct W1 as [W1 W2]. destruct I as [->|I]; [|exact (IH W2 I)].
  eapply wire_fits; eassumption.
Qed.

Theorem accepted_faithful : forall data data' known known' m m', read_module data known = Ok m -> read_module data' known' = Ok m' ->
  (forall i, In i (RawModule_instructions m) \/ In i (RawModule_instructions m') -> single_line disp_Inst i) ->
  disp_RawModule disp_Inst m = disp_RawModule disp_Inst m' ->
  RawModule_version m = RawModule_version m' /\ same_tool (Generator_tool (RawModule_generator m)) (Generator_tool (RawModule_generator m'))
  /\ Generator_version (RawModule_generator m) = Generator_version (RawModule_generator m') /\ RawModule_bound m = RawModule_bound m'
  /\ RawModule_instructions m = RawModule_instructions m'.
Proof.
  intros data data' known known' m m' H H' S T. apply (module_faithful disp_Inst glsl_inj); [|exact T].
  intros i I. split; [|apply S; exact I]. destruct I as [I|I]; [exact (proj1 (accepted_fits _ _ _ _ _ H I))|exact (proj1 (accepted_fits _ _ _ _ _ H' I))].
Qed.
