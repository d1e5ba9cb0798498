(** What the options do to the line of an instruction, C69. *)
From Coq Require Import Lia.
From Verif Require Import Base Types Ops DisplayBase DisplayTypes DisplayOps ReadErr FmtBase FmtTypes FmtOps Spec_Tables Spec_Wire Spec_Names Spec_Opcodes
  Spec_Text Spec_Writer Spec_Options Proofs_Text Proofs_Text2 Proofs_Fmt.
Local Open Scope string_scope.

(** ** core::fmt *)
Lemma prints_copies : forall fill n, prints (repeat_fill fill n) (copies n fill).
Proof. intros fill. induction n as [|n IH]; [exact prints_done|]. exact (prints_try _ _ _ _ (prints_lit fill) IH). Qed.

Definition pre (o : Options) (default : Alignment) (n : nat) : nat :=
  match (match Options_align o with Align_Unknown => default | a => a end) with Align_Right => n | Align_Center => Nat.div n 2 | _ => 0 end.
Definition fill_around (o : Options) (default : Alignment) (s : string) : string :=
  let n := match Options_width o with Some width => width - String.length s | None => 0 end in
  copies (pre o default n) (Options_fill o) ++ s ++ copies (n - pre o default n) (Options_fill o).
Lemma pre_le : forall o default n, pre o default n <= n.
Proof.
  intros o default n. unfold pre. pose proof (Nat.div_le_upper_bound n 2 n ltac:(lia) ltac:(lia)).
  destruct (Options_align o); try destruct default; lia.
Qed.
Lemma fill_around_ok : forall o default s, filled o default s (fill_around o default s).
Proof.
  intros o default s. unfold fill_around. set (n := match Options_width o with Some width => _ | None => 0 end).
  exists (pre o default n), (n - pre o default n). split; [reflexivity|]. pose proof (pre_le o default n) as L. split; [lia|].
  revert L. unfold pre. pose proof (Nat.div_mod n 2 ltac:(lia)) as D. pose proof (Nat.mod_upper_bound n 2 ltac:(lia)) as M.
  destruct (match Options_align o with Align_Unknown => default | a => a end); lia.
Qed.
Lemma pre_0 : forall o default, pre o default 0 = 0.
Proof. intros o default. pose proof (pre_le o default 0). lia. Qed.

Definition fit_text (o : Options) (s : string) : string :=
  fill_around o Align_Left (match Options_precision o with Some p => substring 0 p s | None => s end).
Lemma fit_text_ok : forall o s, text_with o s (fit_text o s).
Proof. intros o s. apply fill_around_ok. Qed.
Lemma prints_pad : forall s o, prints (pad s o) (fit_text o s).
Proof.
  intros s o. unfold pad, fit_text, fill_around. set (s' := match Options_precision o with Some p => _ | None => s end). clearbody s'. clear s.
  destruct (Options_width o) as [width|]; [|rewrite pre_0; cbn; rewrite snil; exact (prints_lit s')].
  destruct (Nat.leb width (String.length s')) eqn:L.
  - apply Nat.leb_le in L. replace (width - String.length s') with 0 by lia. rewrite pre_0. cbn. rewrite snil. exact (prints_lit s').
  - apply prints_try; [apply prints_copies|]. apply prints_try; [apply prints_lit|apply prints_copies].
Qed.

Definition fit_number (o : Options) (s : string) : string :=
  let sign := if Options_plus o then "+" else "" in
  if Options_zero o
  then sign ++ copies (match Options_width o with Some width => width - String.length (sign ++ s) | None => 0 end) "0" ++ s
  else fill_around o Align_Right (sign ++ s).
Lemma fit_number_ok : forall o s, number_with o s (fit_number o s).
Proof.
  intros o s. unfold number_with, fit_number. destruct (Options_zero o); [eexists; split; reflexivity|apply fill_around_ok].
Qed.
Lemma prints_pad_integral : forall s o, prints (pad_integral s o) (fit_number o s).
Proof.
  intros s o. unfold pad_integral, fit_number. set (sign := if Options_plus o then "+" else "").
  assert (prints (if Options_plus o then lit "+" else done) sign) as Ps.
  { subst sign. destruct (Options_plus o); [exact (prints_lit "+")|exact prints_done]. }
  assert (String.length s + (if Options_plus o then 1 else 0) = String.length (sign ++ s)) as ->.
  { subst sign. rewrite slen_app. destruct (Options_plus o); cbn; lia. }
  clearbody sign. unfold fill_around.
  destruct (Options_width o) as [width|].
  - destruct (Nat.leb width (String.length (sign ++ s))) eqn:L.
    + apply Nat.leb_le in L. replace (width - String.length (sign ++ s)) with 0 by lia. rewrite pre_0.
      eapply prints_cast; [exact (prints_try _ _ _ _ Ps (prints_lit s))|]. destruct (Options_zero o); cbn; rewrite ?snil; reflexivity.
    + destruct (Options_zero o).
      * apply prints_try; [exact Ps|]. apply prints_try; [apply prints_copies|apply prints_lit].
      * apply prints_try; [apply prints_copies|]. apply prints_try; [|apply prints_copies]. apply prints_try; [exact Ps|apply prints_lit].
  - eapply prints_cast; [exact (prints_try _ _ _ _ Ps (prints_lit s))|]. rewrite pre_0. destruct (Options_zero o); cbn; rewrite ?snil; reflexivity.
Qed.

(** ** Operands *)
Definition apply_effect (o : Options) (e : effect) (s : string) : string :=
  match e with Unchanged => s | AsText => fit_text o s | AsNumber => fit_number o s end.
Fixpoint apply_effects (o : Options) (es : list effect) (rest : effect) (ss : list string) : list string :=
  match ss with
  | [] => []
  | s :: ss => apply_effect o (hd rest es) s :: apply_effects o (tl es) rest ss
  end.
Lemma apply_effects_ok : forall o ss es rest, have_effects o es rest ss (apply_effects o es rest ss).
Proof.
  intros o. induction ss as [|s ss IH]; intros es rest; [exact I|]. cbn [apply_effects have_effects]. split; [|apply IH].
  destruct (hd rest es); [reflexivity|apply fit_text_ok|apply fit_number_ok].
Qed.
Lemma apply_unchanged : forall o ss, apply_effects o [] Unchanged ss = ss.
Proof. intros o. induction ss as [|s ss IH]; [reflexivity|]. cbn [apply_effects hd tl apply_effect]. rewrite IH. reflexivity. Qed.
Lemma apply_unchanged1 : forall o ss, apply_effects o [Unchanged] Unchanged ss = ss.
Proof. intros o [|s ss]; [reflexivity|]. cbn [apply_effects hd tl apply_effect]. rewrite apply_unchanged. reflexivity. Qed.

Section Operands.
Context (o : Options).
Definition id_text (n : N) : string := fit_text o (disp_OpId n).
Definition number_text (n : N) : string := fit_number o (disp_u32 n).
Lemma prints_id : forall n, prints (fmt_OpId n o) (id_text n).
Proof. intros n. apply prints_pad. Qed.
Lemma prints_number : forall n, prints (fmt_u32 n o) (number_text n).
Proof. intros n. apply prints_pad_integral. Qed.

Lemma ids_with : forall l, format_arg_Vec id_text l = spaced (apply_effects o [] AsText (render [] (Some Id) (many num l))).
Proof.
  induction l as [|x l IH]; [reflexivity|]. cbn [format_arg_Vec]. rewrite IH. unfold many, num. cbn [flat_map app render].
  reflexivity.
Qed.
Lemma numbers_with : forall l, format_arg_Vec number_text l = spaced (apply_effects o [] AsNumber (render [] (Some Number) (many num l))).
Proof.
  induction l as [|x l IH]; [reflexivity|]. cbn [format_arg_Vec]. rewrite IH. unfold many, num. cbn [flat_map app render].
  reflexivity.
Qed.
End Operands.

Ltac arg_lemma_with o := lazymatch goal with
  | |- forall x, prints (fmt_OpId x o) _ => exact (prints_id o)
  | |- forall x, prints (fmt_u32 x o) _ => exact (prints_number o)
  | _ => arg_lemma
  end.
Ltac arg_list_with o := lazymatch goal with
  | |- prints done _ => exact prints_done
  | |- prints (try_ _ _) _ => eapply prints_try;
      [lazymatch goal with
       | |- prints (fmt_arg _ _ _) _ => eapply prints_arg; arg_lemma_with o
       | |- prints (fmt_arg_Option _ _ _) _ => eapply prints_arg_Option; arg_lemma_with o
       | |- prints (fmt_arg_Vec _ _ _) _ => eapply prints_arg_Vec; arg_lemma_with o
       end|arg_list_with o]
  end.

Section Line.
Context {E : Type} (fmt_ext : Display E) (ext_text : E -> string) (o : Options) (Hext : forall e, prints (fmt_ext e o) (ext_text e)).

Definition texts_with (i : Core E) : list string :=
  let (es, rest) := effects (opcode i) in apply_effects o es rest (operand_texts ext_text i).

Lemma prints_line_with : forall i : Core E, canonical i -> prints (fmt_Core fmt_ext i o) (column_of i ++ name_of i ++ spaced (texts_with i)).
Proof.
  intros i C. destruct i; match goal with |- prints (fmt_Core _ (_ ?o) _) _ => rename o into op end; cbn [fmt_Core].
  all: eapply prints_cast;
    [lazymatch goal with |- prints ?p _ => let h := head p in unfold h end;
     eapply prints_try; [apply prints_fmt2; [first [apply prints_Result|apply prints_NoResult]|apply prints_lit]|arg_list_with o]|].
  all: unfold format_arg; rewrite ?sapp_assoc.
  all: try (destruct op; reflexivity).
  all: unfold texts_with; try rewrite operand_texts_core by (intros ? ?; discriminate).
  all: rewrite ?addressing_model_text, ?memory_model_text, ?execution_model_text, ?capability_text, ?signedness_text,
    ?dim_text, ?depth_text, ?arrayed_text, ?ms_text, ?sampled_text, ?image_format_text, ?storage_class_text, ?access_qualifier_text,
    ?function_control_text, ?loop_control_text, ?selection_control_text, ?ids_with, ?numbers_with, ?phi_text.
  all: try (destruct op; reflexivity).
  all: rewrite ?sapp_nil, ?mode_text, ?decoration_text.
  all: try (destruct op; reflexivity).
  all: try rewrite <- (sapp_nil (format_arg_Option _ _)).
  - (* OpSource *) destruct op as [language version file source]. destruct C as [C1 C2]. cbn in C1, C2.
    cbn [OpSource_language OpSource_version OpSource_file OpSource_source format_arg_Option].
    rewrite source_language_text by exact C2.
    destruct file as [f|]; [destruct source as [t|]; cbn [format_arg_Option]; [rewrite <- (sapp_nil (display_arg_String t))|]; rewrite ?sapp_assoc; reflexivity|].
    rewrite (C1 eq_refl). reflexivity.
  - destruct op as [entry mode]. rewrite <- (apply_unchanged1 o (render [Mode] None _)). reflexivity.
  - destruct op as [? ? ? ? ? ? ? ? []]; cbn [OpTypeImage_access_qualifier format_arg_Option]; rewrite ?access_qualifier_text; reflexivity.
  - destruct op as [? ? ? []]; reflexivity.
  - destruct op as [? ? ? []]; cbn [format_arg_Option OpLoad_memory_access]; rewrite ?memory_access_text; reflexivity.
  - destruct op as [? ? []]; cbn [format_arg_Option OpStore_memory_access]; rewrite ?memory_access_text; reflexivity.
  - destruct op as [target decoration]. rewrite <- (apply_unchanged1 o (render [Decor] None _)). reflexivity.
  - destruct op as [target member decoration]. rewrite <- (apply_unchanged1 o (render [Decor] None _)). reflexivity.
  - destruct op as [? ? l]. rewrite <- (apply_unchanged o (render [] (Some Id) (many _ _))). reflexivity.
  - (* OpLoopMerge *) destruct op as [m c [u1 u2 u3 [len|]]]; rewrite <- (sapp_nil (mask_text _ _)); reflexivity.
  - (* OpBranchConditional *) destruct op as [c t e [[w1 w2]|]]; cbn [format_arg_Option OpBranchConditional_weights]; [|reflexivity].
    unfold disp_BranchWeights. rewrite ?sapp_assoc. reflexivity.
Qed.
End Line.

Lemma instruction_with : forall E (fmt_ext : Display E) (ext_text : E -> string) o, (forall e, prints (fmt_ext e o) (ext_text e)) ->
  forall i : Core E, canonical i -> result_fits i ->
  exists column name texts,
    result_column i column /\ opcode_name (opcode i) = Some name
    /\ have_effects o (fst (effects (opcode i))) (snd (effects (opcode i))) (operand_texts ext_text i) texts
    /\ prints (fmt_Core fmt_ext i o) (column ++ name ++ spaced texts).
Proof.
  intros E fmt_ext ext_text o H i C F. exists (column_of i), (name_of i), (texts_with ext_text o i).
  split; [apply column_form; exact F|]. split; [apply name_of_some|]. split; [|apply prints_line_with; assumption].
  unfold texts_with. destruct (effects (opcode i)) as [es rest]. apply apply_effects_ok.
Qed.
