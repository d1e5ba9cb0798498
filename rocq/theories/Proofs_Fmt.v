(** Printing into writers: every printer prints the text of its Display*.v counterpart. *)
From Verif Require Import Base Types Ops Groups ReadErr Glsl450 ControlFlow DisplayBase DisplayTypes DisplayOps DisplayModule DisplayFlow
  FmtBase ErrText FmtTypes FmtOps FmtFlow Spec_Writer Proofs_Text.
Local Open Scope string_scope.

Lemma sassoc : forall a b c : string, (a ++ b) ++ c = a ++ b ++ c.
Proof. induction a as [|x a IH]; intros b c; cbn [append]; [reflexivity|]. rewrite IH. reflexivity. Qed.
Lemma snil : forall a : string, a ++ "" = a.
Proof. induction a as [|x a IH]; cbn [append]; [reflexivity|]. rewrite IH. reflexivity. Qed.

Section Writer.
Context {W : Type} (write_str : string -> W -> W * bool).
Lemma wrote_app : forall w a w1, wrote write_str w a w1 -> forall b w2, wrote write_str w1 b w2 -> wrote write_str w (a ++ b) w2.
Proof. intros w a w1 H. induction H as [w|w s w1 t w2 S H IH]; intros b w3 H2; [exact H2|]. rewrite sassoc. econstructor; eauto. Qed.
Lemma broke_off_l : forall w a w', broke_off write_str w a w' -> forall b, broke_off write_str w (a ++ b) w'.
Proof.
  intros w a w' (x & y & z & w1 & -> & A & B) b. exists x, y, (z ++ b), w1. rewrite !sassoc. auto.
Qed.
Lemma broke_off_r : forall w a w1, wrote write_str w a w1 -> forall b w', broke_off write_str w1 b w' -> broke_off write_str w (a ++ b) w'.
Proof.
  intros w a w1 H b w' (x & y & z & w2 & -> & A & B). exists (a ++ x), y, z, w2. rewrite !sassoc. split; [reflexivity|].
  split; [eapply wrote_app; eassumption|exact B].
Qed.
Lemma wrote_one : forall w s w', write_str s w = (w', true) -> wrote write_str w s w'.
Proof. intros w s w' H. rewrite <- (snil s). econstructor; [exact H|constructor]. Qed.
End Writer.

Lemma prints_done : prints done "".
Proof. intros W ws w w' r [= <- <-]. left. split; [reflexivity|constructor]. Qed.
Lemma prints_lit : forall s, prints (lit s) s.
Proof.
  intros s W ws w w' r. unfold lit. destruct (ws s w) as [w1 [|]] eqn:Q; intros [= <- <-].
  - left. split; [reflexivity|]. apply wrote_one. exact Q.
  - right. split; [reflexivity|]. exists "", s, "", w. rewrite snil. split; [reflexivity|]. split; [constructor|exact Q].
Qed.
Lemma prints_try : forall p a q b, prints p a -> prints q b -> prints (try_ p q) (a ++ b).
Proof.
  intros p a q b Hp Hq W ws w w' r. unfold try_. destruct (p W ws w) as [w1 r1] eqn:Q. destruct (Hp _ _ _ _ _ Q) as [[-> A]|[-> A]].
  - intros Q2. destruct (Hq _ _ _ _ _ Q2) as [[-> B]|[-> B]]; [left|right]; (split; [reflexivity|]).
    + eapply wrote_app; eassumption.
    + eapply broke_off_r; eassumption.
  - intros [= <- <-]. right. split; [reflexivity|]. apply broke_off_l. exact A.
Qed.
Lemma prints_try_panic : forall p a q b, prints p a -> prints_then_panics q b -> prints_then_panics (try_ p q) (a ++ b).
Proof.
  intros p a q b Hp Hq W ws w w' r. unfold try_. destruct (p W ws w) as [w1 r1] eqn:Q. destruct (Hp _ _ _ _ _ Q) as [[-> A]|[-> A]].
  - intros Q2. destruct (Hq _ _ _ _ _ Q2) as [[-> B]|[-> B]]; [left|right]; (split; [reflexivity|]).
    + eapply wrote_app; eassumption.
    + eapply broke_off_r; eassumption.
  - intros [= <- <-]. right. split; [reflexivity|]. apply broke_off_l. exact A.
Qed.
Lemma panics_try : forall p a q, prints_then_panics p a -> prints_then_panics (try_ p q) a.
Proof.
  intros p a q Hp W ws w w' r. unfold try_. destruct (p W ws w) as [w1 r1] eqn:Q. destruct (Hp _ _ _ _ _ Q) as [[-> A]|[-> A]]; intros [= <- <-]; auto.
Qed.
Lemma panics : prints_then_panics panic "".
Proof. intros W ws w w' r [= <- <-]. left. split; [reflexivity|constructor]. Qed.
Lemma prints_cast : forall p a b, prints p a -> a = b -> prints p b.
Proof. intros p a b H <-. exact H. Qed.

Lemma prints_fmt1 : forall p a, prints p a -> prints (write_fmt [p]) a.
Proof. intros p a H. exact H. Qed.
Lemma prints_fmt2 : forall p a q l b, prints p a -> prints (write_fmt (q :: l)) b -> prints (write_fmt (p :: q :: l)) (a ++ b).
Proof. intros p a q l b Hp Hq. exact (prints_try _ _ _ _ Hp Hq). Qed.

Lemma prints_fill : forall n, prints (repeat_fill " " n) (spaces n).
Proof. induction n as [|n IH]; [exact prints_done|]. exact (prints_try _ _ _ _ (prints_lit " ") IH). Qed.

Lemma prints_u32 : forall n, prints (fmt_u32 n plain) (disp_u32 n).
Proof. intros n. exact (prints_try _ _ _ _ prints_done (prints_lit (disp_u32 n))). Qed.
Lemma prints_OpId : forall n, prints (fmt_OpId n plain) (disp_OpId n).
Proof. intros n. exact (prints_lit _). Qed.
Lemma plain_quiet : quiet plain.
Proof. repeat split. Qed.
Lemma prints_u32_q : forall n f, quiet f -> prints (fmt_u32 n f) (disp_u32 n).
Proof. intros n f (A & B & C). unfold fmt_u32, pad_integral. rewrite A, C. exact (prints_u32 n). Qed.
Lemma prints_OpId_q : forall n f, quiet f -> prints (fmt_OpId n f) (disp_OpId n).
Proof. intros n f (A & B & C). unfold fmt_OpId, pad. rewrite A, B. exact (prints_OpId n). Qed.
Lemma prints_OpId12 : forall n, prints (fmt_OpId n right12) (pad_right12 (disp_OpId n)).
Proof.
  intros n. unfold fmt_OpId, pad, pad_right12. fold (disp_OpId n). change (Options_precision right12) with (@None nat). change (Options_width right12) with (Some 12).
  cbv beta iota zeta. destruct (Nat.leb 12 (String.length (disp_OpId n))) eqn:L.
  - apply Nat.leb_le in L. replace (12 - String.length (disp_OpId n)) with 0 by lia. exact (prints_lit _).
  - unfold padding. change (Options_align right12) with Align_Right. change (Options_fill right12) with " ". cbv beta iota zeta. rewrite Nat.sub_diag.
    eapply prints_cast; [apply prints_try; [apply prints_fill|apply prints_try; [apply prints_lit|exact prints_done]]|]. rewrite snil. reflexivity.
Qed.
Lemma prints_SourceVersion : forall v f, prints (fmt_SourceVersion v f) (disp_SourceVersion v).
Proof. intros v f. exact (prints_u32 v). Qed.
Lemma prints_MemberIndex : forall v f, prints (fmt_MemberIndex v f) (disp_MemberIndex v).
Proof. intros v f. exact (prints_u32 v). Qed.
Lemma prints_Result : forall id f, prints (fmt_Result id f) (disp_Result id).
Proof. intros id f. apply prints_fmt2; [apply prints_OpId12|apply prints_lit]. Qed.
Lemma prints_NoResult : forall f, prints (fmt_NoResult f) disp_NoResult.
Proof. intros f. exact (prints_lit _). Qed.
Lemma prints_String : forall s f, prints (display_arg_fmt_String s f) (display_arg_String s).
Proof. intros s f. apply prints_fmt2; [apply prints_lit|]. apply prints_fmt2; apply prints_lit. Qed.

Section Args.
Context {A : Type} (fm : Display A) (di : A -> string) (f : Options) (H : forall x, prints (fm x f) (di x)).
Lemma prints_arg : forall x, prints (fmt_arg fm x f) (format_arg di x).
Proof. intros x. exact (prints_try _ _ _ _ (prints_lit " ") (H x)). Qed.
Lemma prints_arg_Option : forall x, prints (fmt_arg_Option fm x f) (format_arg_Option di x).
Proof. intros [x|]; [exact (prints_try _ _ _ _ (prints_lit " ") (H x))|exact prints_done]. Qed.
Lemma prints_arg_Vec : forall l, prints (fmt_arg_Vec fm l f) (format_arg_Vec di l).
Proof.
  induction l as [|x l IH]; [exact prints_done|]. exact (prints_try _ _ _ _ (prints_lit " ") (prints_try _ _ _ _ (H x) IH)).
Qed.
End Args.

(** ** Types *)
Ltac pieces := first
  [ exact (prints_lit _) | exact (prints_u32 _) | exact (prints_OpId _)
  | apply prints_fmt2; [pieces|pieces] ].

Ltac enum := let x := fresh "x" in let f := fresh "f" in intros x f; destruct x; pieces.
Lemma prints_SourceLanguage : forall x f, prints (fmt_SourceLanguage x f) (disp_SourceLanguage x). Proof. enum. Qed.
Lemma prints_BuiltIn : forall x f, prints (fmt_BuiltIn x f) (disp_BuiltIn x). Proof. enum. Qed.
Lemma prints_FunctionParameterAttribute : forall x f, prints (fmt_FunctionParameterAttribute x f) (disp_FunctionParameterAttribute x). Proof. enum. Qed.
Lemma prints_FpRoundingMode : forall x f, prints (fmt_FpRoundingMode x f) (disp_FpRoundingMode x). Proof. enum. Qed.
Lemma prints_LinkageType : forall x f, prints (fmt_LinkageType x f) (disp_LinkageType x). Proof. enum. Qed.
Lemma prints_AddressingModel : forall x f, prints (fmt_AddressingModel x f) (disp_AddressingModel x). Proof. enum. Qed.
Lemma prints_MemoryModel : forall x f, prints (fmt_MemoryModel x f) (disp_MemoryModel x). Proof. enum. Qed.
Lemma prints_ExecutionModel : forall x f, prints (fmt_ExecutionModel x f) (disp_ExecutionModel x). Proof. enum. Qed.
Lemma prints_ExecutionMode : forall x f, prints (fmt_ExecutionMode x f) (disp_ExecutionMode x). Proof. enum. Qed.
Lemma prints_Capability : forall x f, prints (fmt_Capability x f) (disp_Capability x). Proof. enum. Qed.
Lemma prints_Signedness : forall x f, prints (fmt_Signedness x f) (disp_Signedness x). Proof. enum. Qed.
Lemma prints_StorageClass : forall x f, prints (fmt_StorageClass x f) (disp_StorageClass x). Proof. enum. Qed.
Lemma prints_Dim : forall x f, prints (fmt_Dim x f) (disp_Dim x). Proof. enum. Qed.
Lemma prints_DepthStatus : forall x f, prints (fmt_DepthStatus x f) (disp_DepthStatus x). Proof. enum. Qed.
Lemma prints_Arrayed : forall x f, prints (fmt_Arrayed x f) (disp_Arrayed x). Proof. enum. Qed.
Lemma prints_MS : forall x f, prints (fmt_MS x f) (disp_MS x). Proof. enum. Qed.
Lemma prints_SampledStatus : forall x f, prints (fmt_SampledStatus x f) (disp_SampledStatus x). Proof. enum. Qed.
Lemma prints_ImageFormat : forall x f, prints (fmt_ImageFormat x f) (disp_ImageFormat x). Proof. enum. Qed.
Lemma prints_AccessQualifier : forall x f, prints (fmt_AccessQualifier x f) (disp_AccessQualifier x). Proof. enum. Qed.
Lemma prints_parts : forall parts, prints (match parts with [] => write_fmt [lit "None"] | _ => write_fmt [lit (String.concat " | " parts)] end)
  (match parts with [] => "None" | _ => String.concat " | " parts end).
Proof. intros [|p parts]; exact (prints_lit _). Qed.
Lemma prints_FpFastMathMode : forall x f, prints (fmt_FpFastMathMode x f) (disp_FpFastMathMode x). Proof. intros x f. apply prints_parts. Qed.
Lemma prints_MemoryAccess : forall x f, prints (fmt_MemoryAccess x f) (disp_MemoryAccess x). Proof. intros x f. apply prints_parts. Qed.
Lemma prints_FunctionControl : forall x f, prints (fmt_FunctionControl x f) (disp_FunctionControl x). Proof. intros x f. apply prints_parts. Qed.
Lemma prints_LoopControl : forall x f, prints (fmt_LoopControl x f) (disp_LoopControl x). Proof. intros x f. apply prints_parts. Qed.
Lemma prints_SelectionControl : forall x f, prints (fmt_SelectionControl x f) (disp_SelectionControl x). Proof. intros x f. apply prints_parts. Qed.
Lemma prints_PhiArg : forall x f, prints (fmt_PhiArg x f) (disp_PhiArg x). Proof. intros x f. pieces. Qed.
Lemma prints_BranchWeights : forall x f, prints (fmt_BranchWeights x f) (disp_BranchWeights x). Proof. intros x f. pieces. Qed.
Lemma prints_Decoration : forall x f, prints (fmt_Decoration x f) (disp_Decoration x).
Proof.
  intros x f; destruct x; first [pieces
  | apply prints_fmt2; [exact (prints_lit _)|];
    first [exact (prints_BuiltIn _ _)|exact (prints_FunctionParameterAttribute _ _)|exact (prints_FpRoundingMode _ _)|exact (prints_FpFastMathMode _ _)]
  | apply prints_fmt2; [exact (prints_lit _)|]; apply prints_fmt2; [exact (prints_lit _)|]; apply prints_fmt2; [exact (prints_lit _)|];
    exact (prints_LinkageType _ _) ].
Qed.

(** ** Instructions *)
Ltac head t := lazymatch t with ?f _ => head f | _ => t end.
Ltac arg_lemma := lazymatch goal with
  | H : forall e, prints (?fe e ?o) (_ e) |- forall x, prints (?fe x ?o) _ => exact H
  | |- forall x, prints (fmt_OpId x ?o) _ => exact (fun x => prints_OpId_q x o ltac:(assumption))
  | |- forall x, prints (fmt_u32 x ?o) _ => exact (fun x => prints_u32_q x o ltac:(assumption))
  | |- forall x, prints (display_arg_fmt_String x ?o) _ => exact (fun x => prints_String x o)
  | |- forall x, prints (fmt_SourceVersion x ?o) _ => exact (fun x => prints_SourceVersion x o)
  | |- forall x, prints (fmt_MemberIndex x ?o) _ => exact (fun x => prints_MemberIndex x o)
  | |- forall x, prints (fmt_SourceLanguage x ?o) _ => exact (fun x => prints_SourceLanguage x o)
  | |- forall x, prints (fmt_BuiltIn x ?o) _ => exact (fun x => prints_BuiltIn x o)
  | |- forall x, prints (fmt_FunctionParameterAttribute x ?o) _ => exact (fun x => prints_FunctionParameterAttribute x o)
  | |- forall x, prints (fmt_FpRoundingMode x ?o) _ => exact (fun x => prints_FpRoundingMode x o)
  | |- forall x, prints (fmt_LinkageType x ?o) _ => exact (fun x => prints_LinkageType x o)
  | |- forall x, prints (fmt_AddressingModel x ?o) _ => exact (fun x => prints_AddressingModel x o)
  | |- forall x, prints (fmt_MemoryModel x ?o) _ => exact (fun x => prints_MemoryModel x o)
  | |- forall x, prints (fmt_ExecutionModel x ?o) _ => exact (fun x => prints_ExecutionModel x o)
  | |- forall x, prints (fmt_ExecutionMode x ?o) _ => exact (fun x => prints_ExecutionMode x o)
  | |- forall x, prints (fmt_Capability x ?o) _ => exact (fun x => prints_Capability x o)
  | |- forall x, prints (fmt_Signedness x ?o) _ => exact (fun x => prints_Signedness x o)
  | |- forall x, prints (fmt_StorageClass x ?o) _ => exact (fun x => prints_StorageClass x o)
  | |- forall x, prints (fmt_Dim x ?o) _ => exact (fun x => prints_Dim x o)
  | |- forall x, prints (fmt_DepthStatus x ?o) _ => exact (fun x => prints_DepthStatus x o)
  | |- forall x, prints (fmt_Arrayed x ?o) _ => exact (fun x => prints_Arrayed x o)
  | |- forall x, prints (fmt_MS x ?o) _ => exact (fun x => prints_MS x o)
  | |- forall x, prints (fmt_SampledStatus x ?o) _ => exact (fun x => prints_SampledStatus x o)
  | |- forall x, prints (fmt_ImageFormat x ?o) _ => exact (fun x => prints_ImageFormat x o)
  | |- forall x, prints (fmt_AccessQualifier x ?o) _ => exact (fun x => prints_AccessQualifier x o)
  | |- forall x, prints (fmt_FpFastMathMode x ?o) _ => exact (fun x => prints_FpFastMathMode x o)
  | |- forall x, prints (fmt_MemoryAccess x ?o) _ => exact (fun x => prints_MemoryAccess x o)
  | |- forall x, prints (fmt_FunctionControl x ?o) _ => exact (fun x => prints_FunctionControl x o)
  | |- forall x, prints (fmt_LoopControl x ?o) _ => exact (fun x => prints_LoopControl x o)
  | |- forall x, prints (fmt_SelectionControl x ?o) _ => exact (fun x => prints_SelectionControl x o)
  | |- forall x, prints (fmt_PhiArg x ?o) _ => exact (fun x => prints_PhiArg x o)
  | |- forall x, prints (fmt_BranchWeights x ?o) _ => exact (fun x => prints_BranchWeights x o)
  | |- forall x, prints (fmt_Decoration x ?o) _ => exact (fun x => prints_Decoration x o)
  end.
Ltac arg_list := lazymatch goal with
  | |- prints done _ => exact prints_done
  | |- prints (try_ _ _) _ => eapply prints_try;
      [lazymatch goal with
       | |- prints (fmt_arg _ _ _) _ => eapply prints_arg; arg_lemma
       | |- prints (fmt_arg_Option _ _ _) _ => eapply prints_arg_Option; arg_lemma
       | |- prints (fmt_arg_Vec _ _ _) _ => eapply prints_arg_Vec; arg_lemma
       end|arg_list]
  end.
Ltac instruction := lazymatch goal with |- prints ?p ?t => let h := head p in let h' := head t in unfold h, h' end;
  eapply prints_cast;
  [eapply prints_try; [apply prints_fmt2; [first [apply prints_Result|apply prints_NoResult]|apply prints_lit]|arg_list]
  |rewrite ?sassoc, ?snil; reflexivity].

Section Quiet.
Context {E : Type} (fmt_ext : Display E) (disp_ext : E -> string) (f : Options) (Hq : quiet f)
  (Hext : forall e, prints (fmt_ext e f) (disp_ext e)).
Lemma prints_Core_q : forall i, prints (fmt_Core fmt_ext i f) (disp_Core disp_ext i).
Proof. intros i; destruct i; cbn [fmt_Core disp_Core]; instruction. Qed.
Lemma prints_GroupCode_q : forall i, prints (fmt_GroupCode fmt_ext i f) (disp_GroupCode disp_ext i).
Proof. intros i; destruct i; cbn [fmt_GroupCode disp_GroupCode]; instruction. Qed.
Lemma prints_GroupBranch_q : forall i, prints (fmt_GroupBranch i f) (disp_GroupBranch i).
Proof. intros i; destruct i; cbn [fmt_GroupBranch disp_GroupBranch]; instruction. Qed.
End Quiet.

Section Instructions.
Context {E : Type} (fmt_ext : Display E) (disp_ext : E -> string) (Hext : forall e, prints (fmt_ext e plain) (disp_ext e)).
Lemma prints_Core : forall i, prints (fmt_Core fmt_ext i plain) (disp_Core disp_ext i).
Proof. exact (prints_Core_q fmt_ext disp_ext plain plain_quiet Hext). Qed.
Lemma prints_GroupCode : forall i, prints (fmt_GroupCode fmt_ext i plain) (disp_GroupCode disp_ext i).
Proof. exact (prints_GroupCode_q fmt_ext disp_ext plain plain_quiet Hext). Qed.
Lemma prints_GroupBranch : forall i, prints (fmt_GroupBranch i plain) (disp_GroupBranch i).
Proof. exact (prints_GroupBranch_q plain plain_quiet). Qed.

(** ** Modules *)
Lemma prints_instructions : forall l, prints (fmt_instructions fmt_ext l) (disp_instructions disp_ext l).
Proof.
  induction l as [|i l IH]; [exact prints_done|]. cbn [fmt_instructions disp_instructions].
  eapply prints_cast; [eapply prints_try; [apply prints_fmt2; [apply prints_Core|apply prints_lit]|exact IH]|]. rewrite ?sassoc. reflexivity.
Qed.
Lemma prints_RawModule : forall m f, prints (fmt_RawModule fmt_ext m f) (disp_RawModule disp_ext m).
Proof.
  intros m f. unfold fmt_RawModule, disp_RawModule. cbv zeta.
  eapply prints_cast; [repeat (eapply prints_try; [pieces|]); apply prints_instructions|]. rewrite ?sassoc. reflexivity.
Qed.

(** ** Control flow *)
Lemma prints_indent : forall n, prints (put_indent n) (write_indent n).
Proof. induction n as [|n IH]; [exact prints_done|]. exact (prints_try _ _ _ _ (prints_lit _) IH). Qed.
Lemma prints_hint_sel : forall h, prints (put_hint_sel h) (hint_text_sel h).
Proof. intros h. unfold put_hint_sel, hint_text_sel. destruct (selection_is_default h); [exact prints_done|]. apply prints_fmt2; [apply prints_lit|]. apply prints_fmt2; [apply prints_SelectionControl|apply prints_lit]. Qed.
Lemma prints_hint_loop : forall h, prints (put_hint_loop h) (hint_text_loop h).
Proof. intros h. unfold put_hint_loop, hint_text_loop. destruct (loop_is_default h); [exact prints_done|]. apply prints_fmt2; [apply prints_lit|]. apply prints_fmt2; [apply prints_LoopControl|apply prints_lit]. Qed.
Lemma prints_weights : forall w, prints (put_weights w) (weights_text w).
Proof. intros [w|]; [|exact prints_done]. apply prints_fmt2; [apply prints_lit|]. apply prints_fmt2; [apply prints_BranchWeights|apply prints_lit]. Qed.

Lemma prints_chain : forall c n, prints (put_chain c n) (chain_fmt_indent c n).
Proof.
  fix IH 1. intros c n. destruct c as [id|l|id lhs rhs hint weights|id inner hint weights| |]; cbn [put_chain chain_fmt_indent].
  - eapply prints_try; [apply prints_indent|]. apply prints_fmt2; [apply prints_OpId|apply prints_lit].
  - induction l as [|x l IHl]; [exact prints_done|]. eapply prints_try; [apply IH|exact IHl].
  - eapply prints_cast;
    [eapply prints_try; [apply prints_indent|]; eapply prints_try; [apply prints_fmt2; [apply prints_lit|apply prints_OpId]|];
     eapply prints_try; [apply prints_hint_sel|]; eapply prints_try; [apply prints_weights|]; eapply prints_try; [apply prints_lit|];
     eapply prints_try; [apply IH|]; eapply prints_try; [|eapply prints_try; [apply prints_indent|apply prints_lit]]|].
    + instantiate (1 := if is_empty_block rhs then "" else write_indent n ++ ("} else {" ++ nl) ++ chain_fmt_indent rhs (S n)).
      destruct (is_empty_block rhs); [exact prints_done|]. eapply prints_try; [apply prints_indent|]. eapply prints_try; [apply prints_lit|apply IH].
    + destruct (is_empty_block rhs); rewrite ?sassoc; reflexivity.
  - eapply prints_cast;
    [eapply prints_try; [apply prints_indent|]; eapply prints_try; [apply prints_fmt2; [apply prints_lit|apply prints_OpId]|];
     eapply prints_try; [apply prints_hint_loop|]; eapply prints_try; [apply prints_weights|]; eapply prints_try; [apply prints_lit|];
     eapply prints_try; [apply IH|]; eapply prints_try; [apply prints_indent|apply prints_lit]|].
    rewrite ?sassoc; reflexivity.
  - eapply prints_try; [apply prints_indent|apply prints_lit].
  - eapply prints_try; [apply prints_indent|apply prints_lit].
Qed.

(** ** The function printer, which may panic *)
Definition follows (p : Step) (r : outcome unit string) : Prop :=
  match r with Ok t => prints p t | Panic => exists t, prints_then_panics p t | _ => False end.
Lemma follows_try : forall p a q b, follows p a -> follows q b -> follows (try_ p q) (let! x := a in let! y := b in Ok (x ++ y)).
Proof.
  intros p a q b Hp Hq. destruct a as [x| | |]; try contradiction Hp; cbn [bind follows].
  - destruct b as [y| | |]; try contradiction Hq; cbn [bind follows] in *.
    + apply prints_try; assumption.
    + destruct Hq as [t Hq]. eexists. eapply prints_try_panic; eassumption.
  - destruct Hp as [t Hp]. eexists. eapply panics_try. exact Hp.
Qed.
Lemma follows_prints : forall p t, prints p t -> follows p (Ok t).
Proof. intros p t H. exact H. Qed.
Lemma follows_cast : forall p a b, follows p a -> a = b -> follows p b.
Proof. intros p a b H <-. exact H. Qed.

Lemma prints_code : forall n l, prints (put_code fmt_ext n l) (code_lines disp_ext n l).
Proof.
  intros n l. induction l as [|i l IH]; [exact prints_done|]. cbn [put_code code_lines].
  eapply prints_cast; [eapply prints_try; [apply prints_indent|]; eapply prints_try; [|exact IH];
    apply prints_fmt2; [apply prints_lit|]; apply prints_fmt2; [apply prints_GroupCode|apply prints_lit]|].
  rewrite ?sassoc. reflexivity.
Qed.
Lemma find_block_outcome : forall (l : list (BasicBlock E)) id found, find_block l id found = Panic \/ exists o, find_block l id found = Ok o.
Proof.
  induction l as [|b l IH]; intros id found; cbn [find_block]; [eauto|]. destruct (N.eqb _ id); [|apply IH]. destruct found; [auto|apply IH].
Qed.
Lemma follows_block : forall fn n id, follows (put_block fmt_ext fn n id) (fmt_block_indent disp_ext fn n id).
Proof.
  intros fn n id. unfold put_block, fmt_block_indent.
  destruct (find_block_outcome (FunctionDefinition_blocks fn) id None) as [Q|[[b|] Q]]; rewrite Q; cbn [bind follows]; try (eexists; exact panics).
  eapply prints_cast;
  [eapply prints_try; [apply prints_indent|]; eapply prints_try; [apply prints_fmt2; [apply prints_lit|]; apply prints_fmt2; [apply prints_u32|apply prints_lit]|];
   eapply prints_try; [apply prints_code|]; eapply prints_try; [apply prints_indent|];
   eapply prints_try; [apply prints_fmt2; [apply prints_lit|]; apply prints_fmt2; [apply prints_GroupBranch|apply prints_lit]|];
   eapply prints_try; [apply prints_indent|]; apply prints_fmt2; [apply prints_lit|]; apply prints_fmt2; [apply prints_u32|apply prints_lit]|].
  rewrite ?sassoc. reflexivity.
Qed.

Lemma follows_function : forall fn c n, follows (put_function fmt_ext fn c n) (printer_fmt_indent disp_ext fn c n).
Proof.
  intros fn. fix IH 1. intros c n. destruct c as [id|l|id lhs rhs hint weights|id inner hint weights| |]; cbn [put_function printer_fmt_indent].
  - apply follows_block.
  - induction l as [|x l IHl]; [exact prints_done|]. apply follows_try; [apply IH|exact IHl].
  - assert (R : follows (if is_empty_block rhs then done
        else try_ (put_indent n) (try_ (write_fmt [lit ("} else {" ++ nl)]) (put_function fmt_ext fn rhs (S n))))
      (if is_empty_block rhs then Ok "" else let! r := printer_fmt_indent disp_ext fn rhs (S n) in Ok (write_indent n ++ "} else {" ++ nl ++ r))).
    { destruct (is_empty_block rhs); [exact prints_done|]. eapply follows_cast.
      - apply follows_try; [apply follows_prints, prints_indent|]. apply follows_try; [apply follows_prints, prints_lit|apply IH].
      - cbn [bind]. destruct (printer_fmt_indent disp_ext fn rhs (S n)); cbn [bind]; rewrite ?sassoc; reflexivity. }
    eapply follows_cast.
    + apply follows_try; [apply follows_block|]. apply follows_try; [apply follows_prints, prints_hint_sel|].
      apply follows_try; [apply follows_prints, prints_weights|]. apply follows_try; [apply follows_prints, prints_indent|].
      apply follows_try; [apply follows_prints, prints_lit|]. apply follows_try; [apply IH|]. apply follows_try; [exact R|].
      apply follows_try; [apply follows_prints, prints_indent|apply follows_prints, prints_lit].
    + clear R. cbn [bind]. destruct (fmt_block_indent disp_ext fn n id); cbn [bind]; try reflexivity.
      destruct (printer_fmt_indent disp_ext fn lhs (S n)); cbn [bind]; try reflexivity.
      destruct (if is_empty_block rhs then _ else _); cbn [bind]; rewrite ?sassoc; reflexivity.
  - eapply follows_cast.
    + apply follows_try; [apply follows_block|]. apply follows_try; [apply follows_prints, prints_hint_loop|].
      apply follows_try; [apply follows_prints, prints_weights|]. apply follows_try; [apply follows_prints, prints_indent|].
      apply follows_try; [apply follows_prints, prints_lit|]. apply follows_try; [apply IH|].
      apply follows_try; [apply follows_prints, prints_indent|apply follows_prints, prints_lit].
    + cbn [bind]. destruct (fmt_block_indent disp_ext fn n id); cbn [bind]; try reflexivity.
      destruct (printer_fmt_indent disp_ext fn inner (S n)); cbn [bind]; rewrite ?sassoc; reflexivity.
  - eapply prints_try; [apply prints_indent|apply prints_lit].
  - eapply prints_try; [apply prints_indent|apply prints_lit].
Qed.
End Instructions.

Lemma prints_Inst : forall i f, prints (fmt_Inst i f) (disp_Inst i).
Proof. intros [op|op] f; apply prints_fmt2; first [apply prints_lit|apply prints_OpId]. Qed.

(** ** Particular writers *)
Lemma growing_wrote : forall w t w', wrote growing w t w' -> w' = w ++ t.
Proof. intros w t w' H. induction H as [w|w s w1 t w2 S H IH]; [rewrite snil; reflexivity|]. injection S as <-. rewrite IH, sassoc. reflexivity. Qed.
Lemma prints_growing : forall p t, prints p t -> forall w, p string growing w = (w ++ t, Fmt_Ok).
Proof.
  intros p t H w. destruct (p string growing w) as [w' r] eqn:Q. destruct (H _ _ _ _ _ Q) as [[-> A]|[-> (a & b & c & w1 & -> & A & B)]].
  - rewrite (growing_wrote _ _ _ A). reflexivity.
  - discriminate B.
Qed.
Lemma slen_app : forall a b, String.length (a ++ b) = String.length a + String.length b.
Proof. induction a as [|x a IH]; intros b; cbn [append String.length]; [reflexivity|]. rewrite IH. reflexivity. Qed.
Lemma sub_all : forall n a, String.length a <= n -> substring 0 n a = a.
Proof. induction n as [|n IH]; intros [|x a] L; cbn [String.length] in L; cbn [substring]; try reflexivity; [lia|]. rewrite IH by lia. reflexivity. Qed.
Lemma sub_app : forall n a b, n <= String.length a -> substring 0 n (a ++ b) = substring 0 n a.
Proof. induction n as [|n IH]; intros [|x a] b L; cbn [String.length] in L; cbn [substring append]; try reflexivity; [destruct b; reflexivity|lia|]. rewrite IH by lia. reflexivity. Qed.
Lemma bounded_wrote : forall n w t w', wrote (bounded n) w t w' -> String.length w <= n -> w' = w ++ t /\ String.length w' <= n.
Proof.
  intros n w t w' H. induction H as [w|w s w1 t w2 S H IH]; intros L; [rewrite snil; auto|]. unfold bounded in S. injection S as S1 S2.
  apply Nat.leb_le in S2. rewrite sub_all in S1 by (rewrite slen_app; lia). subst w1. destruct IH as [-> Z]; [rewrite slen_app; lia|].
  rewrite sassoc in *. auto.
Qed.
Lemma prints_bounded : forall p t, prints p t -> forall n,
  p string (bounded n) "" = (substring 0 n t, if Nat.leb (String.length t) n then Fmt_Ok else Fmt_Err).
Proof.
  intros p t H n. destruct (p string (bounded n) "") as [w' r] eqn:Q. destruct (H _ _ _ _ _ Q) as [[-> A]|[-> (a & b & c & w1 & -> & A & B)]].
  - destruct (bounded_wrote _ _ _ _ A) as [-> L]; [cbn; lia|]. cbn [append] in *. rewrite sub_all by exact L. apply Nat.leb_le in L. rewrite L. reflexivity.
  - destruct (bounded_wrote _ _ _ _ A) as [-> L]; [cbn; lia|]. cbn [append] in *. unfold bounded in B. injection B as B1 B2. apply Nat.leb_gt in B2.
    rewrite <- B1, <- sassoc. rewrite (sub_app n (a ++ b) c) by (rewrite slen_app; lia).
    destruct (Nat.leb_spec (String.length ((a ++ b) ++ c)) n) as [Z|Z]; [rewrite !slen_app in Z; lia|reflexivity].
Qed.

(** ** Error texts *)
Lemma description_kind : forall e e', description e = description e' <-> error_kind e = error_kind e'.
Proof.
  intros e e'. split.
  - destruct e, e'; intro H; first [reflexivity|discriminate H].
  - destruct e, e'; intro H; first [reflexivity|discriminate H].
Qed.
Fixpoint printable (s : string) : bool :=
  match s with "" => true | String c s => (32 <=? N_of_ascii c)%N && (N_of_ascii c <=? 126)%N && printable s end.
Lemma printable_get : forall s, printable s = true -> forall n c, String.get n s = Some c -> (32 <= N_of_ascii c <= 126)%N.
Proof.
  induction s as [|x s IH]; intros H n c G; [discriminate G|]. cbn [printable] in H. apply andb_prop in H as [H H2]. apply andb_prop in H as [H0 H1].
  destruct n as [|n]; cbn [String.get] in G; [injection G as <-|eauto]. apply N.leb_le in H0, H1. auto.
Qed.
Lemma description_line : forall e, one_line (description e).
Proof. intros e. split; [destruct e; discriminate|]. apply printable_get. destruct e; reflexivity. Qed.
Lemma description_message : forall e, nth_error messages (error_kind e) = Some (description e).
Proof. intros e. destruct e; reflexivity. Qed.
Lemma prints_ReadError : forall e f, prints (fmt_ReadError e f) (description e).
Proof. intros e f. apply prints_lit. Qed.

(** ** Options *)
Lemma width_goes_to_operands : exists (i : Core Inst) options text,
  Options_width options = Some 20 /\ Options_precision options = None /\ 20 <= String.length (disp_Core disp_Inst i)
  /\ prints (fmt_Core fmt_Inst i options) text /\ text <> disp_Core disp_Inst i.
Proof.
  exists (Core_OpBranch (Build_OpBranch 7%N)), (Build_Options (Some 20) None " " Align_Unknown false false).
  eexists. split; [reflexivity|]. split; [reflexivity|]. split; [vm_compute; repeat constructor|]. split.
  - cbn [fmt_Core]. unfold fmt_OpBranch.
    eapply prints_try; [apply prints_fmt2; [apply prints_NoResult|apply prints_lit]|]. eapply prints_try; [|exact prints_done].
    eapply prints_arg. intro x. unfold fmt_OpId. instantiate (1 := fun x => if Nat.leb 20 (String.length (disp_OpId x)) then disp_OpId x else disp_OpId x ++ spaces (20 - String.length (disp_OpId x))).
    cbv beta. unfold pad. cbn [Options_precision Options_width]. fold (disp_OpId x). destruct (Nat.leb 20 (String.length (disp_OpId x))); [apply prints_lit|].
    unfold padding. cbn [Options_align Options_fill repeat_fill]. rewrite Nat.sub_0_r.
    eapply prints_cast; [eapply prints_try; [exact prints_done|]; eapply prints_try; [apply prints_lit|apply prints_fill]|]. reflexivity.
  - vm_compute. discriminate.
Qed.
Lemma options_irrelevant : forall E (fmt_ext : Display E) options options' W (write_str : string -> W -> W * bool) w,
  (forall m, fmt_RawModule fmt_ext m options _ write_str w = fmt_RawModule fmt_ext m options' _ write_str w)
  /\ (forall c, fmt_ControlFlowChain c options _ write_str w = fmt_ControlFlowChain c options' _ write_str w)
  /\ (forall f c, fmt_ControlFlowFunctionPrinter fmt_ext f c options _ write_str w = fmt_ControlFlowFunctionPrinter fmt_ext f c options' _ write_str w)
  /\ (forall e, fmt_ReadError e options _ write_str w = fmt_ReadError e options' _ write_str w).
Proof. repeat split. Qed.
