(** The lines of the Debug format over several lines, and what follows for the types of the crate (C92). *)
From Coq Require Import Lia Bool.
From Verif Require Import Base Types Ops ReadErr Groups Validate ControlFlow Glsl450 MoreOps DisplayBase DisplayModule DebugBase Debug DebugMore DebugOps PlainOps
  DebugPretty Spec_Text Spec_Page Spec_Debug Spec_Pretty
  Proofs_Text2 Proofs_Debug Proofs_Debug2 Proofs_Debug3 Proofs_Page Proofs_Plain Proofs_Plain2 Proofs_Pretty.
Local Open Scope string_scope.

Definition free (ls : list string) : Prop := Forall lf_free ls.
Lemma joined_cons : forall l ls, ls <> [] -> joined (l :: ls) = l ++ nl ++ joined ls.
Proof. intros l [|x ls] N; [contradiction|]. reflexivity. Qed.
Lemma joined_block : forall o ls k, joined (o :: ls ++ [k])%list = o ++ nl ++ page ls ++ k.
Proof.
  intros o ls k. revert o. induction ls as [|l ls IH]; intros o; [reflexivity|].
  change ((o :: (l :: ls) ++ [k])%list) with (o :: (l :: ls ++ [k]))%list. rewrite joined_cons by discriminate. rewrite IH, page_cons, !sapp_assoc. reflexivity.
Qed.
Lemma add_last_some : forall more ls, add_last more ls <> [].
Proof. intros more [|l [|x ls]]; discriminate. Qed.
Lemma joined_last : forall more ls, ls <> [] -> joined ls ++ more = joined (add_last more ls).
Proof.
  intros more ls. induction ls as [|l ls IH]; intros N; [contradiction|]. destruct ls as [|x ls]; [reflexivity|].
  rewrite joined_cons by discriminate. change (add_last more (l :: x :: ls)) with (l :: add_last more (x :: ls)).
  rewrite (joined_cons l (add_last more (x :: ls))) by apply add_last_some. rewrite !sapp_assoc, IH by discriminate. reflexivity.
Qed.
Lemma joined_first : forall before ls, ls <> [] -> before ++ joined ls = joined (add_first before ls).
Proof. intros before [|l [|x ls]] N; [contradiction|reflexivity|]. unfold joined. cbn [add_first String.concat]. rewrite sapp_assoc. reflexivity. Qed.
Lemma joined_page : forall ls, ls <> [] -> joined ls ++ nl = page ls.
Proof.
  induction ls as [|l ls IH]; intros N; [contradiction|]. destruct ls as [|x ls]; [reflexivity|].
  rewrite joined_cons by discriminate. rewrite page_cons, <- IH by discriminate. rewrite !sapp_assoc. reflexivity.
Qed.
Lemma add_first_some : forall before ls, add_first before ls <> [].
Proof. intros before [|l ls]; discriminate. Qed.
Lemma add_last_free : forall more ls, lf_free more -> free ls -> free (add_last more ls).
Proof.
  intros more ls M F. induction F as [|l ls L F IH]; [repeat constructor; exact M|]. destruct ls as [|x ls]; [repeat constructor; apply lf_app; assumption|].
  change (add_last more (l :: x :: ls)) with (l :: add_last more (x :: ls)). constructor; assumption.
Qed.
Lemma add_first_free : forall before ls, lf_free before -> free ls -> free (add_first before ls).
Proof. intros before ls M F. destruct F as [|l ls L F]; repeat constructor; [exact M|apply lf_app; assumption|exact F]. Qed.

Lemma pad_line : forall l r, lf_free l -> forall b, pad_adapter b (l ++ nl ++ r) = (if b then "    " else "") ++ l ++ nl ++ pad_adapter true r.
Proof.
  induction l as [|c l IH]; intros r L b; [destruct b; reflexivity|].
  assert (C : Ascii.eqb c (ascii_of_N 10) = false) by (apply Ascii.eqb_neq; intros ->; apply L; left; reflexivity).
  cbn [append pad_adapter]. rewrite C, IH by (intros X; apply L; right; exact X). reflexivity.
Qed.
Lemma pad_page : forall ls, free ls -> pad_adapter true (page ls) = page (map (append (blanks 4)) ls).
Proof.
  intros ls F. induction F as [|l ls L F IH]; [reflexivity|]. cbn [map]. rewrite !page_cons, pad_line, IH by exact L. rewrite !sapp_assoc. reflexivity.
Qed.

Section Lines.
Context {E : Type} (trailing : bool) (e : escapes) (pretty_ext : E -> string) (ext_lines : E -> list string)
  (Ext : forall x, ext_lines x <> [] /\ free (ext_lines x) /\ pretty_ext x = joined (ext_lines x)).
Notation wide := (pretty_text trailing e pretty_ext).
Notation shown := (pretty_lines trailing e ext_lines).

Lemma fields_page : forall items, Forall (fun ls => ls <> [] /\ free ls) items ->
  pretty_fields trailing (map joined items) = page (map (append (blanks 4)) (comma_lines trailing items)) /\ free (comma_lines trailing items).
Proof.
  intros items F. induction F as [|ls items [N L] F IH]; [split; [reflexivity|constructor]|].
  assert (One : forall more, lf_free more -> pad_adapter true (joined ls ++ more ++ nl) = page (map (append (blanks 4)) (add_last more ls)) /\ free (add_last more ls)).
  { intros more M. rewrite <- sapp_assoc, joined_last, joined_page by (exact N || apply add_last_some). pose proof (add_last_free more ls M L) as X. split; [apply pad_page; exact X|exact X]. }
  destruct items as [|x items].
  - cbn [map pretty_fields comma_lines]. apply One. destruct trailing; [lf|intros []].
  - cbn [map] in *. change (pretty_fields trailing (joined ls :: joined x :: map joined items)) with (pad_adapter true (joined ls ++ "," ++ nl) ++ pretty_fields trailing (joined x :: map joined items)).
    change (comma_lines trailing (ls :: x :: items)) with (add_last "," ls ++ comma_lines trailing (x :: items))%list.
    destruct (One ",") as [-> X]; [lf|]. destruct IH as [-> Y]. split; [rewrite map_app, page_app; reflexivity|apply Forall_app; split; assumption].
Qed.
Lemma block_lines : forall o items k, lf_free o -> lf_free k -> Forall (fun ls => ls <> [] /\ free ls) items ->
  pretty_block trailing o (map joined items) k = joined (enclosed trailing o items k) /\ free (enclosed trailing o items k) /\ enclosed trailing o items k <> [].
Proof.
  intros o items k O K F. destruct (fields_page items F) as [P L]. destruct items as [|x items].
  - repeat split; [repeat constructor; apply lf_app; assumption|discriminate].
  - unfold enclosed. rewrite joined_block, <- P. repeat split; [|discriminate]. constructor; [exact O|]. apply Forall_app. split; [|repeat constructor; exact K].
    clear - L. induction L as [|l ls X L IH]; constructor; [apply lf_app; [lf|exact X]|exact IH].
Qed.

Lemma tree_lines : forall t, plainly_named t -> wide t = joined (shown t) /\ free (shown t) /\ shown t <> [].
Proof.
  assert (Items : forall l, Forall (fun t => plainly_named t -> wide t = joined (shown t) /\ free (shown t) /\ shown t <> []) l ->
    (fix each l := match l with [] => True | t :: l => plainly_named t /\ each l end) l ->
    map wide l = map joined (map shown l) /\ Forall (fun ls => ls <> [] /\ free ls) (map shown l)).
  { intros l F. induction F as [|t l T F IH]; intros P; [split; [reflexivity|constructor]|]. destruct P as [P1 P2]. destruct (T P1) as (T1 & T2 & T3), (IH P2) as [I1 I2].
    cbn [map]. rewrite T1, I1. split; [reflexivity|constructor; [split; assumption|assumption]]. }
  apply (tree_ind' (E := E) (fun t => plainly_named t -> wide t = joined (shown t) /\ free (shown t) /\ shown t <> [])).
  - intros n _. repeat split; [repeat constructor; apply lf_decimal|discriminate].
  - intros [] _; (repeat split; [repeat constructor; lf|discriminate]).
  - intros s _. repeat split; [repeat constructor; apply string_free|discriminate].
  - intros n [W N]. repeat split; [repeat constructor; apply word_free; exact W|discriminate].
  - intros n fs F (W & N & P). cbn [pretty_text pretty_lines]. destruct (Items fs F P) as [-> I]. apply block_lines; [apply lf_app; [apply word_free; exact W|lf]|lf|exact I].
  - intros n fs F (W & N & N' & P). cbn [pretty_text pretty_lines].
    assert (Items' : map (fun f => fst f ++ ": " ++ wide (snd f)) fs = map joined (map (fun f => add_first (fst f ++ ": ") (shown (snd f))) fs)
      /\ Forall (fun ls => ls <> [] /\ free ls) (map (fun f => add_first (fst f ++ ": ") (shown (snd f))) fs)).
    { clear N'. induction F as [|[f t] fs T F IH]; [split; [reflexivity|constructor]|]. destruct P as [(P1 & P2 & P3) P4]. cbn [fst snd] in *.
      destruct (T P3) as (T1 & T2 & T3), (IH P4) as [I1 I2]. cbn [map fst snd]. rewrite I1, T1. split.
      - rewrite <- joined_first by exact T3. rewrite sapp_assoc. reflexivity.
      - constructor; [|exact I2]. split; [apply add_first_some|]. apply add_first_free; [apply lf_app; [apply word_free; exact P1|lf]|exact T2]. }
    destruct Items' as [-> I]. apply block_lines; [apply lf_app; [apply word_free; exact W|lf]|lf|exact I].
  - intros l F P. cbn [pretty_text pretty_lines]. destruct (Items l F P) as [-> I]. apply block_lines; [lf|lf|exact I].
  - intros x _. cbn [pretty_text pretty_lines]. destruct (Ext x) as (X1 & X2 & X3). rewrite X3. apply (block_lines _ [ext_lines x]); [lf|lf|]. repeat constructor; assumption.
Qed.
Lemma shown_lines : forall t, plainly_named t -> wide t = joined (shown t).
Proof. intros t P. exact (proj1 (tree_lines t P)). Qed.
End Lines.

(** ** The types of the crate *)
Lemma wf_plain : forall {E} (t : dtree E), wf t = true -> plainly_named t.
Proof.
  intros E. apply (tree_ind' (E := E) (fun t => wf t = true -> plainly_named t)); try (intros; exact I).
  - intros n W. cbn [wf] in W. apply named_facts in W. destruct W as (_ & _ & _ & W & c & s & -> & _). split; [apply every_letters; exact W|discriminate].
  - intros n fs F W. cbn [wf] in W. rewrite !andb_true_iff in W. destruct W as [[W1 W2] W3]. apply tuple_named_facts in W1. destruct W1 as (_ & _ & _ & W1 & _).
    split; [apply every_letters; exact W1|]. split; [destruct fs; [discriminate W2|discriminate]|]. clear - F W3.
    induction F as [|t fs T F IH]; [exact I|]. cbn [forallb] in W3. apply andb_true_iff in W3. destruct W3 as [A B]. split; [exact (T A)|exact (IH B)].
  - intros n fs F W. cbn [wf] in W. rewrite !andb_true_iff in W. destruct W as [[W1 W2] W3]. apply named_facts in W1. destruct W1 as (_ & _ & _ & W1 & c & s & -> & _).
    split; [apply every_letters; exact W1|]. split; [discriminate|]. split; [destruct fs; [discriminate W2|discriminate]|]. clear - F W3.
    induction F as [|[f t] fs T F IH]; [exact I|]. cbn [forallb fst snd] in *. rewrite !andb_true_iff in W3. destruct W3 as [[[A1 A2] A3] B].
    split; [|exact (IH B)]. split; [apply every_letters; exact A1|]. split; [intros ->; discriminate A2|exact (T A3)].
  - intros l F W. cbn [wf] in W. cbn [plainly_named]. induction F as [|t fs T F IH]; [exact I|]. cbn [forallb] in W. apply andb_true_iff in W. destruct W as [A B]. split; [exact (T A)|exact (IH B)].
Qed.
Lemma shown_plain : forall {E A} (dbg : A -> dtree E) (S : Shown dbg) a, plainly_named (dbg a).
Proof. intros E A dbg S a. apply wf_plain. apply shown_wf. Qed.

Section User.
Context {E : Type} (trailing : bool) (e : escapes) (user : E -> dtree Empty_set) (Plain : forall x, plainly_named (user x)).
Definition user_pretty (x : E) : string := pretty_text trailing e no_ext (user x).
Definition user_text (x : E) : string := debug_text e no_ext (user x).
Lemma user_spread : forall x, spread (user_pretty x) (user_text x).
Proof. intros x. apply tree_spread; [intros []|apply Plain]. Qed.
Lemma collapsed : forall t, plainly_named t -> one_line Outside (pretty_text trailing e user_pretty t) = debug_text e user_text t.
Proof.
  intros t P. pose proof (spread_line _ _ (tree_spread trailing e user_pretty user_text user_spread t P) Outside "" (or_introl eq_refl)) as H.
  cbn [one_line] in H. rewrite !sapp_nil in H. exact H.
Qed.
Lemma pretty_exact : forall {A} (dbg : A -> dtree E) (S : Shown dbg), unambiguous user_text ->
  forall a b, pretty_text trailing e user_pretty (dbg a) = pretty_text trailing e user_pretty (dbg b) <-> a = b.
Proof.
  intros A dbg S U a b. split; [|intros ->; reflexivity]. intros H. apply (f_equal (one_line Outside)) in H.
  rewrite !collapsed in H by (apply shown_plain; exact S). apply (shown_exact dbg S e user_text U). exact H.
Qed.
End User.

Lemma glsl_plain : forall i, plainly_named (dbg_Inst (E := Empty_set) i).
Proof. intros i. apply (shown_plain (dbg_Inst (E := Empty_set)) _). Qed.
Lemma all_plain : forall E,
  (forall m : RawModule E, plainly_named (dbg_RawModule m)) /\ (forall m : LogicalModule E, plainly_named (dbg_LogicalModule m))
  /\ (forall f : FunctionDefinition E, plainly_named (dbg_FunctionDefinition f)) /\ (forall i : Core E, plainly_named (dbg_Core i))
  /\ (forall x, plainly_named (dbg_ReadError (E := E) x)) /\ (forall x, plainly_named (dbg_ValidationError (E := E) x))
  /\ (forall x, plainly_named (dbg_ControlFlowError (E := E) x)) /\ (forall c, plainly_named (dbg_ControlFlowChain (E := E) c))
  /\ (forall i, plainly_named (dbg_Inst (E := E) i)) /\ (forall T (x : PlainValue T), plainly_named (dbg_Plain (E := E) T x))
  /\ (forall i, plainly_named (dbg_MoreOp (E := E) i)).
Proof.
  intros E.
  refine (conj _ (conj _ (conj _ (conj _ (conj _ (conj _ (conj _ (conj _ (conj _ (conj _ _)))))))))); try exact (shown_plain _ _).
  - intros T x. apply wf_plain. apply plain_wf.
  - intros i. apply wf_plain. apply more_wf.
Qed.
Lemma all_exact : forall E trailing e (user : E -> dtree Empty_set), (forall x, plainly_named (user x)) ->
  unambiguous (fun x => debug_text e no_ext (user x)) ->
  let show := pretty_text trailing e (fun x => pretty_text trailing e no_ext (user x)) in
  (forall a b : RawModule E, show (dbg_RawModule a) = show (dbg_RawModule b) <-> a = b)
  /\ (forall a b : LogicalModule E, show (dbg_LogicalModule a) = show (dbg_LogicalModule b) <-> a = b)
  /\ (forall a b : FunctionDefinition E, show (dbg_FunctionDefinition a) = show (dbg_FunctionDefinition b) <-> a = b)
  /\ (forall a b : Core E, show (dbg_Core a) = show (dbg_Core b) <-> a = b)
  /\ (forall a b : ReadError, show (dbg_ReadError a) = show (dbg_ReadError b) <-> a = b)
  /\ (forall a b : ValidationError, show (dbg_ValidationError a) = show (dbg_ValidationError b) <-> a = b)
  /\ (forall a b : ControlFlowError, show (dbg_ControlFlowError a) = show (dbg_ControlFlowError b) <-> a = b)
  /\ (forall a b : ControlFlowChain, show (dbg_ControlFlowChain a) = show (dbg_ControlFlowChain b) <-> a = b).
Proof.
  intros E trailing e user P U show.
  exact (conj (pretty_exact trailing e user P _ _ U) (conj (pretty_exact trailing e user P _ _ U) (conj (pretty_exact trailing e user P _ _ U)
    (conj (pretty_exact trailing e user P _ _ U) (conj (pretty_exact trailing e user P _ _ U) (conj (pretty_exact trailing e user P _ _ U)
    (conj (pretty_exact trailing e user P _ _ U) (pretty_exact trailing e user P _ _ U)))))))).
Qed.
Lemma lines_exact : forall E trailing e (pretty_ext : E -> string) (ext_lines : E -> list string) t,
  (forall x, ext_lines x <> [] /\ (forall l, In l (ext_lines x) -> ~ contains line_feed l) /\ pretty_ext x = joined (ext_lines x)) ->
  plainly_named t -> pretty_text trailing e pretty_ext t = joined (pretty_lines trailing e ext_lines t)
    /\ (forall l, In l (pretty_lines trailing e ext_lines t) -> ~ contains line_feed l).
Proof.
  intros E trailing e pretty_ext ext_lines t X P.
  destruct (tree_lines trailing e pretty_ext ext_lines) with (t := t) as (H1 & H2 & _); [|exact P|].
  - intros x. destruct (X x) as (X1 & X2 & X3). split; [exact X1|]. split; [apply Forall_forall; exact X2|exact X3].
  - split; [exact H1|apply Forall_forall; exact H2].
Qed.
