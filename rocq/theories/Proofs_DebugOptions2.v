(** What the Debug format with options tells of the types of the crate (C95). *)
From Coq Require Import Lia Bool.
From Verif Require Import Base Types Ops ReadErr Groups Validate ControlFlow Glsl450 MoreOps DisplayBase DisplayModule FmtBase DebugBase Debug DebugMore DebugOps PlainOps
  DebugPretty DebugOptions Spec_Text Spec_Page Spec_Options Spec_Debug Spec_Pretty Spec_DebugOptions
  Proofs_Text2 Proofs_Options Proofs_Debug Proofs_Debug2 Proofs_Debug3 Proofs_Page Proofs_Plain Proofs_Plain2 Proofs_Pretty Proofs_Pretty2 Proofs_DebugOptions.
Local Open Scope string_scope.

Lemma named_identifier : forall n, every word_char n = true -> (exists c s, n = String c s /\ digit_char c = false) -> identifier n.
Proof.
  intros n W (c & s & -> & D). apply every_letters in W. destruct W as [C W]. split; [exact C|]. split; [exact D|exact W].
Qed.
Lemma wf_identified : forall {E} (t : dtree E), wf t = true -> identified t.
Proof.
  intros E. apply (tree_ind' (E := E) (fun t => wf t = true -> identified t)); try (intros; exact I).
  - intros n W. cbn [wf] in W. apply named_facts in W. destruct W as (_ & _ & _ & W & X). exact (named_identifier n W X).
  - intros n fs F W. cbn [wf] in W. rewrite !andb_true_iff in W. destruct W as [[W1 W2] W3]. apply tuple_named_facts in W1. destruct W1 as (_ & _ & _ & W1 & X).
    split; [destruct X as [X|X]; [left; exact X|right; exact (named_identifier n W1 X)]|]. split; [destruct fs; [discriminate W2|discriminate]|]. clear - F W3.
    induction F as [|t fs T F IH]; [exact I|]. cbn [forallb] in W3. apply andb_true_iff in W3. destruct W3 as [A B]. split; [exact (T A)|exact (IH B)].
  - intros n fs F W. cbn [wf] in W. rewrite !andb_true_iff in W. destruct W as [[W1 W2] W3]. apply named_facts in W1. destruct W1 as (_ & _ & _ & W1 & X).
    split; [exact (named_identifier n W1 X)|]. split; [destruct fs; [discriminate W2|discriminate]|]. clear - F W3.
    induction F as [|[f t] fs T F IH]; [exact I|]. cbn [forallb fst snd] in *. rewrite !andb_true_iff in W3. destruct W3 as [[[A1 A2] A3] B].
    split; [|exact (IH B)]. split; [apply every_letters; exact A1|]. split; [intros ->; discriminate A2|exact (T A3)].
  - intros l F W. cbn [wf] in W. cbn [identified]. induction F as [|t fs T F IH]; [exact I|]. cbn [forallb] in W. apply andb_true_iff in W. destruct W as [A B]. split; [exact (T A)|exact (IH B)].
Qed.
Lemma shown_identified : forall {E A} (dbg : A -> dtree E) (S : Shown dbg) a, identified (dbg a).
Proof. intros E A dbg S a. apply wf_identified. apply shown_wf. Qed.
Lemma all_identified : forall E,
  (forall m : RawModule E, identified (dbg_RawModule m)) /\ (forall m : LogicalModule E, identified (dbg_LogicalModule m))
  /\ (forall f : FunctionDefinition E, identified (dbg_FunctionDefinition f)) /\ (forall i : Core E, identified (dbg_Core i))
  /\ (forall x, identified (dbg_ReadError (E := E) x)) /\ (forall x, identified (dbg_ValidationError (E := E) x))
  /\ (forall x, identified (dbg_ControlFlowError (E := E) x)) /\ (forall c, identified (dbg_ControlFlowChain (E := E) c))
  /\ (forall i, identified (dbg_Inst (E := E) i)) /\ (forall T (x : PlainValue T), identified (dbg_Plain (E := E) T x))
  /\ (forall i, identified (dbg_MoreOp (E := E) i)).
Proof.
  intros E.
  refine (conj _ (conj _ (conj _ (conj _ (conj _ (conj _ (conj _ (conj _ (conj _ (conj _ _)))))))))); try exact (shown_identified _ _).
  - intros T x. apply wf_identified. apply plain_wf.
  - intros i. apply wf_identified. apply more_wf.
Qed.

Section User.
Context {E : Type} (layout : option bool) (o : Options) (R : readable o) (e : escapes) (user : E -> dtree Empty_set) (Named : forall x, identified (user x)).
Let shown_user (x : E) : string := debug_with layout o e no_ext (user x).
Let text_user (x : E) : string := debug_text e no_ext (user x).
Lemma user_tidied : forall x, tidied (shown_user x) (text_user x).
Proof. intros x. apply tree_tidied; [exact R|intros []|apply Named]. Qed.
Lemma options_lost : forall t, identified t -> without_options Between (debug_with layout o e shown_user t) = debug_text e text_user t.
Proof.
  intros t P. pose proof (tidied_bare _ _ (tree_tidied layout o R e shown_user text_user user_tidied t P) "" I) as H.
  cbn [without_options] in H. rewrite !sapp_nil in H. exact H.
Qed.
Lemma options_exact : forall {A} (dbg : A -> dtree E) (S : Shown dbg), unambiguous text_user ->
  forall a b, debug_with layout o e shown_user (dbg a) = debug_with layout o e shown_user (dbg b) <-> a = b.
Proof.
  intros A dbg S U a b. split; [|intros ->; reflexivity]. intros H. apply (f_equal (without_options Between)) in H.
  rewrite !options_lost in H by (apply shown_identified; exact S). apply (shown_exact dbg S e text_user U). exact H.
Qed.
End User.

Lemma all_options_exact : forall E layout o e (user : E -> dtree Empty_set), readable o -> (forall x, identified (user x)) ->
  unambiguous (fun x => debug_text e no_ext (user x)) ->
  let show := debug_with layout o e (fun x => debug_with layout o e no_ext (user x)) in
  (forall a b : RawModule E, show (dbg_RawModule a) = show (dbg_RawModule b) <-> a = b)
  /\ (forall a b : LogicalModule E, show (dbg_LogicalModule a) = show (dbg_LogicalModule b) <-> a = b)
  /\ (forall a b : FunctionDefinition E, show (dbg_FunctionDefinition a) = show (dbg_FunctionDefinition b) <-> a = b)
  /\ (forall a b : Core E, show (dbg_Core a) = show (dbg_Core b) <-> a = b)
  /\ (forall a b : ReadError, show (dbg_ReadError a) = show (dbg_ReadError b) <-> a = b)
  /\ (forall a b : ValidationError, show (dbg_ValidationError a) = show (dbg_ValidationError b) <-> a = b)
  /\ (forall a b : ControlFlowError, show (dbg_ControlFlowError a) = show (dbg_ControlFlowError b) <-> a = b)
  /\ (forall a b : ControlFlowChain, show (dbg_ControlFlowChain a) = show (dbg_ControlFlowChain b) <-> a = b).
Proof.
  intros E layout o e user R P U show.
  exact (conj (options_exact layout o R e user P _ _ U) (conj (options_exact layout o R e user P _ _ U) (conj (options_exact layout o R e user P _ _ U)
    (conj (options_exact layout o R e user P _ _ U) (conj (options_exact layout o R e user P _ _ U) (conj (options_exact layout o R e user P _ _ U)
    (conj (options_exact layout o R e user P _ _ U) (options_exact layout o R e user P _ _ U)))))))).
Qed.
Lemma glsl_identified : forall i, identified (dbg_Inst (E := Empty_set) i).
Proof. intros i. apply (shown_identified (dbg_Inst (E := Empty_set)) _). Qed.

(** ** Statements *)
Lemma options_text : forall E o e (ext : E -> string) t,
  (exists number boolean, leaves_of o number boolean)
  /\ forall number boolean, leaves_of o number boolean ->
     debug_with None o e ext t = debug_text e ext (with_leaves number boolean t)
     /\ forall trailing, debug_with (Some trailing) o e ext t = pretty_text trailing e ext (with_leaves number boolean t).
Proof.
  intros E o e ext t. split; [eexists _, _; apply leaves_exist|]. intros number boolean L.
  split; [exact (exact_text None o e ext number boolean L t)|intros trailing; exact (exact_text (Some trailing) o e ext number boolean L t)].
Qed.
Lemma no_options : forall E e (ext : E -> string) t,
  debug_with None plain e ext t = debug_text e ext t /\ forall trailing, debug_with (Some trailing) plain e ext t = pretty_text trailing e ext t.
Proof. intros E e ext t. split; [exact (plain_text None e ext t)|intros trailing; exact (plain_text (Some trailing) e ext t)]. Qed.
Lemma lost_options : forall E layout o e (user : E -> dtree Empty_set), readable o -> (forall x, identified (user x)) ->
  forall t, identified t ->
  without_options Between (debug_with layout o e (fun x => debug_with layout o e no_ext (user x)) t)
  = debug_text e (fun x => debug_text e no_ext (user x)) t.
Proof. intros E layout o e user R P t. exact (options_lost layout o R e user P t). Qed.
Lemma cut_off : forall E layout o e (ext : E -> string), Options_precision o = Some 0 ->
  let merge := fun flatten => Core_OpSelectionMerge (Build_OpSelectionMerge 1%N (Build_SelectionControl flatten false)) : Core E in
  debug_with layout o e ext (dbg_Core (merge true)) = debug_with layout o e ext (dbg_Core (merge false)).
Proof.
  intros E layout o e ext P merge. rewrite !(exact_text layout o e ext _ _ (leaves_exist o)). subst merge. f_equal.
  cbn. unfold dbg_OpSelectionMerge, dbg_SelectionControl. cbn. unfold fit_text. rewrite P. reflexivity.
Qed.
Lemma filled_in : exists o, Options_precision o = None /\ forall E layout e (ext : E -> string),
  debug_with layout o e ext (dbg_ControlFlowChain (Atom 1%N)) = debug_with layout o e ext (dbg_ControlFlowChain (Atom 10%N)).
Proof.
  exists (Build_Options (Some 3) None "0" Align_Left false false). split; [reflexivity|]. intros E [] e ext; reflexivity.
Qed.
