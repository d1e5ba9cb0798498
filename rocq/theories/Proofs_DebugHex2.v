(** Back from hexadecimal to decimal numbers, and what is told of the types of the crate (C100). *)
From Coq Require Import Lia Bool.
From Verif Require Import Base Types Ops ReadErr Groups Validate ControlFlow Glsl450 MoreOps DisplayBase DisplayModule FmtBase DebugBase Debug DebugMore DebugOps PlainOps
  DebugPretty DebugOptions DebugWriter DebugHex
  Spec_Text Spec_Writer Spec_Page Spec_Options Spec_Debug Spec_Pretty Spec_DebugOptions Spec_DebugWriter Spec_DebugHex
  Proofs_Text2 Proofs_Fmt Proofs_Options Proofs_Debug Proofs_Debug2 Proofs_Debug3 Proofs_Page Proofs_Plain Proofs_Plain2 Proofs_Pretty Proofs_Pretty2
  Proofs_DebugOptions Proofs_DebugOptions2 Proofs_DebugWriter Proofs_DebugHex.
Local Open Scope string_scope.

Definition truth (b : bool) : string := if b then "true" else "false".

(** ** Without the options *)
Section Tidy.
Context {E : Type} (layout : option bool) (number word : N -> string) (boolean : bool -> string)
  (Number : forall n, tidied (number n) (word n)) (Boolean : forall b, tidied (boolean b) (truth b))
  (e : escapes) (shown_ext ext : E -> string) (Ext : forall x, tidied (shown_ext x) (ext x)).
Notation wide := (fun t => debug_with layout plain e shown_ext (with_leaves number boolean t)).
Notation text := (fun t => debug_text e ext (with_leaves word truth t)).

Lemma leaves_tidied : forall t, identified t -> tidied (wide t) (text t).
Proof.
  assert (Items : forall l, Forall (fun t => identified t -> tidied (wide t) (text t)) l ->
    (fix each l := match l with [] => True | t :: l => identified t /\ each l end) l ->
    Forall (fun i => tidied (fst i) (snd i)) (map (fun t => (wide t, text t)) l)).
  { intros l F. induction F as [|t l T F IH]; intros P; [constructor|]. destruct P as [P1 P2]. constructor; [exact (T P1)|exact (IH P2)]. }
  assert (Pairs : forall {A} (f g : A -> string) l, map f l = map fst (map (fun t => (f t, g t)) l) /\ map g l = map snd (map (fun t => (f t, g t)) l)).
  { intros A f g l. rewrite !map_map. split; reflexivity. }
  apply (tree_ind' (E := E) (fun t => identified t -> tidied (wide t) (text t))).
  - intros n _. exact (Number n).
  - intros b _. exact (Boolean b).
  - intros s _. cbn [with_leaves debug_with debug_text]. constructor.
    + intros r. reflexivity.
    + rewrite <- (sapp_nil (dbg_str e s)). exact (proj2 (string_between e s "")).
    + intros r _. exact (proj1 (string_between e s r)).
  - intros n I. cbn [with_leaves debug_with debug_text identified] in *. destruct (identifier_letters n I) as [W N]. constructor.
    + intros r. apply word_next; assumption.
    + rewrite <- (sapp_nil n), word_walk by exact W. reflexivity.
    + intros r A. rewrite name_kept, apart_between by assumption. reflexivity.
  - intros n fs F (I & N & P). cbn [with_leaves debug_with debug_text]. specialize (Items fs F P). rewrite !map_map.
    destruct (Pairs _ wide text fs) as [P1 P2]. rewrite P1, P2.
    match goal with |- tidied _ (n ++ "(" ++ ?s ++ ")") => replace (n ++ "(" ++ s ++ ")") with ((n ++ "(") ++ s ++ gap ")" ++ ")") by (rewrite sapp_assoc; reflexivity) end.
    apply block_tidied; [left; reflexivity| | | |exact Items|destruct fs; [contradiction|discriminate]]; (destruct I as [->|I]; [reflexivity|]); destruct (identifier_letters n I) as [W M].
    + intros r. rewrite sapp_assoc. apply word_next; assumption.
    + rewrite word_walk by exact W. reflexivity.
    + intros r. rewrite sapp_assoc, name_kept, sapp_assoc by exact I. reflexivity.
  - intros n fs F (I & N' & P). cbn [with_leaves debug_with debug_text]. rewrite !map_map. cbn [fst snd]. destruct (identifier_letters n I) as [W M].
    assert (Items' : Forall (fun i => tidied (fst i) (snd i)) (map (fun f => (fst f ++ ": " ++ wide (snd f), fst f ++ ": " ++ text (snd f))) fs)).
    { clear N'. induction F as [|[f t] fs T F IH]; [constructor|]. cbn [fst snd] in *. destruct P as [(P1 & P2 & P3) P4]. constructor; [|exact (IH P4)].
      cbn [fst snd]. specialize (T P3). set (a := debug_with layout plain e shown_ext (with_leaves number boolean t)) in *. set (b := debug_text e ext (with_leaves word truth t)) in *. clearbody a b. constructor.
      - intros r. rewrite sapp_assoc. apply word_next; assumption.
      - rewrite word_walk by exact P1. exact (tidied_walk _ _ T).
      - intros r A. rewrite !sapp_assoc. change (f ++ ": " ++ a ++ r) with (f ++ ":" ++ " " ++ a ++ r). rewrite label_kept by assumption.
        change (without_options Between (" " ++ a ++ r)) with (without_options Between (a ++ r)). rewrite (tidied_bare _ _ T) by exact A. reflexivity. }
    destruct (Pairs _ (fun f => fst f ++ ": " ++ wide (snd f)) (fun f => fst f ++ ": " ++ text (snd f)) fs) as [P1 P2]. rewrite P1, P2.
    match goal with |- tidied _ (n ++ " { " ++ ?s ++ " }") => replace (n ++ " { " ++ s ++ " }") with ((n ++ " { ") ++ s ++ gap "}" ++ "}") by (rewrite sapp_assoc; reflexivity) end.
    apply block_tidied; [right; right; reflexivity| | | |exact Items'|destruct fs; [contradiction|discriminate]].
    + intros r. rewrite sapp_assoc. apply word_next; assumption.
    + rewrite word_walk by exact W. reflexivity.
    + intros r. rewrite sapp_assoc, name_kept, sapp_assoc by exact I. reflexivity.
  - intros l F P. cbn [with_leaves debug_with debug_text]. specialize (Items l F P). rewrite !map_map. destruct (Pairs _ wide text l) as [P1 P2]. rewrite P1, P2.
    destruct l as [|t l].
    { unfold debug_block. destruct layout; (constructor; [intros r; reflexivity|reflexivity|intros r _; reflexivity]). }
    match goal with |- tidied _ ("[" ++ ?s ++ "]") => change ("[" ++ s ++ "]") with ("[" ++ s ++ gap "]" ++ "]") end.
    apply block_tidied; [right; left; reflexivity|reflexivity|reflexivity|reflexivity|exact Items|discriminate].
  - intros x _. cbn [with_leaves debug_with debug_text].
    change ("ExtInstBox(" ++ ext x ++ ")") with ("ExtInstBox(" ++ separated (map snd [(shown_ext x, ext x)]) ++ gap ")" ++ ")").
    change [shown_ext x] with (map fst [(shown_ext x, ext x)]).
    apply block_tidied; [left; reflexivity|reflexivity|reflexivity|reflexivity| |discriminate]. constructor; [exact (Ext x)|constructor].
Qed.
End Tidy.

(** ** Back to decimal numbers *)
Section Decimals.
Context (upper : bool).
Notation back := (decimals upper).
Lemma word_read : forall w v r, word_letters w -> back Between v (w ++ r) = back Between (v ++ w) r.
Proof.
  induction w as [|c w IH]; intros v r W; [rewrite sapp_nil; reflexivity|]. destruct W as [C W]. cbn [append decimals]. rewrite C, IH, sapp_assoc by exact W. reflexivity.
Qed.
Lemma word_over : forall w r, apart r -> back Between w r = in_decimal upper w ++ back Between "" r.
Proof.
  intros w [|c r] A; [cbn [decimals]; change (in_decimal upper "") with ""; rewrite sapp_nil; reflexivity|]. destruct A as [A B]. cbn [decimals]. rewrite A, B. reflexivity.
Qed.
Lemma label_over : forall w r, back Between w (":" ++ r) = w ++ ":" ++ back Between "" r.
Proof. reflexivity. Qed.

Lemma quiet_back : forall s r, every quiet s = true -> back Literal "" (s ++ r) = s ++ back Literal "" r.
Proof.
  induction s as [|c s IH]; intros r Q; [reflexivity|]. cbn [every] in Q. apply andb_true_iff in Q. destruct Q as [C Q].
  unfold quiet in C. rewrite !andb_true_iff, !negb_true_iff in C. destruct C as [[C1 C2] C3].
  cbn [append decimals]. rewrite ?C1, ?C2, ?C3, IH by exact Q. reflexivity.
Qed.
Lemma token_back : forall e l c b t r, small l -> next_char l = Some (c, b, t) -> back Literal "" (escape_char e c b ++ r) = escape_char e c b ++ back Literal "" r.
Proof.
  intros e l c b t r S N. apply next_char_step in N. destruct N as (-> & _ & A & _). apply Forall_app in S. destruct S as [S _].
  destruct (escape_char_cases e c b) as [(L & P & Q & ->)|[(x & X & ->)|(-> & Q & P)]].
  - apply quiet_back. exact (char_quiet _ _ A L Q S).
  - letters X; reflexivity.
  - assert (K : every quiet ("{" ++ hex c ++ "}") = true).
    { rewrite !every_app. assert (hex_quiet : every quiet (hex c) = true); [|rewrite hex_quiet; reflexivity].
      assert (I : every hex_char (hex c) = true) by (apply hex_digits_every; reflexivity). revert I. induction (hex c) as [|x s IH]; intros I; [reflexivity|].
      cbn [every] in *. apply andb_true_iff in I. destruct I as [I1 I2]. rewrite (IH I2), andb_true_r. unfold quiet.
      rewrite !andb_true_iff, !negb_true_iff, !Ascii.eqb_neq. repeat split; intros ->; discriminate I1. }
    pose proof (quiet_back _ r K) as Q1.
    replace (String backslash ("u{" ++ hex c ++ "}") ++ r) with (String backslash (String "u" (("{" ++ hex c ++ "}") ++ r))) by (cbn [append]; reflexivity).
    change (back Literal "" (String backslash (String "u" (("{" ++ hex c ++ "}") ++ r))))
      with (String backslash (String "u" (back Literal "" (("{" ++ hex c ++ "}") ++ r)))). rewrite Q1. reflexivity.
Qed.
Lemma chars_back : forall e n l r, small l -> back Literal "" (escape_chars e n l ++ r) = escape_chars e n l ++ back Literal "" r.
Proof.
  intros e n. induction n as [|n IH]; intros l r S; [reflexivity|]. cbn [escape_chars]. destruct (next_char l) as [[[c b] t]|] eqn:N; [|reflexivity].
  rewrite !sapp_assoc. rewrite (token_back e l c b t (escape_chars e n t ++ r) S N).
  apply next_char_step in N. destruct N as (-> & _). apply Forall_app in S. destruct S as [_ S]. rewrite (IH t r S). reflexivity.
Qed.
Lemma string_back : forall e s r, back Between "" (dbg_str e s ++ r) = dbg_str e s ++ back Between "" r.
Proof.
  intros e s r. unfold dbg_str. fold (Spec_Unicode.bytes_of_string s). generalize (List.length (Spec_Unicode.bytes_of_string s)). intros n.
  cbn [append]. rewrite !sapp_assoc. pose proof (chars_back e n (Spec_Unicode.bytes_of_string s) (String quotation "" ++ r) (bytes_small s)) as H1.
  change (back Between "" (String quotation (escape_chars e n (Spec_Unicode.bytes_of_string s) ++ String quotation "" ++ r)))
    with (String quotation (back Literal "" (escape_chars e n (Spec_Unicode.bytes_of_string s) ++ String quotation "" ++ r))).
  rewrite H1. reflexivity.
Qed.

(** [s] is changed back to [t]. *)
Definition decoded (s t : string) : Prop := forall r, apart r -> back Between "" (s ++ r) = t ++ back Between "" r.
Lemma name_back : forall w r, word_letters w -> hex_word upper w = None -> apart r -> back Between "" (w ++ r) = w ++ back Between "" r.
Proof. intros w r W H A. rewrite word_read, word_over by assumption. change ("" ++ w) with w. unfold in_decimal. rewrite H. reflexivity. Qed.
Lemma separated_back : forall {A} (f g : A -> string) l r, Forall (fun a => decoded (f a) (g a)) l -> apart r ->
  back Between "" (separated (map f l) ++ r) = separated (map g l) ++ back Between "" r.
Proof.
  intros A f g l r F R. induction F as [|a l D F IH]; [reflexivity|]. destruct l as [|b l]; [exact (D r R)|]. cbn [map] in *.
  change (separated (f a :: f b :: map f l)) with (f a ++ ", " ++ separated (f b :: map f l)). change (separated (g a :: g b :: map g l)) with (g a ++ ", " ++ separated (g b :: map g l)).
  rewrite !sapp_assoc, (D (", " ++ separated (f b :: map f l) ++ r)) by (split; reflexivity). rewrite <- IH. reflexivity.
Qed.

Context {E : Type} (e : escapes) (word : N -> string) (Words : forall n, word_letters (word n) /\ hex_word upper (word n) = Some n)
  (shown_ext ext : E -> string) (Ext : forall x, decoded (shown_ext x) (ext x)).
Notation text := (fun t => debug_text e shown_ext (with_leaves word truth t)).
Lemma tree_decoded : forall t, identified t -> spoken upper t -> decoded (text t) (debug_text e ext t).
Proof.
  assert (Items : forall l, Forall (fun t => identified t -> spoken upper t -> decoded (text t) (debug_text e ext t)) l ->
    (fix each l := match l with [] => True | t :: l => identified t /\ each l end) l -> (fix each l := match l with [] => True | t :: l => spoken upper t /\ each l end) l ->
    Forall (fun t => decoded (text t) (debug_text e ext t)) l).
  { intros l F. induction F as [|t l T F IH]; intros P Q; [constructor|]. destruct P as [P1 P2]. destruct Q as [Q1 Q2]. constructor; [exact (T P1 Q1)|exact (IH P2 Q2)]. }
  assert (Named : forall n, n = "" \/ identifier n -> word_letters n) by (intros n [->|I]; [exact Logic.I|exact (proj1 (identifier_letters n I))]).
  apply (tree_ind' (E := E) (fun t => identified t -> spoken upper t -> decoded (text t) (debug_text e ext t))).
  - intros n _ _ r A. cbn [with_leaves debug_text]. destruct (Words n) as [W H]. rewrite word_read, word_over by assumption. change ("" ++ word n) with (word n). unfold in_decimal. rewrite H. reflexivity.
  - intros b _ _ r A. cbn [with_leaves debug_text]. rewrite name_back; [reflexivity| | |exact A]; destruct b, upper; repeat split.
  - intros s _ _ r A. apply string_back.
  - intros n I S r A. cbn [with_leaves debug_text]. apply name_back; [exact (Named n (or_intror I))|exact S|exact A].
  - intros n fs F (I & N & P) (S & Q) r A. cbn [with_leaves debug_text]. specialize (Items fs F P Q). rewrite map_map, !sapp_assoc, name_back; [|exact (Named n I)|exact S|split; reflexivity]. f_equal.
    change (back Between "" ("(" ++ separated (map text fs) ++ ")" ++ r)) with ("(" ++ back Between "" (separated (map text fs) ++ ")" ++ r)). f_equal.
    rewrite (separated_back text (debug_text e ext)); [reflexivity|exact Items|split; reflexivity].
  - intros n fs F (I & N & P) (S & Q) r A. cbn [with_leaves debug_text]. rewrite map_map. cbn [fst snd].
    assert (Items' : Forall (fun f => decoded (fst f ++ ": " ++ debug_text e shown_ext (with_leaves word truth (snd f))) (fst f ++ ": " ++ debug_text e ext (snd f))) fs).
    { clear N. induction F as [|[f t] fs T F IH]; [constructor|]. cbn [fst snd] in *. destruct P as [(P1 & P2 & P3) P4]. destruct Q as [Q1 Q2]. constructor; [|exact (IH P4 Q2)].
      cbn [fst snd]. intros q A'. rewrite !sapp_assoc, word_read by exact P1. change (back Between ("" ++ f) (": " ++ debug_text e shown_ext (with_leaves word truth t) ++ q)) with (f ++ ": " ++ back Between "" (debug_text e shown_ext (with_leaves word truth t) ++ q)).
      rewrite (T P3 Q1 q A'). reflexivity. }
    rewrite !sapp_assoc, name_back; [|exact (Named n (or_intror I))|exact S|split; reflexivity]. f_equal.
    change (back Between "" (" { " ++ separated (map (fun f => fst f ++ ": " ++ debug_text e shown_ext (with_leaves word truth (snd f))) fs) ++ " }" ++ r)) with (" { " ++ back Between "" (separated (map (fun f => fst f ++ ": " ++ debug_text e shown_ext (with_leaves word truth (snd f))) fs) ++ " }" ++ r)). f_equal.
    rewrite (separated_back (fun f => fst f ++ ": " ++ debug_text e shown_ext (with_leaves word truth (snd f))) (fun f => fst f ++ ": " ++ debug_text e ext (snd f))); [reflexivity|exact Items'|split; reflexivity].
  - intros l F P Q r A. cbn [with_leaves debug_text]. specialize (Items l F P Q). rewrite map_map, !sapp_assoc.
    change (back Between "" ("[" ++ separated (map text l) ++ "]" ++ r)) with ("[" ++ back Between "" (separated (map text l) ++ "]" ++ r)). f_equal.
    rewrite (separated_back text (debug_text e ext)); [reflexivity|exact Items|split; reflexivity].
  - intros x _ _ r A. cbn [with_leaves debug_text]. rewrite !sapp_assoc.
    change ("ExtInstBox(" ++ shown_ext x ++ ")" ++ r) with ("ExtInstBox" ++ "(" ++ shown_ext x ++ ")" ++ r). rewrite name_back; [|repeat split|destruct upper; reflexivity|split; reflexivity].
    change (back Between "" ("(" ++ shown_ext x ++ ")" ++ r)) with ("(" ++ back Between "" (shown_ext x ++ ")" ++ r)). rewrite (Ext x) by (split; reflexivity). reflexivity.
Qed.
End Decimals.

(** ** The types of the crate *)
Lemma named_spoken : forall upper n, named n = true -> hex_word upper n = None.
Proof.
  intros upper [|c n] W; [discriminate W|]. assert (D := W). apply named_facts in D. destruct D as (_ & _ & _ & _ & c' & s' & [= <- <-] & D).
  unfold named in W. rewrite !andb_true_iff in W. destruct W as [[[[_ [_ W]] _] _] _]. apply negb_true_iff in W.
  assert (V : digits_value upper 0 (String c n) = None).
  { destruct (digits_value upper 0 (String c n)) as [v|] eqn:V; [|reflexivity]. apply numeral_letters in V. destruct V as [_ V]. rewrite V in W. discriminate W. }
  assert (Z : Ascii.eqb c "0" = false) by (apply Ascii.eqb_neq; intros ->; discriminate D). unfold hex_word. rewrite Z, V. destruct n; reflexivity.
Qed.
Lemma wf_spoken : forall {E} upper (t : dtree E), wf t = true -> spoken upper t.
Proof.
  intros E upper. apply (tree_ind' (E := E) (fun t => wf t = true -> spoken upper t)); try (intros; exact I).
  - intros n W. exact (named_spoken upper n W).
  - intros n fs F W. cbn [wf] in W. rewrite !andb_true_iff in W. destruct W as [[W1 W2] W3].
    split; [unfold tuple_named in W1; apply orb_true_iff in W1; destruct W1 as [W1|W1]; [exact (named_spoken upper n W1)|apply String.eqb_eq in W1; subst n; reflexivity]|]. clear - F W3.
    induction F as [|t fs T F IH]; [exact I|]. cbn [forallb] in W3. apply andb_true_iff in W3. destruct W3 as [A B]. split; [exact (T A)|exact (IH B)].
  - intros n fs F W. cbn [wf] in W. rewrite !andb_true_iff in W. destruct W as [[W1 W2] W3].
    split; [exact (named_spoken upper n W1)|]. clear - F W3.
    induction F as [|[f t] fs T F IH]; [exact I|]. cbn [forallb fst snd] in *. rewrite !andb_true_iff in W3. destruct W3 as [[[A1 A2] A3] B].
    split; [exact (T A3)|exact (IH B)].
  - intros l F W. cbn [wf] in W. cbn [spoken]. induction F as [|t fs T F IH]; [exact I|]. cbn [forallb] in W. apply andb_true_iff in W. destruct W as [A B]. split; [exact (T A)|exact (IH B)].
Qed.
Lemma shown_spoken : forall {E A} upper (dbg : A -> dtree E) (S : Shown dbg) a, spoken upper (dbg a).
Proof. intros E A upper dbg S a. apply wf_spoken. apply shown_wf. Qed.
Lemma all_spoken : forall E upper,
  (forall m : RawModule E, spoken upper (dbg_RawModule m)) /\ (forall m : LogicalModule E, spoken upper (dbg_LogicalModule m))
  /\ (forall f : FunctionDefinition E, spoken upper (dbg_FunctionDefinition f)) /\ (forall i : Core E, spoken upper (dbg_Core i))
  /\ (forall x, spoken upper (dbg_ReadError (E := E) x)) /\ (forall x, spoken upper (dbg_ValidationError (E := E) x))
  /\ (forall x, spoken upper (dbg_ControlFlowError (E := E) x)) /\ (forall c, spoken upper (dbg_ControlFlowChain (E := E) c))
  /\ (forall i, spoken upper (dbg_Inst (E := E) i)) /\ (forall T (x : PlainValue T), spoken upper (dbg_Plain (E := E) T x))
  /\ (forall i, spoken upper (dbg_MoreOp (E := E) i)).
Proof.
  intros E upper.
  refine (conj _ (conj _ (conj _ (conj _ (conj _ (conj _ (conj _ (conj _ (conj _ (conj _ _)))))))))); try exact (shown_spoken upper _ _).
  - intros T x. apply wf_spoken. apply plain_wf.
  - intros i. apply wf_spoken. apply more_wf.
Qed.

Section User.
Context {E : Type} (upper : bool) (layout : option bool) (o : Options) (R : readable o) (e : escapes) (user : E -> dtree Empty_set)
  (Named : forall x, identified (user x) /\ spoken upper (user x)).
Definition no_step (x : Empty_set) : Step := match x with end.
Notation show := (fmt_debug_hex upper layout o e (fun x => fmt_debug_hex upper layout o e no_step (user x))).
Let number := hex_number upper layout o.
Let boolean := bool_text o.
Let word := hex_bare upper layout o.
Lemma show_prints : forall t, prints (show t) (debug_with layout plain e (fun x => debug_with layout plain e no_ext (with_leaves number boolean (user x))) (with_leaves number boolean t)).
Proof.
  assert (P : forall F (ext : F -> Step) (text : F -> string) t, (forall x, prints (ext x) (text x)) -> prints (fmt_debug_hex upper layout o e ext t) (debug_with layout plain e text (with_leaves number boolean t))).
  { intros F ext text t X. pose proof (runs_hex upper layout o number boolean (hex_leaves_exist upper layout o) e ext text (fun _ => false) t (fun x _ => X x)) as H.
    replace (existsb (fun _ => false) (boxed t)) with false in H; [exact H|]. clear. induction (boxed t) as [|x l IH]; [reflexivity|exact IH]. }
  intros t. apply P. intros x. apply P. intros [].
Qed.
Lemma hex_lost : forall t, identified t -> spoken upper t ->
  decimals upper Between "" (without_options Between (written (show t))) = debug_text e (fun x => debug_text e no_ext (user x)) t.
Proof.
  intros t I S. rewrite (written_text _ _ (show_prints t)). destruct R as [Fill Cut].
  assert (N : forall n, tidied (number n) (word n)) by (intros n; exact (proj1 (hex_bare_word upper layout o Fill n))).
  assert (B : forall b, tidied (boolean b) (truth b)) by exact (bool_tidied o Fill Cut).
  assert (W : forall n, word_letters (word n) /\ hex_word upper (word n) = Some n) by (intros n; destruct (hex_bare_word upper layout o Fill n) as (_ & W1 & _ & W2); split; assumption).
  pose proof (fun x => leaves_tidied (E := Empty_set) layout number word boolean N B e no_ext no_ext ltac:(intros []) (user x) (proj1 (Named x))) as U.
  pose proof (tidied_bare _ _ (leaves_tidied layout number word boolean N B e _ _ U t I) "" Logic.I) as H. cbn [without_options] in H. rewrite !sapp_nil in H. rewrite H.
  pose proof (fun x => tree_decoded (E := Empty_set) upper e word W no_ext no_ext ltac:(intros []) (user x) (proj1 (Named x)) (proj2 (Named x))) as V.
  pose proof (tree_decoded upper e word W _ _ V t I S "" Logic.I) as K. cbn [decimals] in K. rewrite !sapp_nil in K. exact K.
Qed.
Lemma hex_exact : forall {A} (dbg : A -> dtree E) (S : Shown dbg), unambiguous (fun x => debug_text e no_ext (user x)) ->
  forall a b, written (show (dbg a)) = written (show (dbg b)) <-> a = b.
Proof.
  intros A dbg S U a b. split; [|intros ->; reflexivity]. intros H. apply (f_equal (fun s => decimals upper Between "" (without_options Between s))) in H.
  rewrite !hex_lost in H by (apply shown_identified || apply shown_spoken; exact S). apply (shown_exact dbg S e _ U). exact H.
Qed.
End User.

(** ** Statements *)
Lemma hex_text : forall E upper o e,
  (forall several_lines, exists number boolean, hex_leaves_of upper several_lines o number boolean)
  /\ (forall number boolean, hex_leaves_of upper false o number boolean ->
      forall (ext : E -> Step) (ext_text : E -> string) t, (forall x, In x (boxed t) -> prints (ext x) (ext_text x)) ->
      prints (fmt_debug_hex upper None o e ext t) (debug_text e ext_text (with_leaves number boolean t)))
  /\ (forall number boolean, hex_leaves_of upper true o number boolean ->
      forall (ext : E -> Step) (ext_text : E -> string) t, (forall x, In x (boxed t) -> prints (ext x) (ext_text x)) ->
      forall trailing, prints (fmt_debug_hex upper (Some trailing) o e ext t) (pretty_text trailing e ext_text (with_leaves number boolean t))).
Proof.
  intros E upper o e.
  assert (Z : forall t : dtree E, existsb (fun _ => false) (boxed t) = false) by (intros t; induction (boxed t) as [|x l IH]; [reflexivity|exact IH]).
  split; [intros [|]; eexists _, _; [exact (hex_leaves_exist upper (Some true) o)|exact (hex_leaves_exist upper None o)]|].
  split; [intros number boolean L ext ext_text t X|intros number boolean L ext ext_text t X trailing].
  - pose proof (runs_shape upper None o number boolean L e ext ext_text (fun _ => false) t X) as H. rewrite Z in H. exact H.
  - pose proof (runs_shape upper (Some trailing) o number boolean L e ext ext_text (fun _ => false) t X) as H. rewrite Z in H. exact H.
Qed.
Lemma hex_panics : forall E upper layout o e (ext : E -> Step) (ext_text : E -> string) (bad : E -> bool) t,
  (forall x, In x (boxed t) -> if bad x then panics_within (ext x) (ext_text x) else prints (ext x) (ext_text x)) ->
  forall x, In x (boxed t) -> bad x = true ->
  exists text, panics_within (fmt_debug_hex upper layout o e ext t) text
    /\ forall ext', (forall y, In y (boxed t) -> prints (ext' y) (ext_text y)) -> prints (fmt_debug_hex upper layout o e ext' t) text.
Proof.
  intros E upper layout o e ext ext_text bad t X x I B. pose proof (hex_leaves_exist upper layout o) as L.
  exists (shape layout e ext_text (with_leaves (hex_number upper layout o) (bool_text o) t)). split.
  - pose proof (runs_shape upper layout o _ _ L e ext ext_text bad t X) as R.
    replace (existsb bad (boxed t)) with true in R; [exact R|]. symmetry. apply existsb_exists. exists x. split; assumption.
  - intros ext' X'. pose proof (runs_shape upper layout o _ _ L e ext' ext_text (fun _ => false) t X') as R.
    replace (existsb (fun _ => false) (boxed t)) with false in R; [exact R|]. clear. induction (boxed t) as [|y l IH]; [reflexivity|exact IH].
Qed.
Lemma hex_undone : forall E upper layout o e (user : E -> dtree Empty_set), readable o -> (forall x, identified (user x) /\ spoken upper (user x)) ->
  forall t, identified t -> spoken upper t ->
  decimals upper Between "" (without_options Between
    (written (fmt_debug_hex upper layout o e (fun x => fmt_debug_hex upper layout o e (fun y : Empty_set => match y with end) (user x)) t)))
  = debug_text e (fun x => debug_text e no_ext (user x)) t.
Proof. intros E upper layout o e user R P t. exact (hex_lost upper layout o R e user P t). Qed.
Lemma all_hex_exact : forall E upper layout o e (user : E -> dtree Empty_set), readable o -> (forall x, identified (user x) /\ spoken upper (user x)) ->
  unambiguous (fun x => debug_text e no_ext (user x)) ->
  let show := fun t => written (fmt_debug_hex upper layout o e (fun x => fmt_debug_hex upper layout o e (fun y : Empty_set => match y with end) (user x)) t) in
  (forall a b : RawModule E, show (dbg_RawModule a) = show (dbg_RawModule b) <-> a = b)
  /\ (forall a b : LogicalModule E, show (dbg_LogicalModule a) = show (dbg_LogicalModule b) <-> a = b)
  /\ (forall a b : FunctionDefinition E, show (dbg_FunctionDefinition a) = show (dbg_FunctionDefinition b) <-> a = b)
  /\ (forall a b : Core E, show (dbg_Core a) = show (dbg_Core b) <-> a = b)
  /\ (forall a b : ReadError, show (dbg_ReadError a) = show (dbg_ReadError b) <-> a = b)
  /\ (forall a b : ValidationError, show (dbg_ValidationError a) = show (dbg_ValidationError b) <-> a = b)
  /\ (forall a b : ControlFlowError, show (dbg_ControlFlowError a) = show (dbg_ControlFlowError b) <-> a = b)
  /\ (forall a b : ControlFlowChain, show (dbg_ControlFlowChain a) = show (dbg_ControlFlowChain b) <-> a = b).
Proof.
  intros E upper layout o e user R P U show.
  exact (conj (hex_exact upper layout o R e user P _ _ U) (conj (hex_exact upper layout o R e user P _ _ U) (conj (hex_exact upper layout o R e user P _ _ U)
    (conj (hex_exact upper layout o R e user P _ _ U) (conj (hex_exact upper layout o R e user P _ _ U) (conj (hex_exact upper layout o R e user P _ _ U)
    (conj (hex_exact upper layout o R e user P _ _ U) (hex_exact upper layout o R e user P _ _ U)))))))).
Qed.
Lemma glsl_spoken : forall upper i, identified (dbg_Inst (E := Empty_set) i) /\ spoken upper (dbg_Inst (E := Empty_set) i).
Proof. intros upper i. split; [apply (shown_identified (dbg_Inst (E := Empty_set)) _)|apply (shown_spoken upper (dbg_Inst (E := Empty_set)) _)]. Qed.
