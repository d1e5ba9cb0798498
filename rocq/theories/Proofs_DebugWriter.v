(** The Debug format into any writer (C96). *)
From Coq Require Import Lia Bool.
From Verif Require Import Base DisplayBase DisplayModule FmtBase DebugBase DebugPretty DebugOptions DebugWriter Spec_Text Spec_Writer Spec_Options Spec_Debug Spec_DebugWriter
  Proofs_Text Proofs_Fmt Proofs_Options Proofs_Debug Proofs_Pretty Proofs_DebugOptions.
Local Open Scope string_scope.

(** ** The adapter *)
Fixpoint fresh_after (fresh : bool) (s : string) : bool :=
  match s with "" => fresh | String c s => fresh_after (Ascii.eqb c (ascii_of_N 10)) s end.
Lemma pad_adapter_app : forall a b fresh, pad_adapter fresh (a ++ b) = pad_adapter fresh a ++ pad_adapter (fresh_after fresh a) b.
Proof.
  induction a as [|c a IH]; intros b fresh; [reflexivity|]. cbn [append pad_adapter fresh_after]. rewrite IH. destruct fresh; reflexivity.
Qed.
Lemma fresh_app : forall a b fresh, fresh_after fresh (a ++ b) = fresh_after (fresh_after fresh a) b.
Proof. induction a as [|c a IH]; intros b fresh; [reflexivity|]. apply IH. Qed.

Section Adapter.
Context {W : Type} (write_str : string -> W -> W * bool).
(** A write of [s] through the adapter is the writes of what the adapter makes of it. *)
Definition passes (fresh : bool) (s : string) (w : W) (out : (W * bool) * bool) : Prop :=
  match out with
  | ((w', fresh'), true) => wrote write_str w (pad_adapter fresh s) w' /\ fresh' = fresh_after fresh s
  | ((w', _), false) => broke_off write_str w (pad_adapter fresh s) w'
  end.
Definition lineless (s : string) : Prop := every (fun c => negb (Ascii.eqb c (ascii_of_N 10))) s = true.
Lemma pad_lineless : forall s, lineless s -> pad_adapter false s = s /\ (s <> "" -> forall fresh, fresh_after fresh s = false).
Proof.
  induction s as [|c s IH]; intros L; [split; [reflexivity|contradiction]|]. unfold lineless in *. cbn [every] in L. apply andb_true_iff in L. destruct L as [C L].
  apply negb_true_iff in C. destruct (IH L) as [I1 I2]. cbn [pad_adapter fresh_after]. rewrite C, I1. split; [reflexivity|]. intros _ fresh.
  destruct s as [|d s]; [reflexivity|]. apply I2. discriminate.
Qed.
Lemma line_passes : forall line s w fresh, (lineless s \/ exists l, s = l ++ nl /\ lineless l) -> line = s -> s <> "" ->
  passes fresh s w (pad_line_write write_str line (fresh_after fresh s) (w, fresh)).
Proof.
  intros line s w fresh L -> N.
  assert (P : pad_adapter fresh s = (if fresh then "    " else "") ++ s).
  { assert (Q : pad_adapter false s = s).
    { destruct L as [L|(l & -> & L)]; [exact (proj1 (pad_lineless s L))|]. rewrite pad_adapter_app, (proj1 (pad_lineless l L)).
      f_equal. destruct l as [|c l]; [reflexivity|]. rewrite (proj2 (pad_lineless (String c l) L)) by discriminate. reflexivity. }
    destruct s as [|c s]; [contradiction|]. cbn [pad_adapter] in *. destruct fresh; [|exact Q]. apply (f_equal (append "    ")) in Q. exact Q. }
  unfold passes, pad_line_write. destruct fresh.
  - destruct (write_str "    " w) as [w1 [|]] eqn:B.
    + destruct (write_str s w1) as [w2 [|]] eqn:C; rewrite P.
      * split; [|reflexivity]. econstructor; [exact B|]. apply wrote_one. exact C.
      * exists "    ", s, "", w1. rewrite snil. split; [reflexivity|]. split; [apply wrote_one; exact B|exact C].
    + rewrite P. exists "", "    ", s, w. split; [reflexivity|]. split; [constructor|exact B].
  - destruct (write_str s w) as [w2 [|]] eqn:C; rewrite P.
    + split; [|reflexivity]. apply wrote_one. exact C.
    + exists "", s, "", w. rewrite snil. split; [reflexivity|]. split; [constructor|exact C].
Qed.
Lemma from_passes : forall s line w fresh, lineless line -> passes fresh (line ++ s) w (pad_write_from write_str line s (w, fresh)).
Proof.
  induction s as [|c s IH]; intros line w fresh L.
  - rewrite snil. cbn [pad_write_from]. destruct (String.eqb line "") eqn:Q.
    + apply String.eqb_eq in Q. subst line. split; [constructor|reflexivity].
    + apply String.eqb_neq in Q. pose proof (line_passes line line w fresh (or_introl L) eq_refl Q) as P. rewrite (proj2 (pad_lineless line L) Q fresh) in P. exact P.
  - cbn [pad_write_from]. replace (line ++ String c s) with ((line ++ String c "") ++ s) by (rewrite sassoc; reflexivity).
    destruct (Ascii.eqb c (ascii_of_N 10)) eqn:Q.
    + apply Ascii.eqb_eq in Q. subst c. change (String (ascii_of_N 10) "") with nl in *.
      assert (X : forall fresh, fresh_after fresh (line ++ nl) = true) by (intros f; rewrite fresh_app; reflexivity).
      assert (N : line ++ nl <> "") by (destruct line; discriminate).
      pose proof (line_passes (line ++ nl) (line ++ nl) w fresh (or_intror (ex_intro _ line (conj eq_refl L))) eq_refl N) as P. rewrite X in P.
      destruct (pad_line_write write_str (line ++ nl) true (w, fresh)) as [[w1 fresh1] [|]]; cbn [passes] in P.
      * destruct P as [P1 P2]. rewrite X in P2. subst fresh1. specialize (IH "" w1 true eq_refl). cbn [append] in IH. unfold passes in *.
        rewrite (pad_adapter_app (line ++ nl)), (fresh_app (line ++ nl)), X. destruct (pad_write_from write_str "" s (w1, true)) as [[w2 fresh2] [|]].
        -- destruct IH as [I1 I2]. split; [eapply wrote_app; eassumption|exact I2].
        -- eapply broke_off_r; eassumption.
      * cbn [passes]. rewrite (pad_adapter_app (line ++ nl)). apply broke_off_l. exact P.
    + apply IH. unfold lineless in *. rewrite every_app, L. cbn [every]. rewrite Q. reflexivity.
Qed.
Lemma write_passes : forall s w fresh, passes fresh s w (pad_write write_str s (w, fresh)).
Proof. intros s w fresh. exact (from_passes s "" w fresh eq_refl). Qed.
Lemma wrote_passes : forall st s st', wrote (pad_write write_str) st s st' ->
  wrote write_str (fst st) (pad_adapter (snd st) s) (fst st') /\ snd st' = fresh_after (snd st) s.
Proof.
  intros st s st' H. induction H as [st|[w fresh] s [w1 fresh1] text st2 H1 H2 [I1 I2]]; [split; [constructor|reflexivity]|]. cbn [fst snd] in *.
  pose proof (write_passes s w fresh) as P. rewrite H1 in P. destruct P as [P1 P2]. subst fresh1. rewrite pad_adapter_app, fresh_app.
  split; [eapply wrote_app; eassumption|exact I2].
Qed.
End Adapter.
Lemma prints_through : forall p s, prints p s -> prints (through_pad p) (pad_adapter true s).
Proof.
  intros p s P W ws w w' r. unfold through_pad. destruct (p (W * bool)%type (pad_write ws) (w, true)) as [[w1 fresh] r1] eqn:Q. intros [= <- <-].
  destruct (P _ _ _ _ _ Q) as [[-> A]|[-> (before & failing & after & [w2 fresh2] & -> & A & B)]]; [left|right]; (split; [reflexivity|]).
  - exact (proj1 (wrote_passes ws _ _ _ A)).
  - destruct (wrote_passes ws _ _ _ A) as [A1 A2]. cbn [fst snd] in *. subst fresh2. rewrite pad_adapter_app. eapply broke_off_r; [exact A1|].
    rewrite pad_adapter_app. apply broke_off_l. pose proof (write_passes ws failing w2 (fresh_after true before)) as X. rewrite B in X. exact X.
Qed.

Lemma panics_through : forall p s, prints_then_panics p s -> prints_then_panics (through_pad p) (pad_adapter true s).
Proof.
  intros p s P W ws w w' r. unfold through_pad. destruct (p (W * bool)%type (pad_write ws) (w, true)) as [[w1 fresh] r1] eqn:Q. intros [= <- <-].
  destruct (P _ _ _ _ _ Q) as [[-> A]|[-> (before & failing & after & [w2 fresh2] & -> & A & B)]]; [left|right]; (split; [reflexivity|]).
  - exact (proj1 (wrote_passes ws _ _ _ A)).
  - destruct (wrote_passes ws _ _ _ A) as [A1 A2]. cbn [fst snd] in *. subst fresh2. rewrite pad_adapter_app. eapply broke_off_r; [exact A1|].
    rewrite pad_adapter_app. apply broke_off_l. pose proof (write_passes ws failing w2 (fresh_after true before)) as X. rewrite B in X. exact X.
Qed.

(** ** The builders *)
(** [p] prints [s], or panics on the way if [bad]. *)
Definition runs (bad : bool) (p : Step) (s : string) : Prop := if bad then panics_within p s else prints p s.
Lemma runs_try : forall b1 p a b2 q b, runs b1 p a -> runs b2 q b -> runs (b1 || b2) (try_ p q) (a ++ b).
Proof.
  intros [|] p a b2 q b P Q; cbn [orb runs] in *.
  - destruct P as (x & y & -> & P). exists x, (y ++ b). split; [apply sassoc|]. apply panics_try. exact P.
  - destruct b2; cbn [runs] in *; [|apply prints_try; assumption]. destruct Q as (x & y & -> & Q). exists (a ++ x), y. split; [symmetry; apply sassoc|]. apply prints_try_panic; assumption.
Qed.
Lemma runs_lit : forall s, runs false (lit s) s.
Proof. exact prints_lit. Qed.
Lemma runs_done : runs false done "".
Proof. exact prints_done. Qed.
Lemma runs_through : forall bad p s, runs bad p s -> runs bad (through_pad p) (pad_adapter true s).
Proof.
  intros [|] p s R; cbn [runs] in *; [|apply prints_through; exact R]. destruct R as (x & y & -> & R). rewrite pad_adapter_app. eexists _, _. split; [reflexivity|].
  apply panics_through. exact R.
Qed.
Lemma runs_after : forall p a bad q b, runs false p a -> runs bad q b -> runs bad (try_ p q) (a ++ b).
Proof. intros p a bad q b. exact (runs_try false p a bad q b). Qed.
Lemma runs_before : forall p a bad q b, runs bad p a -> runs false q b -> runs bad (try_ p q) (a ++ b).
Proof. intros p a bad q b P Q. rewrite <- (orb_false_r bad). exact (runs_try bad p a false q b P Q). Qed.

Inductive all_run : bool -> list Step -> list string -> Prop :=
| all_none : all_run false [] []
| all_more : forall b1 p s b2 ps ss, runs b1 p s -> all_run b2 ps ss -> all_run (b1 || b2) (p :: ps) (s :: ss).
Lemma runs_separated : forall bad ps ss, all_run bad ps ss -> runs bad (fmt_separated ps) (separated ss).
Proof.
  intros bad ps ss F. induction F as [|b1 p s b2 ps ss P F IH]; [exact runs_done|]. destruct F as [|b3 p' s' b4 ps ss P' F]; [rewrite orb_false_r; exact P|].
  exact (runs_try _ _ _ _ _ _ P (runs_after _ _ _ _ _ (runs_lit ", ") IH)).
Qed.
Lemma runs_pretty_fields : forall trailing bad ps ss, all_run bad ps ss -> runs bad (fmt_pretty_fields trailing ps) (pretty_fields trailing ss).
Proof.
  intros trailing bad ps ss F. induction F as [|b1 p s b2 ps ss P F IH]; [exact runs_done|]. destruct F as [|b3 p' s' b4 ps ss P' F].
  - rewrite orb_false_r. apply runs_through. apply runs_before; [exact P|]. apply runs_after; [destruct trailing; [exact (runs_lit ",")|exact runs_done]|exact (runs_lit nl)].
  - refine (runs_try _ _ _ _ _ _ (runs_through _ _ _ _) IH). apply runs_before; [exact P|]. apply runs_after; [exact (runs_lit ",")|exact (runs_lit nl)].
Qed.
Lemma runs_block : forall layout opening spaced bad ps ss closing, all_run bad ps ss ->
  runs bad (fmt_block layout opening spaced ps closing) (debug_block layout opening spaced ss closing).
Proof.
  intros layout opening spaced bad ps ss closing F.
  assert (B : runs false (if spaced then lit " " else done) (if spaced then " " else "")) by (destruct spaced; [exact (runs_lit " ")|exact runs_done]).
  unfold fmt_block, debug_block. destruct layout as [trailing|].
  - unfold pretty_block. pose proof (runs_pretty_fields trailing bad ps ss F) as P. destruct F.
    + apply runs_after; apply runs_lit.
    + apply runs_after; [apply runs_lit|]. apply runs_after; [apply runs_lit|]. apply runs_before; [exact P|apply runs_lit].
  - apply runs_after; [apply runs_lit|]. apply runs_after; [exact B|]. apply runs_before; [apply runs_separated; exact F|].
    apply runs_after; [exact B|apply runs_lit].
Qed.
Lemma prints_debug_str : forall e s, prints (fmt_debug_str e s) (dbg_str e s).
Proof.
  intros e s. unfold fmt_debug_str, dbg_str. set (l := map N_of_ascii (list_ascii_of_string s)). generalize (List.length l). intros n. clearbody l.
  apply (prints_try _ (String quotation "")); [apply prints_lit|]. apply prints_try; [|apply prints_lit].
  revert l. induction n as [|n IH]; intros l; [exact prints_done|]. cbn [fmt_escape_chars escape_chars]. destruct (next_char l) as [[[c b] t]|]; [|exact prints_done].
  apply prints_try; [apply prints_lit|apply IH].
Qed.

Section Trees.
Context {E : Type} (layout : option bool) (o : Options) (e : escapes) (ext : E -> Step) (ext_text : E -> string) (bad : E -> bool).
Let fine (t : dtree E) : Prop := (forall x, In x (boxed t) -> runs (bad x) (ext x) (ext_text x)) ->
  runs (existsb bad (boxed t)) (fmt_debug layout o e ext t) (debug_with layout o e ext_text t).
Lemma runs_debug : forall t, fine t.
Proof.
  assert (Items : forall l, Forall fine l -> (forall x, In x (flat_map boxed l) -> runs (bad x) (ext x) (ext_text x)) ->
    all_run (existsb bad (flat_map boxed l)) (map (fmt_debug layout o e ext) l) (map (debug_with layout o e ext_text) l)).
  { intros l F. induction F as [|t l T F IH]; intros X; [constructor|]. cbn [flat_map map] in *. rewrite existsb_app.
    constructor; [apply T|apply IH]; intros x I; apply X; apply in_or_app; [left|right]; exact I. }
  apply (tree_ind' (E := E) fine).
  - intros n _. cbn [fmt_debug debug_with]. rewrite (written_text _ _ (prints_pad_integral _ o)). exact (prints_pad_integral _ o).
  - intros b _. cbn [fmt_debug debug_with]. rewrite (written_text _ _ (prints_pad _ o)). exact (prints_pad _ o).
  - intros s _. exact (prints_debug_str e s).
  - intros n _. exact (prints_lit n).
  - intros n fs F X. apply runs_block. apply Items; assumption.
  - intros n fs F X. cbn [fmt_debug debug_with boxed] in *. apply runs_block. induction F as [|[f t] fs T F IH]; [constructor|]. cbn [map flat_map fst snd] in *. rewrite existsb_app.
    constructor; [|apply IH; intros x I; apply X; apply in_or_app; right; exact I].
    apply runs_after; [apply runs_lit|]. apply (runs_after _ _ _ _ _ (runs_lit ": ")). apply T. intros x I. apply X. apply in_or_app. left. exact I.
  - intros l F X. apply runs_block. apply Items; assumption.
  - intros x X. cbn [fmt_debug debug_with boxed existsb]. apply runs_block. constructor; [apply X; left; reflexivity|constructor].
Qed.
End Trees.

Lemma prints_debug : forall E layout o e (ext : E -> Step) (ext_text : E -> string) t, (forall x, In x (boxed t) -> prints (ext x) (ext_text x)) ->
  prints (fmt_debug layout o e ext t) (debug_with layout o e ext_text t).
Proof.
  intros E layout o e ext ext_text t X. pose proof (runs_debug layout o e ext ext_text (fun _ => false) t X) as R.
  replace (existsb (fun _ => false) (boxed t)) with false in R; [exact R|]. clear. induction (boxed t) as [|x l IH]; [reflexivity|exact IH].
Qed.
Lemma panics_debug : forall E layout o e (ext : E -> Step) (ext_text : E -> string) (bad : E -> bool) t,
  (forall x, In x (boxed t) -> if bad x then panics_within (ext x) (ext_text x) else prints (ext x) (ext_text x)) ->
  forall x, In x (boxed t) -> bad x = true -> panics_within (fmt_debug layout o e ext t) (debug_with layout o e ext_text t).
Proof.
  intros E layout o e ext ext_text bad t X x I B. pose proof (runs_debug layout o e ext ext_text bad t X) as R.
  replace (existsb bad (boxed t)) with true in R; [exact R|]. symmetry. apply existsb_exists. exists x. split; assumption.
Qed.
Lemma derived_debug : forall E layout o e (user : E -> dtree Empty_set) t,
  prints (fmt_debug layout o e (fun x => fmt_debug layout o e (fun y : Empty_set => match y with end) (user x)) t)
    (debug_with layout o e (fun x => debug_with layout o e (fun y : Empty_set => match y with end) (user x)) t).
Proof. intros E layout o e user t. apply prints_debug. intros x _. apply prints_debug. intros []. Qed.
Lemma derived_buffers : forall E layout o e (user : E -> dtree Empty_set) t,
  let p := fmt_debug layout o e (fun x => fmt_debug layout o e (fun y : Empty_set => match y with end) (user x)) t in
  let text := debug_with layout o e (fun x => debug_with layout o e no_ext (user x)) t in
  (forall buffer, p string growing buffer = (buffer ++ text, Fmt_Ok))
  /\ forall capacity, p string (bounded capacity) "" = (substring 0 capacity text, if Nat.leb (String.length text) capacity then Fmt_Ok else Fmt_Err).
Proof.
  intros E layout o e user t p text. pose proof (derived_debug E layout o e user t) as P. split; [exact (prints_growing _ _ P)|exact (prints_bounded _ _ P)].
Qed.
