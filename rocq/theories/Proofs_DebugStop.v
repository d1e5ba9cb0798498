(** The Debug format ended on the way (C104). *)
From Coq Require Import Lia Bool.
From Verif Require Import Base DisplayBase DisplayModule FmtBase DebugBase DebugPretty DebugOptions DebugWriter DebugHex Spec_Text Spec_Writer Spec_Options Spec_Debug Spec_DebugWriter
  Spec_Stop Spec_DebugStop Proofs_Text Proofs_Fmt Proofs_Options Proofs_Debug Proofs_Pretty Proofs_DebugOptions Proofs_DebugWriter Proofs_Stop.
Local Open Scope string_scope.
Local Opaque line_feed.

Lemma ends_through : forall p s r, ends p s r -> ends (through_pad p) (pad_adapter true s) r.
Proof.
  intros p s r0 P W ws w w' r. unfold through_pad. destruct (p (W * bool)%type (pad_write ws) (w, true)) as [[w1 fresh] r1] eqn:Q. intros [= <- <-].
  destruct (P _ _ _ _ _ Q) as [[-> A]|[-> (before & failing & after & [w2 fresh2] & -> & A & B)]]; [left|right]; (split; [reflexivity|]).
  - exact (proj1 (wrote_passes ws _ _ _ A)).
  - destruct (wrote_passes ws _ _ _ A) as [A1 A2]. cbn [fst snd] in *. subst fresh2. rewrite pad_adapter_app. eapply broke_off_r; [exact A1|].
    rewrite pad_adapter_app. apply broke_off_l. pose proof (write_passes ws failing w2 (fresh_after true before)) as X. rewrite B in X. exact X.
Qed.

(** ** Setting at a level *)
Lemma lf_nl : nl = String line_feed "".
Proof. reflexivity. Qed.
Lemma begins_fresh : forall s b, begins_after b s = fresh_after b s.
Proof. induction s as [|c s IH]; intros b; [reflexivity|]. cbn [begins_after fresh_after]. rewrite IH. reflexivity. Qed.
Lemma begins_app : forall a b f, begins_after f (a ++ b) = begins_after (begins_after f a) b.
Proof. induction a as [|c a IH]; intros b f; [reflexivity|]. apply IH. Qed.
Lemma set_app : forall a b d f, set_at d f (a ++ b) = set_at d f a ++ set_at d (begins_after f a) b.
Proof. induction a as [|c a IH]; intros b d f; [reflexivity|]. cbn [append set_at begins_after]. rewrite IH, sassoc. reflexivity. Qed.
Lemma set_0 : forall s f, set_at 0 f s = s.
Proof. induction s as [|c s IH]; intros f; [reflexivity|]. cbn [set_at]. rewrite IH. destruct f; reflexivity. Qed.
Lemma begins_blanks : forall n, begins_after false (blanks n) = false.
Proof. induction n as [|n IH]; [reflexivity|]. exact IH. Qed.
Lemma pad_blanks : forall n, pad_adapter false (blanks n) = blanks n.
Proof. induction n as [|n IH]; [reflexivity|]. cbn [blanks pad_adapter append]. f_equal. exact IH. Qed.
Lemma begins_set : forall s d f, begins_after f (set_at d f s) = begins_after f s.
Proof.
  induction s as [|c s IH]; intros d f; [reflexivity|]. cbn [set_at begins_after]. rewrite begins_app. cbn [begins_after]. apply IH.
Qed.
Lemma pad_set : forall s d f, pad_adapter f (set_at d f s) = set_at (S d) f s.
Proof.
  induction s as [|c s IH]; intros d f; [reflexivity|]. cbn [set_at]. destruct f.
  - replace (4 * S d) with (S (S (S (S (4 * d))))) by lia. generalize (4 * d). intros n.
    assert (X : forall f, pad_adapter f (String c (set_at d (Ascii.eqb c line_feed) s)) = (if f then "    " else "") ++ String c (set_at (S d) (Ascii.eqb c line_feed) s)).
    { intros f. rewrite <- IH. destruct f; reflexivity. }
    destruct n as [|n]; [exact (X true)|].
    cbn [blanks append pad_adapter]. do 5 f_equal. change (Ascii.eqb " " (ascii_of_N 10)) with false. rewrite pad_adapter_app, pad_blanks, <- begins_fresh, begins_blanks, X. reflexivity.
  - cbn [append]. rewrite <- IH. reflexivity.
Qed.

Section Pieces.
Context {E : Type} (ext_text : E -> string) (ext_end : E -> fmt_result).
Notation displayed := (displayed ext_text ext_end).
Notation piece := (@piece E).
Definition text_of (p : piece) : string := match p with Text _ s => s | Shown _ x => ext_text x end.
Fixpoint flag (f : bool) (l : list piece) : bool := match l with [] => f | p :: l => flag (begins_after f (text_of p)) l end.
Definition deeper (p : piece) : piece := match p with Text d s => Text (S d) s | Shown d x => Shown (S d) x end.

Lemma displayed_app : forall l1 l2 f, displayed f (l1 ++ l2) =
  match snd (displayed f l1) with
  | Fmt_Ok => (fst (displayed f l1) ++ fst (displayed (flag f l1) l2), snd (displayed (flag f l1) l2))
  | r => (fst (displayed f l1), r)
  end.
Proof.
  induction l1 as [|[d s|d x] l1 IH]; intros l2 f.
  - cbn. destruct (displayed f l2); reflexivity.
  - cbn [app Spec_DebugStop.displayed flag text_of]. rewrite IH. destruct (displayed (begins_after f s) l1) as [a [| |]]; cbn [fst snd]; rewrite ?sassoc; reflexivity.
  - cbn [app Spec_DebugStop.displayed flag text_of]. destruct (ext_end x); [|reflexivity|reflexivity]. rewrite IH.
    destruct (displayed (begins_after f (ext_text x)) l1) as [a [| |]]; cbn [fst snd]; rewrite ?sassoc; reflexivity.
Qed.
Lemma flag_app : forall l1 l2 f, flag f (l1 ++ l2) = flag (flag f l1) l2.
Proof. induction l1 as [|p l1 IH]; intros l2 f; [reflexivity|]. apply IH. Qed.
Lemma displayed_deeper : forall l f, displayed f (map deeper l) = (pad_adapter f (fst (displayed f l)), snd (displayed f l)).
Proof.
  induction l as [|[d s|d x] l IH]; intros f; [reflexivity| |]; cbn [map deeper Spec_DebugStop.displayed].
  - rewrite IH. destruct (displayed (begins_after f s) l) as [a r]. cbn [fst snd]. rewrite pad_adapter_app. rewrite pad_set. rewrite <- (begins_fresh (set_at d f s) f), begins_set. reflexivity.
  - destruct (ext_end x); [|cbn [fst snd]; rewrite pad_set; reflexivity|cbn [fst snd]; rewrite pad_set; reflexivity].
    rewrite IH. destruct (displayed (begins_after f (ext_text x)) l) as [a r]. cbn [fst snd]. rewrite pad_adapter_app, pad_set, <- (begins_fresh (set_at d f (ext_text x)) f), begins_set. reflexivity.
Qed.
Lemma flag_deeper : forall l f, flag f (map deeper l) = flag f l.
Proof. induction l as [|[d s|d x] l IH]; intros f; [reflexivity| |]; apply IH. Qed.

(** ** Printers that play pieces *)
Definition shows (p : Step) (l : list piece) : Prop := ends p (fst (displayed true l)) (snd (displayed true l)).
Definition steady (l : list piece) : Prop := forall f, displayed f l = displayed true l.
Lemma shows_lit : forall s, shows (lit s) [Text 0 s].
Proof. intros s. unfold shows. cbn [Spec_DebugStop.displayed fst snd]. rewrite set_0, snil. exact (prints_lit s). Qed.
Lemma shows_print : forall p s, prints p s -> shows p [Text 0 s].
Proof. intros p s H. unfold shows. cbn [Spec_DebugStop.displayed fst snd]. rewrite set_0, snil. exact H. Qed.
Lemma shows_try : forall p l q k, shows p l -> shows q k -> (flag true l = true \/ steady k) -> shows (try_ p q) (l ++ k).
Proof.
  intros p l q k P Q C. unfold shows in *. rewrite displayed_app.
  assert (X : displayed (flag true l) k = displayed true k) by (destruct C as [->|S]; [reflexivity|apply S]). rewrite X. clear X C.
  destruct (displayed true l) as [a [| |]]; cbn [fst snd] in *.
  - exact (ends_try p a q _ _ P Q).
  - apply ends_stop; [discriminate|exact P].
  - apply ends_stop; [discriminate|exact P].
Qed.
Lemma steady_text : forall s, steady [Text 0 s].
Proof. intros s f. cbn [Spec_DebugStop.displayed]. rewrite !set_0. reflexivity. Qed.
Lemma steady_first : forall s l, (forall f, begins_after f s = begins_after true s) -> steady (Text 0 s :: l).
Proof. intros s l H f. cbn [Spec_DebugStop.displayed]. rewrite !set_0, H. reflexivity. Qed.
Lemma shows_through : forall p l, shows p l -> shows (through_pad p) (map deeper l).
Proof. intros p l H. unfold shows in *. rewrite displayed_deeper. cbn [fst snd]. apply ends_through. exact H. Qed.

(** Everything at level 0. *)
Definition level (p : piece) : nat := match p with Text d _ => d | Shown d _ => d end.
Lemma flat_steady : forall l, Forall (fun p => level p = 0) l -> steady l.
Proof.
  assert (X : forall l, Forall (fun p => level p = 0) l -> forall f g, displayed f l = displayed g l).
  { intros l F. induction F as [|p l Z F IH]; intros f g; [reflexivity|]. destruct p as [d s|d x]; cbn [level] in Z; subst d; cbn [Spec_DebugStop.displayed]; rewrite !set_0.
    - rewrite (IH (begins_after f s) (begins_after g s)). reflexivity.
    - rewrite (IH (begins_after f (ext_text x)) (begins_after g (ext_text x))). reflexivity. }
  intros l F f. apply X. exact F.
Qed.

Notation flat := (Forall (fun p : piece => level p = 0)).
Lemma shows_pre : forall p s q s' k, prints p s -> shows q (Text 0 s' :: k) ->
  (begins_after (begins_after true s) s' = begins_after true s' \/ steady k) -> shows (try_ p q) (Text 0 (s ++ s') :: k).
Proof.
  intros p s q s' k P Q C. unfold shows in *. cbn [Spec_DebugStop.displayed] in *. rewrite !set_0 in *. rewrite begins_app.
  assert (X : displayed (begins_after (begins_after true s) s') k = displayed (begins_after true s') k) by (destruct C as [->|S]; [reflexivity|rewrite S; symmetry; apply S]).
  rewrite X. destruct (displayed (begins_after true s') k) as [a r]. cbn [fst snd] in *. rewrite sassoc. exact (ends_try p s q _ r P Q).
Qed.
Lemma shows_cons : forall p s q k, prints p s -> shows q k -> (begins_after true s = true \/ steady k) -> shows (try_ p q) (Text 0 s :: k).
Proof. intros p s q k P Q C. exact (shows_try p [Text 0 s] q k (shows_print p s P) Q C). Qed.
Lemma shows_in_line : forall ps ls, Forall2 shows ps ls -> Forall flat ls -> shows (fmt_separated ps) (in_line 0 ls) /\ flat (in_line 0 ls).
Proof.
  intros ps ls F. induction F as [|p l ps ls P F IH]; intros L; [split; [exact prints_done|constructor]|]. inversion L as [|? ? L1 L2]. subst. specialize (IH L2).
  destruct F as [|p' l' ps ls P' F]; [split; assumption|]. destruct IH as [I1 I2].
  change (in_line 0 (l :: l' :: ls)) with (l ++ Text 0 ", " :: in_line 0 (l' :: ls))%list. change (fmt_separated (p :: p' :: ps)) with (try_ p (try_ (lit ", ") (fmt_separated (p' :: ps)))).
  assert (Z : flat (Text 0 ", " :: in_line 0 (l' :: ls))) by (constructor; [reflexivity|exact I2]). split; [|apply Forall_app; split; assumption].
  apply shows_try; [exact P| |right; apply flat_steady; exact Z]. apply shows_cons; [apply prints_lit|exact I1|right; apply flat_steady; exact I2].
Qed.
Lemma shows_field : forall p l q s, shows p l -> prints q s -> begins_after false s = true -> (forall f, begins_after f s = begins_after false s) ->
  shows (through_pad (try_ p q)) (map deeper l ++ [Text 1 s]) /\ flag true (map deeper l ++ [Text 1 s]) = true.
Proof.
  intros p l q s P Q B C. change [Text 1 s] with (map deeper [Text 0 s]). rewrite <- map_app. split.
  - apply shows_through. apply shows_try; [exact P|apply shows_print; exact Q|right; apply steady_text].
  - rewrite flag_deeper, flag_app. cbn [flag text_of]. rewrite C. exact B.
Qed.
Lemma ends_line : forall s, prints (try_ (lit s) (lit nl)) (s ++ String line_feed "") /\ begins_after false (s ++ String line_feed "") = true
  /\ forall f, begins_after f (s ++ String line_feed "") = begins_after false (s ++ String line_feed "").
Proof.
  intros s. assert (X : forall f, begins_after f (s ++ String line_feed "") = true) by (intros f; rewrite begins_app; reflexivity).
  split; [apply prints_try; [apply prints_lit|rewrite <- lf_nl; apply prints_lit]|]. split; [apply X|]. intros f. rewrite !X. reflexivity.
Qed.
Lemma shows_in_lines : forall trailing ps ls, Forall2 shows ps ls ->
  shows (fmt_pretty_fields trailing ps) (in_lines trailing 1 (map (map deeper) ls)) /\ flag true (in_lines trailing 1 (map (map deeper) ls)) = true.
Proof.
  intros trailing ps ls F. induction F as [|p l ps ls P F IH]; [split; [exact prints_done|reflexivity]|].
  destruct F as [|p' l' ps ls P' F].
  - cbn [map fmt_pretty_fields in_lines]. apply shows_field; [exact P| | |].
    + destruct trailing; [exact (proj1 (ends_line ","))|]. rewrite <- lf_nl. exact (prints_try _ "" _ nl prints_done (prints_lit nl)).
    + destruct trailing; reflexivity.
    + destruct trailing; reflexivity.
  - destruct IH as [I1 I2]. cbn [map] in *.
    change (in_lines trailing 1 (map deeper l :: map deeper l' :: map (map deeper) ls)) with (map deeper l ++ [Text 1 ("," ++ String line_feed "")] ++ in_lines trailing 1 (map deeper l' :: map (map deeper) ls))%list.
    destruct (ends_line ",") as (X1 & X2 & X3). destruct (shows_field p l _ _ P X1 X2 X3) as [S1 S2]. rewrite app_assoc.
    split; [|rewrite flag_app, S2; exact I2].
    change (fmt_pretty_fields trailing (p :: p' :: ps)) with (try_ (through_pad (try_ p (try_ (lit ",") (lit nl)))) (fmt_pretty_fields trailing (p' :: ps))).
    apply shows_try; [exact S1|exact I1|left; exact S2].
Qed.
Lemma shows_enclosed : forall layout opening spaced ps items closing, Forall2 shows ps (items 0) -> items 1 = map (map deeper) (items 0) ->
  (layout = None -> Forall flat (items 0)) ->
  shows (fmt_block layout opening spaced ps closing) (enclosed layout 0 opening (if spaced then " " else "") items closing).
Proof.
  intros layout opening spaced ps items closing F D L. unfold fmt_block, enclosed.
  assert (B : prints (if spaced then lit " " else done) (if spaced then " " else "")) by (destruct spaced; [exact (prints_lit " ")|exact prints_done]).
  destruct layout as [trailing|].
  - rewrite D. destruct F as [|p l ps ls P F]; cbn [map].
    + apply shows_print. apply prints_try; apply prints_lit.
    + destruct (shows_in_lines trailing (p :: ps) (l :: ls) (Forall2_cons _ _ P F)) as [S1 S2].
      apply shows_pre; [apply prints_lit| |left; reflexivity]. apply shows_cons; [rewrite <- lf_nl; apply prints_lit| |left; reflexivity].
      exact (shows_try _ _ _ _ S1 (shows_lit closing) (or_intror (steady_text closing))).
  - destruct (shows_in_line ps (items 0) F (L eq_refl)) as [S1 S2].
    assert (Z : flat (in_line 0 (items 0) ++ [Text 0 ((if spaced then " " else "") ++ closing)])) by (apply Forall_app; split; [exact S2|constructor; [reflexivity|constructor]]).
    apply shows_pre; [apply prints_lit| |right; apply flat_steady; exact Z]. apply shows_cons; [exact B| |right; apply flat_steady; exact Z].
    apply shows_try; [exact S1|apply shows_print; apply prints_try; [exact B|apply prints_lit]|right; apply steady_text].
Qed.
Lemma steady_enclosed : forall layout opening c blank items closing, steady (enclosed layout 0 (opening ++ String c "") blank items closing).
Proof.
  intros layout opening c blank items closing. unfold enclosed. destruct layout as [trailing|]; [destruct (items 1)|]; apply steady_first; intros f;
    rewrite !(begins_app (opening ++ String c "")), !(begins_app opening); reflexivity.
Qed.

Section Trees.
Context (layout : option bool) (leaf : dtree E -> string) (show : dtree E -> Step) (ext : E -> Step).
Context (Tuples : forall name fs, show (DTuple name fs) = fmt_block layout (name ++ "(") false (map show fs) ")").
Context (Structs : forall name fs, show (DStruct name fs) = fmt_block layout (name ++ " {") true (map (fun f => try_ (lit (fst f)) (try_ (lit ": ") (show (snd f)))) fs) "}").
Context (Lists : forall fs, show (DList fs) = fmt_block layout "[" false (map show fs) "]").
Context (Boxes : forall x, show (DExtInstBox x) = fmt_block layout "ExtInstBox(" false [ext x] ")").
Context (Leaves : forall t, match t with DNumber _ | DBool _ | DString _ | DName _ => prints (show t) (leaf t) | _ => True end).
Notation pieces := (pieces leaf layout).

Lemma enclosed_deeper : forall d opening blank items closing, items (S (S d)) = map (map deeper) (items (S d)) -> items (S d) = map (map deeper) (items d) ->
  enclosed layout (S d) opening blank items closing = map deeper (enclosed layout d opening blank items closing).
Proof.
  intros d opening blank items closing H1 H0. unfold enclosed.
  assert (L1 : forall ls, in_line (S d) (map (map deeper) ls) = map deeper (in_line d ls)).
  { induction ls as [|l [|l' ls] IH]; [reflexivity|reflexivity|].
    change (in_line (S d) (map (map deeper) (l :: l' :: ls))) with (map deeper l ++ Text (S d) ", " :: in_line (S d) (map (map deeper) (l' :: ls)))%list.
    rewrite IH. change (in_line d (l :: l' :: ls)) with (l ++ Text d ", " :: in_line d (l' :: ls))%list. rewrite map_app. reflexivity. }
  assert (L2 : forall trailing k ls, in_lines trailing (S k) (map (map deeper) ls) = map deeper (in_lines trailing k ls)).
  { intros trailing k. induction ls as [|l [|l' ls] IH]; [reflexivity|cbn [map in_lines]; rewrite map_app; reflexivity|].
    change (in_lines trailing (S k) (map (map deeper) (l :: l' :: ls))) with (map deeper l ++ Text (S k) ("," ++ String line_feed "") :: in_lines trailing (S k) (map (map deeper) (l' :: ls)))%list.
    rewrite IH. change (in_lines trailing k (l :: l' :: ls)) with (l ++ Text k ("," ++ String line_feed "") :: in_lines trailing k (l' :: ls))%list. rewrite map_app. reflexivity. }
  destruct layout as [trailing|].
  - rewrite H1. destruct (items (S d)) as [|l ls]; [reflexivity|]. cbn [map]. rewrite map_app. f_equal. f_equal. exact (L2 trailing (S d) (l :: ls)).
  - rewrite H0, L1. cbn [map]. rewrite map_app. reflexivity.
Qed.
Lemma pieces_deeper : forall t d, pieces (S d) t = map deeper (pieces d t).
Proof.
  apply (tree_ind' (E := E) (fun t => forall d, pieces (S d) t = map deeper (pieces d t))); try reflexivity.
  - intros name fs F d. cbn [Spec_DebugStop.pieces].
    assert (X : forall d, map (pieces (S d)) fs = map (map deeper) (map (pieces d) fs)) by (intros k; induction F as [|t l T F IH]; [reflexivity|]; cbn [map]; rewrite T, IH; reflexivity).
    apply enclosed_deeper; apply X.
  - intros name fs F d. cbn [Spec_DebugStop.pieces]. apply (enclosed_deeper d _ _ (fun n => map (fun f => Text n (fst f ++ ": ") :: pieces n (snd f)) fs));
      (induction F as [|t l T F IH]; [reflexivity|]; cbn [map]; rewrite T, IH; reflexivity).
  - intros fs F d. cbn [Spec_DebugStop.pieces].
    assert (X : forall d, map (pieces (S d)) fs = map (map deeper) (map (pieces d) fs)) by (intros k; induction F as [|t l T F IH]; [reflexivity|]; cbn [map]; rewrite T, IH; reflexivity).
    apply enclosed_deeper; apply X.
  - intros x d. cbn [Spec_DebugStop.pieces]. apply (enclosed_deeper d _ _ (fun n => [[Shown n x]])); reflexivity.
Qed.
Lemma pieces_steady : forall t, steady (pieces 0 t).
Proof.
  intros []; cbn [Spec_DebugStop.pieces]; try apply steady_text.
  - exact (steady_enclosed layout name "("%char _ _ _).
  - replace (name ++ " {") with ((name ++ " ") ++ "{") by (rewrite sassoc; reflexivity). exact (steady_enclosed layout (name ++ " ") "{"%char _ _ _).
  - exact (steady_enclosed layout "" "["%char _ _ _).
  - exact (steady_enclosed layout "ExtInstBox" "("%char _ _ _).
Qed.
Lemma pieces_flat : layout = None -> forall t, flat (pieces 0 t).
Proof.
  intros L. assert (X : forall opening blank items closing, Forall flat (items 0) -> flat (enclosed layout 0 opening blank items closing)).
  { intros opening blank items closing F. unfold enclosed. rewrite L. constructor; [reflexivity|]. apply Forall_app. split; [|constructor; [reflexivity|constructor]].
    induction F as [|l ls Fl F IH]; [constructor|]. destruct ls as [|l' ls]; [exact Fl|]. change (in_line 0 (l :: l' :: ls)) with (l ++ Text 0 ", " :: in_line 0 (l' :: ls))%list.
    apply Forall_app. split; [exact Fl|]. constructor; [reflexivity|exact IH]. }
  apply (tree_ind' (E := E) (fun t => flat (pieces 0 t))); try (intros; repeat constructor; fail).
  - intros name fs F. apply X. apply Forall_map. exact F.
  - intros name fs F. apply X. apply Forall_map. eapply Forall_impl; [|exact F]. intros f H. constructor; [reflexivity|exact H].
  - intros fs F. apply X. apply Forall_map. exact F.
  - intros x. apply X. repeat constructor.
Qed.
Lemma shows_tree : forall t, (forall x, In x (boxed t) -> ends (ext x) (ext_text x) (ext_end x)) -> shows (show t) (pieces 0 t).
Proof.
  apply (tree_ind' (E := E) (fun t => (forall x, In x (boxed t) -> ends (ext x) (ext_text x) (ext_end x)) -> shows (show t) (pieces 0 t))).
  - intros n _. apply shows_print. exact (Leaves (DNumber n)).
  - intros b _. apply shows_print. exact (Leaves (DBool b)).
  - intros s _. apply shows_print. exact (Leaves (DString s)).
  - intros n _. apply shows_print. exact (Leaves (DName n)).
  - intros name fs F X. rewrite Tuples. cbn [Spec_DebugStop.pieces boxed] in *. apply (shows_enclosed layout (name ++ "(") false).
    + induction F as [|t l T F IH]; [constructor|]. cbn [flat_map map] in *. constructor; [apply T|apply IH]; intros x I; apply X; apply in_or_app; [left|right]; exact I.
    + rewrite map_map. apply map_ext. intros t. apply pieces_deeper.
    + intros L. apply Forall_map. apply Forall_forall. intros t _. apply pieces_flat. exact L.
  - intros name fs F X. rewrite Structs. cbn [Spec_DebugStop.pieces boxed] in *. apply (shows_enclosed layout (name ++ " {") true).
    + induction F as [|[f t] l T F IH]; [constructor|]. cbn [flat_map map fst snd] in *. constructor; [|apply IH; intros x I; apply X; apply in_or_app; right; exact I].
      apply shows_pre; [apply prints_lit| |right; apply pieces_steady]. apply shows_cons; [apply prints_lit| |right; apply pieces_steady].
      apply T. intros x I. apply X. apply in_or_app. left. exact I.
    + rewrite map_map. apply map_ext. intros [f t]. cbn [map deeper fst snd]. rewrite pieces_deeper. reflexivity.
    + intros L. apply Forall_map. apply Forall_forall. intros [f t] _. constructor; [reflexivity|]. apply pieces_flat. exact L.
  - intros fs F X. rewrite Lists. cbn [Spec_DebugStop.pieces boxed] in *. apply (shows_enclosed layout "[" false).
    + induction F as [|t l T F IH]; [constructor|]. cbn [flat_map map] in *. constructor; [apply T|apply IH]; intros x I; apply X; apply in_or_app; [left|right]; exact I.
    + rewrite map_map. apply map_ext. intros t. apply pieces_deeper.
    + intros L. apply Forall_map. apply Forall_forall. intros t _. apply pieces_flat. exact L.
  - intros x X. rewrite Boxes. cbn [Spec_DebugStop.pieces boxed] in *. apply (shows_enclosed layout "ExtInstBox(" false _ (fun n => [[Shown n x]])).
    + constructor; [|constructor]. unfold shows. cbn [Spec_DebugStop.displayed]. specialize (X x (or_introl eq_refl)). rewrite set_0. destruct (ext_end x); cbn [fst snd]; rewrite ?snil; exact X.
    + reflexivity.
    + intros _. repeat constructor.
Qed.
End Trees.
End Pieces.

(** ** Statements *)
Lemma stops_debug : forall E layout o e (ext : E -> Step) (ext_text : E -> string) (ext_end : E -> fmt_result) t,
  (forall x, In x (boxed t) -> ends (ext x) (ext_text x) (ext_end x)) ->
  let (text, r) := displayed ext_text ext_end true (pieces (debug_with layout o e ext_text) layout 0 t) in ends (fmt_debug layout o e ext t) text r.
Proof.
  intros E layout o e ext ext_text ext_end t X.
  pose proof (shows_tree ext_text ext_end layout (debug_with layout o e ext_text) (fmt_debug layout o e ext) ext
    (fun _ _ => eq_refl) (fun _ _ => eq_refl) (fun _ => eq_refl) (fun _ => eq_refl)) as S. specialize (S ltac:(intros []; try exact I; apply prints_debug; intros x []) t X).
  unfold shows in S. destruct (displayed _ _ _ _) as [text r]. exact S.
Qed.
Lemma stops_hex : forall E upper layout o e (ext : E -> Step) (ext_text : E -> string) (ext_end : E -> fmt_result) (leaf : dtree E -> string) t,
  (forall x, In x (boxed t) -> ends (ext x) (ext_text x) (ext_end x)) -> (forall l, boxed l = [] -> prints (fmt_debug_hex upper layout o e ext l) (leaf l)) ->
  let (text, r) := displayed ext_text ext_end true (pieces leaf layout 0 t) in ends (fmt_debug_hex upper layout o e ext t) text r.
Proof.
  intros E upper layout o e ext ext_text ext_end leaf t X L.
  pose proof (shows_tree ext_text ext_end layout leaf (fmt_debug_hex upper layout o e ext) ext
    (fun _ _ => eq_refl) (fun _ _ => eq_refl) (fun _ => eq_refl) (fun _ => eq_refl)) as S. specialize (S ltac:(intros []; try exact I; apply L; reflexivity) t X).
  unfold shows in S. destruct (displayed _ _ _ _) as [text r]. exact S.
Qed.
Lemma ends_unique : forall p a r b s, ends p a r -> ends p b s -> a = b /\ r = s.
Proof.
  intros p a r b s A B. pose proof (ends_growing p a r A "") as X. rewrite (ends_growing p b s B "") in X. cbn [append] in X. injection X as X1 X2. auto.
Qed.
Lemma whole_debug : forall E layout o e (ext_text : E -> string) (ext_end : E -> fmt_result) t, (forall x, In x (boxed t) -> ext_end x = Fmt_Ok) ->
  displayed ext_text ext_end true (pieces (debug_with layout o e ext_text) layout 0 t) = (debug_with layout o e ext_text t, Fmt_Ok).
Proof.
  intros E layout o e ext_text ext_end t X.
  pose proof (stops_debug E layout o e (fun x => lit (ext_text x)) ext_text ext_end t ltac:(intros x J; rewrite (X x J); exact (prints_lit (ext_text x)))) as H.
  pose proof (prints_debug E layout o e (fun x => lit (ext_text x)) ext_text t ltac:(intros x _; apply prints_lit)) as K.
  destruct (displayed _ _ _ _) as [text r]. destruct (ends_unique _ _ _ _ _ H K) as [-> ->]. reflexivity.
Qed.
Lemma first_end : forall E layout (leaf : dtree E -> string) ext_text (ext_end : E -> fmt_result) t,
  snd (displayed ext_text ext_end true (pieces leaf layout 0 t)) = fold_right (fun x r => match ext_end x with Fmt_Ok => r | e => e end) Fmt_Ok (boxed t).
Proof.
  intros E layout leaf ext_text ext_end.
  assert (A : forall l f, snd (displayed ext_text ext_end f l) = fold_right (fun x r => match ext_end x with Fmt_Ok => r | e => e end) Fmt_Ok (flat_map (fun p => match p with Shown _ x => [x] | _ => [] end) l)).
  { induction l as [|[d s|d x] l IH]; intros f; [reflexivity| |]; cbn [displayed flat_map app fold_right].
    - rewrite <- (IH (begins_after f s)). destruct (displayed _ _ _ l). reflexivity.
    - destruct (ext_end x); [|reflexivity|reflexivity]. rewrite <- (IH (begins_after f (ext_text x))). destruct (displayed _ _ _ l). reflexivity. }
  intros t. rewrite A. f_equal.
  assert (In_line : forall d ls, flat_map (fun p : piece => match p with Shown _ x => [x] | _ => [] end) (in_line d ls) = flat_map (flat_map (fun p : @piece E => match p with Shown _ x => [x] | _ => [] end)) ls).
  { intros d. induction ls as [|l [|l' ls] IH]; [reflexivity|cbn; rewrite app_nil_r; reflexivity|].
    change (in_line d (l :: l' :: ls)) with (l ++ Text d ", " :: in_line d (l' :: ls))%list. rewrite flat_map_app. cbn [flat_map app] in *. rewrite IH. reflexivity. }
  assert (In_lines : forall tr d ls, flat_map (fun p : piece => match p with Shown _ x => [x] | _ => [] end) (in_lines tr d ls) = flat_map (flat_map (fun p : @piece E => match p with Shown _ x => [x] | _ => [] end)) ls).
  { intros tr d. induction ls as [|l [|l' ls] IH]; [reflexivity|cbn [in_lines]; rewrite flat_map_app; reflexivity|].
    change (in_lines tr d (l :: l' :: ls)) with (l ++ Text d ("," ++ String line_feed "") :: in_lines tr d (l' :: ls))%list. rewrite flat_map_app. cbn [flat_map app] in *. rewrite IH. reflexivity. }
  assert (Enclosed : forall d opening blank items closing bs, (forall n, flat_map (flat_map (fun p : @piece E => match p with Shown _ x => [x] | _ => [] end)) (items n) = bs) ->
    flat_map (fun p : piece => match p with Shown _ x => [x] | _ => [] end) (enclosed layout d opening blank items closing) = bs).
  { intros d opening blank items closing bs H. unfold enclosed. destruct layout as [tr|].
    - specialize (H (S d)). destruct (items (S d)) as [|l ls]; [exact H|]. cbn [flat_map app]. rewrite flat_map_app, In_lines, H. apply app_nil_r.
    - cbn [flat_map app]. rewrite flat_map_app, In_line, H. apply app_nil_r. }
  revert t. assert (G : forall t d, flat_map (fun p : piece => match p with Shown _ x => [x] | _ => [] end) (pieces leaf layout d t) = boxed t); [|intros t; apply G].
  apply (tree_ind' (E := E) (fun t => forall d, flat_map (fun p : piece => match p with Shown _ x => [x] | _ => [] end) (pieces leaf layout d t) = boxed t)); try reflexivity.
  - intros n fs F d. apply Enclosed. intros k. induction F as [|t l T F IH]; [reflexivity|]. cbn [map flat_map boxed]. rewrite T. f_equal. exact IH.
  - intros n fs F d. apply Enclosed. intros k. induction F as [|t l T F IH]; [reflexivity|]. cbn [map flat_map boxed app]. rewrite T. f_equal. exact IH.
  - intros fs F d. apply Enclosed. intros k. induction F as [|t l T F IH]; [reflexivity|]. cbn [map flat_map boxed]. rewrite T. f_equal. exact IH.
  - intros x d. apply Enclosed. reflexivity.
Qed.
Lemma stopped_buffers : forall p text r, ends p text r -> (forall buffer, p string growing buffer = (buffer ++ text, r))
  /\ forall capacity, p string (bounded capacity) "" = (substring 0 capacity text, if Nat.leb (String.length text) capacity then r else Fmt_Err).
Proof. intros p text r H. split; [exact (ends_growing p text r H)|exact (ends_bounded p text r H)]. Qed.
