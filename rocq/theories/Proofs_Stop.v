(** Printers that are ended on the way (C102). *)
From Coq Require Import Lia.
From Verif Require Import Base Types Ops Groups ControlFlow DisplayBase DisplayTypes DisplayOps DisplayModule DisplayFlow
  FmtBase FmtTypes FmtOps FmtFlow Spec_Layout Spec_Flow Spec_Names Spec_Text Spec_Writer Spec_Page Spec_Stop
  Proofs_Flow Proofs_Text Proofs_Text2 Proofs_Text3 Proofs_Text4 Proofs_Text5 Proofs_Page Proofs_Fmt.
Local Open Scope string_scope.

Lemma prints_ends : forall p t, prints p t -> ends p t Fmt_Ok.
Proof. intros p t H. exact H. Qed.
Lemma ends_try : forall p a q b r, prints p a -> ends q b r -> ends (try_ p q) (a ++ b) r.
Proof.
  intros p a q b r Hp Hq W ws w w' r'. unfold try_. destruct (p W ws w) as [w1 r1] eqn:Q. destruct (Hp _ _ _ _ _ Q) as [[-> A]|[-> A]].
  - intros Q2. destruct (Hq _ _ _ _ _ Q2) as [[-> B]|[-> B]]; [left|right]; (split; [reflexivity|]).
    + eapply wrote_app; eassumption.
    + eapply broke_off_r; eassumption.
  - intros [= <- <-]. right. split; [reflexivity|]. apply broke_off_l. exact A.
Qed.
Lemma ends_stop : forall p a q r, r <> Fmt_Ok -> ends p a r -> ends (try_ p q) a r.
Proof.
  intros p a q r N Hp W ws w w' r'. unfold try_. destruct (p W ws w) as [w1 r1] eqn:Q. destruct (Hp _ _ _ _ _ Q) as [[-> A]|[-> A]].
  - destruct r; [contradiction N; reflexivity| |]; intros [= <- <-]; auto.
  - intros [= <- <-]. auto.
Qed.
Lemma ends_panic : ends panic "" Fmt_Panic.
Proof. exact panics. Qed.
Lemma ends_cast : forall p a b r, ends p a r -> a = b -> ends p b r.
Proof. intros p a b r H <-. exact H. Qed.

Lemma ends_growing : forall p t r, ends p t r -> forall buffer, p string growing buffer = (buffer ++ t, r).
Proof.
  intros p t r H w. destruct (p string growing w) as [w' r'] eqn:Q. destruct (H _ _ _ _ _ Q) as [[-> A]|[-> (a & b & c & w1 & -> & A & B)]].
  - rewrite (growing_wrote _ _ _ A). reflexivity.
  - discriminate B.
Qed.
Lemma ends_bounded : forall p t r, ends p t r -> forall n,
  p string (bounded n) "" = (substring 0 n t, if Nat.leb (String.length t) n then r else Fmt_Err).
Proof.
  intros p t r H n. destruct (p string (bounded n) "") as [w' r'] eqn:Q. destruct (H _ _ _ _ _ Q) as [[-> A]|[-> (a & b & c & w1 & -> & A & B)]].
  - destruct (bounded_wrote _ _ _ _ A) as [-> L]; [cbn; lia|]. cbn [append] in *. rewrite sub_all by exact L. apply Nat.leb_le in L. rewrite L. reflexivity.
  - destruct (bounded_wrote _ _ _ _ A) as [-> L]; [cbn; lia|]. cbn [append] in *. unfold bounded in B. injection B as B1 B2. apply Nat.leb_gt in B2.
    rewrite <- B1, <- sassoc. rewrite (sub_app n (a ++ b) c) by (rewrite slen_app; lia).
    destruct (Nat.leb_spec (String.length ((a ++ b) ++ c)) n) as [Z|Z]; [rewrite !slen_app in Z; lia|reflexivity].
Qed.

Section Stop.
Context {E : Type} (fmt_ext : Display E) (ext_text : E -> string) (ext_end : E -> fmt_result).

Section Options.
Context (o : Options) (Hq : quiet o) (Hext : forall e, ends (fmt_ext e o) (ext_text e) (ext_end e)).
Lemma ends_ExtInst : forall op, ends (fmt_OpExtInst fmt_ext op o) (disp_OpExtInst ext_text op) (ext_end (OpExtInst_instruction op)).
Proof.
  intros op. unfold fmt_OpExtInst, disp_OpExtInst.
  eapply ends_cast; [eapply ends_try; [apply prints_fmt2; [apply prints_Result|apply prints_lit]|];
    eapply ends_try; [eapply prints_arg; exact (fun x => prints_OpId_q x o Hq)|];
    eapply ends_try; [eapply prints_arg; exact (fun x => prints_OpId_q x o Hq)|]|].
  - instantiate (1 := " " ++ ext_text (OpExtInst_instruction op)). unfold fmt_arg.
    pose proof (ends_try _ _ _ _ _ (prints_lit " ") (Hext (OpExtInst_instruction op))) as H.
    destruct (ext_end (OpExtInst_instruction op)) eqn:Q.
    + eapply ends_cast; [eapply ends_try; [exact H|exact prints_done]|apply snil].
    + apply ends_stop; [discriminate|exact H].
    + apply ends_stop; [discriminate|exact H].
  - unfold format_arg. rewrite ?sassoc, ?snil. reflexivity.
Qed.
Lemma ends_Core : forall i, ends (fmt_Core fmt_ext i o) (disp_Core ext_text i) (end_of ext_end i).
Proof.
  intros i.
  pose proof (prints_Core_q (fun e _ => lit (ext_text e)) ext_text o Hq (fun e => prints_lit (ext_text e)) i) as H.
  destruct i; try exact H. apply ends_ExtInst.
Qed.
End Options.

Context (Hext : forall e, ends (fmt_ext e plain) (ext_text e) (ext_end e)).
Notation line_of := (disp_Core ext_text).
Notation performed := (performed line_of ext_end).

Definition plays (p : Step) (l : list item) : Prop := ends p (fst (performed l)) (snd (performed l)).
Lemma performed_app : forall l1 l2, performed (l1 ++ l2) =
  match performed l1 with (a, Fmt_Ok) => (a ++ fst (performed l2), snd (performed l2)) | x => x end.
Proof.
  induction l1 as [|x l1 IH]; intros l2; cbn [app Spec_Stop.performed append]; [destruct (performed l2); reflexivity|]. destruct x as [s|s i|].
  - rewrite IH. destruct (performed l1) as [a []]; try reflexivity. rewrite !sassoc. reflexivity.
  - destruct (end_of ext_end i); try reflexivity. rewrite IH. destruct (performed l1) as [a []]; try reflexivity. rewrite !sassoc. reflexivity.
  - reflexivity.
Qed.
Lemma plays_done : plays done [].
Proof. exact prints_done. Qed.
Lemma plays_try : forall p q l1 l2, plays p l1 -> plays q l2 -> plays (try_ p q) (l1 ++ l2).
Proof.
  intros p q l1 l2 Hp Hq. unfold plays in *. rewrite performed_app. destruct (performed l1) as [a r]. cbn [fst snd] in Hp.
  destruct r; cbn [fst snd].
  - apply ends_try; assumption.
  - apply ends_stop; [discriminate|exact Hp].
  - apply ends_stop; [discriminate|exact Hp].
Qed.
Lemma plays_one : forall p s, prints p (s ++ nl) -> plays p [Full s].
Proof. intros p s H. exact H. Qed.
(** A line written in several steps before the rest. *)
Lemma plays_full : forall p s l t, t = s ++ nl ++ fst (performed l) -> ends p t (snd (performed l)) -> plays p (Full s :: l).
Proof. intros p s l t -> H. unfold plays. cbn [Spec_Stop.performed]. destruct (performed l) as [a r]. exact H. Qed.
Lemma plays_showing : forall p s i l, plays p l ->
  plays (try_ (write_fmt [lit s; fmt_Core fmt_ext i plain; lit nl]) p) (Showing s i :: l).
Proof.
  intros p s i l H. pose proof (ends_Core plain plain_quiet Hext i) as C. unfold plays in *. cbn [Spec_Stop.performed].
  destruct (end_of ext_end i) eqn:Q.
  - destruct (performed l) as [a r]. cbn [fst snd] in *. eapply ends_cast.
    + eapply ends_try; [|exact H]. apply prints_fmt2; [apply prints_lit|]. apply prints_fmt2; [exact C|apply prints_lit].
    + rewrite !sassoc. reflexivity.
  - cbn [fst snd]. apply ends_stop; [discriminate|]. apply (ends_try _ _ _ _ _ (prints_lit s)). apply ends_stop; [discriminate|exact C].
  - cbn [fst snd]. apply ends_stop; [discriminate|]. apply (ends_try _ _ _ _ _ (prints_lit s)). apply ends_stop; [discriminate|exact C].
Qed.
Lemma plays_cast : forall p l1 l2, plays p l1 -> l1 = l2 -> plays p l2.
Proof. intros p l1 l2 H <-. exact H. Qed.

(** ** Modules *)
Lemma plays_instructions : forall l, plays (fmt_instructions fmt_ext l) (map (Showing "") l).
Proof.
  induction l as [|i l IH]; [exact plays_done|]. cbn [fmt_instructions map].
  pose proof (ends_Core plain plain_quiet Hext i) as C. unfold plays in *. cbn [Spec_Stop.performed].
  destruct (end_of ext_end i) eqn:Q.
  - destruct (performed (map (Showing "") l)) as [a r]. cbn [fst snd] in *. eapply ends_cast.
    + eapply ends_try; [|exact IH]. apply prints_fmt2; [exact C|apply prints_lit].
    + rewrite !sassoc. reflexivity.
  - cbn [fst snd append]. apply ends_stop; [discriminate|]. apply ends_stop; [discriminate|exact C].
  - cbn [fst snd append]. apply ends_stop; [discriminate|]. apply ends_stop; [discriminate|exact C].
Qed.
Lemma plays_step : forall p q s l, prints p (s ++ nl) -> plays q l -> plays (try_ p q) (Full s :: l).
Proof. intros p q s l Hp Hq. exact (plays_try p q [Full s] l (plays_one p s Hp) Hq). Qed.
Lemma plays_RawModule : forall m f, plays (fmt_RawModule fmt_ext m f) (module_items m).
Proof.
  intros m f. unfold fmt_RawModule, module_items, header_lines. rewrite <- generator_ok. cbn [map app]. cbv zeta.
  repeat (apply plays_step; [eapply prints_cast; [pieces|rewrite ?sassoc; reflexivity]|]). apply plays_instructions.
Qed.

(** ** Functions *)
Lemma fmt_code : forall (g : GroupCode E) o, fmt_GroupCode fmt_ext g o = fmt_Core fmt_ext (core_of_code g) o.
Proof. intros g opts; destruct g; reflexivity. Qed.
Lemma fmt_branch : forall g o, fmt_GroupBranch g o = fmt_Core fmt_ext (core_of_branch g) o.
Proof. intros g opts; destruct g; reflexivity. Qed.
Lemma indented_ok : forall n s, write_indent n ++ s = indented n s.
Proof. intros n s. unfold indented. rewrite indent_blanks. reflexivity. Qed.
Lemma plays_showing_at : forall p n i l, plays p l ->
  plays (try_ (put_indent n) (try_ (write_fmt [lit ">>> "; fmt_Core fmt_ext i plain; lit nl]) p)) (Showing (indented n ">>> ") i :: l).
Proof.
  intros p n i l H. pose proof (plays_showing p ">>> " i l H) as P. pose proof (prints_indent n) as I.
  unfold plays in *. cbn [Spec_Stop.performed] in *. rewrite <- indented_ok.
  destruct (end_of ext_end i); [destruct (performed l) as [a r]| |]; cbn [fst snd] in *; (eapply ends_cast; [apply ends_try; [exact I|exact P]|rewrite !sassoc; reflexivity]).
Qed.
Lemma plays_line_at : forall p q n s l, prints p (s ++ nl) -> plays q l ->
  plays (try_ (put_indent n) (try_ p q)) (Full (indented n s) :: l).
Proof.
  intros p q n s l Hp Hq. pose proof (plays_step p q s l Hp Hq) as P. unfold plays in *. cbn [Spec_Stop.performed] in *. rewrite <- indented_ok.
  destruct (performed l) as [a r]. cbn [fst snd] in *. eapply ends_cast; [apply ends_try; [apply prints_indent|exact P]|rewrite !sassoc; reflexivity].
Qed.
Lemma plays_last_at : forall p n s, prints p (s ++ nl) -> plays (try_ (put_indent n) p) [Full (indented n s)].
Proof.
  intros p n s Hp. rewrite <- indented_ok. apply plays_one. eapply prints_cast; [apply prints_try; [apply prints_indent|exact Hp]|rewrite !sassoc; reflexivity].
Qed.
Lemma plays_code : forall n code q l, plays q l -> plays (try_ (put_code fmt_ext n code) q) (map (Showing (indented n ">>> ")) (map core_of_code code) ++ l).
Proof.
  intros n code q l Hq. apply plays_try; [|exact Hq]. induction code as [|g code IH]; [exact plays_done|].
  cbn [put_code map]. rewrite fmt_code. apply plays_showing_at. exact IH.
Qed.
Lemma plays_block : forall fn n id, plays (put_block fmt_ext fn n id) (block_items fn n id).
Proof.
  intros fn n id. unfold put_block, block_items. rewrite find_block_count. fold (labels fn).
  destruct (Nat.eqb_spec (count_occ N.eq_dec (labels fn) id) 1) as [U|U].
  - destruct (block_unique fn id U) as (b & F & _). rewrite F, U. unfold block_of in F. rewrite F.
    rewrite map_app, <- app_assoc. cbn [map app].
    apply plays_line_at; [eapply prints_cast; [pieces|rewrite ?sassoc; reflexivity]|]. apply plays_code. rewrite fmt_branch. apply plays_showing_at. apply plays_last_at. eapply prints_cast; [pieces|rewrite ?sassoc; reflexivity].
  - assert (P : plays panic [@Impossible E]) by exact ends_panic.
    destruct (count_occ N.eq_dec (labels fn) id) as [|[|k]]; [|contradiction U; reflexivity|]; destruct (block_of fn id); exact P.
Qed.
Lemma plays_note : forall a b q n l s t, prints a s -> prints b t -> plays q l ->
  plays (try_ a (try_ b (try_ (put_indent n) (try_ (write_fmt [lit ("{" ++ nl)]) q)))) (Full (s ++ t ++ indented n "{") :: l).
Proof.
  intros a b q n l s t Ha Hb Hq. pose proof (plays_line_at _ q n "{" l (prints_lit ("{" ++ nl)) Hq) as P.
  unfold plays in *. cbn [Spec_Stop.performed] in *. destruct (performed l) as [x r]. cbn [fst snd] in *.
  eapply ends_cast; [apply ends_try; [exact Ha|]; apply ends_try; [exact Hb|exact P]|rewrite !sassoc; reflexivity].
Qed.
Lemma plays_function : forall fn c n, plays (put_function fmt_ext fn c n) (function_items fn n c).
Proof.
  intros fn. fix IH 1. intros c n. destruct c as [id|l|id lhs rhs hint weights|id inner hint weights| |]; cbn [put_function function_items].
  - apply plays_block.
  - induction l as [|x l IHl]; [exact plays_done|]. cbn [flat_map]. apply plays_try; [apply IH|exact IHl].
  - apply plays_try; [apply plays_block|]. cbn [app]. rewrite <- selection_note_ok, <- weights_note_ok.
    apply plays_note; [apply prints_hint_sel|apply prints_weights|]. apply plays_try; [apply IH|]. apply plays_try; [|apply plays_last_at; exact (prints_lit _)].
    assert (R : plays (try_ (put_indent n) (try_ (write_fmt [lit ("} else {" ++ nl)]) (put_function fmt_ext fn rhs (S n))))
      (Full (indented n "} else {") :: function_items fn (S n) rhs)) by (apply plays_line_at; [exact (prints_lit _)|apply IH]).
    destruct rhs as [|[]| | | |]; first [exact R|exact plays_done].
  - apply plays_try; [apply plays_block|]. cbn [app]. rewrite <- loop_note_ok, <- weights_note_ok.
    apply plays_note; [apply prints_hint_loop|apply prints_weights|]. apply plays_try; [apply IH|]. apply plays_last_at; exact (prints_lit _).
  - apply plays_last_at. exact (prints_lit _).
  - apply plays_last_at. exact (prints_lit _).
Qed.
End Stop.

(** ** Conclusions *)
Lemma stop_instruction : forall E (fmt_ext : Display E) ext_text ext_end options, quiet options ->
  (forall e, ends (fmt_ext e options) (ext_text e) (ext_end e)) ->
  forall i, ends (fmt_Core fmt_ext i options) (disp_Core ext_text i) (end_of ext_end i).
Proof. intros E fmt_ext ext_text ext_end o Q H. exact (ends_Core fmt_ext ext_text ext_end o Q H). Qed.
Lemma stop_module : forall E (fmt_ext : Display E) ext_text ext_end, (forall e, ends (fmt_ext e plain) (ext_text e) (ext_end e)) ->
  forall m options, let '(text, r) := performed (disp_Core ext_text) ext_end (module_items m) in ends (fmt_RawModule fmt_ext m options) text r.
Proof. intros E fmt_ext ext_text ext_end H m o. pose proof (plays_RawModule fmt_ext ext_text ext_end H m o) as P. unfold plays in P. destruct (performed _ _ _). exact P. Qed.
Lemma stop_function : forall E (fmt_ext : Display E) ext_text ext_end, (forall e, ends (fmt_ext e plain) (ext_text e) (ext_end e)) ->
  forall f c options, let '(text, r) := performed (disp_Core ext_text) ext_end (function_items f 0 c) in ends (fmt_ControlFlowFunctionPrinter fmt_ext f c options) text r.
Proof. intros E fmt_ext ext_text ext_end H f c o. pose proof (plays_function fmt_ext ext_text ext_end H f c 0) as P. unfold plays in P. destruct (performed _ _ _). exact P. Qed.

(** What comes before the instruction that ends the printing. *)
Lemma stop_module_at : forall E (fmt_ext : Display E) ext_text ext_end, (forall e, ends (fmt_ext e plain) (ext_text e) (ext_end e)) ->
  forall m options before i after, RawModule_instructions m = (before ++ i :: after)%list ->
  (forall j, In j before -> end_of ext_end j = Fmt_Ok) -> end_of ext_end i <> Fmt_Ok ->
  ends (fmt_RawModule fmt_ext m options) (page (header_lines m ++ map (disp_Core ext_text) before) ++ disp_Core ext_text i) (end_of ext_end i).
Proof.
  intros E fmt_ext ext_text ext_end H m o before i after M B I. pose proof (plays_RawModule fmt_ext ext_text ext_end H m o) as P. unfold plays in P.
  replace (performed (disp_Core ext_text) ext_end (module_items m))
    with (page (header_lines m ++ map (disp_Core ext_text) before) ++ disp_Core ext_text i, end_of ext_end i) in P; [exact P|].
  unfold module_items. rewrite M. clear M P. rewrite page_app. generalize (header_lines m) as h. induction h as [|s h IHh].
  - cbn [map app page append]. induction before as [|j before IHb]; cbn [map app page append performed].
    + destruct (end_of ext_end i); [contradiction I; reflexivity| |]; reflexivity.
    + rewrite (B j (or_introl eq_refl)). rewrite <- IHb by (intros k K; apply B; right; exact K). rewrite !sassoc. reflexivity.
  - cbn [map app page performed]. rewrite <- IHh. rewrite !sassoc. reflexivity.
Qed.

(** Nothing in the way: the whole text. *)
Lemma whole_performed : forall E (d : E -> string) ext_end (f : FunctionDefinition E) c, (forall e, ext_end e = Fmt_Ok) ->
  (forall id, In id (chain_ids c) -> count_occ N.eq_dec (labels f) id = 1) ->
  performed (disp_Core d) ext_end (function_items f 0 c) = (page (function_lines (disp_Core d) f 0 c), Fmt_Ok).
Proof.
  intros E d ext_end f c H U.
  assert (X : forall e, ends (lit (d e)) (d e) (ext_end e)) by (intro e; rewrite H; apply prints_lit).
  pose proof (stop_function E (fun e _ => lit (d e)) d ext_end X f c plain) as P.
  destruct (performed (disp_Core d) ext_end (function_items f 0 c)) as [t r].
  pose proof (ends_growing _ _ _ P "") as G.
  pose proof (follows_function (fun e _ => lit (d e)) d (fun e => prints_lit (d e)) f c 0) as F.
  rewrite (printer_page_at d f c 0 U) in F. cbn [follows] in F. pose proof (prints_growing _ _ F "") as G2.
  unfold fmt_ControlFlowFunctionPrinter in G. rewrite G in G2. exact G2.
Qed.
