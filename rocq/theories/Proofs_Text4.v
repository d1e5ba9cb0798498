(** The text of chains: braces, nesting, faithfulness (C57, C58). *)
From Coq Require Import Lia.
From Verif Require Import Base Types Ops Groups ControlFlow DisplayBase DisplayTypes DisplayModule DisplayFlow
  Spec_Wire Spec_Flow Spec_Names Spec_Text Proofs_Flow Proofs_Text Proofs_Text2 Proofs_Text3.
Local Open Scope string_scope.

Ltac lf := apply lf_freeb_spec; vm_compute; reflexivity.

Definition loose (c : ControlFlowChain) : Prop := match c with Block _ => False | _ => True end.

Fixpoint leaves (c : ControlFlowChain) : list ControlFlowChain :=
  match c with Block l => flat_map leaves l | _ => [c] end.
Fixpoint texts (l : list ControlFlowChain) (n : nat) : string :=
  match l with [] => "" | c :: l => chain_fmt_indent c n ++ texts l n end.

Lemma texts_app : forall l l' n, texts (l ++ l')%list n = texts l n ++ texts l' n.
Proof. induction l as [|x l IH]; intros l' n; [reflexivity|]. cbn [app texts]. rewrite IH, sapp_assoc. reflexivity. Qed.
Lemma text_block : forall l n, chain_fmt_indent (Block l) n = texts l n.
Proof. intros l n. induction l as [|x l IH]; [reflexivity|]. cbn [chain_fmt_indent texts] in *. rewrite <- IH. reflexivity. Qed.
Lemma text_leaves : forall c n, chain_fmt_indent c n = texts (leaves c) n.
Proof.
  induction c using chain_ind'; intro n; try (cbn [leaves texts]; rewrite sapp_nil; reflexivity).
  rewrite text_block. cbn [leaves]. induction H as [|x l Hx H IH]; [reflexivity|]. cbn [texts flat_map]. rewrite texts_app, Hx, IH. reflexivity.
Qed.
Lemma leaves_loose : forall c, Forall loose (leaves c).
Proof.
  induction c using chain_ind'; try (repeat constructor). cbn [leaves].
  induction H as [|x l Hx H IH]; [constructor|]. cbn [flat_map]. apply Forall_app. auto.
Qed.
Lemma steps_leaves : forall c, flat_map steps (leaves c) = steps c.
Proof.
  induction c using chain_ind'; try reflexivity. cbn [leaves steps].
  induction H as [|x l Hx H IH]; [reflexivity|]. cbn [flat_map]. rewrite flat_map_app, Hx, IH. reflexivity.
Qed.

Lemma indent_blanks : forall n, write_indent n = blanks (4 * n).
Proof.
  induction n as [|n IH]; [reflexivity|]. cbn [write_indent]. rewrite IH. replace (4 * S n) with (S (S (S (S (4 * n))))) by lia. reflexivity.
Qed.

(** ** Faithfulness *)
Definition term (n : nat) (r : string) : Prop := r = "" \/ exists m s, m < n /\ r = write_indent m ++ "}" ++ s.

Lemma text_first : forall c n, loose c -> exists x s, chain_fmt_indent c n = write_indent n ++ String x s /\ x <> "}"%char.
Proof.
  intros c n L. destruct c; cbn [chain_fmt_indent] in *; try contradiction L;
    (do 2 eexists; split; [reflexivity|discriminate]).
Qed.

Lemma indent_first : forall m n s x t, m < n -> write_indent m ++ "}" ++ s = write_indent n ++ String x t -> False.
Proof.
  induction m as [|m IH]; intros [|n] s x t L H; try lia; [discriminate H|]. cbn [write_indent] in H. rewrite !sapp_assoc in H.
  apply sapp_cancel in H. apply IH in H; [exact H|lia].
Qed.
Lemma term_first : forall n r x s, term n r -> x <> "}"%char -> r = write_indent n ++ String x s -> False.
Proof.
  intros n r x s [->|(m & t & L & ->)] X H.
  - destruct n; discriminate H.
  - exact (indent_first _ _ _ _ _ L H).
Qed.

Lemma lf_split : forall a b s t, lf_free a -> lf_free b -> a ++ nl ++ s = b ++ nl ++ t -> a = b /\ s = t.
Proof.
  unfold lf_free. induction a as [|x a IH]; intros [|y b] s t A B H.
  - injection H as ->. auto.
  - exfalso. cbn in H. injection H as H _. apply B. left. symmetry. exact H.
  - exfalso. cbn in H. injection H as H _. apply A. left. exact H.
  - cbn [append] in H. injection H as -> H. cbn [contains] in A, B. destruct (IH b s t) as [-> ->]; tauto.
Qed.

Fixpoint lacks (x : ascii) (s : string) : bool := match s with "" => true | String c s => negb (Ascii.eqb c x) && lacks x s end.
Lemma lacks_spec : forall x s, lacks x s = true -> ~ contains x s.
Proof.
  induction s as [|c s IH]; cbn [lacks]; intro H; [intros []|]. apply andb_prop in H. destruct H as [H1 H2].
  intros [Q|Q]; [subst c; rewrite Ascii.eqb_refl in H1; discriminate H1|]. exact (IH H2 Q).
Qed.
Ltac no_char := apply lacks_spec; vm_compute; reflexivity.

(** The characters hints and weights do not contain. *)
Definition letters : string := "[]UnrollDontUnrollDependencyInfiniteDependencyLength() |FlattenDontFlattenNone%selectionloop".
Definition outside (x : ascii) : Prop := digit x = None /\ ~ contains x letters.
Fixpoint within (s : string) : bool := match s with "" => true | String c s => negb (lacks c letters) && within s end.
Lemma lacks_iff : forall x s, lacks x s = false -> contains x s.
Proof.
  induction s as [|c s IH]; cbn [lacks contains]; intro H; [discriminate|]. destruct (Ascii.eqb_spec c x) as [->|_]; [left; reflexivity|].
  right. apply IH. exact H.
Qed.
Lemma within_spec : forall x s, within s = true -> outside x -> ~ contains x s.
Proof.
  intros x s W [_ O]. induction s as [|c s IH]; [intros []|]. cbn [within] in W. apply andb_prop in W. destruct W as [W1 W2].
  intros [->|Q]; [|exact (IH W2 Q)]. apply O. apply lacks_iff. destruct (lacks x letters); [discriminate W1|reflexivity].
Qed.

Lemma contains_cons : forall x c s, contains x (String c s) <-> c = x \/ contains x s.
Proof. intros. reflexivity. Qed.

Lemma not_app : forall x a b, ~ contains x a -> ~ contains x b -> ~ contains x (a ++ b).
Proof. intros x a b A B. rewrite contains_app. tauto. Qed.

Ltac piece := match goal with
  | H : outside ?x |- ~ contains ?x (decimal _) => apply decimal_not; apply H
  | H : outside ?x |- ~ contains ?x (disp_u32 _) => apply decimal_not; apply H
  | H : outside ?x |- ~ contains ?x _ => apply (within_spec x); [vm_compute; reflexivity|exact H]
  end.
Lemma loop_text_chars : forall x h, outside x -> ~ contains x (disp_LoopControl h).
Proof.
  intros x [[] [] [] [n|]] H; unfold disp_LoopControl; cbn -[append disp_u32 contains]; repeat apply not_app; piece.
Qed.
Lemma selection_text_chars : forall x h, outside x -> ~ contains x (disp_SelectionControl h).
Proof. intros x [[] []] H; unfold disp_SelectionControl; cbn -[append disp_u32 contains]; repeat apply not_app; piece. Qed.
Lemma weights_chars : forall x w, outside x -> ~ contains x (weights_text w).
Proof. intros x [w|] H; cbn [weights_text]; unfold disp_BranchWeights; repeat apply not_app; piece. Qed.
Lemma hint_sel_chars : forall x h, outside x -> ~ contains x (hint_text_sel h).
Proof. intros x h H. unfold hint_text_sel. destruct (selection_is_default h); repeat apply not_app; try piece. apply selection_text_chars. exact H. Qed.
Lemma hint_loop_chars : forall x h, outside x -> ~ contains x (hint_text_loop h).
Proof. intros x h H. unfold hint_text_loop. destruct (loop_is_default h); repeat apply not_app; try piece. apply loop_text_chars. exact H. Qed.

Definition sel_header id h w := "selection " ++ disp_BlockId id ++ hint_text_sel h ++ weights_text w ++ " {".
Definition loop_header_text id h w := "loop " ++ disp_BlockId id ++ hint_text_loop h ++ weights_text w ++ " {".
Lemma outside_lf : outside line_feed. Proof. split; [reflexivity|no_char]. Qed.
Lemma outside_open : outside "{". Proof. split; [reflexivity|no_char]. Qed.
Lemma outside_close : outside "}". Proof. split; [reflexivity|no_char]. Qed.
Lemma id_chars : forall x id, outside x -> ~ contains x (disp_BlockId id).
Proof. intros x id H. unfold disp_BlockId, disp_OpId. apply not_app; piece. Qed.
Lemma lf_sel : forall id h w, lf_free (sel_header id h w).
Proof.
  intros id h w. unfold sel_header. apply lf_app; [lf|]. apply lf_app; [apply id_chars; exact outside_lf|].
  apply lf_app; [apply hint_sel_chars; exact outside_lf|]. apply lf_app; [apply weights_chars; exact outside_lf|lf].
Qed.
Lemma lf_loop : forall id h w, lf_free (loop_header_text id h w).
Proof.
  intros id h w. unfold loop_header_text. apply lf_app; [lf|]. apply lf_app; [apply id_chars; exact outside_lf|].
  apply lf_app; [apply hint_loop_chars; exact outside_lf|]. apply lf_app; [apply weights_chars; exact outside_lf|lf].
Qed.

(** Hints and weights can be told apart. *)
Lemma bracket_split : forall a b s t, ~ contains "]" a -> ~ contains "]" b -> a ++ "]" ++ s = b ++ "]" ++ t -> a = b /\ s = t.
Proof.
  induction a as [|x a IH]; intros [|y b] s t A B H.
  - injection H as ->. auto.
  - exfalso. cbn in H. injection H as H _. apply B. left. symmetry. exact H.
  - exfalso. cbn in H. injection H as H _. apply A. left. exact H.
  - cbn [append] in H. injection H as -> H. cbn [contains] in A, B. destruct (IH b s t) as [-> ->]; tauto.
Qed.

Lemma decimal_first : forall n x s t, digit x = None -> decimal n ++ s = String x t -> False.
Proof.
  intros n x s t D H. destruct (decimal_shortest n) as (Ne & _). pose proof (decimal_not n x D) as C.
  destruct (decimal n) as [|c u]; [apply Ne; reflexivity|]. injection H as -> _. apply C. left. reflexivity.
Qed.

Lemma weights_inj : forall w w' s s', (s = "" /\ s' = "") \/ (exists t t', s = " {" ++ t /\ s' = " {" ++ t') ->
  weights_text w ++ s = weights_text w' ++ s' -> w = w' /\ s = s'.
Proof.
  intros [w|] [w'|] s s' S H; unfold weights_text in H.
  - rewrite !sapp_assoc in H. apply sapp_cancel in H. unfold disp_BranchWeights in H. rewrite !sapp_assoc in H.
    apply u32_token in H; [|apply stop_blank..]. destruct H as [H1 H]. apply sapp_cancel in H.
    apply bracket_split in H; [|apply decimal_not; reflexivity..]. destruct H as [H2 ->]. apply u32_inj in H2.
    destruct w, w'; cbn in *; subst. auto.
  - exfalso. destruct S as [[-> ->]|(t & t' & -> & ->)]; discriminate H.
  - exfalso. destruct S as [[-> ->]|(t & t' & -> & ->)]; discriminate H.
  - auto.
Qed.

Lemma hints_sel : forall h h' w w', hint_text_sel h ++ weights_text w = hint_text_sel h' ++ weights_text w' -> h = h' /\ w = w'.
Proof.
  assert (W : forall (w w' : option BranchWeights), weights_text w = weights_text w' -> w = w').
  { intros w w' H. apply (weights_inj w w' "" ""); [left; auto|]. rewrite !sapp_nil. exact H. }
  intros [[] []] [[] []] w w' H; unfold hint_text_sel, selection_is_default in H; cbn -[weights_text] in H;
    try (injection H as H; apply W in H; auto; fail); try (apply W in H; auto; fail); exfalso; try discriminate H.
  all: match type of H with _ = weights_text ?w => symmetry in H | _ => idtac end.
  all: match type of H with weights_text ?w = _ => destruct w as [[a b]|]; [|discriminate H] end.
  all: cbn -[decimal disp_u32] in H; injection H as H; unfold disp_BranchWeights in H; rewrite ?sapp_assoc in H; cbn -[disp_u32 append] in H;
    apply decimal_first in H; [exact H|reflexivity].
Qed.

Lemma weights_only : forall w w' : option BranchWeights, weights_text w = weights_text w' -> w = w'.
Proof. intros w w' H. apply (weights_inj w w' "" ""); [left; auto|]. rewrite !sapp_nil. exact H. Qed.

Lemma loop_no_bracket : forall h, ~ contains "]" (disp_LoopControl h).
Proof.
  intros [[] [] [] [n|]]; unfold disp_LoopControl; cbn -[append disp_u32 contains]; repeat apply not_app;
    first [apply decimal_not; reflexivity|no_char].
Qed.
Lemma loop_default : forall h, loop_is_default h = true -> h = Build_LoopControl false false false None.
Proof. intros [[] [] [] [n|]]; try discriminate. reflexivity. Qed.
Lemma loop_first : forall h, exists x s, digit x = None /\ disp_LoopControl h = String x s.
Proof. intros [[] [] [] [n|]]; do 2 eexists; (split; [|reflexivity]); reflexivity. Qed.

Lemma hints_loop_half : forall h w w', loop_is_default h = false -> hint_text_loop h ++ weights_text w = weights_text w' -> False.
Proof.
  intros h w w' D H. unfold hint_text_loop in H. rewrite D in H. destruct w' as [w'|]; [|discriminate H].
  unfold weights_text at 2 in H. rewrite !sapp_assoc in H. apply sapp_cancel in H. destruct (loop_first h) as (x & s & X & Q).
  rewrite Q in H. symmetry in H. unfold disp_BranchWeights in H. rewrite !sapp_assoc in H. cbn [append] in H.
  apply decimal_first in H; [exact H|exact X].
Qed.

Lemma hints_loop : forall h h' w w', hint_text_loop h ++ weights_text w = hint_text_loop h' ++ weights_text w' -> h = h' /\ w = w'.
Proof.
  intros h h' w w' H. destruct (loop_is_default h) eqn:D, (loop_is_default h') eqn:D'.
  - unfold hint_text_loop in H. rewrite D, D' in H. apply weights_only in H. apply loop_default in D, D'. subst. auto.
  - exfalso. symmetry in H. unfold hint_text_loop at 2 in H. rewrite D in H. exact (hints_loop_half _ _ _ D' H).
  - exfalso. unfold hint_text_loop at 2 in H. rewrite D' in H. exact (hints_loop_half _ _ _ D H).
  - unfold hint_text_loop in H. rewrite D, D', !sapp_assoc in H. apply sapp_cancel in H.
    apply bracket_split in H; [|apply loop_no_bracket..]. destruct H as [H1 H2]. apply loop_control_inj in H1. apply weights_only in H2. auto.
Qed.

Lemma stop_header : forall a w, (a = "" \/ exists s, a = " [" ++ s) -> stop (a ++ weights_text w).
Proof.
  intros a w [->|(s & ->)]; [|right; eexists; reflexivity]. destruct w; [right; eexists; reflexivity|left; reflexivity].
Qed.
Lemma stop_sel : forall h w, stop (hint_text_sel h ++ weights_text w).
Proof. intros h w. apply stop_header. unfold hint_text_sel. destruct (selection_is_default h); [left; reflexivity|right; eexists; reflexivity]. Qed.
Lemma stop_loop : forall h w, stop (hint_text_loop h ++ weights_text w).
Proof. intros h w. apply stop_header. unfold hint_text_loop. destruct (loop_is_default h); [left; reflexivity|right; eexists; reflexivity]. Qed.

Lemma sel_header_inj : forall id h w id' h' w', sel_header id h w = sel_header id' h' w' -> id = id' /\ h = h' /\ w = w'.
Proof.
  intros id h w id' h' w' H. unfold sel_header in H. apply sapp_cancel in H. rewrite <- !sapp_assoc in H. apply sapp_cancel_r in H.
  rewrite !sapp_assoc in H. apply id_token in H; [|apply stop_sel..]. destruct H as [-> H]. apply hints_sel in H. tauto.
Qed.
Lemma loop_header_inj : forall id h w id' h' w', loop_header_text id h w = loop_header_text id' h' w' -> id = id' /\ h = h' /\ w = w'.
Proof.
  intros id h w id' h' w' H. unfold loop_header_text in H. apply sapp_cancel in H. rewrite <- !sapp_assoc in H. apply sapp_cancel_r in H.
  rewrite !sapp_assoc in H. apply id_token in H; [|apply stop_loop..]. destruct H as [-> H]. apply hints_loop in H. tauto.
Qed.

Definition else_text (rhs : ControlFlowChain) (n : nat) : string :=
  if is_empty_block rhs then "" else write_indent n ++ "} else {" ++ nl ++ chain_fmt_indent rhs (S n).
Lemma selection_text : forall id lhs rhs h w n, chain_fmt_indent (Selection id lhs rhs h w) n
  = write_indent n ++ sel_header id h w ++ nl ++ chain_fmt_indent lhs (S n) ++ else_text rhs n ++ write_indent n ++ "}" ++ nl.
Proof. intros. cbn [chain_fmt_indent]. unfold sel_header, else_text. rewrite !sapp_assoc. reflexivity. Qed.
Lemma loop_text : forall id inner h w n, chain_fmt_indent (Loop id inner h w) n
  = write_indent n ++ loop_header_text id h w ++ nl ++ chain_fmt_indent inner (S n) ++ write_indent n ++ "}" ++ nl.
Proof. intros. cbn [chain_fmt_indent]. unfold loop_header_text. rewrite !sapp_assoc. reflexivity. Qed.

Lemma term_close : forall n s, term (S n) (write_indent n ++ "}" ++ s).
Proof. intros n s. right. exists n, s. split; [lia|reflexivity]. Qed.
Lemma term_else : forall rhs n s, term (S n) (else_text rhs n ++ write_indent n ++ "}" ++ s).
Proof.
  intros rhs n s. unfold else_text. destruct (is_empty_block rhs); [apply term_close|]. rewrite !sapp_assoc.
  right. exists n. eexists. split; [lia|]. reflexivity.
Qed.

Lemma text_steps : forall k l l' n r r', String.length (texts l n ++ r) <= k -> Forall loose l -> Forall loose l' -> term n r -> term n r' ->
  texts l n ++ r = texts l' n ++ r' -> flat_map steps l = flat_map steps l' /\ r = r'.
Proof.
  induction k as [k IH] using (well_founded_induction Wf_nat.lt_wf). intros l l' n r r' K L L' R R' H.
  assert (IHc : forall c c' m s s', String.length (chain_fmt_indent c m ++ s) < k -> term m s -> term m s' ->
    chain_fmt_indent c m ++ s = chain_fmt_indent c' m ++ s' -> steps c = steps c' /\ s = s').
  { intros c c' m s s' Km S S' Hc. rewrite !text_leaves in Hc. rewrite text_leaves in Km. rewrite <- (steps_leaves c), <- (steps_leaves c').
    apply (IH _ Km _ _ _ _ _ (le_n _) (leaves_loose c) (leaves_loose c') S S' Hc). }
  destruct l as [|x l], l' as [|x' l'].
  - auto.
  - exfalso. inversion L'; subst. destruct (text_first x' n) as (a & s & Q & A); [assumption|]. cbn [texts] in H. rewrite Q, !sapp_assoc in H.
    exact (term_first n r _ _ R A H).
  - exfalso. inversion L; subst. destruct (text_first x n) as (a & s & Q & A); [assumption|]. cbn [texts] in H. rewrite Q, !sapp_assoc in H.
    exact (term_first n r' _ _ R' A (eq_sym H)).
  - inversion L as [|? ? Lx Ll]; subst. inversion L' as [|? ? Lx' Ll']; subst. cbn [texts] in H, K. cbn [flat_map]. rewrite !sapp_assoc in H, K.
    assert (Tail : forall a a' : list ControlFlowChain, a = a' -> texts l n ++ r = texts l' n ++ r' -> String.length (texts l n ++ r) < k ->
      (a ++ flat_map steps l)%list = (a' ++ flat_map steps l')%list /\ r = r').
    { intros a a' -> Hl Kl. destruct (IH _ Kl _ _ _ _ _ (le_n _) Ll Ll' R R' Hl) as [-> ->]. auto. }
    destruct x, x'; try contradiction Lx; try contradiction Lx'; repeat rewrite selection_text in H; repeat rewrite loop_text in H; repeat rewrite selection_text in K; repeat rewrite loop_text in K; cbn [chain_fmt_indent] in H, K;
      rewrite !sapp_assoc in H; rewrite !sapp_assoc in K; apply sapp_cancel in H; try discriminate H.
    + apply lf_split in H; [|apply id_chars; exact outside_lf..]. destruct H as [H1 H2]. apply (token_inj _ _ id_token) in H1. subst.
      apply Tail; [reflexivity|exact H2|]. rewrite !slength_app in K. rewrite slength_app. cbn in K. lia.
    + apply lf_split in H; [|apply lf_sel..]. destruct H as [H1 H]. apply sel_header_inj in H1. destruct H1 as (-> & -> & ->).
      rewrite !slength_app in K. unfold sel_header in K. cbn [append String.length] in K.
      apply IHc in H; [|rewrite !slength_app; cbn [String.length]; lia|apply term_else..]. destruct H as [Hl H].
      cbn [steps]. rewrite Hl.
      assert (Hr : steps x2 = steps x'2 /\ texts l n ++ r = texts l' n ++ r').
      { unfold else_text in H, K. destruct (is_empty_block x2) eqn:B, (is_empty_block x'2) eqn:B'.
        - destruct x2 as [|[]| | | |], x'2 as [|[]| | | |]; try discriminate B; try discriminate B'. split; [reflexivity|].
          cbn [append] in H. apply sapp_cancel in H. injection H as H. exact H.
        - exfalso. cbn [append] in H. rewrite !sapp_assoc in H. apply sapp_cancel in H. discriminate H.
        - exfalso. cbn [append] in H. rewrite !sapp_assoc in H. apply sapp_cancel in H. discriminate H.
        - rewrite !sapp_assoc in H. do 2 apply sapp_cancel in H. apply sapp_cancel in H.
          rewrite !slength_app in K. cbn [append String.length] in K.
          apply IHc in H; [|rewrite !slength_app; cbn [String.length]; lia|apply term_close..]. destruct H as [Hr H].
          split; [exact Hr|]. apply sapp_cancel in H. injection H as H. exact H. }
      destruct Hr as [Hr Ht]. rewrite Hr. apply Tail; [reflexivity|exact Ht|]. rewrite slength_app. lia.
    + apply lf_split in H; [|apply lf_loop..]. destruct H as [H1 H]. apply loop_header_inj in H1. destruct H1 as (-> & -> & ->).
      rewrite !slength_app in K. unfold loop_header_text in K. cbn [append String.length] in K.
      apply IHc in H; [|rewrite !slength_app; cbn [String.length]; lia|apply term_close..]. destruct H as [Hl H].
      cbn [steps]. rewrite Hl. apply sapp_cancel in H. injection H as H. apply Tail; [reflexivity|exact H|]. rewrite slength_app. lia.
    + injection H as H. apply Tail; [reflexivity|exact H|]. rewrite !slength_app in K. rewrite slength_app. cbn in K. lia.
    + injection H as H. apply Tail; [reflexivity|exact H|]. rewrite !slength_app in K. rewrite slength_app. cbn in K. lia.
Qed.

Theorem chain_text_steps : forall c c', disp_ControlFlowChain c = disp_ControlFlowChain c' -> steps c = steps c'.
Proof.
  intros c c' H. unfold disp_ControlFlowChain in H. rewrite !text_leaves in H. rewrite <- (steps_leaves c), <- (steps_leaves c').
  eapply (text_steps _ _ _ 0 "" "" (le_n _)); try apply leaves_loose; try (left; reflexivity). rewrite !sapp_nil. exact H.
Qed.

(** ** Chains returned by the search are determined by their steps *)
Definition exit_mark (c : ControlFlowChain) : Prop := c = Break \/ c = Continue.
Definition leave (c : ControlFlowChain) : Prop := match c with Selection _ _ rhs _ _ => exit_mark rhs | _ => False end.

Inductive Element : ControlFlowChain -> Prop :=
| El_atom : forall id, Element (Atom id)
| El_selection : forall id lhs rhs h w, Normal_form false lhs -> Normal_form false rhs -> Element (Selection id lhs rhs h w)
| El_leave : forall id lhs rhs h w, Normal_form false lhs -> exit_mark rhs -> Element (Selection id lhs rhs h w)
| El_loop : forall id inner h w, Normal_form false inner -> Element (Loop id inner h w)
with Normal_form : bool -> ControlFlowChain -> Prop :=
| Nf_atom : forall id, Normal_form true (Atom id)
| Nf_leave : forall c, leave c -> Element c -> Normal_form false c
| Nf_block : forall (returns : bool) l, Forall Element l -> (returns = true -> 2 <= length l) -> (forall x, l = [x] -> ~ leave x) ->
    Normal_form returns (Block l).

Lemma element_steps : forall c, Element c -> exists s, steps c = [s].
Proof. intros c []; eexists; reflexivity. Qed.
Lemma normal_not_mark : forall r c, Normal_form r c -> ~ exit_mark c.
Proof. intros r c H [->| ->]; inversion H; subst; contradiction. Qed.

Lemma steps_normal : forall c,
  (forall c', Element c -> Element c' -> steps c = steps c' -> c = c')
  /\ (forall r c', Normal_form r c -> Normal_form r c' -> steps c = steps c' -> c = c').
Proof.
  assert (Marks : forall c r, Normal_form r c -> steps c <> [Break] /\ steps c <> [Continue]).
  { intros c r N. inversion N as [id|? Lv El|? l Fl]; subst.
    - split; discriminate.
    - destruct c; try contradiction Lv. split; discriminate.
    - cbn [steps]. destruct Fl as [|x l Ex El]; [split; discriminate|]. destruct (element_steps x Ex) as (s & Q).
      cbn [flat_map]. inversion Ex; subst; cbn [steps] in *; split; discriminate. }
  induction c as [id|l IH|id lhs rhs h w IHl IHr|id inner h w IHi| |] using chain_ind'.
  - split.
    + intros c' _ L' H. inversion L'; subst; try discriminate H. injection H as ->. reflexivity.
    + intros r c' N N' H. inversion N; subst; [|contradiction]. inversion N'; subst; try discriminate H.
      * injection H as ->. reflexivity.
      * exfalso. cbn [steps] in H. match goal with F : Forall Element l |- _ => destruct F as [|x ? Ex Fl] end; [discriminate H|].
        destruct Fl as [|y ? Ey Fl].
        -- match goal with Q : true = true -> _ |- _ => specialize (Q eq_refl); cbn in Q; lia end.
        -- destruct (element_steps x Ex) as (s & Q1), (element_steps y Ey) as (t & Q2). cbn [flat_map] in H. rewrite Q1, Q2 in H. discriminate H.
  - assert (Lists : forall l', Forall Element l -> Forall Element l' -> flat_map steps l = flat_map steps l' -> l = l').
    { induction IH as [|x l Hx IH IHl]; intros [|y l'] F F' H; inversion F; subst; inversion F'; subst; cbn [flat_map] in H.
      - reflexivity.
      - destruct (element_steps y) as (s & Q); [assumption|]. rewrite Q in H. discriminate H.
      - destruct (element_steps x) as (s & Q); [assumption|]. rewrite Q in H. discriminate H.
      - destruct (element_steps x) as (s & Q); [assumption|]. destruct (element_steps y) as (s' & Q'); [assumption|].
        rewrite Q, Q' in H. injection H as Hs H. f_equal.
        + apply (proj1 Hx); [assumption..|]. congruence.
        + apply IHl; assumption. }
    split.
    + intros c' L. inversion L.
    + intros r c' N N' H. inversion N as [|? Lv|? ? Fl Len Sg]; subst; [contradiction Lv|].
      inversion N' as [id'|? Lv El|? l' Fl' Len' Sg']; subst.
      * exfalso. cbn [steps] in H. specialize (Len eq_refl). destruct Fl as [|x ? Ex Fl]; [discriminate H|]. destruct Fl as [|y ? Ey Fl]; [cbn in Len; lia|].
        destruct (element_steps x Ex) as (s & Q1), (element_steps y Ey) as (t & Q2). cbn [flat_map] in H. rewrite Q1, Q2 in H. discriminate H.
      * exfalso. assert (l = [c']) by (apply Lists; [exact Fl|constructor; [exact El|constructor]|cbn [flat_map]; rewrite app_nil_r; exact H]).
        exact (Sg _ H0 Lv).
      * f_equal. apply Lists; assumption.
  - assert (Arms : forall c', Element (Selection id lhs rhs h w) -> Element c' -> steps (Selection id lhs rhs h w) = steps c' -> Selection id lhs rhs h w = c').
    { intros c' L L' H. inversion L'; subst; try discriminate H; cbn [steps] in H; injection H as -> Hl Hr -> ->;
      inversion L; subst; (f_equal; [apply (proj2 IHl false); assumption|]).
      - apply (proj2 IHr false); assumption.
      - exfalso. match goal with M : exit_mark rhs |- _ => destruct M as [->| ->] end; cbn [steps] in Hr;
          match goal with N : Normal_form false rhs0 |- _ => apply Marks in N; destruct N as [N1 N2] end; congruence.
      - exfalso. match goal with M : exit_mark rhs0 |- _ => destruct M as [->| ->] end; cbn [steps] in Hr;
          match goal with N : Normal_form false rhs |- _ => apply Marks in N; destruct N as [N1 N2] end; congruence.
      - repeat match goal with M : exit_mark _ |- _ => destruct M as [->| ->] end; cbn [steps] in Hr; congruence. }
    split; [exact Arms|].
    intros r c' N N' H. inversion N as [|? Lv El|]; subst. inversion N' as [|? Lv' El'|? l' Fl' Len' Sg']; subst.
    + apply Arms; assumption.
    + exfalso. cbn [steps] in H. destruct Fl' as [|x ? Ex Fl']; [discriminate H|]. destruct (element_steps x Ex) as (s & Q). cbn [flat_map] in H.
      rewrite Q in H. destruct Fl' as [|y ? Ey Fl'].
      * cbn [flat_map app] in H. apply (Sg' x eq_refl). rewrite <- (Arms x El Ex); [exact Lv|]. cbn [steps]. rewrite H. congruence.
      * destruct (element_steps y Ey) as (t & Q2). cbn [flat_map] in H. rewrite Q2 in H. discriminate H.
  - split.
    + intros c' L L' H. inversion L; subst. inversion L'; subst; try discriminate H. cbn [steps] in H. injection H as -> Hi -> ->.
      f_equal. apply (proj2 IHi false); assumption.
    + intros r c' N N' H. inversion N as [|? Lv|]; subst. contradiction Lv.
  - split; [intros c' L; inversion L|]. intros r c' N. exfalso. exact (normal_not_mark _ _ N (or_introl eq_refl)).
  - split; [intros c' L; inversion L|]. intros r c' N. exfalso. exact (normal_not_mark _ _ N (or_intror eq_refl)).
Qed.

Definition returning (n : Cont) : bool := match n with Cont_Return => true | _ => false end.

Lemma normal_items : forall r c, Normal_form r c -> Forall Element (items c) /\ (r = true -> 1 <= length (items c)).
Proof.
  intros r c N. inversion N as [id|? Lv El|? l Fl Len]; subst.
  - split; [repeat constructor|]. cbn. lia.
  - destruct c; try contradiction Lv. cbn [items]. split; [constructor; [exact El|constructor]|]. discriminate.
  - cbn [items]. split; [exact Fl|]. intro R. specialize (Len R). lia.
Qed.

Lemma normal_block : forall r x c, Element x -> ~ leave x -> items x = [x] -> Normal_form r c -> Normal_form r (block [x; c]).
Proof.
  intros r x c El Lv I N. rewrite block2, I. destruct (normal_items _ _ N) as [F L]. constructor.
  - constructor; assumption.
  - intro R. specialize (L R). cbn. lia.
  - intros y H. cbn in H. injection H as -> _. exact Lv.
Qed.

Lemma Search_normal : forall E (f : FunctionDefinition E) fl id c n, Search f fl id c n -> Normal_form (returning n) c.
Proof.
  intros E f fl id c n H. induction H.
  - constructor; [constructor| |]; discriminate.
  - constructor.
  - apply normal_block; [constructor|intros []|reflexivity|exact IHSearch].
  - apply normal_block; [constructor; exact IHSearch1|intros []|reflexivity|exact IHSearch2].
  - apply normal_block; [constructor; assumption| |reflexivity|assumption]. intro L. exact (normal_not_mark _ _ IHSearch2 L).
  - apply Nf_leave; [|apply El_leave; [exact IHSearch|]]; destruct is_break; cbn; [left|right|left|right]; reflexivity.
Qed.

Theorem chain_text_faithful : forall E E' (f : FunctionDefinition E) (f' : FunctionDefinition E') depth depth' c c',
  find_control_flow depth f = Ok c -> find_control_flow depth' f' = Ok c' -> disp_ControlFlowChain c = disp_ControlFlowChain c' -> c = c'.
Proof.
  intros E E' f f' depth depth' c c' H H' T. apply find_inv in H, H'. apply chain_text_steps in T.
  destruct H as (_ & s & _ & _ & H), H' as (_ & s' & _ & _ & H'). apply Search_normal in H, H'.
  exact (proj2 (steps_normal c) true c' H H' T).
Qed.

(** ** Braces *)
Definition brace_free (s : string) : Prop := ~ contains "{" s /\ ~ contains "}" s.
Lemma depth_free : forall s d r, brace_free s -> brace_depth d (s ++ r) = brace_depth d r.
Proof.
  induction s as [|c s IH]; intros d r [A B]; [reflexivity|]. cbn [append brace_depth]. cbn [contains] in A, B.
  destruct (Ascii.eqb_spec c "{") as [->|_]; [tauto|]. destruct (Ascii.eqb_spec c "}") as [->|_]; [tauto|]. apply IH. split; tauto.
Qed.
Lemma free_app : forall a b, brace_free a -> brace_free b -> brace_free (a ++ b).
Proof. intros a b [A1 A2] [B1 B2]. split; apply not_app; assumption. Qed.
Lemma free_indent : forall n, brace_free (write_indent n).
Proof. induction n as [|n IH]; [split; intros []|]. cbn [write_indent]. apply free_app; [split; no_char|exact IH]. Qed.
Lemma free_id : forall id, brace_free (disp_BlockId id).
Proof. intro id. split; apply id_chars; [exact outside_open|exact outside_close]. Qed.
Lemma free_weights : forall w, brace_free (weights_text w).
Proof. intro id. split; apply weights_chars; [exact outside_open|exact outside_close]. Qed.
Lemma free_sel : forall h, brace_free (hint_text_sel h).
Proof. intro id. split; apply hint_sel_chars; [exact outside_open|exact outside_close]. Qed.
Lemma free_loop : forall h, brace_free (hint_text_loop h).
Proof. intro id. split; apply hint_loop_chars; [exact outside_open|exact outside_close]. Qed.

Lemma depth_sel : forall id h w d r, brace_depth d (sel_header id h w ++ nl ++ r) = brace_depth (S d) r.
Proof.
  intros. unfold sel_header. rewrite !sapp_assoc. rewrite depth_free by (split; no_char). rewrite depth_free by apply free_id.
  rewrite depth_free by apply free_sel. rewrite depth_free by apply free_weights. reflexivity.
Qed.
Lemma depth_loop : forall id h w d r, brace_depth d (loop_header_text id h w ++ nl ++ r) = brace_depth (S d) r.
Proof.
  intros. unfold loop_header_text. rewrite !sapp_assoc. rewrite depth_free by (split; no_char). rewrite depth_free by apply free_id.
  rewrite depth_free by apply free_loop. rewrite depth_free by apply free_weights. reflexivity.
Qed.

Lemma text_braces : forall c n d r, brace_depth d (chain_fmt_indent c n ++ r) = brace_depth d r.
Proof.
  induction c as [id|l IH|id lhs rhs h w IHl IHr|id inner h w IHi| |] using chain_ind'; intros n d r.
  - cbn [chain_fmt_indent]. rewrite !sapp_assoc, depth_free by apply free_indent. rewrite depth_free by apply free_id. reflexivity.
  - rewrite text_block. induction IH as [|x l Hx IH IHl]; [reflexivity|]. cbn [texts]. rewrite sapp_assoc, Hx. exact IHl.
  - rewrite selection_text, !sapp_assoc, depth_free by apply free_indent. rewrite depth_sel, IHl.
    assert (Else : brace_depth (S d) (else_text rhs n ++ write_indent n ++ "}" ++ nl ++ r) = brace_depth (S d) (write_indent n ++ "}" ++ nl ++ r)).
    { unfold else_text. destruct (is_empty_block rhs); [reflexivity|]. rewrite !sapp_assoc, depth_free by apply free_indent.
      change (brace_depth (S d) (chain_fmt_indent rhs (S n) ++ write_indent n ++ "}" ++ nl ++ r) = brace_depth (S d) (write_indent n ++ "}" ++ nl ++ r)).
      apply IHr. }
    rewrite Else, depth_free by apply free_indent. reflexivity.
  - rewrite loop_text, !sapp_assoc, depth_free by apply free_indent. rewrite depth_loop, IHi, depth_free by apply free_indent. reflexivity.
  - cbn [chain_fmt_indent]. rewrite !sapp_assoc, depth_free by apply free_indent. reflexivity.
  - cbn [chain_fmt_indent]. rewrite !sapp_assoc, depth_free by apply free_indent. reflexivity.
Qed.
Theorem chain_braces : forall c, brace_depth 0 (disp_ControlFlowChain c) = Some 0.
Proof. intro c. unfold disp_ControlFlowChain. rewrite <- (sapp_nil (chain_fmt_indent c 0)), text_braces. reflexivity. Qed.

(** ** Nesting *)
Lemma opening_app : forall s, opening (s ++ "{") = true.
Proof. induction s as [|c s IH]; [reflexivity|]. cbn [append opening]. destruct (s ++ "{") eqn:Q; [destruct s; discriminate Q|exact IH]. Qed.
Lemma opening_free : forall s, brace_free s -> opening s = false.
Proof.
  induction s as [|c s IH]; intros [A B]; [reflexivity|]. cbn [opening]. cbn [contains] in A, B. destruct s as [|c' s].
  - destruct (Ascii.eqb_spec c "{") as [->|_]; [tauto|reflexivity].
  - apply IH. split; tauto.
Qed.

Lemma lf_indent : forall n, lf_free (write_indent n).
Proof. induction n as [|n IH]; [intros []|]. cbn [write_indent]. apply lf_app; [lf|exact IH]. Qed.

Lemma nested_line : forall n outer body r, lf_free body -> (if closing body then n = S outer else n = outer) -> (forall s, body <> String " " s) ->
  nested (if opening body then S outer else outer) (lines r) -> nested n (lines (write_indent outer ++ body ++ nl ++ r)).
Proof.
  intros n outer body r L C B N. replace (write_indent outer ++ body ++ nl ++ r) with ((write_indent outer ++ body) ++ nl ++ r) by (rewrite !sapp_assoc; reflexivity).
  rewrite lines_one by (apply lf_app; [apply lf_indent|exact L]). cbn [nested]. exists outer, body.
  split; [exact C|]. split; [rewrite indent_blanks; reflexivity|]. split; [exact B|exact N].
Qed.

Lemma text_nested : forall c n r, nested n (lines r) -> nested n (lines (chain_fmt_indent c n ++ r)).
Proof.
  induction c as [id|l IH|id lhs rhs h w IHl IHr|id inner h w IHi| |] using chain_ind'; intros n r N.
  - cbn [chain_fmt_indent]. rewrite !sapp_assoc. apply nested_line; [apply id_chars; exact outside_lf|reflexivity|discriminate|].
    rewrite opening_free by apply free_id. exact N.
  - rewrite text_block. induction IH as [|x l Hx IH IHl]; [exact N|]. cbn [texts]. rewrite sapp_assoc. apply Hx. exact IHl.
  - rewrite selection_text, !sapp_assoc. apply nested_line; [apply lf_sel|reflexivity|discriminate|].
    replace (opening (sel_header id h w)) with true.
    2: { unfold sel_header. change " {" with (" " ++ "{"). rewrite <- !sapp_assoc. symmetry. apply opening_app. }
    apply IHl.
    assert (Close : nested (S n) (lines (write_indent n ++ "}" ++ nl ++ r))) by (apply nested_line; [lf|reflexivity|discriminate|exact N]).
    unfold else_text. destruct (is_empty_block rhs); [exact Close|]. rewrite !sapp_assoc.
    apply nested_line; [lf|reflexivity|discriminate|]. apply IHr. exact Close.
  - rewrite loop_text, !sapp_assoc. apply nested_line; [apply lf_loop|reflexivity|discriminate|].
    replace (opening (loop_header_text id h w)) with true.
    2: { unfold loop_header_text. change " {" with (" " ++ "{"). rewrite <- !sapp_assoc. symmetry. apply opening_app. }
    apply IHi. apply nested_line; [lf|reflexivity|discriminate|exact N].
  - cbn [chain_fmt_indent]. rewrite !sapp_assoc. apply nested_line; [lf|reflexivity|discriminate|exact N].
  - cbn [chain_fmt_indent]. rewrite !sapp_assoc. apply nested_line; [lf|reflexivity|discriminate|exact N].
Qed.
Theorem chain_nested : forall c, nested 0 (lines (disp_ControlFlowChain c)).
Proof. intro c. unfold disp_ControlFlowChain. rewrite <- (sapp_nil (chain_fmt_indent c 0)). apply text_nested. reflexivity. Qed.
