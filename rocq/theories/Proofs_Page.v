(** The printed texts, exactly and without conditions on line feeds (C52, C60, C64). *)
From Coq Require Import Lia.
From Verif Require Import Base Types Ops Groups ControlFlow DisplayBase DisplayTypes DisplayOps DisplayModule DisplayFlow
  Spec_Wire Spec_Layout Spec_Flow Spec_Names Spec_Text Spec_Page Proofs_Flow Proofs_Text Proofs_Text2 Proofs_Text3 Proofs_Text4 Proofs_Text5.
Local Open Scope string_scope.

Lemma page_app : forall a b, page (a ++ b) = page a ++ page b.
Proof. induction a as [|x a IH]; intro b; [reflexivity|]. cbn [page app]. rewrite IH, sapp_assoc. reflexivity. Qed.
Lemma page_one : forall l, page [l] = l ++ nl.
Proof. reflexivity. Qed.
Lemma page_cons : forall l ls, page (l :: ls) = l ++ nl ++ page ls.
Proof. reflexivity. Qed.

Lemma module_page : forall E (d : E -> string) (m : RawModule E),
  disp_RawModule d m = page (header_lines m ++ map (disp_Core d) (RawModule_instructions m)).
Proof.
  intros E d m. unfold disp_RawModule, header_lines. rewrite generator_ok, page_app. rewrite !page_cons. rewrite !sapp_assoc.
  repeat apply (f_equal2 append); try reflexivity.
  induction (RawModule_instructions m) as [|i l IH]; [reflexivity|]. cbn [disp_instructions map]. rewrite IH. reflexivity.
Qed.

Lemma page_at : forall n body, page [indented n body] = write_indent n ++ body ++ nl.
Proof. intros n body. rewrite page_one. unfold indented. rewrite <- indent_blanks, sapp_assoc. reflexivity. Qed.

Lemma chain_page_at : forall c n, chain_fmt_indent c n = page (chain_lines n c).
Proof.
  induction c as [id|l IH|id lhs rhs h w IHl IHr|id inner h w IHi| |] using chain_ind'; intro n.
  - cbn [chain_fmt_indent chain_lines]. rewrite page_at. reflexivity.
  - rewrite text_block. cbn [chain_lines]. induction IH as [|x l Hx IH IHl]; [reflexivity|]. cbn [texts flat_map]. rewrite page_app, Hx, IHl. reflexivity.
  - rewrite selection_text. cbn [chain_lines]. rewrite !page_app, !page_at, <- !IHl, empty_else. unfold else_text, sel_header. rewrite selection_note_ok, weights_note_ok.
    destruct (is_empty_block rhs).
    + unfold disp_BlockId, disp_OpId. rewrite !sapp_assoc. reflexivity.
    + rewrite (page_app [indented n "} else {"] (chain_lines (S n) rhs)) || change (indented n "} else {" :: chain_lines (S n) rhs) with ([indented n "} else {"] ++ chain_lines (S n) rhs)%list.
      rewrite page_app, page_at, <- IHr. unfold disp_BlockId, disp_OpId. rewrite !sapp_assoc. reflexivity.
  - rewrite loop_text. cbn [chain_lines]. rewrite !page_app, !page_at, <- !IHi. unfold loop_header_text. rewrite loop_note_ok, weights_note_ok.
    unfold disp_BlockId, disp_OpId. rewrite !sapp_assoc. reflexivity.
  - cbn [chain_fmt_indent chain_lines]. rewrite page_at. reflexivity.
  - cbn [chain_fmt_indent chain_lines]. rewrite page_at. reflexivity.
Qed.
Lemma chain_page : forall c, disp_ControlFlowChain c = page (chain_lines 0 c).
Proof. intro c. apply chain_page_at. Qed.

Section Printer.
Context {E : Type} (d : E -> string) (f : FunctionDefinition E).

Lemma code_page : forall n l, code_lines d n l = page (map (fun i => indented n (">>> " ++ disp_Core d i)) (map core_of_code l)).
Proof.
  induction l as [|g l IH]; [reflexivity|]. cbn [code_lines map]. rewrite page_cons, IH, code_text. unfold indented. rewrite <- indent_blanks, !sapp_assoc. reflexivity.
Qed.

Lemma block_page : forall n id, unique f id -> fmt_block_indent d f n id = Ok (page (block_lines (disp_Core d) f n id)).
Proof.
  intros n id U. unfold fmt_block_indent, block_lines. rewrite find_block_count. destruct (block_unique f id U) as (b & F & I).
  unfold unique, labels in U. rewrite U. cbn [bind]. rewrite F. unfold block_of in F. rewrite F. f_equal.
  rewrite map_app, !page_app, !page_at, <- code_page, !sapp_assoc. cbn [map]. rewrite page_at, (branch_text d), !sapp_assoc. reflexivity.
Qed.

Lemma printer_page_at : forall c n, (forall id, In id (chain_ids c) -> unique f id) ->
  printer_fmt_indent d f c n = Ok (page (function_lines (disp_Core d) f n c)).
Proof.
  induction c as [id|l IH|id lhs rhs h w IHl IHr|id inner h w IHi| |] using chain_ind'; intros n U; cbn [printer_fmt_indent function_lines chain_ids] in *.
  - apply block_page. apply U. left. reflexivity.
  - induction IH as [|x l Hx IH IHl]; [reflexivity|].
    cbn [flat_map] in *. rewrite Hx by (intros id I; apply U; apply in_or_app; left; exact I).
    rewrite IHl by (intros id I; apply U; apply in_or_app; right; exact I). cbn [bind]. rewrite page_app. reflexivity.
  - rewrite block_page by (apply U; left; reflexivity).
    rewrite IHl by (intros x I; apply U; right; apply in_or_app; left; exact I).
    rewrite IHr by (intros x I; apply U; right; apply in_or_app; right; exact I). cbn [bind].
    rewrite !page_app, !page_at, page_one, empty_else, selection_note_ok, weights_note_ok. unfold indented at 1. rewrite <- indent_blanks.
    destruct (is_empty_block rhs); cbn [bind]; f_equal.
    + rewrite !sapp_assoc. reflexivity.
    + rewrite page_cons. unfold indented at 1. rewrite <- indent_blanks, !sapp_assoc. reflexivity.
  - rewrite block_page by (apply U; left; reflexivity).
    rewrite IHi by (intros x I; apply U; right; exact I). cbn [bind]. f_equal.
    rewrite !page_app, !page_at, page_one, loop_note_ok, weights_note_ok. unfold indented at 1. rewrite <- indent_blanks, !sapp_assoc. reflexivity.
  - rewrite page_at. reflexivity.
  - rewrite page_at. reflexivity.
Qed.

Lemma printer_page : forall c,
  disp_ControlFlowFunctionPrinter d f c = Ok (page (function_lines (disp_Core d) f 0 c))
  <-> (forall id, In id (chain_ids c) -> count_occ N.eq_dec (labels f) id = 1).
Proof.
  intro c. split.
  - intros H id I. destruct (unique_dec f id) as [U|U]; [exact U|]. unfold disp_ControlFlowFunctionPrinter in H.
    rewrite (printer_panic d f c 0 id I U) in H. discriminate H.
  - intro U. exact (printer_page_at c 0 U).
Qed.
End Printer.
