(** Exact lines of chains and of printed functions, modules (C52, C54, C60), and the built-in set (C59). *)
From Coq Require Import Lia.
From Verif Require Import Base Types Ops ReadErr Utf8 ReadBase ReadOperands ExtSet ReadOps Reader Groups ControlFlow Glsl450
  DisplayBase DisplayTypes DisplayOps DisplayModule DisplayFlow
  Spec_Wire Spec_Layout Spec_Flow Spec_Names Spec_Text Proofs_Flow Proofs_Text Proofs_Text2 Proofs_Text3 Proofs_Text4.
Local Open Scope string_scope.

Ltac lf := apply lf_freeb_spec; vm_compute; reflexivity.

Lemma line_at : forall n body r, lf_free body -> lines (write_indent n ++ body ++ nl ++ r) = indented n body :: lines r.
Proof.
  intros n body r L. replace (write_indent n ++ body ++ nl ++ r) with ((write_indent n ++ body) ++ nl ++ r) by (rewrite !sapp_assoc; reflexivity).
  rewrite lines_one by (apply lf_app; [apply lf_indent|exact L]). unfold indented. rewrite indent_blanks. reflexivity.
Qed.

Lemma selection_note_ok : forall h, hint_text_sel h = selection_note h.
Proof. intros [[] []]; reflexivity. Qed.
Lemma loop_note_ok : forall h, hint_text_loop h = loop_note h.
Proof. intros [[] [] [] [n|]]; reflexivity. Qed.
Lemma weights_note_ok : forall w, weights_text w = weights_note w.
Proof. intros [[a b]|]; [|reflexivity]. unfold weights_text, weights_note, disp_BranchWeights. rewrite !sapp_assoc. reflexivity. Qed.

Lemma empty_else : forall rhs l, else_part rhs l = if is_empty_block rhs then [] else l.
Proof. intros rhs l. destruct rhs as [|[]| | | |]; reflexivity. Qed.

Lemma text_lines : forall c n r, lines (chain_fmt_indent c n ++ r) = (chain_lines n c ++ lines r)%list.
Proof.
  induction c as [id|l IH|id lhs rhs h w IHl IHr|id inner h w IHi| |] using chain_ind'; intros n r.
  - cbn [chain_fmt_indent chain_lines]. rewrite !sapp_assoc. apply line_at. apply id_chars. exact outside_lf.
  - rewrite text_block. cbn [chain_lines]. induction IH as [|x l Hx IH IHl]; [reflexivity|]. cbn [texts flat_map]. rewrite sapp_assoc, Hx, IHl, app_assoc. reflexivity.
  - rewrite selection_text, !sapp_assoc, line_at by apply lf_sel. cbn [chain_lines app]. rewrite IHl. f_equal.
    { unfold sel_header. rewrite selection_note_ok, weights_note_ok. unfold disp_BlockId, disp_OpId. rewrite !sapp_assoc. reflexivity. }
    rewrite <- !app_assoc. f_equal. rewrite empty_else. unfold else_text. destruct (is_empty_block rhs).
    + change ("" ++ write_indent n ++ "}" ++ nl ++ r) with (write_indent n ++ "}" ++ nl ++ r). rewrite line_at by lf. reflexivity.
    + rewrite !sapp_assoc. rewrite (line_at n "} else {") by lf. cbn [app]. f_equal. rewrite IHr. f_equal. rewrite line_at by lf. reflexivity.
  - rewrite loop_text, !sapp_assoc, line_at by apply lf_loop. cbn [chain_lines app]. rewrite IHi. f_equal.
    { unfold loop_header_text. rewrite loop_note_ok, weights_note_ok. unfold disp_BlockId, disp_OpId. rewrite !sapp_assoc. reflexivity. }
    rewrite <- !app_assoc. f_equal. rewrite line_at by lf. reflexivity.
  - cbn [chain_fmt_indent chain_lines]. rewrite !sapp_assoc. apply line_at. lf.
  - cbn [chain_fmt_indent chain_lines]. rewrite !sapp_assoc. apply line_at. lf.
Qed.
Theorem chain_exact : forall c, lines (disp_ControlFlowChain c) = chain_lines 0 c.
Proof. intro c. unfold disp_ControlFlowChain. rewrite <- (sapp_nil (chain_fmt_indent c 0)), text_lines, app_nil_r. reflexivity. Qed.

(** ** Printed functions *)
Section Printer.
Context {E : Type} (d : E -> string) (f : FunctionDefinition E).

Lemma code_text : forall g, disp_GroupCode d g = disp_Core d (core_of_code g).
Proof. intros []; reflexivity. Qed.
Lemma branch_text : forall g, disp_GroupBranch g = disp_Core d (core_of_branch g).
Proof. intros []; reflexivity. Qed.

Definition unique (id : N) : Prop := count_occ N.eq_dec (labels f) id = 1.

Lemma find_block_count : forall (blocks : list (BasicBlock E)) id found,
  find_block blocks id found =
    match found, count_occ N.eq_dec (map label_of blocks) id with
    | _, O => Ok found
    | None, S O => Ok (find (fun b => N.eqb (OpLabel_result_id (BasicBlock_label b)) id) blocks)
    | _, _ => Panic
    end.
Proof.
  induction blocks as [|b blocks IH]; intros id found; cbn [find_block map count_occ find]; [destruct found; reflexivity|].
  change (label_of b) with (OpLabel_result_id (BasicBlock_label b)). destruct (N.eqb_spec (OpLabel_result_id (BasicBlock_label b)) id) as [Q|Q].
  - destruct (N.eq_dec (OpLabel_result_id (BasicBlock_label b)) id); [|contradiction]. destruct found; [reflexivity|]. rewrite IH.
    destruct (count_occ N.eq_dec (map label_of blocks) id); reflexivity.
  - destruct (N.eq_dec (OpLabel_result_id (BasicBlock_label b)) id); [contradiction|]. apply IH.
Qed.

Lemma block_unique : forall id, unique id -> exists b, block_of f id = Some b /\ In b (FunctionDefinition_blocks f).
Proof.
  intros id U. unfold unique, labels in U. assert (In id (map label_of (FunctionDefinition_blocks f))) as I by (apply (count_occ_In N.eq_dec); lia).
  unfold block_of. destruct (find _ (FunctionDefinition_blocks f)) as [b|] eqn:F.
  - exists b. split; [reflexivity|]. apply find_some in F. tauto.
  - exfalso. apply in_map_iff in I. destruct I as (b & L & I). apply find_none with (x := b) in F; [|exact I]. unfold label_of in L. rewrite L, N.eqb_refl in F. discriminate F.
Qed.

Definition one_line : Prop := forall b g, In b (FunctionDefinition_blocks f) -> In g (BasicBlock_code b) -> lf_free (disp_GroupCode d g).

Lemma block_ok : forall n id, unique id ->
  exists s, fmt_block_indent d f n id = Ok s /\ (one_line -> forall r, lines (s ++ r) = (block_lines (disp_Core d) f n id ++ lines r)%list).
Proof.
  intros n id U. unfold fmt_block_indent, block_lines. rewrite find_block_count. destruct (block_unique id U) as (b & F & I).
  unfold unique, labels in U. rewrite U. cbn [bind]. unfold block_of in F. rewrite F. eexists. split; [reflexivity|]. intros O r.
  unfold block_of. rewrite F. rewrite !sapp_assoc.
  replace (write_indent n ++ "> Begin " ++ disp_u32 id ++ nl ++ code_lines d n (BasicBlock_code b) ++ write_indent n ++ ">>> " ++ disp_GroupBranch (BasicBlock_branch b) ++ nl ++ write_indent n ++ "> End " ++ disp_u32 id ++ nl ++ r)
    with (write_indent n ++ ("> Begin " ++ disp_u32 id) ++ nl ++ code_lines d n (BasicBlock_code b) ++ write_indent n ++ (">>> " ++ disp_GroupBranch (BasicBlock_branch b)) ++ nl ++ write_indent n ++ ("> End " ++ disp_u32 id) ++ nl ++ r) by (rewrite !sapp_assoc; reflexivity).
  rewrite line_at by (apply lf_app; [lf|apply lf_decimal]). cbn [app]. f_equal.
  rewrite map_app, <- !app_assoc. specialize (O b). revert O. generalize (BasicBlock_code b). induction l as [|g l IH]; intro O.
  - cbn [code_lines map app]. match goal with |- context ["" ++ ?x] => change ("" ++ x) with x end. rewrite line_at.
    + rewrite branch_text. f_equal. rewrite line_at by (apply lf_app; [lf|apply lf_decimal]). reflexivity.
    + apply lf_app; [lf|]. rewrite branch_text. apply (line_lf d). destruct (BasicBlock_branch b) as [[]|[? ? ? []]|[]]; split; try exact I0; cbn; tauto.
  - cbn [code_lines map app]. rewrite !sapp_assoc.
    replace (write_indent n ++ ">>> " ++ disp_GroupCode d g ++ nl ++ code_lines d n l ++ write_indent n ++ ">>> " ++ disp_GroupBranch (BasicBlock_branch b) ++ nl ++ write_indent n ++ "> End " ++ disp_u32 id ++ nl ++ r)
      with (write_indent n ++ (">>> " ++ disp_GroupCode d g) ++ nl ++ code_lines d n l ++ write_indent n ++ ">>> " ++ disp_GroupBranch (BasicBlock_branch b) ++ nl ++ write_indent n ++ "> End " ++ disp_u32 id ++ nl ++ r) by (rewrite !sapp_assoc; reflexivity).
    rewrite line_at by (apply lf_app; [lf|apply O; [exact I|left; reflexivity]]). rewrite code_text. f_equal.
    rewrite !sapp_assoc in IH. apply IH. intros g' B G. apply O; [exact B|right; exact G].
Qed.
Lemma block_panic : forall n id, ~ unique id -> fmt_block_indent d f n id = Panic.
Proof.
  intros n id U. unfold fmt_block_indent. rewrite find_block_count. unfold unique, labels in U.
  destruct (count_occ N.eq_dec (map label_of (FunctionDefinition_blocks f)) id) as [|[|k]]; [reflexivity|contradiction U; reflexivity|reflexivity].
Qed.

Lemma note_at : forall a n r, lf_free a -> lines (a ++ write_indent n ++ "{" ++ nl ++ r) = (a ++ indented n "{") :: lines r.
Proof.
  intros a n r L. replace (a ++ write_indent n ++ "{" ++ nl ++ r) with ((a ++ write_indent n ++ "{") ++ nl ++ r) by (rewrite !sapp_assoc; reflexivity).
  rewrite lines_one by (apply lf_app; [exact L|apply lf_app; [apply lf_indent|lf]]). unfold indented. rewrite indent_blanks. reflexivity.
Qed.
Lemma lf_sel_note : forall h w, lf_free (hint_text_sel h ++ weights_text w).
Proof. intros h w. apply lf_app; [apply hint_sel_chars|apply weights_chars]; exact outside_lf. Qed.
Lemma lf_loop_note : forall h w, lf_free (hint_text_loop h ++ weights_text w).
Proof. intros h w. apply lf_app; [apply hint_loop_chars|apply weights_chars]; exact outside_lf. Qed.

Lemma printer_ok : forall c n, (forall id, In id (chain_ids c) -> unique id) ->
  exists s, printer_fmt_indent d f c n = Ok s
    /\ (one_line -> forall r, lines (s ++ r) = (function_lines (disp_Core d) f n c ++ lines r)%list).
Proof.
  induction c as [id|l IH|id lhs rhs h w IHl IHr|id inner h w IHi| |] using chain_ind'; intros n U; cbn [printer_fmt_indent function_lines chain_ids] in *.
  - apply block_ok. apply U. left. reflexivity.
  - induction IH as [|x l Hx IH IHl]; [eexists; split; [reflexivity|]; intros _ r; reflexivity|].
    cbn [flat_map] in U. destruct (Hx n) as (s1 & -> & L1); [intros id I; apply U; apply in_or_app; left; exact I|].
    destruct IHl as (s2 & -> & L2); [intros id I; apply U; apply in_or_app; right; exact I|]. cbn [bind]. eexists. split; [reflexivity|].
    intros O r. cbn [flat_map]. rewrite sapp_assoc, (L1 O), (L2 O), app_assoc. reflexivity.
  - destruct (block_ok n id) as (s1 & -> & L1); [apply U; left; reflexivity|].
    destruct (IHl (S n)) as (s2 & -> & L2); [intros x I; apply U; right; apply in_or_app; left; exact I|].
    destruct (IHr (S n)) as (s3 & -> & L3); [intros x I; apply U; right; apply in_or_app; right; exact I|]. cbn [bind].
    assert (Shape : exists s, (if is_empty_block rhs then Ok "" else Ok (write_indent n ++ "} else {" ++ nl ++ s3)) = @Ok unit string s
      /\ (one_line -> forall r, lines (s ++ r) = (else_part rhs (indented n "} else {" :: function_lines (disp_Core d) f (S n) rhs) ++ lines r)%list)).
    { rewrite empty_else. destruct (is_empty_block rhs); eexists; (split; [reflexivity|]); intros O r; [reflexivity|].
      rewrite !sapp_assoc, line_at by lf. cbn [app]. rewrite (L3 O). reflexivity. }
    destruct Shape as (s & -> & L). cbn [bind]. eexists. split; [reflexivity|]. intros O r. rewrite !sapp_assoc, (L1 O), <- !app_assoc. f_equal.
    rewrite <- (sapp_assoc (hint_text_sel h)), note_at by apply lf_sel_note. rewrite selection_note_ok, weights_note_ok, sapp_assoc.
    cbn [app]. f_equal. rewrite (L2 O). f_equal. rewrite (L O). f_equal. rewrite line_at by lf. reflexivity.
  - destruct (block_ok n id) as (s1 & -> & L1); [apply U; left; reflexivity|].
    destruct (IHi (S n)) as (s2 & -> & L2); [intros x I; apply U; right; exact I|]. cbn [bind].
    eexists. split; [reflexivity|]. intros O r. rewrite !sapp_assoc, (L1 O), <- !app_assoc. f_equal.
    rewrite <- (sapp_assoc (hint_text_loop h)), note_at by apply lf_loop_note. rewrite loop_note_ok, weights_note_ok, sapp_assoc.
    cbn [app]. f_equal. rewrite (L2 O). f_equal. rewrite line_at by lf. reflexivity.
  - eexists. split; [reflexivity|]. intros _ r. rewrite !sapp_assoc. apply line_at. lf.
  - eexists. split; [reflexivity|]. intros _ r. rewrite !sapp_assoc. apply line_at. lf.
Qed.

Lemma unique_dec : forall id, unique id \/ ~ unique id.
Proof. intro id. unfold unique. destruct (PeanoNat.Nat.eq_dec (count_occ N.eq_dec (labels f) id) 1); auto. Qed.
Lemma uniques_dec : forall l, (forall id, In id l -> unique id) \/ exists id, In id l /\ ~ unique id.
Proof.
  induction l as [|x l IH]; [left; intros id []|]. destruct (unique_dec x) as [U|U]; [|right; exists x; split; [left; reflexivity|exact U]].
  destruct IH as [IH|(y & I & N)]; [left; intros id [<-|I]; auto|right; exists y; split; [right; exact I|exact N]].
Qed.

Lemma printer_panic : forall c n id, In id (chain_ids c) -> ~ unique id -> printer_fmt_indent d f c n = Panic.
Proof.
  induction c as [x|l IH|x lhs rhs h w IHl IHr|x inner h w IHi| |] using chain_ind'; intros n id I U; cbn [printer_fmt_indent chain_ids] in *.
  - destruct I as [->|[]]. apply block_panic. exact U.
  - induction IH as [|y l Hy IH IHl]; [contradiction I|]. cbn [flat_map] in I.
    destruct (uniques_dec (chain_ids y)) as [Y|(z & Iz & Uz)]; [|rewrite (Hy n z Iz Uz); reflexivity].
    destruct (printer_ok y n Y) as (s & -> & _). cbn [bind]. apply in_app_or in I. destruct I as [I|I]; [contradiction (U (Y _ I))|].
    rewrite (IHl I). reflexivity.
  - destruct (unique_dec x) as [X|X]; [|rewrite (block_panic n x X); reflexivity]. destruct (block_ok n x X) as (s & -> & _). cbn [bind].
    destruct I as [<-|I]; [contradiction|]. apply in_app_or in I.
    destruct (uniques_dec (chain_ids lhs)) as [Y|(z & Iz & Uz)]; [|rewrite (IHl (S n) z Iz Uz); reflexivity].
    destruct (printer_ok lhs (S n) Y) as (s' & -> & _). cbn [bind]. destruct I as [I|I]; [contradiction (U (Y _ I))|].
    rewrite (IHr (S n) id I U). destruct rhs as [|[]| | | |]; try reflexivity. contradiction I.
  - destruct (unique_dec x) as [X|X]; [|rewrite (block_panic n x X); reflexivity]. destruct (block_ok n x X) as (s & -> & _). cbn [bind].
    destruct I as [<-|I]; [contradiction|]. rewrite (IHi (S n) id I U). reflexivity.
  - contradiction I.
  - contradiction I.
Qed.

Theorem printer_exact : forall c,
  ((forall id, In id (chain_ids c) -> unique id) -> exists s, disp_ControlFlowFunctionPrinter d f c = Ok s
     /\ ((forall b g, In b (FunctionDefinition_blocks f) -> In g (BasicBlock_code b) -> ~ contains line_feed (disp_Core d (core_of_code g))) ->
         lines s = function_lines (disp_Core d) f 0 c))
  /\ ((exists id, In id (chain_ids c) /\ ~ unique id) -> disp_ControlFlowFunctionPrinter d f c = Panic).
Proof.
  intro c. split.
  - intro U. destruct (printer_ok c 0 U) as (s & H & L). exists s. split; [exact H|]. intro O.
    rewrite <- (sapp_nil s), L, app_nil_r; [reflexivity|]. intros b g B G. unfold lf_free. rewrite code_text. exact (O b g B G).
  - intros (id & I & U). exact (printer_panic c 0 id I U).
Qed.
End Printer.

(** ** Modules *)
Lemma dot_split : forall x a b s t, ~ contains x a -> ~ contains x b -> a ++ String x s = b ++ String x t -> a = b /\ s = t.
Proof.
  induction a as [|y a IH]; intros [|z b] s t A B H.
  - injection H as ->. auto.
  - exfalso. cbn in H. injection H as H _. apply B. left. symmetry. exact H.
  - exfalso. cbn in H. injection H as H _. apply A. left. exact H.
  - cbn [append] in H. injection H as -> H. cbn [contains] in A, B. destruct (IH b s t) as [-> ->]; tauto.
Qed.

Lemma generator_same : forall t t', generator_text t = generator_text t' -> same_tool t t'.
Proof.
  intros t t' H. destruct t, t'; try discriminate H; try (left; reflexivity). right. do 2 eexists. split; reflexivity.
Qed.

Section Modules.
Context {E : Type} (d : E -> string).
Hypothesis d_inj : forall a b, d a = d b -> a = b.

Lemma header_length : forall m : RawModule E, length (header_lines m) = 5. Proof. reflexivity. Qed.

Lemma header_inj : forall m m' : RawModule E, header_lines m = header_lines m' ->
  RawModule_version m = RawModule_version m' /\ same_tool (Generator_tool (RawModule_generator m)) (Generator_tool (RawModule_generator m'))
  /\ Generator_version (RawModule_generator m) = Generator_version (RawModule_generator m') /\ RawModule_bound m = RawModule_bound m'.
Proof.
  intros m m' H. unfold header_lines in H. injection H as Hv Hg Hb.
  apply decimal_inj in Hb.
  apply dot_split in Hv; [|apply decimal_not; reflexivity..]. destruct Hv as [V1 V2]. apply decimal_inj in V1, V2.
  apply (dot_split ";") in Hg; [|destruct (Generator_tool (RawModule_generator m)); no_char|destruct (Generator_tool (RawModule_generator m')); no_char].
  destruct Hg as [G1 G2]. injection G2 as G2. apply decimal_inj in G2. apply generator_same in G1.
  split; [|auto]. destruct (RawModule_version m), (RawModule_version m'); cbn in *; congruence.
Qed.

Theorem module_faithful : forall m m' : RawModule E,
  (forall i, In i (RawModule_instructions m) \/ In i (RawModule_instructions m') -> result_fits i /\ single_line d i) ->
  disp_RawModule d m = disp_RawModule d m' ->
  RawModule_version m = RawModule_version m' /\ same_tool (Generator_tool (RawModule_generator m)) (Generator_tool (RawModule_generator m'))
  /\ Generator_version (RawModule_generator m) = Generator_version (RawModule_generator m') /\ RawModule_bound m = RawModule_bound m'
  /\ RawModule_instructions m = RawModule_instructions m'.
Proof.
  intros m m' F H. assert (L : lines (disp_RawModule d m) = lines (disp_RawModule d m')) by (rewrite H; reflexivity).
  rewrite !module_lines in L by (intros i I; apply F; auto).
  apply (f_equal (firstn 5)) in L as L1. apply (f_equal (skipn 5)) in L as L2.
  change (header_lines m = header_lines m') in L1. change (map (disp_Core d) (RawModule_instructions m) = map (disp_Core d) (RawModule_instructions m')) in L2.
  destruct (header_inj m m' L1) as (A & B & C & D). do 4 (split; [assumption|]).
  assert (K : forall l l' : list (Core E), (forall i, In i l \/ In i l' -> result_fits i) -> map (disp_Core d) l = map (disp_Core d) l' -> l = l').
  { induction l as [|x l IH]; intros [|y l'] R Q; try discriminate Q; [reflexivity|]. cbn [map] in Q. injection Q as Q1 Q2. f_equal.
    - apply (core_inj d d_inj); [apply R; left; left; reflexivity|apply R; right; left; reflexivity|exact Q1].
    - apply IH; [|exact Q2]. intros i [I|I]; apply R; [left; right|right; right]; exact I. }
  apply K; [|exact L2]. intros i I. apply (F i I).
Qed.
End Modules.

(** ** GLSL.std.450 *)
Lemma glsl_inj : forall a b, disp_Inst a = disp_Inst b -> a = b.
Proof.
  intros [[x]|[x]] [[y]|[y]] H; try discriminate H; injection H as H; apply decimal_inj in H; subst; reflexivity.
Qed.
Lemma glsl_op : forall number words rest i, duplicate InstSet number words = Ok (rest, i) ->
  exists x, words = x :: rest /\ In (number, Op_get_name (get_op i)) glsl_names
    /\ Op_text (get_op i) = Op_get_name (get_op i) ++ " %" ++ decimal x /\ disp_Inst i = Op_text (get_op i).
Proof.
  intros number words rest i H. cbn [duplicate InstSet] in H. unfold glsl450_read_instruction in H.
  destruct (N.eq_dec number 13) as [->|N1]; [|destruct (N.eq_dec number 14) as [->|N2]].
  - destruct words as [|x ws]; [discriminate H|]. cbn in H. injection H as -> <-. exists x.
    split; [reflexivity|]. split; [left; reflexivity|]. split; reflexivity.
  - destruct words as [|x ws]; [discriminate H|]. cbn in H. injection H as -> <-. exists x.
    split; [reflexivity|]. split; [right; left; reflexivity|]. split; reflexivity.
  - exfalso. replace (match number with 13%N => read_sin words | 14%N => read_cos words | _ => Err (UnknownExtInstOp glsl450_name number) end)
      with (Err (A := list N * Inst) (UnknownExtInstOp glsl450_name number)) in H; [discriminate H|].
    repeat match goal with |- context [match ?x with _ => _ end] => is_var x; destruct x; try reflexivity; try congruence end.
Qed.
Lemma glsl_lf : forall i, ~ contains line_feed (disp_Inst i).
Proof. intros [[x]|[x]]; cbn [disp_Inst]; unfold disp_Sin, disp_Cos, disp_OpId; repeat apply lf_app; try lf; apply lf_decimal. Qed.
