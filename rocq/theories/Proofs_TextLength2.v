(** Lemmas for C107: how many lines, which lengths are met, and the function printer. *)
From Coq Require Import Permutation.
From Verif Require Import Base Types Ops Groups ExtSet DisplayBase DisplayTypes DisplayOps DisplayModule ControlFlow DisplayFlow.
From Verif Require Import Spec_Wire Spec_Text Spec_Page Spec_Flow Spec_Structured Spec_DisplayStack Spec_TextLength.
From Verif Require Import Proofs_Flow Proofs_Structured Proofs_Text Proofs_Text5 Proofs_Page Proofs_Cost Proofs_TextLength.

Notation rows d c := (length (chain_lines d c)).
Notation all_ids l := (length (flat_map chain_ids (map chain_of l))).
Notation all_rows d l := (length (flat_map (chain_lines d) (map chain_of l))).
Lemma else_rows : forall l d, length (else_part (arm chain_of l) (indented d "} else {" :: flat_map (chain_lines (S d)) (map chain_of l)))
  = match l with [] => 0 | _ => S (all_rows (S d) l) end.
Proof.
  intros l d. destruct (arm chain_of l) as [| [|c cs] | | | |] eqn:A; cbn [else_part length]; destruct l; try reflexivity; try discriminate A.
  apply arm_empty in A. discriminate A.
Qed.
Lemma rows_list : forall k l d, Forall (fun s => rows d (chain_of s) + k <= 4 * ids (chain_of s)) l ->
  all_rows d l + (match l with [] => 0 | _ => k end) <= 4 * all_ids l.
Proof.
  intros k l d F. induction F as [|s l H F IH]; [cbn; lia|]. cbn [map flat_map]. rewrite !app_length. destruct l; cbn [map flat_map length] in *; lia.
Qed.
Lemma rows_inside : forall s d, rows d (chain_of s) <= 4 * ids (chain_of s).
Proof.
  assert (Q : forall l d, Forall (fun s => forall d, rows d (chain_of s) <= 4 * ids (chain_of s)) l -> all_rows d l <= 4 * all_ids l).
  { intros l d F. pose proof (rows_list 0 l d) as R. destruct l; [cbn; lia|]. rewrite Nat.add_0_r in R. apply R. eapply Forall_impl; [|exact F]. intros s' H. rewrite Nat.add_0_r. apply H. }
  induction s as [id|id cond yes no h w IHy IHn|id ct body h IHb|id cond rest w IHr|id cond rest w IHr] using statement_ind'; intros d;
    cbn [chain_of chain_lines chain_ids]; cbn [else_part]; rewrite ?app_length; cbn [length]; rewrite ?arm_lines, ?arm_ids, ?app_length, ?else_rows; cbn [length].
  - lia.
  - pose proof (Q yes (S d) IHy). pose proof (Q no (S d) IHn). destruct no; cbn [map flat_map length] in *; lia.
  - pose proof (Q body (S d) IHb). lia.
  - pose proof (Q rest (S d) IHr). lia.
  - pose proof (Q rest (S d) IHr). lia.
Qed.
Lemma each_all : forall (P : statement -> BlockId -> Prop) (Q : statement -> Prop) l next, Forall (fun s => forall next, P s next -> Q s) l -> each P l next -> Forall Q l.
Proof. intros P Q l next F. revert next. induction F as [|s l H F IH]; intros next PL; [constructor|]. cbn [each] in PL. destruct PL. constructor; eauto. Qed.
Lemma rows_outside : forall s d stops next, placed stops None s next -> rows d (chain_of s) + 2 <= 4 * ids (chain_of s).
Proof.
  assert (Q : forall l d stops next, Forall (fun s => forall d stops next, placed stops None s next -> rows d (chain_of s) + 2 <= 4 * ids (chain_of s)) l ->
    each (placed stops None) l next -> all_rows d l + (match l with [] => 0 | _ => 2 end) <= 4 * all_ids l).
  { intros l d stops next F PL. apply rows_list. apply (each_all (placed stops None) _ l next); [|exact PL]. eapply Forall_impl; [|exact F]. intros s H n P. eapply H; exact P. }
  induction s as [id|id cond yes no h w IHy IHn|id ct body h IHb|id cond rest w IHr|id cond rest w IHr] using statement_ind'; intros d stops next PL;
    cbn [placed] in PL; destruct PL as [_ PL].
  - cbn. lia.
  - destruct PL as [PY PN]. cbn [chain_of chain_lines chain_ids]. rewrite ?app_length; cbn [length]; rewrite ?arm_lines, ?arm_ids, ?app_length, ?else_rows; cbn [length].
    pose proof (Q yes (S d) _ _ IHy PY). pose proof (Q no (S d) _ _ IHn PN). destruct yes, no; cbn [map flat_map length] in *; lia.
  - cbn [chain_of chain_lines chain_ids]. rewrite ?app_length; cbn [length]; rewrite ?arm_lines, ?arm_ids.
    pose proof (rows_list 0 body (S d)) as R. assert (all_rows (S d) body <= 4 * all_ids body).
    { enough (all_rows (S d) body + match body with [] => 0 | _ => 0 end <= 4 * all_ids body) by lia. apply R. apply Forall_forall. intros s _. rewrite Nat.add_0_r. apply rows_inside. }
    lia.
  - destruct PL as [[m X] _]. discriminate X.
  - destruct PL as [[m [X _]] _]. discriminate X.
Qed.
Theorem found_rows : forall E (f : FunctionDefinition E) c, returns f (Ok c) ->
  1 <= ids c /\ length (lines (disp_ControlFlowChain c)) <= Nat.max 1 (4 * ids c - 5).
Proof.
  intros E f c R. apply structured_iff in R as (_ & l & last & merge & PL & _ & _ & ->). rewrite chain_exact.
  rewrite (program_view _ (chain_lines 0)), (program_view _ chain_ids), !app_length by reflexivity. cbn [chain_lines chain_ids length].
  split; [lia|]. assert (X : all_rows 0 l + match l with [] => 0 | _ => 2 end <= 4 * all_ids l).
  { apply rows_list. apply (each_all (placed [] None) _ l last); [|exact PL]. apply Forall_forall. intros s _ n P. eapply rows_outside; exact P. }
  destruct l; [cbn; lia|]. lia.
Qed.
Lemma found_parts : forall E (f : FunctionDefinition E) c, returns f (Ok c) -> parts c + 1 <= 2 * ids c.
Proof.
  intros E f c R. apply structured_iff in R as (_ & l & last & merge & PL & _ & _ & ->).
  assert (Q : forall l, Forall (fun s => parts (chain_of s) <= 2 * ids (chain_of s)) l -> list_sum (map parts (map chain_of l)) <= 2 * all_ids l).
  { intros l' F. induction F as [|s l' H F IH]; [cbn; lia|]. cbn [map flat_map]. rewrite app_length. cbn [list_sum fold_right]. fold (list_sum (map parts (map chain_of l'))). lia. }
  assert (S : forall s, parts (chain_of s) <= 2 * ids (chain_of s)).
  { induction s as [id|id cond yes no h w IHy IHn|id ct body h IHb|id cond rest w IHr|id cond rest w IHr] using statement_ind';
      cbn [chain_of chain_ids parts]; rewrite ?app_nil_r; cbn [length]; rewrite ?app_length, ?arm_ids, ?arm_parts;
      try pose proof (Q _ IHy); try pose proof (Q _ IHn); try pose proof (Q _ IHb); try pose proof (Q _ IHr); lia. }
  rewrite (program_view _ chain_ids), app_length by reflexivity. cbn [chain_ids length].
  pose proof (Q l (proj2 (Forall_forall _ _) (fun s _ => S s))).
  destruct l as [|s l]; [cbn; lia|]. cbn [program_chain parts]. rewrite map_app, list_sum_app. cbn [map parts list_sum fold_right] in *. lia.
Qed.

(** ** Both bounds are met *)
Fixpoint leaving (k : nat) : list statement :=
  match k with O => [] | S j => [LeaveUnless (N.of_nat (S k)) 0%N (leaving j) None] end.
Definition leaving_program (k : nat) : list statement := [Repeat 1%N 1%N (leaving k) (Build_LoopControl false false false None)].
Definition leaving_function {E} (k : nat) : FunctionDefinition E :=
  Build_FunctionDefinition (Build_OpFunction 0%N 0%N (Build_FunctionControl false false false false) 0%N) []
    (map of_skeleton (lower_program (leaving_program k) 0%N None)).
Lemma leaving_ids : forall k x, In x (flat_map blocks_of (leaving k)) -> (2 <= x <= N.of_nat (S k))%N.
Proof. induction k as [|k IH]; intros x H; [contradiction H|]. cbn [leaving flat_map blocks_of] in H. rewrite app_nil_r in H. destruct H as [<-|H]; [lia|]. apply IH in H. lia. Qed.
Lemma leaving_nodup : forall k, NoDup (flat_map blocks_of (leaving k)).
Proof. induction k as [|k IH]; [constructor|]. cbn [leaving flat_map blocks_of]. rewrite app_nil_r. constructor; [|exact IH]. intros H. apply leaving_ids in H. lia. Qed.
Lemma leaving_tail : forall k, tail_last exits_last true (leaving k).
Proof. induction k as [|k IH]; [exact I|]. cbn [leaving tail_last exits_last]. split; [reflexivity|exact IH]. Qed.
Lemma leaving_found : forall E k, returns (leaving_function k : FunctionDefinition E) (Ok (program_chain (leaving_program k) 0%N)).
Proof.
  intros E k. set (f := leaving_function k : FunctionDefinition E). apply (structured_round_trip f (leaving_program k) 0%N None).
  - exact (leaving_tail k).
  - cbn [leaving_program flat_map blocks_of]. rewrite app_nil_r. apply (Permutation_NoDup (l := 0%N :: 1%N :: flat_map blocks_of (leaving k))); [apply (Permutation_cons_append (1%N :: _))|].
    constructor; [|constructor; [|apply leaving_nodup]].
    + intros [X|X]; [discriminate X|]. apply leaving_ids in X. lia.
    + intros X. apply leaving_ids in X. lia.
  - unfold f, leaving_function. cbn [FunctionDefinition_blocks]. rewrite skeleton_of. reflexivity.
  - unfold entry, f, leaving_function. cbn. eauto.
Qed.
Lemma leaving_count : forall k, all_ids (leaving k) = k.
Proof. induction k as [|k IH]; [reflexivity|]. cbn [leaving map flat_map chain_of chain_ids]. rewrite !app_nil_r, arm_ids. cbn [length]. rewrite IH. reflexivity. Qed.
Lemma leaving_rows : forall k d, all_rows d (leaving k) = 4 * k.
Proof.
  induction k as [|k IH]; intros d; [reflexivity|]. cbn [leaving map flat_map chain_of chain_lines else_part]. rewrite app_nil_r, !app_length, arm_lines, IH. cbn [length]. lia.
Qed.
Lemma leaving_extent : forall k d, 16 * (d * k) + 8 * (k * k) <= extent (flat_map (chain_lines d) (map chain_of (leaving k))) + 4 * k.
Proof.
  induction k as [|k IH]; intros d; [cbn; lia|]. cbn [leaving map flat_map chain_of chain_lines else_part]. rewrite app_nil_r, !extent_app, !extent_cons, !extent_nil, !indented_length, arm_lines.
  specialize (IH (S d)). nia.
Qed.
Lemma leaving_u32 : forall k, (N.of_nat k + 1 < 2 ^ 32)%N -> Forall word (flat_map numbers_of (map chain_of (leaving k))).
Proof.
  induction k as [|k IH]; intros B; [constructor|]. cbn [leaving map flat_map chain_of numbers_of weight_numbers app]. rewrite !app_nil_r, arm_numbers. constructor; [|apply IH; lia].
  unfold word. change (2 ^ 32)%N with 4294967296%N in B. lia.
Qed.
Theorem found_sharp : forall E k, exists (f : FunctionDefinition E) c, returns f (Ok c) /\ ids c = k + 2
  /\ ((N.of_nat k + 1 < 2 ^ 32)%N -> u32_only c)
  /\ length (lines (disp_ControlFlowChain c)) = 4 * ids c - 5
  /\ 8 * (ids c * ids c) <= len (disp_ControlFlowChain c) + 20 * ids c.
Proof.
  intros E k. exists (leaving_function k), (program_chain (leaving_program k) 0%N). split; [apply leaving_found|].
  assert (N1 : ids (program_chain (leaving_program k) 0%N) = k + 2).
  { rewrite (program_view _ chain_ids), app_length by reflexivity. cbn [leaving_program map flat_map chain_of chain_ids]. rewrite app_nil_r, arm_ids. cbn [length]. rewrite leaving_count. lia. }
  split; [exact N1|]. split; [|split].
  - intros B. unfold u32_only. rewrite (program_view _ numbers_of) by reflexivity. cbn [leaving_program map flat_map chain_of numbers_of weight_numbers LoopControl_dependency_length app].
    rewrite app_nil_r, arm_numbers. constructor; [reflexivity|]. apply Forall_app. split; [apply leaving_u32, B|repeat constructor].
  - rewrite N1, chain_exact, (program_view _ (chain_lines 0)), app_length by reflexivity. cbn [leaving_program map flat_map chain_of chain_lines].
    rewrite app_nil_r, !app_length, arm_lines, leaving_rows. cbn [length]. lia.
  - rewrite N1, chain_page, extent_page, (program_view _ (chain_lines 0)), extent_app by reflexivity. cbn [leaving_program map flat_map chain_of chain_lines].
    rewrite app_nil_r, !extent_app, !extent_cons, !extent_nil, !indented_length, arm_lines. pose proof (leaving_extent k 1). nia.
Qed.

(** ** The function printer *)
Section Printer.
Context {E : Type} (d : E -> string) (f : FunctionDefinition E).
Notation block_rows id := (length (block_lines (disp_Core d) f 0 id)).
Notation block_size id := (extent (block_lines (disp_Core d) f 0 id)).
Lemma block_extent : forall n id, extent (block_lines (disp_Core d) f n id) = block_size id + 4 * n * block_rows id.
Proof.
  intros n id. unfold block_lines. destruct (block_of f id) as [b|]; [|cbn; lia].
  assert (M : forall is, extent (map (fun i => indented n (">>> " ++ disp_Core d i)) is) = extent (map (fun i => indented 0 (">>> " ++ disp_Core d i)) is) + 4 * n * length is).
  { induction is as [|i is IH]; [cbn; lia|]. cbn [map length]. rewrite !extent_cons, !indented_length, IH. lia. }
  rewrite !extent_app, !extent_cons, !extent_nil, !app_length, !indented_length, M, map_length. cbn [length]. lia.
Qed.
Definition own (k : nat) (id : BlockId) : nat := block_size id + 4 * k * block_rows id.
Notation total k l := (list_sum (map (own k) l)).
Lemma own_mono : forall k k' l, k <= k' -> total k l <= total k' l.
Proof. intros k k' l H. induction l as [|x l IH]; [cbn; lia|]. cbn [map]. change (list_sum (?a :: ?b)) with (a + list_sum b). unfold own at 1 3.
  assert (4 * k * block_rows x <= 4 * k' * block_rows x) by (apply Nat.mul_le_mono_r; lia). lia. Qed.
Lemma total_app : forall k a b, total k (a ++ b) = total k a + total k b.
Proof. intros k a b. rewrite map_app, list_sum_app. reflexivity. Qed.
Lemma total_cons : forall k a b, total k (a :: b) = own k a + total k b.
Proof. reflexivity. Qed.

Lemma else_extent_function : forall n rhs l, extent (else_part rhs (indented n "} else {" :: l)) <= 4 * n + 9 + extent l.
Proof. exact else_extent. Qed.
Lemma function_extent : forall c n, u32_only c ->
  extent (function_lines (disp_Core d) f n c) <= total (n + indentation c) (chain_ids c) + (12 * n + 96) * parts c + 6 * (parts c * parts c).
Proof.
  unfold u32_only.
  induction c as [id|l IH|id lhs rhs h w IHl IHr|id inner h w IHi| |] using chain_ind'; intros n U; cbn [function_lines parts numbers_of chain_ids indentation] in *.
  - rewrite block_extent, total_cons. unfold own. rewrite Nat.add_0_r. cbn. lia.
  - induction IH as [|c l Hc F IHl]; [cbn; lia|]. cbn [flat_map map] in *. rewrite extent_app, total_app. rewrite Forall_app in U. destruct U as [U1 U2].
    specialize (Hc n U1). specialize (IHl U2). change (list_sum (parts c :: map parts l)) with (parts c + list_sum (map parts l)).
    change (list_max (indentation c :: map indentation l)) with (Nat.max (indentation c) (list_max (map indentation l))).
    pose proof (own_mono (n + indentation c) (n + Nat.max (indentation c) (list_max (map indentation l))) (chain_ids c) ltac:(lia)).
    pose proof (own_mono (n + list_max (map indentation l)) (n + Nat.max (indentation c) (list_max (map indentation l))) (flat_map chain_ids l) ltac:(lia)).
    set (t1 := total (n + indentation c) (chain_ids c)) in *. set (t2 := total (n + list_max (map indentation l)) (flat_map chain_ids l)) in *.
    set (a := parts c) in *. set (b := list_sum (map parts l)) in *. assert (6 * (a * a) + 6 * (b * b) <= 6 * ((a + b) * (a + b))) by nia. lia.
  - inversion U as [|? ? I U']; subst. rewrite !Forall_app in U'. destruct U' as (W & L & R).
    rewrite total_cons, total_app, !extent_app, !extent_cons, !extent_nil, !slength_app, !indented_length, block_extent.
    pose proof (selection_note_size h). pose proof (weights_note_size w W). specialize (IHl (S n) L). specialize (IHr (S n) R).
    pose proof (else_extent n rhs (function_lines (disp_Core d) f (S n) rhs)). cbn [String.length] in *.
    set (m := n + S (Nat.max (indentation lhs) (indentation rhs))).
    pose proof (own_mono (S n + indentation lhs) m (chain_ids lhs) ltac:(lia)). pose proof (own_mono (S n + indentation rhs) m (chain_ids rhs) ltac:(lia)).
    pose proof (own_mono n m [id] ltac:(lia)) as OM. rewrite !total_cons in OM. cbn [map list_sum fold_right] in OM. unfold own at 1 in OM.
    change (n + (1 + Nat.max (indentation lhs) (indentation rhs))) with m. clearbody m.
    set (t1 := total (S n + indentation lhs) (chain_ids lhs)) in *. set (t2 := total (S n + indentation rhs) (chain_ids rhs)) in *.
    set (r := 4 * n * block_rows id) in *. set (o := own m id) in *. set (u1 := total m (chain_ids lhs)) in *. set (u2 := total m (chain_ids rhs)) in *.
    set (a := parts lhs) in *. set (b := parts rhs) in *. clearbody t1 t2 r o u1 u2 a b.
    assert (12 * (a + b) + 6 * (a * a) + 6 * (b * b) + 6 <= 6 * ((1 + a + b) * (1 + a + b))) by nia. lia.
  - inversion U as [|? ? I U']; subst. rewrite !Forall_app in U'. destruct U' as (L & W & R).
    rewrite total_cons, !extent_app, !extent_cons, !extent_nil, !slength_app, !indented_length, block_extent.
    pose proof (loop_note_size h L). pose proof (weights_note_size w W). specialize (IHi (S n) R). cbn [String.length] in *.
    pose proof (own_mono (S n + indentation inner) (n + (1 + indentation inner)) (chain_ids inner) ltac:(lia)).
    pose proof (own_mono n (n + (1 + indentation inner)) [id] ltac:(lia)) as OM. rewrite !total_cons in OM. cbn [map list_sum fold_right] in OM. unfold own at 1 in OM.
    set (t1 := total (S n + indentation inner) (chain_ids inner)) in *. set (r := 4 * n * block_rows id) in *. set (o := own (n + (1 + indentation inner)) id) in *.
    set (u1 := total (n + (1 + indentation inner)) (chain_ids inner)) in *. set (a := parts inner) in *. clearbody t1 r o u1 a.
    assert (12 * a + 6 * (a * a) + 6 <= 6 * ((1 + a) * (1 + a))) by nia. lia.
  - rewrite extent_cons, extent_nil, indented_length. cbn [String.length map list_sum fold_right]. nia.
  - rewrite extent_cons, extent_nil, indented_length. cbn [String.length map list_sum fold_right]. nia.
Qed.
Lemma printed_page : forall c text, disp_ControlFlowFunctionPrinter d f c = Ok text -> text = page (function_lines (disp_Core d) f 0 c).
Proof.
  intros c text H. assert (U : forall id, In id (chain_ids c) -> count_occ N.eq_dec (labels f) id = 1).
  { intros id I. destruct (unique_dec f id) as [U|U]; [exact U|]. unfold disp_ControlFlowFunctionPrinter in H. rewrite (printer_panic d f c 0 id I U) in H. discriminate H. }
  apply (printer_page d f c) in U. rewrite U in H. injection H as <-. reflexivity.
Qed.
Theorem function_length : forall c text, disp_ControlFlowFunctionPrinter d f c = Ok text -> u32_only c ->
  len text <= list_sum (map (fun id => len (page (block_lines (disp_Core d) f 0 id)) + 4 * indentation c * length (block_lines (disp_Core d) f 0 id)) (chain_ids c))
    + 6 * (parts c * parts c) + 96 * parts c.
Proof.
  intros c text H U. rewrite (printed_page c text H), extent_page. pose proof (function_extent c 0 U) as B. cbn [Nat.add] in B.
  replace (list_sum (map (fun id => len (page (block_lines (disp_Core d) f 0 id)) + 4 * indentation c * length (block_lines (disp_Core d) f 0 id)) (chain_ids c)))
    with (total (indentation c) (chain_ids c)); [lia|]. f_equal. apply map_ext. intros id. unfold own. rewrite extent_page. reflexivity.
Qed.
End Printer.
