(** Lemmas for C107: the length of the text of chains. *)
From Verif Require Import Base Types Ops Groups ExtSet DisplayBase DisplayTypes DisplayOps DisplayModule ControlFlow DisplayFlow.
From Verif Require Import Spec_Wire Spec_Text Spec_Page Spec_Flow Spec_Structured Spec_DisplayStack Spec_TextLength.
From Verif Require Import Proofs_Flow Proofs_Structured Proofs_Text Proofs_Text5 Proofs_Page Proofs_TextSize.

Notation len := String.length.
Definition extent (ls : list string) : nat := list_sum (map (fun l => S (len l)) ls).
Lemma extent_page : forall ls, len (page ls) = extent ls.
Proof. induction ls as [|l ls IH]; [reflexivity|]. cbn [page]. rewrite slength_app. cbn [String.length]. rewrite IH. unfold extent. cbn [map list_sum fold_right]. fold (list_sum (map (fun l => S (len l)) ls)). lia. Qed.
Lemma extent_app : forall a b, extent (a ++ b) = extent a + extent b.
Proof. intros a b. unfold extent. rewrite map_app, list_sum_app. reflexivity. Qed.
Lemma extent_cons : forall l b, extent (l :: b) = S (len l) + extent b.
Proof. reflexivity. Qed.
Lemma extent_nil : extent [] = 0.
Proof. reflexivity. Qed.
Lemma indented_length : forall d s, len (indented d s) = 4 * d + len s.
Proof. intros d s. unfold indented. rewrite slength_app, blanks_length. reflexivity. Qed.

(** ** Headers *)
Lemma decimal_size : forall n, word n -> len (decimal n) <= 10.
Proof. exact number_size. Qed.
Lemma selection_note_size : forall h, len (selection_note h) <= 24.
Proof. intros [[] []]; apply Nat.leb_le; vm_compute; reflexivity. Qed.
Lemma weights_note_size : forall w, Forall word (weight_numbers w) -> len (weights_note w) <= 24.
Proof.
  intros [[t f]|] H; cbn [weights_note BranchWeights_true_weight BranchWeights_false_weight]; [|cbn; lia].
  cbn [weight_numbers BranchWeights_true_weight BranchWeights_false_weight] in H. inversion H as [|? ? T H']; subst. inversion H' as [|? ? F _]; subst.
  pose proof (decimal_size t T). pose proof (decimal_size f F). rewrite !slength_app. cbn [String.length]. lia.
Qed.
Lemma loop_note_size : forall h, Forall word (match LoopControl_dependency_length h with Some n => [n] | None => [] end) -> len (loop_note h) <= 74.
Proof.
  intros [u d i [n|]] H; cbn [LoopControl_dependency_length] in H.
  - inversion H as [|? ? W _]; subst. pose proof (decimal_size n W). set (s := decimal n) in *.
    destruct u, d, i; unfold loop_note, hint_note, mask_text, set_names, loop_flags; cbn [LoopControl_dependency_length]; fold s;
      cbn -[String.length]; cbn [String.append]; rewrite ?slength_app; cbn [String.length]; rewrite ?slength_app; cbn [String.length]; lia.
  - destruct u, d, i; apply Nat.leb_le; vm_compute; reflexivity.
Qed.

Lemma selection_header : forall d id h w, word id -> Forall word (weight_numbers w) ->
  len (indented d ("selection %" ++ decimal id ++ selection_note h ++ weights_note w ++ " {")) <= 4 * d + 71.
Proof.
  intros d id h w I W. rewrite indented_length, !slength_app. pose proof (decimal_size id I). pose proof (selection_note_size h). pose proof (weights_note_size w W). cbn [String.length]. lia.
Qed.
Lemma loop_header_size : forall d id h w, word id -> Forall word (match LoopControl_dependency_length h with Some n => [n] | None => [] end) ->
  len (weights_note w) <= 24 ->
  len (indented d ("loop %" ++ decimal id ++ loop_note h ++ weights_note w ++ " {")) <= 4 * d + 92 + len (weights_note w).
Proof.
  intros d id h w I L W. rewrite indented_length, !slength_app. pose proof (decimal_size id I). pose proof (loop_note_size h L). cbn [String.length]. lia.
Qed.
Lemma else_extent : forall d rhs l, extent (else_part rhs (indented d "} else {" :: l)) <= 4 * d + 9 + extent l.
Proof.
  intros d rhs l. assert (X : extent (indented d "} else {" :: l) = 4 * d + 9 + extent l) by (rewrite extent_cons, indented_length; cbn [String.length]; lia).
  destruct rhs as [| [|] | | | |]; cbn [else_part]; rewrite ?X, ?extent_nil; lia.
Qed.

(** ** Any chain *)
Lemma any_extent : forall c d, u32_only c -> extent (chain_lines d c) <= (12 * d + 113) * parts c + 6 * (parts c * parts c).
Proof.
  unfold u32_only.
  induction c as [id|l IH|id lhs rhs h w IHl IHr|id inner h w IHi| |] using chain_ind'; intros d U; cbn [chain_lines parts numbers_of] in *.
  - inversion U as [|? ? I _]; subst. rewrite extent_cons, extent_nil, indented_length. pose proof (decimal_size id I). cbn [String.append String.length]. nia.
  - induction IH as [|c l Hc F IHl]; [cbn; lia|]. cbn [flat_map map] in *. rewrite extent_app. rewrite Forall_app in U. destruct U as [U1 U2].
    specialize (Hc d U1). specialize (IHl U2). change (list_sum (parts c :: map parts l)) with (parts c + list_sum (map parts l)). nia.
  - inversion U as [|? ? I U']; subst. rewrite !Forall_app in U'. destruct U' as (W & L & R).
    rewrite !extent_app, !extent_cons, !extent_nil, (indented_length d "}").
    pose proof (selection_header d id h w I W). specialize (IHl (S d) L). specialize (IHr (S d) R). pose proof (else_extent d rhs (chain_lines (S d) rhs)). cbn [String.length] in *.
    set (hd := len (indented d _)) in *. set (a := parts lhs) in *. set (b := parts rhs) in *. nia.
  - inversion U as [|? ? I U']; subst. rewrite !Forall_app in U'. destruct U' as (L & W & R).
    rewrite !extent_app, !extent_cons, !extent_nil, (indented_length d "}").
    pose proof (weights_note_size w W) as W'. pose proof (loop_header_size d id h w I L W'). specialize (IHi (S d) R). cbn [String.length] in *.
    set (hd := len (indented d _)) in *. set (a := parts inner) in *. nia.
  - rewrite extent_cons, extent_nil, indented_length. cbn [String.length]. nia.
  - rewrite extent_cons, extent_nil, indented_length. cbn [String.length]. nia.
Qed.
Theorem any_length : forall c, u32_only c -> len (disp_ControlFlowChain c) <= 6 * (parts c * parts c) + 113 * parts c.
Proof. intros c U. rewrite chain_page, extent_page. pose proof (any_extent c 0 U). lia. Qed.

(** The factor 6 is met. *)
Fixpoint tower (k : nat) : ControlFlowChain :=
  match k with O => Block [] | S k => Selection 0%N (tower k) (Block [Block []]) (Build_SelectionControl false false) None end.
Lemma tower_parts : forall k, parts (tower k) = k.
Proof. induction k as [|k IH]; [reflexivity|]. cbn [tower parts map]. rewrite IH. cbn. lia. Qed.
Lemma tower_u32 : forall k, u32_only (tower k).
Proof. unfold u32_only. induction k as [|k IH]; [constructor|]. cbn [tower numbers_of weight_numbers app flat_map]. rewrite app_nil_r. constructor; [reflexivity|exact IH]. Qed.
Lemma tower_extent : forall k d, 12 * d * k + 6 * (k * k) <= extent (chain_lines d (tower k)) + 6 * k.
Proof.
  induction k as [|k IH]; intros d; [cbn; lia|]. cbn [tower chain_lines else_part]. rewrite !extent_app, !extent_cons, !extent_nil, !indented_length.
  specialize (IH (S d)). nia.
Qed.
Theorem any_sharp : forall k, exists c, u32_only c /\ parts c = k /\ 6 * (k * k) <= len (disp_ControlFlowChain c) + 6 * k.
Proof.
  intros k. exists (tower k). split; [apply tower_u32|]. split; [apply tower_parts|]. rewrite chain_page, extent_page. pose proof (tower_extent k 0). lia.
Qed.

(** ** Chains that were found *)
Lemma arm_lines : forall d l, chain_lines d (arm chain_of l) = flat_map (chain_lines d) (map chain_of l).
Proof. intros d [|s [|t l]]; cbn [arm chain_lines]; try reflexivity. destruct (is_exit s); [cbn [map flat_map]; rewrite app_nil_r|]; reflexivity. Qed.
Lemma arm_ids : forall l, chain_ids (arm chain_of l) = flat_map chain_ids (map chain_of l).
Proof. intros [|s [|t l]]; cbn [arm chain_ids]; try reflexivity. destruct (is_exit s); [cbn [map flat_map]; rewrite app_nil_r|]; reflexivity. Qed.
Lemma arm_numbers : forall l, numbers_of (arm chain_of l) = flat_map numbers_of (map chain_of l).
Proof. intros [|s [|t l]]; cbn [arm numbers_of]; try reflexivity. destruct (is_exit s); [cbn [map flat_map]; rewrite app_nil_r|]; reflexivity. Qed.
Lemma arm_parts : forall l, parts (arm chain_of l) = list_sum (map parts (map chain_of l)).
Proof. intros [|s [|t l]]; cbn [arm parts]; try reflexivity. destruct (is_exit s); [cbn; rewrite Nat.add_0_r|]; reflexivity. Qed.
Lemma arm_empty : forall l, arm chain_of l = Block [] -> l = [].
Proof. intros [|s [|t l]] H; [reflexivity| |]; cbn [arm] in H; [|discriminate H]. destruct s; cbn in H; discriminate H. Qed.

Notation ids c := (length (chain_ids c)).
Definition roomy (s : statement) : Prop := forall d, u32_only (chain_of s) ->
  extent (chain_lines d (chain_of s)) <= (16 * d + 95) * ids (chain_of s) + 8 * (ids (chain_of s) * ids (chain_of s)).
Lemma roomy_list : forall l, Forall roomy l -> forall d, Forall word (flat_map numbers_of (map chain_of l)) ->
  extent (flat_map (chain_lines d) (map chain_of l)) <= (16 * d + 95) * length (flat_map chain_ids (map chain_of l))
    + 8 * (length (flat_map chain_ids (map chain_of l)) * length (flat_map chain_ids (map chain_of l))).
Proof.
  intros l F d. induction F as [|s l H F IH]; intros U; [cbn; lia|]. cbn [map flat_map] in *. rewrite Forall_app in U. destruct U as [U1 U2].
  specialize (H d U1). specialize (IH U2). rewrite extent_app, app_length.
  set (a := ids (chain_of s)) in *. set (b := length (flat_map chain_ids (map chain_of l))) in *. nia.
Qed.
Lemma exit_header : forall d id w, word id -> Forall word (weight_numbers w) ->
  len (indented d ("selection %" ++ decimal id ++ selection_note (Build_SelectionControl false false) ++ weights_note w ++ " {")) <= 4 * d + 47.
Proof.
  intros d id w I W. rewrite indented_length, !slength_app. pose proof (decimal_size id I). pose proof (weights_note_size w W).
  change (selection_note (Build_SelectionControl false false)) with ""%string. cbn [String.length]. lia.
Qed.
Lemma roomy_all : forall s, roomy s.
Proof.
  unfold roomy, u32_only.
  induction s as [id|id cond yes no h w IHy IHn|id ct body h IHb|id cond rest w IHr|id cond rest w IHr] using statement_ind'; intros d U;
    cbn [chain_of chain_lines chain_ids numbers_of length] in *.
  - inversion U as [|? ? I _]; subst. rewrite extent_cons, extent_nil, indented_length. pose proof (decimal_size id I). cbn [String.append String.length]. lia.
  - inversion U as [|? ? I U']; subst. rewrite !Forall_app, !arm_numbers in U'. destruct U' as (W & L & R).
    rewrite app_length, !extent_app, !extent_cons, !extent_nil, (indented_length d "}"), !arm_lines, !arm_ids.
    pose proof (selection_header d id h w I W). pose proof (roomy_list yes IHy (S d) L). pose proof (roomy_list no IHn (S d) R).
    pose proof (else_extent d (arm chain_of no) (flat_map (chain_lines (S d)) (map chain_of no))). cbn [String.length] in *.
    set (hd := len (indented d _)) in *. set (a := length (flat_map chain_ids (map chain_of yes))) in *. set (b := length (flat_map chain_ids (map chain_of no))) in *. nia.
  - inversion U as [|? ? I U']; subst. cbn [weight_numbers app] in U'. rewrite Forall_app, arm_numbers in U'. destruct U' as (L & R).
    rewrite !extent_app, !extent_cons, !extent_nil, (indented_length d "}"), arm_lines, arm_ids.
    pose proof (loop_header_size d id h None I L (Nat.le_0_l _)). pose proof (roomy_list body IHb (S d) R). cbn [String.length weights_note] in *.
    set (hd := len (indented d _)) in *. set (a := length (flat_map chain_ids (map chain_of body))) in *. nia.
  - inversion U as [|? ? I U']; subst. rewrite !Forall_app, arm_numbers in U'. destruct U' as (W & R & _).
    rewrite app_nil_r. cbn [else_part]. rewrite !extent_app, !extent_cons, !extent_nil, (indented_length d "}"), (indented_length d "} else {"), (indented_length (S d) "break;"), arm_lines, arm_ids.
    pose proof (exit_header d id w I W). pose proof (roomy_list rest IHr (S d) R). cbn [String.length] in *.
    set (hd := len (indented d _)) in *. set (a := length (flat_map chain_ids (map chain_of rest))) in *. nia.
  - inversion U as [|? ? I U']; subst. rewrite !Forall_app, arm_numbers in U'. destruct U' as (W & R & _).
    rewrite app_nil_r. cbn [else_part]. rewrite !extent_app, !extent_cons, !extent_nil, (indented_length d "}"), (indented_length d "} else {"), (indented_length (S d) "continue;"), arm_lines, arm_ids.
    pose proof (exit_header d id w I W). pose proof (roomy_list rest IHr (S d) R). cbn [String.length] in *.
    set (hd := len (indented d _)) in *. set (a := length (flat_map chain_ids (map chain_of rest))) in *. nia.
Qed.
Lemma program_view : forall (X : Type) (f : ControlFlowChain -> list X) l last, (forall cs, f (Block cs) = flat_map f cs) ->
  f (program_chain l last) = (flat_map f (map chain_of l) ++ f (Atom last))%list.
Proof. intros X f [|s l] last B; [reflexivity|]. cbn [program_chain]. rewrite B, flat_map_app. cbn [flat_map]. rewrite app_nil_r. reflexivity. Qed.
Theorem found_length : forall E (f : FunctionDefinition E) c, returns f (Ok c) -> u32_only c ->
  len (disp_ControlFlowChain c) <= 8 * (ids c * ids c) + 95 * ids c.
Proof.
  intros E f c R U. apply structured_iff in R as (_ & l & last & merge & _ & _ & _ & ->). rewrite chain_page, extent_page.
  unfold u32_only in U. rewrite (program_view _ numbers_of) in U by reflexivity. rewrite Forall_app in U. destruct U as [U1 U2].
  rewrite (program_view _ (chain_lines 0)), (program_view _ chain_ids), extent_app, app_length by reflexivity.
  pose proof (roomy_list l (proj2 (Forall_forall _ _) (fun s _ => roomy_all s)) 0 U1). inversion U2 as [|? ? I _]; subst.
  cbn [chain_lines chain_ids length]. rewrite extent_cons, extent_nil, indented_length. pose proof (decimal_size last I). cbn [String.append String.length].
  set (a := length (flat_map chain_ids (map chain_of l))) in *. nia.
Qed.
