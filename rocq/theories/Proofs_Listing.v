(** The text of a function along its chain says what the function is, C124. *)
From Coq Require Import Lia.
From Verif Require Import Base Types Ops Groups ControlFlow DisplayBase DisplayTypes DisplayOps DisplayModule DisplayFlow
  Spec_Wire Spec_Layout Spec_Flow Spec_Names Spec_Text Proofs_Flow Proofs_Text Proofs_Text2 Proofs_Text3 Proofs_Text4 Proofs_Text5 Proofs_UserCode Spec_Visible Proofs_Visible.
Local Open Scope string_scope.

Definition solid (s : string) : Prop := match s with String c _ => c <> " "%char | EmptyString => False end.
Lemma blanks_inj : forall a b s t, solid s -> solid t -> blanks a ++ s = blanks b ++ t -> a = b /\ s = t.
Proof.
  induction a as [|a IH]; intros [|b] s t S T H; cbn in H.
  - auto.
  - subst s. cbn in S. contradiction.
  - subst t. cbn in T. contradiction.
  - injection H as H. destruct (IH b s t S T H) as [-> ->]. auto.
Qed.
Lemma indented_inj : forall a b s t, solid s -> solid t -> indented a s = indented b t -> a = b /\ s = t.
Proof. intros a b s t S T H. apply blanks_inj in H; [|assumption..]. destruct H as [H ->]. split; [lia|reflexivity]. Qed.

(* the line with the notes is not one of the others *)
Definition opening (note : string) (n : nat) : string := note ++ indented n "{".
Definition noted (note : string) : Prop := note = "" \/ exists s, note = " [" ++ s.
Lemma opening_not : forall note n m c s, noted note -> c <> "{"%char -> c <> " "%char -> opening note n = indented m (String c s) -> False.
Proof.
  intros note n m c s [->|[r ->]] C B H; unfold opening in H; cbn [append] in H.
  - apply indented_inj in H; [|cbn; discriminate|exact B]. destruct H as [_ H]. injection H as H _. congruence.
  - unfold indented in H at 2. destruct m as [|m]; [cbn in H; injection H as H _; congruence|].
    replace (4 * S m) with (S (S (4 * m + 2))) in H by lia. discriminate H.
Qed.
Lemma sel_noted : forall h w, noted (hint_text_sel h ++ weights_text w).
Proof. intros h w. unfold hint_text_sel, weights_text. destruct (selection_is_default h); [destruct w; [right; eexists; reflexivity|left; reflexivity]|right; eexists; reflexivity]. Qed.
Lemma loop_noted : forall h w, noted (hint_text_loop h ++ weights_text w).
Proof. intros h w. unfold hint_text_loop, weights_text. destruct (loop_is_default h); [destruct w; [right; eexists; reflexivity|left; reflexivity]|right; eexists; reflexivity]. Qed.

Section Listing.
Context {E : Type} (d : E -> string).
Hypothesis INJ : forall a b, d a = d b -> a = b.
Local Notation lines_of := (function_lines (disp_Core d)).

Lemma lines_leaves : forall g c n, lines_of g n c = flat_map (lines_of g n) (leaves c).
Proof.
  intros g c. induction c using chain_ind'; intro n; try (cbn [leaves flat_map]; rewrite app_nil_r; reflexivity).
  cbn [leaves function_lines]. induction H as [|x l Hx H IH]; [reflexivity|]. cbn [flat_map]. rewrite flat_map_app, <- Hx, IH. reflexivity.
Qed.

Lemma ids_leaves : forall c, chain_ids c = flat_map chain_ids (leaves c).
Proof.
  induction c using chain_ind'; try (cbn [leaves flat_map]; rewrite app_nil_r; reflexivity). cbn [leaves chain_ids].
  induction H as [|x l Hx H IH]; [reflexivity|]. cbn [flat_map]. rewrite flat_map_app, <- Hx, IH. reflexivity.
Qed.

(* which blocks may be where *)
Definition at_block (g : FunctionDefinition E) (id : N) (P : GroupBranch -> Prop) : Prop := exists b, block_of g id = Some b /\ P (BasicBlock_branch b).
Definition is_conditional (b : GroupBranch) : Prop := match b with GroupBranch_OpBranchConditional _ => True | _ => False end.
Fixpoint fitting (g : FunctionDefinition E) (c : ControlFlowChain) : Prop :=
  match c with
  | Atom id => at_block g id (fun b => ~ is_conditional b)
  | Block l => fold_right and True (map (fitting g) l)
  | Selection id lhs rhs _ _ => at_block g id is_conditional /\ fitting g lhs /\ fitting g rhs
  | Loop id inner _ _ => at_block g id (fun b => ~ is_conditional b) /\ fitting g inner
  | _ => True
  end.
Lemma fitting_block : forall g l, fitting g (Block l) <-> Forall (fitting g) l.
Proof.
  intros g l. cbn [fitting]. induction l as [|x l IH]; cbn; [split; [constructor|auto]|]. rewrite IH. split; [intros [A B]; constructor; assumption|intros H; inversion H; auto].
Qed.
Lemma fitting_leaves : forall g c, fitting g c -> Forall (fitting g) (leaves c).
Proof.
  intros g c. induction c using chain_ind'; intros F; try (cbn [leaves]; constructor; [exact F|constructor]).
  apply fitting_block in F. cbn [leaves]. induction H as [|x l Hx H IH]; [constructor|]. inversion F; subst. cbn [flat_map]. apply Forall_app. auto.
Qed.
Lemma fitting_two : forall g x y, fitting g x -> fitting g y -> fitting g (block [x; y]).
Proof.
  intros g x y X Y. assert (S : forall c, fitting g c -> Forall (fitting g) (items c)).
  { intros c F. destruct c; cbn [items]; try (constructor; [exact F|constructor]). apply fitting_block. exact F. }
  rewrite block2. apply fitting_block, Forall_app. auto.
Qed.

Lemma block_of_has : forall g : FunctionDefinition E, NoDup (labels g) -> forall id b, has_block g id b -> block_of g id = Some b.
Proof.
  intros g N id b [I L]. unfold block_of, labels in *. induction (FunctionDefinition_blocks g) as [|x l IH]; [destruct I|].
  cbn [map] in N. inversion N as [|? ? NI N']; subst. cbn [find]. destruct I as [->|I].
  - change (OpLabel_result_id (BasicBlock_label b)) with (label_of b). rewrite N.eqb_refl. reflexivity.
  - destruct (N.eqb _ _) eqn:Q; [|auto]. apply N.eqb_eq in Q. exfalso. apply NI. apply in_map_iff. exists b. split; [symmetry; exact Q|exact I].
Qed.
Lemma Search_fitting : forall g : FunctionDefinition E, NoDup (labels g) -> forall fl id c k, Search g fl id c k -> fitting g c.
Proof.
  intros g N fl id c k H. induction H.
  - exact I.
  - exists b. split; [apply block_of_has; assumption|]. rewrite H1. intros [].
  - apply fitting_two; [|assumption]. exists b. split; [apply block_of_has; assumption|]. rewrite H1. intros [].
  - apply fitting_two; [|assumption]. split; [|assumption]. exists b. split; [apply block_of_has; assumption|]. rewrite H1. intros [].
  - apply fitting_two; [|assumption]. split; [|split; assumption]. exists b. split; [apply block_of_has; assumption|]. rewrite H1. exact I.
  - split; [|split; [assumption|destruct is_break; exact I]]. exists b. split; [apply block_of_has; assumption|]. rewrite H1. exact I.
Qed.

(* the lines of one block *)
Lemma core_of_branch_injective : forall g h : GroupBranch, core_of_branch (E := E) g = core_of_branch h -> g = h.
Proof. intros g h H. destruct g, h; try discriminate H; try (injection H as H; f_equal; exact H). repeat match goal with x : OpReturn |- _ => destruct x end. reflexivity. Qed.
Lemma codes_inj : forall l l' : list (GroupCode E), map core_of_code l = map core_of_code l' -> l = l'.
Proof. induction l as [|x l IH]; intros [|y l'] H; try discriminate H; [reflexivity|]. injection H as X H. apply core_of_code_injective in X. f_equal; auto. Qed.
Definition code_line (n : nat) (i : Core E) : string := indented n (">>> " ++ disp_Core d i).
Lemma code_lines_inj : forall n id L L' R R', Forall result_fits L -> Forall result_fits L' ->
  (map (code_line n) L ++ indented n ("> End " ++ decimal id) :: R = map (code_line n) L' ++ indented n ("> End " ++ decimal id) :: R')%list -> L = L' /\ R = R'.
Proof.
  intros n id. assert (X : forall i, code_line n i = indented n ("> End " ++ decimal id) -> False).
  { intros i H. apply indented_inj in H; [|cbn; discriminate..]. destruct H as [_ H]. discriminate H. }
  induction L as [|i L IH]; intros [|j L'] R R' F F' H; cbn [map app] in H; [injection H as H; auto|injection H as H1 H2..].
  - symmetry in H1. destruct (X _ H1).
  - destruct (X _ H1).
  - inversion F; inversion F'; subst. apply indented_inj in H1; [|cbn; discriminate..]. destruct H1 as [_ H1]. injection H1 as H1.
    apply (core_inj d INJ) in H1; [|assumption..]. destruct (IH L' R R') as [-> ->]; [assumption..|]. subst. auto.
Qed.
Definition fits (g : FunctionDefinition E) : Prop := forall b i, In b (FunctionDefinition_blocks g) -> In i (BasicBlock_code b) -> result_fits (core_of_code i).
Lemma branch_fits : forall b : GroupBranch, result_fits (core_of_branch (E := E) b).
Proof. intros b r H. destruct b; discriminate H. Qed.
Definition block_core (b : BasicBlock E) : list (Core E) := (map core_of_code (BasicBlock_code b) ++ [core_of_branch (BasicBlock_branch b)])%list.
Lemma core_fits : forall g id b, fits g -> block_of g id = Some b -> Forall result_fits (block_core b).
Proof.
  intros g id b F B. unfold block_core. apply Forall_app. split; [|constructor; [apply branch_fits|constructor]]. apply Forall_map, Forall_forall. intros i I.
  apply (F b i); [|exact I]. unfold block_of in B. apply find_some in B as [B _]. exact B.
Qed.
Lemma block_core_inj : forall b b', block_core b = block_core b' -> BasicBlock_code b = BasicBlock_code b' /\ BasicBlock_branch b = BasicBlock_branch b'.
Proof.
  intros b b' H. unfold block_core in H. apply app_inj_tail in H as [H1 H2]. split; [apply codes_inj; exact H1|apply core_of_branch_injective; exact H2].
Qed.

Lemma decimal_inj : forall a b, decimal a = decimal b -> a = b.
Proof. exact u32_inj. Qed.

Context (f f' : FunctionDefinition E).
Hypothesis FIT : fits f.
Hypothesis FIT' : fits f'.

Definition alike (id : N) : Prop := exists b b', block_of f id = Some b /\ block_of f' id = Some b' /\ BasicBlock_code b = BasicBlock_code b' /\ BasicBlock_branch b = BasicBlock_branch b'.
Lemma block_lines_inj : forall n id id' R R' P P', at_block f id P -> at_block f' id' P' ->
  (block_lines (disp_Core d) f n id ++ R = block_lines (disp_Core d) f' n id' ++ R')%list -> id = id' /\ R = R' /\ alike id.
Proof.
  intros n id id' R R' P P' (b & B & _) (b' & B' & _) H. unfold block_lines in H. rewrite B, B' in H. cbn [app] in H. injection H as H1 H2.
  apply indented_inj in H1; [|cbn; discriminate..]. destruct H1 as [_ H1]. injection H1 as H1. apply decimal_inj in H1. subst id'. split; [reflexivity|].
  rewrite <- ?app_assoc in H2. cbn [app] in H2. apply code_lines_inj in H2; [|exact (core_fits _ _ _ FIT B)|exact (core_fits _ _ _ FIT' B')]. destruct H2 as [H2 ->].
  split; [reflexivity|]. exists b, b'. apply (block_core_inj b b') in H2. tauto.
Qed.

(* where a list of elements ends *)
Definition ending (n : nat) (r : list string) : Prop := r = [] \/ exists m s t, m < n /\ r = indented m (String "}" s) :: t.
Definition starts (n : nat) (r : list string) : Prop := exists c s t, r = indented n (String c s) :: t /\ c <> "}"%char /\ c <> "{"%char /\ c <> " "%char.
Lemma first_line : forall g x n r, loose x -> fitting g x -> starts n (lines_of g n x ++ r)%list.
Proof.
  intros g x n r L F. destruct x; try contradiction L; cbn [function_lines fitting] in *.
  - destruct F as (b & B & _). unfold block_lines. rewrite B. eexists _, _, _. split; [reflexivity|]. repeat split; discriminate.
  - destruct F as [(b & B & _) _]. unfold block_lines. rewrite B. eexists _, _, _. split; [reflexivity|]. repeat split; discriminate.
  - destruct F as [(b & B & _) _]. unfold block_lines. rewrite B. eexists _, _, _. split; [reflexivity|]. repeat split; discriminate.
  - eexists _, _, _. split; [reflexivity|]. repeat split; discriminate.
  - eexists _, _, _. split; [reflexivity|]. repeat split; discriminate.
Qed.
Lemma starts_not_ending : forall n r, starts n r -> ending n r -> False.
Proof.
  intros n r (c & s & t & -> & C & _ & B) [H|(m & s' & t' & L & H)]; [discriminate H|]. injection H as H _.
  apply indented_inj in H; [|exact B|cbn; discriminate]. destruct H as [-> _]. lia.
Qed.
(* the line with the notes does not come next *)
Lemma not_open : forall g l n r note m t, Forall loose l -> Forall (fitting g) l -> ending n r -> noted note ->
  (flat_map (lines_of g n) l ++ r = opening note m :: t)%list -> False.
Proof.
  intros g l n r note m t L F R N H. destruct l as [|x l].
  - cbn in H. destruct R as [->|(k & s & u & _ & ->)]; [discriminate H|]. injection H as H _. symmetry in H.
    apply opening_not in H; [exact H|exact N|discriminate..].
  - inversion L; inversion F; subst. cbn [flat_map] in H. rewrite <- app_assoc in H. destruct (first_line g x n (flat_map (lines_of g n) l ++ r)%list) as (c & s & u & Q & C1 & C2 & C3); [assumption..|].
    rewrite Q in H. injection H as H _. symmetry in H. apply opening_not in H; [exact H|exact N|assumption..].
Qed.

Lemma sel_lines : forall g id lhs rhs h w n, lines_of g n (Selection id lhs rhs h w)
  = (block_lines (disp_Core d) g n id ++ opening (hint_text_sel h ++ weights_text w) n :: lines_of g (S n) lhs
     ++ else_part rhs (indented n "} else {" :: lines_of g (S n) rhs) ++ [indented n "}"])%list.
Proof. intros. cbn [function_lines]. unfold opening. rewrite selection_note_ok, weights_note_ok, sapp_assoc. reflexivity. Qed.
Lemma loop_lines : forall g id inner h w n, lines_of g n (Loop id inner h w)
  = (block_lines (disp_Core d) g n id ++ opening (hint_text_loop h ++ weights_text w) n :: lines_of g (S n) inner ++ [indented n "}"])%list.
Proof. intros. cbn [function_lines]. unfold opening. rewrite loop_note_ok, weights_note_ok, sapp_assoc. reflexivity. Qed.
Lemma ending_close : forall n s t, ending (S n) (indented n (String "}" s) :: t).
Proof. intros n s t. right. exists n, s, t. split; [lia|reflexivity]. Qed.
Lemma ending_else : forall rhs l n s t, ending (S n) (else_part rhs (indented n "} else {" :: l) ++ indented n (String "}" s) :: t)%list.
Proof. intros rhs l n s t. unfold else_part. destruct rhs as [|[|]| | | |]; apply ending_close. Qed.

Lemma listing_steps : forall k l l' n r r', List.length (flat_map (lines_of f n) l ++ r) <= k -> Forall loose l -> Forall loose l' ->
  Forall (fitting f) l -> Forall (fitting f') l' -> ending n r -> ending n r' ->
  (flat_map (lines_of f n) l ++ r = flat_map (lines_of f' n) l' ++ r')%list ->
  flat_map steps l = flat_map steps l' /\ r = r' /\ forall id, In id (flat_map chain_ids l) -> alike id.
Proof.
  induction k as [k IH] using (well_founded_induction Wf_nat.lt_wf). intros l l' n r r' K L L' F F' R R' H.
  assert (IHc : forall c c' m s s', List.length (lines_of f m c ++ s) < k -> fitting f c -> fitting f' c' -> ending m s -> ending m s' ->
    (lines_of f m c ++ s = lines_of f' m c' ++ s')%list -> steps c = steps c' /\ s = s' /\ forall id, In id (chain_ids c) -> alike id).
  { intros c c' m s s' Km Fc Fc' S S' Hc. rewrite !lines_leaves in Hc. rewrite lines_leaves in Km. rewrite <- (steps_leaves c), <- (steps_leaves c').
    rewrite ids_leaves. apply (IH _ Km _ _ _ _ _ (le_n _) (leaves_loose c) (leaves_loose c') (fitting_leaves _ _ Fc) (fitting_leaves _ _ Fc') S S' Hc). }
  destruct l as [|x l], l' as [|x' l'].
  - cbn in *. split; [reflexivity|]. split; [exact H|intros id []].
  - exfalso. inversion L' as [|? ? Lx _]. inversion F' as [|? ? Fx _]. cbn [flat_map app] in H. rewrite <- app_assoc in H.
    apply (starts_not_ending n r); [rewrite H; apply first_line; assumption|exact R].
  - exfalso. inversion L as [|? ? Lx _]. inversion F as [|? ? Fx _]. cbn [flat_map app] in H. rewrite <- app_assoc in H.
    apply (starts_not_ending n r'); [rewrite <- H; apply first_line; assumption|exact R'].
  - inversion L as [|? ? Lx Ll]; subst. inversion L' as [|? ? Lx' Ll']; subst. inversion F as [|? ? Fx Fl]; subst. inversion F' as [|? ? Fx' Fl']; subst.
    cbn [flat_map] in H, K. cbn [flat_map]. rewrite <- ?app_assoc in H. rewrite <- app_assoc in K.
    assert (Tail : forall a a' ids, a = a' -> (forall id, In id ids -> alike id) -> (flat_map (lines_of f n) l ++ r = flat_map (lines_of f' n) l' ++ r')%list ->
      List.length (flat_map (lines_of f n) l ++ r) < k ->
      (a ++ flat_map steps l = a' ++ flat_map steps l')%list /\ r = r' /\ forall id, In id (ids ++ flat_map chain_ids l)%list -> alike id).
    { intros a a' ids -> A Hl Kl. destruct (IH _ Kl _ _ _ _ _ (le_n _) Ll Ll' Fl Fl' R R' Hl) as (-> & -> & Al). split; [reflexivity|]. split; [reflexivity|].
      intros id I. apply in_app_iff in I as [I|I]; auto. }
    assert (BL : forall id, at_block f id (fun _ => True) -> 2 <= List.length (block_lines (disp_Core d) f n id)).
    { intros id (b & B & _). unfold block_lines. rewrite B. rewrite !app_length. cbn. lia. }
    destruct x as [i|?|i lhs rhs h w|i inner h w| |]; try contradiction Lx; destruct x' as [i'|?|i' lhs' rhs' h' w'|i' inner' h' w'| |]; try contradiction Lx';
      rewrite ?sel_lines, ?loop_lines in H; rewrite ?sel_lines, ?loop_lines in K; cbn [function_lines fitting] in H, K, Fx, Fx'.
    all: try (exfalso; first [destruct Fx as [(b & B & _) _]|destruct Fx as (b & B & _)]; unfold block_lines in H; rewrite B in H; cbn [app] in H; injection H as H _;
              apply indented_inj in H; [|cbn; discriminate..]; destruct H as [_ H]; discriminate H).
    all: try (exfalso; first [destruct Fx' as [(b & B & _) _]|destruct Fx' as (b & B & _)]; unfold block_lines in H; rewrite B in H; cbn [app] in H; injection H as H _;
              apply indented_inj in H; [|cbn; discriminate..]; destruct H as [_ H]; discriminate H).
    all: try (exfalso; cbn [app] in H; injection H as H _; apply indented_inj in H; [|cbn; discriminate..]; destruct H as [_ H]; discriminate H).
    + (* two blocks *)
      apply (block_lines_inj _ _ _ _ _ _ _ Fx Fx') in H. destruct H as (-> & H & A).
      apply (Tail [Atom i'] [Atom i'] [i']); [reflexivity|intros id [<-|[]]; exact A|exact H|].
      destruct Fx as (b & B & _). rewrite app_length in K. specialize (BL i' ltac:(exists b; auto)). lia.
    + (* a block and a selection *) exfalso. destruct Fx' as [Fx' _]. rewrite <- ?app_assoc in H. apply (block_lines_inj _ _ _ _ _ _ _ Fx Fx') in H as (-> & _ & (b & b' & B & B' & _ & Q)).
      destruct Fx as (c & C & NC), Fx' as (c' & C' & YC). rewrite B in C. injection C as <-. rewrite B' in C'. injection C' as <-. rewrite Q in NC. contradiction.
    + (* a block and a loop *) exfalso. destruct Fx' as [Fx' _]. rewrite <- app_assoc in H. apply (block_lines_inj _ _ _ _ _ _ _ Fx Fx') in H as (-> & H & _).
      eapply not_open in H; [exact H|assumption..|apply loop_noted].
    + exfalso. destruct Fx as [Fx _]. rewrite <- app_assoc in H. apply (block_lines_inj _ _ _ _ _ _ _ Fx Fx') in H as (-> & _ & (b & b' & B & B' & _ & Q)).
      destruct Fx as (c & C & YC), Fx' as (c' & C' & NC). rewrite B in C. injection C as <-. rewrite B' in C'. injection C' as <-. rewrite Q in YC. contradiction.
    + (* two selections *) destruct Fx as (Fi & Fa & Fb), Fx' as (Fi' & Fa' & Fb'). rewrite <- ?app_assoc in H. rewrite <- ?app_assoc in K.
      apply (block_lines_inj _ _ _ _ _ _ _ Fi Fi') in H as (-> & H & A). rewrite app_length in K.
      destruct Fi as (b & B & _). specialize (BL i' ltac:(exists b; auto)). cbn [app] in H, K. injection H as H1 H.
      unfold opening in H1. apply sapp_cancel_r in H1. apply hints_sel in H1 as [-> ->]. rewrite <- ?app_assoc in H. rewrite <- ?app_assoc in K. cbn [app] in H, K. cbn [List.length] in K.
      apply IHc in H; [|lia|assumption..|apply ending_else|apply ending_else]. destruct H as (Hl & H & Al). rewrite app_length in K.
      assert (Hr : steps rhs = steps rhs' /\ (flat_map (lines_of f n) l ++ r = flat_map (lines_of f' n) l' ++ r')%list /\ forall id, In id (chain_ids rhs) -> alike id).
      { assert (E1 : rhs = Block [] \/ forall u : list string, else_part rhs u = u) by (destruct rhs as [|[|]| | | |]; auto).
        assert (E2 : rhs' = Block [] \/ forall u : list string, else_part rhs' u = u) by (destruct rhs' as [|[|]| | | |]; auto).
        destruct E1 as [->|E1], E2 as [->|E2]; cbn [else_part app] in H; rewrite ?E1, ?E2 in H; rewrite ?E1 in K; cbn [app] in H.
        - injection H as H. split; [reflexivity|]. split; [exact H|intros id []].
        - exfalso. injection H as H _. apply indented_inj in H; [|cbn; discriminate..]. destruct H as [_ H]. discriminate H.
        - exfalso. injection H as H _. apply indented_inj in H; [|cbn; discriminate..]. destruct H as [_ H]. discriminate H.
        - injection H as H. cbn [app List.length] in K. rewrite <- ?app_assoc in H. apply IHc in H; [|lia|assumption..|apply ending_close|apply ending_close].
          destruct H as (Hr & H & Ar). injection H as H. auto. }
      destruct Hr as (Hr & Ht & Ar). cbn [steps chain_ids]. rewrite Hl, Hr.
      apply (Tail _ _ (i' :: chain_ids lhs ++ chain_ids rhs)%list); [reflexivity| |exact Ht|].
      * intros id [<-|I]; [exact A|]. apply in_app_iff in I as [I|I]; auto.
      * rewrite !app_length in K. cbn [List.length] in K. rewrite !app_length in K. rewrite app_length. lia.
    + exfalso. destruct Fx as [Fx _], Fx' as [Fx' _]. rewrite <- ?app_assoc in H. apply (block_lines_inj _ _ _ _ _ _ _ Fx Fx') in H as (-> & _ & (b & b' & B & B' & _ & Q)).
      destruct Fx as (c & C & YC), Fx' as (c' & C' & NC). rewrite B in C. injection C as <-. rewrite B' in C'. injection C' as <-. rewrite Q in YC. contradiction.
    + (* a loop and a block *) exfalso. destruct Fx as [Fx _]. rewrite <- app_assoc in H. apply (block_lines_inj _ _ _ _ _ _ _ Fx Fx') in H as (-> & H & _). symmetry in H.
      eapply not_open in H; [exact H|assumption..|apply loop_noted].
    + exfalso. destruct Fx as [Fx _], Fx' as [Fx' _]. rewrite <- ?app_assoc in H. apply (block_lines_inj _ _ _ _ _ _ _ Fx Fx') in H as (-> & _ & (b & b' & B & B' & _ & Q)).
      destruct Fx as (c & C & NC), Fx' as (c' & C' & YC). rewrite B in C. injection C as <-. rewrite B' in C'. injection C' as <-. rewrite Q in NC. contradiction.
    + (* two loops *) destruct Fx as (Fi & Fa), Fx' as (Fi' & Fa'). rewrite <- ?app_assoc in H. rewrite <- ?app_assoc in K.
      apply (block_lines_inj _ _ _ _ _ _ _ Fi Fi') in H as (-> & H & A). rewrite app_length in K.
      destruct Fi as (b & B & _). specialize (BL i' ltac:(exists b; auto)). cbn [app] in H, K. injection H as H1 H.
      unfold opening in H1. apply sapp_cancel_r in H1. apply hints_loop in H1 as [-> ->]. rewrite <- ?app_assoc in H. rewrite <- ?app_assoc in K. cbn [app] in H, K. cbn [List.length] in K.
      apply IHc in H; [|lia|assumption..|apply ending_close|apply ending_close]. destruct H as (Hl & H & Al). rewrite app_length in K.
      injection H as H. cbn [steps chain_ids]. rewrite Hl.
      apply (Tail _ _ (i' :: chain_ids inner)%list); [reflexivity|intros id [<-|I]; auto|exact H|].
      cbn [List.length] in K. rewrite app_length in K. rewrite app_length. lia.
    + cbn [app] in H. injection H as H. apply (Tail [Break] [Break] []); [reflexivity|intros id []|exact H|]. cbn [app List.length] in K. lia.
    + cbn [app] in H. injection H as H. apply (Tail [Continue] [Continue] []); [reflexivity|intros id []|exact H|]. cbn [app List.length] in K. lia.
Qed.

Hypothesis ONE : forall b i, In b (FunctionDefinition_blocks f) -> In i (BasicBlock_code b) -> ~ contains line_feed (disp_Core d (core_of_code i)).
Hypothesis ONE' : forall b i, In b (FunctionDefinition_blocks f') -> In i (BasicBlock_code b) -> ~ contains line_feed (disp_Core d (core_of_code i)).
Lemma printed_lines : forall (g : FunctionDefinition E) c text,
  (forall b i, In b (FunctionDefinition_blocks g) -> In i (BasicBlock_code b) -> ~ contains line_feed (disp_Core d (core_of_code i))) ->
  disp_ControlFlowFunctionPrinter d g c = Ok text -> lines text = lines_of g 0 c.
Proof.
  intros g c text O H. destruct (printer_exact d g c) as [A B].
  destruct (Forall_dec (fun id => count_occ N.eq_dec (labels g) id = 1) (fun id => Nat.eq_dec _ 1) (chain_ids c)) as [Y|N].
  - rewrite Forall_forall in Y. destruct (A Y) as (t & T & L). rewrite H in T. injection T as <-. apply L. exact O.
  - exfalso. rewrite B in H; [discriminate H|]. apply neg_Forall_Exists_neg in N; [|intro; apply Nat.eq_dec]. apply Exists_exists in N. exact N.
Qed.
Theorem listing : forall c c' text, returns f (Ok c) -> returns f' (Ok c') ->
  disp_ControlFlowFunctionPrinter d f c = Ok text -> disp_ControlFlowFunctionPrinter d f' c' = Ok text ->
  c = c' /\ forall id, In id (chain_ids c) -> exists b b', has_block f id b /\ has_block f' id b'
    /\ BasicBlock_code b = BasicBlock_code b' /\ BasicBlock_branch b = BasicBlock_branch b' /\ visible b = visible b'.
Proof.
  intros c c' text R R' T T'. pose proof R as [_ [dp Q]]. pose proof R' as [_ [dp' Q']]. apply find_inv in Q, Q'.
  destruct Q as (N & s & _ & _ & S), Q' as (N' & s' & _ & _ & S').
  apply printed_lines in T; [|exact ONE]. apply printed_lines in T'; [|exact ONE']. rewrite T in T'. rewrite !lines_leaves in T'.
  assert (X : flat_map steps (leaves c) = flat_map steps (leaves c') /\ @nil string = [] /\ forall id, In id (flat_map chain_ids (leaves c)) -> alike id).
  { apply (listing_steps _ _ _ 0 [] [] (le_n _)); try apply leaves_loose; try (left; reflexivity).
    - apply fitting_leaves. exact (Search_fitting _ N _ _ _ _ S).
    - apply fitting_leaves. exact (Search_fitting _ N' _ _ _ _ S').
    - rewrite !app_nil_r. exact T'. }
  destruct X as (X & _ & A). rewrite !steps_leaves in X.
  assert (c = c') as <- by exact (proj2 (steps_normal c) true c' (Search_normal _ _ _ _ _ _ S) (Search_normal _ _ _ _ _ _ S') X).
  split; [reflexivity|]. intros id I. rewrite ids_leaves in I. destruct (A id I) as (b & b' & B & B' & C1 & C2).
  destruct (proj1 (same_chain_iff _ _ _ R) R') as (_ & _ & V). rewrite <- ids_leaves in I. destruct (V id I) as (v & v' & Hv & Hv' & VV).
  pose proof (block_of_has _ N _ _ Hv) as Z. rewrite B in Z. injection Z as <-. pose proof (block_of_has _ N' _ _ Hv') as Z. rewrite B' in Z. injection Z as <-.
  exists b, b'. auto 8.
Qed.
End Listing.
