(** The functions that are structured as graphs are those written from neat programs (C117). *)
From Coq Require Import Permutation Relation_Operators.
From Verif Require Import Base Types Ops Groups ControlFlow Spec_Flow Spec_Structured Spec_Standard Spec_Returns Spec_Simple Spec_Occurs Spec_Image
  Proofs_Flow Proofs_Flow2 Proofs_Flow3 Proofs_Structured Proofs_Cost Proofs_Returns Proofs_Standard Proofs_Standard2 Proofs_Simple2 Proofs_Occurs2.

(** ** Written functions are structured graphs *)
Section Written.
Context {E : Type} (f : FunctionDefinition E) (program : list statement) (last : BlockId).
Hypothesis W : written_plainly f program last.
Hypothesis Ends : every loops_end program.
Hypothesis NE : neat_program program.

Lemma written_graph : structured_graph f.
Proof.
  pose proof W as (T & ND & P & En). pose proof (neat_rules f program last T ND P En Ends NE) as MR. pose proof (neat_constructs f program last T ND P En Ends NE) as CR.
  assert (LB : Permutation (labels f) (flat_map blocks_of program ++ [last])).
  { rewrite <- (skeleton_labels program last). apply (Permutation_map (fun b : block_skeleton => fst (fst b))) in P. rewrite map_map in P. exact P. }
  assert (REACH : forall x, In x (labels f) -> reachable f x) by (intros x I; apply (all_reachable f program last T ND P En Ends); exact (Permutation_in _ LB I)).
  assert (RM : merges_reached f).
  { intros h m D _. destruct (declares_part f program last P _ _ D) as (s & l & next & loop & tail & PT & -> & C & ->).
    apply (all_reachable f program last T ND P En Ends). apply (part_order program last T ND Ends _ _ _ _ (part_later _ _ _ _ _ _ _ PT)).
    destruct (part_facts program last T ND Ends _ _ _ _ PT) as [_ _ FT _ _ _ _ _]. apply first_inside with (last := last); [exact FT|].
    apply (construct_followed s l tail C). intros ->. destruct (neat_facts program last T ND Ends (proj2 NE) _ _ _ _ PT) as (_ & X & _). auto. }
  assert (LC : loops_close f).
  { intros h m ct u n HL BE D. destruct (header_part f program last P _ _ _ HL) as (body & hint & l & next & loop & tail & PT & ->).
    destruct (one_back_edge f program last T ND P En Ends (proj2 NE) _ _ _ _ _ _ _ _ PT) as (u0 & n0 & I & _ & U). destruct (U _ _ BE) as [-> _].
    destruct (dominates_not_after f program last T ND P En Ends (first_of l next) u0) as [Q|B]; [|exact D| |].
    - apply (part_order program last T ND Ends _ _ _ _ PT). cbn [flat_map blocks_of]. right. rewrite !in_app_iff. auto.
    - destruct (f_loop _ _ _ _ _ _ (part_facts program last T ND Ends _ _ _ _ (part_body _ _ _ _ _ _ _ _ _ _ PT)) _ _ eq_refl) as (_ & [_ X] & _). apply X. rewrite Q. exact I.
    - apply (before_irrefl program last u0). eapply before_trans; [|exact B]. apply (part_first program last T ND Ends _ _ _ _ _ PT); [|right; exact I].
      apply (construct_followed (Repeat h ct body hint) l tail eq_refl). intros ->. destruct (neat_facts program last T ND Ends (proj2 NE) _ _ _ _ PT) as (_ & X & _). auto. }
  assert (RET : returns f (Ok (program_chain program last))) by (eapply structured_round_trip; eassumption).
  destruct (proj1 (simple_iff E f MR CR LC RM) (ex_intro (fun c => returns f (Ok c)) _ RET)) as (NDl & NB & SI).
  split; [exact NB|]. split; [exact NDl|]. split; [intros b I; apply REACH; apply in_map; exact I|]. split; [exact MR|]. split; [exact CR|]. split; [exact LC|]. split; [exact RM|]. split; [exact SI|].
  apply (occurs_once f _ MR CR LC RM RET). rewrite program_ids. exact ND.
Qed.
End Written.

(** ** Structured graphs are written from a program *)

(** Exits stand where the loop starts again. *)
Lemma placed_last : forall s stops loop next tail, placed stops loop s next -> NoDup (blocks_of s) -> (forall h m, loop = Some (h, m) -> ~ In h (blocks_of s)) ->
  (tail = false -> forall h m, loop = Some (h, m) -> next <> h) -> exits_last tail s.
Proof.
  assert (Q : forall l, Forall (fun s => forall stops loop next tail, placed stops loop s next -> NoDup (blocks_of s) -> (forall h m, loop = Some (h, m) -> ~ In h (blocks_of s)) ->
      (tail = false -> forall h m, loop = Some (h, m) -> next <> h) -> exits_last tail s) l ->
    forall stops loop next tail, each (placed stops loop) l next -> NoDup (flat_map blocks_of l) -> (forall h m, loop = Some (h, m) -> ~ In h (flat_map blocks_of l)) ->
      (tail = false -> forall h m, loop = Some (h, m) -> next <> h) -> tail_last exits_last tail l).
  { intros l F. induction F as [|s l Fs F IH]; intros stops loop next tail PL ND NH NT; [exact I|]. cbn [each] in PL. destruct PL as [Ps Pl]. cbn [flat_map] in ND, NH.
    assert (NHs : forall h m, loop = Some (h, m) -> ~ In h (blocks_of s)) by (intros h m X Y; apply (NH h m X); apply in_or_app; auto).
    assert (NHl : forall h m, loop = Some (h, m) -> ~ In h (flat_map blocks_of l)) by (intros h m X Y; apply (NH h m X); apply in_or_app; auto).
    pose proof (NoDup_app_l _ _ ND) as NDs. pose proof (NoDup_app_r _ _ ND) as NDl. pose proof (IH stops loop next tail Pl NDl NHl NT) as TL. destruct l as [|s' l]; cbn [tail_last].
    - apply (Fs stops loop next tail Ps NDs NHs NT).
    - split; [|exact TL]. apply (Fs stops loop (start s') false Ps NDs NHs). intros _ h m X Y. apply (NHl h m X). rewrite <- Y. cbn [flat_map]. apply in_or_app. left. apply start_in. }
  induction s as [id|id cond yes no hint w IHy IHn|id ct body hint IHb|id cond rest w IHr|id cond rest w IHr] using statement_ind'; intros stops loop next tail PL ND NH NT;
    cbn [placed] in PL; destruct PL as [_ PL]; cbn [exits_last blocks_of] in *.
  - exact I.
  - destruct PL as [Py Pn]. inversion ND as [|x y N1 N2]; subst. split; [apply (Q yes IHy _ _ _ _ Py); [exact (NoDup_app_l _ _ N2)|intros h m X Y; apply (NH h m X); right; apply in_or_app; auto|exact NT]|].
    apply (Q no IHn _ _ _ _ Pn); [exact (NoDup_app_r _ _ N2)|intros h m X Y; apply (NH h m X); right; apply in_or_app; auto|exact NT].
  - inversion ND as [|x y N1 N2]; subst. apply (Q body IHb _ _ _ _ PL N2); [|discriminate]. intros h m X. injection X as <- _. exact N1.
  - destruct PL as [(m & X) Pr]. inversion ND as [|x y N1 N2]; subst. split; [destruct tail; [reflexivity|destruct (NT eq_refl _ _ eq_refl eq_refl)]|].
    apply (Q rest IHr _ _ _ _ Pr N2); [|discriminate]. intros h m' X. intros Y. apply (NH h m' X). right. exact Y.
  - destruct PL as [(m & X & _) Pr]. inversion ND as [|x y N1 N2]; subst. split; [destruct tail; [reflexivity|destruct (NT eq_refl _ _ eq_refl eq_refl)]|].
    apply (Q rest IHr _ _ _ _ Pr N2); [|discriminate]. intros h m' X. intros Y. apply (NH h m' X). right. exact Y.
Qed.
Lemma placed_all_last : forall l next, each (placed [] None) l next -> NoDup (flat_map blocks_of l) -> tail_last exits_last false l.
Proof.
  induction l as [|s l IH]; intros next PL ND; [exact I|]. cbn [each] in PL. destruct PL as [Ps Pl]. cbn [flat_map] in ND. pose proof (IH next Pl (NoDup_app_r _ _ ND)) as TL.
  assert (X : exits_last false s) by (apply (placed_last s _ _ _ false Ps (NoDup_app_l _ _ ND)); discriminate). destruct l as [|s' l]; cbn [tail_last]; auto.
Qed.

(** Without an exit, the edges of a loop body stay. *)
Lemma leaves_dec : forall s, {leaves s} + {~ leaves s}.
Proof.
  fix go 1. intros s.
  assert (S : forall l, (forall s, {leaves s} + {~ leaves s}) -> {some leaves l} + {~ some leaves l}).
  { intros l D. induction l as [|x l IH]; [right; intros []|]. cbn [some]. destruct (D x); [left; auto|]. destruct IH; [left; auto|right; tauto]. }
  destruct s as [id|id cond yes no hint w|id ct body hint|id cond rest w|id cond rest w]; cbn [leaves].
  - right. tauto.
  - assert (Y : {some leaves yes} + {~ some leaves yes}) by (induction yes as [|x l IH]; [right; intros []|]; cbn [some]; destruct (go x); [left; auto|]; destruct IH; [left; auto|right; tauto]).
    assert (N : {some leaves no} + {~ some leaves no}) by (induction no as [|x l IH]; [right; intros []|]; cbn [some]; destruct (go x); [left; auto|]; destruct IH; [left; auto|right; tauto]).
    destruct Y; [left; auto|]. destruct N; [left; auto|right; tauto].
  - right. tauto.
  - left. exact I.
  - induction rest as [|x l IH]; [right; intros []|]. cbn [some]. destruct (go x); [left; auto|]. destruct IH; [left; auto|right; tauto].
Defined.
Lemma some_leaves_dec : forall l, {some leaves l} + {~ some leaves l}.
Proof. induction l as [|x l IH]; [right; intros []|]. cbn [some]. destruct (leaves_dec x); [left; auto|]. destruct IH; [left; auto|right; tauto]. Qed.
Definition remains (s : statement) : Prop := ~ leaves s -> forall h m next u n v, edge (lower (Some (h, m)) s next) u n v -> In v (blocks_of s) \/ v = next \/ v = h.
Lemma remains_sequence : forall l, Forall remains l -> ~ some leaves l -> forall h m next u n v, edge (sequence (lower (Some (h, m))) l next) u n v ->
  In v (flat_map blocks_of l) \/ v = next \/ v = h.
Proof.
  intros l F. induction F as [|s l Fs F IH]; intros NL h m next u n v H; [destruct (edge_nil _ _ _ H)|].
  cbn [some] in NL. cbn [sequence] in H. cbn [flat_map]. rewrite in_app_iff. apply edge_app in H as [H|H].
  - destruct (Fs ltac:(tauto) _ _ _ _ _ _ H) as [J|[->|L]]; auto. destruct (first_in l next) as [->|J]; auto.
  - destruct (IH ltac:(tauto) _ _ _ _ _ _ H) as [J|[J|J]]; auto.
Qed.
Lemma all_remain : forall s, remains s.
Proof.
  induction s as [id|id cond yes no hint w IHy IHn|id ct body hint IHb|id cond rest w IHr|id cond rest w IHr] using statement_ind'; intros NL h m next u n v H;
    cbn [leaves] in NL; cbn [lower] in H; apply edge_cons in H; cbn [goes_to OpBranch_target_label OpBranchConditional_true_label OpBranchConditional_false_label] in H; cbn [blocks_of].
  - destruct H as [[_ H]|H]; [apply nth_1 in H as [_ ->]; auto|destruct (edge_nil _ _ _ H)].
  - destruct H as [[_ H]|H].
    + apply nth_2 in H as [[_ ->]|[_ ->]]; [destruct (first_in yes next) as [->|J]|destruct (first_in no next) as [->|J]]; auto; left; right; apply in_or_app; auto.
    + apply edge_app in H as [H|H]; [destruct (remains_sequence yes IHy ltac:(tauto) _ _ _ _ _ _ H) as [J|[J|J]]|destruct (remains_sequence no IHn ltac:(tauto) _ _ _ _ _ _ H) as [J|[J|J]]]; auto; left; right; apply in_or_app; auto.
  - destruct H as [[_ H]|H].
    + apply nth_1 in H as [_ ->]. destruct (first_in body id) as [->|J]; left; [left; reflexivity|right; exact J].
    + destruct (outs_all body _ _ _ _ _ H) as [J|[->|(h' & m' & Q & J)]]; [left; right; exact J|left; left; reflexivity|]. injection Q as <- <-. destruct J as [->| ->]; [left; left; reflexivity|auto].
  - destruct (NL I).
  - destruct H as [[_ H]|H].
    + apply nth_2 in H as [[_ ->]|[_ ->]]; [|auto]. destruct (first_in rest next) as [->|J]; auto. left. right. exact J.
    + destruct (remains_sequence rest IHr ltac:(tauto) _ _ _ _ _ _ H) as [J|[J|J]]; auto. left. right. exact J.
Qed.

Section Graph.
Context {E : Type} (f : FunctionDefinition E).
Hypothesis NDl : NoDup (labels f).
Hypothesis ALL : forall b, In b (FunctionDefinition_blocks f) -> reachable f (label_of b).
Hypothesis MR : merge_rules f.
Hypothesis RM : merges_reached f.
Let skeletons := map skeleton (FunctionDefinition_blocks f).

Lemma skeleton_is : forall u mg br, In (u, mg, br) skeletons -> exists b, has_block f u b /\ BasicBlock_merge b = mg /\ BasicBlock_branch b = br.
Proof. intros u mg br J. apply in_map_iff in J as (b & Q & J). unfold skeleton in Q. injection Q as <- <- <-. exists b. split; [split; [exact J|reflexivity]|auto]. Qed.
Lemma edge_of : forall bs, incl bs skeletons -> forall u n v, In u (map (fun b : block_skeleton => fst (fst b)) bs) -> branches f u n v -> edge bs u n v.
Proof.
  intros bs IN u n v J (b & HB & B). apply in_map_iff in J as ([[x mg] br] & Q & K). cbn [fst] in Q. subst x. destruct (skeleton_is _ _ _ (IN _ K)) as (b' & HB' & M & R).
  rewrite (has_block_inj f NDl _ _ _ HB HB') in B. exists mg, br. split; [exact K|]. rewrite <- R. exact B.
Qed.
(** What loops are written with can be left. *)
Lemma loop_left : forall id ct body hint loop next, incl (lower loop (Repeat id ct body hint) next) skeletons -> NoDup (id :: flat_map blocks_of body) -> ~ In next (id :: flat_map blocks_of body) -> some leaves body.
Proof.
  intros id ct body hint loop next IN ND NN. destruct (some_leaves_dec body) as [Y|N]; [exact Y|exfalso]. cbn [lower] in IN.
  destruct (skeleton_is id _ _ (IN _ (or_introl eq_refl))) as (b & HB & M & B).
  assert (D : declares f id next) by (exists b; split; [exact HB|]; unfold merge_targets; rewrite M; left; reflexivity).
  assert (R : reachable f id) by (destruct HB as [J <-]; exact (ALL b J)). pose proof (RM _ _ D R) as Rn. destruct (proj1 (proj2 (proj2 MR)) _ _ D Rn) as [DM _].
  assert (STAY : forall u n v, In u (id :: flat_map blocks_of body) -> branches f u n v -> In v (id :: flat_map blocks_of body)).
  { intros u n v J BR. apply (edge_of _ IN) in BR; [|cbn [map fst]; rewrite sequence_labels; exact J]. apply edge_cons in BR as [[_ H]|H].
    - cbn [goes_to OpBranch_target_label] in H. apply nth_1 in H as [_ ->]. destruct (first_in body id) as [->|K]; [left; reflexivity|right; exact K].
    - destruct (remains_sequence body ltac:(apply Forall_forall; intros s _; apply all_remain) N _ _ _ _ _ _ H) as [K|[->| ->]]; [right; exact K|left; reflexivity|left; reflexivity]. }
  apply reachable_path in Rn as (e & l & En & P). pose proof (proj1 (dominates_path f _ _) DM e l En P) as J.
  assert (C : forall u l v, path f u l v -> In u (id :: flat_map blocks_of body) -> In v (id :: flat_map blocks_of body)) by (intros u l' v P'; induction P' as [u|u n w l' v BR P' IH]; intros K; [exact K|apply IH; exact (STAY _ _ _ K BR)]).
  apply NN. apply in_app_or in J as [J|[J|[]]]; [|left; symmetry; exact J]. destruct (path_cut f _ _ _ P id J) as (l1 & l2 & _ & _ & P2). apply (C _ _ _ P2). left. reflexivity.
Qed.
Lemma statement_ends : forall s loop next, incl (lower loop s next) skeletons -> NoDup (blocks_of s) -> ~ In next (blocks_of s) -> loops_end s.
Proof.
  assert (Q : forall l, Forall (fun s => forall loop next, incl (lower loop s next) skeletons -> NoDup (blocks_of s) -> ~ In next (blocks_of s) -> loops_end s) l ->
    forall loop next, incl (sequence (lower loop) l next) skeletons -> NoDup (flat_map blocks_of l) -> ~ In next (flat_map blocks_of l) -> every loops_end l).
  { intros l F. induction F as [|s l Fs F IH]; intros loop next IN ND NN; [exact I|]. cbn [sequence] in IN. cbn [flat_map] in ND, NN. cbn [every]. split.
    - apply (Fs loop (first_of l next)); [intros x J; apply IN; apply in_or_app; auto|exact (NoDup_app_l _ _ ND)|]. intros J. destruct (first_in l next) as [Q|K]; [rewrite Q in J; apply NN; apply in_or_app; auto|].
      exact (NoDup_app_apart _ _ ND _ J K).
    - apply (IH loop next); [intros x J; apply IN; apply in_or_app; auto|exact (NoDup_app_r _ _ ND)|]. intros J. apply NN. apply in_or_app. auto. }
  induction s as [id|id cond yes no hint w IHy IHn|id ct body hint IHb|id cond rest w IHr|id cond rest w IHr] using statement_ind'; intros loop next IN ND NN; cbn [loops_end].
  - exact I.
  - cbn [lower blocks_of] in *. inversion ND as [|x y N1 N2]; subst. split.
    + apply (Q yes IHy loop next); [intros x J; apply IN; right; apply in_or_app; auto|exact (NoDup_app_l _ _ N2)|intros J; apply NN; right; apply in_or_app; auto].
    + apply (Q no IHn loop next); [intros x J; apply IN; right; apply in_or_app; auto|exact (NoDup_app_r _ _ N2)|intros J; apply NN; right; apply in_or_app; auto].
  - split; [exact (loop_left _ _ _ _ _ _ IN ND NN)|]. cbn [lower blocks_of] in *. inversion ND as [|x y N1 N2]; subst. apply (Q body IHb (Some (id, next)) id); [intros x J; apply IN; right; exact J|exact N2|exact N1].
  - cbn [lower blocks_of] in *. inversion ND as [|x y N1 N2]; subst. apply (Q rest IHr loop next); [intros x J; apply IN; right; exact J|exact N2|intros J; apply NN; right; exact J].
  - cbn [lower blocks_of] in *. inversion ND as [|x y N1 N2]; subst. apply (Q rest IHr loop next); [intros x J; apply IN; right; exact J|exact N2|intros J; apply NN; right; exact J].
Qed.
Lemma sequence_ends : forall l loop next, incl (sequence (lower loop) l next) skeletons -> NoDup (flat_map blocks_of l) -> ~ In next (flat_map blocks_of l) -> every loops_end l.
Proof.
  induction l as [|s l IH]; intros loop next IN ND NN; [exact I|]. cbn [sequence] in IN. cbn [flat_map] in ND, NN. cbn [every]. split.
  - apply (statement_ends s loop (first_of l next)); [intros x J; apply IN; apply in_or_app; auto|exact (NoDup_app_l _ _ ND)|]. intros J. destruct (first_in l next) as [Q|K]; [rewrite Q in J; apply NN; apply in_or_app; auto|].
    exact (NoDup_app_apart _ _ ND _ J K).
  - apply (IH loop next); [intros x J; apply IN; apply in_or_app; auto|exact (NoDup_app_r _ _ ND)|]. intros J. apply NN. apply in_or_app. auto.
Qed.
(** The block that returns has no merge instruction. *)
Lemma no_last_merge : forall b op, In b (FunctionDefinition_blocks f) -> BasicBlock_branch b = GroupBranch_OpReturn op -> BasicBlock_merge b = None.
Proof.
  intros b op J B. assert (HB : has_block f (label_of b) b) by (split; [exact J|reflexivity]). pose proof (ALL b J) as R.
  assert (X : forall m, ~ In m (merge_targets b)).
  { intros m K. assert (D : declares f (label_of b) m) by (exists b; auto). pose proof (RM _ _ D R) as Rm. destruct (proj1 (proj2 (proj2 MR)) _ _ D Rm) as [DM N].
    apply reachable_path in Rm as (e & l & En & P). pose proof (proj1 (dominates_path f _ _) DM e l En P) as I0. apply in_app_or in I0 as [I0|[I0|[]]]; [|exact (N (eq_sym I0))].
    destruct (path_cut f _ _ _ P _ I0) as (l1 & l2 & _ & _ & P2). inversion P2 as [|x n w l' v (b' & HB' & BR) P' Q1 Q2 Q3]; subst.
    rewrite (has_block_inj f NDl _ _ _ HB' HB) in BR. unfold branch_targets in BR. rewrite B in BR. destruct n; discriminate BR. }
  unfold merge_targets in X. destruct (BasicBlock_merge b) as [[lm|sm]|]; [destruct (X _ (or_introl eq_refl))|destruct (X _ (or_introl eq_refl))|reflexivity].
Qed.
End Graph.

Theorem graph_written : forall E (f : FunctionDefinition E), structured_graph f -> exists program last, written_plainly f program last /\ every loops_end program /\ neat_program program.
Proof.
  intros E f (NB & NDl & ALL & MR & CR & LC & RM & SI & OW). destruct (proj2 (simple_iff E f MR CR LC RM) (conj NDl (conj NB SI))) as (chain & RET).
  pose proof (proj2 (occurs_once f chain MR CR LC RM RET) OW) as ND. pose proof RET as RET0. apply structured_iff in RET0 as (_ & p & last & mg & PL & IN & En & ->).
  rewrite program_ids in ND. exists p, last.
  assert (MG : mg = None).
  { assert (J : In (last, mg, GroupBranch_OpReturn Build_OpReturn) (map skeleton (FunctionDefinition_blocks f))) by (apply IN; unfold lower_program; apply in_or_app; right; left; reflexivity).
    apply in_map_iff in J as (b & Q & J). unfold skeleton in Q. injection Q as _ <- B. exact (no_last_merge f NDl ALL MR RM b _ J B). }
  subst mg. assert (W : written_plainly f p last).
  { split; [exact (placed_all_last p last PL (NoDup_app_l _ _ ND))|]. split; [exact ND|]. split; [|exact En].
    assert (LAB : map (fun b : block_skeleton => fst (fst b)) (map skeleton (FunctionDefinition_blocks f)) = labels f) by (rewrite map_map; reflexivity).
    assert (LAB' : map (fun b : block_skeleton => fst (fst b)) (lower_program p last None) = flat_map blocks_of p ++ [last]) by (exact (skeleton_labels p last)).
    apply NoDup_Permutation; [apply (NoDup_map_inv (fun b : block_skeleton => fst (fst b))); rewrite LAB; exact NDl|apply (NoDup_map_inv (fun b : block_skeleton => fst (fst b))); rewrite LAB'; exact ND|].
    intros x. split; [|exact (IN x)]. intros J. pose proof J as J0. apply in_map_iff in J0 as (b & Q & Jb). destruct RET as (_ & depth & RQ).
    pose proof (chain_ids_reachable f depth _ RQ _ (ALL b Jb)) as K. rewrite program_ids, <- LAB' in K. apply in_map_iff in K as (y & QL & K). pose proof (IN y K) as Ky. apply in_map_iff in Ky as (b' & Q' & Jb').
    subst x y. assert (QB : b' = b).
    { apply (has_block_inj f NDl (label_of b)); [split; [exact Jb'|exact QL]|split; [exact Jb|reflexivity]]. }
    rewrite QB in K. exact K. }
  assert (EN : every loops_end p).
  { apply (sequence_ends f NDl ALL MR RM p None last); [intros x J; apply IN; unfold lower_program; apply in_or_app; auto|exact (NoDup_app_l _ _ ND)|]. intros J. exact (NoDup_app_apart _ _ ND _ J (or_introl eq_refl)). }
  split; [exact W|]. split; [exact EN|]. apply (rules_exact f p last W EN). exact MR.
Qed.

Theorem graph_iff : forall E (f : FunctionDefinition E), structured_graph f <-> exists program last, written_plainly f program last /\ every loops_end program /\ neat_program program.
Proof. intros E f. split; [exact (graph_written E f)|]. intros (p & last & W & EN & NE). exact (written_graph f p last W EN NE). Qed.
