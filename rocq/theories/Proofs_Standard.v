(** Functions written from a program and the rules of the standard (C93): the parts of a program. *)
From Coq Require Import Permutation Relation_Operators.
From Verif Require Import Base Types Ops Groups ControlFlow Spec_Flow Proofs_Flow Spec_Structured Proofs_Structured Spec_Standard.

Notation block_skeleton := (BlockId * option GroupMerge * GroupBranch)%type.

Definition goes_to (br : GroupBranch) : list BlockId :=
  match br with
  | GroupBranch_OpBranch op => [OpBranch_target_label op]
  | GroupBranch_OpBranchConditional op => [OpBranchConditional_true_label op; OpBranchConditional_false_label op]
  | GroupBranch_OpReturn _ => []
  end.
Definition merges_at (mg : option GroupMerge) : list BlockId :=
  match mg with
  | Some (GroupMerge_OpSelectionMerge op) => [OpSelectionMerge_merge_block op]
  | Some (GroupMerge_OpLoopMerge op) => [OpLoopMerge_merge_block op]
  | None => []
  end.
(** An edge among block skeletons. *)
Definition edge (bs : list block_skeleton) (u : BlockId) (n : nat) (v : BlockId) : Prop :=
  exists mg br, In (u, mg, br) bs /\ nth_error (goes_to br) n = Some v.

Lemma edge_app : forall a b u n v, edge (a ++ b) u n v <-> edge a u n v \/ edge b u n v.
Proof.
  intros a b u n v. unfold edge. split.
  - intros (mg & br & I & Q). apply in_app_or in I as [I|I]; eauto.
  - intros [(mg & br & I & Q)|(mg & br & I & Q)]; exists mg, br; split; auto; apply in_or_app; auto.
Qed.
Lemma edge_cons : forall x mg br bs u n v, edge ((x, mg, br) :: bs) u n v <-> (u = x /\ nth_error (goes_to br) n = Some v) \/ edge bs u n v.
Proof.
  intros x mg br bs u n v. unfold edge. split.
  - intros (mg' & br' & [Q|I] & N); [injection Q; intros; subst; auto|eauto].
  - intros [[-> N]|(mg' & br' & I & N)]; [exists mg, br; split; [left; reflexivity|exact N]|exists mg', br'; split; [right; exact I|exact N]].
Qed.
Lemma edge_nil : forall u n v, ~ edge [] u n v.
Proof. intros u n v (mg & br & [] & _). Qed.
Lemma edge_incl : forall a b u n v, incl a b -> edge a u n v -> edge b u n v.
Proof. intros a b u n v I (mg & br & J & Q). exists mg, br. auto. Qed.

Lemma every_Forall : forall P l, every P l <-> Forall P l.
Proof. intros P l. induction l as [|s l IH]; cbn [every]; [split; auto|]. rewrite IH. split; [intros [A B]; constructor; auto|intros H; inversion H; auto]. Qed.
Lemma some_Exists : forall P l, some P l <-> Exists P l.
Proof. intros P l. induction l as [|s l IH]; cbn [some]; [split; [intros []|intros H; inversion H]|]. rewrite IH. split; [intros [A|A]; auto|intros H; inversion H; auto]. Qed.

Lemma nth_1 : forall (a v : BlockId) n, nth_error [a] n = Some v -> n = 0 /\ v = a.
Proof. intros a v [|[|n]] Q; cbn in Q; try discriminate Q. injection Q; auto. Qed.
Lemma nth_2 : forall (a b v : BlockId) n, nth_error [a; b] n = Some v -> (n = 0 /\ v = a) \/ (n = 1 /\ v = b).
Proof. intros a b v [|[|[|n]]] Q; cbn in Q; try discriminate Q; injection Q; auto. Qed.

(** ** Where the edges of a statement go *)
Definition to_loop (loop : option (BlockId * BlockId)) (v : BlockId) : Prop := exists h m, loop = Some (h, m) /\ (v = h \/ v = m).
Definition outs (s : statement) : Prop := forall loop next u n v, edge (lower loop s next) u n v ->
  In v (blocks_of s) \/ v = next \/ to_loop loop v.
Lemma outs_sequence : forall l, Forall outs l -> forall loop next u n v, edge (sequence (lower loop) l next) u n v ->
  In v (flat_map blocks_of l) \/ v = next \/ to_loop loop v.
Proof.
  intros l F. induction F as [|s l Fs F IH]; intros loop next u n v H; [destruct (edge_nil _ _ _ H)|].
  cbn [sequence] in H. cbn [flat_map]. rewrite in_app_iff. apply edge_app in H as [H|H].
  - destruct (Fs _ _ _ _ _ H) as [I|[->|L]]; auto. destruct (first_in l next) as [->|I]; auto.
  - destruct (IH _ _ _ _ _ H) as [I|[I|I]]; auto.
Qed.
Lemma all_outs : forall s, outs s.
Proof.
  induction s as [id|id cond yes no h w IHy IHn|id ct body h IHb|id cond rest w IHr|id cond rest w IHr] using statement_ind';
    intros loop next u n v H; cbn [lower blocks_of] in *; apply edge_cons in H as [[-> H]|H]; cbn [goes_to OpBranch_target_label OpBranchConditional_true_label OpBranchConditional_false_label In] in *.
  - apply nth_1 in H as [_ ->]. auto.
  - destruct (edge_nil _ _ _ H).
  - rewrite in_app_iff. apply nth_2 in H as [[_ ->]|[_ ->]]; [destruct (first_in yes next)|destruct (first_in no next)]; auto.
  - rewrite in_app_iff. apply edge_app in H as [H|H]; apply outs_sequence in H; try assumption; tauto.
  - apply nth_1 in H as [_ ->]. destruct (first_in body id) as [->|I]; auto.
  - apply outs_sequence in H; [|assumption]. destruct H as [H|[->|(h' & m & Q & H)]]; auto. injection Q; intros; subst. destruct H as [->| ->]; auto.
  - apply nth_2 in H as [[_ ->]|[_ ->]]; [destruct (first_in rest next)|destruct loop as [[h m]|]]; auto. right. right. exists h, m. auto.
  - apply outs_sequence in H; [|assumption]. tauto.
  - apply nth_2 in H as [[_ ->]|[_ ->]]; [destruct (first_in rest next)|destruct loop as [[h m]|]]; auto. right. right. exists h, m. auto.
  - apply outs_sequence in H; [|assumption]. tauto.
Qed.
Lemma outs_all : forall l loop next u n v, edge (sequence (lower loop) l next) u n v -> In v (flat_map blocks_of l) \/ v = next \/ to_loop loop v.
Proof. intros l. apply outs_sequence. apply Forall_forall. intros s _. apply all_outs. Qed.

(** A statement with no exit from the loop around it. *)
Definition closed (s : statement) : Prop := exits_last false s -> forall loop next u n v, edge (lower loop s next) u n v -> In v (blocks_of s) \/ v = next.
Lemma closed_sequence : forall l, Forall closed l -> tail_last exits_last false l -> forall loop next u n v, edge (sequence (lower loop) l next) u n v ->
  In v (flat_map blocks_of l) \/ v = next.
Proof.
  intros l F. induction F as [|s l Fs F IH]; intros T loop next u n v H; [destruct (edge_nil _ _ _ H)|].
  assert (T1 : exits_last false s /\ tail_last exits_last false l) by (destruct l; [cbn [tail_last] in T |- *; auto|apply tail_last_cons in T; exact T]).
  destruct T1 as [T1 T2]. cbn [sequence] in H. cbn [flat_map]. rewrite in_app_iff. apply edge_app in H as [H|H].
  - destruct (Fs T1 _ _ _ _ _ H) as [I| ->]; auto. destruct (first_in l next) as [->|I]; auto.
  - destruct (IH T2 _ _ _ _ _ H) as [I|I]; auto.
Qed.
Lemma all_closed : forall s, closed s.
Proof.
  induction s as [id|id cond yes no h w IHy IHn|id ct body h IHb|id cond rest w IHr|id cond rest w IHr] using statement_ind';
    intros T loop next u n v H; cbn [lower blocks_of exits_last] in *; try (destruct T as [T _]; discriminate T);
    apply edge_cons in H as [[-> H]|H]; cbn [goes_to OpBranch_target_label OpBranchConditional_true_label OpBranchConditional_false_label In] in *.
  - apply nth_1 in H as [_ ->]. auto.
  - destruct (edge_nil _ _ _ H).
  - rewrite in_app_iff. apply nth_2 in H as [[_ ->]|[_ ->]]; [destruct (first_in yes next)|destruct (first_in no next)]; auto.
  - destruct T as [T1 T2]. rewrite in_app_iff. apply edge_app in H as [H|H]; apply closed_sequence in H; try assumption; tauto.
  - apply nth_1 in H as [_ ->]. destruct (first_in body id) as [->|I]; auto.
  - apply outs_all in H. destruct H as [H|[->|(h' & m & Q & H)]]; auto. injection Q; intros; subst. destruct H as [->| ->]; auto.
Qed.

(** A neat statement does not start the loop around it again. *)
Definition tame (s : statement) : Prop := neat s -> forall loop next u n v, edge (lower loop s next) u n v ->
  In v (blocks_of s) \/ v = next \/ exists h m, loop = Some (h, m) /\ v = m.
Lemma tame_sequence : forall l, Forall tame l -> every neat l -> forall loop next u n v, edge (sequence (lower loop) l next) u n v ->
  In v (flat_map blocks_of l) \/ v = next \/ exists h m, loop = Some (h, m) /\ v = m.
Proof.
  intros l F. induction F as [|s l Fs F IH]; intros T loop next u n v H; [destruct (edge_nil _ _ _ H)|].
  destruct T as [T1 T2]. cbn [sequence] in H. cbn [flat_map]. rewrite in_app_iff. apply edge_app in H as [H|H].
  - destruct (Fs T1 _ _ _ _ _ H) as [I|[->|I]]; auto. destruct (first_in l next) as [->|I]; auto.
  - destruct (IH T2 _ _ _ _ _ H) as [I|[I|I]]; auto.
Qed.
Lemma all_tame : forall s, tame s.
Proof.
  induction s as [id|id cond yes no h w IHy IHn|id ct body h IHb|id cond rest w IHr|id cond rest w IHr] using statement_ind';
    intros T loop next u n v H; cbn [lower blocks_of neat] in *; try (destruct T; fail);
    apply edge_cons in H as [[-> H]|H]; cbn [goes_to OpBranch_target_label OpBranchConditional_true_label OpBranchConditional_false_label In] in *.
  - apply nth_1 in H as [_ ->]. auto.
  - destruct (edge_nil _ _ _ H).
  - rewrite in_app_iff. apply nth_2 in H as [[_ ->]|[_ ->]]; [destruct (first_in yes next)|destruct (first_in no next)]; auto.
  - destruct T as (_ & T1 & T2). rewrite in_app_iff. apply edge_app in H as [H|H]; apply tame_sequence in H; try assumption; tauto.
  - apply nth_1 in H as [_ ->]. destruct (first_in body id) as [->|I]; auto.
  - apply outs_all in H. destruct H as [H|[->|(h' & m & Q & H)]]; auto. injection Q; intros; subst. destruct H as [->| ->]; auto.
  - apply nth_2 in H as [[_ ->]|[_ ->]]; [destruct (first_in rest next)|destruct loop as [[h m]|]]; auto. right. right. exists h, m. auto.
  - apply tame_sequence in H; try assumption; tauto.
Qed.
Lemma tame_all : forall l, every neat l -> forall loop next u n v, edge (sequence (lower loop) l next) u n v ->
  In v (flat_map blocks_of l) \/ v = next \/ exists h m, loop = Some (h, m) /\ v = m.
Proof. intros l. apply tame_sequence. apply Forall_forall. intros s _. apply all_tame. Qed.

(** ** Positions *)
Fixpoint pos (l : list BlockId) (x : BlockId) : nat := match l with [] => 0 | y :: l => if N.eqb x y then 0 else S (pos l x) end.
Lemma pos_in : forall l x, In x l -> pos l x < length l.
Proof. induction l as [|y l IH]; intros x []; cbn [pos length]; destruct (N.eqb_spec x y) as [Q|Q]; try lia; try congruence. apply IH in H. lia. Qed.
Lemma pos_app_l : forall a b x, In x a -> pos (a ++ b) x = pos a x.
Proof. induction a as [|y a IH]; intros b x []; cbn [pos app]; destruct (N.eqb_spec x y) as [Q|Q]; try reflexivity; try congruence. rewrite IH; auto. Qed.
Lemma pos_app_r : forall a b x, ~ In x a -> pos (a ++ b) x = length a + pos b x.
Proof. induction a as [|y a IH]; intros b x N; cbn [pos app length]; [reflexivity|]. cbn [In] in N. destruct (N.eqb_spec x y); [subst; tauto|]. rewrite IH by tauto. lia. Qed.

Section Written.
Context {E : Type} (f : FunctionDefinition E) (program : list statement) (last : BlockId).
Hypothesis Tail : tail_last exits_last false program.
Hypothesis Nodup : NoDup (flat_map blocks_of program ++ [last]).
Hypothesis Perm : Permutation (map skeleton (FunctionDefinition_blocks f)) (lower_program program last None).
Hypothesis Entry : entry f (first_of program last).
Hypothesis Ends : every loops_end program.

Let order := flat_map blocks_of program ++ [last].
Let skeletons := lower_program program last None.
Definition before (x y : BlockId) : Prop := pos order x < pos order y.

Lemma before_split : forall a b x y, order = a ++ b -> In x a -> In y b -> before x y.
Proof.
  intros a b x y Q Ia Ib. unfold before. rewrite Q. rewrite pos_app_l, pos_app_r by (try assumption; intros J; unfold order in *; rewrite Q in Nodup; exact (NoDup_app_apart _ _ Nodup _ J Ib)).
  apply pos_in in Ia. lia.
Qed.
Lemma before_trans : forall x y z, before x y -> before y z -> before x z.
Proof. unfold before. intros. lia. Qed.
Lemma before_irrefl : forall x, ~ before x x.
Proof. unfold before. intros. lia. Qed.

Lemma skeleton_labels : map (fun b : block_skeleton => fst (fst b)) skeletons = order.
Proof. unfold skeletons, lower_program, order. rewrite map_app, sequence_labels. reflexivity. Qed.
Lemma skeleton_unique : forall u mg br mg' br', In (u, mg, br) skeletons -> In (u, mg', br') skeletons -> mg = mg' /\ br = br'.
Proof.
  assert (G : forall bs : list block_skeleton, NoDup (map (fun b : block_skeleton => fst (fst b)) bs) ->
    forall u mg br mg' br', In (u, mg, br) bs -> In (u, mg', br') bs -> mg = mg' /\ br = br').
  { induction bs as [|[[x m] b] bs IH]; intros D u mg br mg' br' [] []; cbn [map fst] in D; inversion D; subst.
    - split; congruence.
    - exfalso. injection H; intros; subst. apply H3. apply (in_map (fun b : block_skeleton => fst (fst b))) in H0. exact H0.
    - exfalso. injection H0; intros; subst. apply H3. apply (in_map (fun b : block_skeleton => fst (fst b))) in H. exact H.
    - eauto. }
  apply G. rewrite skeleton_labels. exact Nodup.
Qed.
Lemma skeleton_block : forall u mg br, In (u, mg, br) skeletons <-> exists b, has_block f u b /\ BasicBlock_merge b = mg /\ BasicBlock_branch b = br.
Proof.
  intros u mg br. split.
  - intros I. apply (Permutation_in _ (Permutation_sym Perm)) in I. apply in_map_iff in I as (b & Q & I). exists b. unfold skeleton in Q. injection Q; intros; subst.
    repeat split. exact I.
  - intros (b & [I L] & <- & <-). apply (Permutation_in _ Perm). apply in_map_iff. exists b. split; [|exact I]. unfold skeleton. unfold label_of in L. rewrite <- L. reflexivity.
Qed.
Lemma branches_edge : forall u n v, branches f u n v <-> edge skeletons u n v.
Proof.
  intros u n v. unfold branches, edge. split.
  - intros (b & H & Q). exists (BasicBlock_merge b), (BasicBlock_branch b). split; [apply skeleton_block; eauto|]. exact Q.
  - intros (mg & br & I & Q). apply skeleton_block in I as (b & H & <- & <-). exists b. split; [exact H|exact Q].
Qed.
Lemma declares_skeleton : forall h m, declares f h m <-> exists mg br, In (h, mg, br) skeletons /\ In m (merges_at mg).
Proof.
  intros h m. unfold declares. split.
  - intros (b & H & Q). exists (BasicBlock_merge b), (BasicBlock_branch b). split; [apply skeleton_block; eauto|]. exact Q.
  - intros (mg & br & I & Q). apply skeleton_block in I as (b & H & <- & <-). exists b. split; [exact H|exact Q].
Qed.
Lemma header_skeleton : forall h m ct, heads_loop f h m ct <-> exists hint br, In (h, Some (GroupMerge_OpLoopMerge (Build_OpLoopMerge m ct hint)), br) skeletons.
Proof.
  intros h m ct. unfold heads_loop. split.
  - intros (b & hint & H & Q). exists hint, (BasicBlock_branch b). apply skeleton_block. eauto.
  - intros (hint & br & I). apply skeleton_block in I as (b & H & Q & _). eauto.
Qed.
Lemma entry_first : forall e, entry f e -> e = first_of program last.
Proof. intros e (b & r & Q & L). destruct Entry as (b' & r' & Q' & L'). congruence. Qed.

(** A step along an edge; and the first step of a walk. *)
Lemma edge_walk : forall u n v t d, edge skeletons u n v -> walk f v t d -> exists o, walk f u ((u, o) :: t) d.
Proof.
  intros u n v t d (mg & br & I & Q) W. apply skeleton_block in I as (b & H & _ & <-). destruct (BasicBlock_branch b) as [op|op|op] eqn:B; cbn [goes_to] in Q.
  - apply nth_1 in Q as [_ ->]. exists None. eapply walk_branch; eauto.
  - apply nth_2 in Q as [[_ ->]|[_ ->]]; [exists (Some true); eapply walk_true; eauto|exists (Some false); eapply walk_false; eauto].
  - destruct n; discriminate Q.
Qed.
Lemma walk_edge : forall u t d, walk f u t d -> (t = [] /\ d = Some u) \/ (d = None /\ exists mg op, t = [(u, None)] /\ In (u, mg, GroupBranch_OpReturn op) skeletons)
  \/ exists o t' n v, t = (u, o) :: t' /\ edge skeletons u n v /\ walk f v t' d.
Proof.
  intros u t d W. destruct W as [id|id b op H B|id b op t d H B W|id b op t d H B W|id b op t d H B W].
  - auto.
  - right; left. split; [reflexivity|]. exists (BasicBlock_merge b), op. split; [reflexivity|]. apply skeleton_block. eauto.
  - right; right. exists None, t, 0, (OpBranch_target_label op). split; [reflexivity|]. split; [|exact W]. apply branches_edge. exists b. unfold branch_targets. rewrite B. auto.
  - right; right. exists (Some true), t, 0, (OpBranchConditional_true_label op). split; [reflexivity|]. split; [|exact W]. apply branches_edge. exists b. unfold branch_targets. rewrite B. auto.
  - right; right. exists (Some false), t, 1, (OpBranchConditional_false_label op). split; [reflexivity|]. split; [|exact W]. apply branches_edge. exists b. unfold branch_targets. rewrite B. auto.
Qed.

(** The edges of a block whose skeleton is among [bs]. *)
Lemma edge_local : forall bs, incl bs skeletons -> forall u n v, In u (map (fun b : block_skeleton => fst (fst b)) bs) -> edge skeletons u n v -> edge bs u n v.
Proof.
  intros bs I u n v L (mg & br & J & Q). apply in_map_iff in L as ([[x mg'] br'] & L & K). cbn [fst] in L. subst x.
  destruct (skeleton_unique _ _ _ _ _ J (I _ K)) as [-> ->]. exists mg', br'. auto.
Qed.

(** ** Parts of the program *)

(** [part l next loop tail]: the program contains the sequence [l], followed by block [next], in the loop [loop]; [tail] is
    the last block of the program if [l] runs to there. *)
Inductive part : list statement -> BlockId -> option (BlockId * BlockId) -> list BlockId -> Prop :=
| part_program : part program last None [last]
| part_later : forall s l next loop tail, part (s :: l) next loop tail -> part l next loop tail
| part_yes : forall id c yes no hint w l next loop tail, part (Choose id c yes no hint w :: l) next loop tail -> part yes (first_of l next) loop []
| part_no : forall id c yes no hint w l next loop tail, part (Choose id c yes no hint w :: l) next loop tail -> part no (first_of l next) loop []
| part_body : forall id ct body hint l next loop tail, part (Repeat id ct body hint :: l) next loop tail -> part body id (Some (id, first_of l next)) []
| part_leave : forall id c rest w l next loop tail, part (LeaveUnless id c rest w :: l) next loop tail -> part rest (first_of l next) loop []
| part_restart : forall id c rest w l next loop tail, part (RestartUnless id c rest w :: l) next loop tail -> part rest (first_of l next) loop [].

Record facts (l : list statement) (next : BlockId) (loop : option (BlockId * BlockId)) (tail : list BlockId) : Prop := {
  f_order : exists pre post, order = pre ++ (flat_map blocks_of l ++ tail) ++ post;
  f_skeletons : incl (sequence (lower loop) l next) skeletons;
  f_tail : tail = [] \/ (tail = [last] /\ next = last);
  f_next : ~ In next (flat_map blocks_of l) /\ In next order;
  f_loop : forall h m, loop = Some (h, m) -> tail = [] /\ (~ In h (flat_map blocks_of l) /\ ~ In m (flat_map blocks_of l)) /\ h <> m;
  f_flag : exists flag, tail_last exits_last flag l /\ (flag = true -> exists m, loop = Some (next, m));
  f_ends : every loops_end l;
  f_in_loop : forall h m, loop = Some (h, m) -> exists ct body hint l2 next2 loop2 tail2, part (Repeat h ct body hint :: l2) next2 loop2 tail2
    /\ m = first_of l2 next2 /\ incl (flat_map blocks_of l) (flat_map blocks_of body) }.

Lemma in_order_nodup : forall pre x post, order = pre ++ x ++ post -> NoDup x.
Proof. intros pre x post Q. unfold order in Q. rewrite Q in Nodup. apply NoDup_app_r, NoDup_app_l in Nodup. exact Nodup. Qed.

Lemma part_facts : forall l next loop tail, part l next loop tail -> facts l next loop tail.
Proof.
  intros l next loop tail P. induction P as [|s l next loop tail P IH|id c yes no hint w l next loop tail P IH|id c yes no hint w l next loop tail P IH
    |id ct body hint l next loop tail P IH|id c rest w l next loop tail P IH|id c rest w l next loop tail P IH].
  - split.
    + exists [], []. rewrite app_nil_r. reflexivity.
    + intros x I. apply in_or_app. left. exact I.
    + auto.
    + split; [|apply in_or_app; right; left; reflexivity]. intros J. apply (NoDup_app_apart _ _ Nodup _ J). left. reflexivity.
    + intros h m Q. discriminate Q.
    + exists false. split; [exact Tail|]. intros Q. discriminate Q.
    + exact Ends.
    + intros h m Q. discriminate Q.
  - destruct IH as [(pre & post & O) S T [N1 N2] L (flag & F1 & F2) EN IL]. cbn [flat_map] in *. rewrite in_app_iff in N1. split.
    + exists (pre ++ blocks_of s), post. rewrite O, !app_assoc. reflexivity.
    + intros x I. apply S. cbn [sequence]. apply in_or_app. right. exact I.
    + exact T.
    + tauto.
    + intros h m Q. destruct (L h m Q) as (A & [B C] & D). rewrite in_app_iff in B, C. tauto.
    + exists flag. split; [|exact F2]. destruct l; [exact I|apply tail_last_cons in F1 as [_ F1]; exact F1].
    + destruct EN as [_ EN]. exact EN.
    + intros h m Q. destruct (IL h m Q) as (ct & body & hint & l2 & n2 & lp2 & t2 & A & B & C). exists ct, body, hint, l2, n2, lp2, t2.
      split; [exact A|]. split; [exact B|]. intros x I. apply C, in_or_app. right. exact I.
  - destruct IH as [(pre & post & O) S T [N1 N2] L (flag & F1 & F2) EN IL]. cbn [flat_map blocks_of app] in *. pose proof O as O'. rewrite <- !app_assoc in O'.
    pose proof (in_order_nodup pre (id :: (flat_map blocks_of yes ++ flat_map blocks_of no) ++ flat_map blocks_of l ++ tail) post) as D.
    rewrite O in D. cbn [app] in D. rewrite <- !app_assoc in D. specialize (D eq_refl). inversion D as [|x y D0 D1]; subst x y. rewrite !in_app_iff in D0.
    cbn [In] in N1. rewrite !in_app_iff in N1.
    assert (D2 : forall x, In x (flat_map blocks_of yes) -> ~ In x (flat_map blocks_of l)).
    { intros x Ix Jx. apply (NoDup_app_apart _ _ D1 x Ix). rewrite !in_app_iff. auto. }
    split.
    + exists (pre ++ [id]), (flat_map blocks_of no ++ flat_map blocks_of l ++ tail ++ post). rewrite O. cbn [app]. rewrite <- ?app_assoc. cbn [app]. rewrite <- ?app_assoc. reflexivity.
    + intros x I. apply S. cbn [sequence lower]. right. apply in_or_app. left. apply in_or_app. left. exact I.
    + auto.
    + split.
      * destruct (first_in l next) as [->|I]; [tauto|]. intros J. exact (D2 _ J I).
      * destruct (first_in l next) as [->|I]; [exact N2|]. rewrite O. apply in_or_app. right. cbn [app]. right. rewrite !in_app_iff. auto.
    + intros h m Q. destruct (L h m Q) as (A & [B C] & X). cbn [In] in B, C. rewrite !in_app_iff in B, C. tauto.
    + destruct l as [|s2 l].
      * cbn [tail_last exits_last] in F1. exists flag. split; [tauto|exact F2].
      * apply tail_last_cons in F1 as [F1 _]. cbn [exits_last] in F1. exists false. split; [tauto|]. intros Q. discriminate Q.
    + destruct EN as [[EN _] _]. exact EN.
    + intros h m Q. destruct (IL h m Q) as (ct & body & hint' & l2 & n2 & lp2 & t2 & A & B & C). exists ct, body, hint', l2, n2, lp2, t2.
      split; [exact A|]. split; [exact B|]. intros x I. apply C. right. rewrite !in_app_iff. auto.
  - destruct IH as [(pre & post & O) S T [N1 N2] L (flag & F1 & F2) EN IL]. cbn [flat_map blocks_of app] in *.
    pose proof (in_order_nodup pre (id :: (flat_map blocks_of yes ++ flat_map blocks_of no) ++ flat_map blocks_of l ++ tail) post) as D.
    rewrite O in D. cbn [app] in D. rewrite <- !app_assoc in D. specialize (D eq_refl). inversion D as [|x y D0 D1]; subst x y. rewrite !in_app_iff in D0.
    cbn [In] in N1. rewrite !in_app_iff in N1. apply NoDup_app_r in D1.
    assert (D2 : forall x, In x (flat_map blocks_of no) -> ~ In x (flat_map blocks_of l)).
    { intros x Ix Jx. apply (NoDup_app_apart _ _ D1 x Ix). rewrite !in_app_iff. auto. }
    split.
    + exists (pre ++ [id] ++ flat_map blocks_of yes), (flat_map blocks_of l ++ tail ++ post). rewrite O. cbn [app]. rewrite <- ?app_assoc. cbn [app]. rewrite <- ?app_assoc. reflexivity.
    + intros x I. apply S. cbn [sequence lower]. right. apply in_or_app. left. apply in_or_app. right. exact I.
    + auto.
    + split.
      * destruct (first_in l next) as [->|I]; [tauto|]. intros J. exact (D2 _ J I).
      * destruct (first_in l next) as [->|I]; [exact N2|]. rewrite O. apply in_or_app. right. cbn [app]. right. rewrite !in_app_iff. auto.
    + intros h m Q. destruct (L h m Q) as (A & [B C] & X). cbn [In] in B, C. rewrite !in_app_iff in B, C. tauto.
    + destruct l as [|s2 l].
      * cbn [tail_last exits_last] in F1. exists flag. split; [tauto|exact F2].
      * apply tail_last_cons in F1 as [F1 _]. cbn [exits_last] in F1. exists false. split; [tauto|]. intros Q. discriminate Q.
    + destruct EN as [[_ EN] _]. exact EN.
    + intros h m Q. destruct (IL h m Q) as (ct & body & hint' & l2 & n2 & lp2 & t2 & A & B & C). exists ct, body, hint', l2, n2, lp2, t2.
      split; [exact A|]. split; [exact B|]. intros x I. apply C. right. rewrite !in_app_iff. auto.
  - destruct IH as [(pre & post & O) S T [N1 N2] L (flag & F1 & F2) EN IL]. cbn [flat_map blocks_of app] in *.
    pose proof (in_order_nodup pre (id :: flat_map blocks_of body ++ flat_map blocks_of l ++ tail) post) as D.
    rewrite O in D. cbn [app] in D. rewrite <- !app_assoc in D. specialize (D eq_refl). inversion D as [|x y D0 D1]; subst x y. rewrite !in_app_iff in D0.
    cbn [In] in N1. rewrite !in_app_iff in N1.
    assert (D2 : forall x, In x (flat_map blocks_of body) -> ~ In x (flat_map blocks_of l)).
    { intros x Ix Jx. apply (NoDup_app_apart _ _ D1 x Ix). rewrite !in_app_iff. auto. }
    split.
    + exists (pre ++ [id]), (flat_map blocks_of l ++ tail ++ post). rewrite O. cbn [app]. rewrite <- ?app_assoc. cbn [app]. rewrite <- ?app_assoc. reflexivity.
    + intros x I. apply S. cbn [sequence lower]. right. apply in_or_app. left. exact I.
    + auto.
    + split; [tauto|]. rewrite O. apply in_or_app. right. left. reflexivity.
    + intros h m Q. injection Q; intros; subst. split; [reflexivity|]. split; [split; [tauto|]|].
      * destruct (first_in l next) as [->|I]; [tauto|]. intros J. exact (D2 _ J I).
      * destruct (first_in l next) as [->|I]; [intros R; apply N1; left; congruence|]. intros R. apply D0. right. left. rewrite R. exact I.
    + exists true. split; [|eauto]. destruct l; [cbn [tail_last exits_last] in F1; exact F1|apply tail_last_cons in F1 as [F1 _]; exact F1].
    + destruct EN as [[_ EN] _]. exact EN.
    + intros h m Q. injection Q; intros; subst. exists ct, body, hint, l, next, loop, tail. split; [exact P|]. split; [reflexivity|]. intros x I; exact I.
  - destruct IH as [(pre & post & O) S T [N1 N2] L (flag & F1 & F2) EN IL]. cbn [flat_map blocks_of app] in *.
    pose proof (in_order_nodup pre (id :: flat_map blocks_of rest ++ flat_map blocks_of l ++ tail) post) as D.
    rewrite O in D. cbn [app] in D. rewrite <- !app_assoc in D. specialize (D eq_refl). inversion D as [|x y D0 D1]; subst x y. rewrite !in_app_iff in D0.
    cbn [In] in N1. rewrite !in_app_iff in N1.
    assert (L0 : l = [] /\ flag = true /\ tail_last exits_last true rest).
    { destruct l; [cbn [tail_last exits_last] in F1; tauto|]. apply tail_last_cons in F1 as [[F1 _] _]. discriminate F1. }
    destruct L0 as (-> & -> & F3). cbn [first_of flat_map app] in *.
    split.
    + exists (pre ++ [id]), (tail ++ post). rewrite O. cbn [app]. rewrite <- ?app_assoc. cbn [app]. rewrite <- ?app_assoc. reflexivity.
    + intros x I. apply S. cbn [sequence lower first_of]. right. rewrite app_nil_r. exact I.
    + auto.
    + tauto.
    + intros h m Q. destruct (L h m Q) as (A & [B C] & X). cbn [In] in B, C. rewrite !in_app_iff in B, C. tauto.
    + exists true. split; [exact F3|exact F2].
    + destruct EN as [EN _]. exact EN.
    + intros h m Q. destruct (IL h m Q) as (ct & body & hint' & l2 & n2 & lp2 & t2 & A & B & C). exists ct, body, hint', l2, n2, lp2, t2.
      split; [exact A|]. split; [exact B|]. intros x I. apply C. right. rewrite !in_app_iff. auto.
  - destruct IH as [(pre & post & O) S T [N1 N2] L (flag & F1 & F2) EN IL]. cbn [flat_map blocks_of app] in *.
    pose proof (in_order_nodup pre (id :: flat_map blocks_of rest ++ flat_map blocks_of l ++ tail) post) as D.
    rewrite O in D. cbn [app] in D. rewrite <- !app_assoc in D. specialize (D eq_refl). inversion D as [|x y D0 D1]; subst x y. rewrite !in_app_iff in D0.
    cbn [In] in N1. rewrite !in_app_iff in N1.
    assert (L0 : l = [] /\ flag = true /\ tail_last exits_last true rest).
    { destruct l; [cbn [tail_last exits_last] in F1; tauto|]. apply tail_last_cons in F1 as [[F1 _] _]. discriminate F1. }
    destruct L0 as (-> & -> & F3). cbn [first_of flat_map app] in *.
    split.
    + exists (pre ++ [id]), (tail ++ post). rewrite O. cbn [app]. rewrite <- ?app_assoc. cbn [app]. rewrite <- ?app_assoc. reflexivity.
    + intros x I. apply S. cbn [sequence lower first_of]. right. rewrite app_nil_r. exact I.
    + auto.
    + tauto.
    + intros h m Q. destruct (L h m Q) as (A & [B C] & X). cbn [In] in B, C. rewrite !in_app_iff in B, C. tauto.
    + exists true. split; [exact F3|exact F2].
    + destruct EN as [EN _]. exact EN.
    + intros h m Q. destruct (IL h m Q) as (ct & body & hint' & l2 & n2 & lp2 & t2 & A & B & C). exists ct, body, hint', l2, n2, lp2, t2.
      split; [exact A|]. split; [exact B|]. intros x I. apply C. right. rewrite !in_app_iff. auto.
Qed.

Lemma part_apart : forall s l next loop tail, part (s :: l) next loop tail -> forall x y, In x (blocks_of s) -> In y (flat_map blocks_of l ++ tail) -> before x y.
Proof.
  intros s l next loop tail P x y Ix Iy. destruct (part_facts _ _ _ _ P) as [(pre & post & O) _ _ _ _ _ _ _]. cbn [flat_map] in O.
  apply (before_split (pre ++ blocks_of s) ((flat_map blocks_of l ++ tail) ++ post)).
  - rewrite O, !app_assoc. reflexivity.
  - apply in_or_app. auto.
  - apply in_or_app. auto.
Qed.
Lemma blocks_start : forall s, exists r, blocks_of s = start s :: r.
Proof. intros []; cbn [blocks_of start]; eauto. Qed.
Lemma part_start : forall s l next loop tail, part (s :: l) next loop tail -> forall x, In x (blocks_of s) -> x <> start s -> before (start s) x.
Proof.
  intros s l next loop tail P x Ix N. destruct (part_facts _ _ _ _ P) as [(pre & post & O) _ _ _ _ _ _ _]. cbn [flat_map] in O.
  destruct (blocks_start s) as (r & B). rewrite B in *. destruct Ix as [Q|Ix]; [congruence|].
  apply (before_split (pre ++ [start s]) (r ++ flat_map blocks_of l ++ tail ++ post)).
  - rewrite O. cbn [app]. rewrite <- !app_assoc. reflexivity.
  - apply in_or_app. right. left. reflexivity.
  - apply in_or_app. auto.
Qed.
Lemma first_inside : forall l next tail, (tail = [] \/ (tail = [last] /\ next = last)) -> l <> [] \/ tail <> [] -> In (first_of l next) (flat_map blocks_of l ++ tail).
Proof.
  intros l next tail T H. apply in_or_app. destruct l as [|s l]; [right|left].
  - destruct T as [->|[-> ->]]; [tauto|]. left. reflexivity.
  - cbn [flat_map]. apply in_or_app. left. apply start_in.
Qed.
Lemma part_first : forall s l next loop tail, part (s :: l) next loop tail -> l <> [] \/ tail <> [] -> forall x, In x (blocks_of s) -> before x (first_of l next).
Proof.
  intros s l next loop tail P H x Ix. eapply part_apart; [exact P|exact Ix|]. destruct (part_facts _ _ _ _ P) as [_ _ T _ _ _ _ _]. apply first_inside; assumption.
Qed.

(** ** Every block starts a statement *)
Lemma block_part : forall u mg br, In (u, mg, br) skeletons -> (u = last /\ mg = None /\ br = GroupBranch_OpReturn Build_OpReturn)
  \/ exists s l next loop tail rest, part (s :: l) next loop tail /\ lower loop s (first_of l next) = (u, mg, br) :: rest /\ u = start s.
Proof.
  assert (G : forall s u mg br l next loop tail, In (u, mg, br) (lower loop s (first_of l next)) -> part (s :: l) next loop tail ->
    exists s l next loop tail rest, part (s :: l) next loop tail /\ lower loop s (first_of l next) = (u, mg, br) :: rest /\ u = start s).
  { assert (Q : forall l, Forall (fun s => forall u mg br l next loop tail, In (u, mg, br) (lower loop s (first_of l next)) -> part (s :: l) next loop tail ->
      exists s l next loop tail rest, part (s :: l) next loop tail /\ lower loop s (first_of l next) = (u, mg, br) :: rest /\ u = start s) l ->
      forall u mg br next loop tail, In (u, mg, br) (sequence (lower loop) l next) -> part l next loop tail ->
      exists s l next loop tail rest, part (s :: l) next loop tail /\ lower loop s (first_of l next) = (u, mg, br) :: rest /\ u = start s).
    { intros l F. induction F as [|s l Fs F IH]; intros u mg br next loop tail I P; [destruct I|]. cbn [sequence] in I. apply in_app_or in I as [I|I].
      - eapply Fs; eassumption.
      - eapply IH; [exact I|]. eapply part_later. exact P. }
    induction s as [id|id cond yes no h w IHy IHn|id ct body h IHb|id cond rest w IHr|id cond rest w IHr] using statement_ind';
      intros u mg br l next loop tail I P; cbn [lower] in I; (destruct I as [X|I];
        [injection X; intros; subst; do 6 eexists; split; [exact P|]; cbn [lower start]; split; reflexivity|]).
    - destruct I.
    - apply in_app_or in I as [I|I]; [eapply Q; [exact IHy|exact I|eapply part_yes; exact P]|eapply Q; [exact IHn|exact I|eapply part_no; exact P]].
    - eapply Q; [exact IHb|exact I|eapply part_body; exact P].
    - eapply Q; [exact IHr|exact I|eapply part_leave; exact P].
    - eapply Q; [exact IHr|exact I|eapply part_restart; exact P]. }
  assert (Q : forall l u mg br next loop tail, In (u, mg, br) (sequence (lower loop) l next) -> part l next loop tail ->
      exists s l next loop tail rest, part (s :: l) next loop tail /\ lower loop s (first_of l next) = (u, mg, br) :: rest /\ u = start s).
  { induction l as [|s l IH]; intros u mg br next loop tail I P; [destruct I|]. cbn [sequence] in I. apply in_app_or in I as [I|I].
    - eapply G; eassumption.
    - eapply IH; [exact I|]. eapply part_later. exact P. }
  intros u mg br I. unfold skeletons, lower_program in I. apply in_app_or in I as [I|[X|[]]].
  - right. eapply Q; [exact I|apply part_program].
  - injection X; intros; subst. auto.
Qed.

(** ** Getting through and out of a statement *)
Definition passes (s : statement) : Prop := loops_end s -> forall loop next, incl (lower loop s next) skeletons ->
  (exists t, walk f (start s) t (Some next) /\ incl (map fst t) (blocks_of s) /\ t <> [])
  /\ (leaves s -> forall h m, loop = Some (h, m) -> exists t, walk f (start s) t (Some m) /\ incl (map fst t) (blocks_of s) /\ t <> []).

Lemma passes_sequence : forall l, Forall passes l -> every loops_end l -> forall loop next, incl (sequence (lower loop) l next) skeletons ->
  (exists t, walk f (first_of l next) t (Some next) /\ incl (map fst t) (flat_map blocks_of l))
  /\ (some leaves l -> forall h m, loop = Some (h, m) -> exists t, walk f (first_of l next) t (Some m) /\ incl (map fst t) (flat_map blocks_of l)).
Proof.
  intros l F. induction F as [|s l Fs F IH]; intros EN loop next I.
  - split; [exists []; split; [constructor|intros x []]|intros []].
  - destruct EN as [E1 E2]. cbn [sequence] in I. assert (I1 : incl (lower loop s (first_of l next)) skeletons) by (intros x J; apply I, in_or_app; auto).
    assert (I2 : incl (sequence (lower loop) l next) skeletons) by (intros x J; apply I, in_or_app; auto).
    destruct (Fs E1 _ _ I1) as [(t1 & W1 & S1 & _) L1]. destruct (IH E2 _ _ I2) as [(t2 & W2 & S2) L2]. cbn [first_of flat_map some]. split.
    + exists (t1 ++ t2). split; [eapply walk_app; eassumption|]. rewrite map_app. apply incl_app; [apply incl_appl|apply incl_appr]; assumption.
    + intros [L|L] h m Q.
      * destruct (L1 L h m Q) as (t & W & S & _). exists t. split; [exact W|]. apply incl_appl. exact S.
      * destruct (L2 L h m Q) as (t & W & S). exists (t1 ++ t). split; [eapply walk_app; eassumption|]. rewrite map_app. apply incl_app; [apply incl_appl|apply incl_appr]; assumption.
Qed.

Lemma all_passes : forall s, passes s.
Proof.
  assert (ST : forall u mg br bs n v t d l, incl ((u, mg, br) :: bs) skeletons -> nth_error (goes_to br) n = Some v -> walk f v t d -> incl (map fst t) l ->
    exists t', walk f u t' d /\ incl (map fst t') (u :: l) /\ t' <> []).
  { intros u mg br bs n v t d l I Q W S. destruct (edge_walk u n v t d) as (o & W'); [exists mg, br; split; [apply I; left; reflexivity|exact Q]|exact W|].
    exists ((u, o) :: t). split; [exact W'|]. split; [|discriminate]. cbn [map fst]. intros x [->|J]; [left; reflexivity|right; apply S, J]. }
  induction s as [id|id cond yes no h w IHy IHn|id ct body h IHb|id cond rest w IHr|id cond rest w IHr] using statement_ind';
    intros EN loop next I; cbn [lower loops_end leaves start blocks_of] in *.
  - split; [|intros []]. eapply (ST _ _ _ _ 0 next []); [exact I|reflexivity|constructor|intros x []].
  - destruct EN as [E1 E2].
    assert (I1 : incl (sequence (lower loop) yes next) skeletons) by (intros x J; apply I; right; apply in_or_app; auto).
    assert (I2 : incl (sequence (lower loop) no next) skeletons) by (intros x J; apply I; right; apply in_or_app; auto).
    destruct (passes_sequence _ IHy E1 _ _ I1) as [(t1 & W1 & S1) L1]. destruct (passes_sequence _ IHn E2 _ _ I2) as [_ L2]. split.
    + eapply (ST _ _ _ _ 0); [exact I|reflexivity|exact W1|apply incl_appl; exact S1].
    + intros [L|L] h' m Q.
      * destruct (L1 L h' m Q) as (t & W & S). eapply (ST _ _ _ _ 0); [exact I|reflexivity|exact W|apply incl_appl; exact S].
      * destruct (L2 L h' m Q) as (t & W & S). eapply (ST _ _ _ _ 1); [exact I|reflexivity|exact W|apply incl_appr; exact S].
  - destruct EN as [E1 E2]. assert (I1 : incl (sequence (lower (Some (id, next))) body id) skeletons) by (intros x J; apply I; right; exact J).
    destruct (passes_sequence _ IHb E2 _ _ I1) as [_ L]. destruct (L E1 _ _ eq_refl) as (t & W & S). split; [|intros []].
    eapply (ST _ _ _ _ 0); [exact I|reflexivity|exact W|exact S].
  - assert (I1 : incl (sequence (lower loop) rest next) skeletons) by (intros x J; apply I; right; exact J).
    destruct (passes_sequence _ IHr EN _ _ I1) as [(t & W & S) _]. split.
    + eapply (ST _ _ _ _ 0); [exact I|reflexivity|exact W|exact S].
    + intros _ h m ->. eapply (ST _ _ _ _ 1 m []); [exact I|reflexivity|constructor|intros x []].
  - assert (I1 : incl (sequence (lower loop) rest next) skeletons) by (intros x J; apply I; right; exact J).
    destruct (passes_sequence _ IHr EN _ _ I1) as [(t & W & S) L]. split.
    + eapply (ST _ _ _ _ 0); [exact I|reflexivity|exact W|exact S].
    + intros L' h m Q. destruct (L L' h m Q) as (t' & W' & S'). eapply (ST _ _ _ _ 0); [exact I|reflexivity|exact W'|exact S'].
Qed.

Lemma part_lower : forall s l next loop tail, part (s :: l) next loop tail -> incl (lower loop s (first_of l next)) skeletons.
Proof. intros s l next loop tail P x I. apply (f_skeletons _ _ _ _ (part_facts _ _ _ _ P)). cbn [sequence]. apply in_or_app. auto. Qed.

(** ** Every part is reached through earlier blocks *)
Lemma part_reached : forall l next loop tail, part l next loop tail ->
  exists t, walk f (first_of program last) t (Some (first_of l next)) /\ (l <> [] \/ tail <> [] -> forall x, In x (map fst t) -> before x (first_of l next)).
Proof.
  assert (ST : forall s l next loop tail mg br bs n l' next' t, part (s :: l) next loop tail -> lower loop s (first_of l next) = (start s, mg, br) :: bs ->
    nth_error (goes_to br) n = Some (first_of l' next') -> incl (flat_map blocks_of l') (blocks_of s) -> ~ In (start s) (flat_map blocks_of l') ->
    walk f (first_of program last) t (Some (start s)) -> (forall x, In x (map fst t) -> before x (start s)) ->
    exists t, walk f (first_of program last) t (Some (first_of l' next')) /\ (l' <> [] \/ [] <> @nil BlockId -> forall x, In x (map fst t) -> before x (first_of l' next'))).
  { intros s l next loop tail mg br bs n l' next' t P Q N I NI W B.
    destruct (edge_walk (start s) n (first_of l' next') [] (Some (first_of l' next'))) as (o & W').
    - exists mg, br. split; [|exact N]. eapply part_lower; [exact P|]. rewrite Q. left. reflexivity.
    - constructor.
    - exists (t ++ [(start s, o)]). split; [eapply walk_app; eassumption|]. intros H x J. destruct H as [H|H]; [|tauto].
      assert (A : before (start s) (first_of l' next')).
      { assert (K : In (first_of l' next') (flat_map blocks_of l')) by (destruct l'; [tauto|]; cbn [first_of flat_map]; apply in_or_app; left; apply start_in).
        eapply part_start; [exact P|apply I, K|]. intros R. rewrite R in K. exact (NI K). }
      rewrite map_app in J. apply in_app_or in J as [J|[<-|[]]]; [|exact A]. eapply before_trans; [apply B, J|exact A]. }
  intros l next loop tail P. induction P as [|s l next loop tail P IH|id c yes no hint w l next loop tail P IH|id c yes no hint w l next loop tail P IH
    |id ct body hint l next loop tail P IH|id c rest w l next loop tail P IH|id c rest w l next loop tail P IH].
  - exists []. split; [constructor|]. intros _ x [].
  - destruct IH as (t & W & B). cbn [first_of] in *. assert (B' := B (or_introl (fun q => nil_cons (eq_sym q)))).
    assert (EN : loops_end s) by (destruct (f_ends _ _ _ _ (part_facts _ _ _ _ P)); assumption).
    destruct (all_passes s EN _ _ (part_lower _ _ _ _ _ P)) as [(t' & W' & S & _) _]. exists (t ++ t'). split; [eapply walk_app; eassumption|].
    intros H x J. rewrite map_app in J. apply in_app_or in J as [J|J].
    + eapply before_trans; [apply B', J|]. eapply part_first; [exact P|exact H|apply start_in].
    + eapply part_first; [exact P|exact H|apply S, J].
  - destruct IH as (t & W & B). eapply (ST _ _ _ _ _ _ _ _ 0); [exact P|reflexivity|reflexivity|intros x J; right; apply in_or_app; auto| |exact W|apply B; left; discriminate].
    cbn [start]. intros J. destruct (part_facts _ _ _ _ P) as [(pre & post & O) _ _ _ _ _ _ _]. apply in_order_nodup in O. cbn [flat_map blocks_of app] in O.
    inversion O as [|x y D0 D1]; subst. apply D0. rewrite !in_app_iff. auto.
  - destruct IH as (t & W & B). eapply (ST _ _ _ _ _ _ _ _ 1); [exact P|reflexivity|reflexivity|intros x J; right; apply in_or_app; auto| |exact W|apply B; left; discriminate].
    cbn [start]. intros J. destruct (part_facts _ _ _ _ P) as [(pre & post & O) _ _ _ _ _ _ _]. apply in_order_nodup in O. cbn [flat_map blocks_of app] in O.
    inversion O as [|x y D0 D1]; subst. apply D0. rewrite !in_app_iff. auto.
  - destruct IH as (t & W & B). eapply (ST _ _ _ _ _ _ _ _ 0); [exact P|reflexivity|reflexivity|intros x J; right; exact J| |exact W|apply B; left; discriminate].
    cbn [start]. intros J. destruct (part_facts _ _ _ _ P) as [(pre & post & O) _ _ _ _ _ _ _]. apply in_order_nodup in O. cbn [flat_map blocks_of app] in O.
    inversion O as [|x y D0 D1]; subst. apply D0. rewrite !in_app_iff. auto.
  - destruct IH as (t & W & B). eapply (ST _ _ _ _ _ _ _ _ 0); [exact P|reflexivity|reflexivity|intros x J; right; exact J| |exact W|apply B; left; discriminate].
    cbn [start]. intros J. destruct (part_facts _ _ _ _ P) as [(pre & post & O) _ _ _ _ _ _ _]. apply in_order_nodup in O. cbn [flat_map blocks_of app] in O.
    inversion O as [|x y D0 D1]; subst. apply D0. rewrite !in_app_iff. auto.
  - destruct IH as (t & W & B). eapply (ST _ _ _ _ _ _ _ _ 0); [exact P|reflexivity|reflexivity|intros x J; right; exact J| |exact W|apply B; left; discriminate].
    cbn [start]. intros J. destruct (part_facts _ _ _ _ P) as [(pre & post & O) _ _ _ _ _ _ _]. apply in_order_nodup in O. cbn [flat_map blocks_of app] in O.
    inversion O as [|x y D0 D1]; subst. apply D0. rewrite !in_app_iff. auto.
Qed.

Lemma start_reached : forall s l next loop tail, part (s :: l) next loop tail ->
  exists t, walk f (first_of program last) t (Some (start s)) /\ forall x, In x (map fst t) -> before x (start s).
Proof. intros s l next loop tail P. destruct (part_reached _ _ _ _ P) as (t & W & B). exists t. split; [exact W|]. apply B. left. discriminate. Qed.

Lemma last_reached : exists t, walk f (first_of program last) t (Some last) /\ forall x, In x (map fst t) -> before x last.
Proof.
  assert (P : part [] last None [last]).
  { assert (G : forall l, part l last None [last] -> part [] last None [last]) by (induction l as [|s l IH]; intros P; [exact P|apply IH; eapply part_later; exact P]).
    apply (G program). apply part_program. }
  destruct (part_reached _ _ _ _ P) as (t & W & B). exists t. split; [exact W|]. apply B. right. discriminate.
Qed.

(** Every block is reached, through earlier blocks. *)
Lemma block_reached : forall x, In x order -> exists t, walk f (first_of program last) t (Some x) /\ forall y, In y (map fst t) -> before y x.
Proof.
  intros x I. rewrite <- skeleton_labels in I. apply in_map_iff in I as ([[u mg] br] & Q & I). cbn [fst] in Q. subst u.
  destruct (block_part _ _ _ I) as [(-> & _)|(s & l & next & loop & tail & rest & P & _ & ->)]; [apply last_reached|eapply start_reached; exact P].
Qed.
Lemma all_reachable : forall x, In x order -> reachable f x.
Proof. intros x I. destruct (block_reached x I) as (t & W & _). exists (first_of program last), t. split; [exact Entry|exact W]. Qed.
Lemma dominates_not_after : forall a b, In b order -> dominates f a b -> a = b \/ before a b.
Proof.
  intros a b I D. destruct (block_reached b I) as (t & W & B). specialize (D _ _ Entry W). apply in_app_or in D as [D|[<-|[]]]; auto.
Qed.
Lemma edge_order : forall u n v, edge skeletons u n v -> In u order.
Proof. intros u n v (mg & br & I & _). rewrite <- skeleton_labels. apply (in_map (fun b : block_skeleton => fst (fst b))) in I. exact I. Qed.

(** ** Parts are entered at their first block, from earlier blocks *)
Lemma last_no_edge : forall n v, ~ edge skeletons last n v.
Proof.
  intros n v (mg & br & I & Q). assert (J : In (last, None, GroupBranch_OpReturn Build_OpReturn) skeletons) by (apply in_or_app; right; left; reflexivity).
  destruct (skeleton_unique _ _ _ _ _ I J) as [_ ->]. destruct n; discriminate Q.
Qed.
(** Edges from the blocks of a part. *)
Lemma part_outs : forall l next loop tail, part l next loop tail -> forall u n v, In u (flat_map blocks_of l ++ tail) -> edge skeletons u n v ->
  In v (flat_map blocks_of l) \/ v = next \/ to_loop loop v.
Proof.
  intros l next loop tail P u n v I H. destruct (part_facts _ _ _ _ P) as [_ S T _ _ _ _ _]. apply in_app_or in I as [I|I].
  - eapply outs_all. eapply edge_local; [exact S| |exact H]. rewrite sequence_labels. exact I.
  - destruct T as [->|[-> _]]; [destruct I|]. destruct I as [<-|[]]. destruct (last_no_edge _ _ H).
Qed.
Lemma statement_outs : forall s l next loop tail, part (s :: l) next loop tail -> forall u n v, In u (blocks_of s) -> edge skeletons u n v -> edge (lower loop s (first_of l next)) u n v.
Proof. intros s l next loop tail P u n v I H. eapply edge_local; [eapply part_lower; exact P| |exact H]. rewrite lower_labels. exact I. Qed.

Lemma part_entered : forall l next loop tail, part l next loop tail -> forall u n v, edge skeletons u n v ->
  In v (flat_map blocks_of l ++ tail) -> ~ In u (flat_map blocks_of l ++ tail) -> v = first_of l next /\ before u v.
Proof.
  (* a sequence inside a statement [s] of a part, whose edges from elsewhere in the statement go to its first block *)
  assert (G : forall s l next loop tail l' next', part (s :: l) next loop tail ->
    (forall u n v, edge skeletons u n v -> In v (flat_map blocks_of (s :: l) ++ tail) -> ~ In u (flat_map blocks_of (s :: l) ++ tail) -> v = start s /\ before u v) ->
    incl (flat_map blocks_of l') (blocks_of s) -> ~ In (start s) (flat_map blocks_of l') ->
    (forall u n v, edge skeletons u n v -> In u (blocks_of s) -> In v (flat_map blocks_of l') -> ~ In u (flat_map blocks_of l') -> v = first_of l' next' /\ u = start s) ->
    forall u n v, edge skeletons u n v -> In v (flat_map blocks_of l' ++ []) -> ~ In u (flat_map blocks_of l' ++ []) -> v = first_of l' next' /\ before u v).
  { intros s l next loop tail l' next' P IH I NS H u n v Ed Iv Nu. rewrite app_nil_r in Iv, Nu.
    destruct (in_dec N.eq_dec u (blocks_of s)) as [Iu|Iu].
    - destruct (H u n v Ed Iu Iv Nu) as [-> ->]. split; [reflexivity|]. eapply part_start; [exact P|apply I, Iv|]. intros R. rewrite R in Iv. exact (NS Iv).
    - exfalso. destruct (in_dec N.eq_dec u (flat_map blocks_of l ++ tail)) as [Ju|Ju].
      + assert (PL : part l next loop tail) by (eapply part_later; exact P).
        pose proof (part_facts _ _ _ _ P) as F. cbn [flat_map] in F. destruct (part_outs _ _ _ _ PL u n v Ju Ed) as [K|[->|(h & m & Q & K)]].
        * apply (before_irrefl v). eapply part_apart; [exact P|apply I, Iv|apply in_or_app; left; exact K].
        * apply (f_next _ _ _ _ F). cbn [flat_map]. apply in_or_app. left. apply I, Iv.
        * destruct (f_loop _ _ _ _ F h m Q) as (_ & [A B] & _). cbn [flat_map] in A, B. rewrite in_app_iff in A, B. destruct K as [->| ->]; [apply A|apply B]; left; apply I, Iv.
      + assert (K : v = start s).
        { apply (IH u n v Ed); cbn [flat_map]; rewrite <- app_assoc, in_app_iff; [left; apply I, Iv|tauto]. }
        subst v. exact (NS Iv). }
  assert (NS : forall s l next loop tail x r, part (s :: l) next loop tail -> blocks_of s = start s :: r -> In x r -> x <> start s).
  { intros s l next loop tail x r P B I ->. destruct (part_facts _ _ _ _ P) as [(pre & post & O) _ _ _ _ _ _ _]. apply in_order_nodup in O. cbn [flat_map] in O.
    apply NoDup_app_l, NoDup_app_l in O. rewrite B in O. inversion O; subst. tauto. }
  intros l next loop tail P. induction P as [|s l next loop tail P IH|id c yes no hint w l next loop tail P IH|id c yes no hint w l next loop tail P IH
    |id ct body hint l next loop tail P IH|id c rest w l next loop tail P IH|id c rest w l next loop tail P IH].
  - intros u n v Ed _ N. destruct N. apply (edge_order _ _ _ Ed).
  - intros u n v Ed Iv Nu. pose proof (part_facts _ _ _ _ P) as F. cbn [flat_map first_of] in *.
    destruct (in_dec N.eq_dec u (blocks_of s)) as [Iu|Iu].
    + pose proof (statement_outs _ _ _ _ _ P _ _ _ Iu Ed) as H. destruct (all_outs s _ _ _ _ _ H) as [K|[->|(h & m & Q & K)]].
      * exfalso. apply (before_irrefl v). eapply part_apart; [exact P|exact K|exact Iv].
      * split; [reflexivity|]. eapply part_apart; [exact P|exact Iu|exact Iv].
      * exfalso. destruct (f_loop _ _ _ _ F h m Q) as (-> & [A B] & _). cbn [flat_map] in A, B. rewrite in_app_iff in A, B. rewrite app_nil_r in Iv. destruct K as [->| ->]; tauto.
    + exfalso. destruct (IH u n v Ed) as [-> _].
      * rewrite <- app_assoc, in_app_iff. auto.
      * rewrite <- app_assoc, in_app_iff. tauto.
      * apply (before_irrefl (start s)). eapply part_apart; [exact P|apply start_in|exact Iv].
  - eapply G; [exact P|exact IH|intros x J; right; apply in_or_app; auto|intros J; eapply NS; [exact P|reflexivity| |reflexivity]; apply in_or_app; auto|].
    intros u n v Ed Iu Iv Nu. pose proof (part_facts _ _ _ _ (part_yes _ _ _ _ _ _ _ _ _ _ P)) as Fy. pose proof (part_facts _ _ _ _ (part_no _ _ _ _ _ _ _ _ _ _ P)) as Fn.
    assert (DJ : forall x, In x (flat_map blocks_of yes) -> ~ In x (flat_map blocks_of no)).
    { destruct (part_facts _ _ _ _ P) as [(pre & post & O) _ _ _ _ _ _ _]. apply in_order_nodup in O. cbn [flat_map blocks_of app] in O. inversion O as [|x y D0 D1]; subst.
      apply NoDup_app_l, NoDup_app_l in D1. apply NoDup_app_apart. exact D1. }
    pose proof (statement_outs _ _ _ _ _ P _ _ _ Iu Ed) as H. cbn [lower] in H. apply edge_cons in H as [[-> H]|H].
    + apply nth_2 in H as [[_ ->]|[_ ->]]; cbn [OpBranchConditional_true_label OpBranchConditional_false_label] in *; [auto|]. exfalso.
      destruct (first_in no (first_of l next)) as [Q|Q]; [rewrite Q in Iv; apply (f_next _ _ _ _ Fy), Iv|exact (DJ _ Iv Q)].
    + exfalso. apply edge_app in H as [H|H].
      * destruct H as (mg & br & H & _). apply Nu. rewrite <- (sequence_labels yes loop (first_of l next)). apply (in_map (fun b : block_skeleton => fst (fst b))) in H. exact H.
      * apply outs_all in H. destruct H as [H|[->|(h & m & Q & K)]]; [exact (DJ _ Iv H)|apply (f_next _ _ _ _ Fy), Iv|].
        destruct (f_loop _ _ _ _ Fy h m Q) as (_ & [A B] & _). destruct K as [->| ->]; tauto.
  - eapply G; [exact P|exact IH|intros x J; right; apply in_or_app; auto|intros J; eapply NS; [exact P|reflexivity| |reflexivity]; apply in_or_app; auto|].
    intros u n v Ed Iu Iv Nu. pose proof (part_facts _ _ _ _ (part_yes _ _ _ _ _ _ _ _ _ _ P)) as Fy. pose proof (part_facts _ _ _ _ (part_no _ _ _ _ _ _ _ _ _ _ P)) as Fn.
    assert (DJ : forall x, In x (flat_map blocks_of yes) -> ~ In x (flat_map blocks_of no)).
    { destruct (part_facts _ _ _ _ P) as [(pre & post & O) _ _ _ _ _ _ _]. apply in_order_nodup in O. cbn [flat_map blocks_of app] in O. inversion O as [|x y D0 D1]; subst.
      apply NoDup_app_l, NoDup_app_l in D1. apply NoDup_app_apart. exact D1. }
    pose proof (statement_outs _ _ _ _ _ P _ _ _ Iu Ed) as H. cbn [lower] in H. apply edge_cons in H as [[-> H]|H].
    + apply nth_2 in H as [[_ ->]|[_ ->]]; cbn [OpBranchConditional_true_label OpBranchConditional_false_label] in *; [|auto]. exfalso.
      destruct (first_in yes (first_of l next)) as [Q|Q]; [rewrite Q in Iv; apply (f_next _ _ _ _ Fn), Iv|exact (DJ _ Q Iv)].
    + exfalso. apply edge_app in H as [H|H].
      * apply outs_all in H. destruct H as [H|[->|(h & m & Q & K)]]; [exact (DJ _ H Iv)|apply (f_next _ _ _ _ Fn), Iv|].
        destruct (f_loop _ _ _ _ Fn h m Q) as (_ & [A B] & _). destruct K as [->| ->]; tauto.
      * destruct H as (mg & br & H & _). apply Nu. rewrite <- (sequence_labels no loop (first_of l next)). apply (in_map (fun b : block_skeleton => fst (fst b))) in H. exact H.
  - eapply G; [exact P|exact IH|intros x J; right; exact J|intros J; eapply NS; [exact P|reflexivity|exact J|reflexivity]|].
    intros u n v Ed Iu Iv Nu. pose proof (statement_outs _ _ _ _ _ P _ _ _ Iu Ed) as H. cbn [lower] in H. apply edge_cons in H as [[-> H]|H].
    + apply nth_1 in H as [_ ->]. auto.
    + exfalso. destruct H as (mg & br & H & _). apply Nu. rewrite <- (sequence_labels body (Some (id, first_of l next)) id). apply (in_map (fun b : block_skeleton => fst (fst b))) in H. exact H.
  - eapply G; [exact P|exact IH|intros x J; right; exact J|intros J; eapply NS; [exact P|reflexivity|exact J|reflexivity]|].
    intros u n v Ed Iu Iv Nu. pose proof (part_facts _ _ _ _ (part_leave _ _ _ _ _ _ _ _ P)) as Fr.
    pose proof (statement_outs _ _ _ _ _ P _ _ _ Iu Ed) as H. cbn [lower] in H. apply edge_cons in H as [[-> H]|H].
    + apply nth_2 in H as [[_ ->]|[_ ->]]; cbn [OpBranchConditional_true_label OpBranchConditional_false_label] in *; [auto|]. exfalso.
      destruct loop as [[h m]|]; [|apply (f_next _ _ _ _ Fr), Iv]. destruct (f_loop _ _ _ _ Fr h m eq_refl) as (_ & [A B] & _). tauto.
    + exfalso. destruct H as (mg & br & H & _). apply Nu. rewrite <- (sequence_labels rest loop (first_of l next)). apply (in_map (fun b : block_skeleton => fst (fst b))) in H. exact H.
  - eapply G; [exact P|exact IH|intros x J; right; exact J|intros J; eapply NS; [exact P|reflexivity|exact J|reflexivity]|].
    intros u n v Ed Iu Iv Nu. pose proof (part_facts _ _ _ _ (part_restart _ _ _ _ _ _ _ _ P)) as Fr.
    pose proof (statement_outs _ _ _ _ _ P _ _ _ Iu Ed) as H. cbn [lower] in H. apply edge_cons in H as [[-> H]|H].
    + apply nth_2 in H as [[_ ->]|[_ ->]]; cbn [OpBranchConditional_true_label OpBranchConditional_false_label] in *; [auto|]. exfalso.
      destruct loop as [[h m]|]; [|apply (f_next _ _ _ _ Fr), Iv]. destruct (f_loop _ _ _ _ Fr h m eq_refl) as (_ & [A B] & _). tauto.
    + exfalso. destruct H as (mg & br & H & _). apply Nu. rewrite <- (sequence_labels rest loop (first_of l next)). apply (in_map (fun b : block_skeleton => fst (fst b))) in H. exact H.
Qed.

(** ** The first block of a part dominates the part *)
Lemma entry_of_part : forall l next loop tail, part l next loop tail -> In (first_of program last) (flat_map blocks_of l ++ tail) -> first_of program last = first_of l next.
Proof.
  assert (M : forall x, In x order -> x = first_of program last \/ before (first_of program last) x).
  { intros x I. unfold order in I. unfold before, order. destruct program as [|s p]; cbn [flat_map first_of app] in *.
    - destruct I as [<-|[]]. auto.
    - destruct (blocks_start s) as (r & B). rewrite B in *. cbn [app In pos] in *. rewrite N.eqb_refl. destruct (N.eqb_spec x (start s)); [auto|]. right. lia. }
  intros l next loop tail P I. destruct (part_reached _ _ _ _ P) as (t & W & B). pose proof (f_tail _ _ _ _ (part_facts _ _ _ _ P)) as T.
  assert (H : l <> [] \/ tail <> []) by (destruct l; [destruct tail; [destruct I|right; discriminate]|left; discriminate]).
  pose proof (first_inside l next tail T H) as FI.
  destruct (f_order _ _ _ _ (part_facts _ _ _ _ P)) as (pre & post & O).
  destruct (M (first_of l next)) as [Q|Q]; [rewrite O; apply in_or_app; right; apply in_or_app; left; exact FI|auto|].
  assert (K : In (first_of program last) (pre) -> False).
  { intros J. assert (ND := Nodup). fold order in ND. rewrite O in ND. apply (NoDup_app_apart _ _ ND _ J). apply in_or_app. left. exact I. }
  (* the first block of a part comes first in it *)
  destruct (N.eq_dec (first_of program last) (first_of l next)) as [R|R]; [exact R|exfalso].
  assert (X : before (first_of l next) (first_of program last)).
  { destruct l as [|s l]; cbn [first_of flat_map app] in *.
    - destruct T as [->|[-> ->]]; [destruct I|]. destruct I as [I|[]]. congruence.
    - destruct (in_dec N.eq_dec (first_of program last) (blocks_of s)) as [J|J]; [eapply part_start; eassumption|].
      rewrite <- app_assoc, in_app_iff in I. destruct I as [I|I]; [tauto|]. eapply part_apart; [exact P|apply start_in|exact I]. }
  apply (before_irrefl (first_of l next)). eapply before_trans; eassumption.
Qed.

Lemma walk_head : forall u t d, walk f u t d -> forall b, d = Some b -> In u (map fst t ++ [b]).
Proof. intros u t d W b ->. destruct (walk_edge _ _ _ W) as [[-> Q]|[[Q _]|(o & t' & n & v & -> & _)]]; [injection Q; intros; subst; left; reflexivity|discriminate Q|left; reflexivity]. Qed.

Lemma part_dominates : forall l next loop tail, part l next loop tail -> forall x, In x (flat_map blocks_of l ++ tail) -> dominates f (first_of l next) x.
Proof.
  intros l next loop tail P x I e t En W. apply entry_first in En. subst e.
  assert (G : forall u t d, walk f u t d -> d = Some x -> In u (flat_map blocks_of l ++ tail) \/ In (first_of l next) (map fst t ++ [x])).
  { clear t W. intros u t d W. revert u W. induction t as [|[y o] t IH]; intros u W Q; destruct (walk_edge _ _ _ W) as [[A B]|[[A B]|(o' & t' & n & v & A & B & C)]]; try congruence.
    - left. congruence.
    - injection A; intros; subst. destruct (IH v C eq_refl) as [J|J]; [|right; right; exact J].
      destruct (in_dec N.eq_dec u (flat_map blocks_of l ++ tail)) as [K|K]; [auto|]. right. right.
      destruct (part_entered _ _ _ _ P _ _ _ B J K) as [<- _]. eapply walk_head; [exact C|reflexivity]. }
  destruct (G _ _ _ W eq_refl) as [J|J]; [|exact J]. rewrite <- (entry_of_part _ _ _ _ P J). eapply walk_head; [exact W|reflexivity].
Qed.

(** ** Neat programs *)
Lemma ends_plainly_later : forall s l, ends_plainly (s :: l) -> ends_plainly l.
Proof. intros s l H l' x Q. apply (H (s :: l') x). rewrite Q. reflexivity. Qed.
Lemma construct_followed : forall s l (tail : list BlockId), is_construct s = true -> (tail = [] -> ends_plainly (s :: l)) -> l <> [] \/ tail <> [].
Proof.
  intros s l tail C H. destruct l as [|s2 l]; [|left; discriminate]. destruct tail as [|x tail]; [|right; discriminate]. exfalso.
  specialize (H eq_refl [] s eq_refl). congruence.
Qed.

Lemma neat_facts : every neat program -> forall l next loop tail, part l next loop tail ->
  every neat l /\ (tail = [] -> ends_plainly l)
  /\ (forall x, In x (flat_map blocks_of l) -> before x next \/ exists m, loop = Some (next, m))
  /\ (forall h m, loop = Some (h, m) -> forall x, In x (flat_map blocks_of l) -> before x m).
Proof.
  intros NE l next loop tail P. induction P as [|s l next loop tail P (N & EP & IN & IM)|id c yes no hint w l next loop tail P (N & EP & IN & IM)|id c yes no hint w l next loop tail P (N & EP & IN & IM)
    |id ct body hint l next loop tail P (N & EP & IN & IM)|id c rest w l next loop tail P (N & EP & IN & IM)|id c rest w l next loop tail P (N & EP & IN & IM)].
  - split; [exact NE|]. split; [intros Q; discriminate Q|]. split; [|intros h m Q; discriminate Q].
    intros x I. left. apply (before_split (flat_map blocks_of program) [last]); [reflexivity|exact I|left; reflexivity].
  - destruct N as [_ N]. split; [exact N|]. split; [intros Q; eapply ends_plainly_later; apply EP, Q|].
    split; [intros x I; apply IN|intros h m Q x I; apply (IM h m Q)]; cbn [flat_map]; apply in_or_app; auto.
  - destruct N as [((E1 & E2) & N1 & N2) _]. pose proof (construct_followed (Choose id c yes no hint w) l tail eq_refl EP) as C. split; [exact N1|]. split; [auto|].
    split; [intros x I; left; eapply part_first; [exact P|exact C|right; apply in_or_app; auto]|].
    intros h m Q x I. apply (IM h m Q). cbn [flat_map blocks_of]. right. rewrite !in_app_iff. auto.
  - destruct N as [((E1 & E2) & N1 & N2) _]. pose proof (construct_followed (Choose id c yes no hint w) l tail eq_refl EP) as C. split; [exact N2|]. split; [auto|].
    split; [intros x I; left; eapply part_first; [exact P|exact C|right; apply in_or_app; auto]|].
    intros h m Q x I. apply (IM h m Q). cbn [flat_map blocks_of]. right. rewrite !in_app_iff. auto.
  - destruct N as [(E1 & N1) _]. pose proof (construct_followed (Repeat id ct body hint) l tail eq_refl EP) as C. split; [exact N1|]. split; [auto|].
    split; [intros x I; right; eauto|]. intros h m Q x I. injection Q; intros; subst. eapply part_first; [exact P|exact C|right; exact I].
  - destruct N as [(E1 & N1) _]. split; [exact N1|]. split; [auto|].
    assert (L0 : l = []).
    { destruct (f_flag _ _ _ _ (part_facts _ _ _ _ P)) as (flag & F & _). destruct l; [reflexivity|]. apply tail_last_cons in F as [[F _] _]. discriminate F. }
    subst l. cbn [first_of flat_map blocks_of app] in *. split; [intros x I; apply IN|intros h m Q x I; apply (IM h m Q)]; right; rewrite app_nil_r; exact I.
  - destruct N as [[] _].
Qed.

(** Where the block after a statement is. *)
Lemma next_after : every neat program -> forall s l next loop tail, part (s :: l) next loop tail -> forall x, In x (blocks_of s) ->
  before x (first_of l next) \/ exists m, loop = Some (first_of l next, m).
Proof.
  intros NE s l next loop tail P x I. destruct (neat_facts NE _ _ _ _ P) as (_ & _ & IN & _). destruct l as [|s2 l].
  - cbn [first_of]. apply IN. cbn [flat_map]. rewrite app_nil_r. exact I.
  - left. eapply part_first; [exact P|left; discriminate|exact I].
Qed.

Definition in_loop (u v : BlockId) : Prop := exists ct body hint l2 next2 loop2 tail2, part (Repeat v ct body hint :: l2) next2 loop2 tail2 /\ In u (flat_map blocks_of body).
Lemma edge_kinds : every neat program -> forall u n v, edge skeletons u n v -> before u v \/ in_loop u v.
Proof.
  intros NE u n v (mg & br & I & Q). destruct (block_part _ _ _ I) as [(_ & _ & ->)|(s & l & next & loop & tail & r & P & L & ->)]; [destruct n; discriminate Q|].
  destruct (part_facts _ _ _ _ P) as [_ _ _ _ _ (flag & F1 & F2) EN IL]. destruct (neat_facts NE _ _ _ _ P) as ((N & _) & EP & IN & IM). destruct EN as [EN _].
  assert (A : before (start s) (first_of l next) \/ in_loop (start s) (first_of l next)).
  { destruct (next_after NE _ _ _ _ _ P (start s) (start_in s)) as [B|(m & B)]; [auto|right].
    destruct (IL _ _ B) as (ct & body & hint & l2 & n2 & lp2 & t2 & P2 & _ & S). exists ct, body, hint, l2, n2, lp2, t2. split; [exact P2|].
    apply S. cbn [flat_map]. apply in_or_app. left. apply start_in. }
  assert (G : forall l' next', incl (flat_map blocks_of l') (blocks_of s) -> ~ In (start s) (flat_map blocks_of l') ->
    (before (start s) next' \/ in_loop (start s) next') -> before (start s) (first_of l' next') \/ in_loop (start s) (first_of l' next')).
  { intros l' next' S NS H. destruct (first_in l' next') as [->|J]; [exact H|left]. eapply part_start; [exact P|apply S, J|]. intros R. rewrite R in J. exact (NS J). }
  assert (ND : NoDup (blocks_of s)).
  { destruct (f_order _ _ _ _ (part_facts _ _ _ _ P)) as (pre & post & O). apply in_order_nodup in O. cbn [flat_map] in O. apply NoDup_app_l, NoDup_app_l in O. exact O. }
  destruct s as [id|id c yes no hint w|id ct body hint|id c rest w|id c rest w]; cbn [lower start blocks_of neat loops_end] in *; injection L; intros; subst mg br r;
    cbn [goes_to OpBranch_target_label OpBranchConditional_true_label OpBranchConditional_false_label] in Q; try (inversion ND as [|y z ND0 ND1]; subst y z).
  - apply nth_1 in Q as [_ ->]. exact A.
  - rewrite in_app_iff in ND0. apply nth_2 in Q as [[_ ->]|[_ ->]]; apply G; try exact A; try tauto; intros y J; right; apply in_or_app; auto.
  - apply nth_1 in Q as [_ ->]. destruct EN as [EN _]. destruct body as [|s2 body]; [destruct EN|]. cbn [first_of]. left.
    eapply (part_start _ _ _ _ _ P); cbn [start blocks_of]; [right|intros R; rewrite <- R in ND0; apply ND0]; cbn [flat_map]; apply in_or_app; left; apply start_in.
  - apply nth_2 in Q as [[_ ->]|[_ ->]]; [apply G; try exact A; try tauto; intros y J; right; exact J|].
    destruct l as [|s2 l]; [|apply tail_last_cons in F1 as [[F1 _] _]; discriminate F1]. destruct F1 as [F1 _]. destruct (F2 F1) as (m & ->). left.
    apply (IM _ _ eq_refl). left. reflexivity.
  - destruct N.
Qed.

(** ** One branch back *)
Definition only (bs : list block_skeleton) (v u : BlockId) (n : nat) : Prop := edge bs u n v /\ forall u' n', edge bs u' n' v -> u' = u /\ n' = n.
Definition once (s : statement) : Prop := neat s -> is_construct s = false -> forall next m, ~ In next (blocks_of s) -> ~ In m (blocks_of s) -> m <> next ->
  exists u n, only (lower (Some (next, m)) s next) next u n.
Lemma once_sequence : forall l, Forall once l -> every neat l -> ends_plainly l -> l <> [] -> forall next m, ~ In next (flat_map blocks_of l) -> ~ In m (flat_map blocks_of l) -> m <> next ->
  exists u n, only (sequence (lower (Some (next, m))) l next) next u n.
Proof.
  intros l F. induction F as [|s l Fs F IH]; intros N EP NL next m NI NM NE; [tauto|]. destruct N as [N1 N2]. cbn [flat_map] in NI, NM. rewrite in_app_iff in NI, NM.
  destruct l as [|s2 l].
  - cbn [sequence first_of]. rewrite app_nil_r. apply Fs; [exact N1|exact (EP [] s eq_refl)|tauto|tauto|exact NE].
  - destruct (IH N2 (ends_plainly_later _ _ EP) ltac:(discriminate) next m) as (u & n & O1 & O2); [tauto|tauto|exact NE|]. exists u, n.
    change (sequence (lower (Some (next, m))) (s :: s2 :: l) next) with (lower (Some (next, m)) s (start s2) ++ sequence (lower (Some (next, m))) (s2 :: l) next). split.
    + apply edge_app. right. exact O1.
    + intros u' n' H. apply edge_app in H as [H|H]; [exfalso|apply O2, H]. destruct (all_tame s N1 _ _ _ _ _ H) as [J|[J|(h' & m' & Q & J)]]; [tauto| |congruence].
      apply NI. right. rewrite J. cbn [flat_map]. apply in_or_app. left. apply start_in.
Qed.
Lemma all_once : forall s, once s.
Proof.
  induction s as [id|id cond yes no h w IHy IHn|id ct body h IHb|id cond rest w IHr|id cond rest w IHr] using statement_ind';
    intros N C next m NI NM NE; cbn [lower blocks_of neat is_construct] in *; try discriminate C; try (destruct N; fail).
  - exists id, 0. split; [apply edge_cons; left; split; reflexivity|]. intros u' n' H. apply edge_cons in H as [[-> H]|H]; [|destruct (edge_nil _ _ _ H)].
    apply nth_1 in H as [-> _]. auto.
  - destruct N as [EP N]. cbn [In] in NI, NM. destruct rest as [|s rest].
    + exists id, 0. cbn [first_of sequence]. split; [apply edge_cons; left; split; reflexivity|]. intros u' n' H. apply edge_cons in H as [[-> H]|H]; [|destruct (edge_nil _ _ _ H)].
      apply nth_2 in H as [[-> _]|[_ H]]; [auto|cbn in H; congruence].
    + destruct (once_sequence _ IHr N EP ltac:(discriminate) next m) as (u & n & O1 & O2); [tauto|tauto|exact NE|]. exists u, n. split; [apply edge_cons; right; exact O1|].
      intros u' n' H. apply edge_cons in H as [[-> H]|H]; [exfalso|apply O2, H]. apply nth_2 in H as [[_ H]|[_ H]]; [|cbn in H; congruence]. cbn [OpBranchConditional_true_label first_of] in H.
      apply NI. right. rewrite H. cbn [flat_map]. apply in_or_app. left. apply start_in.
Qed.

(** ** Merge blocks *)
Definition merges (bs : list block_skeleton) : list BlockId := flat_map (fun b => merges_at (snd (fst b))) bs.
Lemma merges_app : forall a b, merges (a ++ b) = merges a ++ merges b.
Proof. intros a b. unfold merges. apply flat_map_app. Qed.
Lemma NoDup_join : forall (a b : list BlockId), NoDup a -> NoDup b -> (forall x, In x a -> ~ In x b) -> NoDup (a ++ b).
Proof.
  induction a as [|x a IH]; intros b A B D; [exact B|]. inversion A; subst. cbn [app]. constructor.
  - rewrite in_app_iff. intros [J|J]; [tauto|]. apply (D x); [left; reflexivity|exact J].
  - apply IH; auto. intros y J. apply D. right. exact J.
Qed.

Definition inner (s : statement) : Prop := neat s -> NoDup (blocks_of s) -> forall loop next, ~ In next (blocks_of s) -> exists mg br rest, lower loop s next = (start s, mg, br) :: rest
  /\ merges_at mg = (if is_construct s then [next] else []) /\ NoDup (merges rest) /\ forall x, In x (merges rest) -> In x (blocks_of s) /\ x <> start s.
Lemma inner_sequence : forall l, Forall inner l -> every neat l -> NoDup (flat_map blocks_of l) -> forall loop next, ~ In next (flat_map blocks_of l) ->
  NoDup (merges (sequence (lower loop) l next))
  /\ forall x, In x (merges (sequence (lower loop) l next)) -> (In x (flat_map blocks_of l) /\ x <> first_of l next) \/ (x = next /\ ~ ends_plainly l).
Proof.
  intros l F. induction F as [|s l Fs F IH]; intros N D loop next NI; [split; [constructor|intros x []]|]. destruct N as [N1 N2]. cbn [flat_map sequence first_of] in *.
  rewrite in_app_iff in NI. pose proof (NoDup_app_l _ _ D) as D1. pose proof (NoDup_app_r _ _ D) as D2. pose proof (NoDup_app_apart _ _ D) as D3.
  assert (Y : ~ In (first_of l next) (blocks_of s)) by (destruct (first_in l next) as [->|J]; [tauto|intros K; exact (D3 _ K J)]).
  destruct (IH N2 D2 loop next) as [A B]; [tauto|]. destruct (Fs N1 D1 loop (first_of l next) Y) as (mg & br & rest & L & M & R1 & R2).
  rewrite merges_app, L. change (merges ((start s, mg, br) :: rest)) with (merges_at mg ++ merges rest). rewrite M.
  assert (X : forall x, In x (if is_construct s then [first_of l next] else []) -> x = first_of l next /\ is_construct s = true) by (intros x; destruct (is_construct s); intros J; [destruct J as [<-|[]]; auto|destruct J]).
  split.
  - rewrite <- app_assoc. apply NoDup_join; [destruct (is_construct s); repeat constructor; intros []| |].
    + apply NoDup_join; [exact R1|exact A|]. intros x J K. apply R2 in J as [J _]. destruct (B _ K) as [[K1 _]|[-> _]]; [exact (D3 _ J K1)|tauto].
    + intros x J K. apply X in J as [-> C]. apply in_app_or in K as [K|K]; [apply R2 in K; tauto|]. destruct (B _ K) as [[_ K1]|[K1 K2]]; [tauto|].
      destruct l as [|s2 l]; [cbn in K; tauto|]. apply NI. right. rewrite <- K1. cbn [first_of flat_map]. apply in_or_app. left. apply start_in.
  - intros x J. rewrite !in_app_iff in J. destruct J as [[J|J]|J].
    + apply X in J as [-> C]. destruct l as [|s2 l]; cbn [first_of] in *.
      * right. split; [reflexivity|]. intros EP. specialize (EP [] s eq_refl). congruence.
      * left. split; [apply in_or_app; right; cbn [flat_map]; apply in_or_app; left; apply start_in|]. intros Q. apply Y. rewrite Q. apply start_in.
    + apply R2 in J as [J K]. left. split; [apply in_or_app; auto|exact K].
    + destruct (B _ J) as [[K1 K2]|[-> K]].
      * left. split; [apply in_or_app; auto|]. intros ->. apply (D3 (start s)); [apply start_in|exact K1].
      * right. split; [reflexivity|]. intros EP. apply K. eapply ends_plainly_later. exact EP.
Qed.
Lemma all_inner : forall s, inner s.
Proof.
  induction s as [id|id cond yes no h w IHy IHn|id ct body h IHb|id cond rest w IHr|id cond rest w IHr] using statement_ind';
    intros N D loop next NI; cbn [lower blocks_of neat start is_construct In] in *; try (destruct N; fail); inversion D as [|y z D0 D']; subst y z;
    do 3 eexists; (split; [reflexivity|]); (split; [reflexivity|]).
  - split; [constructor|intros x []].
  - destruct N as ((E1 & E2) & N1 & N2). rewrite in_app_iff in D0, NI. pose proof (NoDup_app_l _ _ D') as D1. pose proof (NoDup_app_r _ _ D') as D2. pose proof (NoDup_app_apart _ _ D') as D3.
    destruct (inner_sequence _ IHy N1 D1 loop next) as [A1 B1]; [tauto|]. destruct (inner_sequence _ IHn N2 D2 loop next) as [A2 B2]; [tauto|]. rewrite merges_app. split.
    + apply NoDup_join; auto. intros x J K. destruct (B1 x J) as [[J1 _]|[_ J1]]; [|tauto]. destruct (B2 x K) as [[K1 _]|[_ K1]]; [|tauto]. exact (D3 x J1 K1).
    + intros x J. apply in_app_or in J. rewrite in_app_iff. assert (K : In x (flat_map blocks_of yes) \/ In x (flat_map blocks_of no)).
      { destruct J as [J|J]; [destruct (B1 x J)|destruct (B2 x J)]; tauto. }
      split; [auto|]. intros ->. tauto.
  - destruct N as [EP N]. destruct (inner_sequence _ IHb N D' (Some (id, next)) id D0) as [A B]. split; [exact A|]. intros x J. destruct (B x J) as [[K _]|[_ K]]; [|tauto].
    split; [auto|]. intros ->. tauto.
  - destruct N as [EP N]. destruct (inner_sequence _ IHr N D' loop next) as [A B]; [tauto|]. split; [exact A|]. intros x J. destruct (B x J) as [[K _]|[_ K]]; [|tauto].
    split; [auto|]. intros ->. tauto.
Qed.

Lemma merge_own : every neat program -> forall h1 h2 m, declares f h1 m -> declares f h2 m -> h1 = h2.
Proof.
  intros NE h1 h2 m A B. apply declares_skeleton in A as (mg1 & br1 & I1 & M1). apply declares_skeleton in B as (mg2 & br2 & I2 & M2).
  assert (D : NoDup (merges skeletons)).
  { unfold skeletons, lower_program. rewrite merges_app. cbn. rewrite app_nil_r. eapply inner_sequence; [apply Forall_forall; intros s _; apply all_inner|exact NE|exact (NoDup_app_l _ _ Nodup)|].
    intros J. apply (NoDup_app_apart _ _ Nodup _ J). left. reflexivity. }
  clear - D I1 I2 M1 M2. induction skeletons as [|[[x mg] br] bs IH]; [destruct I1|]. change (merges ((x, mg, br) :: bs)) with (merges_at mg ++ merges bs) in D.
  assert (G : forall h mg br, In (h, mg, br) bs -> In m (merges_at mg) -> In m (merges bs)).
  { intros h mg' br' I J. apply in_flat_map. exists (h, mg', br'). auto. }
  destruct I1 as [Q1|I1], I2 as [Q2|I2].
  - congruence.
  - exfalso. injection Q1; intros; subst. exact (NoDup_app_apart _ _ D m M1 (G _ _ _ I2 M2)).
  - exfalso. injection Q2; intros; subst. exact (NoDup_app_apart _ _ D m M2 (G _ _ _ I1 M1)).
  - apply IH; auto. exact (NoDup_app_r _ _ D).
Qed.

(** ** Neat programs obey the rules *)
Lemma declares_part : forall h m, declares f h m -> exists s l next loop tail, part (s :: l) next loop tail /\ h = start s /\ is_construct s = true /\ m = first_of l next.
Proof.
  intros h m D. apply declares_skeleton in D as (mg & br & I & M). destruct (block_part _ _ _ I) as [(_ & -> & _)|(s & l & next & loop & tail & r & P & L & ->)]; [destruct M|].
  exists s, l, next, loop, tail. split; [exact P|]. split; [reflexivity|].
  destruct s; cbn [lower] in L; injection L; intros; subst mg; cbn in M; try (destruct M; fail); destruct M as [<-|[]]; auto.
Qed.
Lemma header_part : forall h m ct, heads_loop f h m ct -> exists body hint l next loop tail, part (Repeat h ct body hint :: l) next loop tail /\ m = first_of l next.
Proof.
  intros h m ct D. apply header_skeleton in D as (hint & br & I). destruct (block_part _ _ _ I) as [(_ & Q & _)|(s & l & next & loop & tail & r & P & L & ->)]; [discriminate Q|].
  destruct s as [id|id c yes no hint' w|id ct' body hint'|id c rest w|id c rest w]; cbn [lower start] in *; try discriminate L. injection L; intros; subst.
  exists body, hint, l, next, loop, tail. auto.
Qed.
Lemma part_header : forall id ct body hint l next loop tail, part (Repeat id ct body hint :: l) next loop tail -> heads_loop f id (first_of l next) ct.
Proof.
  intros id ct body hint l next loop tail P. apply header_skeleton. exists hint, (GroupBranch_OpBranch (Build_OpBranch (first_of body id))).
  apply (part_lower _ _ _ _ _ P). left. reflexivity.
Qed.
Lemma part_declares : forall s l next loop tail, part (s :: l) next loop tail -> is_construct s = true -> declares f (start s) (first_of l next).
Proof.
  intros s l next loop tail P C. apply declares_skeleton. pose proof (part_lower _ _ _ _ _ P) as I. destruct s; try discriminate C; cbn [lower start] in *; do 2 eexists; (split; [apply I; left; reflexivity|left; reflexivity]).
Qed.
Lemma part_order : forall l next loop tail, part l next loop tail -> incl (flat_map blocks_of l ++ tail) order.
Proof. intros l next loop tail P x I. destruct (f_order _ _ _ _ (part_facts _ _ _ _ P)) as (pre & post & O). rewrite O. apply in_or_app. right. apply in_or_app. auto. Qed.
Lemma in_loop_dominates : forall u v, in_loop u v -> dominates f v u /\ before v u.
Proof.
  intros u v (ct & body & hint & l2 & n2 & lp2 & t2 & P & I). split.
  - apply (part_dominates _ _ _ _ P). cbn [flat_map blocks_of]. right. rewrite !in_app_iff. auto.
  - apply (part_start _ _ _ _ _ P); [right; exact I|]. cbn [start]. intros ->. apply (f_next _ _ _ _ (part_facts _ _ _ _ (part_body _ _ _ _ _ _ _ _ P))). exact I.
Qed.
Lemma first_least : forall x, ~ before x (first_of program last).
Proof.
  intros x B. unfold before, order in B. destruct program as [|s p]; cbn [flat_map first_of app pos] in B.
  - rewrite N.eqb_refl in B. lia.
  - destruct (blocks_start s) as (r & Q). rewrite Q in B. cbn [app pos] in B. rewrite N.eqb_refl in B. lia.
Qed.

Lemma one_back_edge : every neat program -> forall id ct body hint l next loop tail, part (Repeat id ct body hint :: l) next loop tail ->
  exists u n, In u (flat_map blocks_of body) /\ back_edge f u n id /\ forall u' n', back_edge f u' n' id -> u' = u /\ n' = n.
Proof.
  intros NE id ct body hint l next loop tail P. pose proof (part_body _ _ _ _ _ _ _ _ P) as PB. pose proof (part_facts _ _ _ _ PB) as FB. pose proof (part_facts _ _ _ _ P) as FP.
  destruct (neat_facts NE _ _ _ _ PB) as (N & EP & _). destruct (f_loop _ _ _ _ FB _ _ eq_refl) as (_ & [NH NM] & HM).
  assert (NB : body <> []) by (destruct (f_ends _ _ _ _ FP) as [[S _] _]; intros ->; destruct S).
  destruct (once_sequence body) with (next := id) (m := first_of l next) as (u & n & O1 & O2); try assumption; [apply Forall_forall; intros s _; apply all_once|auto|congruence|].
  assert (IU : In u (flat_map blocks_of body)).
  { destruct O1 as (mg & br & I & _). rewrite <- (sequence_labels body (Some (id, first_of l next)) id). apply (in_map (fun b : block_skeleton => fst (fst b))) in I. exact I. }
  exists u, n. split; [exact IU|]. split.
  - split; [apply branches_edge; eapply edge_incl; [exact (f_skeletons _ _ _ _ FB)|exact O1]|]. split.
    + apply all_reachable. apply (part_order _ _ _ _ P). cbn [flat_map blocks_of]. right. rewrite !in_app_iff. auto.
    + apply in_loop_dominates. exists ct, body, hint, l, next, loop, tail. auto.
  - intros u' n' (B & _ & D). apply branches_edge in B. destruct (in_dec N.eq_dec u' (flat_map blocks_of (Repeat id ct body hint :: l) ++ tail)) as [I|I].
    + cbn [flat_map blocks_of] in I. rewrite <- app_assoc in I. apply in_app_or in I as [[I|I]|I].
      * exfalso. subst u'. pose proof (statement_outs _ _ _ _ _ P _ _ _ (start_in _) B) as H. cbn [lower start] in H. apply edge_cons in H as [[_ H]|(mg & br & H & _)].
        { apply nth_1 in H as [_ H]. cbn [OpBranch_target_label] in H. destruct body as [|s body]; [tauto|]. apply NH. rewrite H at 1. cbn [first_of flat_map]. apply in_or_app. left. apply start_in. }
        { apply NH. rewrite <- (sequence_labels body (Some (id, first_of l next)) id). apply (in_map (fun b : block_skeleton => fst (fst b))) in H. exact H. }
      * apply O2. eapply edge_local; [exact (f_skeletons _ _ _ _ FB)| |exact B]. rewrite sequence_labels. exact I.
      * exfalso. assert (PL : part l next loop tail) by (eapply part_later; exact P). destruct (part_outs _ _ _ _ PL _ _ _ I B) as [J|[->|(h & m & Q & J)]].
        { apply (before_irrefl id). apply (part_apart _ _ _ _ _ P); [left; reflexivity|apply in_or_app; auto]. }
        { apply (f_next _ _ _ _ FP). left. reflexivity. }
        { destruct (f_loop _ _ _ _ FP h m Q) as (_ & [X Y] & _). cbn [flat_map blocks_of] in X, Y. destruct J as [->| ->]; [apply X|apply Y]; left; reflexivity. }
    + exfalso. destruct (part_entered _ _ _ _ P _ _ _ B) as [_ L]; [left; reflexivity|exact I|].
      destruct (dominates_not_after id u') as [->|L']; [eapply edge_order; exact B|exact D|exact (before_irrefl _ L)|]. apply (before_irrefl id). eapply before_trans; eassumption.
Qed.

Lemma neat_rules : neat_program program -> merge_rules f.
Proof.
  intros [NF NE]. split; [|split; [|split; [|split; [|split]]]].
  - intros e u n En B. apply entry_first in En. subst e. apply branches_edge in B. destruct (edge_kinds NE _ _ _ B) as [L|(ct & body & hint & l2 & n2 & lp2 & t2 & P & _)].
    + exact (first_least _ L).
    + assert (G : exists mg br, In (first_of program last, mg, br) skeletons /\ forall op, mg <> Some (GroupMerge_OpLoopMerge op)).
      { destruct program as [|s p] eqn:Q.
        - exists None, (GroupBranch_OpReturn Build_OpReturn). split; [left; reflexivity|discriminate].
        - pose proof (NF) as NF'. assert (P0 : incl (lower None s (first_of p last)) skeletons).
          { unfold skeletons, lower_program. cbn [sequence]. intros x J. apply in_or_app. left. apply in_or_app. auto. }
          destruct s as [id|id c yes no hint' w|id ct' body' hint'|id c rest w|id c rest w]; cbn [lower first_of start] in *;
            [| |destruct (NF _ _ _ _ _ eq_refl)| |]; do 2 eexists; (split; [apply P0; left; reflexivity|discriminate]). }
      destruct G as (mg & br & I & NL). pose proof (part_lower _ _ _ _ _ P _ (or_introl eq_refl)) as J. destruct (skeleton_unique _ _ _ _ _ I J) as [-> _]. eapply NL. reflexivity.
  - apply merge_own. exact NE.
  - intros h m D _. destruct (declares_part _ _ D) as (s & l & next & loop & tail & P & -> & C & ->). destruct (neat_facts NE _ _ _ _ P) as (_ & EP & _).
    pose proof (construct_followed _ _ _ C EP) as H. split.
    + apply (part_dominates _ _ _ _ P). cbn [flat_map]. rewrite <- app_assoc. apply in_or_app. right. apply first_inside; [exact (f_tail _ _ _ _ (part_facts _ _ _ _ P))|exact H].
    + intros Q. apply (before_irrefl (start s)). rewrite Q at 2. eapply part_first; [exact P|exact H|apply start_in].
  - assert (FB : forall u v, onward f u v -> before u v).
    { intros u v (n & B & _ & ND). apply branches_edge in B. destruct (edge_kinds NE _ _ _ B) as [L|L]; [exact L|]. destruct ND. apply in_loop_dominates. exact L. }
    assert (G : forall u v, clos_trans BlockId (onward f) u v -> before u v) by (intros u v H; induction H; [auto|eapply before_trans; eassumption]).
    intros u H. exact (before_irrefl _ (G _ _ H)).
  - intros u n v (B & _ & D). apply branches_edge in B. destruct (edge_kinds NE _ _ _ B) as [L|(ct & body & hint & l2 & n2 & lp2 & t2 & P & _)].
    + exfalso. destruct (dominates_not_after v u) as [->|L']; [eapply edge_order; exact B|exact D|exact (before_irrefl _ L)|]. apply (before_irrefl u). eapply before_trans; eassumption.
    + do 2 eexists. eapply part_header. exact P.
  - intros h m ct H _. destruct (header_part _ _ _ H) as (body & hint & l & next & loop & tail & P & _). destruct (one_back_edge NE _ _ _ _ _ _ _ _ P) as (u & n & _ & A & B). exists u, n. auto.
Qed.

(** ** Only neat programs obey the rules *)
Lemma walk_last_edge : forall u t d, walk f u t d -> forall v, d = Some v -> t <> [] -> exists x n, In x (map fst t) /\ edge skeletons x n v.
Proof.
  intros u t. revert u. induction t as [|[y o] t IH]; intros u d W v -> NE; [tauto|].
  destruct (walk_edge _ _ _ W) as [[A _]|[[A _]|(o' & t' & n & x & A & B & C)]]; try discriminate A. injection A; intros; subst.
  destruct t' as [|z t'].
  - destruct (walk_edge _ _ _ C) as [[_ Q]|[[Q _]|(o2 & t2 & n2 & x2 & Q & _)]]; try discriminate Q. injection Q; intros; subst. exists u, n. split; [left; reflexivity|exact B].
  - destruct (IH x (Some v) C v eq_refl ltac:(discriminate)) as (x' & n' & I & J). exists x', n'. split; [right; exact I|exact J].
Qed.
(** From a sequence there is a branch to the block that follows. *)
Lemma part_finishes : forall l next loop tail, part l next loop tail -> l <> [] -> exists u n, In u (flat_map blocks_of l) /\ edge skeletons u n next.
Proof.
  intros l next loop tail P NL. pose proof (part_facts _ _ _ _ P) as F.
  destruct (passes_sequence l) with (loop := loop) (next := next) as [(t & W & S) _]; [apply Forall_forall; intros s _; apply all_passes|exact (f_ends _ _ _ _ F)|exact (f_skeletons _ _ _ _ F)|].
  destruct t as [|e t].
  - exfalso. destruct (walk_edge _ _ _ W) as [[_ Q]|[[Q _]|(o & t' & n & v & Q & _)]]; try discriminate Q. injection Q; intros Q'. apply (f_next _ _ _ _ F). rewrite Q'.
    destruct l; [tauto|]. cbn [first_of flat_map]. apply in_or_app. left. apply start_in.
  - destruct (walk_last_edge _ _ _ W next eq_refl ltac:(discriminate)) as (x & n & I & J). exists x, n. split; [apply S, I|exact J].
Qed.
Lemma part_suffix : forall l' l next loop tail, part (l' ++ l) next loop tail -> part l next loop tail.
Proof. induction l' as [|s l' IH]; intros l next loop tail P; [exact P|]. apply IH. eapply part_later. exact P. Qed.

Lemma rules_neat : merge_rules f -> neat_program program.
Proof.
  intros (R1 & R2 & R3 & R4 & R5 & R6).
  (* in a loop, a construct at the end would have the loop header as its merge block *)
  assert (LE : forall l h m, part l h (Some (h, m)) [] -> ends_plainly l).
  { intros l h m P l' x Q. destruct (is_construct x) eqn:C; [exfalso|reflexivity]. subst l. pose proof (part_suffix _ _ _ _ _ P) as PX.
    pose proof (part_declares _ _ _ _ _ PX C) as D. cbn [first_of] in D. destruct (f_in_loop _ _ _ _ (part_facts _ _ _ _ PX) h m eq_refl) as (ct & body & hint & l2 & n2 & lp2 & t2 & P2 & _ & S).
    assert (B : before h (start x)) by (apply in_loop_dominates; exists ct, body, hint, l2, n2, lp2, t2; split; [exact P2|apply S; cbn [flat_map]; apply in_or_app; left; apply start_in]).
    assert (O : In h order) by (apply (part_order _ _ _ _ P2); left; reflexivity).
    destruct (R3 _ _ D) as [DM NE]; [apply all_reachable; exact O|]. destruct (dominates_not_after _ _ O DM) as [Q|Q]; [congruence|].
    apply (before_irrefl h). eapply before_trans; eassumption. }
  (* an arm that ends with a construct would share its merge block *)
  assert (AE : forall l id next loop, part l next loop [] -> declares f id next -> ~ In id (flat_map blocks_of l) -> ends_plainly l).
  { intros l id next loop P D NI l' x Q. destruct (is_construct x) eqn:C; [exfalso|reflexivity]. subst l. pose proof (part_suffix _ _ _ _ _ P) as PX.
    pose proof (part_declares _ _ _ _ _ PX C) as DX. cbn [first_of] in DX. specialize (R2 _ _ _ D DX). apply NI. rewrite R2, flat_map_app. apply in_or_app. right. cbn [flat_map].
    apply in_or_app. left. apply start_in. }
  assert (NS : forall s l next loop tail x r, part (s :: l) next loop tail -> blocks_of s = start s :: r -> In x r -> x <> start s).
  { intros s l next loop tail x r P B I ->. destruct (part_facts _ _ _ _ P) as [(pre & post & O) _ _ _ _ _ _ _]. apply in_order_nodup in O. cbn [flat_map] in O.
    apply NoDup_app_l, NoDup_app_l in O. rewrite B in O. inversion O; subst. tauto. }
  assert (EX : forall s l next loop tail, part (s :: l) next loop tail -> is_exit s = true -> l = [] /\ tail = [] /\ exists m, loop = Some (next, m)).
  { intros s l next loop tail P X. destruct (part_facts _ _ _ _ P) as [_ _ _ _ L (flag & F1 & F2) _ _]. destruct l as [|s2 l].
    - destruct s; try discriminate X; destruct F1 as [F1 _]; destruct (F2 F1) as (m & Q); (split; [reflexivity|]); (split; [apply (L _ _ Q)|eauto]).
    - exfalso. apply tail_last_cons in F1 as [F1 _]. destruct s; try discriminate X; destruct F1 as [F1 _]; discriminate F1. }
  assert (G : forall s l next loop tail, part (s :: l) next loop tail -> neat s).
  { assert (Q : forall l, Forall (fun s => forall l next loop tail, part (s :: l) next loop tail -> neat s) l -> forall next loop tail, part l next loop tail -> every neat l).
    { intros l F. induction F as [|s l Fs F IH]; intros next loop tail P; [exact I|]. split; [eapply Fs; exact P|eapply IH; eapply part_later; exact P]. }
    induction s as [id|id cond yes no h w IHy IHn|id ct body h IHb|id cond rest w IHr|id cond rest w IHr] using statement_ind'; intros l next loop tail P; cbn [neat].
    - exact I.
    - pose proof (part_yes _ _ _ _ _ _ _ _ _ _ P) as PY. pose proof (part_no _ _ _ _ _ _ _ _ _ _ P) as PN. pose proof (part_declares _ _ _ _ _ P eq_refl) as D. cbn [start] in D.
      split; [split|split; [eapply Q; eassumption|eapply Q; eassumption]].
      + eapply AE; [exact PY|exact D|]. intros J. eapply NS; [exact P|reflexivity| |reflexivity]. apply in_or_app. auto.
      + eapply AE; [exact PN|exact D|]. intros J. eapply NS; [exact P|reflexivity| |reflexivity]. apply in_or_app. auto.
    - pose proof (part_body _ _ _ _ _ _ _ _ P) as PB. split; [eapply LE; exact PB|eapply Q; eassumption].
    - destruct (EX _ _ _ _ _ P eq_refl) as (-> & -> & m & ->). pose proof (part_leave _ _ _ _ _ _ _ _ P) as PR. cbn [first_of] in PR. split; [eapply LE; exact PR|eapply Q; eassumption].
    - destruct (EX _ _ _ _ _ P eq_refl) as (-> & -> & m & ->). pose proof (part_restart _ _ _ _ _ _ _ _ P) as PR. cbn [first_of] in PR.
      destruct (f_in_loop _ _ _ _ (part_facts _ _ _ _ P) next m eq_refl) as (ct & body & hint & l2 & n2 & lp2 & t2 & P2 & _ & S).
      assert (BE : forall u n, In u (id :: flat_map blocks_of rest) -> edge skeletons u n next -> back_edge f u n next).
      { intros u n J H. assert (IL : in_loop u next) by (exists ct, body, hint, l2, n2, lp2, t2; split; [exact P2|apply S; cbn [flat_map blocks_of]; rewrite app_nil_r; exact J]).
        split; [apply branches_edge; exact H|]. split; [apply all_reachable; eapply edge_order; exact H|apply in_loop_dominates; exact IL]. }
      assert (O : In next order) by (apply (part_order _ _ _ _ P2); left; reflexivity).
      destruct (R6 _ _ _ (part_header _ _ _ _ _ _ _ _ P2) (all_reachable _ O)) as (u & n & _ & U).
      assert (SK : In (id, None, GroupBranch_OpBranchConditional (Build_OpBranchConditional cond (first_of rest next) next w)) skeletons) by (apply (part_lower _ _ _ _ _ P); left; reflexivity).
      assert (E1 : edge skeletons id 1 next) by (do 2 eexists; split; [exact SK|reflexivity]).
      destruct (U id 1 (BE _ _ (or_introl eq_refl) E1)) as [<- <-]. destruct rest as [|s rest].
      + assert (E0 : edge skeletons id 0 next) by (do 2 eexists; split; [exact SK|reflexivity]). destruct (U id 0 (BE _ _ (or_introl eq_refl) E0)) as [_ X]. discriminate X.
      + destruct (part_finishes _ _ _ _ PR ltac:(discriminate)) as (u & n & J & H). destruct (U u n (BE _ _ (or_intror J) H)) as [X _]. subst u.
        eapply NS; [exact P|reflexivity|exact J|reflexivity]. }
  split.
  - intros id ct body hint rest Q. assert (P : part (Repeat id ct body hint :: rest) last None [last]) by (rewrite <- Q; apply part_program).
    pose proof (part_body _ _ _ _ _ _ _ _ P) as PB. destruct (part_finishes _ _ _ _ PB) as (u & n & _ & H).
    { intros ->. destruct (f_ends _ _ _ _ (part_facts _ _ _ _ P)) as [[[] _] _]. }
    apply (R1 id u n); [|apply branches_edge; exact H]. rewrite Q in Entry. exact Entry.
  - apply every_Forall. apply Forall_forall. intros s I. apply in_split in I as (l1 & l2 & Q). apply (G s l2 last None [last]). apply (part_suffix l1). rewrite <- Q. apply part_program.
Qed.

(** ** Continue targets *)
Lemma part_continue : every continue_placed program -> forall l next loop tail, part l next loop tail -> every continue_placed l.
Proof.
  intros C l next loop tail P. induction P; try exact C; try (destruct IHP as [IHP ?]; try (destruct IHP); assumption).
Qed.
Lemma continues_part : forall ct l, continues_at ct l -> forall h m, part l h (Some (h, m)) [] -> exists l', closes ct l' /\ part l' h (Some (h, m)) [].
Proof.
  intros ct l C. induction C as [l C|s l C IH|id c rest w C IH]; intros h m P.
  - exists l. auto.
  - apply (IH h m). eapply part_later. exact P.
  - apply (IH h m). exact (part_leave _ _ _ _ _ _ _ _ P).
Qed.
Lemma no_return : forall s loop next u mg op, ~ In (u, mg, GroupBranch_OpReturn op) (lower loop s next).
Proof.
  assert (Q : forall l, Forall (fun s => forall loop next u mg op, ~ In (u, mg, GroupBranch_OpReturn op) (lower loop s next)) l ->
    forall loop next u mg op, ~ In (u, mg, GroupBranch_OpReturn op) (sequence (lower loop) l next)).
  { intros l F. induction F as [|s l Fs F IH]; intros loop next u mg op I; [exact I|]. cbn [sequence] in I. apply in_app_or in I as [I|I]; [exact (Fs _ _ _ _ _ I)|exact (IH _ _ _ _ _ I)]. }
  induction s as [id|id cond yes no h w IHy IHn|id ct body h IHb|id cond rest w IHr|id cond rest w IHr] using statement_ind';
    intros loop next u mg op I; cbn [lower] in I; (destruct I as [X|I]; [discriminate X|]).
  - exact I.
  - apply in_app_or in I as [I|I]; [exact (Q _ IHy _ _ _ _ _ I)|exact (Q _ IHn _ _ _ _ _ I)].
  - exact (Q _ IHb _ _ _ _ _ I).
  - exact (Q _ IHr _ _ _ _ _ I).
  - exact (Q _ IHr _ _ _ _ _ I).
Qed.
Lemma no_return_all : forall l loop next u mg op, ~ In (u, mg, GroupBranch_OpReturn op) (sequence (lower loop) l next).
Proof. induction l as [|s l IH]; intros loop next u mg op I; [exact I|]. cbn [sequence] in I. apply in_app_or in I as [I|I]; [exact (no_return _ _ _ _ _ _ I)|exact (IH _ _ _ _ _ I)]. Qed.

Lemma closes_left : forall l s, every (exits_last false) l -> blocks_of s = [start s] -> forall loop next tail, part (l ++ [s]) next loop tail ->
  forall u n v, In u (flat_map blocks_of (l ++ [s])) -> edge skeletons u n v -> ~ In v (flat_map blocks_of (l ++ [s])) -> u = start s.
Proof.
  induction l as [|s1 l IH]; intros s X B loop next tail P u n v I H N; cbn [app flat_map] in *.
  - rewrite app_nil_r, B in I. destruct I as [<-|[]]. reflexivity.
  - destruct X as [X1 X2]. rewrite in_app_iff in N. apply in_app_or in I as [I|I].
    + exfalso. pose proof (statement_outs _ _ _ _ _ P _ _ _ I H) as H'. destruct (all_closed s1 X1 _ _ _ _ _ H') as [J| ->]; [tauto|]. apply N. right.
      destruct l; cbn [app first_of flat_map]; apply in_or_app; left; apply start_in.
    + eapply (IH s X2 B loop next tail); [eapply part_later; exact P|exact I|exact H|tauto].
Qed.

Lemma neat_continue : neat_program program -> every continue_placed program -> continue_rules f.
Proof.
  intros [_ NE] CP h m ct u n H BE. destruct (header_part _ _ _ H) as (body & hint & l & next & loop & tail & P & ->).
  destruct (part_continue CP _ _ _ _ P) as [[C _] _]. destruct (continues_part _ _ C _ _ (part_body _ _ _ _ _ _ _ _ P)) as (l' & CL & P').
  destruct CL as [l' s FC X LS]. pose proof (part_facts _ _ _ _ P') as F'. pose proof (part_suffix _ _ _ _ _ P') as PS.
  destruct (f_in_loop _ _ _ _ F' _ _ eq_refl) as (ct2 & body2 & hint2 & l2 & n2 & lp2 & t2 & P2 & _ & S2).
  assert (BS : blocks_of s = [start s] /\ edge skeletons (start s) 0 h).
  { destruct LS as [LS|(c & w & LS)]; rewrite LS in PS |- *; (split; [reflexivity|]); do 2 eexists; (split; [apply (part_lower _ _ _ _ _ PS); left; reflexivity|reflexivity]). }
  destruct BS as [BS ES].
  assert (IS : In (start s) (flat_map blocks_of (l' ++ [s]))) by (rewrite flat_map_app; apply in_or_app; right; cbn [flat_map]; rewrite app_nil_r; apply start_in).
  assert (IC : In ct (flat_map blocks_of (l' ++ [s]))).
  { rewrite <- FC. destruct l'; cbn [app first_of flat_map]; apply in_or_app; left; apply start_in. }
  assert (FH : first_of (l' ++ [s]) h = ct) by (transitivity (first_of (l' ++ [s]) ct); [destruct l'; reflexivity|exact FC]).
  assert (US : u = start s).
  { destruct (one_back_edge NE _ _ _ _ _ _ _ _ P) as (u0 & n0 & _ & _ & U). destruct (U u n BE) as [-> ->].
    destruct (U (start s) 0) as [-> _]; [|reflexivity]. split; [apply branches_edge; exact ES|].
    split; [apply all_reachable; eapply edge_order; exact ES|]. apply in_loop_dominates. exists ct2, body2, hint2, l2, n2, lp2, t2. auto. }
  subst u. split; [|split].
  - apply in_loop_dominates. exists ct2, body2, hint2, l2, n2, lp2, t2. auto.
  - rewrite <- FH. apply (part_dominates _ _ _ _ P'). apply in_or_app. auto.
  - intros t W. revert IC W. generalize ct. clear FC FH H P C ct. induction t as [|e t IH]; intros x IX W; destruct (walk_edge _ _ _ W) as [[A B]|[[_ (mg & op & A & B)]|(o & t' & n' & v & A & B & C)]]; try discriminate.
    + exfalso. assert (IQ : In x (map (fun b : block_skeleton => fst (fst b)) (sequence (lower (Some (h, first_of l next))) (l' ++ [s]) h))) by (rewrite sequence_labels; exact IX).
      apply in_map_iff in IQ as ([[x' mg'] br'] & Q & J). cbn [fst] in Q. subst x'. destruct (skeleton_unique _ _ _ _ _ B (f_skeletons _ _ _ _ F' _ J)) as [<- <-].
      exact (no_return_all _ _ _ _ _ _ J).
    + injection A; intros; subst. cbn [map fst]. destruct (in_dec N.eq_dec v (flat_map blocks_of (l' ++ [s]))) as [J|J].
      * right. apply (IH v J C).
      * left. eapply closes_left; [exact X|exact BS|exact P'|exact IX|exact B|exact J].
Qed.

(** ** Constructs *)
Lemma walk_suffix : forall u t b, walk f u t (Some b) -> forall h, In h (map fst t ++ [b]) -> exists t1 t2, t = t1 ++ t2 /\ walk f h t2 (Some b).
Proof.
  intros u t. revert u. induction t as [|[y o] t IH]; intros u b W h I; destruct (walk_edge _ _ _ W) as [[A B]|[[A _]|(o' & t' & n & v & A & B & C)]]; try discriminate A; try discriminate.
  - destruct I as [<-|[]]. exists [], []. split; [reflexivity|constructor].
  - injection A; intros; subst. destruct I as [<-|I].
    + exists [], ((u, o') :: t'). split; [reflexivity|exact W].
    + destruct (IH v b C h I) as (t1 & t2 & -> & W2). exists ((u, o') :: t1), t2. split; [reflexivity|exact W2].
Qed.
Lemma construct_exits : every neat program -> forall s l next loop tail, part (s :: l) next loop tail -> is_construct s = true ->
  exits_last false s /\ (l <> [] \/ tail <> []).
Proof.
  intros NE s l next loop tail P C. destruct (neat_facts NE _ _ _ _ P) as (_ & EP & _). pose proof (construct_followed _ _ _ C EP) as H. split; [|exact H].
  destruct (part_facts _ _ _ _ P) as [_ _ _ _ L (flag & F1 & F2) _ _]. destruct l as [|s2 l]; [|apply tail_last_cons in F1; apply F1].
  destruct flag; [|exact F1]. exfalso. destruct (F2 eq_refl) as (m & Q). destruct (L _ _ Q) as (T & _). destruct H as [H|H]; [tauto|]. tauto.
Qed.
Lemma construct_blocks : every neat program -> forall s l next loop tail, part (s :: l) next loop tail -> is_construct s = true ->
  forall b, construct f (start s) (first_of l next) b <-> In b (blocks_of s).
Proof.
  intros NE s l next loop tail P C b. destruct (construct_exits NE _ _ _ _ _ P C) as [X H]. split.
  - intros (_ & D & ND). destruct (in_dec N.eq_dec b (blocks_of s)) as [I|I]; [exact I|]. destruct ND. intros e t En W. specialize (D e t En W).
    destruct (walk_suffix _ _ _ W _ D) as (t1 & t2 & -> & W2). rewrite map_app, <- app_assoc. apply in_or_app. right.
    assert (IS : In (start s) (blocks_of s)) by apply start_in. revert IS W2. generalize (start s). clear D W. induction t2 as [|[y o] t2 IH]; intros x IS W;
      destruct (walk_edge _ _ _ W) as [[A B]|[[A _]|(o' & t' & n & v & A & B & K)]]; try discriminate A; try discriminate.
    + injection B; intros; subst. tauto.
    + injection A; intros; subst. cbn [map fst]. destruct (in_dec N.eq_dec v (blocks_of s)) as [J|J].
      * right. apply (IH v J K).
      * right. pose proof (statement_outs _ _ _ _ _ P _ _ _ IS B) as H'. destruct (all_closed s X _ _ _ _ _ H') as [Q| ->]; [tauto|].
        eapply walk_head; [exact K|reflexivity].
  - intros I. assert (O : In b order) by (apply (part_order _ _ _ _ P); cbn [flat_map]; rewrite <- app_assoc; apply in_or_app; auto). split; [apply all_reachable; exact O|]. split.
    + apply (part_dominates _ _ _ _ P). cbn [flat_map]. rewrite <- app_assoc. apply in_or_app. auto.
    + intros D. pose proof (part_first _ _ _ _ _ P H _ I) as B. destruct (dominates_not_after _ _ O D) as [Q|Q]; [rewrite Q in B; exact (before_irrefl _ B)|].
      apply (before_irrefl b). eapply before_trans; eassumption.
Qed.

Lemma neat_constructs : neat_program program -> construct_rules f.
Proof.
  intros [_ NE] h m D _. destruct (declares_part _ _ D) as (s & l & next & loop & tail & P & -> & C & ->). pose proof (construct_blocks NE _ _ _ _ _ P C) as CB.
  destruct (construct_exits NE _ _ _ _ _ P C) as [X H]. destruct (neat_facts NE _ _ _ _ P) as ((N & _) & _). pose proof (part_facts _ _ _ _ P) as F.
  assert (ND : NoDup (blocks_of s)).
  { destruct (f_order _ _ _ _ F) as (pre & post & O). apply in_order_nodup in O. cbn [flat_map] in O. apply NoDup_app_l, NoDup_app_l in O. exact O. }
  split; [|split].
  - intros h' m' I NH D' _. apply CB in I. apply CB. apply declares_skeleton in D' as (mg & br & J & M).
    assert (FN : ~ In (first_of l next) (blocks_of s)) by (intros Q; apply (before_irrefl (first_of l next)); eapply part_first; eassumption).
    destruct (all_inner s N ND loop (first_of l next) FN) as (mg0 & br0 & rest & L & _ & _ & R).
    assert (IH : In h' (map (fun b : block_skeleton => fst (fst b)) (lower loop s (first_of l next)))) by (rewrite lower_labels; exact I).
    apply in_map_iff in IH as ([[x mg'] br'] & Q & K). cbn [fst] in Q. subst x. destruct (skeleton_unique _ _ _ _ _ J (part_lower _ _ _ _ _ P _ K)) as [<- <-].
    rewrite L in K. destruct K as [K|K]; [injection K; intros; congruence|]. apply R. apply in_flat_map. exists (h', mg, br). auto.
  - intros u n v B _ NU IV. apply branches_edge in B. apply CB in IV. assert (NU' : ~ In u (blocks_of s)) by (intros Q; apply NU, CB, Q).
    destruct (in_dec N.eq_dec u (flat_map blocks_of l ++ tail)) as [J|J].
    + exfalso. assert (PL : part l next loop tail) by (eapply part_later; exact P). destruct (part_outs _ _ _ _ PL _ _ _ J B) as [K|[->|(h & m & Q & K)]].
      * apply (before_irrefl v). eapply part_apart; [exact P|exact IV|apply in_or_app; auto].
      * apply (f_next _ _ _ _ F). cbn [flat_map]. apply in_or_app. auto.
      * destruct (f_loop _ _ _ _ F h m Q) as (_ & [A A'] & _). cbn [flat_map] in A, A'. rewrite in_app_iff in A, A'. destruct K as [->| ->]; tauto.
    + destruct (part_entered _ _ _ _ P _ _ _ B) as [-> _]; [| |reflexivity]; cbn [flat_map]; rewrite <- app_assoc, in_app_iff; [auto|tauto].
  - intros u n v B IU NV. left. apply branches_edge in B. apply CB in IU. pose proof (statement_outs _ _ _ _ _ P _ _ _ IU B) as H'.
    destruct (all_closed s X _ _ _ _ _ H') as [Q|Q]; [|exact Q]. destruct NV. apply CB, Q.
Qed.
End Written.
