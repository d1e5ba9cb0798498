(** Structured control flow: the search as a relation, and executions (C36, C37). *)
From Verif Require Import Base Types Ops Groups ExtSet ControlFlow Spec_Flow.

Scheme exec_mut := Induction for exec Sort Prop
  with exec_list_mut := Induction for exec_list Sort Prop.
Combined Scheme exec_exec_list_ind from exec_mut, exec_list_mut.

#[export] Hint Constructors exec exec_list : core.

(** ** Induction over chains *)
Section ChainInd.
Variable P : ControlFlowChain -> Prop.
Hypothesis Hatom : forall id, P (Atom id).
Hypothesis Hblock : forall l, Forall P l -> P (Block l).
Hypothesis Hsel : forall id lhs rhs h w, P lhs -> P rhs -> P (Selection id lhs rhs h w).
Hypothesis Hloop : forall id inner h w, P inner -> P (Loop id inner h w).
Hypothesis Hbreak : P Break.
Hypothesis Hcontinue : P Continue.
Fixpoint chain_ind' (c : ControlFlowChain) : P c :=
  match c with
  | Atom id => Hatom id
  | Block l => Hblock l ((fix go l : Forall P l := match l with [] => Forall_nil _ | c :: l => Forall_cons _ (chain_ind' c) (go l) end) l)
  | Selection id lhs rhs h w => Hsel id lhs rhs h w (chain_ind' lhs) (chain_ind' rhs)
  | Loop id inner h w => Hloop id inner h w (chain_ind' inner)
  | Break => Hbreak
  | Continue => Hcontinue
  end.
End ChainInd.

(** ** block *)
Definition items (c : ControlFlowChain) : list ControlFlowChain := match c with Block l => l | c => [c] end.

Lemma merge_chains_items : forall cs acc, merge_chains cs acc = acc ++ flat_map items cs.
Proof.
  induction cs as [|c cs IH]; intros acc; cbn [merge_chains flat_map].
  - rewrite app_nil_r. reflexivity.
  - destruct c; cbn [items]; rewrite IH, <- app_assoc; reflexivity.
Qed.
Lemma block2 : forall a b, block [a; b] = Block (items a ++ items b).
Proof. intros a b. unfold block. rewrite merge_chains_items. cbn [flat_map app]. rewrite app_nil_r. reflexivity. Qed.
Lemma block0 : block [] = Block [].
Proof. reflexivity. Qed.

(** ** Executions of sequences *)
Lemma exec_list_app_normal : forall l1 t1, exec_list l1 t1 Normal -> forall l2 t2 e, exec_list l2 t2 e -> exec_list (l1 ++ l2) (t1 ++ t2) e.
Proof.
  induction l1 as [|c l1 IH]; intros t1 H l2 t2 e H2; inversion H; subst; cbn [app].
  - exact H2.
  - rewrite <- app_assoc. eauto.
  - congruence.
Qed.
Lemma exec_list_app_exit : forall l1 t1 e, exec_list l1 t1 e -> e <> Normal -> forall l2, exec_list (l1 ++ l2) t1 e.
Proof.
  induction l1 as [|c l1 IH]; intros t1 e H N l2; inversion H; subst; cbn [app]; try congruence; eauto.
Qed.
Lemma exec_list_app_inv : forall l1 l2 t e, exec_list (l1 ++ l2) t e ->
  (exists t1 t2, t = t1 ++ t2 /\ exec_list l1 t1 Normal /\ exec_list l2 t2 e) \/ (e <> Normal /\ exec_list l1 t e).
Proof.
  induction l1 as [|c l1 IH]; intros l2 t e H; cbn [app] in H.
  - left. exists [], t. auto.
  - inversion H; subst.
    + match goal with X : exec_list (_ ++ _) _ _ |- _ => destruct (IH _ _ _ X) as [(u1 & u2 & -> & U1 & U2)|[U1 U2]] end.
      * left. exists (t1 ++ u1), u2. rewrite app_assoc. eauto.
      * right. eauto.
    + right. eauto.
Qed.

(** [Block (items a)] and [a] have the same executions, but for the empty one. *)
Lemma exec_items : forall a t e, exec_list (items a) t e -> exec a t e.
Proof.
  intros a t e H. destruct a; cbn [items] in H; eauto; inversion H; subst; try assumption;
    match goal with X : exec_list [] _ _ |- _ => inversion X; subst; rewrite app_nil_r; assumption end.
Qed.
Lemma exec_items_inv : forall a t e, exec a t e -> exec_list (items a) t e \/ (t = [] /\ e = Interrupted).
Proof.
  intros a t e H. destruct a as [id|l|id lhs rhs h w|id inner h w| |]; cbn [items];
    try (left; destruct e; try (apply exec_exit; [exact H|discriminate]); rewrite <- (app_nil_r t); apply exec_cons; [exact H|constructor]).
  inversion H; subst; [right; auto|left; assumption].
Qed.

(** ** The search as a relation *)
Section Search.
Context {E : Type}.
Variable f : FunctionDefinition E.

Inductive Search : FlowList -> BlockId -> ControlFlowChain -> Cont -> Prop :=
| S_stop : forall fl id, merges fl id = true -> Search fl id (Block []) (Cont_Next id)
| S_return : forall fl id b op, merges fl id = false -> has_block f id b -> BasicBlock_branch b = GroupBranch_OpReturn op ->
    Search fl id (Atom id) Cont_Return
| S_branch : forall fl id b op c n, merges fl id = false -> has_block f id b -> BasicBlock_branch b = GroupBranch_OpBranch op ->
    BasicBlock_merge b = None -> Search fl (OpBranch_target_label op) c n ->
    Search fl id (block [Atom id; c]) n
| S_loop : forall fl id b op lm inner after n, merges fl id = false -> has_block f id b -> BasicBlock_branch b = GroupBranch_OpBranch op ->
    BasicBlock_merge b = Some (GroupMerge_OpLoopMerge lm) ->
    Search (Converge_Loop id (OpLoopMerge_merge_block lm) (OpLoopMerge_loop_control lm) :: fl) (OpBranch_target_label op) inner (Cont_Next id) ->
    Search fl (OpLoopMerge_merge_block lm) after n ->
    Search fl id (block [Loop id inner (OpLoopMerge_loop_control lm) None; after]) n
| S_selection : forall fl id b op sm lhs rhs after n, merges fl id = false -> has_block f id b ->
    BasicBlock_branch b = GroupBranch_OpBranchConditional op ->
    BasicBlock_merge b = Some (GroupMerge_OpSelectionMerge sm) ->
    Search (Converge_If (OpSelectionMerge_merge_block sm) (OpSelectionMerge_selection_control sm) :: fl)
      (OpBranchConditional_true_label op) lhs (Cont_Next (OpSelectionMerge_merge_block sm)) ->
    Search (Converge_If (OpSelectionMerge_merge_block sm) (OpSelectionMerge_selection_control sm) :: fl)
      (OpBranchConditional_false_label op) rhs (Cont_Next (OpSelectionMerge_merge_block sm)) ->
    Search fl (OpSelectionMerge_merge_block sm) after n ->
    Search fl id (block [Selection id lhs rhs (OpSelectionMerge_selection_control sm) (OpBranchConditional_weights op); after]) n
| S_leave : forall fl id b op head merge inner (is_break : bool), merges fl id = false -> has_block f id b ->
    BasicBlock_branch b = GroupBranch_OpBranchConditional op -> BasicBlock_merge b = None ->
    innermost_loop fl = Some (head, merge) ->
    OpBranchConditional_false_label op = (if is_break then merge else head) ->
    Search fl (OpBranchConditional_true_label op) inner (Cont_Next head) ->
    Search fl id (Selection id inner (if is_break then Break else Continue) SelectionControl_default (OpBranchConditional_weights op)) (Cont_Next head).

Lemma cont_eqb_eq : forall a b, cont_eqb a b = true -> a = b.
Proof. intros [x|] [y|]; cbn [cont_eqb]; try discriminate; [|reflexivity]. intros H. apply N.eqb_eq in H. subst. reflexivity. Qed.
Lemma cont_eqb_refl : forall a, cont_eqb a a = true.
Proof. intros [x|]; cbn [cont_eqb]; [apply N.eqb_refl|reflexivity]. Qed.

(** [m] is the block map of [f]. *)
Definition represents (m : BlockMap) : Prop := forall id b, map_get id m = Some b -> has_block f id b.

Lemma bind_Ok : forall {X A B} (x : outcome X A) (k : A -> outcome X B) r, bind x k = Ok r -> exists a, x = Ok a /\ k a = Ok r.
Proof. intros X A B [a|e| |] k r H; try discriminate H. exists a. auto. Qed.

Lemma search_Ok : forall m, represents m -> forall fuel id fl c n, search_block fuel id fl m = Ok (c, n) -> Search fl id c n.
Proof.
  intros m R. induction fuel as [|fuel IH]; intros id fl c n; cbn [search_block]; [discriminate|].
  destruct (merges fl id) eqn:M.
  { intros H. injection H as <- <-. apply S_stop. exact M. }
  destruct (map_get id m) as [b|] eqn:G; [|discriminate]. apply R in G.
  destruct (BasicBlock_branch b) as [op|op|op] eqn:B.
  - destruct (BasicBlock_merge b) as [[lm|sm]|] eqn:Mg; [|discriminate|].
    + intros H. apply bind_Ok in H as ([inner inext] & Hi & H). destruct (cont_eqb inext (Cont_Next id)) eqn:C; [|discriminate].
      apply cont_eqb_eq in C. subst inext.
      apply bind_Ok in H as ([after anext] & Ha & H). injection H as <- <-. eapply S_loop; eauto.
    + intros H. apply bind_Ok in H as ([next nnext] & Hn & H). injection H as <- <-. eapply S_branch; eauto.
  - destruct (BasicBlock_merge b) as [[lm|sm]|] eqn:Mg; [discriminate| |].
    + intros H. apply bind_Ok in H as ([tc tn] & Ht & H). apply bind_Ok in H as ([fc fn] & Hf & H).
      destruct (cont_eqb tn fn && cont_eqb tn (Cont_Next (OpSelectionMerge_merge_block sm))) eqn:C; [|discriminate].
      apply andb_true_iff in C as [C1 C2]. apply cont_eqb_eq in C1. apply cont_eqb_eq in C2. subst.
      apply bind_Ok in H as ([after anext] & Ha & H). injection H as <- <-. eapply S_selection; eauto.
    + destruct (innermost_loop fl) as [[head merge]|] eqn:L; [|discriminate].
      destruct (N.eqb (OpBranchConditional_false_label op) merge || N.eqb (OpBranchConditional_false_label op) head) eqn:D; [|discriminate].
      intros H. apply bind_Ok in H as ([inner inext] & Hi & H). destruct (cont_eqb inext (Cont_Next head)) eqn:C; [|discriminate].
      apply cont_eqb_eq in C. subst inext. injection H as <- <-. eapply S_leave; eauto.
      destruct (N.eqb (OpBranchConditional_false_label op) merge) eqn:D1.
      * apply N.eqb_eq in D1. exact D1.
      * apply N.eqb_eq in D. exact D.
  - intros H. injection H as <- <-. eapply S_return; eauto.
Qed.

(** ** The map *)
Lemma build_map_spec : forall (blocks : list (BasicBlock E)) start m r, build_map blocks start m = Ok r ->
  snd r = rev (map (fun b : BasicBlock E => (label_of b, b)) blocks) ++ m
  /\ fst r = match start with Some s => Some s | None => match blocks with [] => None | b :: _ => Some (label_of b) end end.
Proof.
  induction blocks as [|b blocks IH]; intros start m r H; cbn [build_map] in H.
  - injection H as <-. split; [reflexivity|]. destruct start; reflexivity.
  - unfold map_insert in H. destruct (map_get (OpLabel_result_id (BasicBlock_label b)) m); [discriminate|].
    apply IH in H as [H1 H2]. split.
    + rewrite H1. cbn [map rev]. rewrite <- app_assoc. reflexivity.
    + rewrite H2. destruct start; reflexivity.
Qed.

Lemma map_get_In : forall {A} k (m : list (N * A)) v, map_get k m = Some v -> In (k, v) m.
Proof.
  intros A k m v. induction m as [|[k' v'] m IH]; cbn [map_get]; [discriminate|].
  destruct (N.eqb k k') eqn:Q.
  - intros [= ->]. apply N.eqb_eq in Q. subst. left. reflexivity.
  - intros H. right. auto.
Qed.
Lemma map_get_None : forall {A} k (m : list (N * A)), map_get k m = None <-> ~ In k (map fst m).
Proof.
  intros A k m. induction m as [|[k' v'] m IH]; cbn [map_get map fst In]; [tauto|].
  destruct (N.eqb k k') eqn:Q.
  - apply N.eqb_eq in Q. subst. split; [discriminate|]. intros H. destruct H. left. reflexivity.
  - apply N.eqb_neq in Q. rewrite IH. split; intros H; [intros [X|X]; [congruence|tauto]|tauto].
Qed.

Lemma build_map_dup : forall (blocks : list (BasicBlock E)) start m,
  (forall r, build_map blocks start m = Ok r -> NoDup (map fst m) -> NoDup (map fst (snd r)))
  /\ (build_map blocks start m <> OutOfFuel /\ build_map blocks start m <> Panic).
Proof.
  induction blocks as [|b blocks IH]; intros start m; cbn [build_map].
  - split; [|split; discriminate]. intros r [= <-]. auto.
  - unfold map_insert. destruct (map_get (OpLabel_result_id (BasicBlock_label b)) m) eqn:G.
    + split; [discriminate|split; discriminate].
    + destruct (IH (match start with Some s => Some s | None => Some (OpLabel_result_id (BasicBlock_label b)) end)
        ((OpLabel_result_id (BasicBlock_label b), b) :: m)) as [IH1 IH2]. split; [|exact IH2].
      intros r H N. eapply IH1; [exact H|]. cbn [map fst]. constructor; [|exact N]. apply map_get_None. exact G.
Qed.

Definition block_map : BlockMap := rev (map (fun b => (label_of b, b)) (FunctionDefinition_blocks f)).

Lemma keys_block_map : map fst block_map = rev (labels f).
Proof. unfold block_map, labels. rewrite map_rev, map_map. cbn [fst]. reflexivity. Qed.

Lemma NoDup_keys : NoDup (labels f) -> NoDup (@map (N * BasicBlock E) N fst block_map).
Proof. intros N. pose proof (NoDup_rev N) as R. rewrite <- keys_block_map in R. exact R. Qed.
Lemma NoDup_labels : NoDup (@map (N * BasicBlock E) N fst block_map) -> NoDup (labels f).
Proof. intros N. assert (R : NoDup (rev (labels f))) by (rewrite <- keys_block_map; exact N). apply NoDup_rev in R. rewrite rev_involutive in R. exact R. Qed.

Lemma block_map_represents : represents block_map.
Proof.
  intros id b H. apply map_get_In in H. unfold block_map in H. apply in_rev in H. apply in_map_iff in H as (b' & [= <- <-] & Hin).
  split; [exact Hin|reflexivity].
Qed.

Lemma map_get_NoDup : forall {A} k v (m : list (N * A)), NoDup (map fst m) -> In (k, v) m -> map_get k m = Some v.
Proof.
  intros A k v m N H. induction m as [|[k' v'] m IH]; [destruct H|]. cbn [map_get map fst] in *. inversion N; subst. destruct H as [[= -> ->]|H].
  - rewrite N.eqb_refl. reflexivity.
  - destruct (N.eqb k k') eqn:Q; [|auto]. apply N.eqb_eq in Q. subst. destruct H2. apply in_map_iff. exists (k', v). auto.
Qed.

Lemma find_map_iff : NoDup (labels f) -> forall id b, map_get id block_map = Some b <-> has_block f id b.
Proof.
  intros N id b. split; [apply block_map_represents|]. intros [Hin L]. apply map_get_NoDup.
  - apply NoDup_keys. exact N.
  - unfold block_map. apply -> in_rev. apply in_map_iff. exists b. rewrite L. auto.
Qed.

Lemma has_block_inj : NoDup (labels f) -> forall id b b', has_block f id b -> has_block f id b' -> b = b'.
Proof. intros N id b b' H H'. apply (find_map_iff N) in H. apply (find_map_iff N) in H'. congruence. Qed.

Lemma find_inv : forall depth c, find_control_flow depth f = Ok c ->
  NoDup (labels f) /\ exists s, entry f s /\ search_block depth s [] block_map = Ok (c, Cont_Return) /\ Search [] s c Cont_Return.
Proof.
  intros depth c H. unfold find_control_flow in H. apply bind_Ok in H as ([start m] & Hb & H).
  pose proof (build_map_spec _ _ _ _ Hb) as [M S]. cbn [fst snd] in M, S. rewrite app_nil_r in M. change (m = block_map) in M.
  assert (N : NoDup (labels f)).
  { pose proof (proj1 (build_map_dup (FunctionDefinition_blocks f) None []) _ Hb (NoDup_nil _)) as N. cbn [snd] in N.
    apply NoDup_labels. rewrite <- M. exact N. }
  split; [exact N|]. destruct start as [s|]; [|discriminate]. apply bind_Ok in H as ([chain next] & Hs & H).
  destruct next; [discriminate|]. injection H as ->. exists s. split; [|rewrite <- M; split; [exact Hs|]].
  - destruct (FunctionDefinition_blocks f) as [|b rest] eqn:FB; [discriminate|]. injection S as ->. exists b, rest. auto.
  - eapply search_Ok; [|exact Hs]. rewrite M. apply block_map_represents.
Qed.

(** ** Soundness: an execution of the chain is a walk *)
(** Where the walk is when the chain has ended. *)
Definition lands (fl : FlowList) (n : Cont) (e : exit) (d : option BlockId) : Prop :=
  match e with
  | Normal => d = match n with Cont_Next j => Some j | Cont_Return => None end
  | Broke => exists h m, innermost_loop fl = Some (h, m) /\ d = Some m
  | Continued => exists h m, innermost_loop fl = Some (h, m) /\ d = Some h
  | Interrupted => exists j, d = Some j
  end.

Lemma walk_app : forall id t1 j, walk f id t1 (Some j) -> forall t2 d, walk f j t2 d -> walk f id (t1 ++ t2) d.
Proof.
  intros id t1 j H. remember (Some j) as sj. induction H; intros t2 d' H2; cbn [app]; try discriminate Heqsj.
  - injection Heqsj as ->. exact H2.
  - eapply walk_branch; eauto.
  - eapply walk_true; eauto.
  - eapply walk_false; eauto.
Qed.

Definition sound (fl : FlowList) (id : BlockId) (c : ControlFlowChain) (n : Cont) : Prop :=
  forall t e, exec c t e -> exists d, walk f id t d /\ lands fl n e d.

Lemma sound_seq : forall fl fl' id a n1 c n, sound fl' id a (Cont_Next n1) ->
  (forall e d, e <> Normal -> lands fl' (Cont_Next n1) e d -> lands fl n e d) ->
  sound fl n1 c n -> sound fl id (block [a; c]) n.
Proof.
  intros fl fl' id a n1 c n Ha K Hc t e H. rewrite block2 in H. inversion H; subst.
  { exists (Some id). split; [constructor|]. exists id. reflexivity. }
  match goal with X : exec_list _ _ _ |- _ => apply exec_list_app_inv in X as [(t1 & t2 & -> & U1 & U2)|[NN U1]] end.
  - apply exec_items in U1, U2. destruct (Ha _ _ U1) as (d1 & W1 & L1). cbn [lands] in L1. subst d1.
    destruct (Hc _ _ U2) as (d2 & W2 & L2). exists d2. split; [|exact L2]. eapply walk_app; eauto.
  - apply exec_items in U1. destruct (Ha _ _ U1) as (d1 & W1 & L1). exists d1. split; [exact W1|]. apply K; assumption.
Qed.

Lemma lands_if : forall j h fl n n' e d, e <> Normal -> lands (Converge_If j h :: fl) n e d -> lands fl n' e d.
Proof. intros j h fl n n' e d N L. destruct e; [congruence|exact L|exact L|exact L]. Qed.

Lemma sound_loop : forall fl id b op lm inner, has_block f id b -> BasicBlock_branch b = GroupBranch_OpBranch op ->
  sound (Converge_Loop id (OpLoopMerge_merge_block lm) (OpLoopMerge_loop_control lm) :: fl) (OpBranch_target_label op) inner (Cont_Next id) ->
  forall h w t e, exec (Loop id inner h w) t e -> exists d, walk f id t d /\ match e with Normal => d = Some (OpLoopMerge_merge_block lm) | Interrupted => exists j, d = Some j | _ => False end.
Proof.
  intros fl id b op lm inner HB BR S h w t e H. remember (Loop id inner h w) as lp eqn:Q.
  induction H as [c|id'|l t e H|id' lhs rhs hint weights taken t e H IH|id' inner' hint weights t H IH|id' inner' hint weights t H IH
    |id' inner' hint weights t1 e1 t2 e H IH O H2 IH2| |]; try discriminate Q.
  - subst c. exists (Some id). split; [constructor|]. eauto.
  - injection Q as -> -> -> ->. destruct (S _ _ H) as (d & W & L). cbn [lands innermost_loop] in L. destruct L as (h' & m & [= <- <-] & ->).
    eexists. split; [|reflexivity]. eapply walk_branch; eauto.
  - injection Q as -> -> -> ->. destruct (S _ _ H) as (d & W & L). cbn [lands innermost_loop] in L. destruct L as (j & ->).
    eexists. split; [|eauto]. eapply walk_branch; eauto.
  - pose proof Q as Q'. injection Q' as -> -> -> ->. destruct (S _ _ H) as (d & W & L).
    assert (d = Some id) as -> by (destruct O; subst e1; cbn [lands innermost_loop] in L; [exact L|destruct L as (h' & m & [= <- <-] & ->); reflexivity]).
    destruct (IH2 Q) as (d2 & W2 & L2). exists d2. split; [|exact L2]. eapply walk_branch; eauto. eapply walk_app; eauto.
Qed.

Theorem Search_sound : forall fl id c n, Search fl id c n -> sound fl id c n.
Proof.
  intros fl id c n H. induction H as [fl id M|fl id b op M HB BR|fl id b op c n M HB BR MG Hc IH
    |fl id b op lm inner after n M HB BR MG Hi IHi Ha IHa|fl id b op sm lhs rhs after n M HB BR MG Hl IHl Hr IHr Ha IHa
    |fl id b op head merge inner isb M HB BR MG L D Hi IHi].
  - intros t e H. inversion H; subst.
    + exists (Some id). split; [constructor|]. exists id. reflexivity.
    + match goal with X : exec_list [] _ _ |- _ => inversion X; subst end. exists (Some id). split; [constructor|reflexivity].
  - intros t e H. inversion H; subst.
    + exists (Some id). split; [constructor|]. exists id. reflexivity.
    + exists None. split; [|reflexivity]. eapply walk_return; eauto.
  - apply sound_seq with (fl' := fl) (n1 := OpBranch_target_label op); [|intros e d N L; destruct e; [congruence|exact L|exact L|exact L]|exact IH].
    intros t e H. inversion H; subst.
    + exists (Some id). split; [constructor|]. exists id. reflexivity.
    + eexists. split; [|reflexivity]. eapply walk_branch; eauto. constructor.
  - apply sound_seq with (fl' := fl) (n1 := OpLoopMerge_merge_block lm); [|intros e d N L; destruct e; [congruence|exact L|exact L|exact L]|exact IHa].
    intros t e H. destruct (sound_loop _ _ _ _ _ _ HB BR IHi _ _ _ _ H) as (d & W & L). exists d. split; [exact W|].
    destruct e; [exact L|destruct L|destruct L|exact L].
  - eapply sound_seq with (n1 := OpSelectionMerge_merge_block sm); [|intros e d N; apply lands_if; exact N|exact IHa].
    intros t e H. inversion H; subst.
    + exists (Some id). split; [constructor|]. exists id. reflexivity.
    + destruct taken; match goal with X : exec _ t0 _ |- _ => first [destruct (IHl _ _ X) as (d & W & L)|destruct (IHr _ _ X) as (d & W & L)] end;
        exists d; (split; [|exact L]); [eapply walk_true|eapply walk_false]; eauto.
  - intros t e H. inversion H; subst.
    + exists (Some id). split; [constructor|]. exists id. reflexivity.
    + destruct taken.
      * match goal with X : exec _ _ _ |- _ => destruct (IHi _ _ X) as (d & W & K) end. exists d. split; [|exact K]. eapply walk_true; eauto.
      * exists (Some (OpBranchConditional_false_label op)).
        assert (W : walk f id [(id, Some false)] (Some (OpBranchConditional_false_label op))) by (eapply walk_false; eauto; constructor).
        match goal with X : exec _ _ _ |- _ => inversion X; subst end; try (split; [exact W|eexists; reflexivity]);
          destruct isb; try discriminate; (split; [exact W|]); exists head, merge; rewrite D; auto.
Qed.

(** ** Completeness: a walk is an execution of the chain, followed by a walk from where the chain ended *)
Definition continues (fl : FlowList) (n : Cont) (c : ControlFlowChain) (t : list event) (d : option BlockId) : Prop :=
  (exists j, d = Some j /\ exec_list (items c) t Interrupted)
  \/ (n = Cont_Return /\ d = None /\ exec_list (items c) t Normal)
  \/ exists t1 t2 e j, t = t1 ++ t2 /\ exec_list (items c) t1 e /\ e <> Interrupted /\ lands fl n e (Some j) /\ walk f j t2 d.

Lemma walk_inv : NoDup (labels f) -> forall id b, has_block f id b -> forall t d, walk f id t d ->
  (t = [] /\ d = Some id)
  \/ match BasicBlock_branch b with
     | GroupBranch_OpReturn _ => t = [(id, None)] /\ d = None
     | GroupBranch_OpBranch op => exists t' : list event, t = (id, None) :: t' /\ walk f (OpBranch_target_label op) t' d
     | GroupBranch_OpBranchConditional op =>
         exists (taken : bool) (t' : list event), t = (id, Some taken) :: t'
           /\ walk f (if taken then OpBranchConditional_true_label op else OpBranchConditional_false_label op) t' d
     end.
Proof.
  intros N id b HB t d W. destruct W as [id|id b' op HB' BR|id b' op t d HB' BR W|id b' op t d HB' BR W|id b' op t d HB' BR W]; [left; auto| | | |];
    right; pose proof (has_block_inj N _ _ _ HB HB') as <-; rewrite BR; eauto.
Qed.

Lemma exec_list_one : forall c t e, exec c t e -> exec_list [c] t e.
Proof.
  intros c t e H. destruct e; try (apply exec_exit; [exact H|discriminate]). rewrite <- (app_nil_r t). apply exec_cons; [exact H|constructor].
Qed.
Lemma exec_list_one_inv : forall c t e, exec_list [c] t e -> exec c t e.
Proof.
  intros c t e H. inversion H; subst; [|assumption]. match goal with X : exec_list [] _ _ |- _ => inversion X; subst end. rewrite app_nil_r. assumption.
Qed.

(** [a] ran normally, then [c] *)
Lemma continues_seq : forall fl n a ta c t d, items a = [a] -> exec a ta Normal -> continues fl n c t d -> continues fl n (block [a; c]) (ta ++ t) d.
Proof.
  intros fl n a ta c t d Ia Ha H. rewrite block2. unfold continues. cbn [items]. rewrite Ia. destruct H as [(j & -> & H)|[(-> & -> & H)|(t1 & t2 & e & j & -> & H & NI & L & W)]].
  - left. exists j. split; [reflexivity|]. cbn [app]. eauto.
  - right. left. cbn [app]. eauto.
  - right. right. exists (ta ++ t1), t2, e, j. split; [apply app_assoc|]. cbn [app]. eauto.
Qed.
(** [a] was left *)
Lemma continues_exit : forall fl n a c t1 t2 e j d, items a = [a] -> exec a t1 e -> e <> Normal -> e <> Interrupted -> lands fl n e (Some j) -> walk f j t2 d ->
  continues fl n (block [a; c]) (t1 ++ t2) d.
Proof.
  intros fl n a c t1 t2 e j d Ia Ha N NI L W. right. right. exists t1, t2, e, j. split; [reflexivity|]. rewrite block2. cbn [items]. rewrite Ia. cbn [app]. eauto 6.
Qed.
Lemma continues_interrupted : forall fl n a c t j, items a = [a] -> exec a t Interrupted -> continues fl n (block [a; c]) t (Some j).
Proof.
  intros fl n a c t j Ia H. left. exists j. split; [reflexivity|]. rewrite block2. cbn [items]. rewrite Ia. cbn [app]. apply exec_exit; [exact H|discriminate].
Qed.

(** One more iteration of a loop *)
Lemma exec_again : forall id inner h w t1 e1 l t e, exec inner t1 e1 -> e1 = Normal \/ e1 = Continued ->
  exec_list (Loop id inner h w :: l) t e -> exec_list (Loop id inner h w :: l) ((id, None) :: t1 ++ t) e.
Proof.
  intros id inner h w t1 e1 l t e Hi O H. inversion H; subst.
  - match goal with |- exec_list _ ((_, _) :: ?a ++ ?b ++ ?c) _ => replace ((id, @None bool) :: a ++ b ++ c) with (((id, @None bool) :: a ++ b) ++ c) by (cbn [app]; rewrite app_assoc; reflexivity) end.
    apply exec_cons; [|assumption]. eapply exec_loop_again; eauto.
  - apply exec_exit; [|assumption]. eapply exec_loop_again; eauto.
Qed.

Theorem Search_complete : NoDup (labels f) -> forall k fl id c n, Search fl id c n -> forall t d, length t < k -> walk f id t d -> continues fl n c t d.
Proof.
  intros ND. induction k as [|k IHk]; [intros; lia|].
  intros fl id c n H. induction H as [fl id M|fl id b op M HB BR|fl id b op c n M HB BR MG Hc IH
    |fl id b op lm inner after n M HB BR MG Hi IHi Ha IHa|fl id b op sm lhs rhs after n M HB BR MG Hl IHl Hr IHr Ha IHa
    |fl id b op head merge inner isb M HB BR MG L D Hi IHi]; intros t d Lt W.
  - right. right. exists [], t, Normal, id. split; [reflexivity|]. split; [constructor|]. split; [discriminate|]. split; [reflexivity|exact W].
  - destruct (walk_inv ND _ _ HB _ _ W) as [[-> ->]|W']; [|rewrite BR in W'; destruct W' as [-> ->]].
    + left. exists id. split; [reflexivity|]. apply exec_exit; [constructor|discriminate].
    + right. left. split; [reflexivity|]. split; [reflexivity|]. apply exec_list_one. constructor.
  - destruct (walk_inv ND _ _ HB _ _ W) as [[-> ->]|W']; [|rewrite BR in W'; destruct W' as (t' & -> & W')].
    + apply continues_interrupted; [reflexivity|constructor].
    + apply (continues_seq _ _ (Atom id) [(id, None)]); [reflexivity|constructor|]. apply IH; [|exact W']. cbn [length] in Lt. lia.
  - destruct (walk_inv ND _ _ HB _ _ W) as [[-> ->]|W']; [|rewrite BR in W'; destruct W' as (t' & -> & W')].
    + apply continues_interrupted; [reflexivity|constructor].
    + cbn [length] in Lt. assert (Lt' : length t' < S k) by lia. destruct (IHi _ _ Lt' W') as [(j & -> & X)|[(Q & _)|(t1 & t2 & e & j & -> & X & NI & K & W2)]].
      * apply continues_interrupted; [reflexivity|]. apply exec_loop_interrupted. apply exec_items. exact X.
      * discriminate Q.
      * apply exec_items in X. rewrite app_length in Lt'.
        destruct e; cbn [lands innermost_loop] in K; [| | |congruence].
        -- injection K as ->. assert (Lt2 : length t2 < k) by (rewrite app_length in Lt; lia).
           pose proof (IHk _ _ _ _ (S_loop _ _ _ _ _ _ _ _ M HB BR MG Hi Ha) _ _ Lt2 W2) as C. unfold continues in C |- *. rewrite block2 in C |- *. cbn [items app] in C |- *.
           destruct C as [(j' & -> & Y)|[(-> & -> & Y)|(u1 & u2 & e & j' & -> & Y & NI' & K' & W3)]].
           ++ left. exists j'. split; [reflexivity|]. eapply exec_again; eauto.
           ++ right. left. split; [reflexivity|]. split; [reflexivity|]. eapply exec_again; eauto.
           ++ right. right. exists ((id, None) :: t1 ++ u1), u2, e, j'. split; [cbn [app]; rewrite app_assoc; reflexivity|]. split; [eapply exec_again; eauto|]. auto.
        -- destruct K as (h' & m' & [= <- <-] & [= ->]). apply (continues_seq _ _ _ ((id, None) :: t1)); [reflexivity|apply exec_loop_leave; exact X|].
           apply IHa; [|exact W2]. lia.
        -- destruct K as (h' & m' & [= <- <-] & [= ->]). assert (Lt2 : length t2 < k) by (rewrite app_length in Lt; lia).
           pose proof (IHk _ _ _ _ (S_loop _ _ _ _ _ _ _ _ M HB BR MG Hi Ha) _ _ Lt2 W2) as C. unfold continues in C |- *. rewrite block2 in C |- *. cbn [items app] in C |- *.
           destruct C as [(j' & -> & Y)|[(-> & -> & Y)|(u1 & u2 & e & j' & -> & Y & NI' & K' & W3)]].
           ++ left. exists j'. split; [reflexivity|]. eapply exec_again; eauto.
           ++ right. left. split; [reflexivity|]. split; [reflexivity|]. eapply exec_again; eauto.
           ++ right. right. exists ((id, None) :: t1 ++ u1), u2, e, j'. split; [cbn [app]; rewrite app_assoc; reflexivity|]. split; [eapply exec_again; eauto|]. auto.
  - destruct (walk_inv ND _ _ HB _ _ W) as [[-> ->]|W']; [|rewrite BR in W'; destruct W' as (taken & t' & -> & W')].
    + apply continues_interrupted; [reflexivity|constructor].
    + cbn [length] in Lt. assert (Lt' : length t' < S k) by lia.
      assert (C : continues (Converge_If (OpSelectionMerge_merge_block sm) (OpSelectionMerge_selection_control sm) :: fl)
        (Cont_Next (OpSelectionMerge_merge_block sm)) (if taken then lhs else rhs) t' d) by (destruct taken; auto).
      destruct C as [(j & -> & X)|[(Q & _)|(t1 & t2 & e & j & -> & X & NI & K & W2)]].
      * apply continues_interrupted; [reflexivity|]. apply exec_selection. apply exec_items. exact X.
      * discriminate Q.
      * apply exec_items in X. rewrite app_length in Lt'.
        destruct e; [| | |congruence].
        -- cbn [lands] in K. injection K as ->. apply (continues_seq _ _ _ ((id, Some taken) :: t1)); [reflexivity|apply exec_selection; exact X|]. apply IHa; [lia|exact W2].
        -- eapply (continues_exit _ _ _ _ ((id, Some taken) :: t1)); [reflexivity|apply exec_selection; exact X|discriminate|discriminate|exact K|exact W2].
        -- eapply (continues_exit _ _ _ _ ((id, Some taken) :: t1)); [reflexivity|apply exec_selection; exact X|discriminate|discriminate|exact K|exact W2].
  - destruct (walk_inv ND _ _ HB _ _ W) as [[-> ->]|W']; [|rewrite BR in W'; destruct W' as (taken & t' & -> & W')].
    + left. exists id. split; [reflexivity|]. apply exec_exit; [constructor|discriminate].
    + cbn [length] in Lt. assert (Lt' : length t' < S k) by lia. destruct taken.
      * destruct (IHi _ _ Lt' W') as [(j & -> & X)|[(Q & _)|(t1 & t2 & e & j & -> & X & NI & K & W2)]].
        -- left. exists j. split; [reflexivity|]. apply exec_list_one. apply exec_selection. apply exec_items. exact X.
        -- discriminate Q.
        -- right. right. exists ((id, Some true) :: t1), t2, e, j. split; [reflexivity|]. split; [apply exec_list_one, exec_selection, exec_items; exact X|]. auto.
      * right. right. exists [(id, Some false)], t', (if isb then Broke else Continued), (OpBranchConditional_false_label op).
        split; [reflexivity|]. split; [apply exec_list_one, exec_selection; destruct isb; constructor|]. split; [destruct isb; discriminate|]. split; [|exact W'].
        destruct isb; exists head, merge; rewrite D; auto.
Qed.

(** ** Whole functions *)
Theorem runs_complete : forall depth c, find_control_flow depth f = Ok c -> forall t, exec c t Normal <-> complete_run f t.
Proof.
  intros depth c H t. apply find_inv in H as (ND & s & En & _ & S). split.
  - intros X. apply (Search_sound _ _ _ _ S) in X as (d & W & L). cbn [lands] in L. subst d. exists s. auto.
  - intros (s' & En' & W). assert (s' = s) as -> by (destruct En as (b & r & Q & <-), En' as (b' & r' & Q' & <-); rewrite Q in Q'; injection Q' as -> ->; reflexivity).
    destruct (Search_complete ND _ _ _ _ _ S _ _ (Nat.lt_succ_diag_r _) W) as [(j & Q & _)|[(_ & _ & X)|(t1 & t2 & e & j & -> & X & NI & K & W2)]].
    + discriminate Q.
    + apply exec_items. exact X.
    + destruct e; cbn [lands innermost_loop] in K; [discriminate K| | |congruence]; destruct K as (h & m & Q & _); discriminate Q.
Qed.

Theorem runs_unfinished : forall depth c, find_control_flow depth f = Ok c -> forall t, exec c t Interrupted <-> unfinished_run f t.
Proof.
  intros depth c H t. apply find_inv in H as (ND & s & En & _ & S). split.
  - intros X. apply (Search_sound _ _ _ _ S) in X as (d & W & (j & ->)). exists s, j. auto.
  - intros (s' & j0 & En' & W). assert (s' = s) as -> by (destruct En as (b & r & Q & <-), En' as (b' & r' & Q' & <-); rewrite Q in Q'; injection Q' as -> ->; reflexivity).
    destruct (Search_complete ND _ _ _ _ _ S _ _ (Nat.lt_succ_diag_r _) W) as [(j & Q & X)|[(_ & Q & _)|(t1 & t2 & e & j & -> & X & NI & K & W2)]].
    + apply exec_items. exact X.
    + discriminate Q.
    + destruct e; cbn [lands innermost_loop] in K; [discriminate K| | |congruence]; destruct K as (h & m & Q & _); discriminate Q.
Qed.

(** At the top level nothing breaks or continues. *)
Theorem runs_no_exit : forall depth c, find_control_flow depth f = Ok c -> forall t e, exec c t e -> e = Normal \/ e = Interrupted.
Proof.
  intros depth c H t e X. apply find_inv in H as (ND & s & En & _ & S). apply (Search_sound _ _ _ _ S) in X as (d & W & L).
  destruct e; auto; cbn [lands innermost_loop] in L; destruct L as (h & m & Q & _); discriminate Q.
Qed.

End Search.
