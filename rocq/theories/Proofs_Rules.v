(** A check of the rules of Spec_Standard on a given function, for the examples of C114. *)
From Coq Require Import Relation_Operators.
From Verif Require Import Base Types Ops Groups ControlFlow Spec_Flow Spec_Standard Spec_Returns Proofs_Returns.

Section Check.
Context {E : Type}.
Variable f : FunctionDefinition E.

Notation edge := (BlockId * nat * BlockId)%type.
Definition edges_of (b : BasicBlock E) : list edge :=
  map (fun p => (label_of b, fst p, snd p)) (combine (seq 0 (length (branch_targets b))) (branch_targets b)).
Definition edges : list edge := flat_map edges_of (FunctionDefinition_blocks f).
Definition decls : list (BlockId * BlockId) := flat_map (fun b => map (pair (label_of b)) (merge_targets b)) (FunctionDefinition_blocks f).
Definition loop_of (b : BasicBlock E) : list (BlockId * BlockId * BlockId) :=
  match BasicBlock_merge b with
  | Some (GroupMerge_OpLoopMerge lm) => [(label_of b, OpLoopMerge_merge_block lm, OpLoopMerge_continue_target lm)]
  | _ => []
  end.
Definition loops : list (BlockId * BlockId * BlockId) := flat_map loop_of (FunctionDefinition_blocks f).

Lemma combine_nth : forall (l : list BlockId) k n v, nth_error l n = Some v -> In (k + n, v) (combine (seq k (length l)) l).
Proof.
  induction l as [|x l IH]; intros k [|n] v Q; try discriminate Q; cbn [length seq combine] in *.
  - injection Q as <-. left. rewrite Nat.add_0_r. reflexivity.
  - right. rewrite Nat.add_succ_r, <- Nat.add_succ_l. apply IH. exact Q.
Qed.
Lemma nth_combine : forall (l : list BlockId) k n v, In (n, v) (combine (seq k (length l)) l) -> exists i, n = k + i /\ nth_error l i = Some v.
Proof.
  induction l as [|x l IH]; intros k n v I; [destruct I|]. cbn [length seq combine] in I. destruct I as [Q|I].
  - injection Q as <- <-. exists 0. split; [lia|reflexivity].
  - destruct (IH _ _ _ I) as (i & -> & Q). exists (S i). split; [lia|exact Q].
Qed.
Lemma edges_in : forall u n v, branches f u n v <-> In (u, n, v) edges.
Proof.
  intros u n v. unfold edges. rewrite in_flat_map. split.
  - intros (b & [I <-] & Q). exists b. split; [exact I|]. apply in_map_iff. exists (n, v). split; [reflexivity|]. exact (combine_nth _ 0 n v Q).
  - intros (b & I & J). apply in_map_iff in J as ([n' v'] & Q & J). cbn [fst snd] in Q. injection Q as <- <- <-. exists b. split; [split; [exact I|reflexivity]|].
    destruct (nth_combine _ _ _ _ J) as (i & -> & Q). exact Q.
Qed.
Lemma decls_in : forall h x, declares f h x -> In (h, x) decls.
Proof. intros h x (b & [I <-] & J). apply in_flat_map. exists b. split; [exact I|]. apply in_map. exact J. Qed.
Lemma loops_in : forall h x ct, heads_loop f h x ct <-> In (h, x, ct) loops.
Proof.
  intros h x ct. unfold loops. rewrite in_flat_map. split.
  - intros (b & hint & [I <-] & M). exists b. split; [exact I|]. unfold loop_of. rewrite M. left. reflexivity.
  - intros (b & I & J). unfold loop_of in J. destruct (BasicBlock_merge b) as [[lm|sm]|] eqn:M; try destruct J as [Q|[]]; try destruct J. injection Q as <- <- <-.
    destruct lm as [mb ct hint]. exists b, hint. split; [split; [exact I|reflexivity]|exact M].
Qed.

(** ** Blocks that are reached without going through some *)
Definition mem (x : BlockId) (l : list BlockId) : bool := existsb (N.eqb x) l.
Lemma mem_in : forall x l, mem x l = true <-> In x l.
Proof.
  intros x l. unfold mem. rewrite existsb_exists. split; [intros (y & I & Q); apply N.eqb_eq in Q; subst; exact I|intros I; exists x; rewrite N.eqb_refl; auto].
Qed.

Section Spread.
Variable bad : BlockId -> bool.
Definition grow (l : list BlockId) (e : edge) : list BlockId :=
  match e with (u, _, v) => if mem u l && negb (bad v) && negb (mem v l) then v :: l else l end.
Fixpoint rounds (k : nat) (l : list BlockId) : list BlockId := match k with 0 => l | S k => rounds k (fold_left grow edges l) end.
Definition spread (x : BlockId) : list BlockId := rounds (length edges) (if bad x then [] else [x]).
Definition closed (l : list BlockId) : bool := forallb (fun e : edge => match e with (u, _, v) => negb (mem u l) || bad v || mem v l end) edges.

Lemma spread_path : forall s x, In x (spread s) -> exists l, path f s l x /\ forall y, In y (l ++ [x]) -> bad y = false.
Proof.
  intros s. assert (G : forall es l, incl es edges -> (forall x, In x l -> exists p, path f s p x /\ forall y, In y (p ++ [x]) -> bad y = false) ->
    forall x, In x (fold_left grow es l) -> exists p, path f s p x /\ forall y, In y (p ++ [x]) -> bad y = false).
  { induction es as [|[[u n] v] es IH]; intros l IE H x I; [exact (H x I)|]. cbn [fold_left] in I. apply incl_cons_inv in IE as [Ie IE]. refine (IH _ IE _ x I).
    intros y J. cbn [grow] in J. destruct (mem u l && negb (bad v) && negb (mem v l)) eqn:C; [|exact (H y J)].
    apply andb_true_iff in C as [C _]. apply andb_true_iff in C as [C1 C2]. apply mem_in in C1. apply negb_true_iff in C2. destruct J as [<-|J]; [|exact (H y J)].
    destruct (H u C1) as (p & P & B). exists (p ++ [u]). split; [eapply path_snoc; [exact P|apply edges_in; exact Ie]|].
    intros z J. apply in_app_or in J as [J|[<-|[]]]; [exact (B z J)|exact C2]. }
  assert (R : forall k l, (forall x, In x l -> exists p, path f s p x /\ forall y, In y (p ++ [x]) -> bad y = false) ->
    forall x, In x (rounds k l) -> exists p, path f s p x /\ forall y, In y (p ++ [x]) -> bad y = false).
  { induction k as [|k IH]; intros l H; [exact H|]. cbn [rounds]. apply IH. apply G; [apply incl_refl|exact H]. }
  unfold spread. apply R. intros x I. destruct (bad s) eqn:B; [destruct I|]. destruct I as [<-|[]]. exists []. split; [constructor|]. intros y [<-|[]]. exact B.
Qed.
Lemma path_spread : forall l s p x, closed l = true -> In s l -> path f s p x -> (forall y, In y (p ++ [x]) -> bad y = false) -> In x l.
Proof.
  intros l s p x C I P. induction P as [u|u n w p v B P IH]; intros H; [exact I|]. apply IH; [|intros y J; apply H; right; exact J].
  apply edges_in in B. unfold closed in C. rewrite forallb_forall in C. specialize (C _ B). cbn in C. apply mem_in in I. rewrite I in C. cbn [negb orb] in C.
  destruct (path_nodes _ _ _ _ P) as (r & Q). cbn [app] in H. rewrite Q in H. rewrite (H w) in C by (right; left; reflexivity). apply mem_in. exact C.
Qed.
Lemma grow_keeps : forall es l x, In x l -> In x (fold_left grow es l).
Proof. induction es as [|[[u n] v] es IH]; intros l x I; [exact I|]. cbn [fold_left]. apply IH. cbn [grow]. destruct (_ && _); [right|]; exact I. Qed.
Lemma spread_start : forall s, bad s = false -> In s (spread s).
Proof.
  intros s B. unfold spread. rewrite B. assert (R : forall k l, In s l -> In s (rounds k l)) by (induction k as [|k IH]; intros l I; [exact I|]; cbn [rounds]; apply IH; apply grow_keeps; exact I).
  apply R. left. reflexivity.
Qed.
End Spread.

Variable start : BlockId.
Hypothesis START : entry f start.
Lemma start_only : forall e, entry f e -> e = start.
Proof. intros e (b & r & Q & L). destruct START as (b' & r' & Q' & L'). congruence. Qed.

Definition domb (a b : BlockId) : bool := let l := spread (N.eqb a) start in closed (N.eqb a) l && negb (mem b l).
Definition ndomb (a b : BlockId) : bool := mem b (spread (N.eqb a) start).
Definition reachb (x : BlockId) : bool := mem x (spread (fun _ => false) start).
Definition nreachb (x : BlockId) : bool := let l := spread (fun _ => false) start in closed (fun _ => false) l && negb (mem x l).
Definition returning (x : BlockId) : bool :=
  existsb (fun b => N.eqb (label_of b) x && match BasicBlock_branch b with GroupBranch_OpReturn _ => true | _ => false end) (FunctionDefinition_blocks f).
Definition postb (b a : BlockId) : bool := let l := spread (N.eqb b) a in closed (N.eqb b) l && negb (existsb returning l).

Lemma not_in_eqb : forall (a : BlockId) l, ~ In a l -> forall y, In y l -> N.eqb a y = false.
Proof. intros a l N y I. apply N.eqb_neq. intros ->. contradiction. Qed.
Lemma domb_ok : forall a b, domb a b = true -> dominates f a b.
Proof.
  intros a b H. unfold domb in H. apply andb_true_iff in H as [C H]. apply negb_true_iff in H. apply dominates_path. intros e l En P. rewrite (start_only e En) in *.
  destruct (in_dec N.eq_dec a (l ++ [b])) as [I|I]; [exact I|]. exfalso. assert (B : N.eqb a start = false).
  { destruct (path_nodes _ _ _ _ P) as (r & Q). apply (not_in_eqb _ _ I). rewrite Q. left. reflexivity. }
  pose proof (path_spread _ _ _ _ _ C (spread_start _ _ B) P (not_in_eqb _ _ I)) as J. apply mem_in in J. congruence.
Qed.
Lemma ndomb_ok : forall a b, ndomb a b = true -> ~ dominates f a b.
Proof.
  intros a b H D. apply mem_in in H. apply spread_path in H as (l & P & B). pose proof (proj1 (dominates_path f a b) D start l START P) as I.
  specialize (B a I). rewrite N.eqb_refl in B. discriminate.
Qed.
Lemma reachb_ok : forall x, reachb x = true -> reachable f x.
Proof. intros x H. apply mem_in in H. apply spread_path in H as (l & P & _). apply reachable_path. eauto. Qed.
Lemma nreachb_ok : forall x, nreachb x = true -> ~ reachable f x.
Proof.
  intros x H R. unfold nreachb in H. apply andb_true_iff in H as [C H]. apply negb_true_iff in H. apply reachable_path in R as (e & l & En & P). rewrite (start_only e En) in *.
  pose proof (path_spread _ _ _ _ _ C (spread_start (fun _ => false) start eq_refl) P (fun _ _ => eq_refl)) as J. apply mem_in in J. congruence.
Qed.
Lemma walk_return_path : forall u t d, walk f u t d -> d = None -> exists l x, path f u l x /\ map fst t = l ++ [x] /\ returning x = true.
Proof.
  intros u t d W. induction W as [id|id b op H B|id b op t d H B W IH|id b op t d H B W IH|id b op t d H B W IH]; intros Q; try discriminate Q.
  - exists [], id. split; [constructor|]. split; [reflexivity|]. unfold returning. apply existsb_exists. exists b. destruct H as [I <-]. split; [exact I|]. rewrite N.eqb_refl, B. reflexivity.
  - destruct (IH Q) as (l & x & P & M & R). exists (id :: l), x. split; [|split; [cbn [map fst app]; rewrite M; reflexivity|exact R]].
    eapply (path_cons f id 0); [|exact P]. exists b. split; [exact H|]. unfold branch_targets. rewrite B. reflexivity.
  - destruct (IH Q) as (l & x & P & M & R). exists (id :: l), x. split; [|split; [cbn [map fst app]; rewrite M; reflexivity|exact R]].
    eapply (path_cons f id 0); [|exact P]. exists b. split; [exact H|]. unfold branch_targets. rewrite B. reflexivity.
  - destruct (IH Q) as (l & x & P & M & R). exists (id :: l), x. split; [|split; [cbn [map fst app]; rewrite M; reflexivity|exact R]].
    eapply (path_cons f id 1); [|exact P]. exists b. split; [exact H|]. unfold branch_targets. rewrite B. reflexivity.
Qed.
Lemma postb_ok : forall b a, postb b a = true -> post_dominates f b a.
Proof.
  intros b a H t W. unfold postb in H. apply andb_true_iff in H as [C H]. apply negb_true_iff in H. destruct (walk_return_path _ _ _ W eq_refl) as (l & x & P & -> & R).
  destruct (in_dec N.eq_dec b (l ++ [x])) as [I|I]; [exact I|]. exfalso. assert (B : N.eqb b a = false).
  { destruct (path_nodes _ _ _ _ P) as (r & Q). apply (not_in_eqb _ _ I). rewrite Q. left. reflexivity. }
  pose proof (path_spread _ _ _ _ _ C (spread_start _ _ B) P (not_in_eqb _ _ I)) as J.
  assert (X : existsb returning (spread (N.eqb b) a) = true) by (apply existsb_exists; eauto). congruence.
Qed.

(** ** The rules *)
Variable rank : BlockId -> nat.
Definition each_edge (p : BlockId -> nat -> BlockId -> bool) : bool := forallb (fun e : edge => match e with (u, n, v) => p u n v end) edges.
Definition each_decl (p : BlockId -> BlockId -> bool) : bool := forallb (fun e : BlockId * BlockId => match e with (h, x) => p h x end) decls.
Definition each_loop (p : BlockId -> BlockId -> BlockId -> bool) : bool := forallb (fun e : BlockId * BlockId * BlockId => match e with (h, x, ct) => p h x ct end) loops.
Lemma each_edge_ok : forall p, each_edge p = true -> forall u n v, branches f u n v -> p u n v = true.
Proof. intros p H u n v B. unfold each_edge in H. rewrite forallb_forall in H. apply edges_in in B. exact (H _ B). Qed.
Lemma each_decl_ok : forall p, each_decl p = true -> forall h x, declares f h x -> p h x = true.
Proof. intros p H h x B. unfold each_decl in H. rewrite forallb_forall in H. apply decls_in in B. exact (H _ B). Qed.
Lemma each_loop_ok : forall p, each_loop p = true -> forall h x ct, heads_loop f h x ct -> p h x ct = true.
Proof. intros p H h x ct B. unfold each_loop in H. rewrite forallb_forall in H. apply loops_in in B. exact (H _ B). Qed.

Definition inb (h x b : BlockId) : bool := reachb b && domb h b && ndomb x b.
Definition outb (h x b : BlockId) : bool := nreachb b || ndomb h b || domb x b.
Lemma inb_ok : forall h x b, inb h x b = true -> construct f h x b.
Proof.
  intros h x b H. unfold inb in H. apply andb_true_iff in H as [H H3]. apply andb_true_iff in H as [H1 H2].
  split; [apply reachb_ok; exact H1|]. split; [apply domb_ok; exact H2|apply ndomb_ok; exact H3].
Qed.
Lemma outb_ok : forall h x b, outb h x b = true -> ~ construct f h x b.
Proof.
  intros h x b H (R & D & N). unfold outb in H. apply orb_true_iff in H as [H|H]; [apply orb_true_iff in H as [H|H]|].
  - exact (nreachb_ok _ H R).
  - exact (ndomb_ok _ _ H D).
  - exact (N (domb_ok _ _ H)).
Qed.
Definition no_back (u h : BlockId) : bool := nreachb u || ndomb h u.
Lemma no_back_ok : forall u n h, no_back u h = true -> ~ back_edge f u n h.
Proof. intros u n h H (_ & R & D). apply orb_true_iff in H as [H|H]; [exact (nreachb_ok _ H R)|exact (ndomb_ok _ _ H D)]. Qed.

Definition merge_check : bool :=
  each_edge (fun u n v => negb (N.eqb v start))
  && each_decl (fun h1 x1 => each_decl (fun h2 x2 => negb (N.eqb x1 x2) || N.eqb h1 h2))
  && each_decl (fun h x => nreachb x || (domb h x && negb (N.eqb h x)))
  && each_edge (fun u n v => nreachb u || domb v u || (rank u <? rank v))
  && each_edge (fun u n v => no_back u v || existsb (fun l : BlockId * BlockId * BlockId => N.eqb (fst (fst l)) v) loops)
  && each_loop (fun h x ct => nreachb h || existsb (fun e : edge => match e with (u, n, v) => N.eqb v h && reachb u && domb h u
       && each_edge (fun u' n' v' => negb (N.eqb v' h) || no_back u' h || (N.eqb u' u && Nat.eqb n' n)) end) edges).
Definition continue_check : bool :=
  each_loop (fun h x ct => each_edge (fun u n v => negb (N.eqb v h) || no_back u h || (domb h ct && domb ct u && postb u ct))).
Definition innermostb (b h x : BlockId) : bool := inb h x b && each_loop (fun h' x' ct' => outb h' x' b || inb h' x' h).
Definition construct_check : bool :=
  each_decl (fun h x => nreachb h ||
    (each_decl (fun h' x' => outb h x h' || N.eqb h' h || nreachb x' || inb h x x')
    && each_edge (fun u n v => nreachb u || inb h x u || outb h x v || N.eqb v h)
    && each_edge (fun u n v => outb h x u || inb h x v || N.eqb v x
         || existsb (fun l : BlockId * BlockId * BlockId => match l with (lh, lm, ct) => innermostb u lh lm && (N.eqb v lm || N.eqb v ct) end) loops))).
Definition close_check : bool := each_loop (fun h x ct => each_edge (fun u n v => negb (N.eqb v h) || no_back u h || ndomb x u)).
Definition reached_check : bool := each_decl (fun h x => nreachb h || reachb x).

Ltac split_and H := repeat match type of H with _ && _ = true => let H' := fresh "C" in apply andb_true_iff in H as [H H'] end.

Lemma merge_check_ok : merge_check = true -> merge_rules f.
Proof.
  unfold merge_check. intros H. split_and H. rename C into C6, C0 into C5, C1 into C4, C2 into C3, C3 into C2.
  split; [|split; [|split; [|split; [|split]]]].
  - intros e u n En B. rewrite (start_only e En) in B. pose proof (each_edge_ok _ H _ _ _ B) as X. cbn beta in X. rewrite N.eqb_refl in X. discriminate X.
  - intros h1 h2 x D1 D2. pose proof (each_decl_ok _ (each_decl_ok _ C2 _ _ D1) _ _ D2) as X. cbn beta in X. rewrite N.eqb_refl in X. apply N.eqb_eq. exact X.
  - intros h x D R. pose proof (each_decl_ok _ C3 _ _ D) as X. cbn beta in X. apply orb_true_iff in X as [X|X]; [destruct (nreachb_ok _ X R)|]. apply andb_true_iff in X as [X Y].
    split; [apply domb_ok; exact X|]. apply negb_true_iff, N.eqb_neq in Y. exact Y.
  - assert (G : forall u v, clos_trans BlockId (onward f) u v -> rank u < rank v).
    { intros u v T. induction T as [u v (n & B & R & D)|u v w _ IH1 _ IH2]; [|lia]. pose proof (each_edge_ok _ C4 _ _ _ B) as X. cbn beta in X.
      apply orb_true_iff in X as [X|X]; [apply orb_true_iff in X as [X|X]; [destruct (nreachb_ok _ X R)|destruct (D (domb_ok _ _ X))]|]. apply Nat.ltb_lt. exact X. }
    intros u T. specialize (G u u T). lia.
  - intros u n v B. pose proof (each_edge_ok _ C5 _ _ _ (proj1 B)) as X. cbn beta in X. apply orb_true_iff in X as [X|X]; [destruct (no_back_ok _ _ _ X B)|].
    apply existsb_exists in X as ([[h x] ct] & I & Q). apply N.eqb_eq in Q. cbn [fst] in Q. subst h. exists x, ct. apply loops_in. exact I.
  - intros h x ct HL R. pose proof (each_loop_ok _ C6 _ _ _ HL) as X. cbn beta in X. apply orb_true_iff in X as [X|X]; [destruct (nreachb_ok _ X R)|].
    apply existsb_exists in X as ([[u n] v] & I & Q). split_and Q. apply N.eqb_eq in Q. subst v. exists u, n. apply edges_in in I.
    split; [split; [exact I|split; [apply reachb_ok; assumption|apply domb_ok; assumption]]|]. intros u' n' B'.
    pose proof (each_edge_ok _ C _ _ _ (proj1 B')) as Y. cbn beta in Y. rewrite N.eqb_refl in Y. cbn [negb orb] in Y. apply orb_true_iff in Y as [Y|Y]; [destruct (no_back_ok _ _ _ Y B')|].
    apply andb_true_iff in Y as [Y1 Y2]. apply N.eqb_eq in Y1. apply Nat.eqb_eq in Y2. auto.
Qed.
Lemma continue_check_ok : continue_check = true -> continue_rules f.
Proof.
  intros H h x ct u n HL B. pose proof (each_edge_ok _ (each_loop_ok _ H _ _ _ HL) _ _ _ (proj1 B)) as X. cbn beta in X. rewrite N.eqb_refl in X. cbn [negb orb] in X.
  apply orb_true_iff in X as [X|X]; [destruct (no_back_ok _ _ _ X B)|]. split_and X. split; [apply domb_ok; exact X|]. split; [apply domb_ok; assumption|apply postb_ok; assumption].
Qed.
Lemma construct_check_ok : construct_check = true -> construct_rules f.
Proof.
  intros H h x D R. pose proof (each_decl_ok _ H _ _ D) as X. cbn beta in X. apply orb_true_iff in X as [X|X]; [destruct (nreachb_ok _ X R)|]. split_and X. rename C into C3, C0 into C2.
  split; [|split].
  - intros h' x' K N D' R'. pose proof (each_decl_ok _ X _ _ D') as Y. cbn beta in Y. apply orb_true_iff in Y as [Y|Y]; [|apply inb_ok; exact Y].
    apply orb_true_iff in Y as [Y|Y]; [|destruct (nreachb_ok _ Y R')]. apply orb_true_iff in Y as [Y|Y]; [destruct (outb_ok _ _ _ Y K)|]. apply N.eqb_eq in Y. contradiction.
  - intros u n v B Ru NC K. pose proof (each_edge_ok _ C2 _ _ _ B) as Y. cbn beta in Y. apply orb_true_iff in Y as [Y|Y]; [|apply N.eqb_eq; exact Y].
    apply orb_true_iff in Y as [Y|Y]; [|destruct (outb_ok _ _ _ Y K)]. apply orb_true_iff in Y as [Y|Y]; [destruct (nreachb_ok _ Y Ru)|destruct (NC (inb_ok _ _ _ Y))].
  - intros u n v B K NC. pose proof (each_edge_ok _ C3 _ _ _ B) as Y. cbn beta in Y. apply orb_true_iff in Y as [Y|Y].
    + apply orb_true_iff in Y as [Y|Y]; [|left; apply N.eqb_eq; exact Y]. apply orb_true_iff in Y as [Y|Y]; [destruct (outb_ok _ _ _ Y K)|destruct (NC (inb_ok _ _ _ Y))].
    + right. apply existsb_exists in Y as ([[lh lm] ct] & I & Q). apply andb_true_iff in Q as [Q1 Q2]. exists lh, lm, ct. split.
      * unfold innermostb in Q1. apply andb_true_iff in Q1 as [Q0 Q1]. split; [apply loops_in; exact I|]. split; [apply inb_ok; exact Q0|].
        intros h' x' ct' HL' K'. pose proof (each_loop_ok _ Q1 _ _ _ HL') as Z. cbn beta in Z. apply orb_true_iff in Z as [Z|Z]; [destruct (outb_ok _ _ _ Z K')|apply inb_ok; exact Z].
      * apply orb_true_iff in Q2 as [Q2|Q2]; apply N.eqb_eq in Q2; auto.
Qed.
Lemma close_check_ok : close_check = true -> loops_close f.
Proof.
  intros H h x ct u n HL B. pose proof (each_edge_ok _ (each_loop_ok _ H _ _ _ HL) _ _ _ (proj1 B)) as X. cbn beta in X. rewrite N.eqb_refl in X. cbn [negb orb] in X.
  apply orb_true_iff in X as [X|X]; [destruct (no_back_ok _ _ _ X B)|apply ndomb_ok; exact X].
Qed.
Lemma reached_check_ok : reached_check = true -> merges_reached f.
Proof.
  intros H h x D R. pose proof (each_decl_ok _ H _ _ D) as X. cbn beta in X. apply orb_true_iff in X as [X|X]; [destruct (nreachb_ok _ X R)|apply reachb_ok; exact X].
Qed.
Lemma check_obeys : merge_check && continue_check && construct_check = true -> obeys f.
Proof.
  intros H. apply andb_true_iff in H as [H H3]. apply andb_true_iff in H as [H1 H2]. split; [apply merge_check_ok; exact H1|]. split; [apply continue_check_ok; exact H2|apply construct_check_ok; exact H3].
Qed.
End Check.
