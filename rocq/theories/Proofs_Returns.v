(** Lemmas for C114: find_control_flow returns on functions that obey the rules of the SPIR-V standard. *)
From Coq Require Import Relation_Operators Operators_Properties.
From Verif Require Import Base Types Ops Groups ExtSet ControlFlow Spec_Flow Proofs_Flow Proofs_Flow3 Spec_Standard Spec_Returns.

(** ** Walks as the lists of the blocks they execute *)
Section Paths.
Context {E : Type}.
Variable f : FunctionDefinition E.

Inductive path : BlockId -> list BlockId -> BlockId -> Prop :=
| path_nil : forall u, path u [] u
| path_cons : forall u n w l v, branches f u n w -> path w l v -> path u (u :: l) v.

Lemma walk_path : forall u t d, walk f u t d -> forall v, d = Some v -> path u (map fst t) v.
Proof.
  intros u t d W. induction W as [id|id b op H B|id b op t d H B W IH|id b op t d H B W IH|id b op t d H B W IH]; intros v Q; try discriminate Q.
  - injection Q as <-. constructor.
  - cbn [map fst]. eapply (path_cons _ 0); [|exact (IH _ Q)]. exists b. unfold branch_targets. rewrite B. auto.
  - cbn [map fst]. eapply (path_cons _ 0); [|exact (IH _ Q)]. exists b. unfold branch_targets. rewrite B. auto.
  - cbn [map fst]. eapply (path_cons _ 1); [|exact (IH _ Q)]. exists b. unfold branch_targets. rewrite B. auto.
Qed.
Lemma path_walk : forall u l v, path u l v -> exists t, map fst t = l /\ walk f u t (Some v).
Proof.
  intros u l v P. induction P as [u|u n w l v (b & H & N) P (t & <- & W)]; [exists []; split; [reflexivity|constructor]|].
  unfold branch_targets in N. destruct (BasicBlock_branch b) as [op|op|op] eqn:B.
  - destruct n as [|[|n]]; try discriminate N. injection N as <-. exists ((u, None) :: t). split; [reflexivity|]. eapply walk_branch; eauto.
  - destruct n as [|[|[|n]]]; try discriminate N; injection N as <-.
    + exists ((u, Some true) :: t). split; [reflexivity|]. eapply walk_true; eauto.
    + exists ((u, Some false) :: t). split; [reflexivity|]. eapply walk_false; eauto.
  - destruct n; discriminate N.
Qed.
Lemma dominates_path : forall a b, dominates f a b <-> forall e l, entry f e -> path e l b -> In a (l ++ [b]).
Proof.
  intros a b. split; intros H e.
  - intros l En P. destruct (path_walk _ _ _ P) as (t & <- & W). exact (H e t En W).
  - intros t En W. exact (H e _ En (walk_path _ _ _ W _ eq_refl)).
Qed.
Lemma reachable_path : forall x, reachable f x <-> exists e l, entry f e /\ path e l x.
Proof.
  intros x. split.
  - intros (e & t & En & W). exists e, (map fst t). split; [exact En|exact (walk_path _ _ _ W _ eq_refl)].
  - intros (e & l & En & P). destruct (path_walk _ _ _ P) as (t & _ & W). exists e, t. auto.
Qed.

Lemma path_app : forall u l1 v l2 w, path u l1 v -> path v l2 w -> path u (l1 ++ l2) w.
Proof. intros u l1 v l2 w P Q. induction P as [u|u n x l v B P IH]; [exact Q|]. cbn [app]. eapply path_cons; [exact B|exact (IH Q)]. Qed.
Lemma path_snoc : forall u l v n w, path u l v -> branches f v n w -> path u (l ++ [v]) w.
Proof. intros u l v n w P B. eapply path_app; [exact P|]. eapply path_cons; [exact B|constructor]. Qed.
Lemma path_last : forall u l x, path u l x -> (l = [] /\ x = u) \/ exists l' p n, l = l' ++ [p] /\ path u l' p /\ branches f p n x.
Proof.
  intros u l x P. induction P as [u|u n w l v B P IH]; [auto|]. right. destruct IH as [[-> ->]|(l' & p & n' & -> & P' & B')].
  - exists [], u, n. split; [reflexivity|]. split; [constructor|exact B].
  - exists (u :: l'), p, n'. split; [reflexivity|]. split; [eapply path_cons; eauto|exact B'].
Qed.
(** A path can be cut at any of its blocks. *)
Lemma path_cut : forall u l v, path u l v -> forall x, In x l -> exists l1 l2, l = l1 ++ x :: l2 /\ path u l1 x /\ path x (x :: l2) v.
Proof.
  intros u l v P. induction P as [u|u n w l v B P IH]; intros x I; [destruct I|]. destruct I as [<-|I].
  - exists [], l. split; [reflexivity|]. split; [constructor|eapply path_cons; eauto].
  - destruct (IH x I) as (l1 & l2 & -> & P1 & P2). exists (u :: l1), l2. split; [reflexivity|]. split; [eapply path_cons; eauto|exact P2].
Qed.
Lemma path_nodes : forall u l v, path u l v -> exists r, l ++ [v] = u :: r.
Proof. intros u l v P. destruct P; cbn [app]; eauto. Qed.

(** ** Dominators *)
Lemma dom_refl : forall a, dominates f a a.
Proof. intros a. apply dominates_path. intros e l _ _. apply in_or_app. right. left. reflexivity. Qed.
Lemma dom_trans : forall a b c, dominates f a b -> dominates f b c -> dominates f a c.
Proof.
  intros a b c A B. rewrite dominates_path in *. intros e l En P. pose proof (B e l En P) as I. apply in_app_or in I as [I|[<-|[]]]; [|exact (A e l En P)].
  destruct (path_cut _ _ _ P b I) as (l1 & l2 & -> & P1 & _). pose proof (A e l1 En P1) as J. apply in_app_or in J as [J|[<-|[]]]; rewrite <- app_assoc; apply in_or_app; [left; exact J|right; left; reflexivity].
Qed.
Lemma dom_reachable : forall a b, dominates f a b -> reachable f b -> reachable f a.
Proof.
  intros a b D R. apply reachable_path in R as (e & l & En & P). apply reachable_path. pose proof (proj1 (dominates_path a b) D e l En P) as I. apply in_app_or in I as [I|[<-|[]]]; [|eauto].
  destruct (path_cut _ _ _ P a I) as (l1 & l2 & _ & P1 & _). eauto.
Qed.
Lemma dom_antisym : forall a b, reachable f a -> dominates f a b -> dominates f b a -> a = b.
Proof.
  intros a b R A B. destruct (N.eq_dec a b) as [Q|NE]; [exact Q|exfalso]. apply reachable_path in R as (e & l & En & P).
  rewrite dominates_path in A, B. remember (length l) as k eqn:K. revert l P K. induction k as [k IH] using lt_wf_ind. intros l P ->.
  pose proof (B e l En P) as I. apply in_app_or in I as [I|[<-|[]]]; [|contradiction]. destruct (path_cut _ _ _ P b I) as (l1 & l2 & -> & P1 & _).
  pose proof (A e l1 En P1) as J. apply in_app_or in J as [J|[<-|[]]]; [|contradiction]. destruct (path_cut _ _ _ P1 a J) as (l3 & l4 & -> & P3 & _).
  apply (IH (length l3)) with (l := l3); [|exact P3|reflexivity]. rewrite !app_length. cbn [length]. lia.
Qed.
(** From the last of two blocks on a path, neither is met again. *)
Lemma last_of_two : forall a b u l c, path u l c -> In a (l ++ [c]) \/ In b (l ++ [c]) ->
  exists y r l', (y = a \/ y = b) /\ path y l' c /\ l' ++ [c] = y :: r /\ ~ In a r /\ ~ In b r.
Proof.
  intros a b u l c P. induction P as [u|u n w l c B P IH]; intros I.
  - exists u, [], []. split; [destruct I as [[->|[]]|[->|[]]]; auto|]. split; [constructor|]. split; [reflexivity|]. split; intros [].
  - destruct (in_dec N.eq_dec a (l ++ [c])) as [Ja|Ja]; [apply IH; auto|]. destruct (in_dec N.eq_dec b (l ++ [c])) as [Jb|Jb]; [apply IH; auto|].
    exists u, (l ++ [c]), (u :: l). split; [destruct I as [[->|I]|[->|I]]; auto; contradiction|]. split; [eapply path_cons; eauto|]. split; [reflexivity|auto].
Qed.
Lemma dom_chain : forall a b c, reachable f c -> dominates f a c -> dominates f b c -> dominates f a b \/ dominates f b a.
Proof.
  assert (K : forall a b c l' r, dominates f a c -> path b l' c -> l' ++ [c] = b :: r -> ~ In a r -> dominates f a b).
  { intros a b c l' r A P Q N. apply dominates_path. intros e l En W. pose proof (proj1 (dominates_path a c) A e (l ++ l') En (path_app _ _ _ _ _ W P)) as I.
    rewrite <- app_assoc, Q in I. apply in_app_or in I as [I|[->|I]]; [| |contradiction]; apply in_or_app; [left; exact I|right; left; reflexivity]. }
  intros a b c R A B. apply reachable_path in R as (e & l & En & P). pose proof (proj1 (dominates_path a c) A e l En P) as I.
  destruct (last_of_two a b e l c P (or_introl I)) as (y & r & l' & [->| ->] & P' & Q & Na & Nb); [right; exact (K b a c l' r B P' Q Nb)|left; exact (K a b c l' r A P' Q Na)].
Qed.
Lemma dom_edge : forall h p n x, dominates f h x -> branches f p n x -> x <> h -> dominates f h p.
Proof.
  intros h p n x D B N. apply dominates_path. intros e l En P. pose proof (proj1 (dominates_path h x) D e (l ++ [p]) En (path_snoc _ _ _ _ _ P B)) as I.
  apply in_app_or in I as [I|[->|[]]]; [exact I|contradiction].
Qed.
Lemma reachable_edge : forall p n x, reachable f p -> branches f p n x -> reachable f x.
Proof. intros p n x R B. apply reachable_path in R as (e & l & En & P). apply reachable_path. exists e, (l ++ [p]). split; [exact En|]. eapply path_snoc; eauto. Qed.

(** From a dominator there is a way without back edges. *)
Lemma onward_way : forall h x, reachable f x -> dominates f h x -> clos_refl_trans BlockId (onward f) h x.
Proof.
  intros h x R. apply reachable_path in R as (e & l & En & P). remember (length l) as k eqn:K. revert l x P K. induction k as [k IH] using lt_wf_ind. intros l x P -> D.
  destruct (path_last _ _ _ P) as [[-> ->]|(l' & p & n & -> & P' & B)].
  - destruct (proj1 (dominates_path h e) D e [] En P) as [->|[]]. apply rt_refl.
  - rewrite app_length in IH. cbn [length] in IH. destruct (N.eq_dec x h) as [->|N]; [apply rt_refl|].
    destruct (in_dec N.eq_dec x (l' ++ [p])) as [I|I].
    + apply in_app_or in I as [I|[<-|[]]].
      * destruct (path_cut _ _ _ P' x I) as (l1 & l2 & -> & P1 & _). apply (IH (length l1)) with (l := l1); [rewrite app_length; cbn [length]; lia|exact P1|reflexivity|exact D].
      * apply (IH (length l')) with (l := l'); [lia|exact P'|reflexivity|exact D].
    + apply rt_trans with p.
      * apply (IH (length l')) with (l := l'); [lia|exact P'|reflexivity|exact (dom_edge _ _ _ _ D B N)].
      * apply rt_step. exists n. split; [exact B|]. split; [apply reachable_path; eauto|]. intros X. apply I. exact (proj1 (dominates_path x p) X e l' En P').
Qed.
Lemma rt_cases : forall (A : Type) (R : A -> A -> Prop) a b, clos_refl_trans A R a b -> a = b \/ clos_trans A R a b.
Proof.
  intros A R a b H. induction H as [a b H|a|a b c H1 IH1 H2 IH2]; [right; apply t_step; exact H|left; reflexivity|].
  destruct IH1 as [->|IH1]; [exact IH2|]. destruct IH2 as [<-|IH2]; [right; exact IH1|right; eapply t_trans; eauto].
Qed.
Lemma rt_t : forall (A : Type) (R : A -> A -> Prop) a b c, clos_refl_trans A R a b -> clos_trans A R b c -> clos_trans A R a c.
Proof. intros A R a b c H1 H2. destruct (rt_cases _ _ _ _ H1) as [->|H]; [exact H2|eapply t_trans; eauto]. Qed.
Lemma t_rt : forall (A : Type) (R : A -> A -> Prop) a b c, clos_trans A R a b -> clos_refl_trans A R b c -> clos_trans A R a c.
Proof. intros A R a b c H1 H2. destruct (rt_cases _ _ _ _ H2) as [<-|H]; [exact H1|eapply t_trans; eauto]. Qed.
Lemma t_in_rt : forall (A : Type) (R : A -> A -> Prop) a b, clos_trans A R a b -> clos_refl_trans A R a b.
Proof. intros A R a b H. induction H; [apply rt_step; assumption|eapply rt_trans; eauto]. Qed.
Lemma onward_way_strict : forall h x, reachable f x -> dominates f h x -> h <> x -> clos_trans BlockId (onward f) h x.
Proof. intros h x R D N. destruct (rt_cases _ _ _ _ (onward_way h x R D)) as [Q|H]; [contradiction|exact H]. Qed.

(** ** The search *)
Hypothesis ND : NoDup (labels f).
Hypothesis MR : merge_rules f.
Hypothesis CR : construct_rules f.
Hypothesis LC : loops_close f.
Hypothesis RM : merges_reached f.
Notation m := (block_map f).
Notation way := (clos_refl_trans BlockId (onward f)).
Notation strict_way := (clos_trans BlockId (onward f)).

Lemma no_cycle : forall u, ~ strict_way u u.
Proof. exact (proj1 (proj2 (proj2 (proj2 MR)))). Qed.
Lemma merge_way : forall h x, declares f h x -> reachable f h -> strict_way h x.
Proof.
  intros h x D R. pose proof (RM _ _ D R) as Rx. destruct (proj1 (proj2 (proj2 MR)) h x D Rx) as [DM N]. exact (onward_way_strict h x Rx DM N).
Qed.
Lemma entered : forall h x u n v, declares f h x -> reachable f h -> branches f u n v -> reachable f u -> ~ construct f h x u -> construct f h x v -> v = h.
Proof. intros h x u n v D R. exact (proj1 (proj2 (CR h x D R)) u n v). Qed.

(** From the merge block of a construct there is no way back into it. *)
Lemma no_way_back : forall h x b, declares f h x -> reachable f h -> way x b -> ~ construct f h x b.
Proof.
  intros h x b D R W. apply clos_rt_rtn1 in W. induction W as [|y z O W IH].
  - intros (_ & _ & N). apply N. apply dom_refl.
  - intros C. destruct O as (n & B & Ry & ND'). pose proof (entered _ _ _ _ _ D R B Ry IH C) as ->. apply clos_rtn1_rt in W. apply (no_cycle h).
    apply t_rt with x; [exact (merge_way _ _ D R)|]. apply rt_trans with y; [exact W|]. apply rt_step. exists n. auto.
Qed.

(** The search stops at the header of every loop around block [id]; but for loops that are inside a construct the search
    has finished, for there is no way back to them. *)
Definition stopped (id : BlockId) (fl : FlowList) : Prop := forall h x ct, heads_loop f h x ct -> construct f h x id -> id <> h -> merges fl h = false ->
  (forall y w, declares f y w -> reachable f y -> way w id -> construct f y w h -> h <> y -> False) -> False.

Lemma loop_declares : forall h x ct, heads_loop f h x ct -> declares f h x.
Proof. intros h x ct (b & hint & H & M). exists b. split; [exact H|]. unfold merge_targets. rewrite M. left. reflexivity. Qed.

Lemma branch_onward : forall id b fl fl' n t, has_block f id b -> reachable f id -> stopped id fl -> branches f id n t ->
  (forall x, merges fl x = true -> merges fl' x = true) -> (forall lm, BasicBlock_merge b = Some (GroupMerge_OpLoopMerge lm) -> merges fl' id = true) ->
  merges fl' t = false -> onward f id t /\ stopped t fl'.
Proof.
  intros id b fl fl' n t H R ST B SUB LOOP M.
  assert (SELF : forall x ct, heads_loop f id x ct -> merges fl' id = true).
  { intros x ct (b' & hint & H' & Mg). rewrite (has_block_inj f ND _ _ _ H' H) in Mg. exact (LOOP _ Mg). }
  assert (O : onward f id t).
  { exists n. split; [exact B|]. split; [exact R|]. intros D. assert (BE : back_edge f id n t) by (split; [exact B|split; [exact R|exact D]]).
    destruct (proj1 (proj2 (proj2 (proj2 (proj2 MR)))) _ _ _ BE) as (x & ct & HL). pose proof (loop_declares _ _ _ HL) as DC. pose proof (dom_reachable _ _ D R) as Rt.
    assert (C : construct f t x id) by (split; [exact R|split; [exact D|exact (LC _ _ _ _ _ HL BE)]]).
    destruct (N.eq_dec id t) as [->|NE]; [rewrite (SELF _ _ HL) in M; discriminate M|].
    apply (ST t x ct HL C NE).
    - destruct (merges fl t) eqn:Q; [rewrite (SUB _ Q) in M; discriminate M|reflexivity].
    - intros y w DY RY W CY NY. apply NY. exact (entered _ _ _ _ _ DY RY B R (no_way_back _ _ _ DY RY W) CY). }
  split; [exact O|]. intros h x ct HL C NE Mh EX. pose proof (loop_declares _ _ _ HL) as DC. destruct C as (Rt & Dh & Dx).
  assert (Rh : reachable f h) by exact (dom_reachable _ _ Dh Rt).
  assert (NN : ~ ~ construct f h x id).
  { intros NC. apply NE. apply (entered _ _ _ _ _ DC Rh B R NC). split; [exact Rt|split; assumption]. }
  apply NN. intros C. destruct (N.eq_dec id h) as [->|NI]; [rewrite (SELF _ _ HL) in Mh; discriminate Mh|].
  apply (ST h x ct HL C NI).
  - destruct (merges fl h) eqn:Q; [rewrite (SUB _ Q) in Mh; discriminate Mh|reflexivity].
  - intros y w DY RY W CY NY. apply (EX y w DY RY); [|exact CY|exact NY]. eapply rt_trans; [exact W|]. apply rt_step. exact O.
Qed.

Lemma merge_stopped : forall id fl x, reachable f id -> stopped id fl -> declares f id x -> stopped x fl.
Proof.
  intros id fl x R ST D h x' ct HL (Rx & Dh & Dx') NE Mh EX. pose proof (loop_declares _ _ _ HL) as DC.
  destruct (proj1 (proj2 (proj2 MR)) id x D Rx) as [DI NI].
  assert (DEC : id = h -> x' = x).
  { intros ->. destruct DC as (b & H & I), D as (b' & H' & I'). rewrite (has_block_inj f ND _ _ _ H' H) in I'. unfold merge_targets in *.
    destruct (BasicBlock_merge b) as [[lm|sm]|]; [| |destruct I]; destruct I as [<-|[]], I' as [<-|[]]; reflexivity. }
  destruct (N.eq_dec id h) as [Q|NQ]; [rewrite (DEC Q) in Dx'; apply Dx'; apply dom_refl|].
  destruct (dom_chain _ _ _ Rx Dh DI) as [A|A].
  - apply (ST h x' ct HL); [|exact NQ|exact Mh|].
    + split; [exact R|]. split; [exact A|]. intros Y. apply Dx'. exact (dom_trans _ _ _ Y DI).
    + intros y w DY RY W CY NY. apply (EX y w DY RY); [|exact CY|exact NY]. eapply rt_trans; [exact W|]. apply t_in_rt. exact (merge_way _ _ D R).
  - apply (EX id x D R); [apply rt_refl| |congruence]. split; [exact (dom_reachable _ _ Dh Rx)|]. split; [exact A|].
    intros Y. apply NE. exact (dom_antisym _ _ Rx Y Dh).
Qed.

Lemma search_returns : forall fuel id fl anc, reachable f id -> stopped id fl -> (forall a, In a anc -> strict_way a id) -> NoDup anc -> incl anc (labels f) ->
  length (FunctionDefinition_blocks f) < fuel + length anc -> search_block fuel id fl m <> OutOfFuel.
Proof.
  induction fuel as [|fuel IH]; intros id fl anc R ST WAY NA IN LEN.
  - pose proof (NoDup_incl_length NA IN) as L. unfold labels in L. rewrite map_length in L. cbn [Nat.add] in LEN. lia.
  - cbn [search_block]. destruct (merges fl id) eqn:M; [discriminate|]. destruct (map_get id m) as [b|] eqn:G; [|discriminate].
    apply block_map_represents in G.
    assert (NA' : NoDup (id :: anc)) by (constructor; [intros I; exact (no_cycle _ (WAY _ I))|exact NA]).
    assert (IN' : incl (id :: anc) (labels f)).
    { intros y [<-|I]; [|exact (IN _ I)]. destruct G as [I <-]. apply in_map. exact I. }
    assert (FUEL : exists k, fuel = Datatypes.S k).
    { destruct fuel as [|k]; [|eauto]. pose proof (NoDup_incl_length NA' IN') as L. unfold labels in L. rewrite map_length in L. cbn [length] in L. lia. }
    assert (GO : forall t fl', strict_way id t -> reachable f t -> stopped t fl' -> search_block fuel t fl' m <> OutOfFuel).
    { intros t fl' W Rt S'. apply (IH t fl' (id :: anc) Rt S'); [|exact NA'|exact IN'|cbn [length]; lia]. intros a [<-|I]; [exact W|]. eapply t_trans; [exact (WAY _ I)|exact W]. }
    assert (BR : forall n t fl', branches f id n t -> (forall x, merges fl x = true -> merges fl' x = true) ->
      (forall lm, BasicBlock_merge b = Some (GroupMerge_OpLoopMerge lm) -> merges fl' id = true) -> search_block fuel t fl' m <> OutOfFuel).
    { intros n t fl' B SUB LOOP. destruct (merges fl' t) eqn:Mt; [destruct FUEL as [k ->]; cbn [search_block]; rewrite Mt; discriminate|].
      destruct (branch_onward id b fl fl' n t G R ST B SUB LOOP Mt) as [O S']. apply GO; [apply t_step; exact O|exact (reachable_edge _ _ _ R B)|exact S']. }
    assert (MG : forall x, In x (merge_targets b) -> search_block fuel x fl m <> OutOfFuel).
    { intros x I. assert (D : declares f id x) by (exists b; split; assumption). apply GO; [exact (merge_way _ _ D R)|exact (RM _ _ D R)|exact (merge_stopped _ _ _ R ST D)]. }
    assert (TG : forall n t, nth_error (branch_targets b) n = Some t -> branches f id n t) by (intros n t Q; exists b; split; assumption).
    assert (PUSH : forall c x, merges fl x = true -> merges (c :: fl) x = true) by (intros c x Q; destruct c; cbn [merges]; rewrite Q; destruct (N.eqb _ x); reflexivity).
    assert (HEAD : forall x w, merges (Converge_Loop id x w :: fl) id = true) by (intros x w; cbn [merges]; rewrite N.eqb_refl; reflexivity).
    unfold branch_targets in TG. unfold merge_targets in MG.
    destruct (BasicBlock_branch b) as [op|op|op]; [| |discriminate]; (destruct (BasicBlock_merge b) as [[lm|sm]|]; try discriminate).
    + pose proof (BR 0 (OpBranch_target_label op) (Converge_Loop id (OpLoopMerge_merge_block lm) (OpLoopMerge_loop_control lm) :: fl) (TG 0 _ eq_refl) (PUSH _) (fun _ _ => HEAD _ _)) as X.
      destruct (search_block fuel _ (_ :: fl) m) as [[c nx]| | |]; try discriminate; [|congruence]. cbn [bind]. destruct (cont_eqb nx (Cont_Next id)); [|discriminate].
      pose proof (MG _ (or_introl eq_refl)) as Y. destruct (search_block fuel (OpLoopMerge_merge_block lm) fl m) as [[c' nx']| | |]; try discriminate. congruence.
    + pose proof (BR 0 (OpBranch_target_label op) fl (TG 0 _ eq_refl) (fun x Q => Q) ltac:(discriminate)) as X.
      destruct (search_block fuel _ fl m) as [[c nx]| | |]; try discriminate. congruence.
    + pose proof (BR 0 (OpBranchConditional_true_label op) (Converge_If (OpSelectionMerge_merge_block sm) (OpSelectionMerge_selection_control sm) :: fl) (TG 0 _ eq_refl) (PUSH _) ltac:(discriminate)) as X1.
      pose proof (BR 1 (OpBranchConditional_false_label op) (Converge_If (OpSelectionMerge_merge_block sm) (OpSelectionMerge_selection_control sm) :: fl) (TG 1 _ eq_refl) (PUSH _) ltac:(discriminate)) as X2.
      destruct (search_block fuel (OpBranchConditional_true_label op) _ m) as [[c nx]| | |]; try discriminate; [|congruence]. cbn [bind].
      destruct (search_block fuel (OpBranchConditional_false_label op) _ m) as [[c2 nx2]| | |]; try discriminate; [|congruence]. cbn [bind].
      destruct (cont_eqb nx nx2 && _); [|discriminate].
      pose proof (MG _ (or_introl eq_refl)) as Y. destruct (search_block fuel (OpSelectionMerge_merge_block sm) fl m) as [[c' nx']| | |]; try discriminate. congruence.
    + destruct (ControlFlow.innermost_loop fl) as [[h mg]|]; [|discriminate]. destruct (_ || _); [|discriminate].
      pose proof (BR 0 (OpBranchConditional_true_label op) fl (TG 0 _ eq_refl) (fun x Q => Q) ltac:(discriminate)) as X.
      destruct (search_block fuel (OpBranchConditional_true_label op) fl m) as [[c nx]| | |]; try discriminate; [|congruence]. cbn [bind]. destruct (cont_eqb nx _); discriminate.
Qed.
End Paths.

Theorem rules_return : forall E (f : FunctionDefinition E), merge_rules f -> construct_rules f -> loops_close f -> merges_reached f ->
  exists r, r <> OutOfFuel /\ forall depth, length (FunctionDefinition_blocks f) < depth -> find_control_flow depth f = r.
Proof.
  intros E f MR CR LC RM. set (n := length (FunctionDefinition_blocks f)).
  assert (X : find_control_flow (S n) f <> OutOfFuel).
  { intros O. apply find_search in O as (b & rest & Q & N & O). revert O.
    assert (En : entry f (label_of b)) by (exists b, rest; auto).
    apply (search_returns f N MR CR LC RM (S n) (label_of b) [] []).
    - apply reachable_path. exists (label_of b), []. split; [exact En|constructor].
    - intros h x ct _ (_ & D & _) NE _ _. destruct (proj1 (dominates_path f h _) D (label_of b) [] En (path_nil f _)) as [QH|[]]. exact (NE QH).
    - intros a [].
    - constructor.
    - intros a [].
    - cbn [length]. fold n. lia. }
  exists (find_control_flow (S n) f). split; [exact X|]. intros depth L. exact (depth_irrelevant f _ _ X L).
Qed.
