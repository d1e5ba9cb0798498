(** Structured control flow: shape of chains, errors, irrelevance of order and code (C38-C45, C48, C49, C51). *)
From Coq Require Import Permutation.
From Verif Require Import Base Types Ops Groups ExtSet ControlFlow DisplayFlow Spec_Flow Proofs_Flow.

Lemma fold_right_Forall : forall {A} (P : A -> Prop) l, fold_right (fun c rest => P c /\ rest) True l <-> Forall P l.
Proof.
  intros A P l. induction l as [|x l IH]; cbn [fold_right]; [split; auto|]. rewrite IH. split; intros H; [destruct H; auto|inversion H; auto].
Qed.

Lemma everywhere_block : forall P a l, everywhere P a (Block l) <-> P a (Block l) /\ Forall (everywhere P a) l.
Proof. intros P a l. cbn [everywhere]. rewrite (fold_right_Forall (everywhere P a)). reflexivity. Qed.

Lemma everywhere_here : forall P a c, everywhere P a c -> P a c.
Proof. intros P a c H. destruct c; exact (proj1 H). Qed.

Lemma everywhere_items : forall P a c, everywhere P a c -> Forall (everywhere P a) (items c).
Proof. intros P a c H. destruct c; cbn [items]; auto. apply everywhere_block in H. tauto. Qed.

Lemma everywhere_impl : forall (P Q : option BlockId -> ControlFlowChain -> Prop), (forall a c, P a c -> Q a c) ->
  forall c a, everywhere P a c -> everywhere Q a c.
Proof.
  intros P Q PQ. induction c using chain_ind'; intros a.
  - cbn [everywhere]. intros [H _]. auto.
  - rewrite !everywhere_block. intros [H1 H2]. split; [auto|]. rewrite Forall_forall in *. auto.
  - cbn [everywhere]. intros (H & H1 & H2). auto.
  - cbn [everywhere]. intros (H & H1). auto.
  - cbn [everywhere]. intros [H _]. auto.
  - cbn [everywhere]. intros [H _]. auto.
Qed.

Lemma chain_ids_items : forall c, flat_map chain_ids (items c) = chain_ids c.
Proof. intros c. destruct c; cbn [items flat_map chain_ids]; rewrite ?app_nil_r; reflexivity. Qed.
Lemma chain_ids_block : forall a b, chain_ids (block [a; b]) = chain_ids a ++ chain_ids b.
Proof. intros a b. rewrite block2. cbn [chain_ids]. rewrite flat_map_app, !chain_ids_items. reflexivity. Qed.

Lemma build_map_plain : forall {E} (blocks : list (BasicBlock E)), build_map blocks None [] = Panic \/ build_map blocks None [] = OutOfFuel -> False.
Proof. intros E blocks [H|H]; [apply (proj2 (proj2 (build_map_dup blocks None []))); exact H|apply (proj1 (proj2 (build_map_dup blocks None []))); exact H]. Qed.

Section Facts.
Context {E : Type}.
Variable f : FunctionDefinition E.

Definition around (fl : FlowList) : option BlockId := option_map fst (innermost_loop fl).
Definition real_loops (fl : FlowList) : Prop := forall h m, innermost_loop fl = Some (h, m) -> exists control, loop_header f h m control.
Definition node (a : option BlockId) (c : ControlFlowChain) : Prop := well_scoped f a c /\ carries f a c /\ flat c.
Definition plain (c : ControlFlowChain) : Prop := c <> Break /\ c <> Continue /\ match c with Block _ => False | _ => True end.

Lemma node_block : forall a l, Forall plain l -> node a (Block l).
Proof.
  intros a l H. rewrite Forall_forall in H. split; [|split; [exact I|]].
  - split; intros X; apply H in X; destruct X as (X1 & X2 & _); congruence.
  - intros x X. apply H in X. apply X.
Qed.

Lemma items_plain_not : forall c, Forall plain (items c) -> c <> Break /\ c <> Continue.
Proof. intros c H. destruct c; split; try discriminate; cbn [items] in H; inversion H; subst; destruct H2 as (X & Y & _); congruence. Qed.

Lemma everywhere_block2 : forall a x y, everywhere node a x -> everywhere node a y -> Forall plain (items x) -> Forall plain (items y) ->
  everywhere node a (block [x; y]) /\ Forall plain (items (block [x; y])).
Proof.
  intros a x y Hx Hy Px Py. rewrite block2. cbn [items]. assert (P : Forall plain (items x ++ items y)) by (apply Forall_app; auto). split; [|exact P].
  apply everywhere_block. split; [apply node_block; exact P|]. apply Forall_app. split; apply everywhere_items; assumption.
Qed.

Lemma plain_atom : forall id, plain (Atom id).
Proof. intros. split; [discriminate|split; [discriminate|exact I]]. Qed.
Lemma plain_selection : forall id l r h w, plain (Selection id l r h w).
Proof. intros. split; [discriminate|split; [discriminate|exact I]]. Qed.
Lemma plain_loop : forall id i h w, plain (Loop id i h w).
Proof. intros. split; [discriminate|split; [discriminate|exact I]]. Qed.

Theorem Search_nodes : forall fl id c n, Search f fl id c n -> real_loops fl -> everywhere node (around fl) c /\ Forall plain (items c).
Proof.
  intros fl id c n H. induction H as [fl id M|fl id b op M HB BR|fl id b op c n M HB BR MG Hc IH
    |fl id b op lm inner after n M HB BR MG Hi IHi Ha IHa|fl id b op sm lhs rhs after n M HB BR MG Hl IHl Hr IHr Ha IHa
    |fl id b op head merge inner isb M HB BR MG L D Hi IHi]; intros RL.
  - split; [|constructor]. apply everywhere_block. split; [apply node_block|]; constructor.
  - split; [|constructor; [apply plain_atom|constructor]]. cbn. repeat split.
  - destruct (IH RL) as [H1 H2]. apply everywhere_block2; auto.
    + cbn. repeat split.
    + constructor; [apply plain_atom|constructor].
  - destruct (IHa RL) as [H1 H2].
    assert (LH : loop_header f id (OpLoopMerge_merge_block lm) (OpLoopMerge_loop_control lm)) by (exists b, lm; auto).
    assert (RL' : real_loops (Converge_Loop id (OpLoopMerge_merge_block lm) (OpLoopMerge_loop_control lm) :: fl)).
    { intros h m. cbn [innermost_loop]. intros [= <- <-]. eauto. }
    destruct (IHi RL') as [H3 H4]. apply everywhere_block2; auto; [|constructor; [apply plain_loop|constructor]].
    split; [|exact H3]. split; [|split].
    + apply items_plain_not. exact H4.
    + split; [reflexivity|]. eauto.
    + exact I.
  - destruct (IHa RL) as [H1 H2]. destruct (IHl RL) as [H3 H4]. destruct (IHr RL) as [H5 H6].
    apply everywhere_block2; auto; [|constructor; [apply plain_selection|constructor]].
    split; [|split; [exact H3|exact H5]]. split; [|split; [|exact I]].
    + destruct (items_plain_not _ H4) as [X1 X2]. destruct (items_plain_not _ H6) as [X3 X4]. split; [exact X1|split; [exact X2|split; intros Q; congruence]].
    + left. exists (OpBranchConditional_true_label op), (OpBranchConditional_false_label op), sm. split; [|reflexivity]. exists b, op. auto 8.
  - destruct (IHi RL) as [H1 H2]. split; [|constructor; [apply plain_selection|constructor]].
    destruct (RL _ _ L) as [control LH].
    split; [|split; [exact H1|destruct isb; cbn; repeat split]]. split; [|split; [|exact I]].
    + destruct (items_plain_not _ H2) as [X1 X2]. split; [exact X1|]. split; [exact X2|]. split; intros Q; destruct isb; try discriminate Q;
        exists head, merge, (OpBranchConditional_true_label op), control, (OpBranchConditional_weights op);
        (split; [unfold around; rewrite L; reflexivity|]); (split; [exact LH|]); exists b, op; rewrite D; auto 8.
    + right. exists (OpBranchConditional_true_label op), (OpBranchConditional_false_label op). split; [exists b, op; auto 8|].
      split; [destruct isb; auto|reflexivity].
Qed.

Lemma find_nodes : forall depth c, find_control_flow depth f = Ok c -> everywhere node None c /\ Forall plain (items c).
Proof.
  intros depth c H. apply find_inv in H as (ND & s & En & _ & S). change None with (around []). eapply Search_nodes; [exact S|]. intros h m Q. discriminate Q.
Qed.

Theorem chain_well_scoped : forall depth c, find_control_flow depth f = Ok c -> c <> Break /\ c <> Continue /\ everywhere (well_scoped f) None c.
Proof.
  intros depth c H. apply find_nodes in H as [H1 H2]. destruct (items_plain_not _ H2) as [X Y]. split; [exact X|]. split; [exact Y|].
  eapply everywhere_impl; [|exact H1]. intros a x Q. apply Q.
Qed.
Theorem chain_carries : forall depth c, find_control_flow depth f = Ok c -> everywhere (carries f) None c.
Proof. intros depth c H. apply find_nodes in H as [H1 H2]. eapply everywhere_impl; [|exact H1]. intros a x Q. apply Q. Qed.
Theorem chain_flat : forall depth c, find_control_flow depth f = Ok c -> everywhere (fun _ => flat) None c.
Proof. intros depth c H. apply find_nodes in H as [H1 H2]. eapply everywhere_impl; [|exact H1]. intros a x Q. apply Q. Qed.

(** ** C39, C40 *)
Lemma Search_ids : forall fl id c n, Search f fl id c n ->
  (In id (chain_ids c) \/ n = Cont_Next id)
  /\ forall x, In x (chain_ids c) -> exists b, has_block f x b
     /\ forall t, In t (branch_targets b) -> In t (chain_ids c) \/ n = Cont_Next t \/ exists h m, innermost_loop fl = Some (h, m) /\ (t = h \/ t = m).
Proof.
  intros fl id c n H. induction H as [fl id M|fl id b op M HB BR|fl id b op c n M HB BR MG Hc IH
    |fl id b op lm inner after n M HB BR MG Hi IHi Ha IHa|fl id b op sm lhs rhs after n M HB BR MG Hl IHl Hr IHr Ha IHa
    |fl id b op head merge inner isb M HB BR MG L D Hi IHi].
  - split; [right; reflexivity|]. intros x [].
  - split; [left; left; reflexivity|]. intros x [<-|[]]. exists b. split; [exact HB|]. unfold branch_targets. rewrite BR. intros t [].
  - destruct IH as [IH1 IH2]. rewrite chain_ids_block. cbn [chain_ids app]. split; [left; left; reflexivity|]. intros x [<-|X].
    + exists b. split; [exact HB|]. unfold branch_targets. rewrite BR. intros t [<-|[]]. destruct IH1 as [X|X]; [left; right; exact X|right; left; exact X].
    + destruct (IH2 _ X) as (b' & HB' & T). exists b'. split; [exact HB'|]. intros t Ht. destruct (T _ Ht) as [Y|Y]; [left; right; exact Y|right; exact Y].
  - destruct IHi as [Ii1 Ii2], IHa as [Ia1 Ia2]. rewrite chain_ids_block. cbn [chain_ids app]. split; [left; left; reflexivity|]. intros x X.
    assert (J : forall t, t = id \/ t = OpLoopMerge_merge_block lm -> In t (id :: chain_ids inner ++ chain_ids after) \/ n = Cont_Next t).
    { intros t [-> | ->]; [left; left; reflexivity|]. destruct Ia1 as [Y|Y]; [left; right; apply in_app_iff; auto|right; exact Y]. }
    destruct X as [<-|X]; [|apply in_app_iff in X as [X|X]].
    + exists b. split; [exact HB|]. unfold branch_targets. rewrite BR. intros t [<-|[]]. destruct Ii1 as [Y|Y].
      * left. right. apply in_app_iff. auto.
      * injection Y as <-. left. left. reflexivity.
    + destruct (Ii2 _ X) as (b' & HB' & T). exists b'. split; [exact HB'|]. intros t Ht. destruct (T _ Ht) as [Y|[Y|(h & m & Y & Z)]].
      * left. right. apply in_app_iff. auto.
      * injection Y as <-. left. left. reflexivity.
      * cbn [innermost_loop] in Y. injection Y as <- <-. destruct (J _ Z); auto.
    + destruct (Ia2 _ X) as (b' & HB' & T). exists b'. split; [exact HB'|]. intros t Ht. destruct (T _ Ht) as [Y|Y]; [|auto].
      left. right. apply in_app_iff. auto.
  - destruct IHl as [Il1 Il2], IHr as [Ir1 Ir2], IHa as [Ia1 Ia2]. rewrite chain_ids_block. cbn [chain_ids app]. split; [left; left; reflexivity|]. intros x X.
    assert (J : In (OpSelectionMerge_merge_block sm) (id :: (chain_ids lhs ++ chain_ids rhs) ++ chain_ids after) \/ n = Cont_Next (OpSelectionMerge_merge_block sm)).
    { destruct Ia1 as [Y|Y]; [left; right; apply in_app_iff; auto|right; exact Y]. }
    destruct X as [<-|X]; [|apply in_app_iff in X as [X|X]; [apply in_app_iff in X as [X|X]|]].
    + exists b. split; [exact HB|]. unfold branch_targets. rewrite BR. intros t [<-|[<-|[]]].
      * destruct Il1 as [Y|Y]; [left; right; rewrite !in_app_iff; auto|]. injection Y as <-. destruct J; auto.
      * destruct Ir1 as [Y|Y]; [left; right; rewrite !in_app_iff; auto|]. injection Y as <-. destruct J; auto.
    + destruct (Il2 _ X) as (b' & HB' & T). exists b'. split; [exact HB'|]. intros t Ht. destruct (T _ Ht) as [Y|[Y|Y]].
      * left. right. rewrite !in_app_iff. auto.
      * injection Y as <-. destruct J; auto.
      * right. right. exact Y.
    + destruct (Ir2 _ X) as (b' & HB' & T). exists b'. split; [exact HB'|]. intros t Ht. destruct (T _ Ht) as [Y|[Y|Y]].
      * left. right. rewrite !in_app_iff. auto.
      * injection Y as <-. destruct J; auto.
      * right. right. exact Y.
    + destruct (Ia2 _ X) as (b' & HB' & T). exists b'. split; [exact HB'|]. intros t Ht. destruct (T _ Ht) as [Y|Y]; [|auto].
      left. right. apply in_app_iff. auto.
  - destruct IHi as [Ii1 Ii2]. cbn [chain_ids]. split; [left; left; reflexivity|].
    assert (Q : chain_ids (if isb then Break else Continue) = []) by (destruct isb; reflexivity). rewrite Q, app_nil_r. intros x [<-|X].
    + exists b. split; [exact HB|]. unfold branch_targets. rewrite BR. intros t [<-|[<-|[]]].
      * destruct Ii1 as [Y|Y]; [left; right; exact Y|right; left; exact Y].
      * right. right. exists head, merge. split; [exact L|]. rewrite D. destruct isb; auto.
    + destruct (Ii2 _ X) as (b' & HB' & T). exists b'. split; [exact HB'|]. intros t Ht. destruct (T _ Ht) as [Y|Y]; [left; right; exact Y|right; exact Y].
Qed.

Theorem chain_ids_exist : forall depth c, find_control_flow depth f = Ok c -> forall x, In x (chain_ids c) -> exists b, has_block f x b.
Proof.
  intros depth c H x X. apply find_inv in H as (ND & s & En & _ & S). destruct (proj2 (Search_ids _ _ _ _ S) _ X) as (b & HB & _). eauto.
Qed.

Lemma walk_closed : NoDup (labels f) -> forall (V : list BlockId),
  (forall x, In x V -> exists b, has_block f x b /\ forall t, In t (branch_targets b) -> In t V) ->
  forall id t d, walk f id t d -> In id V -> forall j, d = Some j -> In j V.
Proof.
  intros ND V CL id t d W. induction W as [id|id b' op HB' BR|id b' op t d HB' BR W IH|id b' op t d HB' BR W IH|id b' op t d HB' BR W IH]; intros Hi j Q.
  - injection Q as <-. exact Hi.
  - discriminate Q.
  - apply IH; [|exact Q]. destruct (CL _ Hi) as (b & HB & T). pose proof (has_block_inj f ND _ _ _ HB HB') as ->. apply T. unfold branch_targets. rewrite BR. left. reflexivity.
  - apply IH; [|exact Q]. destruct (CL _ Hi) as (b & HB & T). pose proof (has_block_inj f ND _ _ _ HB HB') as ->. apply T. unfold branch_targets. rewrite BR. left. reflexivity.
  - apply IH; [|exact Q]. destruct (CL _ Hi) as (b & HB & T). pose proof (has_block_inj f ND _ _ _ HB HB') as ->. apply T. unfold branch_targets. rewrite BR. right. left. reflexivity.
Qed.

Theorem chain_ids_reachable : forall depth c, find_control_flow depth f = Ok c -> forall j, reachable f j -> In j (chain_ids c).
Proof.
  intros depth c H j (s' & t & En' & W). apply find_inv in H as (ND & s & En & _ & S).
  assert (s' = s) as -> by (destruct En as (b & r & Q & <-), En' as (b' & r' & Q' & <-); rewrite Q in Q'; injection Q' as -> ->; reflexivity).
  destruct (Search_ids _ _ _ _ S) as [IS I2]. destruct IS as [I1|I1]; [|discriminate I1].
  eapply walk_closed; [exact ND| |exact W|exact I1|reflexivity].
  intros x X. destruct (I2 _ X) as (b & HB & T). exists b. split; [exact HB|]. intros u Hu. destruct (T _ Hu) as [Y|[Y|(h & m & Y & _)]]; [exact Y|discriminate Y|discriminate Y].
Qed.

Lemma Search_first : forall fl id c n, Search f fl id c n -> merges fl id = false -> exists rest, chain_ids c = id :: rest.
Proof.
  intros fl id c n H M. destruct H; try congruence; rewrite ?chain_ids_block; cbn [chain_ids app]; eauto.
Qed.
Theorem chain_entry_first : forall depth c, find_control_flow depth f = Ok c -> exists s rest, entry f s /\ chain_ids c = s :: rest.
Proof.
  intros depth c H. apply find_inv in H as (ND & s & En & _ & S). destruct (Search_first _ _ _ _ S eq_refl) as [rest R]. eauto.
Qed.

(** ** C43 *)
Lemma build_map_Dup : forall (pre : list (BasicBlock E)) b post start m, NoDup (map label_of pre) ->
  (forall x, In x (map label_of pre) -> ~ In x (map fst m)) -> In (label_of b) (map label_of pre) \/ In (label_of b) (map fst m) ->
  build_map (pre ++ b :: post) start m = Err (DuplicateBlockId (label_of b)).
Proof.
  induction pre as [|p pre IH]; intros b post start m ND D I; cbn [app build_map].
  - destruct I as [[]|I]. unfold map_insert. destruct (map_get (OpLabel_result_id (BasicBlock_label b)) m) eqn:G; [reflexivity|]. apply map_get_None in G. contradiction.
  - cbn [map] in ND, D, I. inversion ND; subst. unfold map_insert. destruct (map_get (OpLabel_result_id (BasicBlock_label p)) m) eqn:G.
    + destruct (D (label_of p) (or_introl eq_refl)). apply map_get_In in G. apply in_map_iff. eexists. split; [|exact G]. reflexivity.
    + apply IH; [assumption| |].
      * intros x X. cbn [map fst]. intros [Y|Y]; [subst; contradiction|]. exact (D x (or_intror X) Y).
      * cbn [map fst]. destruct I as [[I|I]|I]; [right; left; exact I|left; exact I|right; right; exact I].
Qed.

Lemma build_map_Err : forall (blocks : list (BasicBlock E)) start m e, build_map blocks start m = Err e ->
  exists pre b post, blocks = pre ++ b :: post /\ NoDup (map label_of pre) /\ (forall x, In x (map label_of pre) -> ~ In x (map fst m))
    /\ (In (label_of b) (map label_of pre) \/ In (label_of b) (map fst m)) /\ e = DuplicateBlockId (label_of b).
Proof.
  induction blocks as [|p blocks IH]; intros start m e H; cbn [build_map] in H; [discriminate|].
  unfold map_insert in H. destruct (map_get (OpLabel_result_id (BasicBlock_label p)) m) eqn:G.
  - injection H as <-. exists [], p, blocks. split; [reflexivity|]. split; [constructor|]. split; [intros x []|]. split; [|reflexivity].
    right. apply map_get_In in G. apply in_map_iff. eexists. split; [|exact G]. reflexivity.
  - apply IH in H as (pre & b & post & -> & ND & D & I & ->). exists (p :: pre), b, post. split; [reflexivity|]. cbn [map fst] in *.
    split; [constructor; [|exact ND]; intros X; apply (D _ X); left; reflexivity|]. split; [|split; [|reflexivity]].
    + intros x [<-|X]; [apply map_get_None; exact G|]. intros Y. apply (D _ X). right. exact Y.
    + destruct I as [I|[I|I]]; [left; right; exact I|left; left; exact I|right; exact I].
Qed.

Lemma build_map_Ok : NoDup (labels f) -> build_map (FunctionDefinition_blocks f) None [] = Ok (match FunctionDefinition_blocks f with [] => None | b :: _ => Some (label_of b) end, block_map f).
Proof.
  intros N. destruct (build_map (FunctionDefinition_blocks f) None []) as [[s m]|e| |] eqn:B.
  - apply build_map_spec in B as [M S]. cbn [fst snd] in *. rewrite app_nil_r in M. subst s m. reflexivity.
  - apply build_map_Err in B as (pre & b & post & Q & _ & _ & [I|[]] & _). unfold labels in N. rewrite Q, map_app in N. cbn [map] in N.
    apply NoDup_remove_2 in N. exfalso. apply N. apply in_app_iff. auto.
  - exfalso. exact (build_map_plain _ (or_introl B)).
  - exfalso. exact (build_map_plain _ (or_intror B)).
Qed.

Lemma find_eq : NoDup (labels f) -> forall depth, find_control_flow depth f =
  match FunctionDefinition_blocks f with
  | [] => Err NoBlocks
  | b :: _ => let! (chain, next) := search_block depth (label_of b) [] (block_map f) in match next with Cont_Return => Ok chain | _ => Err Failed end
  end.
Proof. intros N depth. unfold find_control_flow. rewrite (build_map_Ok N). destruct (FunctionDefinition_blocks f); reflexivity. Qed.

Lemma labels_dec : NoDup (labels f) \/ ~ NoDup (labels f).
Proof. destruct (ListDec.NoDup_dec N.eq_dec (labels f)); auto. Qed.

(** ** Errors of the search *)
Definition names (id x : BlockId) : Prop := x = id \/ exists y b, has_block f y b /\ (In x (branch_targets b) \/ In x (merge_targets b)).

Definition error_ok (id : BlockId) (e : ControlFlowError) : Prop :=
  match e with
  | UnknownBlockId x => map_get x (block_map f) = None /\ names id x
  | CouldNotPredictConverge x => exists t e w, conditional f x t e w None
  | InvalidConvergePrediction ControlType_Selection x => exists t e w op, conditional f x t e w (Some (GroupMerge_OpSelectionMerge op))
  | InvalidConvergePrediction ControlType_Loop x =>
      (exists b op m c, has_block f x b /\ BasicBlock_branch b = GroupBranch_OpBranch op /\ loop_header f x m c)
      \/ (exists t e w h m c, conditional f x t e w None /\ loop_header f h m c /\ (e = h \/ e = m))
  | DuplicateBlockId _ | NoBlocks | Failed => False
  end.

Lemma error_ok_names : forall id id' e, names id' id -> error_ok id e -> error_ok id' e.
Proof.
  intros id id' e N H. destruct e as [| |x| | |]; try exact H. destruct H as [H1 H2]. split; [exact H1|]. destruct H2 as [->|H2]; [exact N|right; exact H2].
Qed.

Lemma bind_Err : forall {X A B} (x : outcome X A) (k : A -> outcome X B) e, bind x k = Err e -> x = Err e \/ exists a, x = Ok a /\ k a = Err e.
Proof. intros X A B [a|e'| |] k e H; try discriminate H; [right; eauto|left; injection H as <-; reflexivity]. Qed.

Lemma search_Err : forall fuel id fl e, real_loops fl -> search_block fuel id fl (block_map f) = Err e -> error_ok id e.
Proof.
  induction fuel as [|fuel IH]; intros id fl e RL; cbn [search_block]; [discriminate|].
  destruct (merges fl id) eqn:M; [discriminate|].
  destruct (map_get id (block_map f)) as [b|] eqn:G; [|intros [= <-]; split; [exact G|left; reflexivity]].
  apply block_map_represents in G.
  assert (T : forall x, In x (branch_targets b) \/ In x (merge_targets b) -> names id x) by (intros x X; right; eauto).
  unfold branch_targets, merge_targets in T.
  destruct (BasicBlock_branch b) as [op|op|op] eqn:B; [| |discriminate].
  - destruct (BasicBlock_merge b) as [[lm|sm]|] eqn:Mg; [|discriminate|].
    + assert (LH : loop_header f id (OpLoopMerge_merge_block lm) (OpLoopMerge_loop_control lm)) by (exists b, lm; auto).
      intros H. apply bind_Err in H as [H|([inner inext] & Hi & H)].
      * eapply error_ok_names; [|eapply IH; [|exact H]]; [apply T; left; left; reflexivity|]. intros h m. cbn [innermost_loop]. intros [= <- <-]. eauto.
      * destruct (cont_eqb inext (Cont_Next id)); [|injection H as <-; left; exists b, op; eauto].
        apply bind_Err in H as [H|([after anext] & Ha & H)]; [|discriminate].
        eapply error_ok_names; [|eapply IH; [|exact H]]; [apply T; right; left; reflexivity|exact RL].
    + intros H. apply bind_Err in H as [H|([next nnext] & Hn & H)]; [|discriminate]. eapply error_ok_names; [|eapply IH; [|exact H]]; [apply T; left; left; reflexivity|exact RL].
  - destruct (BasicBlock_merge b) as [[lm|sm]|] eqn:Mg; [discriminate| |].
    + intros H. apply bind_Err in H as [H|([tc tn] & Ht & H)]; [eapply error_ok_names; [|eapply IH; [|exact H]]; [apply T; left; left; reflexivity|exact RL]|].
      apply bind_Err in H as [H|([fc fn] & Hf & H)]; [eapply error_ok_names; [|eapply IH; [|exact H]]; [apply T; left; right; left; reflexivity|exact RL]|].
      destruct (cont_eqb tn fn && cont_eqb tn (Cont_Next (OpSelectionMerge_merge_block sm))).
      * apply bind_Err in H as [H|([after anext] & Ha & H)]; [|discriminate]. eapply error_ok_names; [|eapply IH; [|exact H]]; [apply T; right; left; reflexivity|exact RL].
      * injection H as <-. eexists _, _, _, sm. exists b, op. auto 8.
    + assert (C : conditional f id (OpBranchConditional_true_label op) (OpBranchConditional_false_label op) (OpBranchConditional_weights op) None) by (exists b, op; auto 8).
      destruct (innermost_loop fl) as [[head merge]|] eqn:L; [|intros [= <-]; cbn [error_ok]; eauto].
      destruct (N.eqb (OpBranchConditional_false_label op) merge || N.eqb (OpBranchConditional_false_label op) head) eqn:D; [|intros [= <-]; cbn [error_ok]; eauto].
      intros H. apply bind_Err in H as [H|([inner inext] & Hi & H)]; [eapply error_ok_names; [|eapply IH; [|exact H]]; [apply T; left; left; reflexivity|exact RL]|].
      destruct (cont_eqb inext (Cont_Next head)); [discriminate|]. injection H as <-. right. destruct (RL _ _ L) as [c LH].
      eexists _, _, _, head, merge, c. split; [exact C|]. split; [exact LH|]. apply orb_true_iff in D. rewrite !N.eqb_eq in D. tauto.
Qed.

Lemma innermost_merges : forall fl h m, innermost_loop fl = Some (h, m) -> merges fl h = true.
Proof.
  induction fl as [|[j k|hd mg k] fl IH]; intros h m; cbn [innermost_loop merges]; [discriminate| |].
  - intros H. rewrite (IH _ _ H). destruct (N.eqb j h); reflexivity.
  - intros [= -> ->]. rewrite N.eqb_refl. reflexivity.
Qed.
Lemma Search_next : forall fl id c n, Search f fl id c n -> forall j, n = Cont_Next j -> merges fl j = true.
Proof.
  intros fl id c n H. induction H; intros j Q; try discriminate Q; auto; try (injection Q as <-; assumption).
Qed.

Lemma find_Err : forall depth e, find_control_flow depth f = Err e ->
  match e with
  | DuplicateBlockId id => exists pre b post, FunctionDefinition_blocks f = pre ++ b :: post /\ NoDup (map label_of pre) /\ In (label_of b) (map label_of pre) /\ label_of b = id
  | NoBlocks => FunctionDefinition_blocks f = []
  | Failed => False
  | e => NoDup (labels f) /\ exists b rest, FunctionDefinition_blocks f = b :: rest /\ error_ok (label_of b) e
  end.
Proof.
  intros depth e H. destruct labels_dec as [N|N].
  - rewrite (find_eq N) in H. destruct (FunctionDefinition_blocks f) as [|b rest] eqn:FB; [injection H as <-; reflexivity|].
    apply bind_Err in H as [H|([c n] & Hs & H)].
    + assert (RL : real_loops []) by (intros h m Q; discriminate Q). pose proof (search_Err _ _ _ _ RL H) as X.
      destruct e; try (destruct X; fail); split; eauto.
    + destruct n as [j|]; [|discriminate H]. apply search_Ok with (f := f) in Hs; [|apply block_map_represents].
      pose proof (Search_next _ _ _ _ Hs j eq_refl) as Q. discriminate Q.
  - unfold find_control_flow in H. apply bind_Err in H as [H|([s m] & Hb & H)].
    + apply build_map_Err in H as (pre & b & post & Q & ND & _ & [I|[]] & ->). exists pre, b, post. auto.
    + pose proof (proj1 (build_map_dup (FunctionDefinition_blocks f) None []) _ Hb (NoDup_nil _)) as N'. apply build_map_spec in Hb as [M _]. cbn [snd] in *. rewrite app_nil_r in M.
      destruct N. apply NoDup_labels. rewrite M in N'. exact N'.
Qed.

Theorem duplicate_iff : forall depth id, find_control_flow depth f = Err (DuplicateBlockId id) <->
  exists pre b post, FunctionDefinition_blocks f = pre ++ b :: post /\ NoDup (map label_of pre) /\ In (label_of b) (map label_of pre) /\ label_of b = id.
Proof.
  intros depth id. split; [apply find_Err|]. intros (pre & b & post & Q & ND & I & <-). unfold find_control_flow. rewrite Q.
  rewrite build_map_Dup; [reflexivity|exact ND|intros x _ []|left; exact I].
Qed.
Theorem no_blocks_iff : forall depth, find_control_flow depth f = Err NoBlocks <-> FunctionDefinition_blocks f = [].
Proof.
  intros depth. split; [apply find_Err|]. intros Q. unfold find_control_flow. rewrite Q. reflexivity.
Qed.

Theorem error_payloads : forall depth e, find_control_flow depth f = Err e ->
  match e with
  | UnknownBlockId x => (forall b, ~ has_block f x b) /\ exists y b, has_block f y b /\ (In x (branch_targets b) \/ In x (merge_targets b))
  | CouldNotPredictConverge x => exists t e w, conditional f x t e w None
  | InvalidConvergePrediction ControlType_Selection x => exists t e w op, conditional f x t e w (Some (GroupMerge_OpSelectionMerge op))
  | InvalidConvergePrediction ControlType_Loop x =>
      (exists b op m c, has_block f x b /\ BasicBlock_branch b = GroupBranch_OpBranch op /\ loop_header f x m c)
      \/ (exists t e w h m c, conditional f x t e w None /\ loop_header f h m c /\ (e = h \/ e = m))
  | DuplicateBlockId _ | NoBlocks => True
  | Failed => False
  end.
Proof.
  intros depth e H. apply find_Err in H. destruct e as [| |x|x|[] x|]; try exact I; try exact H; destruct H as (ND & b0 & rest & Q & H); try exact H.
  destruct H as [G NM]. split.
  - intros b HB. apply (find_map_iff f ND) in HB. congruence.
  - destruct NM as [->|NM]; [|exact NM]. exfalso.
    assert (HB : has_block f (label_of b0) b0) by (split; [rewrite Q; left; reflexivity|reflexivity]). apply (find_map_iff f ND) in HB. congruence.
Qed.

(** ** C45 *)
Lemma bind_Panic : forall {X A B} (x : outcome X A) (k : A -> outcome X B), bind x k = Panic -> x = Panic \/ exists a, x = Ok a /\ k a = Panic.
Proof. intros X A B [a|e'| |] k H; try discriminate H; [right; eauto|left; reflexivity]. Qed.

Lemma search_Panic : forall fuel id fl, search_block fuel id fl (block_map f) = Panic -> exists b, In b (FunctionDefinition_blocks f) /\ unimplemented b.
Proof.
  induction fuel as [|fuel IH]; intros id fl; cbn [search_block]; [discriminate|].
  destruct (merges fl id) eqn:M; [discriminate|].
  destruct (map_get id (block_map f)) as [b|] eqn:G; [|discriminate]. apply block_map_represents in G.
  destruct (BasicBlock_branch b) as [op|op|op] eqn:B; [| |discriminate].
  - destruct (BasicBlock_merge b) as [[lm|sm]|] eqn:Mg.
    + intros H. apply bind_Panic in H as [H|([inner inext] & Hi & H)]; [eauto|]. destruct (cont_eqb inext (Cont_Next id)); [|discriminate].
      apply bind_Panic in H as [H|([after anext] & Ha & H)]; [eauto|discriminate].
    + intros _. exists b. split; [apply G|]. left. eauto.
    + intros H. apply bind_Panic in H as [H|([inner inext] & Hi & H)]; [eauto|discriminate].
  - destruct (BasicBlock_merge b) as [[lm|sm]|] eqn:Mg.
    + intros _. exists b. split; [apply G|]. right. eauto.
    + intros H. apply bind_Panic in H as [H|([tc tn] & Ht & H)]; [eauto|]. apply bind_Panic in H as [H|([fc fn] & Hf & H)]; [eauto|].
      destruct (cont_eqb tn fn && cont_eqb tn (Cont_Next (OpSelectionMerge_merge_block sm))); [|discriminate].
      apply bind_Panic in H as [H|([after anext] & Ha & H)]; [eauto|discriminate].
    + destruct (innermost_loop fl) as [[head merge]|]; [|discriminate].
      destruct (N.eqb (OpBranchConditional_false_label op) merge || N.eqb (OpBranchConditional_false_label op) head); [|discriminate].
      intros H. apply bind_Panic in H as [H|([inner inext] & Hi & H)]; [eauto|]. destruct (cont_eqb inext (Cont_Next head)); discriminate.
Qed.

Theorem panics : forall depth, find_control_flow depth f = Panic -> exists b, In b (FunctionDefinition_blocks f) /\ unimplemented b.
Proof.
  intros depth H. unfold find_control_flow in H. apply bind_Panic in H as [H|([s m] & Hb & H)].
  - exfalso. exact (build_map_plain _ (or_introl H)).
  - apply build_map_spec in Hb as [M _]. cbn [snd] in M. rewrite app_nil_r in M. change (m = block_map f) in M. subst m.
    destruct s as [s|]; [|discriminate]. apply bind_Panic in H as [H|([c n] & Hs & H)]; [eapply search_Panic; exact H|]. destruct n; discriminate.
Qed.

(** A panic at the entry block is not avoidable. *)
Theorem entry_panics : forall b rest depth, FunctionDefinition_blocks f = b :: rest -> NoDup (labels f) -> unimplemented b -> find_control_flow (S depth) f = Panic.
Proof.
  intros b rest depth Q N U. rewrite (find_eq N), Q. cbn [search_block merges].
  assert (HB : has_block f (label_of b) b) by (split; [rewrite Q; left; reflexivity|reflexivity]). apply (find_map_iff f N) in HB. rewrite HB.
  destruct U as [(op & sm & -> & ->)|(op & lm & -> & ->)]; reflexivity.
Qed.

(** ** C51 *)
Lemma find_block_Ok : forall blocks id found, NoDup (map (@label_of E) blocks) -> (found <> None -> ~ In id (map (@label_of E) blocks)) ->
  find_block blocks id found = Ok (match found with Some b => Some b | None => find (fun b => N.eqb (label_of b) id) blocks end).
Proof.
  induction blocks as [|b blocks IH]; intros id found N F; cbn [find_block find].
  - destruct found; reflexivity.
  - cbn [map] in N, F. inversion N; subst. change (OpLabel_result_id (BasicBlock_label b)) with (label_of b). destruct (N.eqb (label_of b) id) eqn:Q.
    + apply N.eqb_eq in Q. destruct found as [b'|].
      * exfalso. apply F; [discriminate|]. left. exact Q.
      * rewrite IH; [reflexivity|assumption|]. intros _. subst id. assumption.
    + apply N.eqb_neq in Q. rewrite IH; [reflexivity|assumption|]. intros X Y. apply F; [exact X|]. right. exact Y.
Qed.

Theorem printer_total : forall disp_ext depth c, find_control_flow depth f = Ok c -> exists s, disp_ControlFlowFunctionPrinter disp_ext f c = Ok s.
Proof.
  intros disp_ext depth c H.
  assert (N : NoDup (labels f)) by (apply find_inv in H; tauto).
  assert (B : forall indent x, (exists b, has_block f x b) -> exists s, fmt_block_indent disp_ext f indent x = Ok s).
  { intros indent x (b & Hin & L). unfold fmt_block_indent. rewrite find_block_Ok; [|exact N|congruence]. cbn [bind].
    destruct (find (fun b => N.eqb (label_of b) x) (FunctionDefinition_blocks f)) as [b'|] eqn:F; [eexists; reflexivity|].
    pose proof (find_none _ _ F _ Hin) as Q. cbv beta in Q. rewrite L, N.eqb_refl in Q. discriminate Q. }
  assert (K : forall c, (forall x, In x (chain_ids c) -> exists b, has_block f x b) -> forall indent, exists s, printer_fmt_indent disp_ext f c indent = Ok s).
  { clear c H. induction c using chain_ind'; intros I indent; cbn [printer_fmt_indent chain_ids] in *.
    - apply B. apply I. left. reflexivity.
    - induction H as [|c l Hc Hl IHl]; [eexists; reflexivity|]. cbn [flat_map] in I.
      destruct (Hc (fun x X => I x (proj2 (in_app_iff _ _ _) (or_introl X))) indent) as [s1 ->].
      destruct (IHl (fun x X => I x (proj2 (in_app_iff _ _ _) (or_intror X)))) as [s2 ->]. cbn [bind]. eexists. reflexivity.
    - destruct (B indent id (I _ (or_introl eq_refl))) as [s1 ->].
      destruct (IHc1 (fun x X => I x (or_intror (proj2 (in_app_iff _ _ _) (or_introl X)))) (S indent)) as [s2 ->].
      destruct (IHc2 (fun x X => I x (or_intror (proj2 (in_app_iff _ _ _) (or_intror X)))) (S indent)) as [s3 ->].
      cbn [bind]. destruct (is_empty_block c2); eexists; reflexivity.
    - destruct (B indent id (I _ (or_introl eq_refl))) as [s1 ->]. destruct (IHc (fun x X => I x (or_intror X)) (S indent)) as [s2 ->]. eexists. reflexivity.
    - eexists. reflexivity.
    - eexists. reflexivity. }
  apply K. intros x X. eapply chain_ids_exist; eauto.
Qed.

End Facts.

(** ** C48, C49 *)
Section Two.
Context {E1 E2 : Type}.

Lemma search_ext : forall (m1 : BlockMap (E := E1)) (m2 : BlockMap (E := E2)),
  (forall id, option_map skeleton (map_get id m1) = option_map skeleton (map_get id m2)) ->
  forall fuel id fl, search_block fuel id fl m1 = search_block fuel id fl m2.
Proof.
  intros m1 m2 H. induction fuel as [|fuel IH]; intros id fl; [reflexivity|]. cbn [search_block].
  destruct (merges fl id); [reflexivity|]. specialize (H id).
  destruct (map_get id m1) as [b1|], (map_get id m2) as [b2|]; cbn [option_map] in H; try discriminate H; [|reflexivity].
  injection H as _ HM HB. rewrite HM, HB.
  destruct (BasicBlock_branch b2) as [op|op|op]; [| |reflexivity].
  - destruct (BasicBlock_merge b2) as [[lm|sm]|]; [|reflexivity|]; rewrite !IH; try reflexivity.
  - destruct (BasicBlock_merge b2) as [[lm|sm]|]; [reflexivity|rewrite !IH; reflexivity|].
    + destruct (innermost_loop fl) as [[head merge]|]; [|reflexivity]. destruct (_ || _); [|reflexivity]. rewrite IH. reflexivity.
Qed.

Lemma skeletons_eq : forall (b1 : BasicBlock E1) (b2 : BasicBlock E2), skeleton b1 = skeleton b2 -> label_of b1 = label_of b2.
Proof. intros b1 b2 H. injection H. auto. Qed.

Theorem same_skeleton : forall (f1 : FunctionDefinition E1) (f2 : FunctionDefinition E2),
  map skeleton (FunctionDefinition_blocks f1) = map skeleton (FunctionDefinition_blocks f2) ->
  forall depth, find_control_flow depth f1 = find_control_flow depth f2.
Proof.
  intros f1 f2 H depth.
  assert (L : labels f1 = labels f2).
  { unfold labels. apply (f_equal (map (fun s => fst (fst s)))) in H. rewrite !map_map in H. exact H. }
  destruct (labels_dec f1) as [N|N].
  - pose proof N as N2. rewrite L in N2. rewrite (find_eq f1 N), (find_eq f2 N2).
    destruct (FunctionDefinition_blocks f1) as [|b1 r1] eqn:F1, (FunctionDefinition_blocks f2) as [|b2 r2] eqn:F2; try discriminate H; [reflexivity|].
    injection H as HL HM HB HR. rewrite HL. rewrite (search_ext (block_map f1) (block_map f2)); [reflexivity|].
    assert (HA : map skeleton (FunctionDefinition_blocks f1) = map skeleton (FunctionDefinition_blocks f2)).
    { rewrite F1, F2. cbn [map]. unfold skeleton at 1 3. rewrite HL, HM, HB, HR. reflexivity. }
    clear - HA. intros id. unfold block_map. apply (f_equal (@rev _)) in HA. rewrite <- !map_rev in HA. rewrite <- !map_rev.
    revert HA. generalize (rev (FunctionDefinition_blocks f2)). induction (rev (FunctionDefinition_blocks f1)) as [|b l IH]; intros [|b' l'] HA; try discriminate HA; [reflexivity|].
    cbn [map] in HA |- *. assert (HS : skeleton b = skeleton b') by (injection HA; intros; unfold skeleton; congruence). assert (HT : map skeleton l = map skeleton l') by (injection HA; auto).
    cbn [map_get]. rewrite (skeletons_eq _ _ HS). destruct (N.eqb id (label_of b')); [cbn [option_map]; rewrite HS; reflexivity|]. apply IH. exact HT.
  - assert (N2 : ~ NoDup (labels f2)) by (rewrite <- L; exact N).
    assert (X : forall E (f : FunctionDefinition E), ~ NoDup (labels f) -> exists id, find_control_flow depth f = Err (DuplicateBlockId id)).
    { intros E f NN. unfold find_control_flow. destruct (build_map (FunctionDefinition_blocks f) None []) as [[s m]|e| |] eqn:B.
      - pose proof (proj1 (build_map_dup (FunctionDefinition_blocks f) None []) _ B (NoDup_nil _)) as N'. apply build_map_spec in B as [M _]. cbn [snd] in *. rewrite app_nil_r in M.
        destruct NN. apply NoDup_labels. rewrite M in N'. exact N'.
      - apply build_map_Err in B as (pre & b & post & Q & ND & _ & _ & ->). eexists. reflexivity.
      - exfalso. exact (build_map_plain _ (or_introl B)).
      - exfalso. exact (build_map_plain _ (or_intror B)). }
    destruct (X _ f1 N) as [id1 E1q]. rewrite E1q. symmetry. apply duplicate_iff. apply duplicate_iff in E1q as (pre & b & post & Q & ND & I & LB).
    rewrite Q in H. rewrite map_app in H. cbn [map] in H. symmetry in H. apply map_eq_app in H as (pre2 & l2 & Q2 & HP & HL2). apply map_eq_cons in HL2 as (b2 & post2 & -> & HS & HP2).
    assert (LP : map label_of pre2 = map label_of pre).
    { apply (f_equal (map (fun s => fst (fst s)))) in HP. rewrite !map_map in HP. exact HP. }
    assert (LB2 : label_of b2 = label_of b) by (injection HS; auto).
    exists pre2, b2, post2. rewrite LP, LB2. auto.
Qed.
End Two.

Section Order.
Context {E : Type}.

Lemma map_get_perm : forall {A} (l l' : list (N * A)), Permutation l l' -> NoDup (map fst l) -> forall k, map_get k l = map_get k l'.
Proof.
  intros A l l' P N k. destruct (map_get k l) as [v|] eqn:G.
  - symmetry. apply map_get_NoDup.
    + eapply Permutation_NoDup; [|exact N]. apply Permutation_map. exact P.
    + eapply Permutation_in; [exact P|]. apply map_get_In. exact G.
  - symmetry. apply map_get_None. apply map_get_None in G. intros X. apply G. eapply Permutation_in; [|exact X]. apply Permutation_map. apply Permutation_sym. exact P.
Qed.

Theorem block_order : forall (f1 f2 : FunctionDefinition E) b r1 r2, FunctionDefinition_blocks f1 = b :: r1 -> FunctionDefinition_blocks f2 = b :: r2 ->
  Permutation r1 r2 -> NoDup (labels f1) -> forall depth, find_control_flow depth f1 = find_control_flow depth f2.
Proof.
  intros f1 f2 b r1 r2 Q1 Q2 P N depth.
  assert (PB : Permutation (FunctionDefinition_blocks f1) (FunctionDefinition_blocks f2)) by (rewrite Q1, Q2; constructor; exact P).
  assert (N2 : NoDup (labels f2)) by (eapply Permutation_NoDup; [|exact N]; apply Permutation_map; exact PB).
  rewrite (find_eq f1 N), (find_eq f2 N2), Q1, Q2. rewrite (search_ext (block_map f1) (block_map f2)); [reflexivity|].
  intros id. f_equal. apply map_get_perm; [|apply NoDup_keys; exact N].
  unfold block_map. rewrite <- !Permutation_rev. apply Permutation_map. exact PB.
Qed.
End Order.
