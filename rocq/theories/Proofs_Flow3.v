(** Structured control flow: termination and size (C46, C47, C50). *)
From Verif Require Import Base Types Ops Groups ExtSet ControlFlow Spec_Flow Proofs_Flow Proofs_Flow2.

Section Depth.
Context {E : Type}.
Variable m : BlockMap (E := E).

Lemma bind_not_oof : forall {X A B} (x : outcome X A) (k : A -> outcome X B), bind x k <> OutOfFuel -> x <> OutOfFuel.
Proof. intros X A B [a|e| |] k H; try discriminate. destruct H; reflexivity. Qed.

Lemma search_mono1 : forall fuel id fl, search_block fuel id fl m <> OutOfFuel -> search_block (S fuel) id fl m = search_block fuel id fl m.
Proof.
  induction fuel as [|fuel IH]; intros id fl H; [destruct H; reflexivity|].
  remember (S fuel) as fuel1. rewrite Heqfuel1 in H |- * at 2. cbn [search_block] in H |- *.
  destruct (merges fl id); [reflexivity|]. destruct (map_get id m) as [b|]; [|reflexivity].
  destruct (BasicBlock_branch b) as [op|op|op]; [| |reflexivity].
  - destruct (BasicBlock_merge b) as [[lm|sm]|]; [|reflexivity|]; subst fuel1.
    + rewrite IH by (eapply bind_not_oof; exact H). destruct (search_block fuel _ (_ :: _) m) as [[c n]| | |]; cbn [bind] in H |- *; try reflexivity.
      destruct (cont_eqb n (Cont_Next id)); [|reflexivity]. rewrite IH by (eapply bind_not_oof; exact H). reflexivity.
    + rewrite IH by (eapply bind_not_oof; exact H). reflexivity.
  - destruct (BasicBlock_merge b) as [[lm|sm]|]; [reflexivity| |]; subst fuel1.
    + rewrite IH by (eapply bind_not_oof; exact H). destruct (search_block fuel (OpBranchConditional_true_label op) (_ :: _) m) as [[c n]| | |]; cbn [bind] in H |- *; try reflexivity.
      rewrite IH by (eapply bind_not_oof; exact H). destruct (search_block fuel (OpBranchConditional_false_label op) (_ :: _) m) as [[c' n']| | |]; cbn [bind] in H |- *; try reflexivity.
      destruct (cont_eqb n n' && _); [|reflexivity]. rewrite IH by (eapply bind_not_oof; exact H). reflexivity.
    + destruct (innermost_loop fl) as [[head merge]|]; [|reflexivity]. destruct (_ || _); [|reflexivity]. rewrite IH by (eapply bind_not_oof; exact H). reflexivity.
Qed.

Lemma search_mono : forall more fuel id fl, search_block fuel id fl m <> OutOfFuel -> search_block (more + fuel) id fl m = search_block fuel id fl m.
Proof.
  induction more as [|more IH]; intros fuel id fl H; [reflexivity|]. cbn [Nat.add]. rewrite search_mono1; [auto|]. rewrite IH by exact H. exact H.
Qed.
Lemma search_agree : forall fuel1 fuel2 id fl, search_block fuel1 id fl m <> OutOfFuel -> search_block fuel2 id fl m <> OutOfFuel ->
  search_block fuel1 id fl m = search_block fuel2 id fl m.
Proof.
  intros fuel1 fuel2 id fl H1 H2. rewrite <- (search_mono fuel2 fuel1 _ _ H1), <- (search_mono fuel1 fuel2 _ _ H2). f_equal. lia.
Qed.

(** ** Calls *)
Definition key : Type := BlockId * FlowList.
Definition run (fuel : nat) (k : key) := search_block fuel (fst k) (snd k) m.

(** If the call for [k] returns, so does the one for [k']. *)
Definition needs (k k' : key) : Prop := forall fuel, run (S fuel) k <> OutOfFuel -> run fuel k' <> OutOfFuel.

(** [k'] has the flow list of [k], or one construct more, which block [fst k] opens. *)
Inductive opens (id : BlockId) (b : BasicBlock E) : Converge -> Prop :=
| opens_if : forall sm h, BasicBlock_merge b = Some (GroupMerge_OpSelectionMerge sm) -> opens id b (Converge_If (OpSelectionMerge_merge_block sm) h)
| opens_loop : forall lm mg h, BasicBlock_merge b = Some (GroupMerge_OpLoopMerge lm) -> opens id b (Converge_Loop id mg h).
Definition grows (k k' : key) : Prop :=
  merges (snd k) (fst k) = false /\ exists b, map_get (fst k) m = Some b /\ (snd k' = snd k \/ exists c, opens (fst k) b c /\ snd k' = c :: snd k).

Lemma run_oof : forall fuel k, run (S fuel) k = OutOfFuel -> exists k', needs k k' /\ grows k k' /\ run fuel k' = OutOfFuel.
Proof.
  intros fuel [id fl] H. unfold run in H. cbn [fst snd search_block] in H.
  destruct (merges fl id) eqn:M; [discriminate|]. destruct (map_get id m) as [b|] eqn:G; [|discriminate].
  assert (GR : forall id' fl', (fl' = fl \/ exists c, opens id b c /\ fl' = c :: fl) -> grows (id, fl) (id', fl')).
  { intros id' fl' X. split; [exact M|]. exists b. split; [exact G|exact X]. }
  assert (UN : forall fuel, run (S fuel) (id, fl) <> OutOfFuel -> search_block (S fuel) id fl m <> OutOfFuel) by auto.
  destruct (BasicBlock_branch b) as [op|op|op] eqn:B; [| |discriminate].
  - destruct (BasicBlock_merge b) as [[lm|sm]|] eqn:Mg; [|discriminate|].
    + destruct (search_block fuel (OpBranch_target_label op) (Converge_Loop id (OpLoopMerge_merge_block lm) (OpLoopMerge_loop_control lm) :: fl) m) as [[c n]| | |] eqn:S1; try discriminate H.
      * cbn [bind] in H. destruct (cont_eqb n (Cont_Next id)) eqn:C; [|discriminate].
        exists (OpLoopMerge_merge_block lm, fl). split; [|split; [apply GR; auto|]].
        -- intros fuel' X. apply UN in X. cbn [search_block] in X. rewrite M, G, B, Mg in X. pose proof (bind_not_oof _ _ X) as X1.
           rewrite (search_agree fuel' fuel _ _ X1) in X by (rewrite S1; discriminate). rewrite S1 in X. cbn [bind] in X. rewrite C in X. exact (bind_not_oof _ _ X).
        -- unfold run. cbn [fst snd]. destruct (search_block fuel (OpLoopMerge_merge_block lm) fl m) as [[c' n']| | |]; try discriminate H. reflexivity.
      * eexists (OpBranch_target_label op, _ :: fl). split; [|split; [apply GR; right; eexists; split; [eapply opens_loop; exact Mg|reflexivity]|exact S1]].
        intros fuel' X. apply UN in X. cbn [search_block] in X. rewrite M, G, B, Mg in X. exact (bind_not_oof _ _ X).
    + exists (OpBranch_target_label op, fl). split; [|split; [apply GR; auto|]].
      * intros fuel' X. apply UN in X. cbn [search_block] in X. rewrite M, G, B, Mg in X. exact (bind_not_oof _ _ X).
      * unfold run. cbn [fst snd]. destruct (search_block fuel (OpBranch_target_label op) fl m) as [[c' n']| | |]; try discriminate H. reflexivity.
  - destruct (BasicBlock_merge b) as [[lm|sm]|] eqn:Mg; [discriminate| |].
    + destruct (search_block fuel (OpBranchConditional_true_label op) (Converge_If (OpSelectionMerge_merge_block sm) (OpSelectionMerge_selection_control sm) :: fl) m) as [[c n]| | |] eqn:S1; try discriminate H.
      * destruct (search_block fuel (OpBranchConditional_false_label op) (Converge_If (OpSelectionMerge_merge_block sm) (OpSelectionMerge_selection_control sm) :: fl) m) as [[c2 n2]| | |] eqn:S2; try discriminate H.
        -- cbn [bind] in H. destruct (cont_eqb n n2 && cont_eqb n (Cont_Next (OpSelectionMerge_merge_block sm))) eqn:C; [|discriminate].
           exists (OpSelectionMerge_merge_block sm, fl). split; [|split; [apply GR; auto|]].
           ++ intros fuel' X. apply UN in X. cbn [search_block] in X. rewrite M, G, B, Mg in X. pose proof (bind_not_oof _ _ X) as X1.
              rewrite (search_agree fuel' fuel _ _ X1) in X by (rewrite S1; discriminate). rewrite S1 in X. cbn [bind] in X.
              pose proof (bind_not_oof _ _ X) as X2. rewrite (search_agree fuel' fuel _ _ X2) in X by (rewrite S2; discriminate). rewrite S2 in X. cbn [bind] in X.
              rewrite C in X. exact (bind_not_oof _ _ X).
           ++ unfold run. cbn [fst snd]. destruct (search_block fuel (OpSelectionMerge_merge_block sm) fl m) as [[c' n']| | |]; try discriminate H. reflexivity.
        -- eexists (OpBranchConditional_false_label op, _ :: fl). split; [|split; [apply GR; right; eexists; split; [eapply opens_if; exact Mg|reflexivity]|exact S2]].
           intros fuel' X. apply UN in X. cbn [search_block] in X. rewrite M, G, B, Mg in X. pose proof (bind_not_oof _ _ X) as X1.
           rewrite (search_agree fuel' fuel _ _ X1) in X by (rewrite S1; discriminate). rewrite S1 in X. cbn [bind] in X. exact (bind_not_oof _ _ X).
      * eexists (OpBranchConditional_true_label op, _ :: fl). split; [|split; [apply GR; right; eexists; split; [eapply opens_if; exact Mg|reflexivity]|exact S1]].
        intros fuel' X. apply UN in X. cbn [search_block] in X. rewrite M, G, B, Mg in X. exact (bind_not_oof _ _ X).
    + destruct (innermost_loop fl) as [[head merge]|] eqn:L; [|discriminate].
      destruct (N.eqb (OpBranchConditional_false_label op) merge || N.eqb (OpBranchConditional_false_label op) head) eqn:D; [|discriminate].
      exists (OpBranchConditional_true_label op, fl). split; [|split; [apply GR; auto|]].
      * intros fuel' X. apply UN in X. cbn [search_block] in X. rewrite M, G, B, Mg, L, D in X. exact (bind_not_oof _ _ X).
      * unfold run. cbn [fst snd]. destruct (search_block fuel (OpBranchConditional_true_label op) fl m) as [[c' n']| | |]; try discriminate H; [|reflexivity].
        cbn [bind] in H. destruct (cont_eqb n' (Cont_Next head)); discriminate H.
Qed.

(** ** Flow lists that stop the search at the same blocks *)
(** The second may also stop it at ids no block has; there the first makes it fail. *)
Definition alike (fl fl' : FlowList) : Prop :=
  (forall x, merges fl x = true -> merges fl' x = true) /\ (forall x, In x (map fst m) -> merges fl x = merges fl' x) /\ innermost_loop fl = innermost_loop fl'.

Lemma alike_refl : forall fl, alike fl fl.
Proof. intros fl. split; [auto|]. split; reflexivity. Qed.
Lemma alike_trans : forall a b c, alike a b -> alike b c -> alike a c.
Proof. intros a b c (A1 & A2 & A3) (B1 & B2 & B3). split; [auto|]. split; [intros x X; rewrite A2, B2 by exact X; reflexivity|congruence]. Qed.
Lemma alike_cons : forall c fl fl', alike fl fl' -> alike (c :: fl) (c :: fl').
Proof.
  intros c fl fl' (H1 & H2 & H3). split; [|split].
  - intros x X. destruct c; cbn [merges] in *; destruct (N.eqb _ x); auto.
  - intros x X. destruct c; cbn [merges]; rewrite H2 by exact X; reflexivity.
  - destruct c; cbn [innermost_loop]; [exact H3|reflexivity].
Qed.

Lemma search_alike : forall fuel id fl fl', alike fl fl' -> search_block fuel id fl m = search_block fuel id fl' m \/ exists e, search_block fuel id fl m = Err e.
Proof.
  induction fuel as [|fuel IH]; intros id fl fl' A; [left; reflexivity|]. cbn [search_block]. rewrite <- (proj2 (proj2 A)).
  destruct (map_get id m) as [b|] eqn:G.
  2: { destruct (merges fl id) eqn:M; [|right; eauto]. rewrite (proj1 A _ M). left. reflexivity. }
  rewrite <- (proj1 (proj2 A) id) by (apply map_get_In in G; apply in_map_iff; exists (id, b); auto).
  destruct (merges fl id); [left; reflexivity|].
  destruct (BasicBlock_branch b) as [op|op|op]; [| |left; reflexivity].
  - destruct (BasicBlock_merge b) as [[lm|sm]|]; [|left; reflexivity|].
    + destruct (IH (OpBranch_target_label op) _ _ (alike_cons (Converge_Loop id (OpLoopMerge_merge_block lm) (OpLoopMerge_loop_control lm)) _ _ A)) as [->|[e ->]]; [|right; cbn [bind]; eauto].
      destruct (search_block fuel _ (_ :: fl') m) as [[c n]| | |]; cbn [bind]; try (left; reflexivity). destruct (cont_eqb n (Cont_Next id)); [|left; reflexivity].
      destruct (IH (OpLoopMerge_merge_block lm) _ _ A) as [->|[e ->]]; [left; reflexivity|right; cbn [bind]; eauto].
    + destruct (IH (OpBranch_target_label op) _ _ A) as [->|[e ->]]; [left; reflexivity|right; cbn [bind]; eauto].
  - destruct (BasicBlock_merge b) as [[lm|sm]|]; [left; reflexivity| |].
    + destruct (IH (OpBranchConditional_true_label op) _ _ (alike_cons (Converge_If (OpSelectionMerge_merge_block sm) (OpSelectionMerge_selection_control sm)) _ _ A)) as [->|[e ->]]; [|right; cbn [bind]; eauto].
      destruct (search_block fuel (OpBranchConditional_true_label op) (_ :: fl') m) as [[c n]| | |]; cbn [bind]; try (left; reflexivity).
      destruct (IH (OpBranchConditional_false_label op) _ _ (alike_cons (Converge_If (OpSelectionMerge_merge_block sm) (OpSelectionMerge_selection_control sm)) _ _ A)) as [->|[e ->]]; [|right; cbn [bind]; eauto].
      destruct (search_block fuel (OpBranchConditional_false_label op) (_ :: fl') m) as [[c2 n2]| | |]; cbn [bind]; try (left; reflexivity).
      destruct (cont_eqb n n2 && _); [|left; reflexivity].
      destruct (IH (OpSelectionMerge_merge_block sm) _ _ A) as [->|[e ->]]; [left; reflexivity|right; cbn [bind]; eauto].
    + destruct (innermost_loop fl) as [[head merge]|]; [|left; reflexivity]. destruct (_ || _); [|left; reflexivity].
      destruct (IH (OpBranchConditional_true_label op) _ _ A) as [->|[e ->]]; [left; reflexivity|right; cbn [bind]; eauto].
Qed.
Lemma run_alike : forall fuel a k, fst a = fst k -> alike (snd a) (snd k) -> run fuel a = OutOfFuel -> run fuel k = OutOfFuel.
Proof. intros fuel [i fl] [j fl'] Q A H. unfold run in *. cbn [fst snd] in *. subst j. destruct (search_alike fuel i fl fl' A) as [X|[e X]]; congruence. Qed.

(** The blocks at which a flow list does not stop the search. *)
Definition open (fl : FlowList) : list BlockId := filter (fun x => negb (merges fl x)) (map fst m).

Lemma filter_le : forall {A} (p q : A -> bool) l, (forall x, p x = true -> q x = true) -> length (filter p l) <= length (filter q l).
Proof.
  intros A p q l H. induction l as [|x l IH]; [reflexivity|]. cbn [filter]. destruct (p x) eqn:P.
  - rewrite (H _ P). cbn [length]. lia.
  - destruct (q x); cbn [length]; lia.
Qed.
Lemma filter_true : forall {A} (l : list A), filter (fun _ => true) l = l.
Proof. intros A l. induction l as [|x l IH]; cbn [filter]; congruence. Qed.
Lemma filter_lt : forall {A} (p q : A -> bool) l y, (forall x, p x = true -> q x = true) -> In y l -> p y = false -> q y = true -> length (filter p l) < length (filter q l).
Proof.
  intros A p q l y H I P Q. induction l as [|x l IH]; [destruct I|]. cbn [filter]. destruct I as [->|I].
  - rewrite P, Q. cbn [length]. pose proof (filter_le p q l H). lia.
  - specialize (IH I). destruct (p x) eqn:Px; [rewrite (H _ Px); cbn [length]; lia|]. destruct (q x); cbn [length]; lia.
Qed.

Lemma open_le : forall fl, length (open fl) <= length m.
Proof. intros fl. pose proof (filter_le (fun x => negb (merges fl x)) (fun _ => true) (map fst m) (fun _ _ => eq_refl)) as L. rewrite filter_true, map_length in L. exact L. Qed.
Lemma open_alike : forall fl fl', alike fl fl' -> open fl = open fl'.
Proof. intros fl fl' (_ & A & _). apply filter_ext_in. intros x X. rewrite A by exact X. reflexivity. Qed.
Lemma open_in : forall k k', grows k k' -> In (fst k) (open (snd k)).
Proof. intros k k' (M & b & G & _). apply filter_In. rewrite M. split; [|reflexivity]. apply map_get_In in G. apply in_map_iff. exists (fst k, b). auto. Qed.

Lemma opens_stop : forall id b c, opens id b c -> exists x, (forall fl y, merges (c :: fl) y = (N.eqb x y || merges fl y))
  /\ (match c with Converge_Loop h _ _ => x = id | _ => True end).
Proof. intros id b c O. destruct O as [sm h Q|lm mg h Q]; [exists (OpSelectionMerge_merge_block sm)|exists id]; (split; [|auto]); intros fl y; cbn [merges]; destruct (N.eqb _ y); reflexivity. Qed.

Lemma grows_open : forall k k', grows k k' -> length (open (snd k')) < length (open (snd k)) \/ alike (snd k) (snd k').
Proof.
  intros [id fl] [id' fl'] (M & b & G & [Q|(c & O & Q)]); cbn [fst snd] in *; subst fl'; [right; apply alike_refl|].
  destruct (opens_stop _ _ _ O) as (x & MC & CL).
  assert (SUB : forall y, merges fl y = true -> merges (c :: fl) y = true) by (intros y Y; rewrite MC, Y; apply orb_true_r).
  assert (LT : In x (map fst m) -> merges fl x = false -> length (open (c :: fl)) < length (open fl)).
  { intros X Mx. apply filter_lt with (y := x); [|exact X|rewrite MC, N.eqb_refl; reflexivity|rewrite Mx; reflexivity].
    intros y Y. destruct (merges fl y) eqn:My; [|reflexivity]. rewrite (SUB _ My) in Y. discriminate. }
  assert (AL : (In x (map fst m) -> merges fl x = true) -> (match c with Converge_Loop h _ _ => False | _ => True end) -> alike fl (c :: fl)).
  { intros X L. split; [exact SUB|]. split.
    - intros y Y. rewrite MC. destruct (N.eqb x y) eqn:Q; [|reflexivity]. apply N.eqb_eq in Q. subst y. rewrite (X Y). reflexivity.
    - destruct c; [reflexivity|destruct L]. }
  destruct c as [j h|h mg ct].
  - destruct (in_dec N.eq_dec x (map fst m)) as [I|I]; [|right; apply AL; [intros X; contradiction|exact Logic.I]].
    destruct (merges fl x) eqn:Mx; [right; apply AL; auto|left; auto].
  - left. subst x. apply LT; [|exact M]. apply map_get_In in G. apply in_map_iff. exists (id, b). auto.
Qed.

(** ** Divergence *)
(** [anc] are calls above [k] with flow lists that stop it at the same blocks: each needs [k] some steps later and the root needs each. *)
Definition above (root : key) (anc : list key) (k : key) : Prop :=
  forall a, In a anc ->
    (exists d, forall fuel, run (d + fuel) root <> OutOfFuel -> run fuel a <> OutOfFuel)
    /\ (exists d, 0 < d /\ forall fuel, run (d + fuel) a <> OutOfFuel -> run fuel k <> OutOfFuel)
    /\ alike (snd a) (snd k).

Lemma run_mono : forall more fuel k, run fuel k <> OutOfFuel -> run (more + fuel) k <> OutOfFuel.
Proof. intros more fuel k H. unfold run in *. rewrite search_mono by exact H. exact H. Qed.

(** A call that needs one which takes as long never returns. *)
Lemma circular : forall a k d, 0 < d -> (forall fuel, run (d + fuel) a <> OutOfFuel -> run fuel k <> OutOfFuel) ->
  (forall fuel, run fuel a = OutOfFuel -> run fuel k = OutOfFuel) -> forall fuel, run fuel a = OutOfFuel.
Proof.
  intros a k d D N Q. induction fuel as [fuel IH] using lt_wf_ind.
  destruct (le_lt_dec d fuel) as [L|L].
  - assert (X : run (fuel - d) k = OutOfFuel) by (apply Q, IH; lia). destruct (run fuel a) eqn:R; try reflexivity; exfalso;
      (assert (Y : run (fuel - d) k <> OutOfFuel) by (apply N; replace (d + (fuel - d)) with fuel by lia; rewrite R; discriminate)); contradiction.
  - destruct (run fuel a) eqn:R; try reflexivity; exfalso.
    all: assert (Y : run 0 k <> OutOfFuel) by (apply N; replace (d + 0) with ((d - fuel) + fuel) by lia; apply run_mono; rewrite R; discriminate).
    all: apply Y; reflexivity.
Qed.

Fixpoint sum_to (n : nat) : nat := match n with 0 => 0 | S n' => n + sum_to n' end.
Lemma sum_to_le : forall a b, a <= b -> sum_to a <= sum_to b.
Proof. intros a b L. induction L as [|b L IH]; [lia|]. cbn [sum_to]. lia. Qed.

Lemma depth_bound_aux : forall root fuel anc k, above root anc k -> (exists d, forall fuel, run (d + fuel) root <> OutOfFuel -> run fuel k <> OutOfFuel) ->
  NoDup (map fst anc) -> incl (map fst anc) (open (snd k)) -> sum_to (length (open (snd k))) < fuel + length anc -> run fuel k = OutOfFuel ->
  forall g, run g root = OutOfFuel.
Proof.
  intros root. induction fuel as [|fuel IH]; intros anc k AB RT ND IN LEN OOF g.
  - pose proof (NoDup_incl_length ND IN) as L. rewrite map_length in L. change (length anc <= length (open (snd k))) in L. set (o := length (open (snd k))) in *. clearbody o. destruct o; cbn [sum_to] in LEN; lia.
  - destruct (run_oof _ _ OOF) as (k' & NE & GR & OOF').
    destruct (in_dec N.eq_dec (fst k) (map fst anc)) as [I|I].
    + apply in_map_iff in I as (a & CA & Ia). destruct (AB _ Ia) as ((d1 & R1) & (d & D & R2) & AL).
      pose proof (circular a k d D R2 (fun f' => run_alike f' a k CA AL)) as DV.
      destruct (run g root) eqn:R; try reflexivity; exfalso; (apply (R1 g); [apply run_mono; rewrite R; discriminate|apply DV]).
    + assert (RT' : exists d, forall fuel, run (d + fuel) root <> OutOfFuel -> run fuel k' <> OutOfFuel).
      { destruct RT as [dr RT]. exists (S dr). intros f' X. apply NE. apply RT. replace (dr + S f') with (S dr + f') by lia. exact X. }
      assert (ND' : NoDup (map fst (k :: anc))) by (constructor; assumption).
      assert (IN' : incl (map fst (k :: anc)) (open (snd k))) by (intros x [<-|X]; [exact (open_in _ _ GR)|apply IN; exact X]).
      destruct (grows_open _ _ GR) as [LT|AL].
      * apply (IH [] k'); try assumption; [intros a []|constructor|intros x []|].
        pose proof (NoDup_incl_length ND' IN') as L. rewrite map_length in L. change (S (length anc) <= length (open (snd k))) in L. cbn [length].
        set (o := length (open (snd k))) in *. clearbody o. destruct o as [|o]; [lia|]. cbn [sum_to] in LEN. pose proof (sum_to_le (length (open (snd k'))) o). lia.
      * apply (IH (k :: anc) k'); try assumption.
        -- intros a [<-|Ia].
           ++ destruct RT as [dr RT]. split; [exists dr; exact RT|]. split; [|exact AL]. exists 1. split; [lia|]. exact NE.
           ++ destruct (AB _ Ia) as (R1 & (d & D & R2) & AL'). split; [exact R1|]. split; [|exact (alike_trans _ _ _ AL' AL)].
              exists (S d). split; [lia|]. intros f' X. apply NE. apply R2. replace (d + S f') with (S d + f') by lia. exact X.
        -- rewrite <- (open_alike _ _ AL). exact IN'.
        -- rewrite <- (open_alike _ _ AL). cbn [length]. lia.
Qed.

Theorem depth_bound : forall id fl, search_block (S (sum_to (length m))) id fl m = OutOfFuel -> forall g, search_block g id fl m = OutOfFuel.
Proof.
  intros id fl H. apply (depth_bound_aux (id, fl) (S (sum_to (length m))) [] (id, fl)); try assumption.
  - intros a [].
  - exists 0. auto.
  - constructor.
  - intros x [].
  - cbn [snd length]. pose proof (sum_to_le _ _ (open_le fl)). lia.
Qed.
End Depth.

Section Functions.
Context {E : Type}.
Variable f : FunctionDefinition E.

Notation depth_limit := (Spec_Flow.depth_limit f).
Lemma sum_to_twice : forall n, 2 * sum_to n = n * (n + 1).
Proof. induction n as [|n IH]; [reflexivity|]. cbn [sum_to]. nia. Qed.
Lemma sum_to_half : forall n, n * (n + 1) / 2 = sum_to n.
Proof. intros n. rewrite <- sum_to_twice, Nat.mul_comm. apply Nat.div_mul. discriminate. Qed.
Lemma depth_limit_eq : depth_limit = S (sum_to (length (FunctionDefinition_blocks f))).
Proof. unfold Spec_Flow.depth_limit. rewrite sum_to_half. apply Nat.add_1_r. Qed.

Lemma find_search : forall depth, find_control_flow depth f = OutOfFuel <->
  exists b rest, FunctionDefinition_blocks f = b :: rest /\ NoDup (labels f) /\ search_block depth (label_of b) [] (block_map f) = OutOfFuel.
Proof.
  intros depth. destruct (labels_dec f) as [N|N].
  - rewrite (find_eq f N). destruct (FunctionDefinition_blocks f) as [|b rest] eqn:Q.
    + split; [discriminate|]. intros (b & rest & X & _). discriminate X.
    + split.
      * intros H. exists b, rest. split; [reflexivity|]. split; [exact N|]. destruct (search_block depth (label_of b) [] (block_map f)) as [[c [j|]]| | |]; try discriminate H. reflexivity.
      * intros (b' & rest' & X & _ & H). injection X as <- <-. rewrite H. reflexivity.
  - split; [|intros (b & rest & _ & X & _); contradiction]. intros H. exfalso. unfold find_control_flow in H.
    destruct (build_map (FunctionDefinition_blocks f) None []) as [[s m]|e| |] eqn:B; cbn [bind] in H; try discriminate H.
    + pose proof (proj1 (build_map_dup (FunctionDefinition_blocks f) None []) _ B (NoDup_nil _)) as N'. apply build_map_spec in B as [M _]. cbn [snd] in *. rewrite app_nil_r in M.
      destruct N. apply NoDup_labels. rewrite M in N'. exact N'.
    + exact (build_map_plain _ (or_intror B)).
Qed.

Lemma block_map_length : length (block_map f) = length (FunctionDefinition_blocks f).
Proof. unfold block_map. rewrite rev_length, map_length. reflexivity. Qed.

Theorem termination_bound : find_control_flow depth_limit f = OutOfFuel -> forall depth, find_control_flow depth f = OutOfFuel.
Proof.
  intros H depth. apply find_search in H as (b & rest & Q & N & H). apply find_search. exists b, rest. split; [exact Q|]. split; [exact N|].
  apply depth_bound. rewrite block_map_length, <- depth_limit_eq. exact H.
Qed.

Lemma find_mono : forall more depth, find_control_flow depth f <> OutOfFuel -> find_control_flow (more + depth) f = find_control_flow depth f.
Proof.
  intros more depth H. unfold find_control_flow in *. destruct (build_map (FunctionDefinition_blocks f) None []) as [[[s|] m]|e| |]; cbn [bind] in *; try reflexivity.
  rewrite search_mono; [reflexivity|]. eapply bind_not_oof. exact H.
Qed.

Theorem depth_irrelevant : forall d1 d2, find_control_flow d1 f <> OutOfFuel -> d1 <= d2 -> find_control_flow d2 f = find_control_flow d1 f.
Proof. intros d1 d2 H L. replace d2 with ((d2 - d1) + d1) by lia. apply find_mono. exact H. Qed.

Theorem returns_iff : forall r, returns f r <-> r <> OutOfFuel /\ find_control_flow depth_limit f = r.
Proof.
  intros r. split.
  - intros [N [depth H]]. split; [exact N|]. destruct (find_control_flow depth_limit f) eqn:L; try (
      rewrite <- L, <- H; subst r; rewrite <- (find_mono depth depth_limit) by (rewrite L; discriminate); rewrite Nat.add_comm; symmetry; rewrite <- (find_mono depth_limit depth) by exact N; f_equal; lia).
    rewrite (termination_bound L) in H. congruence.
  - intros [N H]. split; [exact N|]. eauto.
Qed.

(** ** C47 *)
Theorem forward_terminates : forall rank inside, forward f rank inside -> forall r, find_control_flow depth_limit f = r -> r <> OutOfFuel.
Proof.
  intros rank inside [F1 F2] r <- H. apply find_search in H as (b0 & rest & Q & N & H).
  assert (K : forall n id fl, rank id < n -> (forall h, inside id h -> merges fl h = true) -> search_block (S n) id fl (block_map f) <> OutOfFuel).
  { induction n as [|n IH]; intros id fl R I; [lia|].
    assert (STOP : forall t fl', merges fl' t = true -> search_block (S n) t fl' (block_map f) <> OutOfFuel) by (intros t fl' X; cbn [search_block]; rewrite X; discriminate).
    remember (S n) as n1 eqn:Hn1. cbn [search_block]. destruct (merges fl id) eqn:M; [discriminate|].
    destruct (map_get id (block_map f)) as [b|] eqn:G; [|discriminate]. apply block_map_represents in G. destruct (F2 _ _ G) as [FB FM].
    assert (MT : forall t, In t (merge_targets b) -> search_block n1 t fl (block_map f) <> OutOfFuel).
    { intros t T. destruct (FM _ T) as [[R1 I1]|I1]; [|apply STOP; auto]. apply IH; [lia|auto]. }
    unfold branch_targets in FB. unfold merge_targets in MT.
    destruct (BasicBlock_branch b) as [op|op|op] eqn:B; [| |discriminate].
    - destruct (BasicBlock_merge b) as [[lm|sm]|] eqn:Mg; [|discriminate|].
      + assert (X : search_block n1 (OpBranch_target_label op) (Converge_Loop id (OpLoopMerge_merge_block lm) (OpLoopMerge_loop_control lm) :: fl) (block_map f) <> OutOfFuel).
        { destruct (FB _ (or_introl eq_refl)) as [[R1 I1]|[I1|[I1 _]]].
          - apply IH; [lia|]. intros h Hh. cbn [merges]. destruct (N.eqb id h) eqn:E1; [reflexivity|]. destruct (I1 _ Hh) as [Y|[-> _]]; [auto|]. rewrite N.eqb_refl in E1. discriminate.
          - apply STOP. cbn [merges]. rewrite (I _ I1). destruct (N.eqb id _); reflexivity.
          - apply STOP. cbn [merges]. rewrite I1, N.eqb_refl. reflexivity. }
        destruct (search_block n1 (OpBranch_target_label op) _ (block_map f)) as [[c nx]| | |]; try discriminate; [|congruence]. cbn [bind]. destruct (cont_eqb nx (Cont_Next id)); [|discriminate].
        pose proof (MT _ (or_introl eq_refl)) as Y. destruct (search_block n1 (OpLoopMerge_merge_block lm) fl (block_map f)) as [[c' nx']| | |]; try discriminate. congruence.
      + assert (X : search_block n1 (OpBranch_target_label op) fl (block_map f) <> OutOfFuel).
        { assert (NL : forall m c, ~ loop_header f id m c).
          { intros m c (b' & op' & HB' & Mg' & _). pose proof (has_block_inj f N _ _ _ HB' G) as ->. congruence. }
          destruct (FB _ (or_introl eq_refl)) as [[R1 I1]|[I1|[_ (m & c & LH)]]]; [|apply STOP; auto|destruct (NL _ _ LH)].
          apply IH; [lia|]. intros h Hh. destruct (I1 _ Hh) as [Y|[_ (m & c & LH)]]; [auto|destruct (NL _ _ LH)]. }
        destruct (search_block n1 (OpBranch_target_label op) fl (block_map f)) as [[c nx]| | |]; try discriminate. congruence.
    - destruct (BasicBlock_merge b) as [[lm|sm]|] eqn:Mg; [discriminate| |].
      + assert (NL : forall m c, ~ loop_header f id m c).
        { intros m c (b' & op' & HB' & Mg' & _). pose proof (has_block_inj f N _ _ _ HB' G) as ->. congruence. }
        assert (X : forall t, In t [OpBranchConditional_true_label op; OpBranchConditional_false_label op] ->
          search_block n1 t (Converge_If (OpSelectionMerge_merge_block sm) (OpSelectionMerge_selection_control sm) :: fl) (block_map f) <> OutOfFuel).
        { intros t T. destruct (FB _ T) as [[R1 I1]|[I1|[_ (m & c & LH)]]]; [| |destruct (NL _ _ LH)].
          - apply IH; [lia|]. intros h Hh. cbn [merges]. destruct (N.eqb _ h) eqn:E1; [reflexivity|]. destruct (I1 _ Hh) as [Y|[_ (m & c & LH)]]; [auto|destruct (NL _ _ LH)].
          - apply STOP. cbn [merges]. rewrite (I _ I1). destruct (N.eqb _ _); reflexivity. }
        pose proof (X _ (or_introl eq_refl)) as X1. pose proof (X _ (or_intror (or_introl eq_refl))) as X2.
        destruct (search_block n1 (OpBranchConditional_true_label op) _ (block_map f)) as [[c nx]| | |]; try discriminate; [|congruence]. cbn [bind].
        destruct (search_block n1 (OpBranchConditional_false_label op) _ (block_map f)) as [[c2 nx2]| | |]; try discriminate; [|congruence]. cbn [bind].
        destruct (cont_eqb nx nx2 && _); [|discriminate].
        pose proof (MT _ (or_introl eq_refl)) as Y. destruct (search_block n1 (OpSelectionMerge_merge_block sm) fl (block_map f)) as [[c' nx']| | |]; try discriminate. congruence.
      + assert (NL : forall m c, ~ loop_header f id m c).
        { intros m c (b' & op' & HB' & Mg' & _). pose proof (has_block_inj f N _ _ _ HB' G) as ->. congruence. }
        destruct (innermost_loop fl) as [[head merge]|] eqn:L; [|discriminate].
        destruct (N.eqb (OpBranchConditional_false_label op) merge || N.eqb (OpBranchConditional_false_label op) head) eqn:D; [|discriminate].
        assert (X : search_block n1 (OpBranchConditional_true_label op) fl (block_map f) <> OutOfFuel).
        { destruct (FB _ (or_introl eq_refl)) as [[R1 I1]|[I1|[_ (m & c & LH)]]]; [|apply STOP; auto|destruct (NL _ _ LH)].
          apply IH; [lia|]. intros h Hh. destruct (I1 _ Hh) as [Y|[_ (m & c & LH)]]; [auto|destruct (NL _ _ LH)]. }
        destruct (search_block n1 (OpBranchConditional_true_label op) fl (block_map f)) as [[c nx]| | |]; try discriminate; [|congruence]. cbn [bind].
        destruct (cont_eqb nx (Cont_Next head)); discriminate. }
  assert (D : forall g, search_block g (label_of b0) [] (block_map f) = OutOfFuel) by (apply depth_bound; rewrite block_map_length, <- depth_limit_eq; exact H).
  apply (K (S (rank (label_of b0))) (label_of b0) []); [lia| |apply D].
  intros h Hh. exfalso. eapply F1; [|exact Hh]. exists b0, rest. auto.
Qed.

Corollary forward_returns : forall rank inside, forward f rank inside -> exists r, returns f r.
Proof. intros rank inside F. exists (find_control_flow depth_limit f). split; [eapply forward_terminates; [exact F|reflexivity]|eauto]. Qed.

End Functions.

(** ** C50: nested diamonds sharing their innermost block *)
Section Diamonds.
Context {E : Type}.

Definition open_id (i : nat) : BlockId := N.of_nat (2 * i + 1).
Definition close_id (i : nat) : BlockId := N.of_nat (2 * i + 2).
Definition close_branch (i : nat) : GroupBranch :=
  match i with O => GroupBranch_OpReturn Build_OpReturn | S j => GroupBranch_OpBranch (Build_OpBranch (close_id j)) end.
Definition opening (i : nat) : BasicBlock E :=
  Build_BasicBlock (Build_OpLabel (open_id i)) [] (Some (GroupMerge_OpSelectionMerge (Build_OpSelectionMerge (close_id i) (Build_SelectionControl false false))))
    (GroupBranch_OpBranchConditional (Build_OpBranchConditional 0%N (open_id (S i)) (open_id (S i)) None)).
Definition middle (n : nat) : BasicBlock E := Build_BasicBlock (Build_OpLabel (open_id n)) [] None (close_branch n).
Definition closing (i : nat) : BasicBlock E := Build_BasicBlock (Build_OpLabel (close_id i)) [] None (close_branch i).
Definition diamonds (n : nat) : FunctionDefinition E :=
  Build_FunctionDefinition (Build_OpFunction 0%N 0%N (Build_FunctionControl false false false false) 0%N) []
    (map opening (seq 0 n) ++ [middle n] ++ map closing (seq 0 n)).

Fixpoint tower (k i : nat) : ControlFlowChain :=
  match k with
  | O => match i with O => Atom (open_id 0) | S _ => Block [Atom (open_id i)] end
  | S k => Block [Selection (open_id i) (tower k (S i)) (tower k (S i)) (Build_SelectionControl false false) None; Atom (close_id i)]
  end.
Fixpoint stack (i : nat) : FlowList :=
  match i with O => [] | S j => Converge_If (close_id j) (Build_SelectionControl false false) :: stack j end.

Lemma diamonds_labels : forall n, labels (diamonds n) = map open_id (seq 0 n) ++ [open_id n] ++ map close_id (seq 0 n).
Proof. intros n. unfold labels, diamonds. cbn [FunctionDefinition_blocks]. rewrite !map_app, !map_map. reflexivity. Qed.
Lemma diamonds_NoDup : forall n, NoDup (labels (diamonds n)).
Proof.
  intros n. rewrite diamonds_labels.
  assert (Inj : forall g l, (forall i j : nat, g i = g j :> N -> i = j) -> NoDup l -> NoDup (map g l)).
  { intros g l G N. induction N as [|x l X N IH]; cbn [map]; constructor; [|exact IH]. intros Y. apply in_map_iff in Y as (y & Q & Y). apply G in Q. congruence. }
  rewrite app_assoc. change [open_id n] with (map open_id [n]). rewrite <- map_app, <- seq_S.
  assert (A : forall l1 l2 : list N, NoDup l1 -> NoDup l2 -> (forall x, In x l1 -> In x l2 -> False) -> NoDup (l1 ++ l2)).
  { intros l1 l2 N1 N2 D. induction N1 as [|x l1 X N1 IH]; cbn [app]; [exact N2|]. constructor.
    - rewrite in_app_iff. intros [Y|Y]; [contradiction|]. apply (D x); [left; reflexivity|exact Y].
    - apply IH. intros y Y1 Y2. apply (D y); [right; exact Y1|exact Y2]. }
  apply A.
  - apply Inj; [|apply seq_NoDup]. unfold open_id. lia.
  - apply Inj; [|apply seq_NoDup]. unfold close_id. lia.
  - intros x X Y. apply in_map_iff in X as (i & <- & _). apply in_map_iff in Y as (j & Q & _). unfold open_id, close_id in Q. lia.
Qed.

Lemma get_opening : forall n i, i < n -> map_get (open_id i) (block_map (diamonds n)) = Some (opening i).
Proof.
  intros n i L. apply find_map_iff; [apply diamonds_NoDup|]. split; [|reflexivity]. cbn [diamonds FunctionDefinition_blocks]. apply in_app_iff. left. apply in_map. apply in_seq. lia.
Qed.
Lemma get_middle : forall n, map_get (open_id n) (block_map (diamonds n)) = Some (middle n).
Proof.
  intros n. apply find_map_iff; [apply diamonds_NoDup|]. split; [|reflexivity]. cbn [diamonds FunctionDefinition_blocks]. apply in_app_iff. right. left. reflexivity.
Qed.
Lemma get_closing : forall n i, i < n -> map_get (close_id i) (block_map (diamonds n)) = Some (closing i).
Proof.
  intros n i L. apply find_map_iff; [apply diamonds_NoDup|]. split; [|reflexivity]. cbn [diamonds FunctionDefinition_blocks]. apply in_app_iff. right. right. apply in_map. apply in_seq. lia.
Qed.

Lemma stack_merges : forall i id, merges (stack i) id = true <-> exists j, j < i /\ id = close_id j.
Proof.
  induction i as [|i IH]; intros id; cbn [stack merges].
  - split; [discriminate|]. intros (j & L & _). lia.
  - destruct (N.eqb (close_id i) id) eqn:Q.
    + apply N.eqb_eq in Q. split; [|reflexivity]. intros _. exists i. split; [lia|congruence].
    + apply N.eqb_neq in Q. rewrite IH. split; intros (j & L & ->).
      * exists j. split; [lia|reflexivity].
      * exists j. split; [|reflexivity]. assert (j <> i) by congruence. lia.
Qed.
Lemma stack_open : forall i k, merges (stack i) (open_id k) = false.
Proof.
  intros i k. destruct (merges (stack i) (open_id k)) eqn:M; [|reflexivity]. apply stack_merges in M as (j & _ & Q). unfold open_id, close_id in Q. lia.
Qed.
Lemma stack_close : forall i k, i <= k -> merges (stack i) (close_id k) = false.
Proof.
  intros i k L. destruct (merges (stack i) (close_id k)) eqn:M; [|reflexivity]. apply stack_merges in M as (j & J & Q). unfold close_id in Q. lia.
Qed.
Lemma stack_top : forall j, merges (stack (S j)) (close_id j) = true.
Proof. intros j. apply stack_merges. exists j. split; [lia|reflexivity]. Qed.

Definition stack_next (i : nat) : Cont := match i with O => Cont_Return | S j => Cont_Next (close_id j) end.

Lemma search_close : forall n i depth, i < n -> exists c, search_block (S (S depth)) (close_id i) (stack i) (block_map (diamonds n)) = Ok (c, stack_next i)
  /\ items c = [Atom (close_id i)].
Proof.
  intros n i depth L. remember (S depth) as d1 eqn:Hd. cbn [search_block]. rewrite stack_close by lia. rewrite get_closing by exact L. cbn [closing BasicBlock_branch BasicBlock_merge].
  destruct i as [|j]; cbn [close_branch].
  - eexists. split; reflexivity.
  - cbn [OpBranch_target_label]. rewrite Hd. cbn [search_block]. rewrite stack_top. cbn [bind]. eexists. split; reflexivity.
Qed.

Lemma search_tower : forall n k i depth, i + k = n -> search_block (S (S (k + depth))) (open_id i) (stack i) (block_map (diamonds n)) = Ok (tower k i, stack_next i).
Proof.
  intros n. induction k as [|k IH]; intros i depth Q.
  - rewrite Nat.add_0_r in Q. subst i. remember (S (0 + depth)) as d1 eqn:Hd. cbn [search_block]. rewrite stack_open, get_middle. cbn [middle BasicBlock_branch BasicBlock_merge].
    destruct n as [|j]; cbn [close_branch]; [reflexivity|]. cbn [OpBranch_target_label]. rewrite Hd. cbn [search_block]. rewrite stack_top. reflexivity.
  - remember (S (S k + depth)) as d1 eqn:Hd. cbn [search_block]. rewrite stack_open, get_opening by lia. cbn [opening BasicBlock_branch BasicBlock_merge OpBranchConditional_true_label OpBranchConditional_false_label OpSelectionMerge_merge_block OpSelectionMerge_selection_control OpBranchConditional_weights].
    change (Converge_If (close_id i) (Build_SelectionControl false false) :: stack i) with (stack (S i)).
    rewrite Hd. change (S (S k + depth)) with (S (S (k + depth))). rewrite IH by lia. cbn [bind stack_next]. rewrite cont_eqb_refl. cbn [andb].
    destruct (search_close n i (k + depth)) as (c & -> & Ic); [lia|]. cbn [bind]. rewrite block2, Ic. reflexivity.
Qed.

Lemma occurrences_app : forall id l1 l2, occurrences id (l1 ++ l2) = (occurrences id l1 + occurrences id l2)%N.
Proof. intros id l1 l2. induction l1 as [|x l1 IH]; cbn [app occurrences]; [reflexivity|]. rewrite IH. lia. Qed.

Lemma tower_occurrences : forall k i, occurrences (open_id (i + k)) (chain_ids (tower k i)) = (2 ^ N.of_nat k)%N.
Proof.
  induction k as [|k IH]; intros i.
  - rewrite Nat.add_0_r. destruct i as [|i]; cbn [tower chain_ids flat_map app occurrences]; rewrite N.eqb_refl; reflexivity.
  - cbn [tower chain_ids flat_map]. rewrite app_nil_r. change (S k) with (1 + k). rewrite Nat.add_assoc, Nat.add_1_r. cbn [app]. cbn [occurrences].
    rewrite !occurrences_app, !IH. cbn [occurrences].
    assert (N.eqb (open_id i) (open_id (S i + k)) = false) as -> by (apply N.eqb_neq; unfold open_id; lia).
    assert (N.eqb (close_id i) (open_id (S i + k)) = false) as -> by (apply N.eqb_neq; unfold open_id, close_id; lia).
    rewrite Nat2N.inj_add. change (N.of_nat 1) with 1%N. rewrite N.add_1_l, N.pow_succ_r'. lia.
Qed.

Theorem exponential : forall n, exists (f : FunctionDefinition E) c id, length (FunctionDefinition_blocks f) = 2 * n + 1 /\ returns f (Ok c) /\ occurrences id (chain_ids c) = (2 ^ N.of_nat n)%N.
Proof.
  intros n. exists (diamonds n), (tower n 0), (open_id n). split; [|split].
  - cbn [diamonds FunctionDefinition_blocks]. rewrite !app_length, !map_length, !seq_length. cbn [length]. lia.
  - split; [discriminate|]. exists (S (S (n + 0))). rewrite (find_eq (diamonds n) (diamonds_NoDup n)).
    assert (Q : exists b rest, FunctionDefinition_blocks (diamonds n) = b :: rest /\ label_of b = open_id 0).
    { destruct n; [eexists _, _; split; reflexivity|]. eexists _, _. split; [reflexivity|reflexivity]. }
    destruct Q as (b & rest & -> & ->). pose proof (search_tower n n 0 0 eq_refl) as S. cbn [stack] in S. rewrite S. reflexivity.
  - exact (tower_occurrences n 0).
Qed.
End Diamonds.

Lemma infinite_runs : forall E (f : FunctionDefinition E) depth c, find_control_flow depth f = Ok c -> forall s : nat -> event,
  (forall n, exec c (map s (seq 0 n)) Interrupted) <-> (forall n, unfinished_run f (map s (seq 0 n))).
Proof. intros E f depth c H s. split; intros X n; apply (runs_unfinished f depth c H); auto. Qed.
