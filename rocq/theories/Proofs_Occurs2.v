(** Lemmas for C116: from the search to chains. *)
From Coq Require Import Relation_Operators Operators_Properties.
From Verif Require Import Base Types Ops Groups ExtSet ControlFlow Spec_Flow Proofs_Flow Proofs_Flow2 Proofs_Flow3 Spec_Standard Spec_Returns Spec_Simple Proofs_Returns Proofs_Rules Spec_Occurs
  Proofs_Simple Proofs_Simple2 Proofs_Occurs.

Section Chain.
Context {E : Type}.
Variable f : FunctionDefinition E.
Variable chain : ControlFlowChain.
Hypothesis MR : merge_rules f.
Hypothesis CR : construct_rules f.
Hypothesis LC : loops_close f.
Hypothesis RM : merges_reached f.
Hypothesis RET : returns f (Ok chain).

Lemma entry_unique : forall a b, entry f a -> entry f b -> a = b.
Proof. intros a b (x & r & Q & L) (x' & r' & Q' & L'). congruence. Qed.
Lemma entry_reached : forall e, entry f e -> reachable f e.
Proof. intros e En. apply reachable_path. exists e, []. split; [exact En|constructor]. Qed.
Lemma entry_no_merge : forall e h, entry f e -> declares f h e -> ~ reachable f h.
Proof.
  intros e h En D R. destruct (merge_below f MR RM _ _ D R) as (Dm & Nm & _). destruct (proj1 (dominates_path f h e) Dm e [] En (path_nil f _)) as [Q|[]]. exact (Nm (eq_sym Q)).
Qed.
Lemma count_chain : forall v steps, (forall id fl os b, here f id fl os -> merges fl id = false -> has_block f id b -> hits v fl id b = steps id) ->
  exists e, entry f e /\ occurrences chain v = (if N.eqb e v then 1 else 0) + list_sum (map steps (chain_ids chain)).
Proof.
  intros v steps ST. destruct (understood_simple E f chain MR CR LC RM RET) as (ND & _ & SI). destruct RET as (_ & depth & Q).
  pose proof (find_inv f _ _ Q) as (_ & s & En & _ & S). exists s. split; [exact En|].
  assert (H : here f s [] []).
  { constructor; [exact (entry_reached s En)|constructor|exact I|intros h m []|].
    intros h m _ (_ & D & _) NQ _. destruct (proj1 (dominates_path f h _) D s [] En (path_nil f _)) as [QH|[]]. exact (NQ (eq_sym QH)). }
  rewrite (count_search f ND MR CR RM SI v steps ST _ _ _ _ S [] H). unfold hit. cbn [merges negb]. rewrite andb_true_r. reflexivity.
Qed.
Lemma other_count : forall v l, (forall h, declares f h v -> ~ reachable f h) -> NoDup l -> (forall u n, In (u, n) l <-> branches f u n v /\ reachable f u /\ ~ dominates f v u) ->
  exists e, entry f e /\ occurrences chain v = (if N.eqb e v then 1 else 0) + list_sum (map (fun b => occurrences chain (fst b)) l).
Proof.
  intros v l NM NDl ALL. destruct (understood_simple E f chain MR CR LC RM RET) as (ND & _ & SI).
  destruct (count_chain v (fun x => from x l) (other_hits f ND MR CR LC RM SI v NM l NDl ALL)) as (e & En & Q). exists e. split; [exact En|]. rewrite Q, (swap (chain_ids chain) l). reflexivity.
Qed.
Theorem occurs_first : forall e, entry f e -> occurrences chain e = 1.
Proof.
  intros e En. destruct (other_count e [] (fun h => entry_no_merge e h En) (NoDup_nil _)) as (e' & En' & Q).
  - intros u n. split; [intros []|]. intros (B & _). exact (proj1 MR e u n En B).
  - rewrite Q, (entry_unique _ _ En' En), N.eqb_refl. reflexivity.
Qed.
Theorem occurs_merge : forall h m, declares f h m -> reachable f h -> occurrences chain m = occurrences chain h.
Proof.
  intros h m D R. destruct (understood_simple E f chain MR CR LC RM RET) as (ND & _ & SI).
  destruct (count_chain m _ (merge_hits f ND MR CR LC RM SI m h D R)) as (e & En & Q). rewrite Q. refine (eq_trans (f_equal (Nat.add _) (list_sum_is h (chain_ids chain))) _).
  destruct (N.eqb e m) eqn:X; [|reflexivity]. apply N.eqb_eq in X. rewrite <- X in D. destruct (entry_no_merge e h En D R).
Qed.
Theorem occurs_other : forall v l, ~ entry f v -> ~ merges_at f v -> NoDup l -> (forall u n, In (u, n) l <-> comes_from f v u n) ->
  occurrences chain v = list_sum (map (fun b => occurrences chain (fst b)) l).
Proof.
  intros v l NE NM NDl ALL. destruct (other_count v l (fun h D R => NM (ex_intro _ h (conj D R))) NDl ALL) as (e & En & Q). rewrite Q. destruct (N.eqb e v) eqn:X; [|reflexivity]. apply N.eqb_eq in X. rewrite X in En. destruct (NE En).
Qed.

(** ** Chains that name every block once *)
Lemma complete_list : forall (P : BlockId * nat -> Prop) es, ((exists l, NoDup l /\ forall e, In e l <-> In e es /\ P e) -> False) -> False.
Proof.
  intros P es. induction es as [|e es IH]; intros K; [apply K; exists []; split; [constructor|intros e; cbn; tauto]|]. apply IH. intros (l & NDl & A).
  apply (cases_or (P e)). intros [Y|N].
  - destruct (in_dec pair_dec e l) as [I|I].
    + apply K. exists l. split; [exact NDl|]. intros x. rewrite A. cbn [In]. split; [tauto|]. intros [[Q|J] Px]; [|auto]. subst x. apply A. exact I.
    + apply K. exists (e :: l). split; [constructor; assumption|]. intros x. cbn [In]. rewrite A. split; [intros [Q|X]; [subst x; auto|tauto]|]. tauto.
  - apply K. exists l. split; [exact NDl|]. intros x. rewrite A. cbn [In]. split; [tauto|]. intros [[Q|J] Px]; [subst x; contradiction|auto].
Qed.
Lemma onward_list : forall v, ((exists l, NoDup l /\ forall u n, In (u, n) l <-> branches f u n v /\ reachable f u /\ ~ dominates f v u) -> False) -> False.
Proof.
  intros v K. apply (complete_list (fun e => branches f (fst e) (snd e) v /\ reachable f (fst e) /\ ~ dominates f v (fst e)) (map fst (edges f))). intros (l & NDl & A). apply K. exists l. split; [exact NDl|].
  intros u n. rewrite A. cbn [fst snd]. split; [tauto|]. intros X. split; [|exact X]. destruct X as [B _]. apply edges_in in B. apply in_map_iff. exists (u, n, v). auto.
Qed.
Lemma list_sum_two : forall (g : BlockId * nat -> nat) l a b, In a l -> In b l -> a <> b -> g a + g b <= list_sum (map g l).
Proof.
  assert (ONE : forall (g : BlockId * nat -> nat) l a, In a l -> g a <= list_sum (map g l)).
  { intros g l a. induction l as [|x l IH]; intros I; [destruct I|]. cbn [map list_sum fold_right]. change (fold_right Nat.add 0) with list_sum. destruct I as [->|I]; [lia|]. specialize (IH I). lia. }
  intros g l a b. induction l as [|x l IH]; intros Ia Ib N; [destruct Ia|]. cbn [map list_sum fold_right]. change (fold_right Nat.add 0) with list_sum. destruct Ia as [->|Ia], Ib as [->|Ib].
  - congruence.
  - pose proof (ONE g l b Ib). lia.
  - pose proof (ONE g l a Ia). lia.
  - specialize (IH Ia Ib N). lia.
Qed.
Theorem occurs_once : NoDup (chain_ids chain) <-> one_way f.
Proof.
  assert (POS : forall u, reachable f u -> 1 <= occurrences chain u).
  { intros u R. destruct RET as (_ & depth & Q). apply (proj1 (count_occ_In (A := BlockId) N.eq_dec (chain_ids chain) u)). exact (chain_ids_reachable f _ _ Q u R). }
  rewrite (NoDup_count_occ (A := BlockId) N.eq_dec). split.
  - intros ONE v u n u' n' NM (B & R & D) (B' & R' & D'). destruct (pair_dec (u, n) (u', n')) as [Q|NQ]; [injection Q; auto|]. exfalso. apply (onward_list v). intros (l & NDl & A).
    destruct (other_count v l (fun h D R => NM (ex_intro _ h (conj D R))) NDl A) as (e & _ & Q). specialize (ONE v). change (occurrences chain v <= 1) in ONE. rewrite Q in ONE.
    pose proof (list_sum_two (fun b => occurrences chain (fst b)) l (u, n) (u', n') (proj2 (A u n) (conj B (conj R D))) (proj2 (A u' n') (conj B' (conj R' D'))) NQ) as X. cbn [fst] in X.
    pose proof (POS _ R). pose proof (POS _ R'). lia.
  - intros OW. destruct (understood_simple E f chain MR CR LC RM RET) as (ND & _ & SI).
    assert (ST : forall x, (occurrences chain x <= 1 -> False) -> 2 <= occurrences chain x) by (intros x X; lia).
    assert (G : forall k v anc, reachable f v -> (forall a, In a anc -> clos_trans BlockId (onward f) v a) -> NoDup anc -> incl anc (labels f) ->
      length (labels f) < k + length anc -> occurrences chain v <= 1).
    { induction k as [|k IH]; intros v anc R W NA IA L; [pose proof (NoDup_incl_length NA IA); lia|].
      assert (NEXT : forall u, reachable f u -> clos_trans BlockId (onward f) u v -> occurrences chain u <= 1).
      { intros u Ru Wu. apply (IH u (v :: anc) Ru).
        - intros a [<-|I]; [exact Wu|]. eapply t_trans; [exact Wu|exact (W a I)].
        - constructor; [|exact NA]. intros I. exact (no_cycle f MR v (W v I)).
        - intros a [<-|I]; [|exact (IA a I)]. destruct (block_there f SI v R) as (b & Ib & Lb). rewrite <- Lb. apply in_map. exact Ib.
        - cbn [length]. lia. }
      destruct (le_lt_dec (occurrences chain v) 1) as [X|X]; [exact X|]. exfalso. apply (cases_or (exists h, declares f h v /\ reachable f h)). intros [(h & D & Rh)|NM'].
      - pose proof (occurs_merge h v D Rh) as Q. pose proof (NEXT h Rh (merge_way f MR RM _ _ D Rh)). lia.
      - assert (NM : forall h, declares f h v -> ~ reachable f h) by (intros h D Rh; apply NM'; eauto). apply (onward_list v). intros (l & NDl & A).
        destruct (other_count v l NM NDl A) as (e & En & Q). destruct (N.eqb e v) eqn:QE; [apply N.eqb_eq in QE; subst e; pose proof (occurs_first v En); lia|].
        destruct l as [|[u n] [|[u' n'] l]].
        + cbn in Q. lia.
        + destruct (proj1 (A u n) (or_introl eq_refl)) as (B & Ru & Du). cbn [map list_sum fold_right fst] in Q.
          assert (Wu : clos_trans BlockId (onward f) u v) by (apply t_step; exists n; auto). pose proof (NEXT u Ru Wu). lia.
        + destruct (proj1 (A u n) (or_introl eq_refl)) as (B & Ru & Du). destruct (proj1 (A u' n') (or_intror (or_introl eq_refl))) as (B' & Ru' & Du').
          destruct (OW v u n u' n' NM' (conj B (conj Ru Du)) (conj B' (conj Ru' Du'))) as [-> ->]. inversion NDl as [|x y N1 N2]. apply N1. left. reflexivity. }
    intros v. change (occurrences chain v <= 1). destruct (le_lt_dec (occurrences chain v) 1) as [X|X]; [exact X|]. exfalso. apply (cases_or (reachable f v)). intros [R|NR].
    + assert (occurrences chain v <= 1); [|lia]. apply (G (S (length (labels f))) v []); [exact R|intros a []|constructor|intros a []|cbn [length]; lia].
    + destruct (other_count v []) as (e & En & Q).
      * intros h D Rh. exact (NR (RM _ _ D Rh)).
      * constructor.
      * intros u n. split; [intros []|]. intros (B & Ru & _). exact (NR (reachable_edge f _ _ _ Ru B)).
      * destruct (N.eqb e v) eqn:QE; [apply N.eqb_eq in QE; subst e; exact (NR (entry_reached v En))|]. cbn in Q. lia.
Qed.
End Chain.
