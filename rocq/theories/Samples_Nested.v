(** A family of functions that obey the rules of the standard and whose chains are exponentially large (C116). *)
From Coq Require Import Relation_Operators Permutation.
From Verif Require Import Base Types Ops Groups Glsl450 ControlFlow Spec_Flow Samples Samples_Flow Spec_Standard Spec_Returns Spec_Simple Spec_Occurs Proofs_Flow Proofs_Flow3 Proofs_Returns
  Proofs_Simple Proofs_Simple2 Proofs_Occurs Proofs_Occurs2.

(** Block [r] of level [i]. *)
Definition nid (i r : nat) : BlockId := N.of_nat (4 * i + r).
Definition nested_last (k : nat) : GroupBranch := match k with 0 => GroupBranch_OpReturn Build_OpReturn | S j => branch_to (nid j 3) end.
(** A selection whose two arms go to the same block, which is the selection of the next level. *)
Definition nested_level (i : nat) : list (BasicBlock Inst) :=
  [ simple_block (nid i 0) (Some (GroupMerge_OpSelectionMerge (Build_OpSelectionMerge (nid i 3) flatten))) (branch_on (nid i 1) (nid i 2) None);
    simple_block (nid i 1) None (branch_to (nid (S i) 0));
    simple_block (nid i 2) None (branch_to (nid (S i) 0));
    simple_block (nid i 3) None (nested_last i) ].
Definition nested_blocks (k : nat) : list (BasicBlock Inst) := flat_map nested_level (seq 0 k) ++ [simple_block (nid k 0) None (nested_last k)].
Definition nested_function (k : nat) : FunctionDefinition Inst := function_of (nested_blocks k).

Lemma nid_inj : forall i r j q, r < 4 -> q < 4 -> nid i r = nid j q -> i = j /\ r = q.
Proof. unfold nid. intros i r j q L1 L2 Q. apply Nat2N.inj in Q. lia. Qed.

Section Family.
Variable k : nat.
Notation f := (nested_function k).

(** ** Its blocks and branches *)
Lemma nested_has : forall u b, has_block f u b <->
  (exists i, i < k /\ (u = nid i 0 /\ b = simple_block (nid i 0) (Some (GroupMerge_OpSelectionMerge (Build_OpSelectionMerge (nid i 3) flatten))) (branch_on (nid i 1) (nid i 2) None)
     \/ u = nid i 1 /\ b = simple_block (nid i 1) None (branch_to (nid (S i) 0))
     \/ u = nid i 2 /\ b = simple_block (nid i 2) None (branch_to (nid (S i) 0))
     \/ u = nid i 3 /\ b = simple_block (nid i 3) None (nested_last i)))
  \/ u = nid k 0 /\ b = simple_block (nid k 0) None (nested_last k).
Proof.
  intros u b. unfold has_block. cbn [nested_function function_of FunctionDefinition_blocks]. unfold nested_blocks. rewrite in_app_iff, in_flat_map. split.
  - intros [[(i & I & J)|[J|[]]] L].
    + apply in_seq in I. left. exists i. split; [lia|]. destruct J as [J|[J|[J|[J|[]]]]]; subst b u; cbn; tauto.
    + right. subst b u. auto.
  - intros [(i & L & J)|[-> ->]]; [|split; [right; left|]; reflexivity].
    split; [left; exists i; split; [apply in_seq; lia|]|]; destruct J as [[-> ->]|[[-> ->]|[[-> ->]|[-> ->]]]]; cbn; tauto.
Qed.
Lemma last_targets : forall i n t, nth_error (match nested_last i with GroupBranch_OpBranch op => [OpBranch_target_label op]
  | GroupBranch_OpBranchConditional op => [OpBranchConditional_true_label op; OpBranchConditional_false_label op] | GroupBranch_OpReturn _ => [] end) n = Some t ->
  exists j, i = S j /\ n = 0 /\ t = nid j 3.
Proof. intros [|j] n t Q; [destruct n; discriminate Q|]. destruct n as [|[|n]]; try discriminate Q. injection Q as <-. exists j. auto. Qed.
Definition nested_edge (u : BlockId) (n : nat) (t : BlockId) : Prop :=
  exists i, i < k /\ (u = nid i 0 /\ n = 0 /\ t = nid i 1 \/ u = nid i 0 /\ n = 1 /\ t = nid i 2 \/ u = nid i 1 /\ n = 0 /\ t = nid (S i) 0 \/ u = nid i 2 /\ n = 0 /\ t = nid (S i) 0
    \/ (u = nid (S i) 3 /\ S i < k \/ u = nid k 0 /\ S i = k) /\ n = 0 /\ t = nid i 3).
Lemma nested_branches : forall u n t, branches f u n t <-> nested_edge u n t.
Proof.
  intros u n t. unfold branches. split.
  - intros (b & HB & Q). apply nested_has in HB as [(i & L & [[-> ->]|[[-> ->]|[[-> ->]|[-> ->]]]])|[-> ->]]; unfold branch_targets in Q; cbn [simple_block BasicBlock_branch branch_on branch_to] in Q.
    + exists i. split; [exact L|]. destruct n as [|[|[|n]]]; try discriminate Q; injection Q as <-; tauto.
    + exists i. split; [exact L|]. destruct n as [|[|n]]; try discriminate Q; injection Q as <-; tauto.
    + exists i. split; [exact L|]. destruct n as [|[|n]]; try discriminate Q; injection Q as <-; tauto.
    + apply last_targets in Q as (j & -> & -> & ->). exists j. split; [lia|]. tauto.
    + apply last_targets in Q as (j & Qk & -> & ->). exists j. split; [lia|]. rewrite <- Qk. tauto.
  - intros (i & L & [(-> & -> & ->)|[(-> & -> & ->)|[(-> & -> & ->)|[(-> & -> & ->)|([[-> L']|[-> L']] & -> & ->)]]]]).
    1-4: eexists; (split; [apply nested_has; left; exists i; split; [exact L|tauto]|reflexivity]).
    + eexists. split; [apply nested_has; left; exists (S i); split; [exact L'|tauto]|reflexivity].
    + eexists. split; [apply nested_has; right; split; reflexivity|]. rewrite <- L'. reflexivity.
Qed.
Lemma nested_declares : forall h m, declares f h m <-> exists i, i < k /\ h = nid i 0 /\ m = nid i 3.
Proof.
  intros h m. unfold declares. split.
  - intros (b & HB & I). apply nested_has in HB as [(i & L & [[-> ->]|[[-> ->]|[[-> ->]|[-> ->]]]])|[-> ->]]; cbn in I; try destruct I as [<-|[]]; try destruct I. exists i. auto.
  - intros (i & L & -> & ->). eexists. split; [apply nested_has; left; exists i; split; [exact L|tauto]|]. left. reflexivity.
Qed.
Lemma nested_loops : forall h m ct, ~ heads_loop f h m ct.
Proof. intros h m ct (b & hint & HB & Q). apply nested_has in HB as [(i & L & [[-> ->]|[[-> ->]|[[-> ->]|[-> ->]]]])|[-> ->]]; discriminate Q. Qed.
Lemma nested_entry : entry f (nid 0 0).
Proof. unfold entry. destruct k as [|j]; [exists (simple_block (nid 0 0) None (nested_last 0)), []; split; reflexivity|]. eexists. eexists. split; [reflexivity|reflexivity]. Qed.
Lemma nested_entry_only : forall e, entry f e -> e = nid 0 0.
Proof. intros e (b & r & Q & L). destruct nested_entry as (b' & r' & Q' & L'). congruence. Qed.
Lemma nested_labels : NoDup (labels f).
Proof.
  unfold labels. cbn [nested_function function_of FunctionDefinition_blocks]. unfold nested_blocks.
  assert (G : forall n s, NoDup (map label_of (flat_map nested_level (seq s n))) /\ forall x, In x (map label_of (flat_map nested_level (seq s n))) -> exists i r, s <= i < s + n /\ r < 4 /\ x = nid i r).
  { induction n as [|n IH]; intros s; [split; [constructor|intros x []]|]. cbn [seq flat_map]. rewrite map_app. destruct (IH (S s)) as [N A]. split.
    - cbn [map nested_level app]. assert (O : forall r, r < 4 -> ~ In (nid s r) (map label_of (flat_map nested_level (seq (S s) n)))).
      { intros r L I. destruct (A _ I) as (i & q & L1 & L2 & Q). apply nid_inj in Q; [lia|exact L|exact L2]. }
      assert (D : forall r q, r < 4 -> q < 4 -> r <> q -> nid s r <> nid s q) by (intros r q L1 L2 NE Q; apply nid_inj in Q; [lia|exact L1|exact L2]).
      repeat constructor; try exact N; cbn [In]; intros I; repeat (destruct I as [I|I]; [revert I; apply D; lia|]); revert I; apply O; lia.
    - intros x I. apply in_app_or in I as [I|I].
      + cbn in I. destruct I as [<-|[<-|[<-|[<-|[]]]]]; exists s; eexists; (split; [|split; [|reflexivity]]; lia).
      + destruct (A _ I) as (i & r & L & L' & ->). exists i, r. split; [lia|auto]. }
  destruct (G k 0) as [N A]. rewrite map_app. cbn [map]. apply (Permutation_NoDup (Permutation_cons_append _ _)). constructor; [|exact N].
  intros I. destruct (A _ I) as (i & r & L & L' & Q). unfold label_of in Q. cbn in Q. apply nid_inj in Q; lia.
Qed.

(** ** Every execution goes through the headers and the merge blocks in order *)
Definition nrank (x : BlockId) : nat := match N.to_nat x mod 4 with 0 => 2 * (N.to_nat x / 4) | 1 | 2 => 2 * (N.to_nat x / 4) + 1 | _ => 3 * k - N.to_nat x / 4 end.
Lemma nrank_nid : forall i r, r < 4 -> nrank (nid i r) = match r with 0 => 2 * i | 1 | 2 => 2 * i + 1 | _ => 3 * k - i end.
Proof.
  intros i r L. unfold nrank, nid. rewrite Nat2N.id. replace (4 * i + r) with (r + i * 4) by lia. rewrite Nat.div_add, Nat.mod_add by lia. rewrite (Nat.div_small r 4 L), (Nat.mod_small r 4 L). reflexivity.
Qed.
Ltac ranks := rewrite ?nrank_nid in * by lia.
Lemma edge_up : forall u n t, branches f u n t -> nrank u < nrank t.
Proof.
  intros u n t B. apply nested_branches in B as (i & L & [(-> & -> & ->)|[(-> & -> & ->)|[(-> & -> & ->)|[(-> & -> & ->)|([[-> L']|[-> L']] & -> & ->)]]]]); ranks; lia.
Qed.
Lemma path_up : forall u l t, path f u l t -> forall x, In x (l ++ [t]) -> nrank x <= nrank t.
Proof.
  intros u l t P. induction P as [u|u n w l t B P IH]; intros x I; cbn [app] in I; destruct I as [<-|I]; [lia|destruct I| |exact (IH x I)].
  apply edge_up in B. destruct (path_nodes _ _ _ _ P) as (r & Q). specialize (IH w). rewrite Q in IH. specialize (IH (or_introl eq_refl)). lia.
Qed.
Lemma not_above : forall x y, reachable f y -> nrank y < nrank x -> ~ dominates f x y.
Proof.
  intros x y R L D. apply reachable_path in R as (e & l & En & P). pose proof (proj1 (dominates_path f x y) D e l En P) as I. pose proof (path_up _ _ _ P x I). lia.
Qed.
(** [x] is the only one to enter what is not before it. *)
Definition gate (x : BlockId) : Prop := forall u n t, branches f u n t -> nrank u < nrank x -> nrank x <= nrank t -> t = x.
Lemma gate_dominates : forall x y, gate x -> nrank x <= nrank y -> (nrank x = 0 -> x = nid 0 0) -> dominates f x y.
Proof.
  intros x y G L Z. apply dominates_path. intros e l En P. apply nested_entry_only in En. subst e.
  destruct (Nat.eq_dec (nrank x) 0) as [Q|Q]; [rewrite (Z Q); destruct (path_nodes _ _ _ _ P) as (r & ->); left; reflexivity|].
  assert (S : nrank (nid 0 0) < nrank x) by (ranks; lia). clear Z Q. revert S L. induction P as [u|u n w l t B P IH]; intros S L; [lia|]. cbn [app]. right.
  destruct (le_lt_dec (nrank x) (nrank w)) as [C|C]; [|exact (IH C L)]. rewrite <- (G _ _ _ B S C). destruct (path_nodes _ _ _ _ P) as (r & ->). left. reflexivity.
Qed.
Lemma header_gate : forall i, i <= k -> gate (nid i 0).
Proof.
  intros i Li u n t B L1 L2. apply nested_branches in B as (j & L & [(-> & -> & ->)|[(-> & -> & ->)|[(-> & -> & ->)|[(-> & -> & ->)|([[-> L']|[-> L']] & -> & ->)]]]]); ranks; try lia; f_equal; lia.
Qed.
Lemma merge_gate : forall i, i < k -> gate (nid i 3).
Proof.
  intros i Li u n t B L1 L2. apply nested_branches in B as (j & L & [(-> & -> & ->)|[(-> & -> & ->)|[(-> & -> & ->)|[(-> & -> & ->)|([[-> L']|[-> L']] & -> & ->)]]]]); ranks; try lia; f_equal; lia.
Qed.
Lemma header_dominates : forall i y, i <= k -> 2 * i <= nrank y -> dominates f (nid i 0) y.
Proof. intros i y L Q. apply gate_dominates; [exact (header_gate i L)|ranks; exact Q|]. ranks. intros Z. f_equal. lia. Qed.
Lemma merge_dominates : forall i y, i < k -> 3 * k - i <= nrank y -> dominates f (nid i 3) y.
Proof. intros i y L Q. apply gate_dominates; [exact (merge_gate i L)|ranks; exact Q|]. ranks. lia. Qed.

Lemma reach_edge : forall u n t, reachable f u -> nested_edge u n t -> reachable f t.
Proof. intros u n t R B. apply nested_branches in B. exact (reachable_edge f _ _ _ R B). Qed.
Lemma reach_header : forall i, i <= k -> reachable f (nid i 0).
Proof.
  induction i as [|i IH]; intros L; [apply reachable_path; exists (nid 0 0), []; split; [exact nested_entry|constructor]|].
  apply (reach_edge (nid i 1) 0); [apply (reach_edge (nid i 0) 0); [apply IH; lia|]|]; exists i; (split; [lia|tauto]).
Qed.
Lemma reach_merge : forall d i, i + S d = k -> reachable f (nid i 3).
Proof.
  induction d as [|d IH]; intros i L.
  - apply (reach_edge (nid k 0) 0); [apply reach_header; lia|]. exists i. split; [lia|]. assert (S i = k) by lia. tauto.
  - apply (reach_edge (nid (S i) 3) 0); [apply IH; lia|]. exists i. split; [lia|]. assert (S i < k) by lia. tauto.
Qed.
Lemma nested_construct : forall i y, i < k -> (construct f (nid i 0) (nid i 3) y <-> reachable f y /\ 2 * i <= nrank y < 3 * k - i).
Proof.
  intros i y L. split.
  - intros (R & D & N). split; [exact R|]. split.
    + destruct (le_lt_dec (2 * i) (nrank y)) as [Q|Q]; [exact Q|]. exfalso. apply (not_above (nid i 0) y R); [ranks; exact Q|exact D].
    + destruct (le_lt_dec (3 * k - i) (nrank y)) as [Q|Q]; [|exact Q]. destruct (N (merge_dominates i y L Q)).
  - intros (R & L1 & L2). split; [exact R|]. split; [apply header_dominates; [lia|exact L1]|]. apply not_above; [exact R|ranks; exact L2].
Qed.
Lemma no_back_edge : forall u n t, ~ back_edge f u n t.
Proof. intros u n t (B & R & D). exact (not_above t u R (edge_up _ _ _ B) D). Qed.

(** ** The rules *)
Lemma nested_reached : merges_reached f.
Proof. intros h m D _. apply nested_declares in D as (i & L & -> & ->). apply (reach_merge (k - S i)). lia. Qed.
Lemma nested_close : loops_close f.
Proof. intros h m ct u n HL. destruct (nested_loops _ _ _ HL). Qed.
Lemma nested_merge_rules : merge_rules f.
Proof.
  split; [|split; [|split; [|split; [|split]]]].
  - intros e u n En B. apply nested_entry_only in En. subst e. apply edge_up in B. ranks. lia.
  - intros h1 h2 m D1 D2. apply nested_declares in D1 as (i & L & -> & ->), D2 as (j & L' & -> & Q). apply nid_inj in Q as [<- _]; [reflexivity|lia|lia].
  - intros h m D R. apply nested_declares in D as (i & L & -> & ->). split; [apply header_dominates; [lia|ranks; lia]|]. intros Q. apply nid_inj in Q; lia.
  - assert (G : forall u w, clos_trans BlockId (onward f) u w -> nrank u < nrank w) by (intros u w T; induction T as [u w (n & B & _)|u w x _ IH1 _ IH2]; [exact (edge_up _ _ _ B)|lia]).
    intros u T. specialize (G u u T). lia.
  - intros u n t B. destruct (no_back_edge _ _ _ B).
  - intros h m ct HL. destruct (nested_loops _ _ _ HL).
Qed.
Lemma nested_construct_rules : construct_rules f.
Proof.
  intros h m D _. apply nested_declares in D as (i & L & -> & ->). split; [|split].
  - intros h' m' C N D R. apply nested_declares in D as (j & L' & -> & ->). apply (nested_construct i _ L) in C as (_ & C). apply (nested_construct i _ L). split; [exact R|]. ranks.
    assert (i <> j) by (intros ->; apply N; reflexivity). lia.
  - intros u n t B R N C. apply (nested_construct i _ L) in C as (Rt & C). pose proof (edge_up _ _ _ B) as U.
    assert (X : nrank u < 2 * i). { destruct (le_lt_dec (2 * i) (nrank u)) as [Q|Q]; [|exact Q]. destruct N. apply (nested_construct i _ L). split; [exact R|]. lia. }
    apply (header_gate i ltac:(lia) u n t B); ranks; lia.
  - intros u n t B C N. apply (nested_construct i _ L) in C as (R & C). left. pose proof (edge_up _ _ _ B) as U.
    assert (X : 3 * k - i <= nrank t). { destruct (le_lt_dec (3 * k - i) (nrank t)) as [Q|Q]; [exact Q|]. destruct N. apply (nested_construct i _ L). split; [exact (reachable_edge f _ _ _ R B)|]. lia. }
    apply (merge_gate i L u n t B); ranks; lia.
Qed.
Lemma nested_obeys : obeys f.
Proof. split; [exact nested_merge_rules|]. split; [|exact nested_construct_rules]. intros h m ct u n HL. destruct (nested_loops _ _ _ HL). Qed.

Lemma nested_simple : simple f.
Proof.
  split; [|split; [|split; [|split]]].
  - intros u n t B _. apply nested_branches in B as (i & L & K).
    assert (G : forall r, 0 < r < 4 -> exists b, has_block f (nid i r) b) by (intros r Lr; destruct r as [|[|[|[|r]]]]; try lia; eexists; apply nested_has; left; exists i; (split; [exact L|]); eauto 10).
    assert (H : exists b, has_block f (nid (S i) 0) b) by (destruct (Nat.eq_dec (S i) k) as [Q|Q]; eexists; apply nested_has; [right; rewrite Q; eauto|left; exists (S i); split; [lia|eauto]]).
    destruct K as [(_ & _ & ->)|[(_ & _ & ->)|[(_ & _ & ->)|[(_ & _ & ->)|(_ & _ & ->)]]]]; solve [exact H|apply G; lia].
  - intros u b HB R. apply nested_has in HB as [(i & L & [[-> ->]|[[-> ->]|[[-> ->]|[-> ->]]]])|[-> ->]]; cbn; try exact I; [destruct i|destruct k]; exact I.
  - intros u b op h m HB BR D C. apply nested_declares in D as (i & L & -> & ->). apply (nested_construct i _ L) in C as (_ & C).
    apply nested_has in HB as [(j & L' & [[-> ->]|[[-> ->]|[[-> ->]|[-> ->]]]])|[-> ->]]; cbn in BR; try discriminate BR; ranks.
    + destruct j as [|j]; [lia|discriminate BR].
    + assert (Z : exists j, k = S j) by (exists (k - 1); lia). destruct Z as (j & Z). rewrite Z in BR. discriminate BR.
  - intros u b op HB R BR MG. apply nested_has in HB as [(j & L' & [[-> ->]|[[-> ->]|[[-> ->]|[-> ->]]]])|[-> ->]]; cbn in BR, MG; try discriminate; [destruct j|destruct k]; discriminate BR.
  - intros h m u n t D B C N. pose proof D as D0. apply nested_declares in D0 as (i & L & -> & ->). split; [|split; [split; [exact D|split; [exact C|]]|intros ct HL; destruct (nested_loops _ _ _ HL)]].
    + destruct (proj2 (proj2 (nested_construct_rules _ _ D (reach_header i ltac:(lia)))) u n t B C N) as [X|(lh & lm & ct & (HL & _) & _)]; [exact X|destruct (nested_loops _ _ _ HL)].
    + intros h' m' D' C'. apply nested_declares in D' as (j & L' & -> & ->). apply (nested_construct i _ L) in C as (R & C). apply (nested_construct j _ L') in C' as (_ & C').
      apply (nested_construct j _ L'). split; [apply reach_header; lia|]. ranks.
      assert (X : 3 * k - i <= nrank t). { destruct (le_lt_dec (3 * k - i) (nrank t)) as [Q|Q]; [exact Q|]. destruct N. apply (nested_construct i _ L). split; [exact (reachable_edge f _ _ _ R B)|]. apply edge_up in B. lia. }
      apply nested_branches in B as (q & Lq & [(-> & -> & ->)|[(-> & -> & ->)|[(-> & -> & ->)|[(-> & -> & ->)|([[-> Lr]|[-> Lr]] & -> & ->)]]]]); ranks; lia.
Qed.
Lemma nested_chain : exists chain, returns f (Ok chain).
Proof.
  apply simple_iff; [exact nested_merge_rules|exact nested_construct_rules|exact nested_close|exact nested_reached|]. split; [exact nested_labels|]. split; [|exact nested_simple].
  destruct nested_entry as (b & r & Q & _). rewrite Q. discriminate.
Qed.
Lemma nested_length : length (FunctionDefinition_blocks f) = 4 * k + 1.
Proof.
  cbn [nested_function function_of FunctionDefinition_blocks]. unfold nested_blocks. rewrite app_length. cbn [length]. f_equal.
  assert (G : forall n s, length (flat_map nested_level (seq s n)) = 4 * n) by (induction n as [|n IH]; intros s; [reflexivity|]; cbn [seq flat_map]; rewrite app_length, IH; cbn [length nested_level]; lia).
  apply G.
Qed.

(** ** How often its blocks are named *)
Lemma nested_comes : forall t u n, comes_from f t u n <-> nested_edge u n t /\ reachable f u.
Proof.
  intros t u n. unfold comes_from. rewrite nested_branches. split; [tauto|]. intros (B & R). split; [exact B|]. split; [exact R|]. apply nested_branches in B. exact (not_above t u R (edge_up _ _ _ B)).
Qed.
Lemma nested_counts : forall chain, returns f (Ok chain) -> forall i, i <= k -> occurrences chain (nid i 0) = 2 ^ i.
Proof.
  intros chain RET. pose proof (occurs_first f chain nested_merge_rules nested_construct_rules nested_close nested_reached RET) as FIRST.
  pose proof (occurs_other f chain nested_merge_rules nested_construct_rules nested_close nested_reached RET) as OTHER.
  assert (NM : forall i r, r < 3 -> ~ merges_at f (nid i r)) by (intros i r L (h & D & _); apply nested_declares in D as (j & _ & _ & Q); apply nid_inj in Q; lia).
  assert (NE : forall i r, r < 4 -> 0 < i + r -> ~ entry f (nid i r)) by (intros i r L P En; apply nested_entry_only in En; apply nid_inj in En; lia).
  assert (EDGE : forall u n i r, nested_edge u n (nid i r) -> r < 3 -> i < k /\ r = 1 /\ u = nid i 0 /\ n = 0 \/ i < k /\ r = 2 /\ u = nid i 0 /\ n = 1
    \/ r = 0 /\ n = 0 /\ exists j, i = S j /\ j < k /\ (u = nid j 1 \/ u = nid j 2)).
  { intros u n i r (j & L & [(-> & -> & Q)|[(-> & -> & Q)|[(-> & -> & Q)|[(-> & -> & Q)|(_ & -> & Q)]]]]) Lr; (apply nid_inj in Q as [-> ->]; [|lia|lia]); try (exfalso; lia); [left; auto|right; left; auto| |].
    - right. right. split; [reflexivity|]. split; [reflexivity|]. exists j. tauto.
    - right. right. split; [reflexivity|]. split; [reflexivity|]. exists j. tauto. }
  induction i as [|i IH]; intros L; [exact (FIRST _ nested_entry)|]. specialize (IH ltac:(lia)).
  assert (ARM : forall r, r = 1 \/ r = 2 -> occurrences chain (nid i r) = 2 ^ i).
  { intros r K. rewrite (OTHER (nid i r) [(nid i 0, r - 1)]); [cbn [map list_sum fold_right fst]; rewrite IH; lia|apply NE; lia|apply NM; lia|repeat constructor; intros []|].
    intros u n. rewrite nested_comes. split.
    - intros [Q|[]]. injection Q as <- <-. split; [|apply reach_header; lia]. exists i. split; [lia|]. destruct K as [->| ->]; tauto.
    - intros (B & _). apply EDGE in B; [|lia]. destruct B as [(_ & -> & -> & ->)|[(_ & -> & -> & ->)|(-> & _)]]; [left; reflexivity|left; reflexivity|lia]. }
  rewrite (OTHER (nid (S i) 0) [(nid i 1, 0); (nid i 2, 0)]).
  - cbn [map list_sum fold_right fst]. rewrite (ARM 1), (ARM 2) by lia. rewrite Nat.pow_succ_r'. lia.
  - apply NE; lia.
  - apply NM; lia.
  - repeat constructor; [intros [Q|[]]|intros []]. injection Q as Q. apply nid_inj in Q; lia.
  - intros u n. rewrite nested_comes. assert (H : nested_edge (nid i 0) 0 (nid i 1)) by (exists i; split; [lia|tauto]). assert (H' : nested_edge (nid i 0) 1 (nid i 2)) by (exists i; split; [lia|tauto]).
    pose proof (reach_header i ltac:(lia)) as R. split.
    + intros [Q|[Q|[]]]; injection Q as <- <-; (split; [exists i; split; [lia|tauto]|]); [exact (reach_edge _ _ _ R H)|exact (reach_edge _ _ _ R H')].
    + intros (B & _). apply EDGE in B; [|lia]. destruct B as [(_ & X & _)|[(_ & X & _)|(_ & -> & j & Q & _ & K)]]; [discriminate X|discriminate X|]. injection Q as <-. destruct K as [->| ->]; [left|right; left]; reflexivity.
Qed.
End Family.

Theorem nested_large : forall k, exists (f : FunctionDefinition Inst) chain v, length (FunctionDefinition_blocks f) = 4 * k + 1
  /\ obeys f /\ loops_close f /\ merges_reached f /\ returns f (Ok chain) /\ occurrences chain v = 2 ^ k.
Proof.
  intros k. destruct (nested_chain k) as (chain & RET). exists (nested_function k), chain, (nid k 0). split; [exact (nested_length k)|]. split; [exact (nested_obeys k)|]. split; [exact (nested_close k)|].
  split; [exact (nested_reached k)|]. split; [exact RET|]. exact (nested_counts k chain RET k (le_n _)).
Qed.
