(** Lemmas for C103: the work of find_control_flow. *)
From Coq Require Import Lia Permutation.
From Verif Require Import Base Types Ops Groups ExtSet ControlFlow ControlFlowCount ControlFlowWork Spec_Flow Spec_Structured Spec_Cost Spec_Work
  Proofs_Flow Proofs_Flow2 Proofs_Flow3 Proofs_Structured Proofs_Cost Proofs_DisplayStack.
Notation answer := ControlFlowWork.answer.

Lemma work_eq : forall a b c a' b' c', a = a' -> b = b' -> c = c' -> Build_Work a b c = Build_Work a' b' c'.
Proof. intros. subst. reflexivity. Qed.
Lemma after_fst : forall {A} a (x : worked A), fst (after a x) = fst x.
Proof. intros A a [r b]. reflexivity. Qed.
Lemma work_add_0 : forall a, work_add a no_work = a.
Proof. intros [a b c]. unfold work_add. cbn. rewrite !Nat.add_0_r. reflexivity. Qed.

Section Same.
Context {E : Type}.
(** Counting changes nothing, and the calls are those of C82. *)
Definition same {A} (x : worked A) (y : counted A) : Prop := fst x = fst y /\ Work_calls (snd x) = snd y.
Lemma same_answer : forall {A} (r : outcome ControlFlowError A), same (answer r) (ControlFlowCount.answer r).
Proof. split; reflexivity. Qed.
Lemma same_bind : forall {A B} (x : worked A) y (f : A -> worked B) g, same x y -> (forall v, same (f v) (g v)) -> same (work_bind x f) (count_bind y g).
Proof.
  intros A B [r a] [r' n] f g [H1 H2] F. cbn [fst snd] in *. subst r' n. destruct r as [v|e| |]; try (split; reflexivity).
  cbn [work_bind count_bind]. specialize (F v). destruct (f v) as [r b], (g v) as [r' n]. destruct F as [F1 F2]. cbn [fst snd] in *. subst r' n. split; reflexivity.
Qed.
Lemma same_after : forall {A} l k (x : worked A) y, same x y -> same (after (Build_Work 0 l k) x) y.
Proof. intros A l k [r a] [r' n] [H1 H2]. split; [exact H1|exact H2]. Qed.
Lemma same_called : forall {A} (x : worked A) y, same x y -> same (called x) (one_more y).
Proof. intros A [r a] [r' n] [H1 H2]. cbn [fst snd] in *. subst. split; reflexivity. Qed.
Lemma same_search : forall k id fl (m : BlockMap (E := E)), same (search_block_worked k id fl m) (search_block_counted k id fl m).
Proof.
  induction k as [|k IH]; intros id fl m; [split; reflexivity|]. cbn [search_block_worked search_block_counted]. apply same_called. apply same_after.
  destruct (merges fl id); [apply same_answer|]. destruct (map_get id m) as [b|]; [|apply same_answer].
  destruct (BasicBlock_branch b) as [op|op|op]; [| |apply same_answer]; (destruct (BasicBlock_merge b) as [[lm|sm]|]; try apply same_answer).
  - apply same_bind; [apply IH|]. intros [ic inx]. destruct (cont_eqb inx _); [|apply same_answer]. apply same_bind; [apply IH|]. intros [ac an]. apply same_after, same_answer.
  - apply same_bind; [apply IH|]. intros [ac an]. apply same_after, same_answer.
  - apply same_bind; [apply IH|]. intros [tc tn]. apply same_bind; [apply IH|]. intros [fc fn]. destruct (_ && _); [|apply same_answer].
    apply same_bind; [apply IH|]. intros [ac an]. apply same_after, same_answer.
  - apply same_after. destruct (innermost_loop fl) as [[h mg]|]; [|apply same_answer]. destruct (_ || _); [|apply same_answer].
    apply same_bind; [apply IH|]. intros [ic inx]. destruct (cont_eqb inx _); apply same_answer.
Qed.
Lemma same_find : forall k (f : FunctionDefinition E), same (find_control_flow_worked k f) (find_control_flow_counted k f).
Proof.
  intros k f. unfold find_control_flow_worked, find_control_flow_counted. apply same_bind; [apply same_answer|]. intros [[start|] m]; [|apply same_answer].
  apply same_bind; [apply same_search|]. intros [c []]; apply same_answer.
Qed.

(** ** Any outcome *)
Definition size_of (c : ControlFlowChain) : nat := match c with Block l => length l | _ => 1 end.
Lemma block_two : forall a c, (match a with Block _ => False | _ => True end) -> block_moves [a; c] = S (size_of c) /\ size_of (block [a; c]) = S (size_of c).
Proof.
  intros a c H. unfold block_moves, block. cbn [merge_moves merge_chains]. destruct a; try contradiction H; (split; [destruct c; cbn [size_of]; lia|]);
  destruct c; cbn [merge_chains app size_of length]; rewrite ?app_length; cbn; lia.
Qed.
Lemma merges_bound : forall fl id, merges_looks fl id <= length fl.
Proof. induction fl as [|[j h|hd mg h] fl IH]; intros id; cbn [merges_looks length]; [lia| |]; (destruct (N.eqb _ id); [lia|]; specialize (IH id); lia). Qed.
Lemma innermost_bound : forall fl, innermost_looks fl <= length fl.
Proof. induction fl as [|[j h|hd mg h] fl IH]; cbn [innermost_looks length]; lia. Qed.

(** Work of a search of depth [d] (the length of the flow list and the calls left). *)
Definition tri (n : nat) : nat := n * (n + 1).
Definition modest {A} (d : nat) (size : A -> nat) (x : worked A) : Prop :=
  Work_looks (snd x) <= 2 * d * Work_calls (snd x) /\ 2 * Work_moves (snd x) <= tri (Work_calls (snd x))
  /\ match fst x with Ok v => size v <= Work_calls (snd x) | _ => True end.
Lemma tri_1 : forall q, tri q <= tri (S q).
Proof. intros q. unfold tri. nia. Qed.
Lemma tri_2 : forall q1 q2, tri q1 + tri q2 <= tri (q1 + q2).
Proof. intros q1 q2. unfold tri. nia. Qed.
Lemma tri_put : forall q1 q2 s, s <= q2 -> tri q1 + tri q2 + 2 * S s <= tri (S (q1 + q2)).
Proof. intros q1 q2 s H. unfold tri. nia. Qed.
Notation sized := (fun v : ControlFlowChain * Cont => size_of (fst v)).
(** One call with its own looks. *)
Lemma modest_call : forall d s r (w : Work), s <= 2 * d -> Work_looks w <= 2 * d * Work_calls w -> 2 * Work_moves w <= tri (S (Work_calls w)) ->
  match r with Ok v => sized v <= S (Work_calls w) | _ => True end -> modest d sized (called (looking s (r, w))).
Proof.
  intros d s r [q l v] Hs Hl Hm Hr. unfold modest, called, looking, after, work_add in *. cbn [fst snd Work_calls Work_looks Work_moves Nat.add] in *.
  split; [|split; [exact Hm|exact Hr]]. lia.
Qed.
Ltac stop_at H := cbn [work_bind]; apply modest_call; [lia|lia|pose proof (tri_1 (Work_calls H)); lia|exact I].
Lemma modest_search : forall k id fl (m : BlockMap (E := E)) d, length fl + k <= S d -> modest d sized (search_block_worked k id fl m).
Proof.
  induction k as [|k IH]; intros id fl m d L; [split; [cbn; lia|split; [cbn; lia|exact I]]|]. cbn [search_block_worked].
  pose proof (merges_bound fl id) as B1. pose proof (innermost_bound fl) as B2.
  assert (S1 : forall r : outcome ControlFlowError (ControlFlowChain * Cont), match r with Ok v => sized v <= 1 | _ => True end -> modest d sized (called (looking (merges_looks fl id) (answer r)))).
  { intros r Hr. unfold answer. apply modest_call; [lia|cbn; lia|cbn; lia|]. destruct r; auto. }
  destruct (merges fl id); [apply S1; cbn; lia|]. destruct (map_get id m) as [b|]; [|apply S1; exact I].
  assert (O : forall id' c, modest d sized (search_block_worked k id' (c :: fl) m)) by (intros id' c; apply IH; cbn [length]; lia).
  assert (P : forall id', modest d sized (search_block_worked k id' fl m)) by (intros id'; apply IH; lia). clear IH.
  destruct (BasicBlock_branch b) as [op|op|op]; [| |apply S1; cbn; lia]; (destruct (BasicBlock_merge b) as [[lm|sm]|]; try (apply S1; exact I)).
  - match goal with |- context [search_block_worked k ?i (?c :: fl) m] => destruct (O i c) as (A1 & A2 & A3); destruct (search_block_worked k i (c :: fl) m) as [r1 w1] end.
    cbn [fst snd] in *. destruct r1 as [[c1 n1]|e| |]; try (stop_at w1). cbn [work_bind]. destruct (cont_eqb n1 _); [|unfold after, answer; rewrite work_add_0; stop_at w1].
    match goal with |- context [search_block_worked k ?i fl m] => destruct (P i) as (C1 & C2 & C3); destruct (search_block_worked k i fl m) as [r2 w2] end.
    cbn [fst snd] in *. pose proof (tri_2 (Work_calls w1) (Work_calls w2)) as T. pose proof (tri_1 (Work_calls w1 + Work_calls w2)) as T1.
    destruct r2 as [[c2 n2]|e| |]; cbn [work_bind after moving answer].
    + destruct (block_two (Loop id c1 (OpLoopMerge_loop_control lm) None) c2 I) as [M1 M2]. pose proof (tri_put (Work_calls w1) (Work_calls w2) _ C3) as T2. unfold moving, answer, after. apply modest_call.
      * lia.
      * cbn [work_add Work_looks Work_calls no_work]. lia.
      * cbn [work_add Work_moves Work_calls no_work]. rewrite M1. cbn [fst] in *. replace (Work_calls w1 + (Work_calls w2 + (0 + 0))) with (Work_calls w1 + Work_calls w2) by lia. lia.
      * cbn [fst]. rewrite M2. cbn [work_add Work_calls no_work fst] in *. lia.
    + apply modest_call; cbn [work_add Work_looks Work_moves Work_calls]; [lia|lia|lia|exact I].
    + apply modest_call; cbn [work_add Work_looks Work_moves Work_calls]; [lia|lia|lia|exact I].
    + apply modest_call; cbn [work_add Work_looks Work_moves Work_calls]; [lia|lia|lia|exact I].
  - match goal with |- context [search_block_worked k ?i fl m] => destruct (P i) as (C1 & C2 & C3); destruct (search_block_worked k i fl m) as [r2 w2] end.
    cbn [fst snd] in *. destruct r2 as [[c2 n2]|e| |]; try (stop_at w2). cbn [work_bind].
    destruct (block_two (Atom id) c2 I) as [M1 M2]. pose proof (tri_put 0 (Work_calls w2) _ C3) as T2. unfold moving, answer, after. apply modest_call.
    + lia.
    + cbn [work_add Work_looks Work_calls no_work]. lia.
    + cbn [work_add Work_moves Work_calls no_work]. rewrite M1. cbn [fst Nat.add] in *. replace (Work_calls w2 + 0) with (Work_calls w2) by lia. unfold tri in T2 at 1. lia.
    + cbn [fst]. rewrite M2. cbn [work_add Work_calls no_work fst] in *. lia.
  - match goal with |- context [search_block_worked k ?i (?c :: fl) m] => destruct (O i c) as (A1 & A2 & A3); destruct (search_block_worked k i (c :: fl) m) as [r1 w1] end.
    cbn [fst snd] in *. destruct r1 as [[c1 n1]|e| |]; try (stop_at w1). cbn [work_bind].
    match goal with |- context [search_block_worked k ?i (?c :: fl) m] => destruct (O i c) as (B3 & B4 & B5); destruct (search_block_worked k i (c :: fl) m) as [r2 w2] end.
    cbn [fst snd] in *. pose proof (tri_2 (Work_calls w1) (Work_calls w2)) as T. pose proof (tri_1 (Work_calls w1 + Work_calls w2)) as T1.
    destruct r2 as [[c2 n2]|e| |]; cbn [work_bind after].
    + destruct (_ && _).
      * match goal with |- context [search_block_worked k ?i fl m] => destruct (P i) as (C1 & C2 & C3); destruct (search_block_worked k i fl m) as [r3 w3] end.
        cbn [fst snd] in *. pose proof (tri_2 (Work_calls w1 + Work_calls w2) (Work_calls w3)) as T2. pose proof (tri_1 (Work_calls w1 + Work_calls w2 + Work_calls w3)) as T3.
        destruct r3 as [[c3 n3]|e| |]; cbn [work_bind after].
        -- destruct (block_two (Selection id c1 c2 (OpSelectionMerge_selection_control sm) (OpBranchConditional_weights op)) c3 I) as [M1 M2].
           pose proof (tri_put (Work_calls w1 + Work_calls w2) (Work_calls w3) _ C3) as T4. unfold moving, answer, after. apply modest_call.
           ++ lia.
           ++ cbn [work_add Work_looks Work_calls no_work]. lia.
           ++ cbn [work_add Work_moves Work_calls no_work]. rewrite M1. cbn [fst] in *.
              replace (Work_calls w1 + (Work_calls w2 + (Work_calls w3 + (0 + 0)))) with (Work_calls w1 + Work_calls w2 + Work_calls w3) by lia. lia.
           ++ cbn [fst]. rewrite M2. cbn [work_add Work_calls no_work fst] in *. lia.
        -- apply modest_call; cbn [work_add Work_looks Work_moves Work_calls]; [lia|lia|rewrite (Nat.add_assoc (Work_calls w1)); lia|exact I].
        -- apply modest_call; cbn [work_add Work_looks Work_moves Work_calls]; [lia|lia|rewrite (Nat.add_assoc (Work_calls w1)); lia|exact I].
        -- apply modest_call; cbn [work_add Work_looks Work_moves Work_calls]; [lia|lia|rewrite (Nat.add_assoc (Work_calls w1)); lia|exact I].
      * unfold answer. apply modest_call; cbn [work_add Work_looks Work_moves Work_calls no_work]; rewrite ?Nat.add_0_r; [lia|lia|lia|exact I].
    + apply modest_call; cbn [work_add Work_looks Work_moves Work_calls]; [lia|lia|lia|exact I].
    + apply modest_call; cbn [work_add Work_looks Work_moves Work_calls]; [lia|lia|lia|exact I].
    + apply modest_call; cbn [work_add Work_looks Work_moves Work_calls]; [lia|lia|lia|exact I].
  - assert (S2 : forall r : outcome ControlFlowError (ControlFlowChain * Cont), match r with Ok v => False | _ => True end ->
      modest d sized (called (looking (merges_looks fl id) (looking (innermost_looks fl) (answer r))))).
    { intros r Hr. unfold answer. change (looking (innermost_looks fl) (r, no_work)) with (r, Build_Work 0 (innermost_looks fl + 0) 0). unfold modest, called, looking, after, work_add.
      cbn [fst snd Work_calls Work_looks Work_moves]. split; [lia|]. split; [cbn; lia|]. destruct r; [contradiction Hr|exact I|exact I|exact I]. }
    destruct (innermost_loop fl) as [[h mg]|]; [|apply S2; exact I]. destruct (_ || _); [|apply S2; exact I].
    match goal with |- context [search_block_worked k ?i fl m] => destruct (P i) as (C1 & C2 & C3); destruct (search_block_worked k i fl m) as [r2 w2] end.
    cbn [fst snd] in *. pose proof (tri_1 (Work_calls w2)) as T.
    assert (Q : forall r : outcome ControlFlowError (ControlFlowChain * Cont), match r with Ok v => sized v <= 1 | _ => True end ->
      modest d sized (called (looking (merges_looks fl id) (looking (innermost_looks fl) (after w2 (answer r)))))).
    { intros r Hr. unfold answer. unfold modest, called, looking, after, work_add. cbn [fst snd Work_calls Work_looks Work_moves no_work]. rewrite !Nat.add_0_r. cbn [Nat.add].
      split; [lia|]. split; [lia|]. destruct r; auto. lia. }
    destruct r2 as [[c2 n2]|e| |]; cbn [work_bind].
    + destruct (cont_eqb n2 _); apply Q; [cbn; lia|exact I].
    + specialize (Q (Err e) I). unfold after, answer in Q. rewrite work_add_0 in Q. exact Q.
    + specialize (Q Panic I). unfold after, answer in Q. rewrite work_add_0 in Q. exact Q.
    + specialize (Q OutOfFuel I). unfold after, answer in Q. rewrite work_add_0 in Q. exact Q.
Qed.
Lemma work_any : forall n (f : FunctionDefinition E), let w := snd (find_control_flow_worked n f) in
  Work_looks w <= 2 * (n - 1) * Work_calls w /\ 2 * Work_moves w <= Work_calls w * (Work_calls w + 1).
Proof.
  intros n f. unfold find_control_flow_worked. destruct (build_map _ _ _) as [[[start|] m]|e| |]; cbn [answer work_bind]; try (cbn; lia).
  destruct (modest_search n start [] m (n - 1)) as (A & B & _); [cbn [length]; lia|].
  destruct (search_block_worked n start [] m) as [r w]. cbn [fst snd] in *. fold (tri (Work_calls w)).
  destruct r as [[c []]|e| |]; cbn [work_bind answer after snd]; rewrite ?work_add_0; unfold work_add, no_work, tri in *;
    cbn [Work_calls Work_looks Work_moves Nat.add]; auto; rewrite ?Nat.add_0_r; auto.
Qed.
End Same.

(** ** Structured programs *)
Fixpoint ifs (fl : FlowList) : nat := match fl with Converge_If _ _ :: fl => S (ifs fl) | _ => 0 end.
Lemma innermost_ifs : forall fl h mg, innermost_loop fl = Some (h, mg) -> innermost_looks fl = S (ifs fl).
Proof. induction fl as [|[j x|hd m x] fl IH]; intros h mg H; [discriminate H| |reflexivity]. cbn [innermost_looks ifs]. rewrite (IH h mg H). reflexivity. Qed.
Lemma looks_all : forall fl id, ~ In id (stops fl) -> merges_looks fl id = length fl.
Proof.
  induction fl as [|[j x|hd m x] fl IH]; intros id H; [reflexivity| |]; cbn [merges_looks length]; cbn [stops map stop_of In] in H;
  (destruct (N.eqb_spec j id) as [Q|Q] || destruct (N.eqb_spec hd id) as [Q|Q]); [tauto|rewrite IH by tauto; reflexivity|tauto|rewrite IH by tauto; reflexivity].
Qed.
Lemma looks_top : forall fl id rest, stops fl = id :: rest -> merges_looks fl id = 1 /\ merges fl id = true.
Proof.
  intros [|[j x|hd m x] fl] id rest H; [discriminate H| |]; cbn [stops map stop_of] in H; injection H as -> _; cbn [merges_looks merges]; rewrite N.eqb_refl; auto.
Qed.

Section Exact.
Context {E : Type}.
Variable f : FunctionDefinition E.
Hypothesis ND : NoDup (labels f).
Notation m := (block_map f).
Notation sks := (map skeleton (FunctionDefinition_blocks f)).

(** Once there are [d] calls the search makes [q] calls, [l] looks and [v] moves. *)
Definition does (fl : FlowList) (id : BlockId) (c : ControlFlowChain) (n : Cont) (d q l v : nat) : Prop :=
  forall k, d <= k -> search_block_worked k id fl m = (Ok (c, n), Build_Work q l v).
Lemma does_cast : forall fl id c n d q l v d' q' l' v', does fl id c n d q l v -> d' = d -> q' = q -> l' = l -> v' = v -> does fl id c n d' q' l' v'.
Proof. intros. subst. assumption. Qed.
Ltac adds := apply f_equal2; [reflexivity|apply work_eq; lia].

Lemma does_stop : forall fl id rest, stops fl = id :: rest -> does fl id (Block []) (Cont_Next id) 1 1 1 0.
Proof.
  intros fl id rest H [|k] L; [lia|]. destruct (looks_top _ _ _ H) as [Q1 Q2]. cbn [search_block_worked]. rewrite Q1, Q2. reflexivity.
Qed.
Lemma does_return : forall fl id mg, ~ In id (stops fl) -> In (id, mg, GroupBranch_OpReturn Build_OpReturn) sks -> does fl id (Atom id) Cont_Return 1 1 (length fl) 0.
Proof.
  intros fl id mg H IN [|k] L; [lia|]. cbn [search_block_worked]. rewrite (looks_all _ _ H). apply merges_false in H. apply (in_skeletons f ND) in IN as (b & G & _ & B).
  rewrite H, G, B. unfold called, looking, after, answer, work_add. cbn. adds.
Qed.
Lemma does_branch : forall fl id t c n d q l v, ~ In id (stops fl) -> In (id, None, GroupBranch_OpBranch (Build_OpBranch t)) sks ->
  does fl t c n d q l v -> does fl id (block [Atom id; c]) n (S d) (S q) (length fl + l) (v + S (size_of c)).
Proof.
  intros fl id t c n d q l v H IN F [|k] L; [lia|]. cbn [search_block_worked]. rewrite (looks_all _ _ H). apply merges_false in H. apply (in_skeletons f ND) in IN as (b & G & M & B).
  rewrite H, G, B, M. cbn [OpBranch_target_label]. rewrite F by lia. destruct (block_two (Atom id) c I) as [M1 _].
  cbn [work_bind]. unfold called, looking, moving, after, answer, work_add, no_work. rewrite M1. cbn [Work_calls Work_looks Work_moves]. adds.
Qed.
Lemma does_loop : forall fl id t after ct hint inner c n d1 q1 l1 v1 d2 q2 l2 v2, ~ In id (stops fl) ->
  In (id, Some (GroupMerge_OpLoopMerge (Build_OpLoopMerge after ct hint)), GroupBranch_OpBranch (Build_OpBranch t)) sks ->
  does (Converge_Loop id after hint :: fl) t inner (Cont_Next id) d1 q1 l1 v1 -> does fl after c n d2 q2 l2 v2 ->
  does fl id (block [Loop id inner hint None; c]) n (S (Nat.max d1 d2)) (S (q1 + q2)) (length fl + l1 + l2) (v1 + v2 + S (size_of c)).
Proof.
  intros fl id t aft ct hint inner c n d1 q1 l1 v1 d2 q2 l2 v2 H IN F1 F2 [|k] L; [lia|]. cbn [search_block_worked]. rewrite (looks_all _ _ H). apply merges_false in H.
  apply (in_skeletons f ND) in IN as (b & G & M & B). rewrite H, G, B, M. cbn [OpBranch_target_label OpLoopMerge_merge_block OpLoopMerge_loop_control].
  rewrite F1 by lia. cbn [work_bind]. rewrite cont_eqb_refl. rewrite F2 by lia. destruct (block_two (Loop id inner hint None) c I) as [M1 _].
  cbn [work_bind]. unfold called, looking, moving, after, answer, work_add, no_work. rewrite M1. cbn [Work_calls Work_looks Work_moves]. adds.
Qed.
Lemma does_selection : forall fl id cond t e w join hint lhs rhs c n d1 q1 l1 v1 d2 q2 l2 v2 d3 q3 l3 v3, ~ In id (stops fl) ->
  In (id, Some (GroupMerge_OpSelectionMerge (Build_OpSelectionMerge join hint)), GroupBranch_OpBranchConditional (Build_OpBranchConditional cond t e w)) sks ->
  does (Converge_If join hint :: fl) t lhs (Cont_Next join) d1 q1 l1 v1 -> does (Converge_If join hint :: fl) e rhs (Cont_Next join) d2 q2 l2 v2 ->
  does fl join c n d3 q3 l3 v3 -> does fl id (block [Selection id lhs rhs hint w; c]) n (S (Nat.max (Nat.max d1 d2) d3)) (S (q1 + q2 + q3)) (length fl + l1 + l2 + l3) (v1 + v2 + v3 + S (size_of c)).
Proof.
  intros fl id cond t e w join hint lhs rhs c n d1 q1 l1 v1 d2 q2 l2 v2 d3 q3 l3 v3 H IN F1 F2 F3 [|k] L; [lia|]. cbn [search_block_worked]. rewrite (looks_all _ _ H). apply merges_false in H.
  apply (in_skeletons f ND) in IN as (b & G & M & B). rewrite H, G, B, M.
  cbn [OpBranchConditional_true_label OpBranchConditional_false_label OpBranchConditional_weights OpSelectionMerge_merge_block OpSelectionMerge_selection_control].
  rewrite F1 by lia. cbn [work_bind]. rewrite F2 by lia. cbn [work_bind]. rewrite cont_eqb_refl. cbn [andb]. rewrite F3 by lia.
  destruct (block_two (Selection id lhs rhs hint w) c I) as [M1 _].
  cbn [work_bind]. unfold called, looking, moving, after, answer, work_add, no_work. rewrite M1. cbn [Work_calls Work_looks Work_moves]. adds.
Qed.
Lemma does_leave : forall fl id cond t w head merge inner d q l v, ~ In id (stops fl) ->
  In (id, None, GroupBranch_OpBranchConditional (Build_OpBranchConditional cond t merge w)) sks ->
  innermost_loop fl = Some (head, merge) -> does fl t inner (Cont_Next head) d q l v ->
  does fl id (Selection id inner Break (Build_SelectionControl false false) w) (Cont_Next head) (S d) (S q) (length fl + S (ifs fl) + l) v.
Proof.
  intros fl id cond t w head merge inner d q l v H IN L0 F [|k] L; [lia|]. cbn [search_block_worked]. rewrite (looks_all _ _ H), (innermost_ifs _ _ _ L0). apply merges_false in H.
  apply (in_skeletons f ND) in IN as (b & G & M & B). rewrite H, G, B, M.
  cbn [OpBranchConditional_true_label OpBranchConditional_false_label OpBranchConditional_weights]. rewrite L0, N.eqb_refl. cbn [orb]. rewrite F by lia. cbn [work_bind]. rewrite cont_eqb_refl.
  unfold called, looking, moving, after, answer, work_add, no_work. cbn [Work_calls Work_looks Work_moves]. adds.
Qed.
Lemma does_restart : forall fl id cond t w head merge inner d q l v, ~ In id (stops fl) ->
  In (id, None, GroupBranch_OpBranchConditional (Build_OpBranchConditional cond t head w)) sks ->
  innermost_loop fl = Some (head, merge) -> merge <> head -> does fl t inner (Cont_Next head) d q l v ->
  does fl id (Selection id inner Continue (Build_SelectionControl false false) w) (Cont_Next head) (S d) (S q) (length fl + S (ifs fl) + l) v.
Proof.
  intros fl id cond t w head merge inner d q l v H IN L0 NE F [|k] L; [lia|]. cbn [search_block_worked]. rewrite (looks_all _ _ H), (innermost_ifs _ _ _ L0). apply merges_false in H.
  assert (D : N.eqb head merge = false) by (apply N.eqb_neq; congruence).
  apply (in_skeletons f ND) in IN as (b & G & M & B). rewrite H, G, B, M.
  cbn [OpBranchConditional_true_label OpBranchConditional_false_label OpBranchConditional_weights]. rewrite L0, N.eqb_refl, D. cbn [orb]. rewrite F by lia. cbn [work_bind]. rewrite cont_eqb_refl.
  unfold called, looking, moving, after, answer, work_add, no_work. cbn [Work_calls Work_looks Work_moves]. adds.
Qed.

Definition done_by (s : statement) : Prop := forall fl next,
  placed (stops fl) (innermost_loop fl) s next -> incl (lower (innermost_loop fl) s next) sks ->
  if is_exit s then forall rest, stops fl = next :: rest ->
    does fl (start s) (chain_of s) (Cont_Next next) (S (inside_depth s)) (statement_calls s) (statement_looks (length fl) (ifs fl) s) (inside_moves s)
  else forall c n d q l v, 1 <= d -> does fl next c n d q l v ->
    does fl (start s) (block [chain_of s; c]) n (S (Nat.max (inside_depth s) d)) (statement_calls s + q) (statement_looks (length fl) (ifs fl) s + l) (inside_moves s + v + S (size_of c)).

Lemma looks_cons : forall looks e s l, is_exit s = false -> sequence_looks looks e (s :: l) = looks s + sequence_looks looks e l.
Proof. intros looks e s [|s2 l] X; [|reflexivity]. cbn [sequence_looks]. rewrite X. reflexivity. Qed.
Lemma size_arm : forall l, size_of (arm chain_of l) = length l.
Proof.
  intros [|s [|s2 l]]; cbn [arm size_of map length]; [reflexivity| |rewrite map_length; reflexivity]. destruct (is_exit s) eqn:X; [|reflexivity].
  destruct s; try discriminate X; reflexivity.
Qed.
Lemma size_program : forall l last, size_of (program_chain l last) = length l + 1.
Proof. intros [|s l] last; [reflexivity|]. cbn [program_chain size_of]. rewrite app_length, map_length. reflexivity. Qed.

Lemma sequence_done : forall l, Forall done_by l -> forall fl next, each (placed (stops fl) (innermost_loop fl)) l next ->
  incl (sequence (lower (innermost_loop fl)) l next) sks ->
  (forall rest, stops fl = next :: rest ->
     does fl (first_of l next) (arm chain_of l) (Cont_Next next) (sequence_depth inside_depth l) (sequence_calls statement_calls l)
       (sequence_looks (statement_looks (length fl) (ifs fl)) 1 l) (sequence_moves inside_moves 0 l))
  /\ (fl = [] -> does fl next (Atom next) Cont_Return 1 1 0 0 ->
      does fl (first_of l next) (program_chain l next) Cont_Return (sequence_depth inside_depth l) (sequence_calls statement_calls l)
        (sequence_looks (statement_looks (length fl) (ifs fl)) 0 l) (sequence_moves inside_moves 1 l)).
Proof.
  intros l F. induction F as [|s l Fs F IH]; intros fl next PL IN.
  - split; [intros rest H; exact (does_stop fl next rest H)|auto].
  - cbn [each] in PL. destruct PL as [PLs PL]. cbn [sequence] in IN. apply incl_app_inv in IN as [INs IN].
    pose proof (Fs fl _ PLs INs) as X. destruct (IH fl next PL IN) as [IH1 IH2]. cbn [first_of sequence_depth]. destruct (is_exit s) eqn:XS.
    + destruct l as [|s2 l].
      * cbn [first_of] in X, PLs. split.
        -- intros rest I. unfold arm. cbn [sequence_depth sequence_calls sequence_looks sequence_moves]. rewrite XS.
           eapply does_cast; [exact (X rest I)| | | |]; try lia.
           assert (1 <= inside_depth s) by (destruct s; try discriminate XS; cbn [inside_depth]; apply depth_pos). lia.
        -- intros -> _. exfalso. destruct s; try discriminate XS; cbn [placed innermost_loop] in PLs; destruct PLs as (_ & (mg & Q) & _); [|destruct Q as [Q _]]; discriminate Q.
      * exfalso. destruct PL as [PL2 _]. cbn [first_of] in PLs.
        assert (I : In (start s2) (stops fl)).
        { destruct s; try discriminate XS; cbn [placed] in PLs; destruct PLs as (_ & (mg & Q) & _); [|destruct Q as [Q _]]; eapply innermost_stops; exact Q. }
        destruct s2; cbn [placed start] in PL2, I; tauto.
    + rewrite (sequence_calls_cons _ _ XS), !(looks_cons _ _ _ _ XS). cbn [sequence_moves]. rewrite XS. split.
      * intros rest I. rewrite (arm_cons _ _ XS). eapply does_cast; [apply X; [apply depth_pos|exact (IH1 rest I)]| | | |]; try reflexivity. rewrite size_arm. lia.
      * intros I R. rewrite program_cons. eapply does_cast; [apply X; [apply depth_pos|exact (IH2 I R)]| | | |]; try reflexivity. rewrite size_program. lia.
Qed.
Lemma all_done : forall s, done_by s.
Proof.
  induction s as [id|id cond yes no h w IHy IHn|id ct body h IHb|id cond rest w IHr|id cond rest w IHr] using statement_ind'; intros fl next PL IN; cbn [is_exit].
  - intros c n d q l v P F. cbn [placed start lower chain_of] in *. apply incl_cons_inv in IN as [IN _].
    eapply does_cast; [exact (does_branch _ _ _ _ _ _ _ _ _ (proj1 PL) IN F)| | | |]; cbn; lia.
  - intros c n d q l v P F. cbn [placed start lower chain_of] in *. destruct PL as (NI & PL1 & PL2). apply incl_cons_inv in IN as [IN IN2]. apply incl_app_inv in IN2 as [IN1 IN2].
    eapply does_cast; [eapply (does_selection _ _ _ _ _ _ _ _ _ _ _ _ _ _ _ _ _ _ _ _ _ _ _ _ NI IN);
      [exact (proj1 (sequence_done yes IHy (Converge_If next h :: fl) next PL1 IN1) (stops fl) eq_refl)
      |exact (proj1 (sequence_done no IHn (Converge_If next h :: fl) next PL2 IN2) (stops fl) eq_refl)|exact F]| | | |];
    cbn [inside_depth statement_calls statement_looks inside_moves length ifs]; lia.
  - intros c n d q l v P F. cbn [placed start lower chain_of] in *. destruct PL as (NI & PL1). apply incl_cons_inv in IN as [IN IN1].
    eapply does_cast; [eapply (does_loop _ _ _ _ _ _ _ _ _ _ _ _ _ _ _ _ _ NI IN);
      [exact (proj1 (sequence_done body IHb (Converge_Loop id next h :: fl) id PL1 IN1) (stops fl) eq_refl)|exact F]| | | |];
    cbn [inside_depth statement_calls statement_looks inside_moves length ifs]; lia.
  - intros tl TL. cbn [placed start lower chain_of] in *. destruct PL as (NI & (merge & L) & PL1). apply incl_cons_inv in IN as [IN IN1].
    rewrite L in IN at 1. eapply does_cast; [eapply (does_leave _ _ _ _ _ _ _ _ _ _ _ _ NI IN L);
      exact (proj1 (sequence_done rest IHr fl next PL1 IN1) tl TL)| | | |];
    cbn [inside_depth statement_calls statement_looks inside_moves length]; lia.
  - intros tl TL. cbn [placed start lower chain_of] in *. destruct PL as (NI & (merge & L & NE) & PL1). apply incl_cons_inv in IN as [IN IN1].
    rewrite L in IN at 1. eapply does_cast; [eapply (does_restart _ _ _ _ _ _ _ _ _ _ _ _ NI IN L NE);
      exact (proj1 (sequence_done rest IHr fl next PL1 IN1) tl TL)| | | |];
    cbn [inside_depth statement_calls statement_looks inside_moves length]; lia.
Qed.

Variables (p : list statement) (last : BlockId) (merge : option GroupMerge).
Hypothesis PL : placed_program p last.
Hypothesis IN : incl (lower_program p last merge) sks.
Hypothesis EN : entry f (first_of p last).
Lemma work_exact : forall n, program_depth p <= n ->
  find_control_flow_worked n f = (Ok (program_chain p last), Build_Work (program_calls p) (program_looks p) (program_moves p)).
Proof.
  intros n L. unfold lower_program in IN. apply incl_app_inv in IN as [IN1 IR]. apply incl_cons_inv in IR as [IR _].
  assert (A : Forall done_by p) by (apply Forall_forall; intros s _; apply all_done).
  pose proof (does_return [] last merge (fun x => x) IR) as R. cbn [length] in R.
  pose proof (proj2 (sequence_done p A [] last PL IN1) eq_refl R n L) as C.
  unfold find_control_flow_worked. rewrite (build_map_Ok f ND). destruct EN as (b & rest & Q & LB). rewrite Q. cbn [answer work_bind].
  rewrite LB, C. cbn [work_bind after answer length ifs]. rewrite work_add_0. reflexivity.
Qed.
End Exact.

(** ** Bounds *)
Lemma ids_pos : forall s, 1 <= length (blocks_of s).
Proof. intros []; cbn [blocks_of length]; lia. Qed.
Lemma list_ids : forall l, length l <= length (flat_map blocks_of l).
Proof. induction l as [|s l IH]; [cbn; lia|]. cbn [flat_map length]. rewrite app_length. pose proof (ids_pos s). lia. Qed.
(** Moves: triangular numbers. *)
Definition light (s : statement) : Prop := 2 * inside_moves s <= length (blocks_of s) * (length (blocks_of s) - 1).
Lemma sequence_light : forall l, Forall light l -> forall t, 2 * sequence_moves inside_moves t l <= length (flat_map blocks_of l) * (length (flat_map blocks_of l) + 1 + 2 * t).
Proof.
  intros l F t. induction F as [|s l Fs F IH]; [cbn; lia|]. cbn [sequence_moves flat_map]. rewrite app_length. unfold light in Fs.
  pose proof (ids_pos s) as P. pose proof (list_ids l) as Q. set (a := length (blocks_of s)) in *. set (b := length (flat_map blocks_of l)) in *.
  assert (2 * (if is_exit s then 0 else 1 + length l + t) <= 2 * (1 + b + t)) by (destruct (is_exit s); lia).
  destruct a as [|a]; [lia|]. cbn [Nat.sub] in Fs. nia.
Qed.
Lemma all_light : forall s, light s.
Proof.
  induction s as [id|id cond yes no h w IHy IHn|id ct body h IHb|id cond rest w IHr|id cond rest w IHr] using statement_ind'; unfold light;
    cbn [inside_moves blocks_of length]; [lia| | | |];
    rewrite ?app_length, Nat.sub_succ, Nat.sub_0_r.
  - pose proof (sequence_light _ IHy 0). pose proof (sequence_light _ IHn 0). nia.
  - pose proof (sequence_light _ IHb 0). nia.
  - pose proof (sequence_light _ IHr 0). nia.
  - pose proof (sequence_light _ IHr 0). nia.
Qed.
Lemma moves_bound : forall p last, let k := length (chain_ids (program_chain p last)) in 2 * program_moves p <= (k - 1) * (k + 2).
Proof.
  intros p last k. unfold k. rewrite program_ids, app_length. cbn [length]. unfold program_moves.
  pose proof (sequence_light p (proj2 (Forall_forall light p) (fun s _ => all_light s)) 1) as H. nia.
Qed.
(** Looks. *)
Definition low (s : statement) : Prop := forall a c, c <= a ->
  statement_looks a c s <= 2 * a * length (blocks_of s) + length (blocks_of s) * (length (blocks_of s) + 1).
Lemma sequence_low : forall l, Forall low l -> forall a c e, c <= a ->
  sequence_looks (statement_looks a c) e l <= 2 * a * length (flat_map blocks_of l) + length (flat_map blocks_of l) * (length (flat_map blocks_of l) + 1) + e.
Proof.
  intros l F a c e L. induction F as [|s l Fs F IH]; [cbn; lia|]. specialize (Fs a c L). destruct l as [|s2 l].
  - cbn [sequence_looks flat_map]. rewrite app_nil_r. destruct (is_exit s); lia.
  - change (sequence_looks (statement_looks a c) e (s :: s2 :: l)) with (statement_looks a c s + sequence_looks (statement_looks a c) e (s2 :: l)).
    cbn [flat_map] in IH |- *. rewrite (app_length (blocks_of s)). set (b := length (blocks_of s2 ++ flat_map blocks_of l)) in *. nia.
Qed.
Lemma all_low : forall s, low s.
Proof.
  induction s as [id|id cond yes no h w IHy IHn|id ct body h IHb|id cond rest w IHr|id cond rest w IHr] using statement_ind'; intros a c L;
    cbn [statement_looks blocks_of length]; [lia| | | |].
  - pose proof (sequence_low _ IHy (S a) (S c) 1 ltac:(lia)). pose proof (sequence_low _ IHn (S a) (S c) 1 ltac:(lia)). rewrite app_length. nia.
  - pose proof (sequence_low _ IHb (S a) 0 1 ltac:(lia)). nia.
  - pose proof (sequence_low _ IHr a c 1 L). nia.
  - pose proof (sequence_low _ IHr a c 1 L). nia.
Qed.
Lemma looks_bound : forall p last, let k := length (chain_ids (program_chain p last)) in program_looks p <= k * (k - 1).
Proof.
  intros p last k. unfold k. rewrite program_ids, app_length. cbn [length]. unfold program_looks.
  pose proof (sequence_low p (proj2 (Forall_forall low p) (fun s _ => all_low s)) 0 0 0 ltac:(lia)) as H. nia.
Qed.

(** ** Statements *)
Section Statements.
Context {E : Type}.
Variable f : FunctionDefinition E.
Lemma worked_faithful : forall n, fst (find_control_flow_worked n f) = find_control_flow n f /\ Work_calls (snd (find_control_flow_worked n f)) = snd (find_control_flow_counted n f).
Proof. intros n. destruct (same_find n f) as [A B]. split; [|exact B]. rewrite A. apply counted_find. Qed.
Lemma chain_work : forall chain, returns f (Ok chain) -> let k := length (chain_ids chain) in
  exists calls looks moves, k <= calls <= 3 * k - 2 /\ looks <= k * (k - 1) /\ 2 * moves <= (k - 1) * (k + 2) /\
  forall n, find_control_flow n f = Ok chain -> find_control_flow_worked n f = (Ok chain, Build_Work calls looks moves).
Proof.
  intros chain H. apply structured_iff in H as (ND & p & last & mg & PL & IN & EN & ->). exists (program_calls p), (program_looks p), (program_moves p).
  split; [apply program_bounds; exact PL|]. split; [apply looks_bound|]. split; [apply moves_bound|].
  intros n H. rewrite (depth_exact f ND p last mg PL IN EN) in H.
  destruct (program_depth p <=? n) eqn:L; [|discriminate]. apply (work_exact f ND p last mg PL IN EN). apply Nat.leb_le. exact L.
Qed.
Lemma written_exact : forall p last, written_from f p last -> forall n, program_depth p <= n ->
  find_control_flow_worked n f = (Ok (program_chain p last), Build_Work (program_calls p) (program_looks p) (program_moves p)).
Proof.
  intros p last (T & D & (mg & PM) & EN) n Ln. pose proof (structured_round_trip f p last mg T D PM EN) as R.
  pose proof (ordinary_placed p last T D) as PL. apply structured_iff in R as (ND & _).
  apply (work_exact f ND p last mg PL); [|exact EN|exact Ln]. intros x I. apply (Permutation_in _ (Permutation_sym PM)). exact I.
Qed.
Lemma written_length : forall p last, written_from f p last -> length (chain_ids (program_chain p last)) = length (FunctionDefinition_blocks f).
Proof.
  intros p last (T & D & (mg & PM) & EN). apply Permutation_length in PM. rewrite map_length in PM. rewrite PM. unfold lower_program. rewrite program_ids, !app_length.
  rewrite <- (sequence_labels p None last), map_length. reflexivity.
Qed.
Lemma written_work : forall p last, written_from f p last -> let k := length (FunctionDefinition_blocks f) in
  exists calls looks moves, calls <= 3 * k - 2 /\ looks <= k * (k - 1) /\ 2 * moves <= (k - 1) * (k + 2) /\
  forall n, k <= n -> find_control_flow_worked n f = (Ok (program_chain p last), Build_Work calls looks moves).
Proof.
  intros p last W k. pose proof (written_length p last W) as L. fold k in L. pose proof (written_exact p last W) as X.
  assert (PL : placed_program p last) by (destruct W as (T & D & _); exact (ordinary_placed p last T D)).
  pose proof (program_bounds p last PL) as (B1 & B2 & B3). pose proof (looks_bound p last) as B4. pose proof (moves_bound p last) as B5. cbv zeta in B4, B5. rewrite L in *.
  exists (program_calls p), (program_looks p), (program_moves p). split; [lia|]. split; [exact B4|]. split; [exact B5|]. intros n Ln. apply X. lia.
Qed.
End Statements.

(** Blocks one after the other. *)
Lemma straight_written : forall E n, written_from (E := E) (straight n) (steps n) 0%N.
Proof.
  intros E n.
  assert (B : flat_map blocks_of (steps n) = map N.of_nat (seq 1 n)).
  { unfold steps. induction (seq 1 n) as [|i l IH]; [reflexivity|]. cbn [map flat_map blocks_of app]. rewrite IH. reflexivity. }
  split; [|split; [|split]].
  - unfold steps. clear. induction (seq 1 n) as [|i l IH]; [exact I|]. cbn [map]. destruct l; [exact I|]. cbn [map] in *. apply tail_last_cons. split; [exact I|exact IH].
  - rewrite B. apply (Permutation_NoDup (l := 0%N :: map N.of_nat (seq 1 n))); [apply Permutation_cons_append|]. constructor.
    + intros J. apply in_map_iff in J as (i & Q & J). apply in_seq in J. lia.
    + apply FinFun.Injective_map_NoDup; [|apply seq_NoDup]. intros a b Q. lia.
  - exists None. unfold straight. cbn [FunctionDefinition_blocks]. rewrite skeleton_of. reflexivity.
  - unfold entry, straight. cbn [FunctionDefinition_blocks]. unfold steps, lower_program. destruct n as [|n]; cbn; eauto.
Qed.
Lemma steps_work : forall n, program_calls (steps n) = S n /\ program_looks (steps n) = 0 /\ 2 * program_moves (steps n) = n * (n + 3).
Proof.
  intros n. unfold steps, program_calls, program_looks, program_moves. rewrite <- (seq_length n 1) at 2 5 6. induction (seq 1 n) as [|i l IH]; [auto|].
  cbn [map]. destruct IH as (A & B & C). rewrite (sequence_calls_cons (Step _)), (looks_cons _ _ (Step _)) by reflexivity.
  cbn [sequence_moves statement_calls statement_looks inside_moves is_exit length]. rewrite A, B, map_length. split; [reflexivity|]. split; [reflexivity|]. nia.
Qed.
Lemma moves_met : forall E n, exists (f : FunctionDefinition E) chain moves, length (FunctionDefinition_blocks f) = n + 1 /\
  2 * moves = n * (n + 3) /\ forall depth, n + 1 <= depth -> find_control_flow_worked depth f = (Ok chain, Build_Work (n + 1) 0 moves).
Proof.
  intros E n. exists (straight n), (program_chain (steps n) 0%N), (program_moves (steps n)). destruct (steps_work n) as (A & B & C).
  pose proof (straight_written E n) as W. pose proof (written_length _ _ _ W) as L. pose proof (written_exact _ _ _ W) as X.
  assert (Q : length (FunctionDefinition_blocks (straight (E := E) n)) = n + 1).
  { rewrite <- L, program_ids, app_length. cbn [length]. f_equal. unfold steps. rewrite <- (seq_length n 1) at 2. induction (seq 1 n) as [|i l IH]; [reflexivity|]. cbn [map flat_map blocks_of app length]. rewrite IH. reflexivity. }
  split; [exact Q|]. split; [exact C|]. intros d Ld. rewrite X.
  - rewrite A, B, Nat.add_1_r. reflexivity.
  - assert (PL : placed_program (steps n) 0%N) by (destruct W as (T & D & _); exact (ordinary_placed _ _ T D)). pose proof (program_bounds _ _ PL) as (B1 & _). lia.
Qed.

(** Selections inside of one another. *)
Lemma nested_written : forall E n, written_from (E := E) (nested_function n) (nested n) 0%N.
Proof.
  intros E n. split; [|split; [|split]].
  - induction n as [|n IH]; [exact I|]. cbn [nested tail_last exits_last]. split; [exact IH|exact I].
  - apply (Permutation_NoDup (l := 0%N :: flat_map blocks_of (nested n))); [apply Permutation_cons_append|]. constructor; [|apply nested_nodup].
    intros J. apply nested_ids in J. lia.
  - exists None. unfold nested_function. cbn [FunctionDefinition_blocks]. rewrite skeleton_of. reflexivity.
  - unfold entry, nested_function. cbn [FunctionDefinition_blocks]. unfold lower_program. destruct n as [|n]; cbn; eauto.
Qed.
Lemma nested_length : forall n, length (flat_map blocks_of (nested n)) = n.
Proof. induction n as [|n IH]; [reflexivity|]. cbn [nested flat_map blocks_of]. rewrite !app_nil_r. cbn [length]. rewrite IH. reflexivity. Qed.
Lemma nested_looks : forall n a c e, 2 * sequence_looks (statement_looks a c) e (nested n) = 2 * a * n + n * (n + 3) + 2 * e.
Proof.
  induction n as [|n IH]; intros a c e; [cbn; lia|]. cbn [nested sequence_looks is_exit statement_looks]. specialize (IH (S a) (S c) 1). nia.
Qed.
Lemma nested_calls : forall n, sequence_calls statement_calls (nested n) = 3 * n + 1.
Proof. induction n as [|n IH]; [reflexivity|]. cbn [nested sequence_calls is_exit statement_calls]. rewrite IH. lia. Qed.
Lemma nested_moves : forall n t, sequence_moves inside_moves t (nested n) = match n with O => 0 | S _ => n + t end.
Proof. induction n as [|n IH]; intros t; [reflexivity|]. cbn [nested sequence_moves is_exit inside_moves length]. rewrite IH. destruct n; lia. Qed.
Lemma looks_met : forall E n, exists (f : FunctionDefinition E) chain looks moves, length (FunctionDefinition_blocks f) = n + 1 /\
  2 * looks = n * (n + 3) /\ moves <= n + 1 /\ forall depth, n + 1 <= depth -> find_control_flow_worked depth f = (Ok chain, Build_Work (3 * n + 1) looks moves).
Proof.
  intros E n. exists (nested_function n), (program_chain (nested n) 0%N), (program_looks (nested n)), (program_moves (nested n)).
  pose proof (nested_written E n) as W. pose proof (written_length _ _ _ W) as L. pose proof (written_exact _ _ _ W) as X.
  split; [rewrite <- L, program_ids, app_length, nested_length; reflexivity|]. split; [unfold program_looks; rewrite nested_looks; lia|].
  split; [unfold program_moves; rewrite nested_moves; destruct n; lia|]. intros d Ld. rewrite X by (rewrite nested_depth; lia).
  unfold program_calls. rewrite nested_calls. reflexivity.
Qed.
