(** find_control_flow succeeds exactly on lowered structured programs (C65, C66). *)
From Coq Require Import Permutation.
From Verif Require Import Base Types Ops Groups ExtSet ControlFlow Spec_Flow Proofs_Flow Proofs_Flow2 Proofs_Flow3 Spec_Structured.

(** ** Induction over statements *)
Section StatementInd.
Variable P : statement -> Prop.
Hypothesis Hstep : forall id, P (Step id).
Hypothesis Hchoose : forall id c yes no h w, Forall P yes -> Forall P no -> P (Choose id c yes no h w).
Hypothesis Hrepeat : forall id ct body h, Forall P body -> P (Repeat id ct body h).
Hypothesis Hleave : forall id c rest w, Forall P rest -> P (LeaveUnless id c rest w).
Hypothesis Hrestart : forall id c rest w, Forall P rest -> P (RestartUnless id c rest w).
Fixpoint statement_ind' (s : statement) : P s :=
  let go := fix go l : Forall P l := match l with [] => Forall_nil _ | s :: l => Forall_cons _ (statement_ind' s) (go l) end in
  match s with
  | Step id => Hstep id
  | Choose id c yes no h w => Hchoose id c yes no h w (go yes) (go no)
  | Repeat id ct body h => Hrepeat id ct body h (go body)
  | LeaveUnless id c rest w => Hleave id c rest w (go rest)
  | RestartUnless id c rest w => Hrestart id c rest w (go rest)
  end.
End StatementInd.

(** ** Chains of sequences *)
Lemma items_chain_of : forall s, items (chain_of s) = [chain_of s].
Proof. intros []; reflexivity. Qed.
Lemma items_arm : forall l, items (arm chain_of l) = map chain_of l.
Proof.
  intros [|s [|s2 l]]; try reflexivity. unfold arm. destruct (is_exit s); [|reflexivity]. rewrite items_chain_of. reflexivity.
Qed.
Lemma items_program : forall l r, items (program_chain l r) = map chain_of l ++ [Atom r].
Proof. intros [|s l] r; reflexivity. Qed.
Lemma arm_cons : forall s l, is_exit s = false -> arm chain_of (s :: l) = block [chain_of s; arm chain_of l].
Proof.
  intros s l X. rewrite block2, items_chain_of, items_arm. unfold arm. destruct l as [|s2 l]; [|reflexivity]. rewrite X. reflexivity.
Qed.
Lemma program_cons : forall s l r, program_chain (s :: l) r = block [chain_of s; program_chain l r].
Proof. intros s l r. rewrite block2, items_chain_of, items_program. reflexivity. Qed.

(** ** Where a search stops *)
Definition stop_of (c : Converge) : BlockId := match c with Converge_If join _ => join | Converge_Loop head _ _ => head end.
Definition stops (fl : FlowList) : list BlockId := map stop_of fl.

Lemma merges_iff : forall fl id, merges fl id = true <-> In id (stops fl).
Proof.
  intros fl id. induction fl as [|[j h|hd mg h] fl IH]; cbn [merges stops map In stop_of]; [split; [discriminate|tauto]| |].
  - destruct (N.eqb j id) eqn:Q; [apply N.eqb_eq in Q; tauto|]. apply N.eqb_neq in Q. rewrite IH. tauto.
  - destruct (N.eqb hd id) eqn:Q; [apply N.eqb_eq in Q; tauto|]. apply N.eqb_neq in Q. rewrite IH. tauto.
Qed.
Lemma merges_false : forall fl id, merges fl id = false <-> ~ In id (stops fl).
Proof. intros fl id. rewrite <- merges_iff. destruct (merges fl id); split; congruence. Qed.
Lemma innermost_stops : forall fl h m, innermost_loop fl = Some (h, m) -> In h (stops fl).
Proof.
  induction fl as [|[j x|hd mg x] fl IH]; cbn [innermost_loop stops map In stop_of]; intros h m H; [discriminate| |].
  - right. eapply IH. exact H.
  - injection H as -> ->. left. reflexivity.
Qed.

Section Structured.
Context {E : Type}.
Variable f : FunctionDefinition E.
Hypothesis ND : NoDup (labels f).

Notation m := (block_map f).
Notation sks := (map skeleton (FunctionDefinition_blocks f)).

Lemma in_skeletons : forall id mg br, In (id, mg, br) sks <-> exists b, map_get id m = Some b /\ BasicBlock_merge b = mg /\ BasicBlock_branch b = br.
Proof.
  intros id mg br. rewrite in_map_iff. split.
  - intros (b & Q & I). injection Q as Q1 Q2 Q3. exists b. split; [|auto]. apply (find_map_iff f ND). split; assumption.
  - intros (b & G & Q2 & Q3). apply (find_map_iff f ND) in G as [I Q1]. exists b. split; [|exact I]. unfold skeleton. congruence.
Qed.

(** ** From a successful search to a program *)
Definition reads (fl : FlowList) (id : BlockId) (c : ControlFlowChain) (n : Cont) : Prop :=
  exists l j, id = first_of l j
    /\ each (placed (stops fl) (innermost_loop fl)) l j
    /\ incl (sequence (lower (innermost_loop fl)) l j) sks
    /\ match n with
       | Cont_Next j' => j' = j /\ In j (stops fl) /\ c = arm chain_of l
       | Cont_Return => ~ In j (stops fl) /\ (exists mg, In (j, mg, GroupBranch_OpReturn Build_OpReturn) sks) /\ c = program_chain l j
       end.

Lemma reads_cons : forall fl s next c n, is_exit s = false ->
  placed (stops fl) (innermost_loop fl) s next -> incl (lower (innermost_loop fl) s next) sks ->
  reads fl next c n -> reads fl (start s) (block [chain_of s; c]) n.
Proof.
  intros fl s next c n X PL IN (l & j & -> & PLl & INl & R). exists (s :: l), j. split; [reflexivity|]. split; [split; assumption|].
  split; [cbn [sequence]; apply incl_app; assumption|]. destruct n as [j'|].
  - destruct R as (-> & I & ->). split; [reflexivity|]. split; [exact I|]. symmetry. apply arm_cons. exact X.
  - destruct R as (I & M & ->). split; [exact I|]. split; [exact M|]. symmetry. apply program_cons.
Qed.

Lemma reads_next : forall fl id c j, reads fl id c (Cont_Next j) ->
  exists l, id = first_of l j /\ each (placed (stops fl) (innermost_loop fl)) l j /\ incl (sequence (lower (innermost_loop fl)) l j) sks /\ c = arm chain_of l.
Proof. intros fl id c j (l & j' & Q & PL & IN & -> & _ & C). exists l. auto. Qed.

Lemma search_reads : forall k id fl c n, search_block k id fl m = Ok (c, n) -> reads fl id c n.
Proof.
  induction k as [|k IH]; intros id fl c n; cbn [search_block]; [discriminate|].
  destruct (merges fl id) eqn:M.
  { intros H. injection H as <- <-. apply merges_iff in M. exists [], id. split; [reflexivity|]. split; [exact I|].
    split; [intros x []|]. split; [reflexivity|]. split; [exact M|reflexivity]. }
  apply merges_false in M. destruct (map_get id m) as [b|] eqn:G; [|discriminate].
  assert (IN : In (id, BasicBlock_merge b, BasicBlock_branch b) sks) by (apply in_skeletons; eauto).
  destruct (BasicBlock_branch b) as [op|op|op] eqn:B.
  - destruct op as [t]. destruct (BasicBlock_merge b) as [[lm|sm]|] eqn:Mg; [|discriminate|]; cbn [OpBranch_target_label].
    + destruct lm as [after ct hint]. cbn [OpLoopMerge_merge_block OpLoopMerge_loop_control].
      intros H. apply bind_Ok in H as ([inner inext] & Hi & H). destruct (cont_eqb inext (Cont_Next id)) eqn:C; [|discriminate].
      apply cont_eqb_eq in C. subst inext.
      apply bind_Ok in H as ([ac an] & Ha & H). injection H as <- <-.
      apply IH, reads_next in Hi as (l & -> & PLl & INl & ->). apply IH in Ha.
      apply (reads_cons fl (Repeat id ct l hint) after); [reflexivity| | |exact Ha].
      * cbn [placed start]. split; [exact M|exact PLl].
      * cbn [lower]. apply incl_cons; [exact IN|exact INl].
    + intros H. apply bind_Ok in H as ([nc nn] & Hn & H). injection H as <- <-. apply IH in Hn.
      apply (reads_cons fl (Step id) t); [reflexivity| | |exact Hn].
      * cbn [placed start]. auto.
      * cbn [lower]. apply incl_cons; [exact IN|intros x []].
  - destruct op as [cond t e w]. destruct (BasicBlock_merge b) as [[lm|sm]|] eqn:Mg; [discriminate| |];
      cbn [OpBranchConditional_true_label OpBranchConditional_false_label OpBranchConditional_weights].
    + destruct sm as [join hint]. cbn [OpSelectionMerge_merge_block OpSelectionMerge_selection_control].
      intros H. apply bind_Ok in H as ([tc tn] & Ht & H). apply bind_Ok in H as ([fc fn] & Hf & H).
      destruct (cont_eqb tn fn && cont_eqb tn (Cont_Next join)) eqn:C; [|discriminate].
      apply andb_true_iff in C as [C1 C2]. apply cont_eqb_eq in C1. apply cont_eqb_eq in C2. subst.
      apply bind_Ok in H as ([ac an] & Ha & H). injection H as <- <-.
      apply IH, reads_next in Ht as (l1 & -> & PL1 & IN1 & ->). apply IH, reads_next in Hf as (l2 & -> & PL2 & IN2 & ->). apply IH in Ha.
      apply (reads_cons fl (Choose id cond l1 l2 hint w) join); [reflexivity| | |exact Ha].
      * cbn [placed start]. split; [exact M|split; [exact PL1|exact PL2]].
      * cbn [lower]. apply incl_cons; [exact IN|apply incl_app; [exact IN1|exact IN2]].
    + destruct (innermost_loop fl) as [[head merge]|] eqn:L; [|discriminate].
      destruct (N.eqb e merge || N.eqb e head) eqn:D; [|discriminate].
      intros H. apply bind_Ok in H as ([inner inext] & Hi & H). destruct (cont_eqb inext (Cont_Next head)) eqn:C; [|discriminate].
      apply cont_eqb_eq in C. subst inext. injection H as <- <-. apply IH, reads_next in Hi as (l & -> & PLl & INl & ->).
      destruct (N.eqb e merge) eqn:D1.
      * apply N.eqb_eq in D1. subst e. exists [LeaveUnless id cond l w], head. split; [reflexivity|]. split.
        { cbn [each placed start first_of]. split; [|exact I]. split; [exact M|]. split; [exists merge; exact L|exact PLl]. }
        split; [|split; [reflexivity|split; [eapply innermost_stops; exact L|reflexivity]]].
        cbn [sequence first_of lower]. rewrite app_nil_r. rewrite L at 1. apply incl_cons; [exact IN|exact INl].
      * apply N.eqb_neq in D1. apply N.eqb_eq in D. subst e. exists [RestartUnless id cond l w], head. split; [reflexivity|]. split.
        { cbn [each placed start first_of]. split; [|exact I]. split; [exact M|]. split; [exists merge; split; [exact L|congruence]|exact PLl]. }
        split; [|split; [reflexivity|split; [eapply innermost_stops; exact L|reflexivity]]].
        cbn [sequence first_of lower]. rewrite app_nil_r. rewrite L at 1. apply incl_cons; [exact IN|exact INl].
  - intros H. injection H as <- <-. destruct op. exists [], id. split; [reflexivity|]. split; [exact I|]. split; [intros x []|].
    split; [exact M|]. split; [eexists; exact IN|reflexivity].
Qed.

(** ** From a program to a successful search *)
Definition finds (fl : FlowList) (id : BlockId) (c : ControlFlowChain) (n : Cont) : Prop := exists k, search_block k id fl m = Ok (c, n).

Lemma more_fuel : forall more k id fl r, search_block k id fl m = Ok r -> search_block (more + k) id fl m = Ok r.
Proof. intros more k id fl r H. rewrite search_mono; [exact H|]. rewrite H. discriminate. Qed.
Lemma more_fuel_r : forall more k id fl r, search_block k id fl m = Ok r -> search_block (k + more) id fl m = Ok r.
Proof. intros. rewrite Nat.add_comm. apply more_fuel. assumption. Qed.

Lemma finds_stop : forall fl id, In id (stops fl) -> finds fl id (Block []) (Cont_Next id).
Proof. intros fl id H. exists 1. cbn [search_block]. apply merges_iff in H. rewrite H. reflexivity. Qed.
Lemma finds_return : forall fl id mg, ~ In id (stops fl) -> In (id, mg, GroupBranch_OpReturn Build_OpReturn) sks -> finds fl id (Atom id) Cont_Return.
Proof.
  intros fl id mg H IN. exists 1. cbn [search_block]. apply merges_false in H. rewrite H. apply in_skeletons in IN as (b & -> & _ & ->). reflexivity.
Qed.
Lemma finds_branch : forall fl id t c n, ~ In id (stops fl) -> In (id, None, GroupBranch_OpBranch (Build_OpBranch t)) sks ->
  finds fl t c n -> finds fl id (block [Atom id; c]) n.
Proof.
  intros fl id t c n H IN (k & F). exists (S k). cbn [search_block]. apply merges_false in H. rewrite H. apply in_skeletons in IN as (b & -> & -> & ->).
  cbn [OpBranch_target_label]. rewrite F. reflexivity.
Qed.
Lemma finds_loop : forall fl id t after ct hint inner c n, ~ In id (stops fl) ->
  In (id, Some (GroupMerge_OpLoopMerge (Build_OpLoopMerge after ct hint)), GroupBranch_OpBranch (Build_OpBranch t)) sks ->
  finds (Converge_Loop id after hint :: fl) t inner (Cont_Next id) -> finds fl after c n ->
  finds fl id (block [Loop id inner hint None; c]) n.
Proof.
  intros fl id t after ct hint inner c n H IN (k1 & F1) (k2 & F2). exists (S (k1 + k2)). cbn [search_block]. apply merges_false in H. rewrite H.
  apply in_skeletons in IN as (b & -> & -> & ->). cbn [OpBranch_target_label OpLoopMerge_merge_block OpLoopMerge_loop_control].
  rewrite (more_fuel_r _ _ _ _ _ F1). cbn [bind]. rewrite cont_eqb_refl. rewrite (more_fuel _ _ _ _ _ F2). reflexivity.
Qed.
Lemma finds_selection : forall fl id cond t e w join hint lhs rhs c n, ~ In id (stops fl) ->
  In (id, Some (GroupMerge_OpSelectionMerge (Build_OpSelectionMerge join hint)), GroupBranch_OpBranchConditional (Build_OpBranchConditional cond t e w)) sks ->
  finds (Converge_If join hint :: fl) t lhs (Cont_Next join) -> finds (Converge_If join hint :: fl) e rhs (Cont_Next join) ->
  finds fl join c n -> finds fl id (block [Selection id lhs rhs hint w; c]) n.
Proof.
  intros fl id cond t e w join hint lhs rhs c n H IN (k1 & F1) (k2 & F2) (k3 & F3). exists (S (k1 + k2 + k3)). cbn [search_block]. apply merges_false in H. rewrite H.
  apply in_skeletons in IN as (b & -> & -> & ->).
  cbn [OpBranchConditional_true_label OpBranchConditional_false_label OpBranchConditional_weights OpSelectionMerge_merge_block OpSelectionMerge_selection_control].
  rewrite (more_fuel_r _ _ _ _ _ (more_fuel_r _ _ _ _ _ F1)). cbn [bind]. rewrite (more_fuel_r _ _ _ _ _ (more_fuel _ _ _ _ _ F2)). cbn [bind].
  rewrite cont_eqb_refl. cbn [andb]. rewrite (more_fuel _ _ _ _ _ F3). reflexivity.
Qed.
Lemma finds_leave : forall fl id cond t w head merge inner, ~ In id (stops fl) ->
  In (id, None, GroupBranch_OpBranchConditional (Build_OpBranchConditional cond t merge w)) sks ->
  innermost_loop fl = Some (head, merge) -> finds fl t inner (Cont_Next head) ->
  finds fl id (Selection id inner Break (Build_SelectionControl false false) w) (Cont_Next head).
Proof.
  intros fl id cond t w head merge inner H IN L (k & F). exists (S k). cbn [search_block]. apply merges_false in H. rewrite H.
  apply in_skeletons in IN as (b & -> & -> & ->). cbn [OpBranchConditional_true_label OpBranchConditional_false_label OpBranchConditional_weights].
  rewrite L, N.eqb_refl. cbn [orb]. rewrite F. cbn [bind]. rewrite cont_eqb_refl. reflexivity.
Qed.
Lemma finds_restart : forall fl id cond t w head merge inner, ~ In id (stops fl) ->
  In (id, None, GroupBranch_OpBranchConditional (Build_OpBranchConditional cond t head w)) sks ->
  innermost_loop fl = Some (head, merge) -> merge <> head -> finds fl t inner (Cont_Next head) ->
  finds fl id (Selection id inner Continue (Build_SelectionControl false false) w) (Cont_Next head).
Proof.
  intros fl id cond t w head merge inner H IN L NE (k & F). exists (S k). cbn [search_block]. apply merges_false in H. rewrite H.
  apply in_skeletons in IN as (b & -> & -> & ->). cbn [OpBranchConditional_true_label OpBranchConditional_false_label OpBranchConditional_weights].
  rewrite L, N.eqb_refl. assert (N.eqb head merge = false) as -> by (apply N.eqb_neq; congruence). cbn [orb]. rewrite F. cbn [bind]. rewrite cont_eqb_refl. reflexivity.
Qed.

Definition found (s : statement) : Prop := forall fl next,
  placed (stops fl) (innermost_loop fl) s next -> incl (lower (innermost_loop fl) s next) sks ->
  if is_exit s then In next (stops fl) /\ finds fl (start s) (chain_of s) (Cont_Next next)
  else forall c n, finds fl next c n -> finds fl (start s) (block [chain_of s; c]) n.

Lemma sequence_found : forall l, Forall found l -> forall fl next, each (placed (stops fl) (innermost_loop fl)) l next ->
  incl (sequence (lower (innermost_loop fl)) l next) sks ->
  (In next (stops fl) -> finds fl (first_of l next) (arm chain_of l) (Cont_Next next))
  /\ (~ In next (stops fl) -> finds fl next (Atom next) Cont_Return -> finds fl (first_of l next) (program_chain l next) Cont_Return).
Proof.
  intros l F. induction F as [|s l Fs F IH]; intros fl next PL IN.
  - split; [apply finds_stop|auto].
  - cbn [each] in PL. destruct PL as [PLs PL]. cbn [sequence] in IN. apply incl_app_inv in IN as [INs IN].
    pose proof (Fs fl _ PLs INs) as X. destruct (IH fl next PL IN) as [IH1 IH2]. cbn [first_of]. destruct (is_exit s) eqn:XS.
    + destruct X as [I X]. destruct l as [|s2 l].
      * cbn [first_of] in X, I. split; [|tauto]. intros _. unfold arm. rewrite XS. exact X.
      * destruct PL as [PL2 _]. cbn [first_of] in I. exfalso. destruct s2; cbn [placed start] in PL2, I; tauto.
    + split.
      * intros I. rewrite (arm_cons _ _ XS). auto.
      * intros I R. rewrite program_cons. auto.
Qed.

Lemma all_found : forall s, found s.
Proof.
  induction s as [id|id cond yes no h w IHy IHn|id ct body h IHb|id cond rest w IHr|id cond rest w IHr] using statement_ind'; intros fl next PL IN; cbn [is_exit].
  - intros c n F. cbn [placed start lower chain_of] in *. apply incl_cons_inv in IN as [IN _]. apply (finds_branch _ _ _ _ _ (proj1 PL) IN F).
  - intros c n F. cbn [placed start lower chain_of] in *. destruct PL as (NI & PL1 & PL2). apply incl_cons_inv in IN as [IN IN2]. apply incl_app_inv in IN2 as [IN1 IN2].
    apply (finds_selection _ _ _ _ _ _ _ _ _ _ _ _ NI IN); [| |exact F].
    + apply (proj1 (sequence_found yes IHy (Converge_If next h :: fl) next PL1 IN1)). left. reflexivity.
    + apply (proj1 (sequence_found no IHn (Converge_If next h :: fl) next PL2 IN2)). left. reflexivity.
  - intros c n F. cbn [placed start lower chain_of] in *. destruct PL as (NI & PL1). apply incl_cons_inv in IN as [IN IN1].
    apply (finds_loop _ _ _ _ _ _ _ _ _ NI IN); [|exact F].
    apply (proj1 (sequence_found body IHb (Converge_Loop id next h :: fl) id PL1 IN1)). left. reflexivity.
  - cbn [placed start lower chain_of] in *. destruct PL as (NI & (merge & L) & PL1). apply incl_cons_inv in IN as [IN IN1].
    pose proof (innermost_stops _ _ _ L) as HS. split; [exact HS|].
    rewrite L in IN at 1. apply (finds_leave _ _ _ _ _ _ _ _ NI IN L).
    apply (proj1 (sequence_found rest IHr fl next PL1 IN1) HS).
  - cbn [placed start lower chain_of] in *. destruct PL as (NI & (merge & L & NE) & PL1). apply incl_cons_inv in IN as [IN IN1].
    pose proof (innermost_stops _ _ _ L) as HS. split; [exact HS|].
    rewrite L in IN at 1. apply (finds_restart _ _ _ _ _ _ _ _ NI IN L NE).
    apply (proj1 (sequence_found rest IHr fl next PL1 IN1) HS).
Qed.

End Structured.

(** ** Exact success *)
Section Success.
Context {E : Type}.
Variable f : FunctionDefinition E.

Theorem structured_iff : forall c, returns f (Ok c) <->
  NoDup (labels f) /\ exists p last merge, placed_program p last
    /\ incl (lower_program p last merge) (map skeleton (FunctionDefinition_blocks f))
    /\ entry f (first_of p last) /\ c = program_chain p last.
Proof.
  intros c. split.
  - intros [_ (depth & H)]. apply find_inv in H as (ND & s & En & H & _). split; [exact ND|].
    apply (search_reads f ND) in H as (l & j & -> & PL & IN & _ & (mg & IR) & ->). exists l, j, mg. split; [exact PL|]. split; [|auto].
    unfold lower_program. apply incl_app; [exact IN|]. apply incl_cons; [exact IR|intros x []].
  - intros (ND & p & last & mg & PL & IN & En & ->). split; [discriminate|].
    unfold lower_program in IN. apply incl_app_inv in IN as [IN IR]. apply incl_cons_inv in IR as [IR _].
    assert (F : finds f [] (first_of p last) (program_chain p last) Cont_Return).
    { apply (sequence_found f p); [|exact PL|exact IN|intros []|].
      - apply Forall_forall. intros s _. apply all_found. exact ND.
      - apply (finds_return f ND [] last mg); [intros []|exact IR]. }
    destruct F as (k & F). exists k. rewrite (find_eq f ND). destruct En as (b & rest & Q & L). rewrite Q. cbv beta iota. rewrite L, F. reflexivity.
Qed.
End Success.

(** ** Ordinary programs are well placed *)
Lemma lower_labels : forall s loop next, map (fun b : BlockId * option GroupMerge * GroupBranch => fst (fst b)) (lower loop s next) = blocks_of s.
Proof.
  assert (Q : forall l, Forall (fun s => forall loop next, map (fun b : BlockId * option GroupMerge * GroupBranch => fst (fst b)) (lower loop s next) = blocks_of s) l ->
    forall loop next, map (fun b : BlockId * option GroupMerge * GroupBranch => fst (fst b)) (sequence (lower loop) l next) = flat_map blocks_of l).
  { intros l F. induction F as [|s l Fs F IH]; intros loop next; cbn [sequence flat_map map]; [reflexivity|]. rewrite map_app, Fs, IH. reflexivity. }
  induction s as [id|id cond yes no h w IHy IHn|id ct body h IHb|id cond rest w IHr|id cond rest w IHr] using statement_ind'; intros loop next;
    cbn [lower blocks_of map fst]; f_equal; rewrite ?map_app, ?Q; auto.
Qed.
Lemma sequence_labels : forall l loop next, map (fun b : BlockId * option GroupMerge * GroupBranch => fst (fst b)) (sequence (lower loop) l next) = flat_map blocks_of l.
Proof.
  induction l as [|s l IH]; intros loop next; cbn [sequence flat_map map]; [reflexivity|]. rewrite map_app, lower_labels, IH. reflexivity.
Qed.

Lemma start_in : forall s, In (start s) (blocks_of s).
Proof. intros []; left; reflexivity. Qed.
Lemma first_in : forall l next, first_of l next = next \/ In (first_of l next) (flat_map blocks_of l).
Proof. intros [|s l] next; [left; reflexivity|right]. cbn [first_of flat_map]. apply in_or_app. left. apply start_in. Qed.

Definition apart (l : list BlockId) (stops : list BlockId) : Prop := forall x, In x l -> ~ In x stops.

(** After the statement comes [next]; in tail position that is the head of the innermost loop. *)
Definition tail_ok (tail : bool) (loop : option (BlockId * BlockId)) (next : BlockId) : Prop :=
  tail = true -> exists merge, loop = Some (next, merge) /\ merge <> next.

Definition well (s : statement) : Prop := forall tail st loop next,
  exits_last tail s -> NoDup (blocks_of s) -> ~ In next (blocks_of s) -> apart (blocks_of s) st -> tail_ok tail loop next -> placed st loop s next.

Lemma NoDup_app_l : forall {A} (a b : list A), NoDup (a ++ b) -> NoDup a.
Proof. intros A a b H. induction a as [|x a IH]; [constructor|]. inversion H; subst. constructor; [|auto]. intros I. apply H2. apply in_or_app. auto. Qed.
Lemma NoDup_app_r : forall {A} (a b : list A), NoDup (a ++ b) -> NoDup b.
Proof. intros A a b H. induction a as [|x a IH]; [exact H|]. inversion H; subst. auto. Qed.
Lemma NoDup_app_apart : forall {A} (a b : list A), NoDup (a ++ b) -> forall x, In x a -> ~ In x b.
Proof.
  intros A a b H. induction a as [|y a IH]; intros x I; [destruct I|]. inversion H; subst. destruct I as [->|I].
  - intros J. apply H2. apply in_or_app. auto.
  - apply IH; auto.
Qed.

Lemma tail_last_cons : forall P tail s s2 l, tail_last P tail (s :: s2 :: l) <-> P false s /\ tail_last P tail (s2 :: l).
Proof. intros. cbn [tail_last]. tauto. Qed.

Lemma sequence_well : forall l, Forall well l -> forall tail st loop next,
  tail_last exits_last tail l -> NoDup (flat_map blocks_of l) -> ~ In next (flat_map blocks_of l) -> apart (flat_map blocks_of l) st -> tail_ok tail loop next ->
  each (placed st loop) l next.
Proof.
  intros l F. induction F as [|s l Fs F IH]; intros tail st loop next T D NI AP TO; [exact I|]. cbn [each]. cbn [flat_map] in *.
  pose proof (NoDup_app_l _ _ D) as D1. pose proof (NoDup_app_r _ _ D) as D2. pose proof (NoDup_app_apart _ _ D) as D3.
  rewrite in_app_iff in NI. assert (AP1 : apart (blocks_of s) st) by (intros x I; apply AP, in_or_app; auto).
  assert (AP2 : apart (flat_map blocks_of l) st) by (intros x I; apply AP, in_or_app; auto).
  destruct l as [|s2 l].
  - cbn [tail_last] in T. split; [|exact I]. cbn [first_of]. apply (Fs tail); tauto.
  - apply tail_last_cons in T as [T1 T2]. split.
    + apply (Fs false); try assumption; [|intros Q; discriminate Q]. cbn [first_of]. intros J. apply (D3 _ J). cbn [flat_map]. apply in_or_app. left. apply start_in.
    + apply (IH tail); try assumption. tauto.
Qed.

Lemma all_well : forall s, well s.
Proof.
  induction s as [id|id cond yes no h w IHy IHn|id ct body h IHb|id cond rest w IHr|id cond rest w IHr] using statement_ind';
    intros tail st loop next T D NI AP TO; cbn [placed start blocks_of exits_last] in *;
    (split; [apply AP; left; reflexivity|]).
  - exact I.
  - destruct T as [T1 T2]. inversion D as [|x y D0 D']; subst. pose proof (NoDup_app_l _ _ D') as D1. pose proof (NoDup_app_r _ _ D') as D2.
    cbn [In] in NI. rewrite in_app_iff in NI.
    split; (eapply sequence_well; [eassumption|eassumption|assumption|tauto| |exact TO]);
      (intros x Ix [<-|J]; [tauto|apply (AP x); [right; apply in_or_app; auto|exact J]]).
  - inversion D as [|x y D0 D']; subst. cbn [In] in NI. eapply sequence_well; [eassumption|exact T|exact D'|exact D0| |].
    + intros x Ix [<-|J]; [tauto|apply (AP x); [right; exact Ix|exact J]].
    + intros _. exists next. split; [reflexivity|]. intros Q. apply NI. left. congruence.
  - destruct T as [-> T]. inversion D as [|x y D0 D']; subst. cbn [In] in NI. destruct (TO eq_refl) as (merge & L & NE). split; [eauto|].
    eapply sequence_well; [eassumption|exact T|exact D'|tauto| |exact TO]. intros x Ix. apply AP. right. exact Ix.
  - destruct T as [-> T]. inversion D as [|x y D0 D']; subst. cbn [In] in NI. destruct (TO eq_refl) as (merge & L & NE). split; [eauto|].
    eapply sequence_well; [eassumption|exact T|exact D'|tauto| |exact TO]. intros x Ix. apply AP. right. exact Ix.
Qed.

Theorem ordinary_placed : forall p last, tail_last exits_last false p -> NoDup (flat_map blocks_of p ++ [last]) -> placed_program p last.
Proof.
  intros p last T D. unfold placed_program. eapply sequence_well; [|exact T|exact (NoDup_app_l _ _ D)| | |].
  - apply Forall_forall. intros s _. apply all_well.
  - intros J. apply (NoDup_app_apart _ _ D _ J). left. reflexivity.
  - intros x _ [].
  - intros Q. discriminate Q.
Qed.

Theorem structured_round_trip : forall {E} (f : FunctionDefinition E) p last merge,
  tail_last exits_last false p -> NoDup (flat_map blocks_of p ++ [last]) ->
  Permutation (map skeleton (FunctionDefinition_blocks f)) (lower_program p last merge) -> entry f (first_of p last) ->
  returns f (Ok (program_chain p last)).
Proof.
  intros E f p last merge T D PM En. apply structured_iff. split.
  - assert (L : Permutation (labels f) (flat_map blocks_of p ++ [last])).
    { assert (labels f = map (fun b : BlockId * option GroupMerge * GroupBranch => fst (fst b)) (map skeleton (FunctionDefinition_blocks f))) as ->.
      { unfold labels. rewrite map_map. reflexivity. }
      rewrite PM. unfold lower_program. rewrite map_app, sequence_labels. reflexivity. }
    apply (Permutation_NoDup (Permutation_sym L) D).
  - exists p, last, merge. split; [apply ordinary_placed; assumption|]. split; [|auto].
    intros x I. apply (Permutation_in _ (Permutation_sym PM)). exact I.
Qed.
