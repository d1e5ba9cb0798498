(** Lemmas for C81 and C82: depth and number of calls of find_control_flow. *)
From Coq Require Import Permutation.
From Verif Require Import Base Types Ops Groups ExtSet ControlFlow ControlFlowCount Spec_Flow Proofs_Flow Proofs_Flow2 Proofs_Flow3 Spec_Structured Spec_Cost Proofs_Structured.

Section Count.
Context {E : Type}.

Lemma fst_bind : forall {A B} (x : counted A) (f : A -> counted B) r g, fst x = r -> (forall v, fst (f v) = g v) -> fst (count_bind x f) = bind r g.
Proof.
  intros A B [x n] f r g <- G. cbn [fst]. destruct x as [v|e| |]; cbn [count_bind bind]; try reflexivity.
  rewrite <- G. destruct (f v). reflexivity.
Qed.
Lemma fst_more : forall {A} (x : counted A), fst (one_more x) = fst x.
Proof. intros A [r n]. reflexivity. Qed.

Lemma counted_search : forall k id fl (m : BlockMap (E := E)), fst (search_block_counted k id fl m) = search_block k id fl m.
Proof.
  induction k as [|k IH]; intros id fl m; [reflexivity|]. cbn [search_block_counted search_block]. rewrite fst_more.
  destruct (merges fl id); [reflexivity|]. destruct (map_get id m) as [b|]; [|reflexivity].
  destruct (BasicBlock_branch b) as [op|op|op]; [| |reflexivity]; (destruct (BasicBlock_merge b) as [[lm|sm]|]; try reflexivity).
  - apply fst_bind; [apply IH|]. intros [ic inx]. destruct (cont_eqb inx _); [|reflexivity]. apply fst_bind; [apply IH|]. intros [ac an]. reflexivity.
  - apply fst_bind; [apply IH|]. intros [ac an]. reflexivity.
  - apply fst_bind; [apply IH|]. intros [tc tn]. apply fst_bind; [apply IH|]. intros [fc fn]. destruct (_ && _); [|reflexivity].
    apply fst_bind; [apply IH|]. intros [ac an]. reflexivity.
  - destruct (innermost_loop fl) as [[h mg]|]; [|reflexivity]. destruct (_ || _); [|reflexivity].
    apply fst_bind; [apply IH|]. intros [ic inx]. destruct (cont_eqb inx _); reflexivity.
Qed.
Lemma counted_find : forall k (f : FunctionDefinition E), fst (find_control_flow_counted k f) = find_control_flow k f.
Proof.
  intros k f. unfold find_control_flow_counted, find_control_flow. apply fst_bind; [reflexivity|]. intros [s m]. destruct s as [s|]; [|reflexivity].
  apply fst_bind; [apply counted_search|]. intros [c [j|]]; reflexivity.
Qed.

Variable f : FunctionDefinition E.
Hypothesis ND : NoDup (labels f).
Notation m := (block_map f).
Notation sks := (map skeleton (FunctionDefinition_blocks f)).

(** The search takes depth [d] and [q] calls. *)
Definition costs (fl : FlowList) (id : BlockId) (c : ControlFlowChain) (n : Cont) (d q : nat) : Prop :=
  forall k, if d <=? k then search_block_counted k id fl m = (Ok (c, n), q) else fst (search_block_counted k id fl m) = OutOfFuel.

Lemma costs_yes : forall fl id c n d q k, costs fl id c n d q -> d <= k -> search_block_counted k id fl m = (Ok (c, n), q).
Proof. intros fl id c n d q k H L. specialize (H k). rewrite (proj2 (Nat.leb_le _ _) L) in H. exact H. Qed.
Lemma costs_no : forall fl id c n d q k, costs fl id c n d q -> k < d -> fst (search_block_counted k id fl m) = OutOfFuel.
Proof. intros fl id c n d q k H L. specialize (H k). rewrite (proj2 (Nat.leb_gt _ _) L) in H. exact H. Qed.
Lemma costs_intro : forall fl id c n d q, (forall k, d <= S k -> search_block_counted (S k) id fl m = (Ok (c, n), q)) ->
  (forall k, S k < d -> fst (search_block_counted (S k) id fl m) = OutOfFuel) -> 1 <= d -> costs fl id c n d q.
Proof.
  intros fl id c n d q Y N P [|k]; destruct (d <=? _) eqn:L; [apply Nat.leb_le in L; lia|reflexivity| |].
  - apply Y. apply Nat.leb_le. exact L.
  - apply N. apply Nat.leb_gt. exact L.
Qed.
Lemma out_bind : forall {A B} (x : counted A) (g : A -> counted B), fst x = OutOfFuel -> fst (count_bind x g) = OutOfFuel.
Proof. intros A B [x n] g. cbn [fst]. intros ->. reflexivity. Qed.

Lemma costs_stop : forall fl id, In id (stops fl) -> costs fl id (Block []) (Cont_Next id) 1 1.
Proof.
  intros fl id H. apply merges_iff in H. apply costs_intro; [| |lia]; intros k L; [|lia]. cbn [search_block_counted]. rewrite H. reflexivity.
Qed.
Lemma costs_return : forall fl id mg, ~ In id (stops fl) -> In (id, mg, GroupBranch_OpReturn Build_OpReturn) sks -> costs fl id (Atom id) Cont_Return 1 1.
Proof.
  intros fl id mg H IN. apply merges_false in H. apply (in_skeletons f ND) in IN as (b & G & _ & B).
  apply costs_intro; [| |lia]; intros k L; [|lia]. cbn [search_block_counted]. rewrite H, G, B. reflexivity.
Qed.
Lemma costs_branch : forall fl id t c n d q, ~ In id (stops fl) -> In (id, None, GroupBranch_OpBranch (Build_OpBranch t)) sks ->
  costs fl t c n d q -> costs fl id (block [Atom id; c]) n (S d) (S q).
Proof.
  intros fl id t c n d q H IN F. apply merges_false in H. apply (in_skeletons f ND) in IN as (b & G & M & B).
  apply costs_intro; [| |lia]; intros k L; cbn [search_block_counted]; rewrite H, G, B, M; cbn [OpBranch_target_label].
  - rewrite (costs_yes _ _ _ _ _ _ _ F) by lia. cbn [count_bind answer one_more]. rewrite Nat.add_0_r. reflexivity.
  - rewrite fst_more. apply out_bind. apply (costs_no _ _ _ _ _ _ _ F). lia.
Qed.
Lemma costs_loop : forall fl id t after ct hint inner c n d1 q1 d2 q2, ~ In id (stops fl) ->
  In (id, Some (GroupMerge_OpLoopMerge (Build_OpLoopMerge after ct hint)), GroupBranch_OpBranch (Build_OpBranch t)) sks ->
  costs (Converge_Loop id after hint :: fl) t inner (Cont_Next id) d1 q1 -> costs fl after c n d2 q2 ->
  costs fl id (block [Loop id inner hint None; c]) n (S (Nat.max d1 d2)) (S (q1 + q2)).
Proof.
  intros fl id t after ct hint inner c n d1 q1 d2 q2 H IN F1 F2. apply merges_false in H. apply (in_skeletons f ND) in IN as (b & G & M & B).
  apply costs_intro; [| |lia]; intros k L; cbn [search_block_counted]; rewrite H, G, B, M; cbn [OpBranch_target_label OpLoopMerge_merge_block OpLoopMerge_loop_control].
  - rewrite (costs_yes _ _ _ _ _ _ _ F1) by lia. cbn [count_bind]. rewrite cont_eqb_refl. rewrite (costs_yes _ _ _ _ _ _ _ F2) by lia. cbn [count_bind answer one_more].
    rewrite Nat.add_0_r. reflexivity.
  - rewrite fst_more. destruct (Nat.lt_ge_cases k d1) as [L1|L1].
    + apply out_bind. apply (costs_no _ _ _ _ _ _ _ F1). lia.
    + rewrite (costs_yes _ _ _ _ _ _ _ F1) by lia. cbn [count_bind]. rewrite cont_eqb_refl.
      pose proof (costs_no _ _ _ _ _ _ k F2 ltac:(lia)) as O. destruct (search_block_counted k after fl m) as [r x]. cbn [fst] in O. subst r. reflexivity.
Qed.
Lemma costs_selection : forall fl id cond t e w join hint lhs rhs c n d1 q1 d2 q2 d3 q3, ~ In id (stops fl) ->
  In (id, Some (GroupMerge_OpSelectionMerge (Build_OpSelectionMerge join hint)), GroupBranch_OpBranchConditional (Build_OpBranchConditional cond t e w)) sks ->
  costs (Converge_If join hint :: fl) t lhs (Cont_Next join) d1 q1 -> costs (Converge_If join hint :: fl) e rhs (Cont_Next join) d2 q2 ->
  costs fl join c n d3 q3 -> costs fl id (block [Selection id lhs rhs hint w; c]) n (S (Nat.max (Nat.max d1 d2) d3)) (S (q1 + q2 + q3)).
Proof.
  intros fl id cond t e w join hint lhs rhs c n d1 q1 d2 q2 d3 q3 H IN F1 F2 F3. apply merges_false in H. apply (in_skeletons f ND) in IN as (b & G & M & B).
  apply costs_intro; [| |lia]; intros k L; cbn [search_block_counted]; rewrite H, G, B, M;
  cbn [OpBranchConditional_true_label OpBranchConditional_false_label OpBranchConditional_weights OpSelectionMerge_merge_block OpSelectionMerge_selection_control].
  - rewrite (costs_yes _ _ _ _ _ _ _ F1) by lia. cbn [count_bind]. rewrite (costs_yes _ _ _ _ _ _ _ F2) by lia. cbn [count_bind].
    rewrite cont_eqb_refl. cbn [andb]. rewrite (costs_yes _ _ _ _ _ _ _ F3) by lia. cbn [count_bind answer one_more].
    rewrite Nat.add_0_r, Nat.add_assoc. reflexivity.
  - rewrite fst_more. destruct (Nat.lt_ge_cases k d1) as [L1|L1]; [|destruct (Nat.lt_ge_cases k d2) as [L2|L2]].
    + apply out_bind. apply (costs_no _ _ _ _ _ _ _ F1). lia.
    + rewrite (costs_yes _ _ _ _ _ _ _ F1) by lia. cbn [count_bind].
      pose proof (costs_no _ _ _ _ _ _ k F2 ltac:(lia)) as O. destruct (search_block_counted k e _ m) as [r x]. cbn [fst] in O. subst r. reflexivity.
    + rewrite (costs_yes _ _ _ _ _ _ _ F1) by lia. cbn [count_bind]. rewrite (costs_yes _ _ _ _ _ _ _ F2) by lia. cbn [count_bind]. rewrite cont_eqb_refl. cbn [andb].
      pose proof (costs_no _ _ _ _ _ _ k F3 ltac:(lia)) as O. destruct (search_block_counted k join fl m) as [r x]. cbn [fst] in O. subst r. reflexivity.
Qed.
Lemma costs_leave : forall fl id cond t w head merge inner d q, ~ In id (stops fl) ->
  In (id, None, GroupBranch_OpBranchConditional (Build_OpBranchConditional cond t merge w)) sks ->
  innermost_loop fl = Some (head, merge) -> costs fl t inner (Cont_Next head) d q ->
  costs fl id (Selection id inner Break (Build_SelectionControl false false) w) (Cont_Next head) (S d) (S q).
Proof.
  intros fl id cond t w head merge inner d q H IN L0 F. apply merges_false in H. apply (in_skeletons f ND) in IN as (b & G & M & B).
  apply costs_intro; [| |lia]; intros k L; cbn [search_block_counted]; rewrite H, G, B, M;
  cbn [OpBranchConditional_true_label OpBranchConditional_false_label OpBranchConditional_weights]; rewrite L0, N.eqb_refl; cbn [orb].
  - rewrite (costs_yes _ _ _ _ _ _ _ F) by lia. cbn [count_bind]. rewrite cont_eqb_refl. cbn [answer one_more]. rewrite Nat.add_0_r. reflexivity.
  - rewrite fst_more. apply out_bind. apply (costs_no _ _ _ _ _ _ _ F). lia.
Qed.
Lemma costs_restart : forall fl id cond t w head merge inner d q, ~ In id (stops fl) ->
  In (id, None, GroupBranch_OpBranchConditional (Build_OpBranchConditional cond t head w)) sks ->
  innermost_loop fl = Some (head, merge) -> merge <> head -> costs fl t inner (Cont_Next head) d q ->
  costs fl id (Selection id inner Continue (Build_SelectionControl false false) w) (Cont_Next head) (S d) (S q).
Proof.
  intros fl id cond t w head merge inner d q H IN L0 NE F. apply merges_false in H. apply (in_skeletons f ND) in IN as (b & G & M & B).
  assert (D : N.eqb head merge = false) by (apply N.eqb_neq; congruence).
  apply costs_intro; [| |lia]; intros k L; cbn [search_block_counted]; rewrite H, G, B, M;
  cbn [OpBranchConditional_true_label OpBranchConditional_false_label OpBranchConditional_weights]; rewrite L0, N.eqb_refl, D; cbn [orb].
  - rewrite (costs_yes _ _ _ _ _ _ _ F) by lia. cbn [count_bind]. rewrite cont_eqb_refl. cbn [answer one_more]. rewrite Nat.add_0_r. reflexivity.
  - rewrite fst_more. apply out_bind. apply (costs_no _ _ _ _ _ _ _ F). lia.
Qed.

Lemma depth_pos : forall l, 1 <= sequence_depth inside_depth l.
Proof. intros [|s l]; cbn [sequence_depth]; lia. Qed.

Lemma sequence_calls_cons : forall s l, is_exit s = false -> sequence_calls statement_calls (s :: l) = statement_calls s + sequence_calls statement_calls l.
Proof. intros s [|s2 l] X; [|reflexivity]. cbn [sequence_calls]. rewrite X. reflexivity. Qed.

Definition paid (s : statement) : Prop := forall fl next,
  placed (stops fl) (innermost_loop fl) s next -> incl (lower (innermost_loop fl) s next) sks ->
  if is_exit s then In next (stops fl) /\ costs fl (start s) (chain_of s) (Cont_Next next) (S (inside_depth s)) (statement_calls s)
  else forall c n d q, 1 <= d -> costs fl next c n d q -> costs fl (start s) (block [chain_of s; c]) n (S (Nat.max (inside_depth s) d)) (statement_calls s + q).

Lemma sequence_paid : forall l, Forall paid l -> forall fl next, each (placed (stops fl) (innermost_loop fl)) l next ->
  incl (sequence (lower (innermost_loop fl)) l next) sks ->
  (In next (stops fl) -> costs fl (first_of l next) (arm chain_of l) (Cont_Next next) (sequence_depth inside_depth l) (sequence_calls statement_calls l))
  /\ (~ In next (stops fl) -> costs fl next (Atom next) Cont_Return 1 1 ->
      costs fl (first_of l next) (program_chain l next) Cont_Return (sequence_depth inside_depth l) (sequence_calls statement_calls l)).
Proof.
  intros l F. induction F as [|s l Fs F IH]; intros fl next PL IN.
  - split; [apply costs_stop|auto].
  - cbn [each] in PL. destruct PL as [PLs PL]. cbn [sequence] in IN. apply incl_app_inv in IN as [INs IN].
    pose proof (Fs fl _ PLs INs) as X. destruct (IH fl next PL IN) as [IH1 IH2]. cbn [first_of sequence_depth]. destruct (is_exit s) eqn:XS.
    + destruct X as [I X]. destruct l as [|s2 l].
      * cbn [first_of] in X, I. split; [|tauto]. intros _. unfold arm. cbn [sequence_depth sequence_calls]. rewrite XS, Nat.add_0_r.
        replace (1 + Nat.max (inside_depth s) 1) with (S (inside_depth s)); [exact X|].
        assert (1 <= inside_depth s) by (destruct s; try discriminate XS; cbn [inside_depth]; apply depth_pos). lia.
      * destruct PL as [PL2 _]. cbn [first_of] in I. exfalso. destruct s2; cbn [placed start] in PL2, I; tauto.
    + rewrite (sequence_calls_cons _ _ XS). split.
      * intros I. rewrite (arm_cons _ _ XS). apply X; auto using depth_pos.
      * intros I R. rewrite program_cons. apply X; auto using depth_pos.
Qed.

Lemma all_paid : forall s, paid s.
Proof.
  induction s as [id|id cond yes no h w IHy IHn|id ct body h IHb|id cond rest w IHr|id cond rest w IHr] using statement_ind'; intros fl next PL IN; cbn [is_exit].
  - intros c n d q P F. cbn [placed start lower chain_of] in *. apply incl_cons_inv in IN as [IN _]. apply (costs_branch _ _ _ _ _ _ _ (proj1 PL) IN F).
  - intros c n d q P F. cbn [placed start lower chain_of] in *. destruct PL as (NI & PL1 & PL2). apply incl_cons_inv in IN as [IN IN2]. apply incl_app_inv in IN2 as [IN1 IN2].
    apply (costs_selection _ _ _ _ _ _ _ _ _ _ _ _ _ _ _ _ _ _ NI IN); [| |exact F].
    + apply (proj1 (sequence_paid yes IHy (Converge_If next h :: fl) next PL1 IN1)). left. reflexivity.
    + apply (proj1 (sequence_paid no IHn (Converge_If next h :: fl) next PL2 IN2)). left. reflexivity.
  - intros c n d q P F. cbn [placed start lower chain_of] in *. destruct PL as (NI & PL1). apply incl_cons_inv in IN as [IN IN1].
    apply (costs_loop _ _ _ _ _ _ _ _ _ _ _ _ _ NI IN); [|exact F].
    apply (proj1 (sequence_paid body IHb (Converge_Loop id next h :: fl) id PL1 IN1)). left. reflexivity.
  - cbn [placed start lower chain_of] in *. destruct PL as (NI & (merge & L) & PL1). apply incl_cons_inv in IN as [IN IN1].
    pose proof (innermost_stops _ _ _ L) as HS. split; [exact HS|].
    rewrite L in IN at 1. apply (costs_leave _ _ _ _ _ _ _ _ _ _ NI IN L).
    apply (proj1 (sequence_paid rest IHr fl next PL1 IN1) HS).
  - cbn [placed start lower chain_of] in *. destruct PL as (NI & (merge & L & NE) & PL1). apply incl_cons_inv in IN as [IN IN1].
    pose proof (innermost_stops _ _ _ L) as HS. split; [exact HS|].
    rewrite L in IN at 1. apply (costs_restart _ _ _ _ _ _ _ _ _ _ NI IN L NE).
    apply (proj1 (sequence_paid rest IHr fl next PL1 IN1) HS).
Qed.

Lemma program_paid : forall p last merge, placed_program p last -> incl (lower_program p last merge) sks ->
  costs [] (first_of p last) (program_chain p last) Cont_Return (program_depth p) (program_calls p).
Proof.
  intros p last mg PL IN. unfold lower_program in IN. apply incl_app_inv in IN as [IN IR]. apply incl_cons_inv in IR as [IR _].
  apply (sequence_paid p); [|exact PL|exact IN|intros []|].
  - apply Forall_forall. intros s _. apply all_paid.
  - apply (costs_return [] last mg); [intros []|exact IR].
Qed.
End Count.

(** ** Whole functions *)
Section Function.
Context {E : Type}.
Variable f : FunctionDefinition E.
Hypothesis ND : NoDup (labels f).
Variables (p : list statement) (last : BlockId) (merge : option GroupMerge).
Hypothesis PL : placed_program p last.
Hypothesis IN : incl (lower_program p last merge) (map skeleton (FunctionDefinition_blocks f)).
Hypothesis EN : entry f (first_of p last).

Lemma depth_exact : forall n, find_control_flow n f = if program_depth p <=? n then Ok (program_chain p last) else OutOfFuel.
Proof.
  intros n. pose proof (program_paid f ND p last merge PL IN n) as C. pose proof (counted_search n (first_of p last) [] (block_map f)) as Q.
  rewrite (find_eq f ND). destruct EN as (b & rest & -> & ->). rewrite <- Q. destruct (program_depth p <=? n).
  - rewrite C. reflexivity.
  - rewrite C. reflexivity.
Qed.
Lemma calls_exact : forall n, program_depth p <= n -> find_control_flow_counted n f = (Ok (program_chain p last), program_calls p).
Proof.
  intros n L. pose proof (program_paid f ND p last merge PL IN n) as C. rewrite (proj2 (Nat.leb_le _ _) L) in C.
  unfold find_control_flow_counted. rewrite (build_map_Ok f ND). destruct EN as (b & rest & Q & LB). rewrite Q. cbn [answer count_bind].
  rewrite LB, C. cbn [count_bind answer]. rewrite Nat.add_0_r. reflexivity.
Qed.
End Function.

(** ** Bounds *)
Definition bounded (s : statement) : Prop :=
  inside_depth s <= length (blocks_of s) /\ length (blocks_of s) <= statement_calls s <= 3 * length (blocks_of s).
Lemma sequence_bounds : forall l, Forall bounded l ->
  sequence_depth inside_depth l <= 1 + length (flat_map blocks_of l)
  /\ length (flat_map blocks_of l) <= sequence_calls statement_calls l <= 1 + 3 * length (flat_map blocks_of l).
Proof.
  intros l F. induction F as [|s l [Fd [Fl Fu]] F IH]; [cbn; lia|].
  cbn [sequence_depth flat_map length]. rewrite app_length. split.
  - assert (1 <= length (blocks_of s)) by (destruct s; cbn [blocks_of length]; lia). lia.
  - destruct l as [|s2 l].
    + cbn [sequence_calls flat_map length]. destruct (is_exit s); lia.
    + change (sequence_calls statement_calls (s :: s2 :: l)) with (statement_calls s + sequence_calls statement_calls (s2 :: l)). lia.
Qed.
Lemma all_bounded : forall s, bounded s.
Proof.
  induction s as [id|id cond yes no h w IHy IHn|id ct body h IHb|id cond rest w IHr|id cond rest w IHr] using statement_ind'; unfold bounded;
    cbn [inside_depth blocks_of statement_calls length].
  - lia.
  - apply sequence_bounds in IHy, IHn. rewrite app_length. lia.
  - apply sequence_bounds in IHb. lia.
  - apply sequence_bounds in IHr. lia.
  - apply sequence_bounds in IHr. lia.
Qed.
Lemma each_bounded : forall l, Forall bounded l.
Proof. intros l. apply Forall_forall. intros s _. apply all_bounded. Qed.

Lemma arm_ids : forall l, chain_ids (arm chain_of l) = flat_map chain_ids (map chain_of l).
Proof. intros l. rewrite <- chain_ids_items, items_arm. reflexivity. Qed.
Lemma statement_ids : forall s, chain_ids (chain_of s) = blocks_of s.
Proof.
  assert (Q : forall l, Forall (fun s => chain_ids (chain_of s) = blocks_of s) l -> chain_ids (arm chain_of l) = flat_map blocks_of l).
  { intros l F. rewrite arm_ids. induction F as [|s l Fs F IH]; [reflexivity|]. cbn [map flat_map]. rewrite Fs, IH. reflexivity. }
  induction s as [id|id cond yes no h w IHy IHn|id ct body h IHb|id cond rest w IHr|id cond rest w IHr] using statement_ind';
    cbn [chain_of chain_ids blocks_of]; rewrite ?Q, ?app_nil_r by assumption; reflexivity.
Qed.
Lemma program_ids : forall p last, chain_ids (program_chain p last) = flat_map blocks_of p ++ [last].
Proof.
  intros p last. rewrite <- chain_ids_items, items_program, flat_map_app. cbn [flat_map chain_ids app]. f_equal.
  induction p as [|s p IH]; [reflexivity|]. cbn [map flat_map]. rewrite statement_ids, IH. reflexivity.
Qed.
Lemma program_bounds : forall p last, placed_program p last -> program_depth p <= length (chain_ids (program_chain p last))
  /\ length (chain_ids (program_chain p last)) <= program_calls p <= 3 * length (chain_ids (program_chain p last)) - 2.
Proof.
  intros p last PL. rewrite program_ids, app_length. pose proof (sequence_bounds p (each_bounded p)) as B. unfold program_depth, program_calls. cbn [length].
  split; [lia|]. split; [|lia]. clear B.
  assert (X : Forall (fun s => is_exit s = false) p).
  { unfold placed_program in PL. induction p as [|s p IH]; [constructor|]. cbn [each] in PL. destruct PL as [P1 P2]. constructor; [|auto].
    destruct s; try reflexivity; cbn [placed] in P1; destruct P1 as (_ & (mg & Q) & _); [|destruct Q as [Q _]]; discriminate Q. }
  clear PL. induction X as [|s p X0 X IH]; [cbn; lia|]. rewrite (sequence_calls_cons _ _ X0). cbn [flat_map]. rewrite app_length.
  destruct (all_bounded s) as [_ [Z _]]. lia.
Qed.

(** ** Statements *)
Section Statements.
Context {E : Type}.
Variable f : FunctionDefinition E.

Lemma chain_depth : forall chain, returns f (Ok chain) -> exists need, need <= length (chain_ids chain) /\
  forall n, find_control_flow n f = if need <=? n then Ok chain else OutOfFuel.
Proof.
  intros chain H. apply structured_iff in H as (ND & p & last & mg & PL & IN & EN & ->). exists (program_depth p).
  split; [apply program_bounds; exact PL|]. exact (depth_exact f ND p last mg PL IN EN).
Qed.
Lemma chain_calls : forall chain, returns f (Ok chain) -> exists calls, length (chain_ids chain) <= calls <= 3 * length (chain_ids chain) - 2 /\
  forall n, find_control_flow n f = Ok chain -> find_control_flow_counted n f = (Ok chain, calls).
Proof.
  intros chain H. apply structured_iff in H as (ND & p & last & mg & PL & IN & EN & ->). exists (program_calls p).
  split; [apply program_bounds; exact PL|]. intros n H. rewrite (depth_exact f ND p last mg PL IN EN) in H.
  destruct (program_depth p <=? n) eqn:L; [|discriminate]. apply (calls_exact f ND p last mg PL IN EN). apply Nat.leb_le. exact L.
Qed.
Lemma written_calls : forall p last, written_from f p last -> exists calls, calls <= 3 * length (FunctionDefinition_blocks f) - 2 /\
  forall n, length (FunctionDefinition_blocks f) <= n -> find_control_flow_counted n f = (Ok (program_chain p last), calls).
Proof.
  intros p last (T & D & (mg & PM) & EN). pose proof (structured_round_trip f p last mg T D PM EN) as R.
  pose proof (ordinary_placed p last T D) as PL. apply structured_iff in R as (ND & _).
  assert (IN : incl (lower_program p last mg) (map skeleton (FunctionDefinition_blocks f))).
  { intros x I. apply (Permutation_in _ (Permutation_sym PM)). exact I. }
  pose proof (program_bounds p last PL) as (B1 & B2 & B3).
  assert (L : length (chain_ids (program_chain p last)) = length (FunctionDefinition_blocks f)).
  { apply Permutation_length in PM. rewrite map_length in PM. rewrite PM. unfold lower_program. rewrite program_ids, !app_length.
    rewrite <- (sequence_labels p None last), map_length. reflexivity. }
  exists (program_calls p). split; [lia|]. intros n Ln. apply (calls_exact f ND p last mg PL IN EN). lia.
Qed.
End Statements.

(** A function of [n] blocks one after the other. *)
Definition of_skeleton {E} (b : BlockId * option GroupMerge * GroupBranch) : BasicBlock E :=
  let '(id, mg, br) := b in Build_BasicBlock (Build_OpLabel id) [] mg br.
Lemma skeleton_of : forall {E} l, map (skeleton (E := E)) (map of_skeleton l) = l.
Proof. intros E l. rewrite map_map. rewrite <- map_id. apply map_ext. intros [[id mg] br]. reflexivity. Qed.
Definition steps (n : nat) : list statement := map (fun i => Step (N.of_nat i)) (seq 1 n).
Definition straight {E} (n : nat) : FunctionDefinition E :=
  Build_FunctionDefinition (Build_OpFunction 0%N 0%N (Build_FunctionControl false false false false) 0%N) [] (map of_skeleton (lower_program (steps n) 0%N None)).

Lemma depth_unbounded : forall E n, exists f : FunctionDefinition E, length (FunctionDefinition_blocks f) = S n /\
  (exists chain, returns f (Ok chain)) /\ find_control_flow n f = OutOfFuel.
Proof.
  intros E n. exists (straight n). unfold straight. cbn [FunctionDefinition_blocks]. rewrite map_length.
  assert (B : flat_map blocks_of (steps n) = map N.of_nat (seq 1 n)).
  { unfold steps. induction (seq 1 n) as [|i l IH]; [reflexivity|]. cbn [map flat_map blocks_of app]. rewrite IH. reflexivity. }
  assert (T : tail_last exits_last false (steps n)).
  { clear B. unfold steps. induction (seq 1 n) as [|i l IH]; [exact I|]. cbn [map]. destruct l; [exact I|]. cbn [map] in *. apply tail_last_cons. split; [exact I|exact IH]. }
  assert (D : NoDup (flat_map blocks_of (steps n) ++ [0%N])).
  { rewrite B. apply (Permutation_NoDup (l := 0%N :: map N.of_nat (seq 1 n))); [apply Permutation_cons_append|]. constructor.
    - intros J. apply in_map_iff in J as (i & Q & J). apply in_seq in J. lia.
    - apply FinFun.Injective_map_NoDup; [|apply seq_NoDup]. intros a b Q. lia. }
  set (f := Build_FunctionDefinition _ _ _ : FunctionDefinition E).
  assert (EN : entry f (first_of (steps n) 0%N)).
  { unfold entry, f. cbn [FunctionDefinition_blocks]. unfold steps, lower_program. destruct n as [|n]; cbn; eauto. }
  assert (PM : Permutation (map skeleton (FunctionDefinition_blocks f)) (lower_program (steps n) 0%N None)).
  { unfold f. cbn [FunctionDefinition_blocks]. rewrite skeleton_of. reflexivity. }
  pose proof (structured_round_trip f _ _ _ T D PM EN) as R. split; [|split; [eauto|]].
  - unfold lower_program. rewrite app_length. rewrite <- (map_length (fun b : BlockId * option GroupMerge * GroupBranch => fst (fst b)) (sequence _ _ _)), sequence_labels, B, map_length, seq_length. cbn [length]. lia.
  - pose proof (ordinary_placed _ _ T D) as PL. apply structured_iff in R as (ND & _).
    rewrite (depth_exact f ND _ _ None PL (fun x I => Permutation_in _ (Permutation_sym PM) I) EN).
    assert (program_depth (steps n) = S n) as ->.
    { clear. unfold program_depth, steps. rewrite <- (seq_length n 1) at 2. induction (seq 1 n) as [|i l IH]; [reflexivity|]. cbn [map sequence_depth inside_depth length]. rewrite IH. reflexivity. }
    rewrite (proj2 (Nat.leb_gt _ _)) by lia. reflexivity.
Qed.

Lemma calls_exponential : forall E n, exists (f : FunctionDefinition E) chain depth calls,
  length (FunctionDefinition_blocks f) = 2 * n + 1 /\ find_control_flow_counted depth f = (Ok chain, calls) /\ (2 ^ N.of_nat n <= N.of_nat calls)%N.
Proof.
  intros E n. destruct (exponential (E := E) n) as (f & chain & id & L & R & O). destruct (chain_calls f chain R) as (calls & B & C).
  destruct R as [_ (depth & R)]. exists f, chain, depth, calls. split; [exact L|]. split; [apply C; exact R|].
  assert (X : forall l, (occurrences id l <= N.of_nat (length l))%N).
  { intros l. unfold occurrences. induction l as [|x l IH]; cbn; [lia|]. destruct (N.eqb _ _); cbn [length] in *; lia. }
  specialize (X (chain_ids chain)). lia.
Qed.
