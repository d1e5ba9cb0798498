(** Lemmas for C46: functions without a chain that need all of the recursion depth that can be needed. *)
From Verif Require Import Base Types Ops Groups ExtSet ControlFlow ControlFlowCount Spec_Flow Proofs_Flow Proofs_Flow2 Proofs_Flow3
  Spec_Structured Spec_Cost Proofs_Structured Proofs_Cost Proofs_Frames.

Section Fails.
Context {E : Type}.
Variable f : FunctionDefinition E.
Hypothesis ND : NoDup (labels f).
Notation m := (block_map f).
Notation sks := (map skeleton (FunctionDefinition_blocks f)).

(** The search takes depth [d] to fail. *)
Definition fails (fl : FlowList) (id : BlockId) (e : ControlFlowError) (d : nat) : Prop :=
  forall k, search_block k id fl m = if d <=? k then Err e else OutOfFuel.

Definition simple (s : statement) : Prop := match s with Step _ | Repeat _ _ _ _ => True | _ => False end.

Lemma sequence_fails : forall l, Forall simple l -> forall fl next e, each (placed (stops fl) (innermost_loop fl)) l next ->
  incl (sequence (lower (innermost_loop fl)) l next) sks -> fails fl next e 1 -> fails fl (first_of l next) e (sequence_depth inside_depth l).
Proof.
  intros l F. induction F as [|s l Fs F IH]; intros fl next e PL IN X; [exact X|].
  cbn [each] in PL. destruct PL as [PLs PL]. cbn [sequence] in IN. apply incl_app_inv in IN as [INs IN].
  specialize (IH fl next e PL IN X). cbn [first_of sequence_depth]. pose proof (depth_pos l) as DP. set (d := sequence_depth inside_depth l) in *. clearbody d.
  intros [|k]; [reflexivity|]. destruct s as [id|id cond yes no h w|id ct body h|id cond rest w|id cond rest w]; try destruct Fs; cbn [start placed lower inside_depth] in *.
  - apply incl_cons_inv in INs as [INs _]. apply (in_skeletons f ND) in INs as (b & G & Mg & B).
    cbn [search_block]. rewrite (proj2 (merges_false _ _) (proj1 PLs)), G, B, Mg. cbn [OpBranch_target_label].
    rewrite (IH k). destruct (Nat.leb_spec d k) as [L|L], (Nat.leb_spec (1 + Nat.max 0 d) (S k)) as [L'|L']; try lia; reflexivity.
  - destruct PLs as (NI & PLb). apply incl_cons_inv in INs as [INs INb]. apply (in_skeletons f ND) in INs as (b & G & Mg & B).
    assert (C : costs f (Converge_Loop id (first_of l next) h :: fl) (first_of body id) (arm chain_of body) (Cont_Next id) (sequence_depth inside_depth body) (sequence_calls statement_calls body)).
    { apply (sequence_paid f body); [apply Forall_forall; intros s _; apply all_paid; exact ND|exact PLb|exact INb|left; reflexivity]. }
    cbn [search_block]. rewrite (proj2 (merges_false _ _) NI), G, B, Mg.
    cbn [OpBranch_target_label OpLoopMerge_merge_block OpLoopMerge_loop_control]. rewrite <- counted_search.
    destruct (Nat.leb_spec (sequence_depth inside_depth body) k) as [L|L].
    + rewrite (costs_yes _ _ _ _ _ _ _ _ C L). cbn [fst bind]. rewrite cont_eqb_refl, (IH k).
      destruct (Nat.leb_spec d k), (Nat.leb_spec (1 + Nat.max (sequence_depth inside_depth body) d) (S k)); try lia; reflexivity.
    + rewrite (costs_no _ _ _ _ _ _ _ _ C L). cbn [bind]. destruct (Nat.leb_spec (1 + Nat.max (sequence_depth inside_depth body) d) (S k)); [lia|reflexivity].
Qed.
End Fails.

(** As [tower_function], without the block in which everything ends. *)
Definition open_tower {E} (k : nat) : FunctionDefinition E :=
  Build_FunctionDefinition (Build_OpFunction 0%N 0%N (Build_FunctionControl false false false false) 0%N) [] (map of_skeleton (map tower_block (seq 0 (S k)))).
Lemma tower_simple : forall k, Forall simple (tower k).
Proof. induction k as [|k IH]; cbn [tower]; [|apply Forall_app; split; [exact IH|]]; constructor; try constructor. Qed.

Theorem limit_needed : forall E n, exists f : FunctionDefinition E, length (FunctionDefinition_blocks f) = S n /\
  (exists e, returns f (Err e)) /\ forall depth, depth < depth_limit f -> find_control_flow depth f = OutOfFuel.
Proof.
  intros E k. exists (open_tower k). set (f := open_tower k : FunctionDefinition E).
  assert (LEN : length (FunctionDefinition_blocks f) = S k) by (unfold f; cbn [open_tower FunctionDefinition_blocks]; rewrite !map_length, seq_length; reflexivity).
  assert (SK : map skeleton (FunctionDefinition_blocks f) = map tower_block (seq 0 (S k))) by (unfold f; cbn [open_tower FunctionDefinition_blocks]; apply skeleton_of).
  assert (LB : labels f = map N.of_nat (seq 0 (S k))).
  { unfold labels, f. cbn [open_tower FunctionDefinition_blocks]. rewrite !map_map. apply map_ext. intros [|i]; reflexivity. }
  assert (ND : NoDup (labels f)). { rewrite LB. apply FinFun.Injective_map_NoDup; [|apply seq_NoDup]. intros a b Q. lia. }
  assert (X : fails f [] 0%N (UnknownBlockId (N.of_nat (S k))) (program_depth (tower k))).
  { rewrite <- (tower_first k (N.of_nat (S k))). unfold program_depth. apply sequence_fails; [exact ND|apply tower_simple|apply tower_placed; intros x []|rewrite SK; apply tower_lower|].
    intros [|d]; [reflexivity|]. cbn [search_block merges Nat.leb]. destruct (map_get (N.of_nat (S k)) (block_map f)) as [b|] eqn:G; [|reflexivity].
    apply block_map_represents in G as [I Q]. assert (J : In (N.of_nat (S k)) (labels f)) by (rewrite <- Q; apply in_map; exact I).
    rewrite LB in J. apply in_map_iff in J as (i & Qi & J). apply in_seq in J. lia. }
  assert (FIND : forall d, find_control_flow d f = if program_depth (tower k) <=? d then Err (UnknownBlockId (N.of_nat (S k))) else OutOfFuel).
  { intros d. rewrite (find_eq f ND). specialize (X d). destruct (FunctionDefinition_blocks f) as [|b rest] eqn:Q; [discriminate|].
    assert (L : label_of b = 0%N) by (unfold labels in LB; rewrite Q in LB; injection LB as LB _; exact LB).
    rewrite L, X. destruct (_ <=? d); reflexivity. }
  split; [exact LEN|]. split.
  - eexists. split; [|exists (program_depth (tower k)); rewrite FIND, Nat.leb_refl; reflexivity]. discriminate.
  - intros d Hd. rewrite FIND. destruct (Nat.leb_spec (program_depth (tower k)) d) as [L|L]; [|reflexivity].
    pose proof (tower_depth k) as T. unfold depth_limit in Hd. rewrite LEN, (Nat.mul_comm (S k)), <- triangle_eq in Hd. lia.
Qed.
