(** A function is written from one program at most (C117). *)
From Coq Require Import Permutation.
From Verif Require Import Base Types Ops Groups ControlFlow Spec_Flow Spec_Structured Spec_Standard
  Proofs_Flow Proofs_Flow3 Proofs_Structured.

Lemma chain_no_block : forall s l, chain_of s <> Block l.
Proof. intros [id|id cond yes no hint w|id ct body hint|id cond rest w|id cond rest w] l; discriminate. Qed.
Lemma arm_break : forall l, arm chain_of l <> Break /\ arm chain_of l <> Continue.
Proof. intros [|s [|s' l]]; cbn [arm map]; try (split; discriminate). destruct s; cbn [is_exit chain_of]; split; discriminate. Qed.
Lemma arm_map : forall l l', arm chain_of l = arm chain_of l' -> map chain_of l = map chain_of l'.
Proof.
  assert (B : forall l, (exists s, l = [s] /\ arm chain_of l = chain_of s) \/ arm chain_of l = Block (map chain_of l)) by (intros [|s [|s' l]]; cbn [arm]; [auto| |auto]; destruct (is_exit s); eauto).
  intros l l' Q. destruct (B l) as [(s & -> & X)|X], (B l') as [(s' & -> & X')|X']; rewrite X, X' in Q; cbn [map].
  - rewrite Q. reflexivity.
  - destruct (chain_no_block _ _ Q).
  - destruct (chain_no_block _ _ (eq_sym Q)).
  - injection Q as ->. reflexivity.
Qed.

Section One.
Context (skeletons : list (BlockId * option GroupMerge * GroupBranch)).
Hypothesis UNIQUE : forall u mg br mg' br', In (u, mg, br) skeletons -> In (u, mg', br') skeletons -> mg = mg' /\ br = br'.

Definition one (s : statement) : Prop := forall loop next s' loop' next', chain_of s = chain_of s' -> incl (lower loop s next) skeletons -> incl (lower loop' s' next') skeletons -> s = s'.
Lemma one_sequence : forall l, Forall one l -> forall loop next l' loop' next', map chain_of l = map chain_of l' -> incl (sequence (lower loop) l next) skeletons -> incl (sequence (lower loop') l' next') skeletons -> l = l'.
Proof.
  intros l F. induction F as [|s l Fs F IH]; intros loop next [|s' l'] loop' next' Q IN IN'; [reflexivity|discriminate Q|discriminate Q|]. cbn [map] in Q. injection Q as Q1 Q2. cbn [sequence] in IN, IN'. f_equal.
  - apply (Fs loop (first_of l next) s' loop' (first_of l' next') Q1); intros x J; [apply IN|apply IN']; apply in_or_app; auto.
  - apply (IH loop next l' loop' next' Q2); intros x J; [apply IN|apply IN']; apply in_or_app; auto.
Qed.
Lemma all_one : forall s, one s.
Proof.
  induction s as [id|id cond yes no hint w IHy IHn|id ct body hint IHb|id cond rest w IHr|id cond rest w IHr] using statement_ind'; intros loop next s' loop' next' Q IN IN';
    destruct s' as [id'|id' cond' yes' no' hint' w'|id' ct' body' hint'|id' cond' rest' w'|id' cond' rest' w']; cbn [chain_of] in Q; try discriminate Q.
  - injection Q as ->. reflexivity.
  - injection Q as -> Qy Qn -> ->. cbn [lower] in IN, IN'. destruct (UNIQUE _ _ _ _ _ (IN _ (or_introl eq_refl)) (IN' _ (or_introl eq_refl))) as [_ X]. injection X as -> _ _. f_equal.
    + apply (one_sequence yes IHy loop next yes' loop' next' (arm_map _ _ Qy)); intros x J; [apply IN|apply IN']; right; apply in_or_app; auto.
    + apply (one_sequence no IHn loop next no' loop' next' (arm_map _ _ Qn)); intros x J; [apply IN|apply IN']; right; apply in_or_app; auto.
  - injection Q as _ _ Q _ _. destruct (proj1 (arm_break no) Q).
  - injection Q as _ _ Q _ _. destruct (proj2 (arm_break no) Q).
  - injection Q as -> Qb ->. cbn [lower] in IN, IN'. destruct (UNIQUE _ _ _ _ _ (IN _ (or_introl eq_refl)) (IN' _ (or_introl eq_refl))) as [X _]. injection X as _ ->. f_equal.
    apply (one_sequence body IHb _ _ body' _ _ (arm_map _ _ Qb) (fun x J => IN x (or_intror J)) (fun x J => IN' x (or_intror J))).
  - injection Q as _ _ Q _ _. destruct (proj1 (arm_break no') (eq_sym Q)).
  - injection Q as -> Qr ->. cbn [lower] in IN, IN'. destruct (UNIQUE _ _ _ _ _ (IN _ (or_introl eq_refl)) (IN' _ (or_introl eq_refl))) as [_ X]. injection X as -> _ _. f_equal.
    apply (one_sequence rest IHr _ _ rest' _ _ (arm_map _ _ Qr) (fun x J => IN x (or_intror J)) (fun x J => IN' x (or_intror J))).
  - injection Q as _ _ Q _ _. destruct (proj2 (arm_break no') (eq_sym Q)).
  - injection Q as -> Qr ->. cbn [lower] in IN, IN'. destruct (UNIQUE _ _ _ _ _ (IN _ (or_introl eq_refl)) (IN' _ (or_introl eq_refl))) as [_ X]. injection X as -> _ _. f_equal.
    apply (one_sequence rest IHr _ _ rest' _ _ (arm_map _ _ Qr) (fun x J => IN x (or_intror J)) (fun x J => IN' x (or_intror J))).
Qed.
End One.

Lemma program_map : forall p last p' last', program_chain p last = program_chain p' last' -> map chain_of p = map chain_of p' /\ last = last'.
Proof.
  intros [|s p] last [|s' p'] last' Q; cbn [program_chain] in Q; [injection Q; auto|discriminate Q|discriminate Q|]. assert (G : forall a b, Block a = Block b -> a = b) by congruence. apply G, app_inj_tail in Q as [Q R]. injection R as ->. auto.
Qed.
Theorem one_program : forall E (f : FunctionDefinition E) p last p' last', written_plainly f p last -> written_plainly f p' last' -> p' = p /\ last' = last.
Proof.
  intros E f p last p' last' (T & ND & P & En) (T' & ND' & P' & En'). pose proof (structured_round_trip f p last None T ND P En) as R. pose proof (structured_round_trip f p' last' None T' ND' P' En') as R'.
  apply returns_iff in R as [_ R], R' as [_ R']. assert (Q : program_chain p last = program_chain p' last') by congruence. apply program_map in Q as [Q ->]. split; [|reflexivity]. symmetry.
  assert (U : forall u mg br mg' br', In (u, mg, br) (map skeleton (FunctionDefinition_blocks f)) -> In (u, mg', br') (map skeleton (FunctionDefinition_blocks f)) -> mg = mg' /\ br = br').
  { assert (NDl : NoDup (labels f)).
    { apply (Permutation_map (fun b => fst (fst b))) in P. rewrite map_map in P. unfold lower_program in P. rewrite map_app, sequence_labels in P. cbn [map fst] in P.
      exact (Permutation_NoDup (Permutation_sym P) ND). }
    intros u mg br mg' br' J J'. apply in_map_iff in J as (b & X & J), J' as (b' & X' & J'). unfold skeleton in X, X'. injection X as <- <- <-. injection X' as X' <- <-.
    assert (b = b') as -> by (apply (has_block_inj f NDl (label_of b)); split; auto). auto. }
  apply (one_sequence (map skeleton (FunctionDefinition_blocks f)) p (proj2 (Forall_forall _ _) (fun s _ => all_one _ U s)) None last' p' None last' Q).
  - intros x J. apply (Permutation_in _ (Permutation_sym P)). unfold lower_program. apply in_or_app. auto.
  - intros x J. apply (Permutation_in _ (Permutation_sym P')). unfold lower_program. apply in_or_app. auto.
Qed.
