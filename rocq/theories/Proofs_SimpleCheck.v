(** A check that a given function is simple, for the examples of C115. *)
From Verif Require Import Base Types Ops Groups ControlFlow Spec_Flow Spec_Standard Spec_Returns Spec_Simple Proofs_Returns Proofs_Rules.

Section Check.
Context {E : Type}.
Variable f : FunctionDefinition E.
Variable start : BlockId.
Hypothesis START : entry f start.

Definition around (b h x : BlockId) : bool := inb f start h x b && each_decl f (fun h' x' => outb f start h' x' b || inb f start h' x' h).
Lemma around_ok : forall b h x, declares f h x -> around b h x = true -> innermost f b h x.
Proof.
  intros b h x D H. unfold around in H. apply andb_true_iff in H as [H1 H2]. split; [exact D|]. split; [exact (inb_ok f start START _ _ _ H1)|].
  intros h' x' D' C'. pose proof (each_decl_ok f _ H2 _ _ D') as X. cbn beta in X. apply orb_true_iff in X as [X|X]; [destruct (outb_ok f start START _ _ _ X C')|exact (inb_ok f start START _ _ _ X)].
Qed.
Definition exists_block (v : BlockId) : bool := existsb (fun b : BasicBlock E => N.eqb (label_of b) v) (FunctionDefinition_blocks f).
Definition kind_check (b : BasicBlock E) : bool :=
  match BasicBlock_branch b, BasicBlock_merge b with
  | GroupBranch_OpBranch _, Some (GroupMerge_OpSelectionMerge _) => false
  | GroupBranch_OpBranchConditional _, Some (GroupMerge_OpLoopMerge _) => false
  | GroupBranch_OpBranchConditional op, None => existsb (fun l : BlockId * BlockId * BlockId => match l with (h, x, ct) =>
      around (label_of b) h x && N.eqb (OpBranchConditional_false_label op) x end) (loops f)
  | GroupBranch_OpReturn _, _ => each_decl f (fun h x => outb f start h x (label_of b))
  | _, _ => true
  end.
Definition simple_check : bool :=
  each_edge f (fun u n v => nreachb f start u || exists_block v)
  && forallb (fun b => nreachb f start (label_of b) || kind_check b) (FunctionDefinition_blocks f)
  && each_decl f (fun h x => each_edge f (fun u n v => outb f start h x u || inb f start h x v
       || (N.eqb v x && around u h x && each_loop f (fun h' x' ct => negb (N.eqb h' h && N.eqb x' x) || Nat.eqb n 1)))).
Lemma simple_check_ok : simple_check = true -> simple f.
Proof.
  intros H. unfold simple_check in H. apply andb_true_iff in H as [H H3]. apply andb_true_iff in H as [H1 H2]. rewrite forallb_forall in H2.
  assert (K : forall u b, has_block f u b -> reachable f u -> kind_check b = true).
  { intros u b [I <-] R. specialize (H2 b I). apply orb_true_iff in H2 as [X|X]; [destruct (nreachb_ok f start START _ X R)|exact X]. }
  split; [|split; [|split; [|split]]].
  - intros u n v B R. pose proof (each_edge_ok f _ H1 _ _ _ B) as X. cbn beta in X. apply orb_true_iff in X as [X|X]; [destruct (nreachb_ok f start START _ X R)|].
    apply existsb_exists in X as (b & I & Q). apply N.eqb_eq in Q. exists b. split; assumption.
  - intros u b HB R. pose proof (K u b HB R) as X. unfold kind_check in X. destruct (BasicBlock_branch b), (BasicBlock_merge b) as [[|]|]; try exact I; discriminate X.
  - intros u b op h m HB BR D C. pose proof (K u b HB (proj1 C)) as X. unfold kind_check in X. rewrite BR in X. pose proof (each_decl_ok f _ X _ _ D) as Y. cbn beta in Y.
    rewrite (proj2 HB) in Y. exact (outb_ok f start START _ _ _ Y C).
  - intros u b op HB R BR MG. pose proof (K u b HB R) as X. unfold kind_check in X. rewrite BR, MG in X. apply existsb_exists in X as ([[h x] ct] & I & Q).
    apply andb_true_iff in Q as [Q1 Q2]. apply N.eqb_eq in Q2. apply loops_in in I. exists h, x, ct. split; [exact I|]. split; [|exact Q2]. rewrite (proj2 HB) in Q1.
    exact (around_ok _ _ _ (loop_declares f _ _ _ I) Q1).
  - intros h m u n v D B C NC. pose proof (each_edge_ok f _ (each_decl_ok f _ H3 _ _ D) _ _ _ B) as X. cbn beta in X. apply orb_true_iff in X as [X|X].
    + apply orb_true_iff in X as [X|X]; [destruct (outb_ok f start START _ _ _ X C)|destruct (NC (inb_ok f start START _ _ _ X))].
    + apply andb_true_iff in X as [X X3]. apply andb_true_iff in X as [X1 X2]. apply N.eqb_eq in X1. split; [exact X1|]. split; [exact (around_ok _ _ _ D X2)|].
      intros ct HL. pose proof (each_loop_ok f _ X3 _ _ _ HL) as Y. cbn beta in Y. rewrite !N.eqb_refl in Y. cbn [andb negb orb] in Y. apply Nat.eqb_eq. exact Y.
Qed.
End Check.
