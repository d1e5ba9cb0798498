(** Exchanged arms, C123. *)
From Verif Require Import Base Types Ops Groups ExtSet ControlFlow Spec_Flow Spec_Inline Spec_Mirror Proofs_Flow Proofs_Flow2 Proofs_Flow3 Proofs_Split Proofs_Inline.

Lemma turned_twice : forall w, option_map turned (option_map turned w) = w.
Proof. intros [[a b]|]; reflexivity. Qed.

Section Mirror.
Context {E : Type} (chosen : BlockId -> bool).
Local Notation mirror := (mirror_chain chosen).
Local Notation mirrored := (@mirrored E chosen).

Lemma steps_mirror : forall c, steps_of (mirror c) = map mirror (steps_of c).
Proof. intros c. destruct c; cbn; try reflexivity. destruct (chosen id); reflexivity. Qed.
Lemma mirror_block : forall x y, mirror (block [x; y]) = block [mirror x; mirror y].
Proof. intros x y. rewrite !block_steps, !steps_mirror, <- map_app. reflexivity. Qed.
Fixpoint mirror_twice (c : ControlFlowChain) : mirror (mirror c) = c.
Proof.
  destruct c; cbn; try reflexivity.
  - f_equal. induction l as [|c l IH]; cbn; [reflexivity|]. f_equal; [apply mirror_twice|exact IH].
  - destruct (chosen id) eqn:C; cbn; rewrite C, !mirror_twice, ?turned_twice; reflexivity.
  - rewrite mirror_twice. reflexivity.
Qed.

Lemma mirrored_back : forall b b', mirrored b b' -> mirrored b' b.
Proof.
  intros b b' (L & M & H). split; [auto|]. split; [auto|]. rewrite L. destruct (chosen (label_of b)); [|auto].
  destruct H as (sel & op & op' & HM & HB & HB' & T & F & W). exists sel, op', op. rewrite M, T, F, W, turned_twice. auto 8.
Qed.
Lemma mirror_back : forall f g : FunctionDefinition E, mirror_of chosen f g -> mirror_of chosen g f.
Proof. intros f g H. unfold mirror_of in *. induction H; constructor; [apply mirrored_back|]; assumption. Qed.
Lemma mirror_labels : forall f g : FunctionDefinition E, mirror_of chosen f g -> labels g = labels f.
Proof. intros f g H. unfold mirror_of in H. unfold labels. induction H as [|x y l l' [Q _] _ IH]; [reflexivity|]. cbn. rewrite Q, IH. reflexivity. Qed.

Context (m m' : BlockMap (E := E)).
Hypothesis H : forall id b, map_get id m = Some b -> label_of b = id /\ exists b', map_get id m' = Some b' /\ mirrored b b'.

Lemma search_mirror : forall d id fl c k, search_block d id fl m = Ok (c, k) -> search_block d id fl m' = Ok (mirror c, k).
Proof.
  induction d as [|d IH]; intros id fl c k Q; [discriminate Q|]. rewrite search_step in Q |- *. destruct (merges fl id); [injection Q as <- <-; reflexivity|].
  destruct (map_get id m) as [x|] eqn:G; [|discriminate Q]. destruct (H _ _ G) as (L & y & -> & _ & M' & Y). rewrite L in Y. clear L.
  apply step_Ok_cases in Q.
  destruct Q as [(op & B & -> & ->)|[(op & c1 & B & M & R & ->)|[(op & lm & c1 & c2 & B & M & R1 & R2 & ->)|[(op & sel & c1 & c2 & c3 & B & M & R1 & R2 & R3 & ->)|(op & head & merge & c1 & B & M & Li & O & R & -> & ->)]]]];
    destruct (chosen id) eqn:C; try (destruct Y as (sel' & op1 & op2 & HM & HB & HB' & T & F & W); congruence); unfold step; rewrite M', ?M.
  - rewrite Y, B. reflexivity.
  - rewrite Y, B, (IH _ _ _ _ R). cbn [bind]. rewrite mirror_block. reflexivity.
  - rewrite Y, B, (IH _ _ _ _ R1). cbn [bind cont_eqb]. rewrite N.eqb_refl, (IH _ _ _ _ R2). cbn [bind]. rewrite mirror_block. reflexivity.
  - destruct Y as (sel' & op1 & op2 & HM & HB & HB' & T & F & W). rewrite B in HB. injection HB as <-. rewrite HB', T, F, W. cbv zeta.
    rewrite (IH _ _ _ _ R1), (IH _ _ _ _ R2). cbn [bind cont_eqb]. rewrite N.eqb_refl. cbn [andb]. rewrite (IH _ _ _ _ R3). cbn [bind]. rewrite mirror_block.
    cbn [mirror_chain]. rewrite C. reflexivity.
  - rewrite Y, B. cbv zeta.
    rewrite (IH _ _ _ _ R1), (IH _ _ _ _ R2). cbn [bind cont_eqb]. rewrite N.eqb_refl. cbn [andb]. rewrite (IH _ _ _ _ R3). cbn [bind]. rewrite mirror_block.
    cbn [mirror_chain]. rewrite C. reflexivity.
  - rewrite Y, B, Li, O, (IH _ _ _ _ R). cbn [bind cont_eqb]. rewrite N.eqb_refl. cbn [mirror_chain]. rewrite C. destruct (N.eqb _ merge); reflexivity.
Qed.
End Mirror.

Section Function.
Context {E : Type} (chosen : BlockId -> bool).

Lemma mirror_Ok : forall (f g : FunctionDefinition E), mirror_of chosen f g -> forall c, returns f (Ok c) -> returns g (Ok (mirror_chain chosen c)).
Proof.
  intros f g M c [_ [d R]]. split; [discriminate|]. exists d.
  assert (ND : NoDup (labels f)).
  { apply find_unfold. destruct (again [] (labels f)) eqn:A; [|reflexivity]. rewrite (find_dup _ _ A d) in R. discriminate R. }
  assert (NDg : NoDup (labels g)) by (rewrite (mirror_labels _ _ _ M); exact ND).
  rewrite (find_eq g NDg). rewrite (find_eq f ND) in R.
  assert (HM : forall id b, map_get id (block_map f) = Some b -> label_of b = id /\ exists b', map_get id (block_map g) = Some b' /\ mirrored chosen b b').
  { intros id b G. apply (find_map_iff f ND) in G as [I L]. split; [exact L|].
    assert (X : exists b', In b' (FunctionDefinition_blocks g) /\ mirrored chosen b b').
    { unfold mirror_of in M. clear -M I. induction M as [|x y l l' HX _ IH]; [destruct I|]. destruct I as [<-|I]; [exists y; split; [left; reflexivity|exact HX]|].
      destruct (IH I) as (b' & J & K). exists b'. split; [right; exact J|exact K]. }
    destruct X as (b' & J & K). exists b'. split; [|exact K]. apply (find_map_iff g NDg). split; [exact J|]. destruct K as [K _]. rewrite K. exact L. }
  unfold mirror_of in M. destruct M as [|x y l l' [HX _] _]; [discriminate R|]. rewrite HX. apply bind_Ok in R as ([c1 k] & R & Q).
  rewrite (search_mirror _ _ _ HM _ _ _ _ _ R). destruct k; [discriminate Q|]. injection Q as ->. reflexivity.
Qed.
Theorem mirror_iff : forall (f g : FunctionDefinition E), mirror_of chosen f g -> forall c', returns g (Ok c') <-> exists c, returns f (Ok c) /\ c' = mirror_chain chosen c.
Proof.
  intros f g M c'. split.
  - intros R. exists (mirror_chain chosen c'). rewrite mirror_twice. split; [|reflexivity]. apply (mirror_Ok g f (mirror_back _ _ _ M)). exact R.
  - intros (c & R & ->). exact (mirror_Ok f g M c R).
Qed.
End Function.
