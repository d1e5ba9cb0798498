(** Structured control flow: how deeply constructs nest (C111). *)
From Coq Require Import Relations.
From Verif Require Import Base Types Ops Groups ExtSet ControlFlow Spec_Flow Spec_Structured Spec_Cost Spec_Frames Proofs_Flow Proofs_Flow2 Proofs_Flow3 Proofs_Structured Proofs_Cost Proofs_Frames.

Section Nesting.
Context {E : Type}.
Variable f : FunctionDefinition E.
Hypothesis ND : NoDup (labels f).

Lemma below_step : forall k k1 k2, calls f k k1 -> clos_refl_trans_1n _ (calls f) k1 k2 -> clos_refl_trans_1n _ (calls f) k k2.
Proof. intros k k1 k2 C B. eapply Relation_Operators.rt1n_trans; eassumption. Qed.

Lemma ids_below : forall fl id c n, Search f fl id c n -> forall x, In x (chain_ids c) -> exists fl', clos_refl_trans_1n _ (calls f) (id, fl) (x, fl') /\ merges fl' x = false.
Proof.
  intros fl id c n S. induction S; intros x I.
  - destruct I.
  - cbn [chain_ids] in I. destruct I as [<-|[]]. exists fl. split; [apply Relation_Operators.rt1n_refl|assumption].
  - rewrite chain_ids_block in I. apply in_app_or in I as [[<-|[]]|I]; [exists fl; split; [apply Relation_Operators.rt1n_refl|assumption]|].
    destruct (IHS x I) as (fl' & B & M). exists fl'. split; [|exact M]. eapply below_step; [|exact B]. apply calls_along. eapply along_branch; eassumption.
  - rewrite chain_ids_block in I. apply in_app_or in I as [[<-|I]|I]; [exists fl; split; [apply Relation_Operators.rt1n_refl|assumption]| |].
    + destruct (IHS1 x I) as (fl' & B & M). exists fl'. split; [|exact M]. eapply below_step; [|exact B]. eapply calls_into. eapply into_loop; eassumption.
    + destruct (IHS2 x I) as (fl' & B & M). exists fl'. split; [|exact M]. eapply below_step; [|exact B]. apply calls_along. eapply along_loop; eassumption.
  - rewrite chain_ids_block in I. apply in_app_or in I as [[<-|I]|I]; [exists fl; split; [apply Relation_Operators.rt1n_refl|assumption]|apply in_app_or in I as [I|I]|].
    + destruct (IHS1 x I) as (fl' & B & M). exists fl'. split; [|exact M]. eapply below_step; [|exact B]. eapply calls_into. eapply (into_selection f) with (side := true); eassumption.
    + destruct (IHS2 x I) as (fl' & B & M). exists fl'. split; [|exact M]. eapply below_step; [|exact B]. eapply calls_into. eapply (into_selection f) with (side := false); eassumption.
    + destruct (IHS3 x I) as (fl' & B & M). exists fl'. split; [|exact M]. eapply below_step; [|exact B]. apply calls_along. eapply along_selection; eassumption.
  - cbn [chain_ids] in I. destruct I as [<-|I]; [exists fl; split; [apply Relation_Operators.rt1n_refl|assumption]|]. apply in_app_or in I as [I|I]; [|destruct is_break; destruct I].
    destruct (IHS x I) as (fl' & B & M). exists fl'. split; [|exact M]. eapply below_step; [|exact B]. apply calls_along. eapply along_leave; eassumption.
Qed.

Lemma not_below : forall fl id c n k stop x n', Search f fl id c n -> into f (id, fl) k stop -> Search f (snd k) (fst k) x n' -> ~ In id (chain_ids x).
Proof.
  intros fl id c n k stop x n' S I Sk J. destruct (ids_below _ _ _ _ Sk id J) as (fl' & B & M). rewrite <- surjective_pairing in B.
  assert (F : found f (id, fl) n) by (exists c; exact S).
  pose proof (not_inside f ND _ (Acc_later f _ (found_Acc f ND _ _ F)) _ F _ _ I _ B eq_refl) as X. cbn [fst snd] in X. congruence.
Qed.

Definition fine (_ : option BlockId) (c : ControlFlowChain) : Prop := not_in_itself c.
Lemma fine_block2 : forall a x y, everywhere fine a x -> everywhere fine a y -> everywhere fine a (block [x; y]).
Proof.
  intros a x y X Y. rewrite block2. apply everywhere_block. split; [exact I|]. apply Forall_app. split; apply everywhere_items; assumption.
Qed.

Lemma Search_fine : forall fl id c n, Search f fl id c n -> forall a, everywhere fine a c.
Proof.
  intros fl id c n S. induction S as [fl id M|fl id b op M HB Br|fl id b op c n M HB Br Mg S IH|fl id b op lm inner after n M HB Br Mg S1 IH1 S2 IH2
    |fl id b op sm lhs rhs after n M HB Br Mg S1 IH1 S2 IH2 S3 IH3|fl id b op head merge inner is_break M HB Br Mg L D S IH]; intros a.
  - split; exact I.
  - split; exact I.
  - apply fine_block2; [split; exact I|apply IH].
  - apply fine_block2; [|apply IH2]. split; [|apply IH1]. unfold fine, not_in_itself.
    eapply (not_below fl id); [eapply S_loop; eassumption|eapply into_loop; eassumption|exact S1].
  - apply fine_block2; [|apply IH3]. split; [|split; [apply IH1|apply IH2]]. intros _ _. split.
    + eapply (not_below fl id); [eapply S_selection; eassumption|eapply (into_selection f) with (side := true); eassumption|exact S1].
    + eapply (not_below fl id); [eapply S_selection; eassumption|eapply (into_selection f) with (side := false); eassumption|exact S2].
  - split; [|split; [apply IH|destruct is_break; split; exact I]]. destruct is_break; intros X Y; congruence.
Qed.
End Nesting.

Theorem construct_not_in_itself : forall E (f : FunctionDefinition E) chain, returns f (Ok chain) -> everywhere (fun _ => not_in_itself) None chain.
Proof.
  intros E f chain [_ [d H]]. apply find_inv in H as (ND & s & _ & _ & S). exact (Search_fine f ND _ _ _ _ S None).
Qed.

(** ** Nesting *)
Fixpoint construct_ids (c : ControlFlowChain) : list BlockId :=
  match c with
  | Block l => flat_map construct_ids l
  | Selection _ lhs Break _ _ | Selection _ lhs Continue _ _ => construct_ids lhs
  | Selection id lhs rhs _ _ => id :: construct_ids lhs ++ construct_ids rhs
  | Loop id inner _ _ => id :: construct_ids inner
  | Atom _ | Break | Continue => []
  end.
Lemma construct_ids_selection : forall id lhs rhs h w,
  (rhs = Break \/ rhs = Continue) /\ construct_ids (Selection id lhs rhs h w) = construct_ids lhs /\ constructs (Selection id lhs rhs h w) = constructs lhs
  \/ (rhs <> Break /\ rhs <> Continue) /\ construct_ids (Selection id lhs rhs h w) = id :: construct_ids lhs ++ construct_ids rhs
     /\ constructs (Selection id lhs rhs h w) = 1 + Nat.max (constructs lhs) (constructs rhs).
Proof. intros id lhs [] h w; (left; split; [tauto|split; reflexivity]) || (right; split; [split; discriminate|split; reflexivity]). Qed.

Lemma construct_ids_incl : forall c, incl (construct_ids c) (chain_ids c).
Proof.
  intros c. induction c as [id|l IH|id lhs rhs h w IHl IHr|id inner h w IH| |] using chain_ind'; try (intros x []; fail).
  - cbn [construct_ids chain_ids]. intros x I. apply in_flat_map in I as (y & J & I). apply in_flat_map. exists y. split; [exact J|].
    rewrite Forall_forall in IH. exact (IH y J x I).
  - destruct (construct_ids_selection id lhs rhs h w) as [(_ & -> & _)|(_ & -> & _)]; cbn [chain_ids]; intros x I.
    + right. apply in_or_app. left. apply IHl, I.
    + destruct I as [<-|I]; [left; reflexivity|]. right. apply in_app_or in I as [I|I]; apply in_or_app; [left; apply IHl, I|right; apply IHr, I].
  - cbn [construct_ids chain_ids]. intros x [<-|I]; [left; reflexivity|right; apply IH, I].
Qed.

Lemma constructs_bound : forall hs c a, everywhere (fun _ => not_in_itself) a c -> incl (construct_ids c) hs -> forall around, NoDup around -> incl around hs ->
  (forall x, In x around -> ~ In x (construct_ids c)) -> length around + constructs c <= length hs.
Proof.
  intros hs c. induction c as [id|l IH|id lhs rhs h w IHl IHr|id inner h w IH| |] using chain_ind'; intros a EV IN around N I D;
    try (cbn [constructs]; rewrite Nat.add_0_r; apply NoDup_incl_length; assumption).
  - cbn [constructs construct_ids] in *. apply everywhere_block in EV as [_ EV].
    assert (X : forall y, In y l -> length around + constructs y <= length hs).
    { intros y J. rewrite Forall_forall in IH, EV. apply (IH y J a (EV y J)); [|exact N|exact I|].
      - intros x Q. apply IN. apply in_flat_map. eauto.
      - intros x Q R. apply (D x Q). apply in_flat_map. eauto. }
    clear - X N I. induction l as [|y l IH]; [cbn; rewrite Nat.add_0_r; apply NoDup_incl_length; assumption|].
    cbn [map list_max fold_right]. fold (list_max (map constructs l)). pose proof (X y (or_introl eq_refl)). assert (Y : length around + list_max (map constructs l) <= length hs) by (apply IH; intros; apply X; right; assumption).
    change (fold_right Nat.max 0 (map constructs l)) with (list_max (map constructs l)). lia.
  - destruct EV as (P & EL & ER). destruct (construct_ids_selection id lhs rhs h w) as [(_ & Q1 & Q2)|((R1 & R2) & Q1 & Q2)]; rewrite Q1 in *; rewrite Q2.
    + apply (IHl a EL IN around N I D).
    + destruct (P R1 R2) as [P1 P2].
      assert (X : length (id :: around) + constructs lhs <= length hs).
      { apply (IHl a EL).
        - intros x J. apply IN. right. apply in_or_app. auto.
        - constructor; [|exact N]. intros J. apply (D id J). left. reflexivity.
        - intros x [<-|J]; [apply IN; left; reflexivity|apply I; exact J].
        - intros x [<-|J] K; [apply P1, construct_ids_incl, K|apply (D x J); right; apply in_or_app; auto]. }
      assert (Y : length (id :: around) + constructs rhs <= length hs).
      { apply (IHr a ER).
        - intros x J. apply IN. right. apply in_or_app. auto.
        - constructor; [|exact N]. intros J. apply (D id J). left. reflexivity.
        - intros x [<-|J]; [apply IN; left; reflexivity|apply I; exact J].
        - intros x [<-|J] K; [apply P2, construct_ids_incl, K|apply (D x J); right; apply in_or_app; auto]. }
      cbn [length] in X, Y. lia.
  - destruct EV as (P & EI). cbn [constructs construct_ids] in *. cbn in P.
    assert (X : length (id :: around) + constructs inner <= length hs).
    { apply (IH (Some id) EI).
      - intros x J. apply IN. right. exact J.
      - constructor; [|exact N]. intros J. apply (D id J). left. reflexivity.
      - intros x [<-|J]; [apply IN; left; reflexivity|apply I; exact J].
      - intros x [<-|J] K; [apply P, construct_ids_incl, K|apply (D x J); right; exact K]. }
    cbn [length] in X. lia.
Qed.

Lemma carries_incl : forall E (f : FunctionDefinition E) c a, everywhere (carries f) a c -> incl (construct_ids c) (map label_of (merging f)).
Proof.
  intros E f. assert (H : forall id b mg, has_block f id b -> BasicBlock_merge b = Some mg -> In id (map label_of (merging f))).
  { intros id b mg [J <-] Q. apply in_map. apply filter_In. split; [exact J|]. rewrite Q. reflexivity. }
  intros c. induction c as [id|l IH|id lhs rhs h w IHl IHr|id inner h w IH| |] using chain_ind'; intros a EV; try (intros x []; fail).
  - apply everywhere_block in EV as [_ EV]. intros x J. cbn [construct_ids] in J. apply in_flat_map in J as (y & K & J).
    rewrite Forall_forall in IH, EV. exact (IH y K a (EV y K) x J).
  - destruct EV as (P & EL & ER). destruct (construct_ids_selection id lhs rhs h w) as [(_ & Q1 & _)|((R1 & R2) & Q1 & _)]; rewrite Q1; [exact (IHl a EL)|].
    intros x [<-|J]; [|apply in_app_or in J as [J|J]; [exact (IHl a EL x J)|exact (IHr a ER x J)]].
    destruct P as [(t & e & op & (b & o & HB & _ & _ & _ & _ & Mg) & _)|(t & e & _ & [X|X] & _)]; [eapply H; eassumption|contradiction|contradiction].
  - destruct EV as ((_ & m & (b & op & HB & Mg & _)) & EI). intros x [<-|J]; [eapply H; eassumption|exact (IH _ EI x J)].
Qed.

Theorem constructs_at_most : forall E (f : FunctionDefinition E) chain, returns f (Ok chain) -> constructs chain <= length (merging f).
Proof.
  intros E f chain R. pose proof (construct_not_in_itself _ _ _ R) as P. destruct R as [_ [d H]]. apply chain_carries in H.
  pose proof (constructs_bound (map label_of (merging f)) chain None P (carries_incl _ _ _ _ H) []) as B. rewrite map_length in B. apply B.
  - constructor.
  - intros x [].
  - intros x [].
Qed.

(** ** A function whose constructs nest as much *)
Lemma list_max_app1 : forall l x, x <= list_max (l ++ [x]).
Proof. intros l x. induction l as [|y l IH]; cbn; [lia|]. unfold list_max in IH. lia. Qed.
Lemma constructs_tower : forall k, k <= list_max (map constructs (map chain_of (tower k))).
Proof.
  induction k as [|k IH]; [lia|]. cbn [tower]. rewrite !map_app. cbn [map]. eapply Nat.le_trans; [|apply list_max_app1].
  cbn [chain_of constructs]. apply le_n_S. eapply Nat.le_trans; [exact IH|]. apply Nat.eq_le_incl.
  assert (A : arm chain_of (tower k) = Block (map chain_of (tower k))).
  { destruct k as [|k]; [reflexivity|]. pose proof (tower_length (S k)) as L. destruct (tower (S k)) as [|x [|y l]]; try discriminate L. reflexivity. }
  rewrite A. reflexivity.
Qed.

Theorem constructs_reached : forall E n, exists (f : FunctionDefinition E) chain, returns f (Ok chain) /\ length (merging f) = n /\ constructs chain = n.
Proof.
  intros E n. destruct (tower_found E n) as [L R]. exists (tower_function n), (program_chain (tower n) (N.of_nat (S n))). split; [exact R|].
  assert (M : length (merging (E := E) (tower_function n)) = n).
  { unfold merging, tower_function, tower_blocks. cbn [FunctionDefinition_blocks]. rewrite map_app, filter_app, app_length. cbn [map of_skeleton filter BasicBlock_merge length].
    rewrite Nat.add_0_r. cbn [seq map of_skeleton tower_block filter BasicBlock_merge]. rewrite map_map.
    rewrite <- (seq_length n 1) at 2. rewrite <- seq_shift, map_map, map_length. generalize (seq 0 n) as l. induction l as [|i l IH]; [reflexivity|]. cbn [map length]. exact (f_equal S IH). }
  split; [exact M|]. apply Nat.le_antisymm; [pose proof (constructs_at_most _ _ _ R) as X; rewrite M in X; exact X|].
  unfold program_chain. pose proof (constructs_tower n) as T. pose proof (tower_length n) as TL. destruct (tower n) as [|s l] eqn:Q; [discriminate TL|].
  cbn [constructs]. rewrite map_app. eapply Nat.le_trans; [exact T|]. clear. generalize (map constructs (map chain_of (s :: l))) as a. intros a. induction a as [|x a IH]; [apply Nat.le_0_l|].
  cbn [app list_max fold_right] in *. unfold list_max in IH. lia.
Qed.

(** ** An exit that contains itself *)
(** Block 0 starts a loop that ends with block 3.  Block 1 starts the loop of 0 again or goes to block 2, which starts a
    loop that goes on with block 0; block 1 is in that loop too, and leaves it. *)
Definition twice_exit {E} : FunctionDefinition E :=
  Build_FunctionDefinition (Build_OpFunction 0%N 0%N (Build_FunctionControl false false false false) 0%N) []
    (map of_skeleton
      [(0%N, Some (GroupMerge_OpLoopMerge (Build_OpLoopMerge 3%N 0%N LoopControl_default)), GroupBranch_OpBranch (Build_OpBranch 1%N));
       (1%N, None, GroupBranch_OpBranchConditional (Build_OpBranchConditional 9%N 2%N 0%N None));
       (2%N, Some (GroupMerge_OpLoopMerge (Build_OpLoopMerge 0%N 0%N LoopControl_default)), GroupBranch_OpBranch (Build_OpBranch 1%N));
       (3%N, None, GroupBranch_OpReturn Build_OpReturn)]).
Lemma exit_in_itself : forall E, exists (f : FunctionDefinition E) inner, returns f (Ok (Block [Loop 0%N (Selection 1%N inner Continue SelectionControl_default None) LoopControl_default None; Atom 3%N]))
  /\ In 1%N (chain_ids inner).
Proof.
  intros E. exists twice_exit, (Block [Loop 2%N (Selection 1%N (Block []) Break SelectionControl_default None) LoopControl_default None]). split.
  - split; [discriminate|]. exists 20. vm_compute. reflexivity.
  - cbn. tauto.
Qed.
