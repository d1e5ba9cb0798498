(** Lemmas for C78: the blocks of a function and its instructions execute alike. *)
From Verif Require Import Base Types Ops Groups ControlFlow Validate Spec_Layout Spec_Flow Spec_Machine Proofs_Layout Proofs_Layout2 Proofs_Flow Proofs_Flow2.

Section Machine.
Context {E : Type} (d : FunctionDefinition E) (pre post : list (Core E)).

Let blocks := FunctionDefinition_blocks d.
Let l := pre ++ write_definition d ++ post.

(** Where the blocks after [before] start. *)
Definition place (before : list (BasicBlock E)) : nat :=
  length pre + 1 + length (FunctionDefinition_parameters d) + length (flat_map write_block before).

Lemma nth_block : forall before b after, blocks = before ++ b :: after -> forall k i,
  nth_error (write_block b) k = Some i -> nth_error l (place before + k) = Some i.
Proof.
  intros before b after B k i H. unfold l, place, write_definition. fold blocks. rewrite B, flat_map_app. cbn [flat_map].
  rewrite nth_error_app2 by lia.
  replace (length pre + 1 + length (FunctionDefinition_parameters d) + length (flat_map write_block before) + k - length pre)
    with (S (length (FunctionDefinition_parameters d) + (length (flat_map write_block before) + k))) by lia.
  cbn [app nth_error]. rewrite <- !app_assoc. rewrite nth_error_app2 by (rewrite map_length; lia). rewrite map_length.
  rewrite nth_error_app2 by lia.
  replace (length (FunctionDefinition_parameters d) + (length (flat_map write_block before) + k) - length (FunctionDefinition_parameters d)
    - length (flat_map write_block before)) with k by lia.
  rewrite nth_error_app1 by (apply nth_error_Some; congruence). exact H.
Qed.

Lemma in_block : forall k, place [] <= k < place blocks -> exists before b after j i,
  blocks = before ++ b :: after /\ k = place before + j /\ nth_error (write_block b) j = Some i.
Proof.
  intros k. assert (G : forall done todo, blocks = done ++ todo -> place done <= k < place blocks ->
    exists before b after j i, blocks = before ++ b :: after /\ k = place before + j /\ nth_error (write_block b) j = Some i).
  { intros done todo. revert done. induction todo as [|b todo IH]; intros done B R.
    - rewrite app_nil_r in B. rewrite B in R. lia.
    - destruct (Nat.lt_ge_cases k (place done + length (write_block b))) as [L|L].
      + assert (X : exists i, nth_error (write_block b) (k - place done) = Some i).
        { destruct (nth_error (write_block b) (k - place done)) eqn:Q; [eauto|]. apply nth_error_None in Q. lia. }
        destruct X as [i X]. exists done, b, todo, (k - place done), i. split; [exact B|]. split; [lia|exact X].
      + apply (IH (done ++ [b])).
        * rewrite <- app_assoc. exact B.
        * unfold place in *. rewrite flat_map_app, app_length. cbn [flat_map]. rewrite app_nil_r. lia. }
  intros R. exact (G [] blocks eq_refl R).
Qed.

Definition mid (i : Core E) : Prop := passive i = true /\ (match i with Core_OpFunction _ | Core_OpFunctionParameter _ => False | _ => True end) \/ ordinary i = true.

Lemma code_ordinary : forall c : GroupCode E, ordinary (core_of_code c) = true.
Proof. intros []; reflexivity. Qed.

(** The instructions of a block by position. *)
Lemma block_at : forall (b : BasicBlock E) k i, nth_error (write_block b) k = Some i ->
  (k = 0 /\ i = Core_OpLabel (BasicBlock_label b))
  \/ (0 < k /\ S k < length (write_block b) /\ mid i)
  \/ (0 < k /\ S k = length (write_block b) /\ i = core_of_branch (BasicBlock_branch b)).
Proof.
  intros b k i H. unfold write_block in *. destruct k as [|k]; [left; injection H as <-; auto|right]. cbn [nth_error length] in *.
  destruct (Nat.lt_ge_cases k (length (BasicBlock_code b))) as [L|L].
  - left. split; [lia|]. rewrite nth_error_app1 in H by (rewrite map_length; lia). rewrite !app_length, map_length. cbn [length]. split; [lia|].
    apply nth_error_In in H. apply in_map_iff in H as (c & <- & _). right. apply code_ordinary.
  - rewrite nth_error_app2 in H by (rewrite map_length; lia). rewrite map_length in H. rewrite !app_length, map_length. cbn [length].
    destruct (BasicBlock_merge b) as [m|]; cbn [length app] in *.
    + destruct (k - length (BasicBlock_code b)) as [|[|n]] eqn:Q.
      * injection H as <-. left. split; [lia|]. split; [lia|]. left. destruct m; split; reflexivity || exact I.
      * injection H as <-. right. split; [lia|]. split; [lia|reflexivity].
      * destruct n; discriminate.
    + destruct (k - length (BasicBlock_code b)) as [|n] eqn:Q; [|destruct n; discriminate].
      injection H as <-. right. split; [lia|]. split; [lia|reflexivity].
Qed.

Lemma block_nonempty : forall b : BasicBlock E, 2 <= length (write_block b).
Proof. intros b. unfold write_block. cbn [length]. rewrite !app_length. cbn [length]. lia. Qed.

Lemma block_no_function : forall (b : BasicBlock E) k i, nth_error (write_block b) k = Some i ->
  match i with Core_OpFunction _ | Core_OpFunctionEnd _ => False | _ => True end.
Proof.
  intros b k i H. apply block_at in H as [(_ & ->)|[(_ & _ & [[P N]|O])|(_ & _ & ->)]].
  - exact I.
  - destruct i; try exact I; first [exact N|discriminate P].
  - destruct i; try exact I; discriminate O.
  - destruct (BasicBlock_branch b); exact I.
Qed.

Lemma nth_function : nth_error l (length pre) = Some (Core_OpFunction (FunctionDefinition_function d)).
Proof. unfold l. rewrite nth_error_app2 by lia. rewrite Nat.sub_diag. reflexivity. Qed.
Lemma nth_parameter : forall k, length pre < k < place [] -> exists p, nth_error l k = Some (Core_OpFunctionParameter p).
Proof.
  intros k R. unfold place in R. cbn [flat_map length] in R. unfold l, write_definition. rewrite nth_error_app2 by lia.
  destruct (k - length pre) as [|n] eqn:Q; [lia|]. cbn [app nth_error]. rewrite <- app_assoc.
  rewrite nth_error_app1 by (rewrite map_length; lia).
  destruct (nth_error (FunctionDefinition_parameters d) n) as [p|] eqn:P.
  - exists p. apply map_nth_error. exact P.
  - apply nth_error_None in P. lia.
Qed.
Lemma nth_end : nth_error l (place blocks) = Some (Core_OpFunctionEnd Build_OpFunctionEnd).
Proof.
  unfold l, write_definition, place. fold blocks. rewrite nth_error_app2 by lia.
  replace (length pre + 1 + length (FunctionDefinition_parameters d) + length (flat_map write_block blocks) - length pre)
    with (S (length (FunctionDefinition_parameters d) + length (flat_map write_block blocks))) by lia.
  cbn [app nth_error]. rewrite <- !app_assoc. rewrite nth_error_app2 by (rewrite map_length; lia). rewrite map_length.
  rewrite nth_error_app2 by lia.
  match goal with |- nth_error _ ?k = _ => replace k with 0 by lia end. reflexivity.
Qed.
Lemma place_app : forall before b after, blocks = before ++ b :: after ->
  place [] <= place before /\ place before + length (write_block b) <= place blocks.
Proof. intros before b after B. unfold place. rewrite B, flat_map_app, !app_length. cbn [flat_map]. rewrite app_length. cbn [length]. lia. Qed.

(** Jumps lead from blocks of the function to blocks of the function. *)
Lemma jump_iff : forall before b after, blocks = before ++ b :: after -> forall k, k < length (write_block b) -> forall target pc',
  jump l (place before + k) target pc' <-> exists before' b' after', blocks = before' ++ b' :: after' /\ label_of b' = target /\ pc' = place before'.
Proof.
  intros before b after B k K target pc'. pose proof (place_app _ _ _ B) as P. split.
  - intros [J N].
    assert (R : place [] <= pc' < place blocks).
    { split.
      - apply Nat.nlt_ge. intros L. destruct (Nat.lt_trichotomy pc' (length pre)) as [X|[X|X]].
        + refine (N (length pre) _ _ nth_function). assert (length pre < place []) by (unfold place; lia). lia.
        + rewrite X, nth_function in J. discriminate J.
        + destruct (nth_parameter pc' (conj X L)) as [p X']. rewrite X' in J. discriminate J.
      - apply Nat.nle_gt. intros L. refine (N (place blocks) _ _ nth_end). lia. }
    destruct (in_block pc' R) as (before' & b' & after' & j & i & B' & -> & W). rewrite (nth_block _ _ _ B' _ _ W) in J. injection J as ->.
    pose proof (block_at _ _ _ W) as [(-> & X)|[(_ & _ & [[X _]|X])|(_ & _ & X)]]; try discriminate X.
    + injection X as X. exists before', b', after'. split; [exact B'|]. split; [unfold label_of; rewrite <- X; reflexivity|lia].
    + destruct (BasicBlock_branch b'); discriminate X.
  - intros (before' & b' & after' & B' & L & ->). pose proof (place_app _ _ _ B') as P'. split.
    + rewrite <- (Nat.add_0_r (place before')). apply (nth_block _ _ _ B' 0). unfold write_block. cbn [nth_error]. rewrite <- L.
      unfold label_of. destruct (BasicBlock_label b'). reflexivity.
    + intros x i R X. pose proof (block_nonempty b'). assert (R' : place [] <= x < place blocks) by lia.
      destruct (in_block x R') as (before2 & b2 & after2 & j & i2 & B2 & -> & W). rewrite (nth_block _ _ _ B2 _ _ W) in X. injection X as ->.
      eapply block_no_function. exact W.
Qed.

(** What the instructions of a block do. *)
Definition acts (o : option bool) (i : Core E) : list (action E) :=
  match i with
  | Core_OpLabel op => [Enters (OpLabel_result_id op)]
  | Core_OpBranchConditional op => match o with Some h => [Decides (OpBranchConditional_condition op) h] | None => [] end
  | _ => if ordinary i then [Does i] else []
  end.

Lemma acts_block : forall (b : BasicBlock E) o, flat_map (acts o) (write_block b) = block_actions b o.
Proof.
  intros b o. unfold write_block, block_actions, label_of. cbn [flat_map acts app]. f_equal. rewrite !flat_map_app. f_equal.
  - induction (BasicBlock_code b) as [|c code IH]; [reflexivity|]. cbn [map flat_map]. rewrite IH. destruct c; reflexivity.
  - destruct (BasicBlock_merge b) as [[]|]; cbn [flat_map acts ordinary app core_of_merge]; destruct (BasicBlock_branch b), o; reflexivity.
Qed.

Lemma skipn_nth : forall A (s : list A) k x, nth_error s k = Some x -> skipn k s = x :: skipn (S k) s.
Proof. intros A s. induction s as [|y s IH]; intros [|k] x H; try discriminate; [injection H as ->; reflexivity|]. apply IH. exact H. Qed.

Hypothesis unique : NoDup (labels d).

Lemma in_blocks : forall before b after, blocks = before ++ b :: after -> has_block d (label_of b) b.
Proof. intros before b after B. split; [|reflexivity]. fold blocks. rewrite B. apply in_elt. Qed.

(** Instructions to blocks. *)
Definition settles (dest : option nat) (dest' : option BlockId) (rest : list (action E)) : Prop :=
  match dest with None => dest' = None /\ rest = [] | Some _ => True end.

Lemma run_walk : forall pc a dest, run l pc a dest -> forall before b after k, blocks = before ++ b :: after -> pc = place before + k ->
  k < length (write_block b) ->
  exists o t dest' a' rest, walk d (label_of b) ((label_of b, o) :: t) dest' /\ performs d t a'
    /\ a ++ rest = flat_map (acts o) (skipn k (write_block b)) ++ a' /\ settles dest dest' rest.
Proof.
  (* one walk step from a block, to any target *)
  assert (one : forall before b after, blocks = before ++ b :: after -> exists o dest', walk d (label_of b) [(label_of b, o)] dest').
  { intros before b after B. pose proof (in_blocks _ _ _ B) as HB. destruct (BasicBlock_branch b) as [op|op|op] eqn:BR.
    - exists None. eexists. eapply walk_branch; [exact HB|exact BR|apply walk_here].
    - exists (Some true). eexists. eapply walk_true; [exact HB|exact BR|apply walk_here].
    - exists None, None. eapply walk_return; [exact HB|exact BR]. }
  intros pc a dest R. induction R as [pc|pc i a dest N P R IH|pc op a dest N R IH|pc i a dest N O R IH|pc op pc' a dest N J R IH|pc op h pc' a dest N J R IH|pc op N];
    intros before b after k B -> K.
  - destruct (one _ _ _ B) as (o & dest' & W). exists o, [], dest', [], (flat_map (acts o) (skipn k (write_block b)) ++ []).
    split; [exact W|]. split; [constructor|]. split; [reflexivity|exact I].
  - destruct (nth_error (write_block b) k) as [i'|] eqn:W; [|apply nth_error_None in W; lia]. rewrite (nth_block _ _ _ B _ _ W) in N. injection N as ->.
    pose proof (block_at _ _ _ W) as [(-> & ->)|[(_ & L & _)|(_ & _ & ->)]]; [discriminate P| |destruct (BasicBlock_branch b); discriminate P].
    destruct (IH before b after (S k) B ltac:(lia) L) as (o & t & dest' & a' & rest & W' & Pf & Q & S). exists o, t, dest', a', rest.
    split; [exact W'|]. split; [exact Pf|]. split; [|exact S]. rewrite (skipn_nth _ _ _ _ W). cbn [flat_map]. rewrite Q. destruct i; try discriminate P; reflexivity.
  - destruct (nth_error (write_block b) k) as [i'|] eqn:W; [|apply nth_error_None in W; lia]. rewrite (nth_block _ _ _ B _ _ W) in N. injection N as ->.
    pose proof (block_nonempty b) as NE. assert (L : S k < length (write_block b)).
    { pose proof (block_at _ _ _ W) as [(-> & _)|[(_ & L & _)|(_ & _ & Q)]]; [lia|exact L|destruct (BasicBlock_branch b); discriminate Q]. }
    destruct (IH before b after (S k) B ltac:(lia) L) as (o & t & dest' & a' & rest & W' & Pf & Q & S). exists o, t, dest', a', rest.
    split; [exact W'|]. split; [exact Pf|]. split; [|exact S]. rewrite (skipn_nth _ _ _ _ W). cbn [flat_map acts app]. rewrite Q. reflexivity.
  - destruct (nth_error (write_block b) k) as [i'|] eqn:W; [|apply nth_error_None in W; lia]. rewrite (nth_block _ _ _ B _ _ W) in N. injection N as ->.
    pose proof (block_at _ _ _ W) as [(-> & ->)|[(_ & L & _)|(_ & _ & ->)]]; [discriminate O| |destruct (BasicBlock_branch b); discriminate O].
    destruct (IH before b after (S k) B ltac:(lia) L) as (o & t & dest' & a' & rest & W' & Pf & Q & S). exists o, t, dest', a', rest.
    split; [exact W'|]. split; [exact Pf|]. split; [|exact S]. rewrite (skipn_nth _ _ _ _ W). cbn [flat_map app]. rewrite Q.
    assert (A : acts o i = [Does i]) by (destruct i; try discriminate O; reflexivity). rewrite A. reflexivity.
  - destruct (nth_error (write_block b) k) as [i'|] eqn:W; [|apply nth_error_None in W; lia]. rewrite (nth_block _ _ _ B _ _ W) in N. injection N as ->.
    pose proof (block_at _ _ _ W) as [(_ & Q)|[(_ & _ & [[Q _]|Q])|(_ & L & Q)]]; try discriminate Q.
    destruct (BasicBlock_branch b) as [op'|op'|op'] eqn:BR; try discriminate Q. injection Q as ->.
    apply (jump_iff _ _ _ B _ K) in J as (before' & b' & after' & B' & LB & ->).
    pose proof (block_nonempty b') as NE.
    destruct (IH before' b' after' 0 B' ltac:(lia) ltac:(lia)) as (o & t & dest' & a' & rest & W' & Pf & Q & S). cbn [skipn] in Q. rewrite acts_block in Q.
    exists None, ((label_of b', o) :: t), dest', (block_actions b' o ++ a'), rest. split.
    + eapply walk_branch; [exact (in_blocks _ _ _ B)|exact BR|]. rewrite <- LB. exact W'.
    + split; [apply performs_block; [exact (in_blocks _ _ _ B')|exact Pf]|]. split; [|exact S].
      rewrite (skipn_nth _ _ _ _ W). rewrite skipn_all2 by lia. cbn [flat_map acts ordinary app]. exact Q.
  - destruct (nth_error (write_block b) k) as [i'|] eqn:W; [|apply nth_error_None in W; lia]. rewrite (nth_block _ _ _ B _ _ W) in N. injection N as ->.
    pose proof (block_at _ _ _ W) as [(_ & Q)|[(_ & _ & [[Q _]|Q])|(_ & L & Q)]]; try discriminate Q.
    destruct (BasicBlock_branch b) as [op'|op'|op'] eqn:BR; try discriminate Q. injection Q as ->.
    apply (jump_iff _ _ _ B _ K) in J as (before' & b' & after' & B' & LB & ->).
    pose proof (block_nonempty b') as NE.
    destruct (IH before' b' after' 0 B' ltac:(lia) ltac:(lia)) as (o & t & dest' & a' & rest & W' & Pf & Q & S). cbn [skipn] in Q. rewrite acts_block in Q.
    exists (Some h), ((label_of b', o) :: t), dest', (block_actions b' o ++ a'), rest. split.
    + destruct h; [eapply walk_true|eapply walk_false]; try exact (in_blocks _ _ _ B); try exact BR; rewrite <- LB; exact W'.
    + split; [apply performs_block; [exact (in_blocks _ _ _ B')|exact Pf]|]. split; [|exact S].
      rewrite (skipn_nth _ _ _ _ W). rewrite skipn_all2 by lia. cbn [flat_map acts app]. rewrite Q. reflexivity.
  - destruct (nth_error (write_block b) k) as [i'|] eqn:W; [|apply nth_error_None in W; lia]. rewrite (nth_block _ _ _ B _ _ W) in N. injection N as ->.
    pose proof (block_at _ _ _ W) as [(_ & Q)|[(_ & _ & [[Q _]|Q])|(_ & L & Q)]]; try discriminate Q.
    destruct (BasicBlock_branch b) as [op'|op'|op'] eqn:BR; try discriminate Q.
    exists None, [], None, [], []. split; [eapply walk_return; [exact (in_blocks _ _ _ B)|exact BR]|]. split; [constructor|]. split; [|split; reflexivity].
    rewrite (skipn_nth _ _ _ _ W). rewrite skipn_all2 by lia. reflexivity.
Qed.

(** Blocks to instructions. *)
Lemma run_block : forall before b after, blocks = before ++ b :: after -> forall o n k, k + n = pred (length (write_block b)) ->
  forall a dest, run l (place before + (k + n)) a dest ->
  run l (place before + k) (flat_map (acts o) (firstn n (skipn k (write_block b))) ++ a) dest.
Proof.
  intros before b after B o n. induction n as [|n IH]; intros k K a dest R.
  - rewrite Nat.add_0_r in R. exact R.
  - pose proof (block_nonempty b) as NE.
    destruct (nth_error (write_block b) k) as [i|] eqn:W; [|apply nth_error_None in W; lia]. rewrite (skipn_nth _ _ _ _ W). cbn [firstn flat_map].
    rewrite <- app_assoc. replace (k + S n) with (S k + n) in R by lia. specialize (IH (S k) ltac:(lia) a dest R).
    replace (place before + S k) with (S (place before + k)) in IH by lia.
    pose proof (nth_block _ _ _ B _ _ W) as N. pose proof (block_at _ _ _ W) as [(_ & ->)|[(_ & _ & [[P F]|O])|(_ & L & _)]]; [| | |lia].
    + cbn [acts app]. eapply run_label; [exact N|exact IH].
    + assert (A : acts o i = []) by (destruct i; try discriminate P; reflexivity). rewrite A. eapply run_passive; [exact N|exact P|exact IH].
    + assert (A : acts o i = [Does i]) by (destruct i; try discriminate O; reflexivity). rewrite A. eapply run_does; [exact N|exact O|exact IH].
Qed.

Lemma nth_last : forall b : BasicBlock E, nth_error (write_block b) (pred (length (write_block b))) = Some (core_of_branch (BasicBlock_branch b)).
Proof.
  intros b. unfold write_block. rewrite app_comm_cons, app_assoc, app_length. cbn [length]. rewrite Nat.add_1_r. cbn [pred].
  rewrite nth_error_app2 by lia. rewrite Nat.sub_diag. reflexivity.
Qed.
Lemma block_split : forall (b : BasicBlock E) o, block_actions b o
  = flat_map (acts o) (firstn (pred (length (write_block b))) (write_block b)) ++ acts o (core_of_branch (BasicBlock_branch b)).
Proof.
  intros b o. rewrite <- acts_block. rewrite <- (firstn_skipn (pred (length (write_block b))) (write_block b)) at 1. rewrite flat_map_app. f_equal.
  rewrite (skipn_nth _ _ _ _ (nth_last b)). pose proof (block_nonempty b). rewrite skipn_all2 by lia. cbn [flat_map]. apply app_nil_r.
Qed.

Lemma split_blocks : forall id b, has_block d id b -> exists before after, blocks = before ++ b :: after /\ label_of b = id.
Proof. intros id b [H L]. apply in_split in H as (before & after & H). exists before, after. split; [exact H|exact L]. Qed.

Lemma walk_run : forall id t dest, walk d id t dest -> (forall t' j, walk d id t' (Some j) -> exists b, has_block d j b) ->
  forall a, performs d t a -> forall before b after, blocks = before ++ b :: after -> label_of b = id ->
  exists dest', run l (place before) a dest' /\ (dest = None -> dest' = None).
Proof.
  intros id t dest W.
  assert (step : forall before b after, blocks = before ++ b :: after -> forall o a dest,
    run l (place before + pred (length (write_block b))) (acts o (core_of_branch (BasicBlock_branch b)) ++ a) dest ->
    run l (place before) (block_actions b o ++ a) dest).
  { intros before b after B o a dest0 R. rewrite block_split, <- app_assoc. rewrite <- (Nat.add_0_r (place before)).
    exact (run_block _ _ _ B o (pred (length (write_block b))) 0 eq_refl _ _ R). }
  assert (same : forall id b before b' after, has_block d id b -> blocks = before ++ b' :: after -> label_of b' = id -> b' = b).
  { intros i b before b' after HB B L. eapply has_block_inj; [exact unique| |exact HB]. rewrite <- L. exact (in_blocks _ _ _ B). }
  induction W as [id|id b0 op HB BR|id b0 op t dest HB BR W IH|id b0 op t dest HB BR W IH|id b0 op t dest HB BR W IH]; intros EX a P before b after B L.
  - inversion P; subst. exists (Some (place before)). split; [apply run_here|discriminate].
  - inversion P as [|id' b1 o t' a' HB' P']; subst. inversion P'; subst. pose proof (same _ _ _ _ _ HB B eq_refl) as <-. pose proof (same _ _ _ _ _ HB' B eq_refl) as <-.
    exists None. split; [|reflexivity]. eapply step; [exact B|]. rewrite BR. cbn [core_of_branch acts ordinary app]. eapply run_return.
    pose proof (nth_last b) as N. rewrite BR in N. exact (nth_block _ _ _ B _ _ N).
  - inversion P as [|id' b1 o t' a' HB' P']; subst. pose proof (same _ _ _ _ _ HB B eq_refl) as <-. pose proof (same _ _ _ _ _ HB' B eq_refl) as <-.
    assert (EX' : forall t' j, walk d (OpBranch_target_label op) t' (Some j) -> exists b, has_block d j b) by (intros t' j W'; eapply EX; eapply walk_branch; eauto).
    destruct (EX' [] _ (walk_here _ _)) as [b2 HB2]. apply split_blocks in HB2 as (before2 & after2 & B2 & L2).
    destruct (IH EX' a' P' before2 b2 after2 B2 L2) as (dest' & R & D). exists dest'. split; [|exact D].
    eapply step; [exact B|]. rewrite BR. cbn [core_of_branch acts ordinary app]. pose proof (nth_last b) as N. rewrite BR in N.
    eapply run_branch; [exact (nth_block _ _ _ B _ _ N)| |exact R]. pose proof (block_nonempty b). apply (jump_iff _ _ _ B); [lia|]. eauto 8.
  - inversion P as [|id' b1 o t' a' HB' P']; subst. pose proof (same _ _ _ _ _ HB B eq_refl) as <-. pose proof (same _ _ _ _ _ HB' B eq_refl) as <-.
    assert (EX' : forall t' j, walk d (OpBranchConditional_true_label op) t' (Some j) -> exists b, has_block d j b) by (intros t' j W'; eapply EX; eapply walk_true; eauto).
    destruct (EX' [] _ (walk_here _ _)) as [b2 HB2]. apply split_blocks in HB2 as (before2 & after2 & B2 & L2).
    destruct (IH EX' a' P' before2 b2 after2 B2 L2) as (dest' & R & D). exists dest'. split; [|exact D].
    eapply step; [exact B|]. rewrite BR. cbn [core_of_branch acts ordinary app]. pose proof (nth_last b) as N. rewrite BR in N.
    eapply run_conditional; [exact (nth_block _ _ _ B _ _ N)| |exact R]. pose proof (block_nonempty b). apply (jump_iff _ _ _ B); [lia|]. eauto 8.
  - inversion P as [|id' b1 o t' a' HB' P']; subst. pose proof (same _ _ _ _ _ HB B eq_refl) as <-. pose proof (same _ _ _ _ _ HB' B eq_refl) as <-.
    assert (EX' : forall t' j, walk d (OpBranchConditional_false_label op) t' (Some j) -> exists b, has_block d j b) by (intros t' j W'; eapply EX; eapply walk_false; eauto).
    destruct (EX' [] _ (walk_here _ _)) as [b2 HB2]. apply split_blocks in HB2 as (before2 & after2 & B2 & L2).
    destruct (IH EX' a' P' before2 b2 after2 B2 L2) as (dest' & R & D). exists dest'. split; [|exact D].
    eapply step; [exact B|]. rewrite BR. cbn [core_of_branch acts ordinary app]. pose proof (nth_last b) as N. rewrite BR in N.
    eapply run_conditional; [exact (nth_block _ _ _ B _ _ N)| |exact R]. pose proof (block_nonempty b). apply (jump_iff _ _ _ B); [lia|]. eauto 8.
Qed.

(** The way from the OpFunction to the first block. *)
Lemma run_start : forall a dest, run l (place []) a dest -> run l (length pre) a dest.
Proof.
  intros a dest R. assert (G : forall n k, k + n = place [] -> length pre < k -> run l k a dest).
  { induction n as [|n IH]; intros k K L; [rewrite Nat.add_0_r in K; subst; exact R|].
    destruct (nth_parameter k ltac:(lia)) as [p N]. eapply run_passive; [exact N|reflexivity|]. apply IH; lia. }
  eapply run_passive; [exact nth_function|reflexivity|]. apply (G (length (FunctionDefinition_parameters d))); unfold place; cbn [flat_map length]; lia.
Qed.
Lemma run_start_inv : forall pc a dest, run l pc a dest -> length pre <= pc <= place [] -> (a = [] /\ dest <> None) \/ run l (place []) a dest.
Proof.
  intros pc a dest R. induction R as [pc|pc i a dest N P R IH|pc op a dest N R IH|pc i a dest N O R IH|pc op pc' a dest N J R IH|pc op h pc' a dest N J R IH|pc op N];
    intros K.
  - left. split; [reflexivity|discriminate].
  - destruct (Nat.eq_dec pc (place [])) as [->|NE]; [right; eapply run_passive; eauto|]. apply IH. lia.
  - destruct (Nat.eq_dec pc (place [])) as [->|NE]; [right; eapply run_label; eauto|]. exfalso.
    destruct (Nat.eq_dec pc (length pre)) as [->|NE']; [rewrite nth_function in N; discriminate|]. destruct (nth_parameter pc ltac:(lia)) as [p Q]. congruence.
  - destruct (Nat.eq_dec pc (place [])) as [->|NE]; [right; eapply run_does; eauto|]. exfalso.
    destruct (Nat.eq_dec pc (length pre)) as [->|NE']; [rewrite nth_function in N; injection N as <-; discriminate|]. destruct (nth_parameter pc ltac:(lia)) as [p Q].
    rewrite Q in N. injection N as <-. discriminate.
  - destruct (Nat.eq_dec pc (place [])) as [->|NE]; [right; eapply run_branch; eauto|]. exfalso.
    destruct (Nat.eq_dec pc (length pre)) as [->|NE']; [rewrite nth_function in N; discriminate|]. destruct (nth_parameter pc ltac:(lia)) as [p Q]. congruence.
  - destruct (Nat.eq_dec pc (place [])) as [->|NE]; [right; eapply run_conditional; eauto|]. exfalso.
    destruct (Nat.eq_dec pc (length pre)) as [->|NE']; [rewrite nth_function in N; discriminate|]. destruct (nth_parameter pc ltac:(lia)) as [p Q]. congruence.
  - destruct (Nat.eq_dec pc (place [])) as [->|NE]; [right; eapply run_return; eauto|]. exfalso.
    destruct (Nat.eq_dec pc (length pre)) as [->|NE']; [rewrite nth_function in N; discriminate|]. destruct (nth_parameter pc ltac:(lia)) as [p Q]. congruence.
Qed.

Lemma run_prefix : forall pc a dest, run l pc a dest -> forall a1 a2, a = a1 ++ a2 -> exists pc', run l pc a1 (Some pc').
Proof.
  intros pc a dest R. induction R as [pc|pc i a dest N P R IH|pc op a dest N R IH|pc i a dest N O R IH|pc op pc' a dest N J R IH|pc op h pc' a dest N J R IH|pc op N];
    intros a1 a2 Q.
  - symmetry in Q. apply app_eq_nil in Q as [-> ->]. eexists. apply run_here.
  - destruct (IH _ _ Q) as [x X]. exists x. eapply run_passive; eauto.
  - destruct a1 as [|y a1]; [eexists; apply run_here|]. injection Q as <- Q. destruct (IH _ _ Q) as [x X]. exists x. eapply run_label; eauto.
  - destruct a1 as [|y a1]; [eexists; apply run_here|]. injection Q as <- Q. destruct (IH _ _ Q) as [x X]. exists x. eapply run_does; eauto.
  - destruct (IH _ _ Q) as [x X]. exists x. eapply run_branch; eauto.
  - destruct a1 as [|y a1]; [eexists; apply run_here|]. injection Q as <- Q. destruct (IH _ _ Q) as [x X]. exists x. eapply run_conditional; eauto.
  - symmetry in Q. apply app_eq_nil in Q as [-> ->]. eexists. apply run_here.
Qed.

Theorem complete_iff : forall first rest, blocks = first :: rest -> (forall j, reachable d j -> exists b, has_block d j b) ->
  forall a, run l (length pre) a None <-> exists t, complete_run d t /\ performs d t a.
Proof.
  intros first rest B EX a. pose proof (block_nonempty first) as NE. split.
  - intros R. apply run_start_inv in R; [|unfold place; lia]. destruct R as [[_ []]|R]; [reflexivity|].
    destruct (run_walk _ _ _ R [] first rest 0 B ltac:(lia) ltac:(lia)) as (o & t & dest' & a' & r & W & P & Q & -> & ->).
    rewrite app_nil_r in Q. cbn [skipn] in Q. rewrite acts_block in Q. subst a. exists ((label_of first, o) :: t). split.
    + exists (label_of first). split; [exists first, rest; split; [exact B|reflexivity]|exact W].
    + apply performs_block; [exact (in_blocks [] _ _ B)|exact P].
  - intros (t & (id & EN & W) & P). destruct EN as (b & rest' & B' & L). fold blocks in B'. rewrite B in B'. injection B' as <- <-.
    assert (EX' : forall t' j, walk d id t' (Some j) -> exists b, has_block d j b).
    { intros t' j W'. apply EX. exists id, t'. split; [exists first, rest; split; [exact B|exact L]|exact W']. }
    destruct (walk_run _ _ _ W EX' a P [] first rest B L) as (dest' & R & D). rewrite (D eq_refl) in R. apply run_start. exact R.
Qed.

Theorem prefix_iff : forall first rest, blocks = first :: rest -> (forall j, reachable d j -> exists b, has_block d j b) ->
  forall a, (exists pc, run l (length pre) a (Some pc)) <-> exists t a', (complete_run d t \/ unfinished_run d t) /\ performs d t (a ++ a').
Proof.
  intros first rest B EX a. pose proof (block_nonempty first) as NE.
  assert (EN : entry d (label_of first)) by (exists first, rest; split; [exact B|reflexivity]). split.
  - intros (pc & R). apply run_start_inv in R; [|unfold place; lia]. destruct R as [[-> _]|R].
    + exists [], []. split; [|constructor]. right. exists (label_of first), (label_of first). split; [exact EN|apply walk_here].
    + destruct (run_walk _ _ _ R [] first rest 0 B ltac:(lia) ltac:(lia)) as (o & t & dest' & a' & r & W & P & Q & _).
      cbn [skipn] in Q. rewrite acts_block in Q. exists ((label_of first, o) :: t), r. split.
      * destruct dest' as [j|]; [right; exists (label_of first), j|left; exists (label_of first)]; (split; [exact EN|exact W]).
      * rewrite Q. apply performs_block; [exact (in_blocks [] _ _ B)|exact P].
  - intros (t & a' & C & P).
    assert (X : exists dest, walk d (label_of first) t dest).
    { destruct C as [(id & (b & rest' & B' & L) & W)|(id & j & (b & rest' & B' & L) & W)]; fold blocks in B'; rewrite B in B'; injection B' as <- <-; rewrite L; eauto. }
    destruct X as [dest W].
    assert (EX' : forall t' j, walk d (label_of first) t' (Some j) -> exists b, has_block d j b) by (intros t' j W'; apply EX; exists (label_of first), t'; auto).
    destruct (walk_run _ _ _ W EX' _ P [] first rest B eq_refl) as (dest' & R & _). apply run_start in R.
    exact (run_prefix _ _ _ R a a' eq_refl).
Qed.

End Machine.

Lemma written_somewhere : forall E (m : RawModule E) lm d, validate m = Ok lm -> In d (LogicalModule_function_definitions lm) ->
  exists pre post, RawModule_instructions m = pre ++ write_definition d ++ post.
Proof.
  intros E m lm d V H. apply validate_iff in V as [-> _]. apply in_split in H as (ds1 & ds2 & H). unfold write_module. rewrite H, flat_map_app. cbn [flat_map].
  do 10 rewrite app_assoc. eexists _, _. reflexivity.
Qed.

Theorem chain_complete : forall E (d : FunctionDefinition E) depth chain, find_control_flow depth d = Ok chain -> forall pre post a,
  run (pre ++ write_definition d ++ post) (length pre) a None <-> exists t, exec chain t Normal /\ performs d t a.
Proof.
  intros E d depth chain H pre post a. pose proof (find_inv d _ _ H) as (U & s & (b & rest & B & L) & _).
  rewrite (complete_iff d pre post U b rest B).
  - split; intros (t & X & P); exists t; (split; [apply (runs_complete d depth chain H); exact X|exact P]).
  - intros j R. eapply chain_ids_exist; [exact H|]. eapply chain_ids_reachable; eauto.
Qed.
Theorem chain_prefix : forall E (d : FunctionDefinition E) depth chain, find_control_flow depth d = Ok chain -> forall pre post a,
  (exists pc, run (pre ++ write_definition d ++ post) (length pre) a (Some pc)) <-> exists t e a', exec chain t e /\ performs d t (a ++ a').
Proof.
  intros E d depth chain H pre post a. pose proof (find_inv d _ _ H) as (U & s & (b & rest & B & L) & _).
  rewrite (prefix_iff d pre post U b rest B).
  - split.
    + intros (t & a' & [X|X] & P); [exists t, Normal, a'|exists t, Interrupted, a']; (split; [|exact P]).
      * apply (runs_complete d depth chain H). exact X.
      * apply (runs_unfinished d depth chain H). exact X.
    + intros (t & e & a' & X & P). exists t, a'. split; [|exact P]. destruct (runs_no_exit d depth chain H _ _ X) as [->| ->].
      * left. apply (runs_complete d depth chain H). exact X.
      * right. apply (runs_unfinished d depth chain H). exact X.
  - intros j R. eapply chain_ids_exist; [exact H|]. eapply chain_ids_reachable; eauto.
Qed.
