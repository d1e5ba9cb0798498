(** Functions and the rules of the standard (C93): negated conditions, several returns, Continue. *)
From Coq Require Import Permutation Relation_Operators.
From Verif Require Import Base Types Ops Groups ControlFlow Spec_Flow Proofs_Flow Proofs_Flow2 Spec_Structured Proofs_Structured Spec_Standard Proofs_Standard.

(** ** Negated conditions *)
Section Negated.
Context {E : Type}.
Implicit Types f g : FunctionDefinition E.

Lemma negate_twice : forall br, negate (negate br) = br.
Proof. intros [?|[c t e [[a b]|]]|?]; reflexivity. Qed.
Lemma negated_sym : forall f g, negated f g -> negated g f.
Proof.
  intros f g H. unfold negated in *. induction H as [|a b la lb (A & B & C) H IH]; constructor; [|exact IH]. split; [auto|]. split; [auto|].
  destruct C as [C|C]; [auto|right]. rewrite C, negate_twice. reflexivity.
Qed.
Lemma negated_block : forall f g, negated f g -> forall id b, has_block f id b -> exists c, has_block g id c /\ BasicBlock_merge c = BasicBlock_merge b
  /\ (BasicBlock_branch c = BasicBlock_branch b \/ BasicBlock_branch c = negate (BasicBlock_branch b)).
Proof.
  intros f g H id b [I L]. unfold negated in H. unfold has_block. induction H as [|a c la lb (A & B & C) H IH]; [destruct I|]. destruct I as [->|I].
  - exists c. split; [split; [left; reflexivity|congruence]|]. auto.
  - destruct (IH I) as (d & [J K] & M). exists d. split; [split; [right; exact J|exact K]|exact M].
Qed.
Lemma negated_entry : forall f g, negated f g -> forall e, entry f e -> entry g e.
Proof. intros f g H e (b & r & Q & L). unfold negated in H. rewrite Q in H. inversion H as [|a c la lb (A & _) H']; subst. exists c, lb. split; [auto|congruence]. Qed.
Lemma negated_walk : forall f g, negated f g -> forall u t d, walk f u t d -> exists t', walk g u t' d /\ map fst t' = map fst t.
Proof.
  intros f g H u t d W. induction W as [id|id b op HB BR|id b op t d HB BR W (t' & W' & M)|id b op t d HB BR W (t' & W' & M)|id b op t d HB BR W (t' & W' & M)].
  - exists []. split; [constructor|reflexivity].
  - destruct (negated_block _ _ H _ _ HB) as (c & HC & _ & X). rewrite BR in X. cbn [negate] in X. exists [(id, None)]. split; [|reflexivity]. eapply walk_return; [exact HC|]. destruct X as [X|X]; exact X.
  - destruct (negated_block _ _ H _ _ HB) as (c & HC & _ & X). rewrite BR in X. cbn [negate] in X. exists ((id, None) :: t'). split; [|cbn [map fst]; congruence]. eapply walk_branch; [exact HC| |exact W']. destruct X as [X|X]; exact X.
  - destruct (negated_block _ _ H _ _ HB) as (c & HC & _ & X). rewrite BR in X. cbn [negate] in X. destruct X as [X|X].
    + exists ((id, Some true) :: t'). split; [|cbn [map fst]; congruence]. eapply walk_true; [exact HC|exact X|exact W'].
    + exists ((id, Some false) :: t'). split; [|cbn [map fst]; congruence]. eapply walk_false; [exact HC|exact X|exact W'].
  - destruct (negated_block _ _ H _ _ HB) as (c & HC & _ & X). rewrite BR in X. cbn [negate] in X. destruct X as [X|X].
    + exists ((id, Some false) :: t'). split; [|cbn [map fst]; congruence]. eapply walk_false; [exact HC|exact X|exact W'].
    + exists ((id, Some true) :: t'). split; [|cbn [map fst]; congruence]. eapply walk_true; [exact HC|exact X|exact W'].
Qed.
Lemma negated_reachable : forall f g, negated f g -> forall x, reachable f x -> reachable g x.
Proof. intros f g H x (e & t & En & W). destruct (negated_walk _ _ H _ _ _ W) as (t' & W' & _). exists e, t'. split; [eapply negated_entry; eassumption|exact W']. Qed.
Lemma negated_dominates : forall f g, negated f g -> forall a b, dominates f a b -> dominates g a b.
Proof.
  intros f g H a b D e t En W. apply negated_sym in H. destruct (negated_walk _ _ H _ _ _ W) as (t' & W' & M). rewrite <- M. apply (D e t'); [eapply negated_entry; eassumption|exact W'].
Qed.
Lemma negated_post : forall f g, negated f g -> forall a b, post_dominates f a b -> post_dominates g a b.
Proof. intros f g H a b D t W. apply negated_sym in H. destruct (negated_walk _ _ H _ _ _ W) as (t' & W' & M). rewrite <- M. apply D. exact W'. Qed.
Lemma negated_declares : forall f g, negated f g -> forall h m, declares f h m -> declares g h m.
Proof.
  intros f g H h m (b & HB & I). destruct (negated_block _ _ H _ _ HB) as (c & HC & M & _). exists c. split; [exact HC|]. unfold merge_targets in *. rewrite M. exact I.
Qed.
Lemma negated_heads : forall f g, negated f g -> forall h m ct, heads_loop f h m ct -> heads_loop g h m ct.
Proof. intros f g H h m ct (b & hint & HB & M). destruct (negated_block _ _ H _ _ HB) as (c & HC & M' & _). exists c, hint. split; [exact HC|congruence]. Qed.
Lemma negated_construct : forall f g, negated f g -> forall h m b, construct f h m b -> construct g h m b.
Proof.
  intros f g H h m b (R & D & N). split; [eapply negated_reachable; eassumption|]. split; [eapply negated_dominates; eassumption|].
  intros X. apply N. eapply negated_dominates; [apply negated_sym; exact H|exact X].
Qed.

Definition flipped (n : nat) : nat := match n with 0 => 1 | 1 => 0 | n => n end.
Lemma flipped_twice : forall n, flipped (flipped n) = n.
Proof. intros [|[|n]]; reflexivity. Qed.
Lemma negated_branches : forall f g, negated f g -> NoDup (labels f) -> forall u, exists flip : bool, forall n v,
  (branches f u n v -> branches g u (if flip then flipped n else n) v) /\ (branches g u n v -> branches f u (if flip then flipped n else n) v).
Proof.
  intros f g H ND u.
  assert (NDg : NoDup (labels g)).
  { assert (labels g = labels f) as ->; [|exact ND]. unfold labels. unfold negated in H. clear ND. induction H as [|a b la lb (A & _) H IH]; [reflexivity|]. cbn [map]. congruence. }
  destruct (in_dec N.eq_dec u (labels f)) as [I|I].
  - apply in_map_iff in I as (b & L & I). assert (HB : has_block f u b) by (split; assumption). destruct (negated_block _ _ H _ _ HB) as (c & HC & _ & X).
    assert (Y : forall v n, (BasicBlock_branch c = BasicBlock_branch b -> nth_error (branch_targets b) n = Some v <-> nth_error (branch_targets c) n = Some v)).
    { intros v n Q. unfold branch_targets. rewrite Q. reflexivity. }
    destruct X as [X|X].
    + exists false. intros n v. split; intros (d & HD & N).
      * pose proof (has_block_inj f ND _ _ _ HB HD) as <-. exists c. split; [exact HC|]. apply Y; assumption.
      * pose proof (has_block_inj g NDg _ _ _ HC HD) as <-. exists b. split; [exact HB|]. apply Y; assumption.
    + destruct (BasicBlock_branch b) as [op|op|op] eqn:BR.
      * exists false. intros n v. split; intros (d & HD & N).
        { pose proof (has_block_inj f ND _ _ _ HB HD) as <-. exists c. split; [exact HC|]. apply Y; [exact X|assumption]. }
        { pose proof (has_block_inj g NDg _ _ _ HC HD) as <-. exists b. split; [exact HB|]. apply Y; [exact X|assumption]. }
      * exists true. intros n v. split; intros (d & HD & N).
        { pose proof (has_block_inj f ND _ _ _ HB HD) as <-. exists c. split; [exact HC|]. unfold branch_targets in *. rewrite X. rewrite BR in N. destruct n as [|[|n]]; cbn in *; try assumption; destruct n; discriminate N. }
        { pose proof (has_block_inj g NDg _ _ _ HC HD) as <-. exists b. split; [exact HB|]. unfold branch_targets in *. rewrite BR. rewrite X in N. destruct n as [|[|n]]; cbn in *; try assumption; destruct n; discriminate N. }
      * exists false. intros n v. split; intros (d & HD & N).
        { pose proof (has_block_inj f ND _ _ _ HB HD) as <-. exists c. split; [exact HC|]. apply Y; [exact X|assumption]. }
        { pose proof (has_block_inj g NDg _ _ _ HC HD) as <-. exists b. split; [exact HB|]. apply Y; [exact X|assumption]. }
  - exists false. intros n v. split; intros (d & [J L] & N).
    + destruct I. apply in_map_iff. eauto.
    + exfalso. apply negated_sym in H. destruct (negated_block _ _ H u d) as (b & [K L'] & _); [split; assumption|]. apply I. apply in_map_iff. eauto.
Qed.
Lemma negated_back : forall f g, negated f g -> NoDup (labels f) -> forall u, exists flip : bool, forall n v,
  (back_edge f u n v -> back_edge g u (if flip then flipped n else n) v) /\ (back_edge g u n v -> back_edge f u (if flip then flipped n else n) v).
Proof.
  intros f g H ND u. destruct (negated_branches _ _ H ND u) as (flip & B). exists flip. intros n v. split; intros (X & Y & Z).
  - split; [apply B, X|]. split; [eapply negated_reachable; eassumption|eapply negated_dominates; eassumption].
  - apply negated_sym in H. split; [apply B, X|]. split; [eapply negated_reachable; eassumption|eapply negated_dominates; eassumption].
Qed.
Lemma negated_onward : forall f g, negated f g -> NoDup (labels f) -> forall u v, onward g u v -> onward f u v.
Proof.
  intros f g H ND u v (n & B & R & D). destruct (negated_branches _ _ H ND u) as (flip & X). eexists. split; [apply X, B|].
  split; [eapply negated_reachable; [apply negated_sym; exact H|exact R]|]. intros Y. apply D. eapply negated_dominates; eassumption.
Qed.

Theorem negated_rules : forall f g, negated f g -> NoDup (labels f) ->
  (merge_rules f -> merge_rules g) /\ (continue_rules f -> continue_rules g) /\ (construct_rules f -> construct_rules g).
Proof.
  intros f g H ND. pose proof (negated_sym _ _ H) as S. split; [|split].
  - intros (R1 & R2 & R3 & R4 & R5 & R6). split; [|split; [|split; [|split; [|split]]]].
    + intros e u n En B. destruct (negated_branches _ _ H ND u) as (flip & X). apply X in B. eapply R1; [eapply negated_entry; eassumption|exact B].
    + intros h1 h2 m A B. eapply R2; eapply negated_declares; eassumption.
    + intros h m D R. destruct (R3 h m) as [A B]; [eapply negated_declares; eassumption|eapply negated_reachable; eassumption|]. split; [eapply negated_dominates; eassumption|exact B].
    + intros u C. apply (R4 u). assert (G : forall a b, clos_trans BlockId (onward g) a b -> clos_trans BlockId (onward f) a b).
      { intros a b X. induction X as [a b X|a b c X1 IH1 X2 IH2]; [apply t_step; eapply negated_onward; eassumption|eapply t_trans; eassumption]. }
      apply G. exact C.
    + intros u n v B. destruct (negated_back _ _ H ND u) as (flip & X). apply X in B. apply R5 in B as (m & ct & B). exists m, ct. eapply negated_heads; eassumption.
    + intros h m ct D R. destruct (R6 h m ct) as (u & n & B & U); [eapply negated_heads; eassumption|eapply negated_reachable; eassumption|].
      destruct (negated_back _ _ H ND u) as (flip & X). exists u, (if flip then flipped n else n). split; [apply X, B|].
      intros u' n' B'. assert (u' = u) as -> by (destruct (negated_back _ _ H ND u') as (flip' & X'); apply X' in B'; apply (U _ _ B')). split; [reflexivity|].
      apply X in B'. destruct (U _ _ B') as [_ Q]. subst n. destruct flip; [rewrite flipped_twice|]; reflexivity.
  - intros R h m ct u n D B. destruct (negated_back _ _ H ND u) as (flip & X). apply X in B. destruct (R h m ct u _ (negated_heads _ _ S _ _ _ D) B) as (A1 & A2 & A3).
    split; [eapply negated_dominates; eassumption|]. split; [eapply negated_dominates; eassumption|eapply negated_post; eassumption].
  - intros R h m D RH. destruct (R h m (negated_declares _ _ S _ _ D) (negated_reachable _ _ S _ RH)) as (A1 & A2 & A3). split; [|split].
    + intros h' m' C NE D' RM. eapply negated_construct; [exact H|]. apply (A1 h'); [eapply negated_construct; eassumption|exact NE|eapply negated_declares; eassumption|eapply negated_reachable; eassumption].
    + intros u n v B RU NC C. destruct (negated_branches _ _ H ND u) as (flip & X). apply X in B. eapply A2; [exact B|eapply negated_reachable; eassumption| |eapply negated_construct; eassumption].
      intros Y. apply NC. eapply negated_construct; eassumption.
    + intros u n v B C NC. destruct (negated_branches _ _ H ND u) as (flip & X). apply X in B. destruct (A3 u _ v B) as [Q|(lh & lm & ct & (I1 & I2 & I3) & Q)]; [eapply negated_construct; eassumption| |auto|].
      * intros Y. apply NC. eapply negated_construct; eassumption.
      * right. exists lh, lm, ct. split; [|exact Q]. split; [eapply negated_heads; eassumption|]. split; [eapply negated_construct; eassumption|].
        intros h' m' ct' D' C'. eapply negated_construct; [exact H|]. eapply I3; [eapply negated_heads; [exact S|exact D']|eapply negated_construct; eassumption].
Qed.
End Negated.

(** ** One return *)
Section Return.
Context {E : Type} (f : FunctionDefinition E).

Theorem one_return : forall chain, returns f (Ok chain) -> forall a b, reachable f a -> reachable f b -> ends_function f a -> ends_function f b -> a = b.
Proof.
  intros chain R. apply structured_iff in R as (ND & p & last & merge & _ & I & En & _).
  assert (G : forall a, reachable f a -> ends_function f a -> a = last).
  { intros a (e & t & En' & W) (b & op & HB & BR).
    assert (e = first_of p last) as -> by (destruct En as (x & r & Q & L); destruct En' as (x' & r' & Q' & L'); congruence).
    assert (CL : In a (flat_map blocks_of p ++ [last])).
    { eapply (walk_closed f ND) with (V := flat_map blocks_of p ++ [last]); [|exact W| |reflexivity].
      - intros x X. assert (L : In x (map (fun b : block_skeleton => fst (fst b)) (lower_program p last merge))) by (unfold lower_program; rewrite map_app, sequence_labels; exact X).
        apply in_map_iff in L as ([[y mg] br] & Q & J). cbn [fst] in Q. subst y. pose proof (I _ J) as K. apply in_map_iff in K as (c & Q & K). unfold skeleton in Q. injection Q; intros; subst.
        exists c. split; [split; [exact K|reflexivity]|]. intros v V. apply In_nth_error in V as (n & V).
        assert (Ed : edge (lower_program p last merge) (label_of c) n v) by (exists (BasicBlock_merge c), (BasicBlock_branch c); split; [exact J|exact V]).
        unfold lower_program in Ed. apply edge_app in Ed as [Ed|Ed].
        + apply outs_all in Ed as [Ed|[->|(h & m & Q' & _)]]; [apply in_or_app; auto|apply in_or_app; right; left; reflexivity|discriminate Q'].
        + apply edge_cons in Ed as [[_ Ed]|Ed]; [destruct n; discriminate Ed|destruct (edge_nil _ _ _ Ed)].
      - apply in_or_app. destruct (first_in p last) as [->|J]; [right; left; reflexivity|auto]. }
    assert (L : In a (map (fun b : block_skeleton => fst (fst b)) (lower_program p last merge))) by (unfold lower_program; rewrite map_app, sequence_labels; exact CL).
    apply in_map_iff in L as ([[y mg] br] & Q & J). cbn [fst] in Q. subst y. pose proof (I _ J) as K. apply in_map_iff in K as (c & Q & K). unfold skeleton in Q. injection Q; intros; subst.
    pose proof (has_block_inj f ND _ _ _ HB (conj K eq_refl)) as ->. rewrite BR in J. unfold lower_program in J. apply in_app_or in J as [J|[J|[]]]; [destruct (no_return_all _ _ _ _ _ _ J)|congruence]. }
  intros a b A B C D. rewrite (G a A C), (G b B D). reflexivity.
Qed.
End Return.

(** ** Chains of neat programs *)
Lemma continues_block : forall l, continues (Block l) <-> Exists continues l.
Proof. intros l. cbn [continues]. induction l as [|c l IH]; cbn [fold_right]; [split; [intros []|intros H; inversion H]|]. rewrite IH. split; [intros [A|A]; auto|intros H; inversion H; auto]. Qed.
Lemma neat_arm : forall l, Forall (fun s => neat s -> ~ continues (chain_of s)) l -> every neat l -> ~ continues (arm chain_of l).
Proof.
  intros l F N. assert (X : ~ continues (Block (map chain_of l))).
  { intros C. apply continues_block in C. apply Exists_exists in C as (c & I & C). apply in_map_iff in I as (s & <- & I). rewrite Forall_forall in F. apply every_Forall in N. rewrite Forall_forall in N.
    exact (F s I (N s I) C). }
  destruct l as [|s [|s2 l]]; [exact X| |exact X]. cbn [arm]. destruct (is_exit s); [|exact X]. inversion F; subst. destruct N as [N _]. auto.
Qed.
Lemma neat_chain : forall s, neat s -> ~ continues (chain_of s).
Proof.
  induction s as [id|id cond yes no h w IHy IHn|id ct body h IHb|id cond rest w IHr|id cond rest w IHr] using statement_ind'; intros N; cbn [chain_of continues neat] in *.
  - tauto.
  - destruct N as (_ & N1 & N2). pose proof (neat_arm _ IHy N1). pose proof (neat_arm _ IHn N2). tauto.
  - destruct N as [_ N]. exact (neat_arm _ IHb N).
  - destruct N as [_ N]. pose proof (neat_arm _ IHr N). tauto.
  - destruct N.
Qed.
Lemma neat_program_chain : forall program last, every neat program -> ~ continues (program_chain program last).
Proof.
  intros program last N. destruct program as [|s p]; [intros []|]. cbn [program_chain]. intros C. apply continues_block in C. apply Exists_exists in C as (c & I & C).
  apply in_app_or in I as [I|[<-|[]]]; [|exact C]. apply in_map_iff in I as (x & <- & I). apply every_Forall in N. rewrite Forall_forall in N. exact (neat_chain x (N x I) C).
Qed.

(** ** The theorems *)
Section Main.
Context {E : Type} (f : FunctionDefinition E) (program : list statement) (last : BlockId).
Hypothesis Written : written_plainly f program last.
Hypothesis Ends : every loops_end program.

Theorem rules_exact : merge_rules f <-> neat_program program.
Proof. destruct Written as (T & D & P & En). split; [eapply rules_neat; eassumption|eapply neat_rules; eassumption]. Qed.
Theorem rules_continue : neat_program program -> every continue_placed program -> continue_rules f.
Proof. destruct Written as (T & D & P & En). intros N C. eapply neat_continue; eassumption. Qed.
Theorem rules_construct : merge_rules f -> construct_rules f.
Proof. intros R. apply rules_exact in R. destruct Written as (T & D & P & En). eapply neat_constructs; eassumption. Qed.
Theorem rules_chain : merge_rules f -> exists chain, returns f (Ok chain) /\ ~ continues chain.
Proof.
  intros R. apply rules_exact in R as [_ R]. destruct Written as (T & D & P & En). exists (program_chain program last). split; [|apply neat_program_chain; exact R].
  eapply structured_round_trip; eassumption.
Qed.
End Main.
