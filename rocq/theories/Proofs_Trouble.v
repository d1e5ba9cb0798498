(** Exactly which trouble find_control_flow meets, and when it never returns (C71, C72). *)
From Verif Require Import Base Types Ops Groups ExtSet ControlFlow Spec_Flow Proofs_Flow Proofs_Flow2 Proofs_Flow3 Spec_Structured
  Proofs_Structured Spec_Trouble.

Section Trouble.
Context {E : Type}.
Variable f : FunctionDefinition E.
Hypothesis ND : NoDup (labels f).

Notation m := (block_map f).
Notation sks := (map skeleton (FunctionDefinition_blocks f)).
Notation stops := Proofs_Structured.stops.

Definition result (t : trouble) : outcome ControlFlowError (ControlFlowChain * Cont) :=
  match t with Reported e => Err e | NotImplemented => Panic end.
Definition destination (n : Cont) : option BlockId := match n with Cont_Next j => Some j | Cont_Return => None end.
Definition cont (d : option BlockId) : Cont := match d with Some j => Cont_Next j | None => Cont_Return end.

Lemma each_contains : forall st loop l next,
  each (contains f st loop) l next <-> each (placed st loop) l next /\ incl (sequence (lower loop) l next) sks.
Proof.
  intros st loop l next. induction l as [|s l IH]; cbn [each sequence].
  - split; [intros _; split; [exact I|intros x []]|auto].
  - rewrite IH. unfold contains. split.
    + intros ((P & I) & PL & IL). split; [auto|]. apply incl_app; assumption.
    + intros ((P & PL) & I). apply incl_app_inv in I. tauto.
Qed.

Lemma search_leads : forall k id fl c n, search_block k id fl m = Ok (c, n) -> leads_to f (stops fl) (innermost_loop fl) id (destination n).
Proof.
  intros k id fl c n H. apply (search_reads f ND) in H as (l & j & -> & PL & IN & R). exists l, j. split; [reflexivity|].
  split; [apply each_contains; auto|]. destruct n as [j'|]; cbn [destination].
  - destruct R as (-> & I & _). auto.
  - destruct R as (I & M & _). auto.
Qed.

Lemma leads_search : forall id fl d, leads_to f (stops fl) (innermost_loop fl) id d -> exists c k, search_block k id fl m = Ok (c, cont d).
Proof.
  intros id fl d (l & j & -> & C & R). apply each_contains in C as [PL IN].
  assert (F : Forall (found f) l) by (apply Forall_forall; intros s _; apply (all_found f ND)).
  destruct (sequence_found f l F fl j PL IN) as [F1 F2]. destruct d as [d|]; cbn [cont].
  - destruct R as [-> I]. destruct (F1 I) as (k & H). eauto.
  - destruct R as [I (mg & R)]. destruct (F2 I (finds_return f ND fl j mg I R)) as (k & H). eauto.
Qed.

Lemma no_label : forall id, map_get id m = None <-> ~ In id (labels f).
Proof.
  intros id. split.
  - intros G I. apply in_map_iff in I as (b & Q & I). assert (map_get id m = Some b) by (apply (find_map_iff f ND); split; assumption). congruence.
  - intros NI. destruct (map_get id m) as [b|] eqn:G; [|reflexivity]. apply (find_map_iff f ND) in G as [I Q]. destruct NI.
    rewrite <- Q. apply in_map. exact I.
Qed.

Lemma has_get : forall id mg br, has f id mg br -> exists b, map_get id m = Some b /\ BasicBlock_merge b = mg /\ BasicBlock_branch b = br.
Proof. intros id mg br H. apply (in_skeletons f ND). exact H. Qed.
Lemma get_has : forall id b, map_get id m = Some b -> has f id (BasicBlock_merge b) (BasicBlock_branch b).
Proof. intros id b H. apply (in_skeletons f ND). eauto. Qed.

(** ** What happens behind a statement *)
Lemma later : forall fl s next r k, contains f (stops fl) (innermost_loop fl) s next ->
  search_block k next fl m = r -> r <> OutOfFuel -> (forall x, r <> Ok x) -> exists k', search_block k' (start s) fl m = r.
Proof.
  intros fl s next r k [PL IN] R NO NK. 
  assert (NI : ~ In next (stops fl)).
  { intros I. destruct k as [|k]; [subst r; destruct NO; reflexivity|]. cbn [search_block] in R. apply merges_iff in I. rewrite I in R. subst r. eapply NK. reflexivity. }
  assert (SEQ : forall l fl j, each (placed (stops fl) (innermost_loop fl)) l j -> incl (sequence (lower (innermost_loop fl)) l j) sks -> In j (stops fl) ->
     exists c k, search_block k (first_of l j) fl m = Ok (c, Cont_Next j)).
  { intros l fl' j P I J. apply (leads_search _ _ (Some j)). exists l, j. split; [reflexivity|]. split; [apply each_contains; auto|auto]. }
  destruct s as [id|id cond yes no h w|id ct body h|id cond rest w|id cond rest w]; cbn [placed start lower] in *.
  - destruct PL as [M _]. apply merges_false in M. apply incl_cons_inv in IN as [IN _]. apply (in_skeletons f ND) in IN as (b & G & Mg & B).
    exists (S k). cbn [search_block]. rewrite M, G, B, Mg. cbn [OpBranch_target_label]. rewrite R.
    destruct r as [x|e| |]; cbn [bind]; try reflexivity. destruct (NK x eq_refl).
  - destruct PL as (M & P1 & P2). apply merges_false in M. apply incl_cons_inv in IN as [IN INs]. apply incl_app_inv in INs as [I1 I2].
    apply (in_skeletons f ND) in IN as (b & G & Mg & B).
    destruct (SEQ yes (Converge_If next h :: fl) next P1 I1 (or_introl eq_refl)) as (c1 & k1 & S1).
    destruct (SEQ no (Converge_If next h :: fl) next P2 I2 (or_introl eq_refl)) as (c2 & k2 & S2).
    exists (S (k1 + k2 + k)). cbn [search_block]. rewrite M, G, B, Mg.
    cbn [OpBranchConditional_true_label OpBranchConditional_false_label OpSelectionMerge_merge_block OpSelectionMerge_selection_control].
    rewrite (more_fuel_r f _ _ _ _ _ (more_fuel_r f _ _ _ _ _ S1)). cbn [bind]. rewrite (more_fuel_r f _ _ _ _ _ (more_fuel f _ _ _ _ _ S2)). cbn [bind].
    rewrite cont_eqb_refl. cbn [andb]. rewrite search_mono by (rewrite R; exact NO). rewrite R.
    destruct r as [x|e| |]; cbn [bind]; try reflexivity. destruct (NK x eq_refl).
  - destruct PL as (M & P1). apply merges_false in M. apply incl_cons_inv in IN as [IN I1]. apply (in_skeletons f ND) in IN as (b & G & Mg & B).
    destruct (SEQ body (Converge_Loop id next h :: fl) id P1 I1 (or_introl eq_refl)) as (c1 & k1 & S1).
    exists (S (k1 + k)). cbn [search_block]. rewrite M, G, B, Mg. cbn [OpBranch_target_label OpLoopMerge_merge_block OpLoopMerge_loop_control].
    rewrite (more_fuel_r f _ _ _ _ _ S1). cbn [bind]. rewrite cont_eqb_refl. rewrite search_mono by (rewrite R; exact NO). rewrite R.
    destruct r as [x|e| |]; cbn [bind]; try reflexivity. destruct (NK x eq_refl).
  - destruct PL as (_ & (mg & L) & _). destruct NI. eapply innermost_stops. exact L.
  - destruct PL as (_ & (mg & L & _) & _). destruct NI. eapply innermost_stops. exact L.
Qed.

Ltac fields := cbv beta iota delta [loop_merge selection_merge branch conditional_branch]; cbn [OpBranch_target_label OpLoopMerge_merge_block OpLoopMerge_loop_control
  OpBranchConditional_true_label OpBranchConditional_false_label OpBranchConditional_weights OpSelectionMerge_merge_block OpSelectionMerge_selection_control].

(** ** From trouble to the search *)
Lemma trouble_search : forall st loop id t, goes_wrong f st loop id t -> forall fl, stops fl = st -> innermost_loop fl = loop ->
  exists k, search_block k id fl m = result t.
Proof.
  assert (RO : forall t, result t <> OutOfFuel) by (intros []; discriminate).
  assert (RK : forall t x, result t <> Ok x) by (intros [] x; discriminate).
  assert (RB : forall (t : trouble) (g : ControlFlowChain * Cont -> outcome ControlFlowError (ControlFlowChain * Cont)), bind (result t) g = result t)
    by (intros [] g; reflexivity).
  intros st loop id t W. induction W as
    [st loop s next t C W IH | st loop id M NL | st loop id mg h tg M H | st loop id mg ct h c y n w M H
    | st loop id mg ct h body t M H W IH | st loop id mg ct h body d M H LT NE
    | st loop id mg h c y n w t M H W IH | st loop id mg h c y n w d t M H LT W IH | st loop id mg h c y n w d1 d2 M H LT1 LT2 NE
    | st loop id c y n w M H NX | st hd mg id c y n w t M H X W IH | st hd mg id c y n w d M H X LT NE]; intros fl QS QL.
  - subst. destruct (IH fl eq_refl eq_refl) as (k & R). apply (later fl s next _ k C R); auto.
  - subst. exists 1. cbn [search_block]. apply merges_false in M. apply no_label in NL. rewrite M, NL. reflexivity.
  - subst. apply merges_false in M. apply has_get in H as (b & G & Mg & B). exists 1. cbn [search_block]. rewrite M, G, B, Mg. reflexivity.
  - subst. apply merges_false in M. apply has_get in H as (b & G & Mg & B). exists 1. cbn [search_block]. rewrite M, G, B, Mg. reflexivity.
  - subst. apply merges_false in M. apply has_get in H as (b & G & Mg & B).
    destruct (IH (Converge_Loop id mg h :: fl) eq_refl eq_refl) as (k & R). exists (S k). cbn [search_block]. rewrite M, G, B, Mg. fields. rewrite R. apply RB.
  - subst. apply merges_false in M. apply has_get in H as (b & G & Mg & B).
    destruct (leads_search body (Converge_Loop id mg h :: fl) d LT) as (c1 & k & R). exists (S k). cbn [search_block]. rewrite M, G, B, Mg. fields. rewrite R. cbn [bind].
    destruct (cont_eqb (cont d) (Cont_Next id)) eqn:C; [|reflexivity]. apply cont_eqb_eq in C. destruct d; [|discriminate C]. cbn [cont] in C. congruence.
  - subst. apply merges_false in M. apply has_get in H as (b & G & Mg & B).
    destruct (IH (Converge_If mg h :: fl) eq_refl eq_refl) as (k & R). exists (S k). cbn [search_block]. rewrite M, G, B, Mg. fields. rewrite R. apply RB.
  - subst. apply merges_false in M. apply has_get in H as (b & G & Mg & B).
    destruct (leads_search y (Converge_If mg h :: fl) d LT) as (c1 & k1 & R1).
    destruct (IH (Converge_If mg h :: fl) eq_refl eq_refl) as (k & R). exists (S (k1 + k)). cbn [search_block]. rewrite M, G, B, Mg. fields.
    rewrite (more_fuel_r f _ _ _ _ _ R1). cbn [bind]. rewrite search_mono by (rewrite R; apply RO). rewrite R. apply RB.
  - subst. apply merges_false in M. apply has_get in H as (b & G & Mg & B).
    destruct (leads_search y (Converge_If mg h :: fl) d1 LT1) as (c1 & k1 & R1).
    destruct (leads_search n (Converge_If mg h :: fl) d2 LT2) as (c2 & k2 & R2).
    exists (S (k1 + k2)). cbn [search_block]. rewrite M, G, B, Mg. fields.
    rewrite (more_fuel_r f _ _ _ _ _ R1). cbn [bind]. rewrite (more_fuel f _ _ _ _ _ R2). cbn [bind].
    destruct (cont_eqb (cont d1) (cont d2) && cont_eqb (cont d1) (Cont_Next mg)) eqn:C; [|reflexivity].
    apply andb_true_iff in C as [C1 C2]. apply cont_eqb_eq in C1. apply cont_eqb_eq in C2. destruct NE. rewrite C2 in C1.
    destruct d1, d2; try discriminate; cbn [cont] in *; split; congruence.
  - subst. apply merges_false in M. apply has_get in H as (b & G & Mg & B). exists 1. cbn [search_block]. rewrite M, G, B, Mg. fields.
    destruct (innermost_loop fl) as [[hd mg]|] eqn:L; [|reflexivity]. destruct (NX hd mg eq_refl) as [N1 N2].
    apply N.eqb_neq in N1. apply N.eqb_neq in N2. rewrite N1, N2. reflexivity.
  - subst. apply merges_false in M. apply has_get in H as (b & G & Mg & B). destruct (IH fl eq_refl QL) as (k & R). exists (S k).
    cbn [search_block]. rewrite M, G, B, Mg. fields. rewrite QL.
    assert (N.eqb n mg || N.eqb n hd = true) as ->. { apply orb_true_iff. rewrite !N.eqb_eq. tauto. }
    rewrite R. apply RB.
  - subst. apply merges_false in M. apply has_get in H as (b & G & Mg & B). rewrite <- QL in LT.
    destruct (leads_search y fl d LT) as (c1 & k & R). exists (S k).
    cbn [search_block]. rewrite M, G, B, Mg. fields. rewrite QL.
    assert (N.eqb n mg || N.eqb n hd = true) as ->. { apply orb_true_iff. rewrite !N.eqb_eq. tauto. }
    rewrite R. cbn [bind]. destruct (cont_eqb (cont d) (Cont_Next hd)) eqn:C; [|reflexivity]. apply cont_eqb_eq in C. destruct d; [|discriminate C]. cbn [cont] in C. congruence.
Qed.

(** ** From the search to trouble *)
Lemma contains_step : forall st loop id t, ~ In id st -> has f id None (branch t) -> contains f st loop (Step id) t.
Proof. intros st loop id t M H. split; [cbn [placed start]; auto|]. cbn [lower]. apply incl_cons; [exact H|intros x []]. Qed.
Lemma contains_loop : forall st loop id mg ct h body, ~ In id st -> has f id (loop_merge mg ct h) (branch body) ->
  leads_to f (id :: st) (Some (id, mg)) body (Some id) -> exists l, contains f st loop (Repeat id ct l h) mg.
Proof.
  intros st loop id mg ct h body M H (l & last & -> & C & <- & I). apply each_contains in C as [PL IN]. exists l. split; [cbn [placed start]; auto|].
  cbn [lower]. apply incl_cons; [exact H|exact IN].
Qed.
Lemma contains_selection : forall st loop id mg h c y n w, ~ In id st -> has f id (selection_merge mg h) (conditional_branch c y n w) ->
  leads_to f (mg :: st) loop y (Some mg) -> leads_to f (mg :: st) loop n (Some mg) -> exists l1 l2, contains f st loop (Choose id c l1 l2 h w) mg.
Proof.
  intros st loop id mg h c y n w M H (l1 & last1 & -> & C1 & <- & I1) (l2 & last2 & -> & C2 & <- & I2).
  apply each_contains in C1 as [PL1 IN1]. apply each_contains in C2 as [PL2 IN2]. exists l1, l2. split; [cbn [placed start]; auto|].
  cbn [lower]. apply incl_cons; [exact H|apply incl_app; assumption].
Qed.

Lemma bind_result : forall {A} t (x : outcome ControlFlowError A) (g : A -> outcome ControlFlowError (ControlFlowChain * Cont)), bind x g = result t ->
  (x = match t with Reported e => Err e | NotImplemented => Panic end) \/ exists a, x = Ok a /\ g a = result t.
Proof. intros A t [a|e| |] g H; cbn [bind] in H; [right; eauto|left; destruct t; cbn [result] in H; congruence..]. Qed.

Lemma destination_neq : forall n j, cont_eqb n (Cont_Next j) = false -> destination n <> Some j.
Proof. intros [i|] j H; cbn [destination]; [|discriminate]. intros [= ->]. rewrite cont_eqb_refl in H. discriminate. Qed.

Lemma search_trouble : forall k id fl t, search_block k id fl m = result t -> goes_wrong f (stops fl) (innermost_loop fl) id t.
Proof.
  induction k as [|k IH]; intros id fl t; cbn [search_block]; [destruct t; discriminate|].
  destruct (merges fl id) eqn:M; [destruct t; discriminate|]. apply merges_false in M.
  destruct (map_get id m) as [b|] eqn:G.
  2: { intros H. destruct t; [|discriminate]. injection H as <-. apply wrong_unknown; [exact M|]. apply no_label. exact G. }
  pose proof (get_has _ _ G) as HB. destruct (BasicBlock_branch b) as [op|op|op] eqn:B.
  - destruct op as [tg]. destruct (BasicBlock_merge b) as [[lm|sm]|] eqn:Mg; fields.
    + destruct lm as [after ct h]. fields. intros H. apply bind_result in H as [H|([c n] & S1 & H)].
      * apply (wrong_body f _ _ id after ct h tg); [exact M|exact HB|]. apply (IH _ (Converge_Loop id after h :: fl)). exact H.
      * apply search_leads in S1. cbn [Proofs_Structured.stops map Proofs_Structured.stop_of innermost_loop] in S1.
        destruct (cont_eqb n (Cont_Next id)) eqn:C.
        -- apply cont_eqb_eq in C. subst n. apply (contains_loop _ (innermost_loop fl) id after ct h tg M HB) in S1 as (l & S1).
           apply bind_result in H as [H|([c2 n2] & S2 & H)]; [|destruct t; discriminate H].
           apply (wrong_later f _ _ _ _ _ S1). apply IH. exact H.
        -- destruct t; [|discriminate]. injection H as <-. eapply wrong_loop; [exact M|exact HB|exact S1|]. apply destination_neq. exact C.
    + intros H. destruct t; [discriminate|]. destruct sm. eapply wrong_selection_branch; [exact M|exact HB].
    + intros H. apply bind_result in H as [H|([c n] & S1 & H)]; [|destruct t; discriminate H].
      apply (wrong_later f _ _ (Step id) tg); [apply contains_step; assumption|]. apply IH. exact H.
  - destruct op as [cond y n w]. destruct (BasicBlock_merge b) as [[lm|sm]|] eqn:Mg; fields.
    + intros H. destruct t; [discriminate|]. destruct lm. eapply wrong_loop_conditional; [exact M|exact HB].
    + destruct sm as [join h]. fields. intros H. apply bind_result in H as [H|([c1 n1] & S1 & H)].
      { eapply wrong_yes; [exact M|exact HB|]. apply (IH _ (Converge_If join h :: fl)). exact H. }
      apply search_leads in S1. cbn [Proofs_Structured.stops map Proofs_Structured.stop_of innermost_loop] in S1.
      apply bind_result in H as [H|([c2 n2] & S2 & H)].
      { eapply wrong_no; [exact M|exact HB|exact S1|]. apply (IH _ (Converge_If join h :: fl)). exact H. }
      apply search_leads in S2. cbn [Proofs_Structured.stops map Proofs_Structured.stop_of innermost_loop] in S2.
      destruct (cont_eqb n1 n2 && cont_eqb n1 (Cont_Next join)) eqn:C.
      * apply andb_true_iff in C as [C1 C2]. apply cont_eqb_eq in C1. apply cont_eqb_eq in C2. subst.
        destruct (contains_selection _ (innermost_loop fl) id join h cond y n w M HB S1 S2) as (l1 & l2 & CT).
        apply bind_result in H as [H|([c3 n3] & S3 & H)]; [|destruct t; discriminate H]. apply (wrong_later f _ _ _ _ _ CT). apply IH. exact H.
      * destruct t; [|discriminate]. injection H as <-. eapply wrong_selection; [exact M|exact HB|exact S1|exact S2|].
        intros [Q1 Q2]. destruct n1; [|discriminate]. destruct n2; [|discriminate]. cbn [destination] in *. injection Q1 as ->. injection Q2 as ->.
        rewrite cont_eqb_refl in C. discriminate.
    + destruct (innermost_loop fl) as [[head merge]|] eqn:L.
      2: { intros H. destruct t; [|discriminate]. injection H as <-. eapply wrong_condition; [exact M|exact HB|]. discriminate. }
      destruct (N.eqb n merge || N.eqb n head) eqn:D.
      2: { intros H. destruct t; [|discriminate]. injection H as <-. eapply wrong_condition; [exact M|exact HB|]. intros ? ? [= <- <-].
           apply orb_false_iff in D as [D1 D2]. apply N.eqb_neq in D1. apply N.eqb_neq in D2. tauto. }
      apply orb_true_iff in D. rewrite !N.eqb_eq in D. intros H. apply bind_result in H as [H|([c1 n1] & S1 & H)].
      { eapply wrong_rest; [exact M|exact HB|tauto|]. rewrite <- L. apply IH. exact H. }
      apply search_leads in S1. rewrite L in S1. destruct (cont_eqb n1 (Cont_Next head)) eqn:C; [destruct t; discriminate H|].
      destruct t; [|discriminate]. injection H as <-. eapply wrong_exit; [exact M|exact HB|tauto|exact S1|]. apply destination_neq. exact C.
  - destruct t; discriminate.
Qed.

(** ** Searches that never return *)
Definition never (id : BlockId) (fl : FlowList) : Prop := forall k, search_block k id fl m = OutOfFuel.

Lemma never_dec : forall id fl, never id fl \/ exists k, search_block k id fl m <> OutOfFuel.
Proof.
  intros id fl. destruct (search_block (S (sum_to (length m))) id fl m) eqn:S; [right..|left; intros k; apply depth_bound; exact S];
    (eexists; rewrite S; discriminate).
Qed.

(** A search that has returned decides the search it is part of. *)
Lemma never_bind : forall {A} (X : nat -> outcome ControlFlowError A) (g : nat -> A -> outcome ControlFlowError (ControlFlowChain * Cont)),
  (forall k, bind (X k) (g k) = OutOfFuel) -> forall k, X k <> OutOfFuel -> exists a, X k = Ok a /\ g k a = OutOfFuel.
Proof. intros A X g H k N. specialize (H k). destruct (X k) as [a|e| |]; cbn [bind] in H; try discriminate; [eauto|destruct N; reflexivity]. Qed.

Lemma again : forall k k' id fl r, search_block k id fl m = Ok r -> k <= k' -> search_block k' id fl m = Ok r.
Proof. intros k k' id fl r H L. replace k' with ((k' - k) + k) by lia. apply more_fuel. exact H. Qed.
Lemma never_from : forall k id fl, (forall k', k <= k' -> search_block k' id fl m = OutOfFuel) -> never id fl.
Proof.
  intros k id fl H k'. destruct (search_block k' id fl m) eqn:S; [exfalso..|reflexivity];
    (pose proof (H (k + k') ltac:(lia)) as Q; rewrite search_mono in Q by (rewrite S; discriminate); congruence).
Qed.

Inductive never_cases (id : BlockId) (fl : FlowList) : Prop :=
| never_later : forall s next, id = start s -> contains f (stops fl) (innermost_loop fl) s next -> never next fl -> never_cases id fl
| never_body : forall mg ct h body, ~ In id (stops fl) -> has f id (loop_merge mg ct h) (branch body) -> never body (Converge_Loop id mg h :: fl) -> never_cases id fl
| never_yes : forall mg h c y n w, ~ In id (stops fl) -> has f id (selection_merge mg h) (conditional_branch c y n w) ->
    never y (Converge_If mg h :: fl) -> never_cases id fl
| never_no : forall mg h c y n w d, ~ In id (stops fl) -> has f id (selection_merge mg h) (conditional_branch c y n w) ->
    leads_to f (mg :: stops fl) (innermost_loop fl) y d -> never n (Converge_If mg h :: fl) -> never_cases id fl
| never_rest : forall head merge c y n w, ~ In id (stops fl) -> innermost_loop fl = Some (head, merge) -> has f id None (conditional_branch c y n w) ->
    n = head \/ n = merge -> never y fl -> never_cases id fl.

Lemma never_step : forall id fl, never id fl -> never_cases id fl.
Proof.
  intros id fl H. assert (H' : forall k, search_block (S k) id fl m = OutOfFuel) by (intros k; apply H). cbn [search_block] in H'.
  destruct (merges fl id) eqn:M; [discriminate (H' 0)|]. apply merges_false in M.
  destruct (map_get id m) as [b|] eqn:G; [|discriminate (H' 0)]. pose proof (get_has _ _ G) as HB.
  destruct (BasicBlock_branch b) as [op|op|op] eqn:B; [| |discriminate (H' 0)].
  - destruct op as [tg]. destruct (BasicBlock_merge b) as [[lm|sm]|] eqn:Mg; [|discriminate (H' 0)|].
    + destruct lm as [after ct h]. revert H'. fields. intros H'. destruct (never_dec tg (Converge_Loop id after h :: fl)) as [V|(k & V)].
      { eapply never_body; [exact M|exact HB|exact V]. }
      destruct (never_bind _ _ H' k V) as ([c n] & S1 & Q). cbv beta iota in Q. destruct (cont_eqb n (Cont_Next id)) eqn:C; [|discriminate].
      apply cont_eqb_eq in C. subst n. pose proof S1 as LT. apply search_leads in LT.
      destruct (contains_loop _ (innermost_loop fl) id after ct h tg M HB LT) as (l & CT). apply (never_later id fl (Repeat id ct l h) after); [reflexivity|exact CT|].
      apply (never_from k). intros k' L. specialize (H' k'). rewrite (again _ _ _ _ _ S1 L) in H'. cbn [bind] in H'. rewrite cont_eqb_refl in H'.
      destruct (search_block k' after fl m) as [[c2 n2]| | |]; try discriminate H'. reflexivity.
    + revert H'. fields. intros H'. apply (never_later id fl (Step id) tg); [reflexivity|apply contains_step; assumption|].
      intros k. specialize (H' k). destruct (search_block k tg fl m) as [[c2 n2]| | |]; try discriminate H'. reflexivity.
  - destruct op as [cond y n w]. destruct (BasicBlock_merge b) as [[lm|sm]|] eqn:Mg; [discriminate (H' 0)| |].
    + destruct sm as [join h]. revert H'. fields. intros H'. destruct (never_dec y (Converge_If join h :: fl)) as [V1|(k1 & V1)].
      { eapply never_yes; [exact M|exact HB|exact V1]. }
      destruct (never_bind _ _ H' k1 V1) as ([c1 n1] & S1 & _). pose proof S1 as LT1. apply search_leads in LT1.
      destruct (never_dec n (Converge_If join h :: fl)) as [V2|(k2 & V2)].
      { eapply never_no; [exact M|exact HB|exact LT1|exact V2]. }
      assert (S1' : search_block (k1 + k2) y (Converge_If join h :: fl) m = Ok (c1, n1)) by (apply more_fuel_r; exact S1).
      assert (V2' : search_block (k1 + k2) n (Converge_If join h :: fl) m <> OutOfFuel) by (rewrite search_mono by exact V2; exact V2).
      pose proof (H' (k1 + k2)) as Q. rewrite S1' in Q. cbn [bind] in Q.
      destruct (search_block (k1 + k2) n (Converge_If join h :: fl) m) as [[c2 n2]| | |] eqn:S2; cbn [bind] in Q; try discriminate Q; [|destruct V2'; reflexivity].
      destruct (cont_eqb n1 n2 && cont_eqb n1 (Cont_Next join)) eqn:C; [|discriminate Q]. pose proof C as C0.
      apply andb_true_iff in C as [C1 C2]. apply cont_eqb_eq in C1. apply cont_eqb_eq in C2. subst.
      pose proof S2 as LT2. apply search_leads in LT2.
      destruct (contains_selection _ (innermost_loop fl) id join h cond y n w M HB LT1 LT2) as (l1 & l2 & CT).
      apply (never_later id fl _ join) in CT; [exact CT|reflexivity|].
      apply (never_from (k1 + k2)). intros k' L. specialize (H' k'). rewrite (again _ _ _ _ _ S1' L) in H'. cbn [bind] in H'.
      rewrite (again _ _ _ _ _ S2 L) in H'. cbn [bind] in H'. rewrite C0 in H'.
      destruct (search_block k' join fl m) as [[c3 n3]| | |]; try discriminate H'. reflexivity.
    + destruct (innermost_loop fl) as [[head merge]|] eqn:L; [|discriminate (H' 0)].
      destruct (N.eqb n merge || N.eqb n head) eqn:D; revert H'; fields; intros H'; rewrite D in H'; [|discriminate (H' 0)].
      apply orb_true_iff in D. rewrite !N.eqb_eq in D. eapply never_rest; [exact M|exact L|exact HB|tauto|].
      intros k. specialize (H' k). destruct (search_block k y fl m) as [[c3 n3]| | |]; try discriminate H'; [|reflexivity].
      cbn [bind] in H'. destruct (cont_eqb n3 (Cont_Next head)); discriminate H'.
Qed.

Lemma never_endless : forall id fl st loop, st = stops fl -> loop = innermost_loop fl -> never id fl -> endless f st loop id.
Proof.
  cofix CH. intros id fl st loop QS QL N. destruct (never_step id fl N) as [s next Q C V|mg ct h body M H V|mg h c y n w M H V|mg h c y n w d M H LT V|head merge c y n w M L H X V].
  - subst id st loop. apply (endless_later f _ _ s next C). apply (CH next fl _ _ eq_refl eq_refl V).
  - subst st. apply (endless_body f _ _ id mg ct h body M H). apply (CH body (Converge_Loop id mg h :: fl) _ _ eq_refl eq_refl V).
  - subst st loop. apply (endless_yes f _ _ id mg h c y n w M H). apply (CH y (Converge_If mg h :: fl) _ _ eq_refl eq_refl V).
  - subst st loop. apply (endless_no f _ _ id mg h c y n w d M H LT). apply (CH n (Converge_If mg h :: fl) _ _ eq_refl eq_refl V).
  - subst st. rewrite L in QL. rewrite QL. apply (endless_rest f _ head merge id c y n w M H X). apply (CH y fl _ _ eq_refl (eq_sym L) V).
Qed.

(** The destination decides the search, as far as it has returned. *)
Lemma leads_or : forall k id fl d, leads_to f (stops fl) (innermost_loop fl) id d -> search_block k id fl m = OutOfFuel \/ exists c, search_block k id fl m = Ok (c, cont d).
Proof.
  intros k id fl d LT. destruct (leads_search _ _ _ LT) as (c & k1 & S1).
  destruct (search_block k id fl m) eqn:S; [right..|left; reflexivity];
    (exists c; rewrite <- S1; rewrite <- S; apply search_agree; [rewrite S|rewrite S1]; discriminate).
Qed.

Lemma endless_never : forall k id fl st loop, st = stops fl -> loop = innermost_loop fl -> endless f st loop id -> search_block k id fl m = OutOfFuel.
Proof.
  induction k as [|k IH]; intros id fl st loop QS QL EN; [reflexivity|].
  destruct EN as [st loop s next C EN|st loop id mg ct h body M H EN|st loop id mg h c y n w M H EN|st loop id mg h c y n w d M H LT EN|st head merge id c y n w M H X EN]; subst st.
  - subst loop. pose proof (IH next fl _ _ eq_refl eq_refl EN) as R. destruct C as [PL IN].
    assert (NI : ~ In next (stops fl)).
    { remember (stops fl) as st. clear - EN. destruct EN as [st loop s next [PL IN] EN| | | |]; [destruct s; cbn [placed start] in *; tauto|assumption..]. }
    assert (SEQ : forall l fl' j, each (placed (stops fl') (innermost_loop fl')) l j -> incl (sequence (lower (innermost_loop fl')) l j) sks -> In j (stops fl') ->
      search_block k (first_of l j) fl' m = OutOfFuel \/ exists c, search_block k (first_of l j) fl' m = Ok (c, Cont_Next j)).
    { intros l fl' j P I J. apply (leads_or k _ _ (Some j)). exists l, j. split; [reflexivity|]. split; [apply each_contains; auto|auto]. }
    destruct s as [id|id cond yes no h w|id ct body h|id cond rest w|id cond rest w]; cbn [placed start lower search_block] in *.
    + destruct PL as [M _]. apply merges_false in M. apply incl_cons_inv in IN as [IN _]. apply (in_skeletons f ND) in IN as (b & G & Mg & B).
      rewrite M, G, B, Mg. fields. rewrite R. reflexivity.
    + destruct PL as (M & P1 & P2). apply merges_false in M. apply incl_cons_inv in IN as [IN INs]. apply incl_app_inv in INs as [I1 I2].
      apply (in_skeletons f ND) in IN as (b & G & Mg & B). rewrite M, G, B, Mg. fields.
      destruct (SEQ yes (Converge_If next h :: fl) next P1 I1 (or_introl eq_refl)) as [S1|(c1 & S1)]; rewrite S1; [reflexivity|]. cbn [bind].
      destruct (SEQ no (Converge_If next h :: fl) next P2 I2 (or_introl eq_refl)) as [S2|(c2 & S2)]; rewrite S2; [reflexivity|]. cbn [bind].
      rewrite cont_eqb_refl. cbn [andb]. rewrite R. reflexivity.
    + destruct PL as (M & P1). apply merges_false in M. apply incl_cons_inv in IN as [IN I1]. apply (in_skeletons f ND) in IN as (b & G & Mg & B).
      rewrite M, G, B, Mg. fields.
      destruct (SEQ body (Converge_Loop id next h :: fl) id P1 I1 (or_introl eq_refl)) as [S1|(c1 & S1)]; rewrite S1; [reflexivity|]. cbn [bind].
      rewrite cont_eqb_refl. rewrite R. reflexivity.
    + destruct PL as (_ & (mg & L) & _). destruct NI. eapply innermost_stops. exact L.
    + destruct PL as (_ & (mg & L & _) & _). destruct NI. eapply innermost_stops. exact L.
  - apply merges_false in M. apply has_get in H as (b & G & Mg & B). cbn [search_block]. rewrite M, G, B, Mg. fields.
    rewrite (IH body (Converge_Loop id mg h :: fl) _ _ eq_refl eq_refl EN). reflexivity.
  - subst loop. apply merges_false in M. apply has_get in H as (b & G & Mg & B). cbn [search_block]. rewrite M, G, B, Mg. fields.
    rewrite (IH y (Converge_If mg h :: fl) _ _ eq_refl eq_refl EN). reflexivity.
  - subst loop. apply merges_false in M. apply has_get in H as (b & G & Mg & B). cbn [search_block]. rewrite M, G, B, Mg. fields.
    destruct (leads_or k y (Converge_If mg h :: fl) d LT) as [S1|(c1 & S1)]; rewrite S1; [reflexivity|]. cbn [bind].
    rewrite (IH n (Converge_If mg h :: fl) _ _ eq_refl eq_refl EN). reflexivity.
  - apply merges_false in M. apply has_get in H as (b & G & Mg & B). cbn [search_block]. rewrite M, G, B, Mg. fields. rewrite <- QL.
    assert (N.eqb n merge || N.eqb n head = true) as ->. { apply orb_true_iff. rewrite !N.eqb_eq. tauto. }
    rewrite (IH y fl _ _ eq_refl QL EN). reflexivity.
Qed.

End Trouble.

Section Whole.
Context {E : Type}.
Variable f : FunctionDefinition E.

Definition answer (t : trouble) : outcome ControlFlowError ControlFlowChain :=
  match t with Reported e => Err e | NotImplemented => Panic end.

Lemma duplicated : ~ NoDup (labels f) -> exists before b after, FunctionDefinition_blocks f = before ++ b :: after
  /\ NoDup (map label_of before) /\ In (label_of b) (map label_of before).
Proof.
  unfold labels. generalize (FunctionDefinition_blocks f). intros l. induction l as [|b l IH] using rev_ind; intros H.
  - destruct H. constructor.
  - destruct (ListDec.NoDup_dec N.eq_dec (map label_of l)) as [D|D].
    + exists l, b, []. split; [reflexivity|]. split; [exact D|]. destruct (in_dec N.eq_dec (label_of b) (map label_of l)) as [I|I]; [exact I|].
      destruct H. rewrite map_app. cbn [map]. apply NoDup_rev in D. rewrite <- (rev_involutive (map label_of l ++ [label_of b])). apply NoDup_rev.
      rewrite rev_app_distr. constructor; [|exact D]. rewrite <- in_rev. exact I.
    + destruct (IH D) as (x & y & z & -> & D1 & I1). exists x, y, (z ++ [b]). split; [|auto]. rewrite <- app_assoc. reflexivity.
Qed.

Lemma trouble_iff : forall t, returns f (answer t) <-> trouble_with f t.
Proof.
  intros t. split.
  - intros [_ (depth & H)]. destruct (labels_dec f) as [ND|ND].
    + rewrite (find_eq f ND) in H. destruct (FunctionDefinition_blocks f) as [|b rest] eqn:Q.
      * destruct t; [|discriminate]. injection H as <-. apply trouble_empty. exact Q.
      * apply (trouble_reading f (label_of b)); [exact ND|exists b, rest; auto|].
        destruct (search_block depth (label_of b) [] (block_map f)) as [[c n]|e| |] eqn:S; cbn [bind] in H.
        -- destruct n; [|destruct t; discriminate H]. exfalso. apply (search_reads f ND) in S as (l & j & _ & _ & _ & _ & [] & _).
        -- destruct t; [|discriminate]. injection H as <-. apply (search_trouble f ND depth _ [] (Reported e)). exact S.
        -- destruct t; [discriminate|]. apply (search_trouble f ND depth _ [] NotImplemented). exact S.
        -- destruct t; discriminate H.
    + destruct (duplicated ND) as (pre & b & post & Q & D & I).
      assert (R : find_control_flow depth f = Err (DuplicateBlockId (label_of b))) by (apply duplicate_iff; eauto 10).
      rewrite R in H. destruct t; [|discriminate]. injection H as <-. eapply trouble_duplicate; eassumption.
  - intros T. split; [destruct t; discriminate|]. destruct T as [pre b post Q D I|Q|id t ND (b & rest & Q & L) W].
    + exists 0. apply duplicate_iff. eauto 10.
    + exists 0. apply no_blocks_iff. exact Q.
    + destruct (trouble_search f ND _ _ _ _ W [] eq_refl eq_refl) as (k & S). exists k. rewrite (find_eq f ND), Q, L, S. destruct t; reflexivity.
Qed.

Lemma endless_iff : (forall depth, find_control_flow depth f = OutOfFuel) <-> never_ends f.
Proof.
  split.
  - intros H. pose proof (H 0) as H0. apply find_search in H0 as (b & rest & Q & ND & _). split; [exact ND|].
    exists (label_of b). split; [exists b, rest; auto|]. apply (never_endless f ND _ [] [] None eq_refl eq_refl). intros k.
    specialize (H k). apply find_search in H as (b' & rest' & Q' & _ & S). rewrite Q in Q'. injection Q' as <- <-. exact S.
  - intros (ND & id & (b & rest & Q & L) & EN) depth. apply find_search. exists b, rest. split; [exact Q|]. split; [exact ND|].
    rewrite L. apply (endless_never f ND depth id [] [] None eq_refl eq_refl EN).
Qed.

Lemma trouble_unique : forall t1 t2, trouble_with f t1 -> trouble_with f t2 -> t1 = t2.
Proof.
  intros t1 t2 H1 H2. apply trouble_iff in H1 as [N1 H1]. apply trouble_iff in H2 as [N2 H2].
  assert (R1 : returns f (answer t1)) by (split; assumption). assert (R2 : returns f (answer t2)) by (split; assumption).
  apply returns_iff in R1 as [_ R1]. apply returns_iff in R2 as [_ R2]. rewrite R1 in R2. destruct t1, t2; cbn [answer] in R2; congruence.
Qed.

Lemma trouble_total : (exists chain, returns f (Ok chain)) \/ (exists t, trouble_with f t) \/ never_ends f.
Proof.
  destruct (find_control_flow (depth_limit f) f) as [c|e| |] eqn:R.
  - left. exists c. apply returns_iff. split; [discriminate|exact R].
  - right. left. exists (Reported e). apply trouble_iff, returns_iff. split; [discriminate|exact R].
  - right. left. exists NotImplemented. apply trouble_iff, returns_iff. split; [discriminate|exact R].
  - right. right. apply endless_iff. apply termination_bound. exact R.
Qed.

Lemma trouble_not_endless : forall t, trouble_with f t -> ~ never_ends f.
Proof. intros t T EN. apply trouble_iff in T as [N (d & H)]. rewrite (proj2 endless_iff EN d) in H. congruence. Qed.

Lemma classified :
  ((exists chain, returns f (Ok chain)) \/ (exists t, trouble_with f t) \/ never_ends f)
  /\ ~ ((exists chain, returns f (Ok chain)) /\ (exists t, trouble_with f t))
  /\ ~ ((exists chain, returns f (Ok chain)) /\ never_ends f)
  /\ ~ ((exists t, trouble_with f t) /\ never_ends f).
Proof.
  split; [exact trouble_total|]. split; [|split].
  - intros ((c & R1) & (t & R2)). apply trouble_iff in R2. apply returns_iff in R1 as [_ R1]. apply returns_iff in R2 as [_ R2].
    rewrite R1 in R2. destruct t; discriminate R2.
  - intros ((c & N & (d & R)) & EN). rewrite (proj2 endless_iff EN d) in R. congruence.
  - intros ((t & T) & EN). exact (trouble_not_endless t T EN).
Qed.

End Whole.
