(** Lemmas for C115: find_control_flow returns a chain on functions that are simple and obey the rules. *)
From Coq Require Import Relation_Operators Operators_Properties.
From Verif Require Import Base Types Ops Groups ExtSet ControlFlow Spec_Flow Proofs_Flow Proofs_Flow2 Proofs_Flow3 Spec_Standard Spec_Returns Spec_Simple Proofs_Returns.

Lemma cases_or : forall P : Prop, (P \/ ~ P -> False) -> False.
Proof. intros P H. apply H. right. intros p. apply H. left. exact p. Qed.

Section Simple.
Context {E : Type}.
Variable f : FunctionDefinition E.
Hypothesis ND : NoDup (labels f).
Hypothesis MR : merge_rules f.
Hypothesis CR : construct_rules f.
Hypothesis LC : loops_close f.
Hypothesis RM : merges_reached f.
Hypothesis SI : simple f.
Notation bm := (block_map f).

Lemma one_merge : forall h m m', declares f h m -> declares f h m' -> m = m'.
Proof.
  intros h m m' (b & H & I) (b' & H' & I'). rewrite (has_block_inj f ND _ _ _ H' H) in I'. unfold merge_targets in *.
  destruct (BasicBlock_merge b) as [[lm|sm]|]; [| |destruct I]; destruct I as [<-|[]], I' as [<-|[]]; reflexivity.
Qed.
Lemma merge_below : forall h m, declares f h m -> reachable f h -> dominates f h m /\ h <> m /\ reachable f m.
Proof. intros h m D R. pose proof (RM _ _ D R) as Rm. destruct (proj1 (proj2 (proj2 MR)) h m D Rm). auto. Qed.
Lemma own_construct : forall h m, declares f h m -> reachable f h -> construct f h m h.
Proof.
  intros h m D R. destruct (merge_below _ _ D R) as (DM & N & Rm). split; [exact R|]. split; [apply dom_refl|]. intros X. apply N. exact (dom_antisym f _ _ R DM X).
Qed.
Lemma construct_reaches : forall h m b, construct f h m b -> reachable f h.
Proof. intros h m b (R & D & _). exact (dom_reachable f _ _ D R). Qed.
Lemma not_own_merge : forall h m, ~ construct f h m m.
Proof. intros h m (_ & _ & N). apply N. apply dom_refl. Qed.

Lemma block_there : forall id, reachable f id -> exists b, has_block f id b.
Proof.
  intros id R. apply reachable_path in R as (e & l & En & P). destruct (path_last f _ _ _ P) as [[-> ->]|(l' & p & n & -> & P' & B)].
  - destruct En as (b & r & Q & L). exists b. split; [rewrite Q; left; reflexivity|exact L].
  - apply (proj1 SI p n id B). apply reachable_path. eauto.
Qed.

(** ** The constructs the search is in *)
Inductive opened : FlowList -> list (BlockId * BlockId) -> Prop :=
| opened_nil : opened [] []
| opened_if : forall h m hint fl os, declares f h m -> (forall ct, ~ heads_loop f h m ct) -> reachable f h ->
    Forall (fun o => construct f (fst o) (snd o) h /\ fst o <> h) os -> opened fl os -> opened (Converge_If m hint :: fl) ((h, m) :: os)
| opened_loop : forall h m ct hint fl os, heads_loop f h m ct -> reachable f h ->
    Forall (fun o => construct f (fst o) (snd o) h /\ fst o <> h) os -> opened fl os -> opened (Converge_Loop h m hint :: fl) ((h, m) :: os).

Definition expected (fl : FlowList) : Cont :=
  match fl with [] => Cont_Return | Converge_If j _ :: _ => Cont_Next j | Converge_Loop h _ _ :: _ => Cont_Next h end.
(** Block [id] is in the constructs of [os], or is the merge block of the first, if that is a selection. *)
Definition placed (id : BlockId) (os : list (BlockId * BlockId)) : Prop :=
  match os with
  | [] => True
  | (h, m) :: os => (construct f h m id \/ id = m /\ forall ct, ~ heads_loop f h m ct) /\ Forall (fun o => construct f (fst o) (snd o) id) os
  end.
Record here (id : BlockId) (fl : FlowList) (os : list (BlockId * BlockId)) : Prop := {
  here_reached : reachable f id;
  here_open : opened fl os;
  here_placed : placed id os;
  here_head : forall h m, In (h, m) os -> h = id -> exists ct, heads_loop f h m ct;
  here_all : forall h m, declares f h m -> construct f h m id -> h <> id -> ~ In (h, m) os -> False }.

Lemma opened_in : forall fl os, opened fl os -> forall h m, In (h, m) os -> declares f h m /\ reachable f h
  /\ ((exists ct, heads_loop f h m ct) -> merges fl h = true) /\ ((forall ct, ~ heads_loop f h m ct) -> merges fl m = true).
Proof.
  intros fl os O. induction O as [|h m hint fl os D NL R F O IH|h m ct hint fl os HL R F O IH]; intros h' m' I; [destruct I| |].
  - cbn [merges]. destruct I as [Q|I].
    + injection Q as <- <-. rewrite N.eqb_refl. split; [exact D|]. split; [exact R|]. split; [intros (ct & HL); destruct (NL _ HL)|reflexivity].
    + destruct (IH _ _ I) as (A & B & C1 & C2). split; [exact A|]. split; [exact B|]. destruct (N.eqb m h'), (N.eqb m m'); auto.
  - cbn [merges]. destruct I as [Q|I].
    + injection Q as <- <-. rewrite N.eqb_refl. split; [exact (loop_declares f _ _ _ HL)|]. split; [exact R|]. split; [reflexivity|]. intros NL. destruct (NL _ HL).
    + destruct (IH _ _ I) as (A & B & C1 & C2). split; [exact A|]. split; [exact B|]. destruct (N.eqb h h'), (N.eqb h m'); auto.
Qed.
Lemma merges_in : forall fl os, opened fl os -> forall id, merges fl id = true -> exists h m, In (h, m) os /\ (id = h \/ id = m) /\ (id = h -> id <> m -> exists ct, heads_loop f h m ct).
Proof.
  intros fl os O. induction O as [|h m hint fl os D NL R F O IH|h m ct hint fl os HL R F O IH]; intros id M; [discriminate M| |]; cbn [merges] in M.
  - destruct (N.eqb m id) eqn:QE; [apply N.eqb_eq in QE; subst id|]; [exists h, m; split; [left; reflexivity|]; split; [auto|congruence]|].
    destruct (IH _ M) as (h' & m' & I & C). exists h', m'. split; [right; exact I|exact C].
  - destruct (N.eqb h id) eqn:QE; [apply N.eqb_eq in QE; subst id|]; [exists h, m; split; [left; reflexivity|]; split; [auto|eauto]|].
    destruct (IH _ M) as (h' & m' & I & C). exists h', m'. split; [right; exact I|exact C].
Qed.
(** Where the search stops it stops for the construct it is in. *)
Lemma stop_expected : forall id fl os, here id fl os -> merges fl id = true -> expected fl = Cont_Next id.
Proof.
  intros id fl os [R O P HH HA] M.
  assert (DEEP : forall h m fl0 os0, declares f h m -> reachable f h -> Forall (fun o => construct f (fst o) (snd o) h /\ fst o <> h) os0 -> opened fl0 os0 ->
    dominates f h id -> Forall (fun o => construct f (fst o) (snd o) id) os0 -> merges fl0 id = true -> False).
  { intros h m fl0 os0 D Rh F O0 DI FI M0. destruct (merges_in _ _ O0 _ M0) as (h' & m' & I & [Q|Q] & _).
    - rewrite Forall_forall in F. destruct (F _ I) as [(_ & Dh & _) N]. cbn [fst snd] in *. rewrite Q in *. apply N. exact (dom_antisym f _ _ R Dh DI).
    - rewrite Forall_forall in FI. rewrite Q in FI. exact (not_own_merge _ _ (FI _ I)). }
  destruct O as [|h m hint fl os D NL Rh F O|h m ct hint fl os HL Rh F O]; [discriminate M| |]; cbn [merges expected placed] in *; destruct P as [P FI].
  - destruct (N.eqb m id) eqn:QE; [apply N.eqb_eq in QE; subst id|]; [reflexivity|]. exfalso. destruct P as [(_ & DI & _)|[Q _]]; [|subst id; rewrite N.eqb_refl in QE; discriminate QE]. exact (DEEP _ _ _ _ D Rh F O DI FI M).
  - destruct (N.eqb h id) eqn:QE; [apply N.eqb_eq in QE; subst id|]; [reflexivity|]. exfalso. destruct P as [(_ & DI & _)|[_ Q]]; [|destruct (Q _ HL)]. exact (DEEP _ _ _ _ (loop_declares f _ _ _ HL) Rh F O DI FI M).
Qed.
(** Where it does not stop, the block is in all the constructs and heads none of them. *)
Lemma go_inside : forall id fl os, here id fl os -> merges fl id = false -> forall h m, In (h, m) os -> construct f h m id /\ h <> id.
Proof.
  intros id fl os H M h m I. pose proof (opened_in _ _ (here_open _ _ _ H) _ _ I) as (_ & _ & HL & HS). split.
  - pose proof (here_placed _ _ _ H) as P. destruct os as [|[h' m'] os]; [destruct I|]. destruct P as [P F]. destruct I as [Q|I].
    + injection Q as -> ->. destruct P as [P|[-> NL]]; [exact P|]. rewrite (HS NL) in M. discriminate M.
    + rewrite Forall_forall in F. exact (F _ I).
  - intros ->. rewrite (HL (here_head _ _ _ H _ _ I eq_refl)) in M. discriminate M.
Qed.
(** A branch that leaves one of the constructs leaves the innermost one. *)
Lemma leaves_first : forall id fl os h m, here id fl os -> merges fl id = false -> In (h, m) os -> innermost f id h m -> exists os', os = (h, m) :: os'.
Proof.
  intros id fl os h m H M I (D & C & IN). destruct os as [|[h' m'] os]; [destruct I|]. destruct I as [Q|I]; [rewrite Q; eauto|].
  exfalso. pose proof (here_open _ _ _ H) as O. destruct (opened_in _ _ O h' m' (or_introl eq_refl)) as (D' & R' & _). destruct (go_inside _ _ _ H M h' m' (or_introl eq_refl)) as [C' _].
  pose proof (IN _ _ D' C') as (Rh & D1 & _).
  assert (F : Forall (fun o => construct f (fst o) (snd o) h' /\ fst o <> h') os) by (inversion O; assumption).
  rewrite Forall_forall in F. destruct (F _ I) as [(_ & D2 & _) N]. cbn [fst snd] in *. apply N. exact (dom_antisym f _ _ Rh D2 D1).
Qed.

(** ** Steps of the search *)
Lemma step_all : forall id os os' n v, reachable f id -> (forall h m, declares f h m -> construct f h m id -> h <> id -> ~ In (h, m) os -> False) ->
  branches f id n v -> (forall o, In o os -> In o os') -> (forall m, declares f id m -> In (id, m) os') ->
  forall h m, declares f h m -> construct f h m v -> h <> v -> ~ In (h, m) os' -> False.
Proof.
  intros id os os' n v R HA B SUB OWN h m D C N NI. apply (cases_or (construct f h m id)). intros [Ci|NC].
  - destruct (N.eq_dec h id) as [->|NE]; [exact (NI (OWN _ D))|]. apply (HA _ _ D Ci NE). intros I. exact (NI (SUB _ I)).
  - apply N. symmetry. exact (proj1 (proj2 (CR h m D (construct_reaches _ _ _ C))) id n v B R NC C).
Qed.
(** To go back to a header is to go back to that of a loop. *)
Lemma step_head : forall id n h m, reachable f id -> branches f id n h -> dominates f h id -> declares f h m -> exists ct, heads_loop f h m ct.
Proof.
  intros id n h m R B DM D. destruct (proj1 (proj2 (proj2 (proj2 (proj2 MR)))) id n h) as (x & ct & HL); [split; [exact B|split; [exact R|exact DM]]|].
  exists ct. rewrite (one_merge _ _ _ D (loop_declares f _ _ _ HL)). exact HL.
Qed.
Lemma step_same : forall id fl os n v, here id fl os -> merges fl id = false -> branches f id n v -> (forall m, ~ declares f id m) -> n = 0 -> (here v fl os -> False) -> False.
Proof.
  intros id fl os n v H M B NONE N0 K. pose proof (here_reached _ _ _ H) as R.
  assert (IN : forall h m, In (h, m) os -> construct f h m id /\ h <> id) by exact (go_inside _ _ _ H M).
  assert (REST : forall h m os', In (h, m) os' -> (exists o, os = o :: os') -> (construct f h m v -> False) -> False).
  { intros h m os' I [o Q] NC. assert (I' : In (h, m) os) by (rewrite Q; right; exact I). destruct (opened_in _ _ (here_open _ _ _ H) _ _ I') as (D & Rh & _).
    destruct (proj2 (proj2 (proj2 (proj2 SI))) h m id n v D B (proj1 (IN _ _ I')) NC) as (_ & IM & _). destruct (leaves_first _ _ _ _ _ H M I' IM) as [os2 Q2].
    assert (QO : os' = os2 /\ o = (h, m)) by (rewrite Q2 in Q; injection Q; auto). destruct QO as [<- ->].
    pose proof (here_open _ _ _ H) as O. rewrite Q in O. assert (F : Forall (fun o => construct f (fst o) (snd o) h /\ fst o <> h) os') by (inversion O; assumption).
    rewrite Forall_forall in F. destruct (F _ I) as [_ X]. apply X. reflexivity. }
  assert (PL : (placed v os -> False) -> False).
  { intros NP. destruct os as [|[h m] os]; [apply NP; exact Logic.I|]. destruct (opened_in _ _ (here_open _ _ _ H) h m (or_introl eq_refl)) as (D & Rh & _).
    destruct (IN h m (or_introl eq_refl)) as [C _].
    assert (ALL : forall l, (forall o, In o l -> In o os) -> (Forall (fun o => construct f (fst o) (snd o) v) l -> False) -> False).
    { induction l as [|[h' m'] l IHl]; intros SUB NF; [apply NF; constructor|]. apply IHl; [intros o I; apply SUB; right; exact I|]. intros F.
      apply (REST h' m' os); [apply SUB; left; reflexivity|eauto|]. intros Cv. apply NF. constructor; assumption. }
    apply (ALL os (fun o I => I)). intros F. apply (cases_or (construct f h m v)). intros [Cv|NC]; [apply NP; split; [left; exact Cv|exact F]|].
    destruct (proj2 (proj2 (proj2 (proj2 SI))) h m id n v D B C NC) as (-> & _ & LOOP). apply NP. split; [|exact F]. right. split; [reflexivity|].
    intros ct HL. specialize (LOOP ct HL). congruence. }
  apply PL. intros P. apply K. constructor.
  - exact (reachable_edge f _ _ _ R B).
  - exact (here_open _ _ _ H).
  - exact P.
  - intros h m I ->. destruct (IN _ _ I) as [(_ & DM & _) _]. exact (step_head _ _ _ _ R B DM (proj1 (opened_in _ _ (here_open _ _ _ H) _ _ I))).
  - apply (step_all id os os n v R (here_all _ _ _ H) B); [auto|]. intros m D. destruct (NONE _ D).
Qed.
Lemma step_into : forall id fl os c m n v, here id fl os -> merges fl id = false -> branches f id n v -> declares f id m ->
  opened (c :: fl) ((id, m) :: os) -> (forall ct, heads_loop f id m ct -> n = 0) -> (here v (c :: fl) ((id, m) :: os) -> False) -> False.
Proof.
  intros id fl os c m n v H M B D O N0 K. pose proof (here_reached _ _ _ H) as R. pose proof (own_construct _ _ D R) as OWN.
  assert (IN : forall h m, In (h, m) os -> construct f h m id /\ h <> id) by exact (go_inside _ _ _ H M).
  assert (REST : forall h' m', In (h', m') os -> (construct f h' m' v -> False) -> False).
  { intros h' m' I NC. destruct (opened_in _ _ (here_open _ _ _ H) _ _ I) as (D' & Rh & _). destruct (IN _ _ I) as [C N].
    destruct (proj2 (proj2 (proj2 (proj2 SI))) h' m' id n v D' B C NC) as (_ & (_ & _ & IM) & _). destruct (IM _ _ D OWN) as (_ & DI & _). destruct C as (_ & DH & _).
    apply N. exact (dom_antisym f _ _ Rh DH DI). }
  assert (PL : (placed v ((id, m) :: os) -> False) -> False).
  { intros NP.
    assert (ALL : forall l, (forall o, In o l -> In o os) -> (Forall (fun o => construct f (fst o) (snd o) v) l -> False) -> False).
    { induction l as [|[h' m'] l IHl]; intros SUB NF; [apply NF; constructor|]. apply IHl; [intros o I; apply SUB; right; exact I|]. intros F.
      apply (REST h' m'); [apply SUB; left; reflexivity|]. intros Cv. apply NF. constructor; assumption. }
    apply (ALL os (fun o I => I)). intros F. apply (cases_or (construct f id m v)). intros [Cv|NC]; [apply NP; split; [left; exact Cv|exact F]|].
    destruct (proj2 (proj2 (proj2 (proj2 SI))) id m id n v D B OWN NC) as (-> & _ & LOOP). apply NP. split; [|exact F]. right. split; [reflexivity|].
    intros ct HL. specialize (LOOP ct HL). specialize (N0 ct HL). congruence. }
  apply PL. intros P. apply K. constructor.
  - exact (reachable_edge f _ _ _ R B).
  - exact O.
  - exact P.
  - intros h' m' [Q|I] ->.
    + injection Q as -> ->. exact (step_head _ _ _ _ R B (dom_refl f _) D).
    + destruct (IN _ _ I) as [(_ & DM & _) _]. exact (step_head _ _ _ _ R B DM (proj1 (opened_in _ _ (here_open _ _ _ H) _ _ I))).
  - apply (step_all id os _ n v R (here_all _ _ _ H) B); [intros o I; right; exact I|]. intros m' D'. rewrite (one_merge _ _ _ D' D). left. reflexivity.
Qed.
(** The merge block is entered from its construct. *)
Lemma first_path : forall k e l x, length l <= k -> path f e l x -> exists l', path f e l' x /\ ~ In x l'.
Proof.
  induction k as [|k IH]; intros e l x L P; [destruct l; [|cbn in L; lia]; exists []; split; [exact P|intros []]|].
  destruct (in_dec N.eq_dec x l) as [I|I]; [|eauto]. destruct (path_cut f _ _ _ P x I) as (l1 & l2 & -> & P1 & _). apply (IH e l1 x); [|exact P1].
  rewrite app_length in L. cbn [length] in L. lia.
Qed.
Lemma merge_entered : forall h m, declares f h m -> reachable f h -> exists u n, branches f u n m /\ construct f h m u.
Proof.
  intros h m D R. destruct (merge_below _ _ D R) as (DM & N & Rm). pose proof Rm as RP. apply reachable_path in RP as (e & l0 & En & P0).
  destruct (first_path _ _ _ _ (le_n _) P0) as (l & P & NI). destruct (path_last f _ _ _ P) as [[-> ->]|(l' & u & n & -> & P' & B)].
  - exfalso. destruct (proj1 (dominates_path f h e) DM e [] En P) as [Q|[]]. exact (N (eq_sym Q)).
  - exists u, n. split; [exact B|]. split; [apply reachable_path; eauto|]. split; [apply (dom_edge f h u n m DM B); congruence|].
    intros X. apply NI. exact (proj1 (dominates_path f m u) X e l' En P').
Qed.
Lemma step_merge : forall id fl os m, here id fl os -> merges fl id = false -> declares f id m -> here m fl os.
Proof.
  intros id fl os m H M D. pose proof (here_reached _ _ _ H) as R. destruct (merge_below _ _ D R) as (DM & N & Rm).
  assert (IN : forall h m, In (h, m) os -> construct f h m id /\ h <> id) by exact (go_inside _ _ _ H M).
  assert (ALL : forall h' m', In (h', m') os -> construct f h' m' m).
  { intros h' m' I. destruct (opened_in _ _ (here_open _ _ _ H) _ _ I) as (D' & R' & _). destruct (IN _ _ I) as [C NE].
    exact (proj1 (CR h' m' D' R') id m C (fun Q => NE (eq_sym Q)) D Rm). }
  constructor.
  - exact Rm.
  - exact (here_open _ _ _ H).
  - destruct os as [|[h' m'] os]; [exact Logic.I|]. split; [left; apply ALL; left; reflexivity|]. apply Forall_forall. intros [h2 m2] I. apply ALL. right. exact I.
  - intros h' m' I ->. exfalso. destruct (IN _ _ I) as [(_ & DI & _) _]. apply N. exact (dom_antisym f _ _ R DM DI).
  - intros h' m' D' C NE NI. pose proof (construct_reaches _ _ _ C) as R'. destruct C as (_ & DH & NM). destruct (dom_chain f _ _ _ Rm DH DM) as [A|A].
    + assert (Ci : construct f h' m' id) by (split; [exact R|split; [exact A|]]; intros X; apply NM; exact (dom_trans f _ _ _ X DM)).
      destruct (N.eq_dec h' id) as [->|NQ]; [|exact (here_all _ _ _ H _ _ D' Ci NQ NI)]. rewrite (one_merge _ _ _ D' D) in NM. apply NM. apply dom_refl.
    + destruct (N.eq_dec h' id) as [->|NQ]; [rewrite (one_merge _ _ _ D' D) in NM; apply NM; apply dom_refl|].
      destruct (merge_entered _ _ D R) as (u & n & B & Cu).
      destruct (proj2 (proj2 (proj2 (proj2 SI))) id m u n m D B Cu (not_own_merge _ _)) as (_ & (_ & _ & IM) & _).
      apply (cases_or (construct f h' m' u)). intros [C'|NC].
      * destruct (IM _ _ D' C') as (_ & X & _). apply NQ. exact (dom_antisym f _ _ R' X A).
      * apply NE. symmetry. apply (proj1 (proj2 (CR h' m' D' R')) u n m B (proj1 Cu) NC). split; [exact Rm|split; assumption].
Qed.

(** ** The search *)
Definition fine (r : outcome ControlFlowError (ControlFlowChain * Cont)) (fl : FlowList) : bool :=
  match r with OutOfFuel => true | Ok (_, nx) => cont_eqb nx (expected fl) | _ => false end.
Lemma cont_refl : forall c, cont_eqb c c = true.
Proof. intros [id|]; [apply N.eqb_refl|reflexivity]. Qed.
Lemma cont_eq : forall a b, cont_eqb a b = true -> a = b.
Proof. intros [a|] [b|] Q; cbn in Q; try discriminate Q; [apply N.eqb_eq in Q; congruence|reflexivity]. Qed.
Lemma fine_stable : forall r fl, (fine r fl = false -> False) -> fine r fl = true.
Proof. intros r fl H. destruct (fine r fl); [reflexivity|destruct (H eq_refl)]. Qed.

Theorem search_fine : forall fuel id fl os, here id fl os -> fine (search_block fuel id fl bm) fl = true.
Proof.
  induction fuel as [|fuel IH]; intros id fl os H; [reflexivity|]. cbn [search_block]. destruct (merges fl id) eqn:M.
  { cbn [fine]. rewrite (stop_expected _ _ _ H M). apply N.eqb_refl. }
  pose proof (here_reached _ _ _ H) as R. destruct (block_there id R) as [b HB]. pose proof (proj2 (find_map_iff f ND id b) HB) as G. rewrite G.
  assert (TG : forall n t, nth_error (branch_targets b) n = Some t -> branches f id n t) by (intros n t Q; exists b; split; assumption).
  assert (MG : forall m, In m (merge_targets b) -> declares f id m) by (intros m I; exists b; split; assumption).
  assert (NM : BasicBlock_merge b = None -> forall m, ~ declares f id m).
  { intros Q m (b' & H' & I). rewrite (has_block_inj f ND _ _ _ H' HB) in I. unfold merge_targets in I. rewrite Q in I. exact I. }
  pose proof (proj1 (proj2 SI) id b HB R) as KIND.
  assert (IN : forall h m, In (h, m) os -> construct f h m id /\ h <> id) by exact (go_inside _ _ _ H M).
  assert (NEST : Forall (fun o => construct f (fst o) (snd o) id /\ fst o <> id) os) by (apply Forall_forall; intros [h m] I; exact (IN h m I)).
  assert (SAME : forall n t, BasicBlock_merge b = None -> nth_error (branch_targets b) n = Some t -> n = 0 -> fine (search_block fuel t fl bm) fl = true).
  { intros n t Q T N0. apply fine_stable. intros X. apply (step_same id fl os n t H M (TG _ _ T) (NM Q) N0). intros H'. rewrite (IH _ _ _ H') in X. discriminate X. }
  unfold branch_targets in TG, SAME. unfold merge_targets in MG.
  destruct (BasicBlock_branch b) as [op|op|op] eqn:BR; [| |].
  - destruct (BasicBlock_merge b) as [[lm|sm]|] eqn:BM; [|destruct KIND|].
    + set (m := OpLoopMerge_merge_block lm) in *. pose proof (MG m (or_introl eq_refl)) as D.
      assert (HL : heads_loop f id m (OpLoopMerge_continue_target lm)) by (destruct lm as [mb ct hint]; exists b, hint; split; [exact HB|exact BM]).
      assert (O : opened (Converge_Loop id m (OpLoopMerge_loop_control lm) :: fl) ((id, m) :: os)) by (eapply opened_loop; [exact HL|exact R|exact NEST|exact (here_open _ _ _ H)]).
      assert (X : fine (search_block fuel (OpBranch_target_label op) (Converge_Loop id m (OpLoopMerge_loop_control lm) :: fl) bm) (Converge_Loop id m (OpLoopMerge_loop_control lm) :: fl) = true).
      { apply fine_stable. intros X. apply (step_into id fl os _ m 0 _ H M (TG 0 _ eq_refl) D O); [reflexivity|]. intros H'. rewrite (IH _ _ _ H') in X. discriminate X. }
      pose proof (IH _ _ _ (step_merge _ _ _ _ H M D)) as Y.
      destruct (search_block fuel (OpBranch_target_label op) _ bm) as [[c nx]| | |]; try discriminate X; [|reflexivity]. cbn [bind]. cbn [fine expected] in X. rewrite X.
      destruct (search_block fuel m fl bm) as [[c' nx']| | |]; try discriminate Y; [|reflexivity]. exact Y.
    + pose proof (SAME 0 _ eq_refl eq_refl eq_refl) as X. destruct (search_block fuel (OpBranch_target_label op) fl bm) as [[c nx]| | |]; try discriminate X; [|reflexivity]. exact X.
  - destruct (BasicBlock_merge b) as [[lm|sm]|] eqn:BM; [destruct KIND| |].
    + set (m := OpSelectionMerge_merge_block sm) in *. pose proof (MG m (or_introl eq_refl)) as D.
      assert (NL : forall ct, ~ heads_loop f id m ct).
      { intros ct (b' & hint' & H' & Q'). rewrite (has_block_inj f ND _ _ _ H' HB) in Q'. congruence. }
      assert (O : opened (Converge_If m (OpSelectionMerge_selection_control sm) :: fl) ((id, m) :: os)) by (apply opened_if; [exact D|exact NL|exact R|exact NEST|exact (here_open _ _ _ H)]).
      assert (X : forall n t, branches f id n t -> fine (search_block fuel t (Converge_If m (OpSelectionMerge_selection_control sm) :: fl) bm) (Converge_If m (OpSelectionMerge_selection_control sm) :: fl) = true).
      { intros n t B. apply fine_stable. intros X. apply (step_into id fl os _ m n t H M B D O); [intros ct HL; destruct (NL _ HL)|]. intros H'. rewrite (IH _ _ _ H') in X. discriminate X. }
      pose proof (X 0 _ (TG 0 _ eq_refl)) as X1. pose proof (X 1 _ (TG 1 _ eq_refl)) as X2. pose proof (IH _ _ _ (step_merge _ _ _ _ H M D)) as Y.
      destruct (search_block fuel (OpBranchConditional_true_label op) _ bm) as [[c nx]| | |]; try discriminate X1; [|reflexivity]. cbn [bind].
      destruct (search_block fuel (OpBranchConditional_false_label op) _ bm) as [[c2 nx2]| | |]; try discriminate X2; [|reflexivity]. cbn [bind].
      cbn [fine expected] in X1, X2. apply cont_eq in X1, X2. subst nx nx2. rewrite !cont_refl. cbn [andb].
      destruct (search_block fuel m fl bm) as [[c' nx']| | |]; try discriminate Y; [|reflexivity]. exact Y.
    + destruct (proj1 (proj2 (proj2 (proj2 SI))) id b op HB R BR BM) as (h & m & ct & HL & IM & Q).
      assert (NQ : h <> id) by (intros ->; exact (NM eq_refl _ (loop_declares f _ _ _ HL))).
      assert (X : fine (search_block fuel (OpBranchConditional_true_label op) fl bm) fl = true) by exact (SAME 0 _ eq_refl eq_refl eq_refl).
      apply fine_stable. intros BAD. apply (here_all _ _ _ H h m (loop_declares f _ _ _ HL) (proj1 (proj2 IM)) NQ). intros I.
      destruct (leaves_first _ _ _ _ _ H M I IM) as [os' ->]. pose proof (here_open _ _ _ H) as O.
      inversion O as [|h0 m0 hint fl' os0 D NL Rh F O'|h0 m0 ct0 hint fl' os0 HL0 Rh F O']; subst; [destruct (NL _ HL)|]. revert BAD. cbn [ControlFlow.innermost_loop]. rewrite N.eqb_refl. cbn [orb].
      destruct (search_block fuel (OpBranchConditional_true_label op) _ bm) as [[c nx]| | |]; try discriminate X; [|discriminate]. cbn [bind]. cbn [fine expected] in X. rewrite X.
      cbn [fine expected]. rewrite X. discriminate.
  - cbn [fine]. destruct os as [|[h m] os].
    + pose proof (here_open _ _ _ H) as O. inversion O. subst. reflexivity.
    + exfalso. destruct (IN h m (or_introl eq_refl)) as [C _]. destruct (opened_in _ _ (here_open _ _ _ H) h m (or_introl eq_refl)) as (D & _).
      exact (proj1 (proj2 (proj2 SI)) id b op h m HB BR D C).
Qed.
End Simple.

Theorem simple_understood : forall E (f : FunctionDefinition E), NoDup (labels f) -> FunctionDefinition_blocks f <> [] ->
  merge_rules f -> construct_rules f -> loops_close f -> merges_reached f -> simple f -> exists chain, returns f (Ok chain).
Proof.
  intros E f ND NE MR CR LC RM SI. destruct (rules_return E f MR CR LC RM) as (r & N & Q). set (n := S (length (FunctionDefinition_blocks f))).
  specialize (Q n (le_n _)). destruct (FunctionDefinition_blocks f) as [|b rest] eqn:QB; [congruence|].
  assert (En : entry f (label_of b)) by (exists b, rest; auto).
  assert (H : here f (label_of b) [] []).
  { constructor.
    - apply reachable_path. exists (label_of b), []. split; [exact En|constructor].
    - constructor.
    - exact I.
    - intros h m [].
    - intros h m _ (_ & D & _) NQ _. destruct (proj1 (dominates_path f h _) D (label_of b) [] En (path_nil f _)) as [QH|[]]. exact (NQ (eq_sym QH)). }
  pose proof (search_fine f ND MR CR RM SI n (label_of b) [] [] H) as F. pose proof (find_eq f ND n) as FE. rewrite QB in FE. rewrite FE in Q.
  destruct (search_block n (label_of b) [] (block_map f)) as [[c [j|]]| | |]; cbn [bind fine expected cont_eqb] in *; try discriminate F; [|congruence].
  exists c. split; [discriminate|]. exists n. rewrite FE. reflexivity.
Qed.
