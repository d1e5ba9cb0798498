(** The blocks of a function with another one inlined, C122. *)
From Coq Require Import Permutation.
From Verif Require Import Base Types Ops Groups ControlFlow Spec_Flow Spec_Inline Spec_Inlined Proofs_Rewrite2 Proofs_Inlined.

Section Reach.
Context {E : Type} (f : FunctionDefinition E).
Lemma gets_further : forall t id dec j, gets_to f t id -> goes f id dec (Some j) -> gets_to f (t ++ [(id, dec)]) j.
Proof.
  intros t id dec j (s & En & W) G. exists s. split; [exact En|]. clear En. revert s W. induction t as [|e t IH]; intros s W; apply walk_inv in W as [[Q1 Q2]|(d0 & dst & t1 & Q & G0 & R)]; try discriminate.
  - injection Q2 as <-. apply (walk_goes _ _ _ (Some j)); [exact G|]. constructor.
  - injection Q as -> <-. apply (walk_goes _ _ _ dst); [exact G0|]. destruct dst as [x|]; [exact (IH x R)|]. destruct R as [_ R]. discriminate R.
Qed.
Lemma along : forall (P : list event -> BlockId -> Prop), (forall t id dec j, P t id -> goes f id dec (Some j) -> P (t ++ [(id, dec)]) j) ->
  forall t id j t0, walk f id t (Some j) -> P t0 id -> P (t0 ++ t) j.
Proof.
  intros P St. induction t as [|e t IH]; intros id j t0 W K; apply walk_inv in W as [[Q1 Q2]|(d0 & dst & t1 & Q & G0 & R)]; try discriminate.
  - injection Q2 as <-. rewrite app_nil_r. exact K.
  - injection Q as -> <-. destruct dst as [x|]; [|destruct R as [_ R]; discriminate R]. change (P (t0 ++ [(id, d0)] ++ t) j). rewrite app_assoc. apply (IH x); [exact R|]. exact (St _ _ _ _ K G0).
Qed.
Lemma reach_gets : forall j, reachable f j <-> exists t, gets_to f t j.
Proof. intros j. split; [intros (id & t & H); exists t, id; exact H|intros (t & id & H); exists id, t; exact H]. Qed.
Lemma reach_step : forall id dec j, reachable f id -> goes f id dec (Some j) -> reachable f j.
Proof. intros id dec j H G. apply reach_gets in H as [t H]. apply reach_gets. eexists. exact (gets_further _ _ _ _ H G). Qed.
Lemma gets_used : forall t j, gets_to f t j -> used f j.
Proof.
  intros t j (s & En & W). refine (along (fun _ => used f) _ t s j [] W (entry_used _ _ En)). intros ? id dec k _ G. exact (proj2 (goes_used _ _ _ _ G) k eq_refl).
Qed.
Lemma gets_returns : forall t id dec, gets_to f t id -> goes f id dec None -> exists inner, complete_run f inner.
Proof.
  intros t id dec (s & En & W) G. exists (t ++ [(id, dec)]), s. split; [exact En|]. clear En. revert s W. induction t as [|e t IH]; intros s W; apply walk_inv in W as [[Q1 Q2]|(d0 & dst & t1 & Q & G0 & R)]; try discriminate.
  - injection Q2 as <-. apply (walk_goes _ _ _ None); [exact G|]. split; reflexivity.
  - injection Q as -> <-. apply (walk_goes _ _ _ dst); [exact G0|]. destruct dst as [x|]; [exact (IH x R)|]. destruct R as [_ R]. discriminate R.
Qed.
End Reach.

Theorem inlined_labels : forall E (f h g : FunctionDefinition E) cut n, inlined_at f h g cut n -> Permutation (labels g) (labels f ++ n :: labels h).
Proof.
  intros E f h g cut n (b1 & b2 & start & Bf & _ & Bg & _). apply (f_equal (map (fun s => fst (fst s)))) in Bg. rewrite !map_app, !map_map in Bg. cbn [map] in Bg. rewrite !map_app, !map_map in Bg. cbn [map fst] in Bg. rewrite map_map in Bg.
  unfold labels. rewrite (map_ext _ label_of) in Bg by reflexivity. rewrite Bg, Bf, map_app. cbn [map]. rewrite (map_ext (fun x => fst (fst (going_on n x))) label_of) by (intros b; apply going_name).
  rewrite (map_ext (fun x : BasicBlock E => fst (fst (skeleton x))) label_of) by reflexivity. rewrite <- app_assoc. apply Permutation_app_head. cbn. constructor.
  rewrite Permutation_app_comm. cbn. rewrite <- Permutation_middle. constructor. reflexivity.
Qed.

Theorem inlined_distinct : forall E (f h g : FunctionDefinition E) cut n, inlined_at f h g cut n -> NoDup (labels f) -> NoDup (labels h) -> NoDup (labels g).
Proof.
  intros E f h g cut n H Uf Uh. apply (Permutation_NoDup (Permutation_sym (inlined_labels _ _ _ _ _ _ H))). destruct H as (_ & _ & _ & _ & _ & _ & Nf & Nh & D).
  assert (L : forall (d : FunctionDefinition E) id, In id (labels d) -> used d id) by (intros d id I; apply in_map_iff in I as (b & <- & I); exists b; auto).
  assert (A : forall l l' : list BlockId, NoDup l -> NoDup l' -> (forall x, In x l -> ~ In x l') -> NoDup (l ++ l')).
  { induction l as [|x l IH]; intros l' A1 A2 A3; [exact A2|]. inversion A1 as [|? ? A4 A5]; subst. cbn. constructor; [|apply IH; [exact A5|exact A2|intros y I; apply A3; right; exact I]].
    intros I. apply in_app_or in I as [I|I]; [exact (A4 I)|]. exact (A3 x (or_introl eq_refl) I). }
  apply A; [exact Uf|constructor; [intros I; exact (Nh (L h n I))|exact Uh]|]. intros x I [<-|J]; [exact (Nf (L f _ I))|exact (D x (L f x I) (L h x J))].
Qed.

Section Blocks.
Context {E : Type} (f h g : FunctionDefinition E) (cut : BasicBlock E) (n : BlockId) (H : inlined_at f h g cut n) (U : NoDup (labels f)).
Notation c := (label_of cut).
Theorem inlined_reached : forall j, reachable g j <->
  (exists t, gets_to f t j /\ (In c (map fst t) -> exists inner, complete_run h inner))
  \/ reachable f c /\ (reachable h j \/ j = n /\ exists inner, complete_run h inner).
Proof.
  destruct H as (before & after & start & Bf & Eh & Bg & Nf & Nh & D). intros j.
  assert (Hs : reachable h start) by (exists start, []; split; [exact Eh|constructor]).
  split.
  - intros (id & t & En & W). apply (same_entry f h g cut n start before after Bf Bg) in En.
    refine (along g (fun _ j => (exists t, gets_to f t j /\ (In c (map fst t) -> exists inner, complete_run h inner)) \/ reachable f c /\ (reachable h j \/ j = n /\ exists inner, complete_run h inner)) _ t id j [] W _).
    2: { left. exists []. split; [exists id; split; [exact En|constructor]|intros []]. }
    clear t id En W j. intros _ id dec j K G. destruct (goes_cases f h g cut n start before after Bf Bg U _ _ _ G) as [[G1 Nc]|[(-> & -> & Q)|[(dst0 & G1 & Q)|[-> G1]]]].
    + destruct K as [(t & K1 & K2)|(_ & [K|[-> _]])].
      * left. exists (t ++ [(id, dec)]). split; [exact (gets_further _ _ _ _ _ K1 G1)|]. intros I. apply K2. rewrite map_app in I. apply in_app_or in I as [I|[I|[]]]; [exact I|]. destruct (Nc I).
      * apply reach_gets in K as [t K]. destruct (D id (proj1 (goes_used _ _ _ _ G1)) (gets_used _ _ _ K)).
      * destruct (Nf (proj1 (goes_used _ _ _ _ G1))).
    + injection Q as ->. right. split; [|left; exact Hs]. destruct K as [(t & K1 & _)|[K _]]; [apply reach_gets; exists t; exact K1|exact K].
    + right. destruct K as [(t & K1 & K2)|(K0 & [K|[-> _]])].
      * destruct (D id (gets_used _ _ _ K1) (proj1 (goes_used _ _ _ _ G1))).
      * split; [exact K0|]. destruct dst0 as [x|]; injection Q as ->; [left; exact (reach_step _ _ _ _ K G1)|right; split; [reflexivity|]]. apply reach_gets in K as [t K]. exact (gets_returns _ _ _ _ K G1).
      * destruct (Nh (proj1 (goes_used _ _ _ _ G1))).
    + left. destruct K as [(t & K1 & K2)|(K0 & [K|[_ K]])].
      * destruct (Nf (gets_used _ _ _ K1)).
      * apply reach_gets in K as [t K]. destruct (Nh (gets_used _ _ _ K)).
      * apply reach_gets in K0 as [t K0]. exists (t ++ [(c, dec)]). split; [|intros _; exact K]. apply (gets_further _ _ _ _ _ K0). apply (cut_goes f h g cut n start before after Bf Bg U). exact G1.
  - assert (Inner : reachable g c -> forall k, reachable h k -> reachable g k).
    { intros Rc k (id & t & En & W). assert (id = start) as -> by (destruct En as (? & ? & Q1 & <-), Eh as (? & ? & Q2 & <-); congruence).
      refine (along h (fun _ => reachable g) _ t start k [] W _).
      - intros _ x dec y K G. exact (reach_step _ _ _ _ K (inner_goes h g cut n start before after Bg _ _ _ G)).
      - exact (reach_step _ _ _ _ Rc (first_goes h g cut n start before after Bg)). }
    assert (Out : reachable g c -> (exists inner, complete_run h inner) -> reachable g n).
    { intros Rc (inner & s & En & W). revert En W. intros En W. assert (Rs : reachable g s) by (apply Inner; [exact Rc|exists s, []; split; [exact En|constructor]]). clear En. revert s W Rs.
      induction inner as [|e inner IH]; intros s W Rs; apply walk_inv in W as [[Q1 Q2]|(d0 & dst & t1 & Q & G0 & R)]; try discriminate. injection Q as -> <-.
      pose proof (reach_step _ _ _ _ Rs (inner_goes h g cut n start before after Bg _ _ _ G0)) as R1. destruct dst as [x|]; [exact (IH x R R1)|exact R1]. }
    assert (Ent : forall id, entry f id -> reachable g id) by (intros id En; exists id, []; split; [apply (same_entry f h g cut n start before after Bf Bg); exact En|constructor]).
    assert (Rc : reachable f c -> reachable g c).
    { intros (id & t & En & W). apply Ent in En. revert id En W. induction t as [|e t IH]; intros id En W; apply walk_inv in W as [[Q1 Q2]|(d0 & dst & t1 & Q & G0 & R)]; try discriminate; [injection Q2 as <-; exact En|].
      injection Q as -> <-. destruct dst as [x|]; [|destruct R as [_ R]; discriminate R]. destruct (N.eq_dec id c) as [->|Nc]; [exact En|]. apply (IH x); [|exact R].
      exact (reach_step _ _ _ _ En (others_go f h g cut n start before after Bf Bg _ _ _ G0 Nc)). }
    intros [(t & (id & En & W) & K)|(K0 & [K|[-> K]])]; [|exact (Inner (Rc K0) _ K)|exact (Out (Rc K0) K)].
    apply Ent in En. revert id En W K. induction t as [|e t IH]; intros id En W K; apply walk_inv in W as [[Q1 Q2]|(d0 & dst & t1 & Q & G0 & R)]; try discriminate; [injection Q2 as <-; exact En|].
    injection Q as -> <-. destruct dst as [x|]; [|destruct R as [_ R]; discriminate R]. apply (IH x); [|exact R|intros I; apply K; right; exact I]. destruct (N.eq_dec id c) as [->|Nc].
    + pose proof (Out En (K (or_introl eq_refl))) as Rn. apply (reach_step _ _ _ _ Rn (second_goes h g cut n start before after Bg d0 _ (proj1 (cut_goes f h g cut n start before after Bf Bg U _ _) G0))).
    + exact (reach_step _ _ _ _ En (others_go f h g cut n start before after Bf Bg _ _ _ G0 Nc)).
Qed.
Theorem inlined_defined : (forall j, reachable f j -> exists b, has_block f j b) -> (forall j, reachable h j -> exists b, has_block h j b) -> forall j, reachable g j -> exists b, has_block g j b.
Proof.
  intros Xf Xh j R. assert (L : forall (d : FunctionDefinition E) id, (exists b, has_block d id b) <-> In id (labels d)).
  { intros d id. unfold labels. rewrite in_map_iff. split; intros (b & B1 & B2); exists b; split; assumption. }
  apply L. apply (Permutation_in _ (Permutation_sym (inlined_labels _ _ _ _ _ _ H))). apply in_or_app. apply inlined_reached in R as [(t & K & _)|(_ & [K|[-> _]])].
  - left. apply L, Xf, reach_gets. exists t. exact K.
  - right. right. apply L, Xh, K.
  - right. left. reflexivity.
Qed.
End Blocks.

Theorem inlined_again : forall E (f h g : FunctionDefinition E) cut n, inlined_at f h g cut n -> NoDup (labels f) -> NoDup (labels h) ->
  (forall j, reachable f j -> exists b, has_block f j b) -> (forall j, reachable h j -> exists b, has_block h j b) ->
  NoDup (labels g) /\ forall j, reachable g j -> exists b, has_block g j b.
Proof. intros E f h g cut n H Uf Uh Xf Xh. split; [exact (inlined_distinct _ _ _ _ _ _ H Uf Uh)|exact (inlined_defined _ _ _ _ _ H Uf Xf Xh)]. Qed.
