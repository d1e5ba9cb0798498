(** Where a function with an inlined one gets, and what it must have come through, C122. *)
From Verif Require Import Base Types Ops Groups ControlFlow Spec_Flow Spec_Structured Spec_Standard Spec_Inline Spec_Inlined Proofs_Rewrite2 Proofs_Inlined Proofs_Inlined4 Proofs_Halves2.

Theorem inlined_on_the_way : forall E (f h g : FunctionDefinition E) cut n, inlined_at f h g cut n -> NoDup (labels f) -> forall t' j, gets_to g t' j <->
  (exists t, gets_to f t j /\ with_inlined h (label_of cut) n t t')
  \/ exists t t1 inner, gets_to f t (label_of cut) /\ with_inlined h (label_of cut) n t t1 /\ t' = t1 ++ (label_of cut, None) :: inner /\ (gets_to h inner j \/ complete_run h inner /\ j = n).
Proof.
  intros E f h g cut n (before & after & start & Bf & Eh & Bg & Nf & Nh & D) U t' j. pose proof (same_entry f h g cut n start before after Bf Bg) as SE. split.
  - intros (id & En & W). apply SE in En. destruct (inlined_back f h g cut n start before after Bf Eh Bg Nf Nh D U _ _ _ _ (le_n _) W (entry_used f _ En)) as [(t & V & X)|(t & t1 & th & V & X & -> & Y)].
    + left. exists t. split; [exists id; auto|exact X].
    + right. exists t, t1, th. split; [exists id; auto|]. split; [exact X|]. split; [reflexivity|]. destruct Y as [[Y Q]|(k & Q & Y)]; injection Q as ->; [right; split; [exists start; auto|reflexivity]|left; exists start; auto].
  - intros [(t & (id & En & W) & X)|(t & t1 & th & (id & En & W) & X & -> & Y)].
    + exists id. split; [apply SE; exact En|]. exact (inlined_forth f h g cut n start before after Bf Eh Bg U _ _ X _ _ W).
    + assert (K : forall s, entry h s -> s = start) by (intros s (b & r & Q1 & <-); destruct Eh as (b' & r' & Q2 & <-); congruence).
      assert (Z : walk g start th (Some j)).
      { rewrite <- (app_nil_r th). destruct Y as [(s & Es & Y)|[(s & Es & Y) ->]]; rewrite (K s Es) in Y; apply (inner_there h g cut n start before after Bg th start _ Y).
        - discriminate.
        - intros k Q. injection Q as <-. auto.
        - intros _. constructor.
        - discriminate. }
      exists id. split; [apply SE; exact En|]. apply (walk_more g id t1 (label_of cut) (inlined_forth f h g cut n start before after Bf Eh Bg U _ _ X _ _ W)).
      exact (walk_goes g _ _ (Some start) _ _ (first_goes h g cut n start before after Bg) Z).
Qed.

Section With.
Context {E : Type} (h : FunctionDefinition E) (c n : BlockId).
Lemma with_same : forall r, complete_run h r -> forall t, exists t', with_inlined h c n t t' /\ forall a, In a (map fst t') -> In a (map fst t) \/ a = n \/ In a (map fst r) /\ In c (map fst t).
Proof.
  intros r R. induction t as [|[id d] t (t' & W & X)]; [exists []; split; [constructor|intros a []]|]. destruct (N.eq_dec id c) as [->|Z].
  - exists ((c, None) :: r ++ (n, d) :: t'). split; [constructor; assumption|]. intros a. cbn [map fst In]. rewrite map_app, in_app_iff. cbn [map fst In]. intros [I|[I|[I|I]]]; [auto|auto|auto|]. destruct (X a I) as [Y|[Y|[Y1 Y2]]]; auto.
  - exists ((id, d) :: t'). split; [constructor; assumption|]. intros a [I|I]; [left; left; exact I|]. destruct (X a I) as [Y|[Y|[Y1 Y2]]]; cbn; auto.
Qed.
Lemma with_more : forall t t', with_inlined h c n t t' -> forall a, In a (map fst t) -> In a (map fst t').
Proof.
  intros t t' W. induction W as [|e t t' Ne W IH|d r t t' R W IH]; intros a I; [exact I|destruct I as [I|I]; [left; exact I|right; exact (IH a I)]|].
  destruct I as [I|I]; [left; exact I|right]. rewrite map_app. apply in_or_app. right. right. exact (IH a I).
Qed.
Lemma with_inner : forall t t', with_inlined h c n t t' -> forall a, In c (map fst t) -> (forall r, complete_run h r -> In a (map fst r)) -> In a (map fst t').
Proof.
  intros t t' W. induction W as [|e t t' Ne W IH|d r t t' R W IH]; intros a I X; [destruct I|destruct I as [I|I]; [destruct (Ne I)|right; exact (IH a I X)]|].
  right. rewrite map_app. apply in_or_app. left. exact (X r R).
Qed.
Lemma with_none : forall t, ~ In c (map fst t) -> with_inlined h c n t t.
Proof. induction t as [|e t IH]; intros X; [constructor|]. constructor; [intros Q; apply X; left; exact Q|apply IH; intros I; apply X; right; exact I]. Qed.
Lemma run_used : forall r a, complete_run h r -> In a (map fst r) -> used h a.
Proof.
  intros r a (s & _ & W) I. revert s W I. induction r as [|e r IH]; intros s W I; [destruct I|]. apply walk_inv in W as [[Q _]|(d0 & dst & t1 & Q & G & R)]; [discriminate|]. injection Q as -> <-.
  destruct I as [<-|I]; [exact (proj1 (goes_used _ _ _ _ G))|]. destruct dst as [x|]; [exact (IH x R I)|]. destruct R as [-> _]. destruct I.
Qed.
End With.
Lemma way_used : forall E (f : FunctionDefinition E) t j a, gets_to f t j -> In a (map fst t) -> used f a.
Proof. intros E f t j a G I. destruct (visited f a t j G I) as (t1 & _ & _ & K & _). exact (gets_used f t1 a K). Qed.

Theorem inlined_dominates : forall E (f h g : FunctionDefinition E) cut n, inlined_at f h g cut n -> NoDup (labels f) -> (exists inner, complete_run h inner) ->
  (forall a b, used f a -> used f b -> (dominates g a b <-> dominates f a b))
  /\ (forall a b, used f a -> reachable h b -> (dominates g a b <-> dominates f a (label_of cut)))
  /\ (forall a b, used h a -> used h b -> reachable f (label_of cut) -> (dominates g a b <-> dominates h a b))
  /\ (forall a b, used h a -> used f b -> reachable f b -> (dominates g a b <-> dominates f (label_of cut) b /\ b <> label_of cut /\ forall inner, complete_run h inner -> In a (map fst inner))).
Proof.
  intros E f h g cut n I U [r R]. pose proof (inlined_on_the_way E f h g cut n I U) as OW. destruct I as (before & after & start & Bf & Eh & Bg & Nf & Nh & D). set (c := label_of cut) in *.
  assert (Cu : used f c) by (exists cut; split; [rewrite Bf; apply in_elt|left; reflexivity]).
  split; [|split; [|split]]; intros a b.
  - intros Ua Ub. rewrite !dominates_gets. split; intros X t G.
    + destruct (with_same h c n r R t) as (t' & W & Y). assert (G' : gets_to g t' b) by (apply OW; left; exists t; auto). specialize (X t' G'). apply in_app_or in X as [K|K]; apply in_or_app; [left|right; exact K].
      destruct (Y a K) as [Z|[->|[Z _]]]; [exact Z|destruct (Nf Ua)|destruct (D a Ua (run_used h r a R Z))].
    + apply OW in G as [(t0 & G & W)|(t0 & t1 & inner & _ & _ & _ & [K|[_ ->]])]; [|destruct (D b Ub (gets_used h _ _ K))|destruct (Nf Ub)].
      specialize (X t0 G). apply in_app_or in X as [K|K]; apply in_or_app; [left; exact (with_more h c n _ _ W a K)|right; exact K].
  - intros Ua Rb. assert (Ub : used h b) by (apply reach_gets in Rb as [t0 G0]; exact (gets_used h _ _ G0)). rewrite !dominates_gets. split; intros X t G.
    + apply reach_gets in Rb as [inner G0]. destruct (with_same h c n r R t) as (t' & W & Y). assert (G' : gets_to g (t' ++ (c, None) :: inner) b) by (apply OW; right; exists t, t', inner; auto). specialize (X _ G').
      rewrite map_app in X. cbn [map fst] in X. rewrite !in_app_iff in X. cbn [In app] in X. apply in_or_app. destruct X as [[K|[K|K]]|[K|[]]].
      * destruct (Y a K) as [Z|[->|[Z _]]]; [left; exact Z|destruct (Nf Ua)|destruct (D a Ua (run_used h r a R Z))].
      * right. left. exact K.
      * destruct (D a Ua (way_used _ h _ _ a G0 K)).
      * subst b. destruct (D a Ua Ub).
    + apply OW in G as [(t0 & G & W)|(t0 & t1 & inner & G & W & -> & _)]; [destruct (D b (gets_used f _ _ G) Ub)|]. specialize (X t0 G). rewrite map_app. cbn [map fst]. rewrite !in_app_iff. cbn [In]. left.
      apply in_app_or in X as [K|[K|[]]]; [left; exact (with_more h c n _ _ W a K)|right; left; exact K].
  - intros Ua Ub Rc. rewrite !dominates_gets. split; intros X t G.
    + destruct (first_arrival f c Rc) as (t0 & G0 & N0). assert (G' : gets_to g (t0 ++ (c, None) :: t) b) by (apply OW; right; exists t0, t0, t; split; [exact G0|]; split; [exact (with_none h c n t0 N0)|auto]). specialize (X _ G').
      rewrite map_app in X. cbn [map fst] in X. rewrite !in_app_iff in X. cbn [In app] in X. apply in_or_app. destruct X as [[K|[K|K]]|K].
      * destruct (D a (way_used _ f _ _ a G0 K) Ua).
      * subst a. destruct (D c Cu Ua).
      * left. exact K.
      * right. exact K.
    + apply OW in G as [(t0 & G & W)|(t0 & t1 & inner & G & W & -> & [K|[_ ->]])]; [destruct (D b (gets_used f _ _ G) Ub)| |destruct (Nh Ub)]. specialize (X inner K). rewrite map_app. cbn [map fst]. rewrite !in_app_iff. cbn [In].
      apply in_app_or in X as [Z|Z]; [left; right; right; exact Z|right; exact Z].
  - intros Ua Ub Rb. rewrite !dominates_gets. assert (Ab : a <> b) by (intros ->; exact (D b Ub Ua)). split.
    + intros X. assert (K : forall r0 t, complete_run h r0 -> gets_to f t b -> In c (map fst t) /\ In a (map fst r0)).
      { intros r0 t R0 G. destruct (with_same h c n r0 R0 t) as (t' & W & Y). assert (G' : gets_to g t' b) by (apply OW; left; exists t; auto). specialize (X t' G'). apply in_app_or in X as [K|[K|[]]]; [|destruct (Ab (eq_sym K))].
        destruct (Y a K) as [Z|[->|[Z1 Z2]]]; [destruct (D a (way_used _ f _ _ a G Z) Ua)|destruct (Nh Ua)|auto]. }
      split; [intros t G; apply in_or_app; left; exact (proj1 (K r t R G))|]. split; [|intros r0 R0; apply reach_gets in Rb as [t G]; exact (proj2 (K r0 t R0 G))].
      intros Q. destruct (first_arrival f b Rb) as (t & G & Nb). apply Nb. rewrite Q at 1. exact (proj1 (K r t R G)).
    + intros (X & Bc & Y) t G. apply OW in G as [(t0 & G & W)|(t0 & t1 & inner & _ & _ & _ & [K|[_ ->]])]; [|destruct (D b Ub (gets_used h _ _ K))|destruct (Nf Ub)].
      specialize (X t0 G). apply in_app_or in X as [K|[K|[]]]; [|destruct (Bc K)]. apply in_or_app. left. exact (with_inner h c n _ _ W a K Y).
Qed.
