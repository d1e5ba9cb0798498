(** Executions of a function with another one inlined, C122. *)
From Coq Require Import Lia.
From Verif Require Import Base Types Ops Groups ExtSet ControlFlow Spec_Flow Spec_Inline Spec_Inlined
  Proofs_Flow Proofs_Flow2 Proofs_Rewrite2.

Definition goes {E} (f : FunctionDefinition E) (id : BlockId) (dec : option bool) (dst : option BlockId) : Prop :=
  exists l, In l (map skeleton (FunctionDefinition_blocks f)) /\ fst (fst l) = id /\ leads (snd l) dec = Some dst.
Definition resume {E} (f : FunctionDefinition E) (dst : option BlockId) (t : list event) (d : option BlockId) : Prop :=
  match dst with None => t = [] /\ d = None | Some j => walk f j t d end.
Section Goes.
Context {E : Type} (f : FunctionDefinition E).
Lemma goes_block : forall id b dec dst, has_block f id b -> leads (BasicBlock_branch b) dec = Some dst -> goes f id dec dst.
Proof. intros id b dec dst [I <-] Q. exists (skeleton b). split; [apply in_map; exact I|]. split; [reflexivity|exact Q]. Qed.
Lemma goes_inv : forall id dec dst, goes f id dec dst -> exists b, has_block f id b /\ leads (BasicBlock_branch b) dec = Some dst.
Proof. intros id dec dst (l & I & Q & L). apply in_map_iff in I as (b & <- & I). exists b. split; [split; [exact I|exact Q]|exact L]. Qed.
Lemma walk_goes : forall id dec dst t d, goes f id dec dst -> resume f dst t d -> walk f id ((id, dec) :: t) d.
Proof.
  intros id dec dst t d G R. apply goes_inv in G as (b & H & L). destruct dst as [j|]; cbn in R; [eapply walk_step; eassumption|]. destruct R as [-> ->]. eapply walk_stop; eassumption.
Qed.
Lemma walk_inv : forall id t d, walk f id t d -> t = [] /\ d = Some id \/ exists dec dst t1, t = (id, dec) :: t1 /\ goes f id dec dst /\ resume f dst t1 d.
Proof.
  intros id t d W. destruct W as [id|id b op H1 B|id b op t d H1 B W|id b op t d H1 B W|id b op t d H1 B W]; [auto|right..].
  - exists None, None, []. split; [reflexivity|]. split; [eapply goes_block; [exact H1|rewrite B; reflexivity]|split; reflexivity].
  - exists None, (Some (OpBranch_target_label op)), t. split; [reflexivity|]. split; [eapply goes_block; [exact H1|rewrite B; reflexivity]|exact W].
  - exists (Some true), (Some (OpBranchConditional_true_label op)), t. split; [reflexivity|]. split; [eapply goes_block; [exact H1|rewrite B; reflexivity]|exact W].
  - exists (Some false), (Some (OpBranchConditional_false_label op)), t. split; [reflexivity|]. split; [eapply goes_block; [exact H1|rewrite B; reflexivity]|exact W].
Qed.
Lemma goes_used : forall id dec dst, goes f id dec dst -> used f id /\ forall j, dst = Some j -> used f j.
Proof.
  intros id dec dst G. apply goes_inv in G as (b & [I <-] & L). split; [exists b; auto|]. intros j ->. exists b. split; [exact I|]. right. left. exact (leads_target b dec j L).
Qed.
End Goes.

Section Inlined.
Context {E : Type} (f h g : FunctionDefinition E) (cut : BasicBlock E) (n start : BlockId) (before after : list (BasicBlock E)).
Context (Bf : FunctionDefinition_blocks f = before ++ cut :: after) (Eh : entry h start).
Context (Bg : map skeleton (FunctionDefinition_blocks g) = map skeleton before ++ (label_of cut, None, GroupBranch_OpBranch (Build_OpBranch start))
  :: map (going_on n) (FunctionDefinition_blocks h) ++ (n, BasicBlock_merge cut, BasicBlock_branch cut) :: map skeleton after).
Context (Nf : ~ used f n) (Nh : ~ used h n) (D : forall id, used f id -> ~ used h id) (U : NoDup (labels f)).
Notation c := (label_of cut).

Lemma cut_used : used f c. Proof. exists cut. split; [rewrite Bf; apply in_or_app; cbn; auto|auto]. Qed.
Lemma start_used : used h start. Proof. destruct Eh as (b & r & Q & <-). exists b. split; [rewrite Q; cbn; auto|auto]. Qed.
Lemma cut_goes : forall dec dst, goes f c dec dst <-> leads (BasicBlock_branch cut) dec = Some dst.
Proof.
  intros dec dst. split.
  - intros G. apply goes_inv in G as (b & [I Q] & L). assert (b = cut) as <-; [|exact L]. unfold labels in U. rewrite Bf in U, I. rewrite map_app in U. cbn in U. apply NoDup_remove_2 in U.
    apply in_app_or in I as [I|[->|I]]; [|reflexivity|]; destruct U; rewrite <- Q; apply in_or_app; [left|right]; apply in_map; exact I.
  - intros L. eapply goes_block; [|exact L]. split; [rewrite Bf; apply in_or_app; cbn; auto|reflexivity].
Qed.
Lemma others_go : forall id dec dst, goes f id dec dst -> id <> c -> goes g id dec dst.
Proof.
  intros id dec dst (l & I & Q & L) Ne. exists l. split; [|auto]. rewrite Bf, map_app in I. cbn in I. rewrite Bg. apply in_or_app. apply in_app_or in I as [I|[<-|I]]; [auto| |].
  - destruct Ne. symmetry. exact Q.
  - right. right. apply in_or_app. cbn. auto.
Qed.
Lemma first_goes : goes g c None (Some start).
Proof. eexists. split; [rewrite Bg; apply in_or_app; right; left; reflexivity|]. split; reflexivity. Qed.
Lemma second_goes : forall dec dst, leads (BasicBlock_branch cut) dec = Some dst -> goes g n dec dst.
Proof. intros dec dst L. eexists. split; [rewrite Bg; apply in_or_app; right; right; apply in_or_app; right; left; reflexivity|]. split; [reflexivity|exact L]. Qed.
Definition onward (dst : option BlockId) : option BlockId := Some (match dst with None => n | Some j => j end).
Lemma going_goes : forall (b : BasicBlock E) dec dst, leads (snd (going_on n b)) dec = Some dst <-> exists dst0, leads (BasicBlock_branch b) dec = Some dst0 /\ dst = onward dst0.
Proof.
  intros b dec dst. unfold going_on, skeleton, onward. split.
  - destruct (BasicBlock_branch b), dec as [[]|]; cbn; intros Q; try discriminate Q; injection Q as <-; eexists; split; reflexivity.
  - intros (d0 & L & ->). destruct (BasicBlock_branch b), dec as [[]|]; cbn in L |- *; try discriminate L; injection L as <-; reflexivity.
Qed.
Lemma going_name : forall b : BasicBlock E, fst (fst (going_on n b)) = label_of b. Proof. intros b. unfold going_on, skeleton. destruct (BasicBlock_branch b); reflexivity. Qed.
Lemma inner_goes : forall id dec dst, goes h id dec dst -> goes g id dec (onward dst).
Proof.
  intros id dec dst G. apply goes_inv in G as (b & [I <-] & L). exists (going_on n b). split; [rewrite Bg; apply in_or_app; right; right; apply in_or_app; left; apply in_map; exact I|].
  split; [apply going_name|]. apply going_goes. exists dst. auto.
Qed.
Lemma goes_cases : forall id dec dst, goes g id dec dst ->
  goes f id dec dst /\ id <> c \/ id = c /\ dec = None /\ dst = Some start \/ (exists dst0, goes h id dec dst0 /\ dst = onward dst0) \/ id = n /\ leads (BasicBlock_branch cut) dec = Some dst.
Proof.
  intros id dec dst (l & I & Q & L). rewrite Bg in I.
  assert (K : In l (map skeleton before) \/ In l (map skeleton after) -> goes f id dec dst /\ id <> c).
  { intros K. split; [exists l; split; [rewrite Bf, map_app; apply in_or_app; cbn; tauto|auto]|]. intros ->. unfold labels in U. rewrite Bf, map_app in U. cbn in U. apply NoDup_remove_2 in U. apply U.
    apply in_or_app. destruct K as [K|K]; apply in_map_iff in K as (b & <- & K); [left|right]; cbn in Q; rewrite <- Q; apply in_map; exact K. }
  apply in_app_or in I as [I|[<-|I]]; [auto| |apply in_app_or in I as [I|[<-|I]]; [| |auto]].
  - cbn in Q, L. destruct dec as [[]|]; try discriminate L. injection L as <-. auto.
  - apply in_map_iff in I as (b & <- & I). rewrite going_name in Q. apply going_goes in L as (dst0 & L & ->). right. right. left. exists dst0. split; [|reflexivity]. eapply goes_block; [split; [exact I|exact Q]|exact L].
  - cbn in Q, L. auto.
Qed.

Lemma inner_back : forall t id d, walk g id t d -> used h id ->
  (exists j, d = Some j /\ walk h id t (Some j)) \/ exists t1 t2, t = t1 ++ t2 /\ walk h id t1 None /\ walk g n t2 d.
Proof.
  induction t as [|e t IH]; intros id d W H; destruct (walk_inv _ _ _ _ W) as [[Q ->]|(dec & dst & t1 & Q & G & R)]; try discriminate Q.
  - left. exists id. split; [reflexivity|constructor].
  - injection Q as -> ->. destruct (goes_cases _ _ _ G) as [[F _]|[[-> _]|[(dst0 & F & ->)|[-> _]]]].
    + destruct (D id (proj1 (goes_used _ _ _ _ F)) H).
    + destruct (D c cut_used H).
    + destruct dst0 as [j|]; cbn in R.
      * destruct (IH j d R (proj2 (goes_used _ _ _ _ F) j eq_refl)) as [(k & -> & V)|(u & v & -> & V1 & V2)].
        -- left. exists k. split; [reflexivity|]. exact (walk_goes _ _ _ _ _ _ F V).
        -- right. exists ((id, dec) :: u), v. split; [reflexivity|]. split; [|exact V2]. exact (walk_goes _ _ _ _ _ _ F V1).
      * right. exists [(id, dec)], t1. split; [reflexivity|]. split; [|exact R]. exact (walk_goes h _ _ None _ _ F (conj eq_refl eq_refl)).
    + destruct (Nh H).
Qed.
Lemma inner_there : forall t id d, walk h id t d -> forall t2 d2, (d = None -> walk g n t2 d2) -> (forall j, d = Some j -> t2 = [] /\ d2 = Some j) -> walk g id (t ++ t2) d2.
Proof.
  induction t as [|e t IH]; intros id d W t2 d2 X Y; destruct (walk_inv _ _ _ _ W) as [[Q ->]|(dec & dst & t1 & Q & G & R)]; try discriminate Q.
  - destruct (Y id eq_refl) as [-> ->]. constructor.
  - injection Q as -> ->. cbn. apply (walk_goes g id dec (onward dst)); [apply inner_goes; exact G|]. destruct dst as [j|]; cbn in *; [exact (IH j d R t2 d2 X Y)|]. destruct R as [-> ->]. exact (X eq_refl).
Qed.
Lemma inlined_forth : forall t t', with_inlined h c n t t' -> forall id d, walk f id t d -> walk g id t' d.
Proof.
  intros t t' X. induction X as [|e t t' Ne X IH|dec inner t t' (s & Es & Wi) X IH]; intros id d W; destruct (walk_inv _ _ _ _ W) as [[Q ->]|(dec' & dst & t1 & Q & G & R)]; try discriminate Q.
  - constructor.
  - injection Q as -> ->. cbn in Ne. apply (walk_goes g id dec' dst); [apply others_go; assumption|]. destruct dst as [j|]; cbn in *; [exact (IH j d R)|]. destruct R as [-> ->]. inversion X. auto.
  - injection Q as <- <- <-. assert (s = start) as -> by (destruct Es as (b & r & Q1 & <-), Eh as (b' & r' & Q2 & <-); congruence).
    apply (walk_goes g c None (Some start)); [exact first_goes|]. cbn. apply (inner_there inner start None Wi); [|discriminate]. intros _.
    apply (walk_goes g n dec dst); [apply second_goes; apply cut_goes; exact G|]. destruct dst as [j|]; cbn in *; [exact (IH j d R)|]. destruct R as [-> ->]. inversion X. auto.
Qed.
Lemma inlined_back : forall k t' id d, (length t' <= k)%nat -> walk g id t' d -> used f id ->
  (exists t, walk f id t d /\ with_inlined h c n t t')
  \/ exists t t1 th, walk f id t (Some c) /\ with_inlined h c n t t1 /\ t' = t1 ++ (c, None) :: th /\ (walk h start th None /\ d = Some n \/ exists j, d = Some j /\ walk h start th (Some j)).
Proof.
  induction k as [|k IH]; intros t' id d Le W H; destruct (walk_inv _ _ _ _ W) as [[-> ->]|(dec & dst & t1 & -> & G & R)]; cbn in Le; try lia.
  1,2: left; exists []; split; constructor.
  destruct (goes_cases _ _ _ G) as [[F Ne]|[(-> & -> & ->)|[(dst0 & F & ->)|[-> _]]]].
  - destruct dst as [j|]; cbn in R.
    + destruct (IH t1 j d ltac:(lia) R (proj2 (goes_used _ _ _ _ F) j eq_refl)) as [(t & V & X)|(t & u & th & V & X & -> & Y)].
      * left. exists ((id, dec) :: t). split; [exact (walk_goes _ _ _ _ _ _ F V)|]. constructor; [exact Ne|exact X].
      * right. exists ((id, dec) :: t), ((id, dec) :: u), th. split; [exact (walk_goes _ _ _ _ _ _ F V)|]. split; [constructor; [exact Ne|exact X]|]. split; [reflexivity|exact Y].
    + destruct R as [-> ->]. left. exists [(id, dec)]. split; [exact (walk_goes f _ _ None _ _ F (conj eq_refl eq_refl))|]. constructor; [exact Ne|constructor].
  - cbn in R. destruct (inner_back _ _ _ R start_used) as [(j & -> & V)|(th & t2 & -> & V1 & V2)].
    + right. exists [], [], t1. split; [constructor|]. split; [constructor|]. split; [reflexivity|]. right. exists j. auto.
    + destruct (walk_inv _ _ _ _ V2) as [[-> ->]|(dec2 & dst2 & t3 & -> & G2 & R2)].
      * right. exists [], [], th. split; [constructor|]. split; [constructor|]. split; [rewrite app_nil_r; reflexivity|]. left. auto.
      * assert (L : leads (BasicBlock_branch cut) dec2 = Some dst2).
        { destruct (goes_cases _ _ _ G2) as [[F _]|[[Q _]|[(dst0 & F & _)|[_ L]]]]; [destruct (Nf (proj1 (goes_used _ _ _ _ F)))| |destruct (Nh (proj1 (goes_used _ _ _ _ F)))|exact L].
          destruct Nf. rewrite Q. exact cut_used. }
        pose proof (proj2 (cut_goes dec2 dst2) L) as F. assert (C : complete_run h th) by (exists start; auto). rewrite app_length in Le. cbn in Le. destruct dst2 as [j|]; cbn in R2.
        -- destruct (IH t3 j d ltac:(lia) R2 (proj2 (goes_used _ _ _ _ F) j eq_refl)) as [(t & V & X)|(t & u & th2 & V & X & -> & Y)].
           ++ left. exists ((c, dec2) :: t). split; [exact (walk_goes _ _ _ _ _ _ F V)|]. constructor; [exact C|exact X].
           ++ right. exists ((c, dec2) :: t), ((c, None) :: th ++ (n, dec2) :: u), th2. split; [exact (walk_goes _ _ _ _ _ _ F V)|]. split; [constructor; [exact C|exact X]|].
              split; [cbn; rewrite <- app_assoc; reflexivity|exact Y].
        -- destruct R2 as [-> ->]. left. exists [(c, dec2)]. split; [exact (walk_goes f _ _ None _ _ F (conj eq_refl eq_refl))|]. constructor; [exact C|constructor].
  - destruct (D id H (proj1 (goes_used _ _ _ _ F))).
  - destruct (Nf H).
Qed.
Lemma same_entry : forall id, entry g id <-> entry f id.
Proof.
  intros id. assert (X : exists x y l l', FunctionDefinition_blocks f = x :: l /\ FunctionDefinition_blocks g = y :: l' /\ label_of x = label_of y).
  { destruct (FunctionDefinition_blocks g) as [|y l'] eqn:Q; [destruct before; discriminate Bg|]. rewrite Bf. destruct before as [|x l]; cbn in Bg; injection Bg; intros; eexists _, _, _, _; (split; [reflexivity|split; [reflexivity|congruence]]). }
  destruct X as (x & y & l & l' & Q1 & Q2 & Q3). unfold entry. rewrite Q1, Q2. split; intros (b & r & Q & <-); injection Q as <- <-; eexists _, _; split; eauto.
Qed.
Lemma entry_used : forall id, entry f id -> used f id. Proof. intros id (b & r & Q & <-). exists b. split; [rewrite Q; cbn; auto|auto]. Qed.
Lemma inlined_complete : forall t', complete_run g t' <-> exists t, complete_run f t /\ with_inlined h c n t t'.
Proof.
  intros t'. split.
  - intros (id & En & W). apply same_entry in En. destruct (inlined_back _ _ _ _ (le_n _) W (entry_used _ En)) as [(t & V & X)|(? & ? & ? & _ & _ & _ & [[_ Q]|(j & Q & _)])]; [|discriminate Q..].
    exists t. split; [exists id; auto|exact X].
  - intros (t & (id & En & W) & X). exists id. split; [apply same_entry; exact En|]. exact (inlined_forth _ _ X _ _ W).
Qed.
Lemma inlined_unfinished : forall t', unfinished_run g t' <-> (exists t, unfinished_run f t /\ with_inlined h c n t t')
  \/ exists t t1 inner, gets_to f t c /\ with_inlined h c n t t1 /\ (unfinished_run h inner \/ complete_run h inner) /\ t' = t1 ++ (c, None) :: inner.
Proof.
  intros t'. split.
  - intros (id & j & En & W). apply same_entry in En. destruct (inlined_back _ _ _ _ (le_n _) W (entry_used _ En)) as [(t & V & X)|(t & t1 & th & V & X & -> & Y)].
    + left. exists t. split; [exists id, j; auto|exact X].
    + right. exists t, t1, th. split; [exists id; auto|]. split; [exact X|]. split; [|reflexivity]. destruct Y as [[Y _]|(k & _ & Y)]; [right; exists start; auto|left; exists start, k; auto].
  - intros [(t & (id & j & En & W) & X)|(t & t1 & th & (id & En & W) & X & Y & ->)].
    + exists id, j. split; [apply same_entry; exact En|]. exact (inlined_forth _ _ X _ _ W).
    + assert (Z : exists j, walk g start th (Some j)).
      { assert (K : forall s, entry h s -> s = start) by (intros s (b & r & Q1 & <-); destruct Eh as (b' & r' & Q2 & <-); congruence).
        destruct Y as [(s & j & Es & Y)|(s & Es & Y)]; rewrite (K s Es) in Y; [exists j|exists n]; rewrite <- (app_nil_r th); apply (inner_there th start _ Y).
        - discriminate.
        - intros k Q. injection Q as <-. auto.
        - intros _. constructor.
        - discriminate. }
      destruct Z as (j & Z). exists id, j. split; [apply same_entry; exact En|]. apply (walk_more g id t1 c (inlined_forth _ _ X _ _ W)). exact (walk_goes g _ _ (Some start) _ _ first_goes Z).
Qed.
End Inlined.

Theorem inlined_executions : forall E (f h g : FunctionDefinition E) cut n, inlined_at f h g cut n -> NoDup (labels f) ->
  forall t', complete_run g t' <-> exists t, complete_run f t /\ with_inlined h (label_of cut) n t t'.
Proof. intros E f h g cut n (before & after & start & Bf & Eh & Bg & Nf & Nh & D) U. exact (inlined_complete f h g cut n start before after Bf Eh Bg Nf Nh D U). Qed.
Theorem inlined_unfinished_executions : forall E (f h g : FunctionDefinition E) cut n, inlined_at f h g cut n -> NoDup (labels f) ->
  forall t', unfinished_run g t' <-> (exists t, unfinished_run f t /\ with_inlined h (label_of cut) n t t')
  \/ exists t t1 inner, gets_to f t (label_of cut) /\ with_inlined h (label_of cut) n t t1 /\ (unfinished_run h inner \/ complete_run h inner) /\ t' = t1 ++ (label_of cut, None) :: inner.
Proof. intros E f h g cut n (before & after & start & Bf & Eh & Bg & Nf & Nh & D) U. exact (inlined_unfinished f h g cut n start before after Bf Eh Bg Nf Nh D U). Qed.
