(** What the instructions of a function with another one inlined do, C139. *)
From Coq Require Import Lia Permutation.
From Verif Require Import Base Types Ops Groups ExtSet Reader ControlFlow Spec_Layout Spec_Flow Spec_Inline Spec_Machine Spec_Rewrite Spec_Inlined
  Proofs_Flow Proofs_Flow2 Proofs_Machine Proofs_Rewrite Proofs_Rewrite2 Proofs_Inlined.

Section Work.
Context {E : Type} (called : list (action E) -> Prop) (c n : BlockId) (code1 : list (GroupCode E)).
Notation does := (map (fun i => Does (core_of_code i))).
Lemma work_prefix : forall l a a', Forall (fun x => x <> Enters c) l -> with_work called c n code1 a a' -> with_work called c n code1 (l ++ a) (l ++ a').
Proof. intros l a a' F W. induction F as [|x l Nx F IH]; [exact W|]. cbn. apply work_other; [exact Nx|exact IH]. Qed.
Lemma work_prefix_inv : forall l a a', Forall (fun x => x <> Enters c) l -> with_work called c n code1 (l ++ a) a' -> exists a1, a' = l ++ a1 /\ with_work called c n code1 a a1.
Proof.
  intros l a a' F. revert a'. induction F as [|x l Nx F IH]; intros a' W; [exists a'; auto|]. cbn in W. inversion W as [|y b b' Ny W1|inner b b' C W1]; subst.
  - destruct (IH _ W1) as (a1 & -> & W2). exists a1. auto.
  - destruct Nx. reflexivity.
Qed.
Lemma work_there_inv : forall a a', with_work called c n code1 (Enters c :: does code1 ++ a) a' -> exists inner a1, called inner /\ with_work called c n code1 a a1 /\ a' = Enters c :: does code1 ++ inner ++ Enters n :: a1.
Proof.
  intros a a' W. inversion W as [|y b b' Ny W1|inner b b' C W1 Q]; subst.
  - destruct Ny. reflexivity.
  - apply app_inv_head in Q. subst b. exists inner, b'. auto.
Qed.
Lemma does_quiet : forall code, Forall (fun x : action E => x <> Enters c) (does code).
Proof. intros code. apply Forall_forall. intros x I. apply in_map_iff in I as (i & <- & _). discriminate. Qed.
End Work.

Section Begun.
Context {E : Type} (called begun : list (action E) -> Prop) (c n : BlockId) (code1 : list (GroupCode E)).
Context (Pre : forall a r, called (a ++ r) -> begun a) (Pre2 : forall a r, begun (a ++ r) -> begun a).
Notation does := (map (fun i => Does (core_of_code i))).
Notation W := (with_work_begun called begun c n code1).
Lemma work_begun : forall a a', with_work called c n code1 a a' -> W a a'.
Proof. intros a a' X. induction X; [apply begun_nothing|apply begun_other; assumption|apply begun_there; assumption]. Qed.
Lemma begun_prefix : forall l a a', Forall (fun x => x <> Enters c) l -> W a a' -> W (l ++ a) (l ++ a').
Proof. intros l a a' F X. induction F as [|x l Nx F IH]; [exact X|]. cbn. apply begun_other; [exact Nx|exact IH]. Qed.
Lemma begun_prefix_inv : forall l a a', Forall (fun x => x <> Enters c) l -> W (l ++ a) a' -> exists a1, a' = l ++ a1 /\ W a a1.
Proof.
  intros l a a' F. revert a'. induction F as [|x l Nx F IH]; intros a' X; [exists a'; auto|]. cbn in X. inversion X as [|y b b' Ny X1|inner b b' C X1|s m0 Q|inner C]; subst; try (destruct Nx; reflexivity).
  destruct (IH _ X1) as (a1 & -> & X2). exists a1. auto.
Qed.
Lemma begun_quiet : forall l a', Forall (fun x => x <> Enters c) l -> W l a' -> a' = l.
Proof. intros l a' F X. rewrite <- (app_nil_r l) in X. apply begun_prefix_inv in X as (a1 & -> & X); [|exact F]. inversion X. apply app_nil_r. Qed.
Lemma app_two : forall (A : Type) (a b x y : list A), a ++ b = x ++ y -> (exists z, x = a ++ z /\ b = z ++ y) \/ (exists z, a = x ++ z /\ y = z ++ b).
Proof.
  intros A. induction a as [|e a IH]; intros b x y Q; [left; exists x; auto|]. destruct x as [|e' x]; [right; exists (e :: a); auto|]. injection Q as <- Q. destruct (IH _ _ _ Q) as [(z & -> & ->)|(z & -> & ->)]; [left|right]; exists z; auto.
Qed.
Lemma does_prefix : forall (code : list (GroupCode E)) (l z : list (action E)), does code = l ++ z -> exists some more, code = some ++ more /\ l = does some.
Proof.
  induction code as [|i code IH]; intros l z Q; cbn in Q.
  - symmetry in Q. apply app_eq_nil in Q as [-> ->]. exists [], []. auto.
  - destruct l as [|x l]; [exists [], (i :: code); auto|]. injection Q as <- Q. destruct (IH _ _ Q) as (s & m & -> & ->). exists (i :: s), m. auto.
Qed.
Lemma begun_cut : forall A B, W A B -> forall a' r, B = a' ++ r -> exists a s, A = a ++ s /\ W a a'.
Proof.
  intros A B X. induction X as [|x a b Nx X IH|inner a b C X IH|s m0 Q0|inner C]; intros a' r Q.
  - symmetry in Q. apply app_eq_nil in Q as [-> ->]. exists [], []. split; [reflexivity|apply begun_nothing].
  - destruct a' as [|y a']; [exists [], (x :: a); split; [reflexivity|apply begun_nothing]|]. injection Q as <- Q. destruct (IH _ _ Q) as (a1 & s & -> & Y). exists (x :: a1), s. split; [reflexivity|apply begun_other; assumption].
  - destruct a' as [|y a']; [eexists [], _; split; [reflexivity|apply begun_nothing]|]. injection Q as <- Q. symmetry in Q. apply app_two in Q as [(z & Q & _)|(z & -> & Q)].
    + destruct (does_prefix _ _ _ Q) as (s & m0 & -> & ->). exists (Enters c :: does s), (does m0 ++ a). split; [cbn; rewrite map_app, <- app_assoc; reflexivity|]. eapply begun_before. reflexivity.
    + symmetry in Q. apply app_two in Q as [(z2 & -> & _)|(z2 & -> & Q)].
      * exists (Enters c :: does code1), a. split; [reflexivity|]. apply begun_inside. exact (Pre _ _ C).
      * destruct z2 as [|y z2].
        -- exists (Enters c :: does code1), a. split; [reflexivity|]. rewrite app_nil_r. apply begun_inside. apply (Pre inner []). rewrite app_nil_r. exact C.
        -- injection Q as <- Q. destruct (IH _ _ Q) as (a1 & s & -> & Y). exists (Enters c :: does code1 ++ a1), s. split; [cbn; rewrite <- app_assoc; reflexivity|]. apply begun_there; assumption.
  - destruct a' as [|y a']; [eexists [], _; split; [reflexivity|apply begun_nothing]|]. injection Q as <- Q. destruct (does_prefix _ _ _ Q) as (s1 & m1 & -> & ->).
    exists (Enters c :: does s1), (does m1). split; [cbn; rewrite map_app; reflexivity|]. eapply begun_before. rewrite Q0, <- app_assoc. reflexivity.
  - destruct a' as [|y a']; [eexists [], _; split; [reflexivity|apply begun_nothing]|]. injection Q as <- Q. symmetry in Q. apply app_two in Q as [(z & Q & _)|(z & -> & ->)].
    + destruct (does_prefix _ _ _ Q) as (s1 & m1 & -> & ->). exists (Enters c :: does s1), (does m1). split; [cbn; rewrite map_app; reflexivity|]. eapply begun_before. reflexivity.
    + exists (Enters c :: does code1), []. split; [rewrite app_nil_r; reflexivity|]. apply begun_inside. exact (Pre2 _ _ C).
Qed.
Lemma begun_after : forall A A', with_work called c n code1 A A' -> forall inner, begun inner -> W (A ++ Enters c :: does code1) (A' ++ Enters c :: does code1 ++ inner).
Proof.
  intros A A' X inner C. induction X as [|x a a' Nx X IH|i a a' Ci X IH]; cbn.
  - apply begun_inside. exact C.
  - apply begun_other; assumption.
  - rewrite <- !app_assoc. cbn. apply begun_there; assumption.
Qed.
Lemma begun_enters : forall a r Z a', a ++ r = Enters c :: does code1 ++ Z -> W a a' ->
  a = [] /\ a' = []
  \/ (exists some more, code1 = some ++ more /\ a = Enters c :: does some /\ a' = Enters c :: does some)
  \/ (exists inner, begun inner /\ a = Enters c :: does code1 /\ a' = Enters c :: does code1 ++ inner)
  \/ (exists inner a2 a2', called inner /\ W a2 a2' /\ a2 ++ r = Z /\ a' = Enters c :: does code1 ++ inner ++ Enters n :: a2').
Proof.
  intros a r Z a' Q X. inversion X as [|y b b' Ny X1|inner b b' C X1|s m0 Q0|inner C]; subst.
  - auto.
  - injection Q as -> _. destruct Ny. reflexivity.
  - right. right. right. exists inner, b, b'. split; [exact C|]. split; [exact X1|]. split; [|reflexivity]. cbn in Q. injection Q as Q. rewrite <- app_assoc in Q. exact (app_inv_head _ _ _ Q).
  - right. left. exists s, m0. auto.
  - right. right. left. exists inner. auto.
Qed.
End Begun.

Section Inlined.
Context {E : Type} (f h g : FunctionDefinition E) (cut : BasicBlock E) (n start : BlockId) (before after : list (BasicBlock E)) (code1 code2 : list (GroupCode E)).
Context (Bf : FunctionDefinition_blocks f = before ++ cut :: after) (Code : BasicBlock_code cut = code1 ++ code2) (Eh : entry h start).
Notation first := (Build_BasicBlock (BasicBlock_label cut) code1 None (GroupBranch_OpBranch (Build_OpBranch start))).
Notation second := (Build_BasicBlock (Build_OpLabel n) code2 (BasicBlock_merge cut) (BasicBlock_branch cut)).
Context (Bg : FunctionDefinition_blocks g = before ++ first :: map (going_on_block n) (FunctionDefinition_blocks h) ++ second :: after).
Context (Nf : ~ used f n) (Nh : ~ used h n) (D : forall id, used f id -> ~ used h id) (U : NoDup (labels f)) (Uh : NoDup (labels h)).
Context (EX : forall j, reachable f j -> exists b, has_block f j b) (EXh : forall j, reachable h j -> exists b, has_block h j b).
Notation c := (label_of cut).
Notation does := (map (fun i => Does (core_of_code i))).

Lemma going_skeleton : forall b : BasicBlock E, skeleton (going_on_block n b) = going_on n b.
Proof. intros b. unfold going_on_block, going_on. destruct (BasicBlock_branch b) eqn:B; reflexivity. Qed.
Lemma going_label : forall b : BasicBlock E, label_of (going_on_block n b) = label_of b.
Proof. intros b. unfold going_on_block. destruct (BasicBlock_branch b) eqn:B; reflexivity. Qed.
Lemma going_actions : forall (b : BasicBlock E) dec, block_actions (going_on_block n b) dec = block_actions b dec.
Proof. intros b dec. unfold going_on_block, block_actions. destruct (BasicBlock_branch b) eqn:B; try (rewrite B; reflexivity). reflexivity. Qed.
Lemma g_skeletons : map skeleton (FunctionDefinition_blocks g) = map skeleton before ++ (c, None, GroupBranch_OpBranch (Build_OpBranch start))
  :: map (going_on n) (FunctionDefinition_blocks h) ++ (n, BasicBlock_merge cut, BasicBlock_branch cut) :: map skeleton after.
Proof. rewrite Bg. rewrite map_app. cbn [map]. rewrite map_app, map_map. cbn [map]. rewrite (map_ext _ _ going_skeleton). reflexivity. Qed.
Lemma is_inlined : inlined_at f h g cut n.
Proof. exists before, after, start. split; [exact Bf|]. split; [exact Eh|]. split; [exact g_skeletons|auto]. Qed.
Lemma block_used : forall (x : FunctionDefinition E) id b, has_block x id b -> used x id. Proof. intros x id b [I <-]. exists b. auto. Qed.
Lemma c_used : used f c. Proof. exists cut. split; [rewrite Bf; apply in_or_app; cbn; auto|auto]. Qed.
Lemma cut_in : has_block f c cut. Proof. split; [rewrite Bf; apply in_or_app; right; left; reflexivity|reflexivity]. Qed.
Lemma g_first : has_block g c first. Proof. split; [rewrite Bg; apply in_or_app; right; left; reflexivity|reflexivity]. Qed.
Lemma g_second : has_block g n second. Proof. split; [rewrite Bg; apply in_or_app; right; right; apply in_or_app; right; left; reflexivity|reflexivity]. Qed.
Lemma f_to_g : forall id x, has_block f id x -> id <> c -> has_block g id x.
Proof.
  intros id x [I <-] N. split; [|reflexivity]. rewrite Bf in I. rewrite Bg. apply in_or_app. apply in_app_iff in I as [I|[<-|I]]; [left; exact I|destruct N; reflexivity|right; right; apply in_or_app; right; right; exact I].
Qed.
Lemma h_to_g : forall id x, has_block h id x -> has_block g id (going_on_block n x).
Proof. intros id x [I <-]. split; [|apply going_label]. rewrite Bg. apply in_or_app. right. right. apply in_or_app. left. apply in_map. exact I. Qed.
Lemma g_cases : forall id x, has_block g id x -> (id = c /\ x = first) \/ (id = n /\ x = second) \/ (has_block f id x /\ id <> c) \/ (exists y, has_block h id y /\ x = going_on_block n y).
Proof.
  intros id x [I <-]. rewrite Bg in I. assert (X : In x (before ++ after) -> has_block f (label_of x) x /\ label_of x <> c).
  { intros J. unfold labels in U. rewrite Bf, map_app in U. cbn [map] in U. split.
    - split; [|reflexivity]. rewrite Bf. apply in_app_iff in J as [J|J]; apply in_or_app; [left|right; right]; exact J.
    - intros Q. apply NoDup_remove_2 in U. rewrite <- map_app, <- Q in U. apply U. apply in_map. exact J. }
  apply in_app_iff in I as [I|[<-|I]].
  - right. right. left. apply X. apply in_or_app. auto.
  - left. auto.
  - apply in_app_iff in I as [I|[<-|I]].
    + right. right. right. apply in_map_iff in I as (y & <- & I). exists y. split; [split; [exact I|symmetry; apply going_label]|reflexivity].
    + right. left. auto.
    + right. right. left. apply X. apply in_or_app. auto.
Qed.
Lemma f_only : forall x, has_block f c x -> x = cut. Proof. intros x H. eapply one_block; [exact U|exact H|exact cut_in]. Qed.
Lemma c_not_n : c <> n. Proof. intros Q. apply Nf. rewrite <- Q. exact c_used. Qed.
Lemma g_at_c : forall x, has_block g c x -> x = first.
Proof.
  intros x H. apply g_cases in H as [[_ ->]|[[Q _]|[[_ N]|(y & H & _)]]]; [reflexivity|destruct (c_not_n Q)|destruct N; reflexivity|]. destruct (D c c_used (block_used _ _ _ H)).
Qed.
Lemma g_at_n : forall x, has_block g n x -> x = second.
Proof.
  intros x H. apply g_cases in H as [[Q _]|[[_ ->]|[[H _]|(y & H & _)]]]; [destruct (c_not_n (eq_sym Q))|reflexivity|destruct (Nf (block_used _ _ _ H))|destruct (Nh (block_used _ _ _ H))].
Qed.
Lemma g_at_f : forall id x, has_block g id x -> used f id -> id <> c -> has_block f id x.
Proof. intros id x H V N. apply g_cases in H as [[Q _]|[[-> _]|[[H _]|(y & H & _)]]]; [destruct (N Q)|destruct (Nf V)|exact H|destruct (D _ V (block_used _ _ _ H))]. Qed.
Lemma g_at_h : forall id x, has_block g id x -> used h id -> exists y, has_block h id y /\ x = going_on_block n y.
Proof. intros id x H V. apply g_cases in H as [[-> _]|[[-> _]|[[H _]|H]]]; [destruct (D _ c_used V)|destruct (Nh V)|destruct (D _ (block_used _ _ _ H) V)|exact H]. Qed.

Lemma walk_used : forall (x : FunctionDefinition E) id t d, walk x id t d -> Forall (fun e => used x (fst e)) t.
Proof.
  intros x. apply (walk_steps x (fun id t d => Forall (fun e => used x (fst e)) t)).
  - constructor.
  - intros id y dec H L. constructor; [exact (block_used _ _ _ H)|constructor].
  - intros id y dec j t d H L IH. constructor; [exact (block_used _ _ _ H)|exact IH].
Qed.
Lemma performs_inner : forall t a, performs h t a -> performs g t a.
Proof. intros t a P. induction P as [|id b dec t a H P IH]; [constructor|]. rewrite <- going_actions. apply performs_block; [apply h_to_g; exact H|exact IH]. Qed.
Lemma performs_outer : forall t a, performs g t a -> Forall (fun e => used h (fst e)) t -> performs h t a.
Proof.
  intros t a P. induction P as [|id b dec t a H P IH]; intros F; [constructor|]. inversion F as [|? ? V F']; subst. destruct (g_at_h _ _ H V) as (y & Hy & ->). rewrite going_actions. apply performs_block; [exact Hy|exact (IH F')].
Qed.
Definition decided (dec : option bool) : list (action E) :=
  match BasicBlock_branch cut, dec with GroupBranch_OpBranchConditional op, Some holds => [Decides (OpBranchConditional_condition op) holds] | _, _ => [] end.
Lemma cut_actions : forall dec, block_actions cut dec = Enters c :: does code1 ++ does code2 ++ decided dec.
Proof. intros dec. unfold block_actions. rewrite Code, map_app, <- app_assoc. reflexivity. Qed.
Lemma first_actions : block_actions first None = Enters c :: does code1. Proof. unfold block_actions. cbn. rewrite app_nil_r. reflexivity. Qed.
Lemma second_actions : forall dec, block_actions second dec = Enters n :: does code2 ++ decided dec. Proof. reflexivity. Qed.
Lemma rest_quiet : forall dec, Forall (fun x : action E => x <> Enters c) (does code2 ++ decided dec).
Proof. intros dec. apply Forall_app. split; [apply does_quiet|]. unfold decided. destruct (BasicBlock_branch cut), dec; repeat constructor; discriminate. Qed.
Lemma other_quiet : forall (x : BasicBlock E) dec, label_of x <> c -> Forall (fun y : action E => y <> Enters c) (block_actions x dec).
Proof.
  intros x dec N. unfold block_actions. constructor; [intros Q; injection Q as Q; exact (N Q)|]. apply Forall_app. split; [apply does_quiet|]. destruct (BasicBlock_branch x), dec; repeat constructor; discriminate.
Qed.

Definition inner_work (a : list (action E)) : Prop := exists t, complete_run h t /\ performs h t a.
Lemma work_back : forall t t', with_inlined h c n t t' -> Forall (fun e => used f (fst e)) t -> forall a', performs g t' a' -> exists a, performs f t a /\ with_work inner_work c n code1 a a'.
Proof.
  intros t t' X. induction X as [|[id dec] t t' Ne X IH|dec inner t t' C X IH]; intros F a' P.
  - inversion P; subst. exists []. split; constructor.
  - cbn in Ne. inversion F as [|? ? V F']; subst. inversion P as [|i x d s b H P1]; subst. destruct (IH F' _ P1) as (a & Pa & W). pose proof (g_at_f _ _ H V Ne) as Hf.
    exists (block_actions x dec ++ a). split; [apply performs_block; assumption|]. apply work_prefix; [|exact W]. apply other_quiet. rewrite (proj2 Hf). exact Ne.
  - inversion F as [|? ? V F']; subst. inversion P as [|i x d s b H P1]; subst. apply performs_inv in P1 as (ai & a2 & -> & Pi & P2). inversion P2 as [|i x2 d s b2 H2 P3]; subst.
    destruct (IH F' _ P3) as (a & Pa & W). rewrite (g_at_c _ H), (g_at_n _ H2), first_actions, second_actions. exists (block_actions cut dec ++ a). split; [apply performs_block; [exact cut_in|exact Pa]|].
    rewrite cut_actions. cbn [app]. rewrite <- app_assoc. apply work_there.
    + exists inner. split; [exact C|]. apply performs_outer; [exact Pi|]. destruct C as (s & _ & W0). exact (walk_used _ _ _ _ W0).
    + apply work_prefix; [apply rest_quiet|exact W].
Qed.
Lemma work_forth : forall t a, performs f t a -> forall a', with_work inner_work c n code1 a a' -> exists t', with_inlined h c n t t' /\ performs g t' a'.
Proof.
  intros t a P. induction P as [|id x dec t a H P IH]; intros a' W.
  - inversion W; subst. exists []. split; constructor.
  - destruct (N.eq_dec id c) as [->|Ne].
    + rewrite (f_only _ H), cut_actions in W. cbn [app] in W. rewrite <- app_assoc in W. apply work_there_inv in W as (inner & a1 & (ti & Ci & Pi) & W & ->).
      apply work_prefix_inv in W as (a2 & -> & W); [|apply rest_quiet]. destruct (IH _ W) as (t' & X & P'). exists ((c, None) :: ti ++ (n, dec) :: t'). split; [apply inlined_there; assumption|].
      match goal with |- performs g ?t (?x :: ?l ++ ?r) => change (performs g t ((x :: l) ++ r)) end. rewrite <- first_actions. apply performs_block; [exact g_first|]. apply performs_app; [apply performs_inner; exact Pi|].
      match goal with |- performs g ?t (?x :: ?l ++ ?r) => change (performs g t ((x :: l) ++ r)) end. rewrite <- second_actions. apply performs_block; [exact g_second|exact P'].
    + apply work_prefix_inv in W as (a1 & -> & W); [|apply other_quiet; rewrite (proj2 H); exact Ne]. destruct (IH _ W) as (t' & X & P'). exists ((id, dec) :: t'). split; [apply inlined_other; assumption|].
      apply performs_block; [apply f_to_g; assumption|exact P'].
Qed.

Definition inner_begun (a : list (action E)) : Prop := exists t r, (complete_run h t \/ unfinished_run h t) /\ performs h t (a ++ r).
Lemma begun_forth : forall t id d, walk f id t d -> forall A, performs f t A -> forall a r a', A = a ++ r -> with_work_begun inner_work inner_begun c n code1 a a' ->
  exists t' d' r', walk g id t' d' /\ performs g t' (a' ++ r').
Proof.
  assert (G0 : forall id, exists t' d' r', walk g id t' d' /\ performs g t' ([] ++ r')) by (intros id; exists [], (Some id), []; split; constructor).
  induction t as [|e t IH]; intros id d V A P a r a' Q X; destruct (walk_inv _ _ _ _ V) as [[Y ->]|(dec & dst & t1 & Y & G & R)]; try discriminate Y.
  - inversion P; subst. destruct a; [|match goal with H : [] = _ |- _ => discriminate H | H : _ = [] |- _ => discriminate H end]. inversion X; subst. apply G0.
  - injection Y as -> ->. inversion P as [|i x d1 s A0 H P1]; subst. assert (H2 : a ++ r = block_actions x dec ++ A0) by (first [assumption|symmetry; assumption]). destruct (N.eq_dec id c) as [->|Ne].
    + rewrite (f_only _ H), cut_actions in H2. cbn [app] in H2. rewrite <- app_assoc in H2. pose proof (proj1 (cut_goes f h g cut n start before after Bf g_skeletons U _ _) G) as L.
      assert (Es : forall s, entry h s -> s = start) by (intros s (b & r0 & Q1 & <-); destruct Eh as (b' & r' & Q2 & <-); congruence).
      destruct (begun_enters _ _ _ _ _ _ _ _ _ H2 X) as [[-> ->]|[(s & m0 & Q & -> & ->)|[(inner & (ti & ri & Ci & Pi) & -> & ->)|(inner & a2 & a2' & (ti & Ci & Pi) & X2 & Q & ->)]]].
      * apply G0.
      * exists [(c, None)], (Some start), (does m0). split; [exact (walk_goes g c None (Some start) [] _ (first_goes h g cut n start before after g_skeletons) (walk_here g start))|].
        cbn. rewrite <- map_app, <- Q. rewrite <- (app_nil_r (does code1)). rewrite app_comm_cons. rewrite <- first_actions. apply performs_block; [exact g_first|constructor].
      * assert (Z : exists j, walk g start ti (Some j)).
        { destruct Ci as [(s & En & W)|(s & j & En & W)]; rewrite (Es s En) in W; [exists n|exists j]; rewrite <- (app_nil_r ti).
          - apply (inner_there h g cut n start before after g_skeletons ti start None W); [intros _; constructor|discriminate].
          - apply (inner_there h g cut n start before after g_skeletons ti start (Some j) W); [discriminate|intros k K; injection K as <-; auto]. }
        destruct Z as (j & Z). exists ((c, None) :: ti), (Some j), ri. split; [exact (walk_goes g c None (Some start) ti _ (first_goes h g cut n start before after g_skeletons) Z)|].
        cbn. rewrite <- app_assoc. match goal with |- performs g ?t (?x :: ?l ++ ?r) => change (performs g t ((x :: l) ++ r)) end. rewrite <- first_actions. apply performs_block; [exact g_first|apply performs_inner; exact Pi].
      * assert (T : exists t' d' r', walk g n ((n, dec) :: t') d' /\ performs g ((n, dec) :: t') (Enters n :: a2' ++ r')).
        { pose proof (second_goes h g cut n start before after g_skeletons dec dst L) as G2. apply app_two in Q as [(z & Q & _)|(z & -> & Q)].
          - assert (F : Forall (fun x : action E => x <> Enters c) a2) by (pose proof (rest_quiet dec) as F; rewrite Q in F; apply Forall_app in F as [F _]; exact F).
            rewrite (begun_quiet _ _ _ _ _ _ _ F X2). exists [], dst, z. split.
            + destruct dst as [j|]; [exact (walk_goes g n dec (Some j) [] (Some j) G2 (walk_here g j))|exact (walk_goes g n dec None [] None G2 (conj eq_refl eq_refl))].
            + rewrite <- Q, <- second_actions. rewrite <- (app_nil_r (block_actions second dec)). apply performs_block; [exact g_second|constructor].
          - apply begun_prefix_inv in X2 as (a3 & -> & X3); [|apply rest_quiet]. destruct dst as [j|]; cbn in R.
            + destruct (IH j d R A0 P1 z r a3 Q X3) as (t' & d' & r' & W' & P'). exists t', d', r'. split; [exact (walk_goes g n dec (Some j) t' d' G2 W')|].
              rewrite <- app_assoc. match goal with |- performs g ?t (?x :: ?l ++ ?r) => change (performs g t ((x :: l) ++ r)) end. rewrite <- second_actions. apply performs_block; [exact g_second|exact P'].
            + destruct R as [-> ->]. inversion P1; subst. destruct z; [|match goal with H : [] = _ |- _ => discriminate H | H : _ = [] |- _ => discriminate H end]. inversion X3; subst. exists [], None, []. split; [exact (walk_goes g n dec None [] None G2 (conj eq_refl eq_refl))|].
              rewrite !app_nil_r. rewrite <- second_actions. rewrite <- (app_nil_r (block_actions second dec)). apply performs_block; [exact g_second|constructor]. }
        destruct T as (t' & d' & r' & W' & P'). exists ((c, None) :: ti ++ (n, dec) :: t'), d', r'. split.
        -- apply (walk_goes g c None (Some start)); [exact (first_goes h g cut n start before after g_skeletons)|]. cbn. destruct Ci as (s & En & W). rewrite (Es s En) in W.
           apply (inner_there h g cut n start before after g_skeletons ti start None W); [intros _; exact W'|discriminate].
        -- cbn. rewrite <- !app_assoc. match goal with |- performs g ?t (?x :: ?l ++ ?r) => change (performs g t ((x :: l) ++ r)) end. rewrite <- first_actions. apply performs_block; [exact g_first|].
           apply performs_app; [apply performs_inner; exact Pi|]. exact P'.
    + pose proof (others_go f h g cut n start before after Bf g_skeletons _ _ _ G Ne) as G2. pose proof (f_to_g _ _ H Ne) as Hg. assert (F : Forall (fun y : action E => y <> Enters c) (block_actions x dec)) by (apply other_quiet; rewrite (proj2 H); exact Ne).
      apply app_two in H2 as [(z & Q & _)|(z & -> & Q)].
      * assert (F2 : Forall (fun x : action E => x <> Enters c) a) by (rewrite Q in F; apply Forall_app in F as [F _]; exact F).
        rewrite (begun_quiet _ _ _ _ _ _ _ F2 X). exists [(id, dec)], dst, z. split.
        -- destruct dst as [j|]; [exact (walk_goes g id dec (Some j) [] (Some j) G2 (walk_here g j))|exact (walk_goes g id dec None [] None G2 (conj eq_refl eq_refl))].
        -- rewrite <- Q. rewrite <- (app_nil_r (block_actions x dec)). apply performs_block; [exact Hg|constructor].
      * apply begun_prefix_inv in X as (a3 & -> & X3); [|exact F]. destruct dst as [j|]; cbn in R.
        -- destruct (IH j d R A0 P1 z r a3 Q X3) as (t' & d' & r' & W' & P'). exists ((id, dec) :: t'), d', r'. split; [exact (walk_goes g id dec (Some j) t' d' G2 W')|]. rewrite <- app_assoc. apply performs_block; assumption.
        -- destruct R as [-> ->]. inversion P1; subst. destruct z; [|match goal with H : [] = _ |- _ => discriminate H | H : _ = [] |- _ => discriminate H end]. inversion X3; subst. exists [(id, dec)], None, []. split; [exact (walk_goes g id dec None [] None G2 (conj eq_refl eq_refl))|].
           rewrite !app_nil_r. rewrite <- (app_nil_r (block_actions x dec)). apply performs_block; [exact Hg|constructor].
Qed.
Lemma begun_closed : forall a r, inner_work (a ++ r) -> inner_begun a. Proof. intros a r (t & C & P). exists t, r. auto. Qed.
Lemma begun_closed2 : forall a r, inner_begun (a ++ r) -> inner_begun a. Proof. intros a r (t & s & C & P). exists t, (r ++ s). rewrite app_assoc. auto. Qed.
Lemma begun_back : forall t' a' r, complete_run g t' \/ unfinished_run g t' -> performs g t' (a' ++ r) ->
  exists t a s, (complete_run f t \/ unfinished_run f t) /\ performs f t (a ++ s) /\ with_work_begun inner_work inner_begun c n code1 a a'.
Proof.
  intros t' a' r C P. pose proof (inlined_executions E f h g cut n is_inlined U) as X. pose proof (inlined_unfinished_executions E f h g cut n is_inlined U) as X2.
  assert (Used : forall t, complete_run f t \/ unfinished_run f t -> Forall (fun e => used f (fst e)) t) by (intros t [(i & _ & W)|(i & j & _ & W)]; exact (walk_used _ _ _ _ W)).
  assert (K : (exists t, (complete_run f t \/ unfinished_run f t) /\ with_inlined h c n t t')
    \/ exists t t1 inner, gets_to f t c /\ with_inlined h c n t t1 /\ (unfinished_run h inner \/ complete_run h inner) /\ t' = t1 ++ (c, None) :: inner).
  { destruct C as [C|C]; [apply X in C as (t & C & I); left; exists t; auto|]. apply X2 in C as [(t & C & I)|C]; [left; exists t; auto|right; exact C]. }
  destruct K as [(t & Ct & I)|(t & t1 & inner & (id & En & Wt) & I & Ci & ->)].
  - destruct (work_back _ _ I (Used t Ct) _ P) as (A & PA & W). apply (work_begun _ inner_begun) in W. destruct (begun_cut _ _ _ _ _ begun_closed begun_closed2 _ _ W a' r eq_refl) as (a & s & -> & Y).
    exists t, a, s. auto.
  - apply performs_inv in P as (b1 & b2 & Q & P1 & P2). inversion P2 as [|i x d1 s A0 H P3]; subst. rewrite (g_at_c _ H), first_actions in Q.
    destruct (work_back _ _ I (walk_used _ _ _ _ Wt) _ P1) as (A & PA & W).
    assert (B : inner_begun A0).
    { exists inner, []. split; [destruct Ci; auto|]. rewrite app_nil_r. apply performs_outer; [exact P3|]. destruct Ci as [(s & j & _ & V)|(s & _ & V)]; exact (walk_used _ _ _ _ V). }
    pose proof (begun_after _ _ _ _ _ _ _ W A0 B) as Y. change (Enters c :: does code1 ++ A0) with ((Enters c :: does code1) ++ A0) in Y. rewrite <- Q in Y.
    destruct (begun_cut _ _ _ _ _ begun_closed begun_closed2 _ _ Y a' r eq_refl) as (a & s & Qa & Z).
    assert (L : exists dec dst, leads (BasicBlock_branch cut) dec = Some dst) by (destruct (BasicBlock_branch cut) as [op|op|op]; [exists None|exists (Some true)|exists None]; eexists; reflexivity).
    destruct L as (dec & dst & L). pose proof (proj2 (cut_goes f h g cut n start before after Bf g_skeletons U dec dst) L) as G.
    assert (W2 : walk f c [(c, dec)] dst) by (destruct dst as [j|]; [exact (walk_goes f c dec (Some j) [] _ G (walk_here f j))|exact (walk_goes f c dec None [] None G (conj eq_refl eq_refl))]).
    pose proof (walk_more f _ _ _ Wt _ _ W2) as W3. exists (t ++ [(c, dec)]), a, (s ++ does code2 ++ decided dec). split; [|split; [|exact Z]].
    + destruct dst as [j|]; [right; exists id, j; auto|left; exists id; auto].
    + rewrite app_assoc, <- Qa, <- app_assoc. cbn [app]. rewrite <- cut_actions. apply performs_app; [exact PA|]. rewrite <- (app_nil_r (block_actions cut dec)). apply performs_block; [exact cut_in|constructor].
Qed.

Lemma g_labels : NoDup (labels g).
Proof.
  assert (Q : Permutation (n :: labels f ++ labels h) (labels g)).
  { unfold labels. rewrite Bf, Bg, !map_app. cbn [map]. rewrite map_app, map_map. cbn [map]. rewrite (map_ext _ _ going_label). cbn [label_of BasicBlock_label OpLabel_result_id].
    change (label_of first) with c. change (label_of second) with n. rewrite <- app_assoc. cbn [app].
    rewrite (Permutation_app_comm (map label_of after) (map label_of (FunctionDefinition_blocks h))).
    rewrite Permutation_middle. apply Permutation_app_head. rewrite perm_swap. apply perm_skip. rewrite Permutation_middle. reflexivity. }
  apply (Permutation_NoDup Q). constructor.
  - intros I. apply in_app_or in I as [I|I]; unfold labels in I; apply in_map_iff in I as (b & <- & I); [apply Nf|apply Nh]; exists b; auto.
  - clear Q. assert (Z : forall id, In id (labels f) -> ~ In id (labels h)).
    { intros id I J. unfold labels in I, J. apply in_map_iff in I as (b & <- & I). apply in_map_iff in J as (b' & Q & J). apply (D (label_of b)); [exists b; auto|]. rewrite <- Q. exists b'. auto. }
    revert U Z. generalize (labels f). induction l as [|x l IH]; intros Ul Z; [exact Uh|]. cbn. inversion Ul as [|? ? N1 N2]; subst. constructor.
    + intros I. apply in_app_or in I as [I|I]; [exact (N1 I)|]. exact (Z x (or_introl eq_refl) I).
    + apply IH; [exact N2|]. intros id I. apply Z. right. exact I.
Qed.
Lemma g_exist : forall j, reachable g j -> exists b, has_block g j b.
Proof.
  intros j (id & t & En & W). apply (same_entry f h g cut n start before after Bf g_skeletons) in En.
  destruct (inlined_back f h g cut n start before after Bf Eh g_skeletons Nf Nh D U _ _ _ _ (le_n _) W (entry_used f id En)) as [(t0 & W0 & _)|(t0 & t1 & th & _ & _ & _ & [[_ Q]|(k & Q & W0)])].
  - destruct (EX j) as [b H]; [exists id, t0; auto|]. destruct (N.eq_dec j c) as [->|Ne]; [eexists; exact g_first|exists b; apply f_to_g; assumption].
  - injection Q as ->. eexists. exact g_second.
  - injection Q as <-. destruct (EXh j) as [b H]; [exists start, th; auto|]. eexists. apply h_to_g. exact H.
Qed.
Lemma some_block : forall x : FunctionDefinition E, FunctionDefinition_blocks x <> [] -> exists y rest, FunctionDefinition_blocks x = y :: rest.
Proof. intros x N. destruct (FunctionDefinition_blocks x) as [|y r]; [destruct N; reflexivity|]. eexists _, _. reflexivity. Qed.

Context (m mh m' : RawModule E) (pc pch pc' : nat) (M : stands_at m pc f) (Mh : stands_at mh pch h) (M' : stands_at m' pc' g).
Lemma work_same : forall p q : list (action E) -> Prop, (forall a, p a -> q a) -> forall a a', with_work p c n code1 a a' -> with_work q c n code1 a a'.
Proof. intros p q X a a' W. induction W as [|x a a' N W IH|i a a' C W IH]; [apply work_nothing|apply work_other; assumption|apply work_there; auto]. Qed.
Theorem inlined_do : forall a', can_do m' pc' a' <-> exists a, can_do m pc a /\ with_work (can_do mh pch) c n code1 a a'.
Proof.
  destruct (some_block f) as (yf & rf & Sf); [rewrite Bf; destruct before; discriminate|]. destruct (some_block g) as (yg & rg & Sg); [rewrite Bg; destruct before; discriminate|].
  destruct Eh as (yh & rh & Sh & _). assert (K : forall a, can_do mh pch a <-> inner_work a).
  { intros a. destruct Mh as (pre & post & Q & <-). unfold can_do. rewrite Q. exact (complete_iff h pre post Uh yh rh Sh EXh a). }
  assert (Kf : forall a, can_do m pc a <-> exists t, complete_run f t /\ performs f t a) by (intros a; destruct M as (pre & post & Q & <-); unfold can_do; rewrite Q; exact (complete_iff f pre post U yf rf Sf EX a)).
  assert (Kg : forall a, can_do m' pc' a <-> exists t, complete_run g t /\ performs g t a) by (intros a; destruct M' as (pre & post & Q & <-); unfold can_do; rewrite Q; exact (complete_iff g pre post g_labels yg rg Sg g_exist a)).
  intros a'. rewrite Kg. pose proof (inlined_executions E f h g cut n is_inlined U) as X. split.
  - intros (t' & C & P). apply X in C as (t & C & I). assert (F : Forall (fun e => used f (fst e)) t) by (destruct C as (s & _ & W); exact (walk_used _ _ _ _ W)).
    destruct (work_back _ _ I F _ P) as (a & Pa & W). exists a. split; [apply Kf; exists t; auto|]. apply (work_same inner_work); [intros b Y; apply K; exact Y|exact W].
  - intros (a & Y & W). apply Kf in Y as (t & C & P). apply (work_same _ inner_work (fun b Y => proj1 (K b) Y)) in W. destruct (work_forth _ _ P _ W) as (t' & I & P'). exists t'. split; [apply X; exists t; auto|exact P'].
Qed.
Lemma begun_same : forall p q p2 q2 : list (action E) -> Prop, (forall a, p a -> q a) -> (forall a, p2 a -> q2 a) -> forall a a', with_work_begun p p2 c n code1 a a' -> with_work_begun q q2 c n code1 a a'.
Proof. intros p q p2 q2 X Y a a' W. induction W as [|x a a' N W IH|i a a' C W IH|s m0 Q|i C]; [apply begun_nothing|apply begun_other; assumption|apply begun_there; auto|eapply begun_before; exact Q|apply begun_inside; auto]. Qed.
Theorem inlined_begin : forall a', can_begin_with m' pc' a' <-> exists a, can_begin_with m pc a /\ with_work_begun (can_do mh pch) (can_begin_with mh pch) c n code1 a a'.
Proof.
  destruct (some_block f) as (yf & rf & Sf); [rewrite Bf; destruct before; discriminate|]. destruct (some_block g) as (yg & rg & Sg); [rewrite Bg; destruct before; discriminate|].
  destruct Eh as (yh & rh & Sh & _). assert (K : forall a, can_do mh pch a <-> inner_work a).
  { intros a. destruct Mh as (pre & post & Q & <-). unfold can_do. rewrite Q. exact (complete_iff h pre post Uh yh rh Sh EXh a). }
  assert (K2 : forall a, can_begin_with mh pch a <-> inner_begun a).
  { intros a. destruct Mh as (pre & post & Q & <-). unfold can_begin_with. rewrite Q. exact (prefix_iff h pre post Uh yh rh Sh EXh a). }
  assert (Kf : forall a, can_begin_with m pc a <-> exists t a', (complete_run f t \/ unfinished_run f t) /\ performs f t (a ++ a')) by (intros a; destruct M as (pre & post & Q & <-); unfold can_begin_with; rewrite Q; exact (prefix_iff f pre post U yf rf Sf EX a)).
  assert (Kg : forall a, can_begin_with m' pc' a <-> exists t a', (complete_run g t \/ unfinished_run g t) /\ performs g t (a ++ a')) by (intros a; destruct M' as (pre & post & Q & <-); unfold can_begin_with; rewrite Q; exact (prefix_iff g pre post g_labels yg rg Sg g_exist a)).
  intros a'. rewrite Kg. split.
  - intros (t' & r & C & P). destruct (begun_back _ _ _ C P) as (t & a & s & C' & P' & W). exists a. split; [apply Kf; exists t, s; auto|].
    apply (begun_same inner_work _ inner_begun); [intros b Y; apply K; exact Y|intros b Y; apply K2; exact Y|exact W].
  - intros (a & Y & W). apply Kf in Y as (t & r & C & P). apply (begun_same _ inner_work _ inner_begun (fun b Y => proj1 (K b) Y) (fun b Y => proj1 (K2 b) Y)) in W.
    assert (V : exists id d, entry f id /\ walk f id t d) by (destruct C as [(i & En & V)|(i & j & En & V)]; eexists _, _; split; eassumption). destruct V as (id & d & En & V).
    destruct (begun_forth _ _ _ V _ P _ _ _ eq_refl W) as (t' & d' & r' & W' & P'). exists t', r'. split; [|exact P'].
    apply (same_entry f h g cut n start before after Bf g_skeletons) in En. destruct d' as [j|]; [right; exists id, j; auto|left; exists id; auto].
Qed.
End Inlined.

Theorem inlined_does : forall E (f h g : FunctionDefinition E) cut n code1, inlined_after f h g cut n code1 -> NoDup (labels f) -> NoDup (labels h) ->
  (forall j, reachable f j -> exists b, has_block f j b) -> (forall j, reachable h j -> exists b, has_block h j b) ->
  forall m mh m' pc pch pc', stands_at m pc f -> stands_at mh pch h -> stands_at m' pc' g ->
  forall a', can_do m' pc' a' <-> exists a, can_do m pc a /\ with_work (can_do mh pch) (label_of cut) n code1 a a'.
Proof.
  intros E f h g cut n code1 (before & after & start & code2 & Bf & Code & Eh & Bg & Nf & Nh & D) U Uh EX EXh m mh m' pc pch pc' M Mh M'.
  exact (inlined_do f h g cut n start before after code1 code2 Bf Code Eh Bg Nf Nh D U Uh EX EXh m mh m' pc pch pc' M Mh M').
Qed.
Theorem inlined_begins : forall E (f h g : FunctionDefinition E) cut n code1, inlined_after f h g cut n code1 -> NoDup (labels f) -> NoDup (labels h) ->
  (forall j, reachable f j -> exists b, has_block f j b) -> (forall j, reachable h j -> exists b, has_block h j b) ->
  forall m mh m' pc pch pc', stands_at m pc f -> stands_at mh pch h -> stands_at m' pc' g ->
  forall a', can_begin_with m' pc' a' <-> exists a, can_begin_with m pc a /\ with_work_begun (can_do mh pch) (can_begin_with mh pch) (label_of cut) n code1 a a'.
Proof.
  intros E f h g cut n code1 (before & after & start & code2 & Bf & Code & Eh & Bg & Nf & Nh & D) U Uh EX EXh m mh m' pc pch pc' M Mh M'.
  exact (inlined_begin f h g cut n start before after code1 code2 Bf Code Eh Bg Nf Nh D U Uh EX EXh m mh m' pc pch pc' M Mh M').
Qed.
