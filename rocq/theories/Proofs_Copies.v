(** Validation copies the extended instructions one by one, C90. *)
From Verif Require Import Base Types Ops Groups Validate ValidateState Spec_Layout Spec_Copies Proofs_Layout Proofs_Layout2.
From Coq Require Import Lia.

Lemma Forall2_length {A B} : forall {R : A -> B -> Prop} {l l'}, Forall2 R l l' -> length l = length l'.
Proof. intros R l l' H. induction H; cbn; congruence. Qed.

(** ** A copy that cannot panic *)
Section Total.
Context {E W : Type} (c : E -> W -> E * W).
Let clone : E -> W -> option E * W := fun x w => let (y, w) := c x w in (Some y, w).

Definition copy_op (o : OpByBlock E) (w : W) : OpByBlock E * W :=
  match o with
  | OpByBlock_GroupCode (GroupCode_OpExtInst op) =>
      let (y, w) := c (OpExtInst_instruction op) w in
      (OpByBlock_GroupCode (GroupCode_OpExtInst (Build_OpExtInst (OpExtInst_result_type op) (OpExtInst_result_id op) (OpExtInst_set op) y)), w)
  | o => (o, w)
  end.
Fixpoint copy_all (l : list (OpByBlock E)) (w : W) : list (OpByBlock E) * W :=
  match l with
  | [] => ([], w)
  | o :: l => let (o, w) := copy_op o w in let (l, w) := copy_all l w in (o :: l, w)
  end.

Lemma copy_app : forall a b w, copy_all (a ++ b) w =
  let (a', w1) := copy_all a w in let (b', w2) := copy_all b w1 in (a' ++ b', w2).
Proof.
  induction a as [|o a IH]; intros b w; cbn [app copy_all]; [destruct (copy_all b w); reflexivity|].
  destruct (copy_op o w) as [o' w1]. rewrite IH. destruct (copy_all a w1) as [a' w2]. destruct (copy_all b w2). reflexivity.
Qed.
Lemma copy_length : forall l w, length (fst (copy_all l w)) = length l.
Proof.
  induction l as [|o l IH]; intros w; cbn [copy_all]; [reflexivity|].
  destruct (copy_op o w) as [o' w1]. specialize (IH w1). destruct (copy_all l w1). cbn in *. f_equal. exact IH.
Qed.

(** Everything but the extended instruction itself. *)
Definition outline (o : OpByBlock E) : option (OpByBlock E) :=
  match o with OpByBlock_GroupCode (GroupCode_OpExtInst _) => None | o => Some o end.
Definition alike (l l' : list (OpByBlock E)) : Prop := map outline l = map outline l'.
Definition no_ext (l : list (OpByBlock E)) : Prop := Forall (fun o => outline o <> None) l.

Lemma outline_some : forall o x, outline o = Some x -> o = x.
Proof.
  intros o x H. destruct o as [| | | | | | | | | | | | |g| |]; try (injection H as <-; reflexivity).
  destruct g; try (injection H as <-; reflexivity). discriminate H.
Qed.
Lemma outline_copy : forall o w, outline (fst (copy_op o w)) = outline o.
Proof.
  intros o w. destruct o; try reflexivity. destruct g; try reflexivity. cbn [copy_op].
  destruct (c (OpExtInst_instruction o) w). reflexivity.
Qed.
Lemma alike_copy : forall l w, alike l (fst (copy_all l w)).
Proof.
  unfold alike. induction l as [|o l IH]; intros w; cbn [copy_all]; [reflexivity|].
  pose proof (outline_copy o w) as O. destruct (copy_op o w) as [o' w1]. specialize (IH w1). destruct (copy_all l w1).
  cbn in *. rewrite O, IH. reflexivity.
Qed.
Lemma copy_no_ext : forall l w, no_ext l -> copy_all l w = (l, w).
Proof.
  induction l as [|o l IH]; intros w H; cbn [copy_all]; [reflexivity|]. inversion H as [|? ? Ho Hl]; subst.
  assert (copy_op o w = (o, w)) as ->.
  { destruct o; try reflexivity. destruct g; try reflexivity. exfalso. apply Ho. reflexivity. }
  rewrite IH by exact Hl. reflexivity.
Qed.
Lemma alike_length : forall l l', alike l l' -> length l' = length l.
Proof. intros l l' H. apply (f_equal (@length _)) in H. rewrite !map_length in H. symmetry. exact H. Qed.

Definition seg (l : list (OpByBlock E)) (i j : nat) := firstn (j - i) (skipn i l).
Lemma seg_length : forall l i j, i <= j <= length l -> length (seg l i j) = j - i.
Proof. intros l i j H. unfold seg. rewrite firstn_length, skipn_length. lia. Qed.
Lemma skip_skip : forall (l : list (OpByBlock E)) a b, skipn a (skipn b l) = skipn (a + b) l.
Proof.
  intros l a b. revert l. induction b as [|b IH]; intros l; [rewrite Nat.add_0_r; reflexivity|].
  rewrite Nat.add_succ_r. destruct l; [rewrite !skipn_nil; reflexivity|]. cbn [skipn]. apply IH.
Qed.
Lemma seg_split : forall l i j n, i <= j <= n -> seg l i n = seg l i j ++ seg l j n.
Proof.
  intros l i j n H. unfold seg. rewrite <- (firstn_skipn (j - i) (firstn (n - i) (skipn i l))).
  rewrite firstn_firstn, Nat.min_l by lia. f_equal. rewrite skipn_firstn_comm, skip_skip.
  replace (j - i + i) with j by lia. replace (n - i - (j - i)) with (n - j) by lia. reflexivity.
Qed.
Lemma seg_nil : forall l i, seg l i i = [].
Proof. intros l i. unfold seg. rewrite Nat.sub_diag. reflexivity. Qed.
Lemma seg_one : forall l i o, nth_error l i = Some o -> seg l i (S i) = [o].
Proof.
  intros l i o H. unfold seg. replace (S i - i) with 1 by lia. revert i H. induction l as [|x l IH]; intros [|i] H; cbn in *; try discriminate.
  - injection H as ->. reflexivity.
  - apply IH. exact H.
Qed.
Lemma alike_same : forall a b, no_ext a -> map outline a = map outline b -> b = a.
Proof.
  induction a as [|o a IH]; intros [|o' b] N H; try discriminate H; [reflexivity|]. inversion N as [|? ? No Na]; subst. injection H as Ho Ha.
  rewrite (IH b Na Ha). f_equal. destruct (outline o) as [x|] eqn:E1; [|contradiction]. symmetry in Ho.
  rewrite (outline_some _ _ E1). exact (outline_some _ _ Ho).
Qed.
Lemma alike_seg : forall l l' i j, alike l l' -> no_ext (seg l i j) -> seg l' i j = seg l i j.
Proof.
  intros l l' i j Al N. apply (alike_same _ _ N). unfold seg, alike in *. rewrite <- !firstn_map, <- !skipn_map, Al. reflexivity.
Qed.
Lemma same_length_app : forall (a b x y : list (OpByBlock E)), length a = length b -> a ++ x = b ++ y -> a = b /\ x = y.
Proof.
  induction a as [|o a IH]; intros [|o' b] x y L H; try discriminate L; cbn in *; [split; [reflexivity|exact H]|].
  injection H as -> H. injection L as L. destruct (IH _ _ _ L H) as [-> ->]. split; reflexivity.
Qed.
Lemma split_equal : forall l l' i j n sg1 sg2, alike l l' -> i <= j <= n -> n <= length l -> length sg1 = j - i ->
  seg l' i n = sg1 ++ sg2 -> seg l' i j = sg1 /\ seg l' j n = sg2.
Proof.
  intros l l' i j n sg1 sg2 A H L Hs Hl. pose proof (alike_length _ _ A) as AL. rewrite (seg_split l' i j n H) in Hl.
  assert (length (seg l' i j) = length sg1) as HL by (rewrite seg_length, Hs; lia).
  exact (same_length_app _ _ _ _ HL Hl).
Qed.

Notation B := (@Build_OpSlice E).

(** ** A computation from place [i] on; [p]: it meets no extended instruction when it succeeds *)
Inductive steps {A R} (mk : A -> OpSlice -> R) (p : bool) (l : list (OpByBlock E)) (i : nat) (w : W)
    (rin : outcome ValidationError R * W) (pure : list (OpByBlock E) -> outcome ValidationError R) : Prop :=
| st_ok : forall j sg w' a, i <= j <= length l -> copy_all (seg l i j) w = (sg, w') -> rin = (Ok (mk a (B l j)), w') ->
    (p = true -> no_ext (seg l i j)) ->
    (forall l', alike l l' -> seg l' i j = sg -> pure l' = Ok (mk a (B l' j))) -> steps mk p l i w rin pure
| st_err : forall e n sg w', error_index e = Some n -> i <= n <= length l -> copy_all (seg l i n) w = (sg, w') -> rin = (Err e, w') ->
    (forall l', alike l l' -> seg l' i n = sg -> pure l' = Err e) -> steps mk p l i w rin pure
| st_missing : forall n sg w', i <= n <= length l -> copy_all (seg l i n) w = (sg, w') -> no_ext (firstn n l) -> rin = (Err MemoryModelMissing, w') ->
    (forall l', alike l l' -> seg l' i n = sg -> pure l' = Err MemoryModelMissing) -> steps mk p l i w rin pure.

Lemma join : forall l i j n w sg w1 sg2 w2, i <= j <= n -> copy_all (seg l i j) w = (sg, w1) -> copy_all (seg l j n) w1 = (sg2, w2) ->
  copy_all (seg l i n) w = (sg ++ sg2, w2).
Proof. intros l i j n w sg w1 sg2 w2 H H1 H2. rewrite (seg_split l i j n H), copy_app, H1, H2. reflexivity. Qed.
Lemma copied_length : forall l i j w sg w', i <= j <= length l -> copy_all (seg l i j) w = (sg, w') -> length sg = j - i.
Proof. intros l i j w sg w' H HC. rewrite <- (seg_length l i j H), <- (copy_length (seg l i j) w), HC. reflexivity. Qed.

(** Something that copies the part from [i] to [j], and then a computation from [j] on. *)
Lemma after {A R} : forall (mk : A -> OpSlice -> R) p l i j w sg w1 rin pure pure', i <= j <= length l ->
  copy_all (seg l i j) w = (sg, w1) -> (p = true -> no_ext (seg l i j)) -> steps mk p l j w1 rin pure ->
  (forall l', alike l l' -> seg l' i j = sg -> pure' l' = pure l') -> steps mk p l i w rin pure'.
Proof.
  intros mk p l i j w sg w1 rin pure pure' L1 C1 P1
    [n sg2 w2 b L2 C2 R2 P2 U2|e n sg2 w2 En L2 C2 R2 U2|n sg2 w2 L2 C2 N2 R2 U2] U1.
  - eapply st_ok with (j := n) (sg := sg ++ sg2); [lia|eapply join; [|exact C1|exact C2]; lia|exact R2| |].
    { intros Hp. rewrite (seg_split l i j n) by lia. apply Forall_app. split; [apply P1|apply P2]; exact Hp. }
    intros l' Al Sl. destruct (split_equal l l' i j n sg sg2 Al ltac:(lia) ltac:(lia) (copied_length _ _ _ _ _ _ L1 C1) Sl) as [S1 S2].
    rewrite (U1 l' Al S1). apply (U2 l' Al S2).
  - eapply st_err with (n := n) (sg := sg ++ sg2); [exact En|lia|eapply join; [|exact C1|exact C2]; lia|exact R2|].
    intros l' Al Sl. destruct (split_equal l l' i j n sg sg2 Al ltac:(lia) ltac:(lia) (copied_length _ _ _ _ _ _ L1 C1) Sl) as [S1 S2].
    rewrite (U1 l' Al S1). apply (U2 l' Al S2).
  - eapply st_missing with (n := n) (sg := sg ++ sg2); [lia|eapply join; [|exact C1|exact C2]; lia|exact N2|exact R2|].
    intros l' Al Sl. destruct (split_equal l l' i j n sg sg2 Al ltac:(lia) ltac:(lia) (copied_length _ _ _ _ _ _ L1 C1) Sl) as [S1 S2].
    rewrite (U1 l' Al S1). apply (U2 l' Al S2).
Qed.

Lemma bind_steps {A R T} : forall (mk : A -> OpSlice -> R) p p1 l i w (m : vrun (W := W) (T * OpSlice)) (k : T * OpSlice -> vrun R) pure kpure,
  (p = true -> p1 = true) -> steps pair p1 l i w (m w) pure ->
  (forall a j w', i <= j <= length l -> (p1 = true -> no_ext (seg l i j)) -> steps mk p l j w' (k (a, B l j) w') (fun l' => kpure (a, B l' j))) ->
  steps mk p l i w (vthen m k w) (fun l' => let! r := pure l' in kpure r).
Proof.
  intros mk p p1 l i w m k pure kpure Hp [j sg w1 a L1 C1 R1 P1 U1|e n sg w1 En L1 C1 R1 U1|n sg w1 L1 C1 N1 R1 U1] K; unfold vthen; rewrite R1.
  - eapply after; [exact L1|exact C1|intros Pp; apply P1, Hp, Pp|exact (K a j w1 L1 P1)|]. intros l' Al Sl. rewrite (U1 l' Al Sl). reflexivity.
  - eapply st_err with (n := n); [exact En|exact L1|exact C1|reflexivity|]. intros l' Al Sl. rewrite (U1 l' Al Sl). reflexivity.
  - eapply st_missing with (n := n); [exact L1|exact C1|exact N1|reflexivity|]. intros l' Al Sl. rewrite (U1 l' Al Sl). reflexivity.
Qed.

Lemma done_steps {A R} : forall (mk : A -> OpSlice -> R) p l i w a, i <= length l ->
  steps mk p l i w (vpure (Ok (mk a (B l i))) w) (fun l' => Ok (mk a (B l' i))).
Proof.
  intros mk p l i w a L. eapply st_ok with (j := i); [lia|rewrite seg_nil; reflexivity|reflexivity| |reflexivity].
  intros _. rewrite seg_nil. constructor.
Qed.
Lemma fail_steps {A R} : forall (mk : A -> OpSlice -> R) p l i w e, i <= length l -> error_index e = Some i ->
  steps mk p l i w (vpure (Err e) w) (fun l' => Err e).
Proof. intros mk p l i w e L En. eapply st_err with (n := i); [exact En|lia|rewrite seg_nil; reflexivity|reflexivity|reflexivity]. Qed.

(** The pure side may be written differently. *)
Lemma steps_ext {A R} : forall (mk : A -> OpSlice -> R) p l i w rin rin' pure pure', rin = rin' -> (forall l', alike l l' -> pure l' = pure' l') ->
  steps mk p l i w rin' pure' -> steps mk p l i w rin pure.
Proof.
  intros mk p l i w rin rin' pure pure' -> Hp [j sg w1 a L1 C1 R1 P1 U1|e n sg w1 En L1 C1 R1 U1|n sg w1 L1 C1 N1 R1 U1].
  - eapply st_ok; try eassumption. intros l' Al Sl. rewrite Hp by exact Al. apply U1; assumption.
  - eapply st_err; try eassumption. intros l' Al Sl. rewrite Hp by exact Al. apply U1; assumption.
  - eapply st_missing; try eassumption. intros l' Al Sl. rewrite Hp by exact Al. apply U1; assumption.
Qed.

(** ** Phases *)
Definition mk_phase {T} (r : option T) (s : OpSlice) : PhaseResult (E := E) T := match r with Some x => PhaseOk x s | None => PhaseNext s end.
Inductive phase_steps {T} (p : bool) (fin : PhaseIn (W := W) T) (f : Phase T) (l : list (OpByBlock E)) (i : nat) (w : W) : Prop :=
| ph_ok : forall j sg w' x, i < j <= length l -> copy_all (seg l i j) w = (sg, w') -> fin (B l i) w = (Ok (PhaseOk x (B l j)), w') ->
    (p = true -> no_ext (seg l i j)) ->
    (forall l', alike l l' -> seg l' i j = sg -> f (B l' i) = Ok (PhaseOk x (B l' j))) -> phase_steps p fin f l i w
| ph_next : fin (B l i) w = (Ok (PhaseNext (B l i)), w) -> (forall l', alike l l' -> f (B l' i) = Ok (PhaseNext (B l' i))) -> phase_steps p fin f l i w
| ph_err : forall e n sg w', error_index e = Some n -> i <= n <= length l -> copy_all (seg l i n) w = (sg, w') -> fin (B l i) w = (Err e, w') ->
    (forall l', alike l l' -> seg l' i n = sg -> f (B l' i) = Err e) -> phase_steps p fin f l i w
| ph_missing : forall n sg w', i <= n <= length l -> copy_all (seg l i n) w = (sg, w') -> no_ext (firstn n l) -> fin (B l i) w = (Err MemoryModelMissing, w') ->
    (forall l', alike l l' -> seg l' i n = sg -> f (B l' i) = Err MemoryModelMissing) -> phase_steps p fin f l i w.

Lemma many_steps {T} : forall p (fin : PhaseIn T) (f : Phase T) l, (forall i w, i <= length l -> phase_steps p fin f l i w) ->
  forall i w, i <= length l -> steps pair p l i w (read_many_in (B l i) fin w) (fun l' => read_many (B l' i) f).
Proof.
  intros p fin f l H i w L.
  cut (forall fuel i w out, i <= length l -> length l - i <= fuel ->
    steps pair p l i w (read_rest_in fuel (B l i) fin out w) (fun l' => read_rest fuel (B l' i) f out)).
  { intros Cut. eapply steps_ext; [reflexivity| |exact (Cut (length l - i) i w [] L (le_n _))].
    intros l' Al. unfold read_many, get_remaining. cbn [insts index]. rewrite (alike_length _ _ Al). reflexivity. }
  clear i w L. induction fuel as [|fuel IH]; intros i w out L F;
    (destruct (H i w L) as [j sg w1 x L1 C1 R1 P1 U1|R1 U1|e n sg w1 En L1 C1 R1 U1|n sg w1 L1 C1 N1 R1 U1];
      cbn [read_rest_in read_rest]; unfold vthen; rewrite R1).
  - lia.
  - eapply st_ok with (j := i); [lia|rewrite seg_nil; reflexivity|reflexivity|intros _; rewrite seg_nil; constructor|].
    intros l' Al _. rewrite U1 by exact Al. reflexivity.
  - eapply st_err; [exact En|exact L1|exact C1|reflexivity|]. intros l' Al Sl. rewrite U1 by assumption. reflexivity.
  - eapply st_missing; [exact L1|exact C1|exact N1|reflexivity|]. intros l' Al Sl. rewrite U1 by assumption. reflexivity.
  - eapply after; [|exact C1|exact P1|apply (IH j w1 (out ++ [x])); lia|]; [lia|].
    intros l' Al Sl. rewrite (U1 l' Al Sl). reflexivity.
  - eapply st_ok with (j := i); [lia|rewrite seg_nil; reflexivity|reflexivity|intros _; rewrite seg_nil; constructor|].
    intros l' Al _. rewrite U1 by exact Al. reflexivity.
  - eapply st_err; [exact En|exact L1|exact C1|reflexivity|]. intros l' Al Sl. rewrite U1 by assumption. reflexivity.
  - eapply st_missing; [exact L1|exact C1|exact N1|reflexivity|]. intros l' Al Sl. rewrite U1 by assumption. reflexivity.
Qed.

(** ** Looking at the next instruction *)
Lemma first_alike : forall l l' i, alike l l' -> option_map outline (first (B l i)) = option_map outline (first (B l' i)).
Proof.
  intros l l' i Al. unfold first. cbn [insts index]. rewrite (alike_length _ _ Al). destruct (i <? length l); [|reflexivity].
  rewrite <- !nth_error_map. unfold alike in Al. rewrite Al. reflexivity.
Qed.
Lemma first_some : forall l i o, first (B l i) = Some o -> nth_error l i = Some o /\ i < length l.
Proof.
  intros l i o. unfold first. cbn [insts index]. destruct (Nat.ltb_spec i (length l)); [|discriminate]. intros ->. split; [reflexivity|assumption].
Qed.
Lemma advance_ok : forall l i, i < length l -> advance (B l i) = Ok (B l (S i)).
Proof. intros l i H. unfold advance. cbn [insts index]. destruct (Nat.ltb_spec i (length l)); [|lia]. rewrite Nat.add_1_r. reflexivity. Qed.

(** A first instruction that is not an extended one is the same in all alike lists. *)
Lemma first_same : forall l l' i o, alike l l' -> first (B l i) = Some o -> outline o <> None -> first (B l' i) = Some o.
Proof.
  intros l l' i o Al H N. pose proof (first_alike l l' i Al) as F. rewrite H in F. destruct (first (B l' i)) as [o'|]; [|discriminate].
  cbn in F. injection F as F. f_equal. destruct (outline o) as [x|] eqn:Ho; [|contradiction].
  rewrite (outline_some _ _ Ho). symmetry in F. exact (outline_some _ _ F).
Qed.
Lemma first_none : forall l l' i, alike l l' -> first (B l i) = None -> first (B l' i) = None.
Proof. intros l l' i Al H. pose proof (first_alike l l' i Al) as F. rewrite H in F. destruct (first (B l' i)); [discriminate|reflexivity]. Qed.
Lemma first_ext : forall l l' i op, alike l l' -> first (B l i) = Some (OpByBlock_GroupCode (GroupCode_OpExtInst op)) ->
  exists op', first (B l' i) = Some (OpByBlock_GroupCode (GroupCode_OpExtInst op')).
Proof.
  intros l l' i op Al H. pose proof (first_alike l l' i Al) as F. rewrite H in F. destruct (first (B l' i)) as [o'|]; [|discriminate].
  cbn in F. destruct o' as [| | | | | | | | | | | | |g'| |]; try discriminate F. destruct g'; try discriminate F. eauto.
Qed.
Lemma first_cases : forall l i,
  first (B l i) = None \/ (exists op, first (B l i) = Some (OpByBlock_GroupCode (GroupCode_OpExtInst op)))
  \/ (exists o, first (B l i) = Some o /\ outline o <> None).
Proof.
  intros l i. destruct (first (B l i)) as [o|]; [right|left; reflexivity].
  destruct o as [| | | | | | | | | | | | |g| |]; try (right; eexists; split; [reflexivity|discriminate]).
  destruct g; try (right; eexists; split; [reflexivity|discriminate]). left. eexists. reflexivity.
Qed.
Lemma no_ext_one : forall l i o, first (B l i) = Some o -> outline o <> None -> no_ext (seg l i (S i)).
Proof. intros l i o H N. rewrite (seg_one _ _ _ (proj1 (first_some _ _ _ H))). constructor; [exact N|constructor]. Qed.
Lemma copy_one : forall l i w o, first (B l i) = Some o -> outline o <> None ->
  copy_all (seg l i (S i)) w = (seg l i (S i), w).
Proof. intros l i w o H N. apply copy_no_ext. eapply no_ext_one; eassumption. Qed.

Lemma one_steps {T} : forall (pick : OpByBlock E -> option T), (forall op, pick (OpByBlock_GroupCode (GroupCode_OpExtInst op)) = None) ->
  forall l i w, i <= length l -> phase_steps true (without_copies (one pick)) (one pick) l i w.
Proof.
  intros pick Hp l i w L. destruct (first_cases l i) as [H|[[op H]|(o & H & N)]].
  - apply ph_next; [|intros l' Al]; unfold without_copies, vpure, one; [|rewrite (first_none _ _ _ Al H); reflexivity]. rewrite H. reflexivity.
  - apply ph_next; [|intros l' Al]; unfold without_copies, vpure, one.
    + rewrite H, Hp. reflexivity.
    + destruct (first_ext _ _ _ _ Al H) as [op' H']. rewrite H', Hp. reflexivity.
  - destruct (pick o) as [x|] eqn:Ho.
    + destruct (first_some _ _ _ H) as [_ L'].
      eapply ph_ok with (j := S i) (x := x); [lia|apply (copy_one l i w o); assumption| |intros _; eapply no_ext_one; eassumption|].
      * unfold without_copies, vpure, one. rewrite H, Ho, advance_ok by exact L'. reflexivity.
      * intros l' Al _. unfold one. rewrite (first_same _ _ _ _ Al H N), Ho, advance_ok; [reflexivity|]. rewrite (alike_length _ _ Al). exact L'.
    + apply ph_next; [|intros l' Al]; unfold without_copies, vpure, one.
      * rewrite H, Ho. reflexivity.
      * rewrite (first_same _ _ _ _ Al H N), Ho. reflexivity.
Qed.

Lemma plain_many {T} : forall (f : Phase (E := E) T) s w, read_many_in s (without_copies (W := W) f) w = (read_many s f, w).
Proof.
  intros f s w. unfold read_many_in, read_many. generalize (get_remaining s) as fuel, (@nil T) as out. intros fuel. revert s.
  induction fuel as [|fuel IH]; intros s out; cbn [read_rest_in read_rest]; unfold vthen, without_copies at 1, vpure;
    destruct (f s) as [[x s'|s']|e| |]; cbn [bind]; try reflexivity. apply IH.
Qed.

Lemma weaken_phase {T} : forall (fin : PhaseIn (W := W) T) f l i w, phase_steps true fin f l i w -> phase_steps false fin f l i w.
Proof.
  intros fin f l i w [j sg w1 x L1 C1 R1 P1 U1|R1 U1|e n sg w1 En L1 C1 R1 U1|n sg w1 L1 C1 N1 R1 U1].
  - eapply ph_ok; try eassumption. discriminate.
  - apply ph_next; assumption.
  - eapply ph_err; eassumption.
  - eapply ph_missing; eassumption.
Qed.
Lemma parameter_steps : forall l i w, i <= length l ->
  phase_steps true (without_copies read_function_parameter) read_function_parameter l i w.
Proof. apply one_steps. reflexivity. Qed.

(** The next instruction is skipped. *)
Lemma skip_steps {A R} : forall (mk : A -> OpSlice -> R) p l i w o (k : OpSlice -> vrun (W := W) R) kpure, first (B l i) = Some o -> outline o <> None ->
  steps mk p l (S i) w (k (B l (S i)) w) (fun l' => kpure (B l' (S i))) ->
  steps mk p l i w (vthen (vpure (advance (B l i))) k w) (fun l' => let! s := advance (B l' i) in kpure s).
Proof.
  intros mk p l i w o k kpure H N K. destruct (first_some _ _ _ H) as [_ L]. unfold vthen, vpure. rewrite advance_ok by exact L.
  eapply after; [|apply (copy_one l i w o); assumption|intros _; eapply no_ext_one; eassumption|exact K|]; [lia|].
  intros l' Al _. rewrite advance_ok by (rewrite (alike_length _ _ Al); exact L). reflexivity.
Qed.

(** Picking the next instruction or not: the two sides of `if let`. *)
Lemma code_steps : forall l i w, i <= length l -> phase_steps false (read_code_in clone) read_code l i w.
Proof.
  intros l i w L. destruct (first_cases l i) as [H|[[op H]|(o & H & N)]].
  - apply ph_next; [|intros l' Al]; unfold read_code_in, read_code, one, vpure; [rewrite H; reflexivity|rewrite (first_none _ _ _ Al H); reflexivity].
  - destruct (first_some _ _ _ H) as [Hn L']. destruct (c (OpExtInst_instruction op) w) as [y w1] eqn:Hc.
    eapply ph_ok with (j := S i) (w' := w1); [lia| | |discriminate|].
    + rewrite (seg_one _ _ _ Hn). cbn [copy_all copy_op]. rewrite Hc. reflexivity.
    + unfold read_code_in. rewrite H. unfold vthen, vpure, clone_GroupCode, clone. rewrite Hc, advance_ok by exact L'. reflexivity.
    + intros l' Al Sl. destruct (first_ext _ _ _ _ Al H) as [op' H']. destruct (first_some _ _ _ H') as [Hn' Ll'].
      rewrite (seg_one _ _ _ Hn') in Sl. injection Sl as ->. unfold read_code, one. rewrite H', advance_ok by exact Ll'. reflexivity.
  - destruct (first_some _ _ _ H) as [Hn L'].
    destruct o as [| | | | | | | | | | | | |g| |];
      try (apply ph_next; [|intros l' Al]; unfold read_code_in, read_code, one, vpure; [rewrite H; reflexivity|rewrite (first_same _ _ _ _ Al H N); reflexivity]).
    eapply ph_ok with (j := S i) (w' := w) (x := g); [lia|apply (copy_one l i w _ H N)| |discriminate|].
    + unfold read_code_in. rewrite H. unfold vthen, vpure, clone_GroupCode.
      destruct g; try (rewrite advance_ok by exact L'; reflexivity). exfalso. apply N. reflexivity.
    + intros l' Al _. unfold read_code, one. rewrite (first_same _ _ _ _ Al H N), advance_ok; [reflexivity|]. rewrite (alike_length _ _ Al). exact L'.
Qed.

Lemma merge_steps : forall p l i w, i <= length l -> steps pair p l i w (vpure (read_merge (B l i)) w) (fun l' => read_merge (B l' i)).
Proof.
  intros p l i w L. destruct (first_cases l i) as [H|[[op H]|(o & H & N)]].
  - eapply steps_ext; [| |apply (done_steps pair p l i w None L)].
    + unfold vpure, read_merge. rewrite H. reflexivity.
    + intros l' Al. unfold read_merge. rewrite (first_none _ _ _ Al H). reflexivity.
  - eapply steps_ext; [| |apply (done_steps pair p l i w None L)].
    + unfold vpure, read_merge. rewrite H. reflexivity.
    + intros l' Al. unfold read_merge. destruct (first_ext _ _ _ _ Al H) as [op' H']. rewrite H'. reflexivity.
  - destruct (first_some _ _ _ H) as [Hn L']. destruct o as [| | | | | | | | | | | | | |g|];
      try (eapply steps_ext; [| |apply (done_steps pair p l i w None L)];
        [unfold vpure, read_merge; rewrite H; reflexivity|intros l' Al; unfold read_merge; rewrite (first_same _ _ _ _ Al H N); reflexivity]).
    eapply steps_ext; [| |eapply (skip_steps pair p l i w _ (fun s => vpure (Ok (Some g, s))) (fun s => Ok (Some g, s)) H N), done_steps; lia].
    + unfold vpure at 1, read_merge. rewrite H. unfold vthen, vpure. destruct (advance (B l i)); reflexivity.
    + intros l' Al. unfold read_merge. rewrite (first_same _ _ _ _ Al H N). reflexivity.
Qed.
Lemma branch_steps : forall p l i w, i <= length l -> steps pair p l i w (vpure (read_branch (B l i)) w) (fun l' => read_branch (B l' i)).
Proof.
  intros p l i w L. destruct (first_cases l i) as [H|[[op H]|(o & H & N)]].
  - eapply steps_ext; [| |apply (fail_steps pair p l i w (ExpectedBranch i) L eq_refl)].
    + unfold vpure, read_branch. rewrite H. reflexivity.
    + intros l' Al. unfold read_branch. rewrite (first_none _ _ _ Al H). reflexivity.
  - eapply steps_ext; [| |apply (fail_steps pair p l i w (ExpectedBranch i) L eq_refl)].
    + unfold vpure, read_branch. rewrite H. reflexivity.
    + intros l' Al. unfold read_branch. destruct (first_ext _ _ _ _ Al H) as [op' H']. rewrite H'. reflexivity.
  - destruct (first_some _ _ _ H) as [Hn L']. destruct o as [| | | | | | | | | | | | | | |g];
      try (eapply steps_ext; [| |apply (fail_steps pair p l i w (ExpectedBranch i) L eq_refl)];
        [unfold vpure, read_branch; rewrite H; reflexivity|intros l' Al; unfold read_branch; rewrite (first_same _ _ _ _ Al H N); reflexivity]).
    eapply steps_ext; [| |eapply (skip_steps pair p l i w _ (fun s => vpure (Ok (g, s))) (fun s => Ok (g, s)) H N), done_steps; lia].
    + unfold vpure at 1, read_branch. rewrite H. unfold vthen, vpure. destruct (advance (B l i)); reflexivity.
    + intros l' Al. unfold read_branch. rewrite (first_same _ _ _ _ Al H N). reflexivity.
Qed.

(** A computation that ends in PhaseOk is a phase if it gets past the first instruction. *)
Lemma phase_of_steps {T} : forall p (fin : PhaseIn (W := W) T) f l i w o k kpure,
  first (B l i) = Some o -> outline o <> None ->
  fin (B l i) w = vthen (vpure (advance (B l i))) k w ->
  (forall l', alike l l' -> f (B l' i) = let! s := advance (B l' i) in kpure s) ->
  steps (fun x s => PhaseOk x s) p l (S i) w (k (B l (S i)) w) (fun l' => kpure (B l' (S i))) ->
  phase_steps p fin f l i w.
Proof.
  intros p fin f l i w o k kpure H N Fin F K. destruct (first_some _ _ _ H) as [_ L]. unfold vthen, vpure in Fin. rewrite advance_ok in Fin by exact L.
  assert (forall l', alike l l' -> f (B l' i) = kpure (B l' (S i))) as F'.
  { intros l' Al. rewrite (F l' Al), advance_ok; [reflexivity|]. rewrite (alike_length _ _ Al). exact L. }
  assert (forall n sg2 w2, S i <= n -> copy_all (seg l (S i) n) w = (sg2, w2) -> copy_all (seg l i n) w = (seg l i (S i) ++ sg2, w2)) as J.
  { intros n sg2 w2 Ln C2. eapply join; [|apply (copy_one l i w o H N)|exact C2]. lia. }
  assert (forall n sg2 l', alike l l' -> S i <= n <= length l -> seg l' i n = seg l i (S i) ++ sg2 -> seg l' (S i) n = sg2) as U.
  { intros n sg2 l' Al Ln Sl. apply (split_equal l l' i (S i) n _ _ Al) in Sl; [apply Sl|lia|lia|]. rewrite seg_length; lia. }
  destruct K as [n sg2 w2 b L2 C2 R2 P2 U2|e n sg2 w2 En L2 C2 R2 U2|n sg2 w2 L2 C2 N2 R2 U2].
  - eapply ph_ok with (j := n) (x := b); [lia|apply J; [lia|exact C2]|rewrite Fin; exact R2| |].
    + intros Hp. rewrite (seg_split l i (S i) n) by lia. apply Forall_app. split; [eapply no_ext_one; eassumption|apply P2, Hp].
    + intros l' Al Sl. rewrite (F' l' Al). apply U2; [exact Al|]. eapply U; eassumption.
  - eapply ph_err with (n := n); [exact En|lia|apply J; [lia|exact C2]|rewrite Fin; exact R2|].
    intros l' Al Sl. rewrite (F' l' Al). apply U2; [exact Al|]. eapply U; eassumption.
  - eapply ph_missing with (n := n); [lia|apply J; [lia|exact C2]|exact N2|rewrite Fin; exact R2|].
    intros l' Al Sl. rewrite (F' l' Al). apply U2; [exact Al|]. eapply U; eassumption.
Qed.

Lemma block_steps : forall l i w, i <= length l -> phase_steps false (read_basic_block_in clone) read_basic_block l i w.
Proof.
  intros l i w L. destruct (first_cases l i) as [H|[[op H]|(o & H & N)]].
  - apply ph_next; [|intros l' Al]; unfold read_basic_block_in, read_basic_block, vpure; [rewrite H; reflexivity|rewrite (first_none _ _ _ Al H); reflexivity].
  - apply ph_next; [|intros l' Al]; unfold read_basic_block_in, read_basic_block, vpure; [rewrite H; reflexivity|].
    destruct (first_ext _ _ _ _ Al H) as [op' H']. rewrite H'. reflexivity.
  - destruct o as [| | | | | | | | | | | |label| | |];
      try (apply ph_next; [|intros l' Al]; unfold read_basic_block_in, read_basic_block, vpure;
        [rewrite H; reflexivity|rewrite (first_same _ _ _ _ Al H N); reflexivity]).
    destruct (first_some _ _ _ H) as [_ L'].
    eapply phase_of_steps; [exact H|exact N| | |].
    + unfold read_basic_block_in. rewrite H. reflexivity.
    + intros l' Al. unfold read_basic_block. rewrite (first_same _ _ _ _ Al H N). reflexivity.
    + cbv beta. eapply (bind_steps _ false false l (S i) w (read_many_in (B l (S i)) (read_code_in clone)) _ (fun l' => read_many (B l' (S i)) read_code));
        [discriminate|apply many_steps; [apply code_steps|lia]|].
      intros code j w1 Lj _. eapply (bind_steps _ false false l j w1 (vpure (read_merge (B l j))) _ (fun l' => read_merge (B l' j)));
        [discriminate|apply merge_steps; lia|].
      intros merge n w2 Ln _. eapply (bind_steps _ false false l n w2 (vpure (read_branch (B l n))) _ (fun l' => read_branch (B l' n)));
        [discriminate|apply branch_steps; lia|].
      intros branch q w3 Lq _. apply (done_steps (fun x s => PhaseOk x s)). lia.
Qed.

(** Functions look at how much is left. *)
Lemma remaining_alike : forall l l' i, alike l l' -> get_remaining (B l' i) = get_remaining (B l i).
Proof. intros l l' i Al. unfold get_remaining. cbn [insts index]. rewrite (alike_length _ _ Al). reflexivity. Qed.

Lemma definition_steps : forall l i w, i <= length l -> phase_steps false (read_function_definition_in clone) read_function_definition l i w.
Proof.
  intros l i w L. destruct (get_remaining (B l i) <? 2) eqn:G.
  { apply ph_next; [|intros l' Al]; unfold read_function_definition_in, read_function_definition, vpure; [rewrite G; reflexivity|].
    rewrite (remaining_alike _ _ _ Al), G. reflexivity. }
  assert ((forall op, first (B l i) <> Some (OpByBlock_OpFunction op)) -> phase_steps false (read_function_definition_in clone) read_function_definition l i w) as Other.
  { intros NF. eapply ph_err with (e := ExpectedOpFunction i) (n := i); [reflexivity|lia|rewrite seg_nil; reflexivity| |].
    - unfold read_function_definition_in, vpure. rewrite G. destruct (first (B l i)) as [[| | | | | | | | |f| | | | | |]|]; try reflexivity. exfalso. apply (NF f). reflexivity.
    - intros l' Al _. unfold read_function_definition. rewrite (remaining_alike _ _ _ Al), G. pose proof (first_alike l l' i Al) as FA.
      destruct (first (B l' i)) as [[| | | | | | | | |f| | | | | |]|]; try reflexivity. exfalso. apply (NF f).
      destruct (first (B l i)) as [o|]; [|discriminate FA]. cbn in FA. injection FA as FA. f_equal. exact (outline_some _ _ FA). }
  destruct (first_cases l i) as [H|[[op H]|(o & H & N)]]; [apply Other; rewrite H; discriminate|apply Other; rewrite H; discriminate|].
  destruct o as [| | | | | | | | |f| | | | | |]; try (apply Other; rewrite H; discriminate). clear Other.
  destruct (first_some _ _ _ H) as [_ L'].
  eapply phase_of_steps; [exact H|exact N| | |].
  - unfold read_function_definition_in. rewrite G, H. reflexivity.
  - intros l' Al. unfold read_function_definition. rewrite (remaining_alike _ _ _ Al), G, (first_same _ _ _ _ Al H N). reflexivity.
  - cbv beta. eapply (bind_steps _ false false l (S i) w (read_many_in (B l (S i)) (without_copies read_function_parameter)) _ (fun l' => read_many (B l' (S i)) read_function_parameter));
      [discriminate|apply many_steps; [intros; apply weaken_phase, parameter_steps; assumption|lia]|].
    intros params j w1 Lj _. eapply (bind_steps _ false false l j w1 (read_many_in (B l j) (read_basic_block_in clone)) _ (fun l' => read_many (B l' j) read_basic_block));
      [discriminate|apply many_steps; [apply block_steps|lia]|].
    intros blocks n w2 Ln _.
    assert ((forall op, first (B l n) <> Some (OpByBlock_OpFunctionEnd op)) -> forall l', alike l l' -> forall op, first (B l' n) <> Some (OpByBlock_OpFunctionEnd op)) as Same.
    { intros NE l' Al op He. apply (NE op). pose proof (first_alike l l' n Al) as FA. rewrite He in FA.
      destruct (first (B l n)) as [o|]; [|discriminate FA]. cbn in FA. injection FA as FA. f_equal. exact (outline_some _ _ FA). }
    assert ((exists op, first (B l n) = Some (OpByBlock_OpFunctionEnd op)) \/ (forall op, first (B l n) <> Some (OpByBlock_OpFunctionEnd op))) as [[op He]|NE].
    { destruct (first (B l n)) as [[]|]; try (right; discriminate). left. eauto. }
    + eapply (steps_ext (fun x s => PhaseOk x s) false l n w2 _ _ _ _); [| |eapply (skip_steps (fun x s => PhaseOk x s) false l n w2 _
        (fun s => vpure (Ok (PhaseOk (Build_FunctionDefinition f params blocks) s)))
        (fun s => Ok (PhaseOk (Build_FunctionDefinition f params blocks) s)) He), done_steps; [discriminate|]].
      * rewrite He. reflexivity.
      * intros l' Al. cbv beta iota. rewrite (first_same _ _ _ _ Al He); [reflexivity|discriminate].
      * destruct (first_some _ _ _ He). lia.
    + eapply (steps_ext (fun x s => PhaseOk x s) false l n w2 _ _ _ _); [| |apply (fail_steps (fun x s => PhaseOk x s) false l n w2 (ExpectedOpFunctionEnd n)); [lia|reflexivity]].
      * destruct (first (B l n)) as [[]|]; try reflexivity. exfalso. eapply NE. reflexivity.
      * intros l' Al. cbv beta iota. pose proof (Same NE l' Al) as NE'. destruct (first (B l' n)) as [[]|]; try reflexivity. exfalso. eapply NE'. reflexivity.
Qed.

Lemma declaration_steps : forall l i w, i <= length l -> phase_steps true (without_copies read_function_declaration) read_function_declaration l i w.
Proof.
  intros l i w L. destruct (get_remaining (B l i) <? 2) eqn:G.
  { apply ph_next; [|intros l' Al]; unfold without_copies, read_function_declaration, vpure; [rewrite G; reflexivity|].
    rewrite (remaining_alike _ _ _ Al), G. reflexivity. }
  assert ((forall op, first (B l i) <> Some (OpByBlock_OpFunction op)) -> phase_steps true (without_copies read_function_declaration) read_function_declaration l i w) as Other.
  { intros NF. eapply ph_err with (e := ExpectedOpFunction i) (n := i); [reflexivity|lia|rewrite seg_nil; reflexivity| |].
    - unfold without_copies, read_function_declaration, vpure. rewrite G. destruct (first (B l i)) as [[| | | | | | | | |f| | | | | |]|]; try reflexivity. exfalso. apply (NF f). reflexivity.
    - intros l' Al _. unfold read_function_declaration. rewrite (remaining_alike _ _ _ Al), G. pose proof (first_alike l l' i Al) as FA.
      destruct (first (B l' i)) as [[| | | | | | | | |f| | | | | |]|]; try reflexivity. exfalso. apply (NF f).
      destruct (first (B l i)) as [o|]; [|discriminate FA]. cbn in FA. injection FA as FA. f_equal. exact (outline_some _ _ FA). }
  destruct (first_cases l i) as [H|[[op H]|(o & H & N)]]; [apply Other; rewrite H; discriminate|apply Other; rewrite H; discriminate|].
  destruct o as [| | | | | | | | |f| | | | | |]; try (apply Other; rewrite H; discriminate). clear Other.
  destruct (first_some _ _ _ H) as [_ L']. pose proof (no_ext_one _ _ _ H N) as N1.
  assert (forall l', alike l l' -> advance (B l' i) = Ok (B l' (S i))) as Adv by (intros l' Al; apply advance_ok; rewrite (alike_length _ _ Al); exact L').
  destruct (many_steps true (without_copies read_function_parameter) read_function_parameter l (parameter_steps l) (S i) w L') as
    [j sg w1 params L1 C1 R1 P1 U1|e n sg w1 En L1 C1 R1 U1|n sg w1 L1 C1 N2 R1 U1]; rewrite plain_many in R1.
  - specialize (P1 eq_refl). rewrite (copy_no_ext _ _ P1) in C1. injection C1 as <- <-. injection R1 as R1.
    assert (forall l', alike l l' -> read_many (B l' (S i)) read_function_parameter = Ok (params, B l' j)) as U.
    { intros l' Al. apply U1; [exact Al|]. apply alike_seg; assumption. }
    assert ((exists op, first (B l j) = Some (OpByBlock_OpFunctionEnd op)) \/ (forall op, first (B l j) <> Some (OpByBlock_OpFunctionEnd op))) as [[op He]|NE].
    { destruct (first (B l j)) as [[]|]; try (right; discriminate). left. eauto. }
    + destruct (first_some _ _ _ He) as [_ Lj].
      assert (no_ext (seg l i (S j))) as NA.
      { rewrite (seg_split l i (S i) (S j)), (seg_split l (S i) j (S j)) by lia. apply Forall_app. split; [exact N1|].
        apply Forall_app. split; [exact P1|]. eapply no_ext_one; [exact He|discriminate]. }
      eapply ph_ok with (j := S j) (x := Build_FunctionDeclaration f params); [lia|apply copy_no_ext, NA| |intros _; exact NA|].
      * unfold without_copies, read_function_declaration, vpure. rewrite G, H, (Adv l eq_refl). cbn [bind]. rewrite (U l eq_refl). cbn [bind].
        rewrite He, advance_ok by exact Lj. reflexivity.
      * intros l' Al _. unfold read_function_declaration. rewrite (remaining_alike _ _ _ Al), G, (first_same _ _ _ _ Al H N), (Adv l' Al). cbn [bind].
        rewrite (U l' Al). cbn [bind]. rewrite (first_same _ _ _ _ Al He), advance_ok by (discriminate || rewrite (alike_length _ _ Al); exact Lj). reflexivity.
    + apply ph_next.
      * unfold without_copies, read_function_declaration, vpure. rewrite G, H, (Adv l eq_refl). cbn [bind]. rewrite (U l eq_refl). cbn [bind].
        destruct (first (B l j)) as [[]|]; try reflexivity. exfalso. eapply NE. reflexivity.
      * intros l' Al. unfold read_function_declaration. rewrite (remaining_alike _ _ _ Al), G, (first_same _ _ _ _ Al H N), (Adv l' Al). cbn [bind].
        rewrite (U l' Al). cbn [bind]. pose proof (first_alike l l' j Al) as FA.
        destruct (first (B l' j)) as [[| | | | | | | | | | |x| | | |]|]; try reflexivity. exfalso. apply (NE x).
        destruct (first (B l j)) as [o|]; [|discriminate FA]. cbn in FA. injection FA as FA. f_equal. exact (outline_some _ _ FA).
  - eapply ph_err with (n := n) (w' := w1); [exact En|lia| | |].
    + eapply join; [|apply (copy_one l i w _ H N)|exact C1]. lia.
    + unfold without_copies, read_function_declaration, vpure. rewrite G, H, (Adv l eq_refl). cbn [bind]. injection R1 as R1 <-. rewrite R1. reflexivity.
    + intros l' Al Sl. apply (split_equal l l' i (S i) n _ _ Al) in Sl; [|lia|lia|rewrite seg_length; lia].
      unfold read_function_declaration. rewrite (remaining_alike _ _ _ Al), G, (first_same _ _ _ _ Al H N), (Adv l' Al). cbn [bind].
      rewrite (U1 l' Al (proj2 Sl)). reflexivity.
  - eapply ph_missing with (n := n) (w' := w1); [lia| |exact N2| |].
    + eapply join; [|apply (copy_one l i w _ H N)|exact C1]. lia.
    + unfold without_copies, read_function_declaration, vpure. rewrite G, H, (Adv l eq_refl). cbn [bind]. injection R1 as R1 <-. rewrite R1. reflexivity.
    + intros l' Al Sl. apply (split_equal l l' i (S i) n _ _ Al) in Sl; [|lia|lia|rewrite seg_length; lia].
      unfold read_function_declaration. rewrite (remaining_alike _ _ _ Al), G, (first_same _ _ _ _ Al H N), (Adv l' Al). cbn [bind].
      rewrite (U1 l' Al (proj2 Sl)). reflexivity.
Qed.

Lemma memory_model_steps : forall p l i w, i <= length l -> no_ext (firstn i l) ->
  steps pair p l i w (vpure (read_memory_model (B l i)) w) (fun l' => read_memory_model (B l' i)).
Proof.
  intros p l i w L NE.
  assert ((forall op, first (B l i) <> Some (OpByBlock_OpMemoryModel op)) ->
    steps pair p l i w (vpure (read_memory_model (B l i)) w) (fun l' => read_memory_model (B l' i))) as Other.
  { intros NF. eapply st_missing with (n := i); [lia|rewrite seg_nil; reflexivity|exact NE| |].
    - unfold read_memory_model, vpure. destruct (first (B l i)) as [[| | |f| | | | | | | | | | | |]|]; try reflexivity. exfalso. apply (NF f). reflexivity.
    - intros l' Al _. unfold read_memory_model. pose proof (first_alike l l' i Al) as FA.
      destruct (first (B l' i)) as [[| | |f| | | | | | | | | | | |]|]; try reflexivity. exfalso. apply (NF f).
      destruct (first (B l i)) as [o|]; [|discriminate FA]. cbn in FA. injection FA as FA. f_equal. exact (outline_some _ _ FA). }
  destruct (first_cases l i) as [H|[[op H]|(o & H & N)]]; [apply Other; rewrite H; discriminate|apply Other; rewrite H; discriminate|].
  destruct o as [| | |f| | | | | | | | | | | |]; try (apply Other; rewrite H; discriminate). clear Other.
  destruct (first_some _ _ _ H) as [_ L'].
  eapply steps_ext; [| |eapply (skip_steps pair p l i w _ (fun s => vpure (Ok (f, s))) (fun s => Ok (f, s)) H N), done_steps; lia].
  - unfold vpure at 1, read_memory_model. rewrite H. unfold vthen, vpure. destruct (advance (B l i)); reflexivity.
  - intros l' Al. unfold read_memory_model. rewrite (first_same _ _ _ _ Al H N). reflexivity.
Qed.

(** ** The whole *)
Definition sections_in (s : OpSlice) : vrun (W := W) (LogicalModule E * OpSlice) :=
  vthen (read_many_in s (without_copies read_capability)) (fun '(capabilities, s) =>
  vthen (read_many_in s (without_copies read_extension)) (fun '(extensions, s) =>
  vthen (read_many_in s (without_copies read_ext_inst_import)) (fun '(ext_inst_imports, s) =>
  vthen (vpure (read_memory_model s)) (fun '(memory_model, s) =>
  vthen (read_many_in s (without_copies read_entry_point)) (fun '(entry_points, s) =>
  vthen (read_many_in s (without_copies read_execution_mode)) (fun '(execution_modes, s) =>
  vthen (read_many_in s (without_copies read_debug)) (fun '(debug, s) =>
  vthen (read_many_in s (without_copies read_annotation)) (fun '(annotations, s) =>
  vthen (read_many_in s (without_copies read_global)) (fun '(globals, s) =>
  vthen (read_many_in s (without_copies read_function_declaration)) (fun '(function_declarations, s) =>
  vthen (read_many_in s (read_function_definition_in clone)) (fun '(function_definitions, s) =>
  vpure (Ok (Build_LogicalModule capabilities extensions ext_inst_imports memory_model entry_points execution_modes debug annotations globals
    function_declarations function_definitions, s))))))))))))).
Definition sections (s : OpSlice) : outcome ValidationError (LogicalModule E * OpSlice) :=
  let! (capabilities, s) := read_many s read_capability in
  let! (extensions, s) := read_many s read_extension in
  let! (ext_inst_imports, s) := read_many s read_ext_inst_import in
  let! (memory_model, s) := read_memory_model s in
  let! (entry_points, s) := read_many s read_entry_point in
  let! (execution_modes, s) := read_many s read_execution_mode in
  let! (debug, s) := read_many s read_debug in
  let! (annotations, s) := read_many s read_annotation in
  let! (globals, s) := read_many s read_global in
  let! (function_declarations, s) := read_many s read_function_declaration in
  let! (function_definitions, s) := read_many s read_function_definition in
  Ok (Build_LogicalModule capabilities extensions ext_inst_imports memory_model entry_points execution_modes debug annotations globals
    function_declarations function_definitions, s).
Lemma validate_sections_in : forall m w, validate_in clone m w =
  vthen (sections_in (slice_new (map from_Core (RawModule_instructions m)))) (fun '(lm, s) =>
    if 0 <? get_remaining s then vpure (Err (UnexpectedInstruction (get_slot s))) else vpure (Ok lm)) w.
Proof.
  intros m w. unfold validate_in, sections_in, vthen.
  repeat match goal with |- context [match ?x with _ => _ end] =>
    lazymatch x with context [match _ with _ => _ end] => fail | _ => destruct x as [[[? ?]|?| |] ?]; try reflexivity end end.
Qed.
Lemma validate_sections : forall m : RawModule E, validate m =
  let! (lm, s) := sections (slice_new (map from_Core (RawModule_instructions m))) in
  if 0 <? get_remaining s then Err (UnexpectedInstruction (get_slot s)) else Ok lm.
Proof.
  intros m. unfold validate, sections, bind.
  repeat match goal with |- context [match ?x with _ => _ end] =>
    lazymatch x with context [match _ with _ => _ end] => fail | _ => destruct x as [[? ?]|?| |]; try reflexivity end end.
Qed.

Lemma sections_steps : forall l w, steps pair false l 0 w (sections_in (B l 0) w) (fun l' => sections (B l' 0)).
Proof.
  intros l w. unfold sections_in, sections.
  assert (forall i j k, i <= j <= k -> no_ext (seg l i j) -> no_ext (seg l j k) -> no_ext (seg l i k)) as Tr.
  { intros i j k Le N1 N2. rewrite (seg_split l i j k) by exact Le. apply Forall_app. split; assumption. }
  eapply (bind_steps _ false true l 0 w (read_many_in (B l 0) (without_copies read_capability)) _ (fun l' => read_many (B l' 0) read_capability));
    [discriminate|apply many_steps; [apply one_steps; reflexivity|lia]|]. intros caps i1 w1 L1 N1.
  eapply (bind_steps _ false true l i1 w1 (read_many_in (B l i1) (without_copies read_extension)) _ (fun l' => read_many (B l' i1) read_extension));
    [discriminate|apply many_steps; [apply one_steps; reflexivity|lia]|]. intros exts i2 w2 L2 N2.
  eapply (bind_steps _ false true l i2 w2 (read_many_in (B l i2) (without_copies read_ext_inst_import)) _ (fun l' => read_many (B l' i2) read_ext_inst_import));
    [discriminate|apply many_steps; [apply one_steps; reflexivity|lia]|]. intros imports i3 w3 L3 N3.
  specialize (N1 eq_refl). specialize (N2 eq_refl). specialize (N3 eq_refl).
  assert (no_ext (firstn i3 l)) as NF.
  { pose proof (Tr 0 i2 i3 ltac:(lia) (Tr 0 i1 i2 ltac:(lia) N1 N2) N3) as NA. unfold seg in NA. rewrite Nat.sub_0_r in NA. exact NA. }
  eapply (bind_steps _ false true l i3 w3 (vpure (read_memory_model (B l i3))) _ (fun l' => read_memory_model (B l' i3)));
    [discriminate|apply memory_model_steps; [lia|exact NF]|]. intros mm i4 w4 L4 _.
  eapply (bind_steps _ false true l i4 w4 (read_many_in (B l i4) (without_copies read_entry_point)) _ (fun l' => read_many (B l' i4) read_entry_point));
    [discriminate|apply many_steps; [apply one_steps; reflexivity|lia]|]. intros eps i5 w5 L5 _.
  eapply (bind_steps _ false true l i5 w5 (read_many_in (B l i5) (without_copies read_execution_mode)) _ (fun l' => read_many (B l' i5) read_execution_mode));
    [discriminate|apply many_steps; [apply one_steps; reflexivity|lia]|]. intros ems i6 w6 L6 _.
  eapply (bind_steps _ false true l i6 w6 (read_many_in (B l i6) (without_copies read_debug)) _ (fun l' => read_many (B l' i6) read_debug));
    [discriminate|apply many_steps; [apply one_steps; reflexivity|lia]|]. intros debug i7 w7 L7 _.
  eapply (bind_steps _ false true l i7 w7 (read_many_in (B l i7) (without_copies read_annotation)) _ (fun l' => read_many (B l' i7) read_annotation));
    [discriminate|apply many_steps; [apply one_steps; reflexivity|lia]|]. intros anns i8 w8 L8 _.
  eapply (bind_steps _ false true l i8 w8 (read_many_in (B l i8) (without_copies read_global)) _ (fun l' => read_many (B l' i8) read_global));
    [discriminate|apply many_steps; [apply one_steps; reflexivity|lia]|]. intros globals i9 w9 L9 _.
  eapply (bind_steps _ false true l i9 w9 (read_many_in (B l i9) (without_copies read_function_declaration)) _ (fun l' => read_many (B l' i9) read_function_declaration));
    [discriminate|apply many_steps; [apply declaration_steps|lia]|]. intros decls i10 w10 L10 _.
  eapply (bind_steps _ false false l i10 w10 (read_many_in (B l i10) (read_function_definition_in clone)) _ (fun l' => read_many (B l' i10) read_function_definition));
    [discriminate|apply many_steps; [apply definition_steps|lia]|]. intros defs i11 w11 L11 _.
  apply (done_steps pair). lia.
Qed.

(** Back to the instructions of the module. *)
Lemma copy_core : forall is w, exists js, copy_all (map from_Core is) w = (map from_Core js, snd (copy_all (map from_Core is) w))
  /\ copied clone w is js (snd (copy_all (map from_Core is) w)) /\ Forall2 same_kind is js.
Proof.
  induction is as [|i is IH]; intros w; cbn [map copy_all]; [exists []; repeat constructor|].
  assert ((exists op, i = Core_OpExtInst op) \/ (plain i /\ outline (from_Core i) <> None)) as [[op ->]|[P N]].
  { destruct i; try (right; split; [intros ?; discriminate|cbn; discriminate]); [left; eauto|].
    right. split; [intros ?; discriminate|]. cbn; unfold from_OpVariable. destruct (OpVariable_storage_class o); discriminate. }
  - cbn [from_Core copy_op]. destruct (c (OpExtInst_instruction op) w) as [y w1] eqn:Hc. destruct (IH w1) as (js & H1 & H2 & H3).
    destruct (copy_all (map from_Core is) w1) as [l w2]. cbn [snd] in *. injection H1 as ->.
    exists (extended (OpExtInst_result_type op) (OpExtInst_result_id op) (OpExtInst_set op) y :: js). split; [reflexivity|]. split.
    + destruct op as [t r s x]. apply (copied_extended clone w t r s x y w1); [|exact H2]. cbn in Hc. unfold clone. rewrite Hc. reflexivity.
    + constructor; [|exact H3]. split; [reflexivity|]. discriminate.
  - assert (copy_op (from_Core i) w = (from_Core i, w)) as ->.
    { pose proof (copy_no_ext [from_Core i] w ltac:(constructor; [exact N|constructor])) as Hc. cbn [copy_all] in Hc.
      destruct (copy_op (from_Core i) w) as [o' w']. injection Hc as -> ->. reflexivity. }
    destruct (IH w) as (js & H1 & H2 & H3). destruct (copy_all (map from_Core is) w) as [l w2]. cbn [snd] in *. injection H1 as ->.
    exists (i :: js). split; [reflexivity|]. split; [constructor; assumption|]. constructor; [|exact H3]. split; [reflexivity|]. intros v v' -> H. injection H as ->. reflexivity.
Qed.
Lemma same_kind_refl : forall i : Core E, same_kind i i.
Proof. intros i. split; [reflexivity|]. intros v v' -> H. injection H as ->. reflexivity. Qed.
Lemma same_kinds_refl : forall l : list (Core E), Forall2 same_kind l l.
Proof. induction l; constructor; [apply same_kind_refl|assumption]. Qed.

Theorem total_copies : forall m w, exists js w', copied clone w (examined m (validate m)) js w'
  /\ validate_in clone m w = (validate (with_instructions m (js ++ skipn (length js) (RawModule_instructions m))), w').
Proof.
  intros m w. set (is := RawModule_instructions m).
  (* the validated module with the copies in place *)
  assert (forall n js w', n <= length is -> copied clone w (firstn n is) js w' -> Forall2 same_kind (firstn n is) js ->
    copy_all (seg (map from_Core is) 0 n) w = (map from_Core js, w') ->
    length js = n /\ alike (map from_Core is) (map from_Core (js ++ skipn n is)) /\ seg (map from_Core (js ++ skipn n is)) 0 n = map from_Core js
    /\ Forall2 same_kind is (js ++ skipn n is)) as Place.
  { intros n js w' Ln Cp SK Hc.
    assert (length js = n) as Lj. { rewrite <- (Forall2_length SK), firstn_length. lia. }
    split; [exact Lj|]. split; [|split].
    - unfold alike. rewrite <- (firstn_skipn n is) at 1. rewrite !map_app. f_equal.
      pose proof (alike_copy (seg (map from_Core is) 0 n) w) as Al. rewrite Hc in Al. cbn [fst] in Al. unfold alike in Al. rewrite <- Al.
      unfold seg. cbn [skipn]. rewrite Nat.sub_0_r, firstn_map. reflexivity.
    - unfold seg. cbn [skipn]. rewrite Nat.sub_0_r, map_app, firstn_app, map_length, Lj, Nat.sub_diag, firstn_O, app_nil_r. rewrite <- Lj, <- (map_length from_Core js). apply firstn_all.
    - rewrite <- (firstn_skipn n is) at 1. apply Forall2_app; [exact SK|apply same_kinds_refl]. }
  assert (forall n, n <= length is -> exists js w', copied clone w (firstn n is) js w' /\ Forall2 same_kind (firstn n is) js
    /\ copy_all (seg (map from_Core is) 0 n) w = (map from_Core js, w')) as Copy.
  { intros n Ln. destruct (copy_core (firstn n is) w) as (js & H1 & H2 & H3). do 2 eexists. split; [exact H2|]. split; [exact H3|].
    unfold seg. cbn [skipn]. rewrite Nat.sub_0_r, firstn_map. exact H1. }
  assert (forall m', Forall2 same_kind is (RawModule_instructions m') -> forall e, validate m' = Err e -> validate m = Err e) as SameErr.
  { intros m' SK e V. pose proof (same_kinds m m' SK) as K. rewrite V in K. destruct (validate m); try contradiction. subst. reflexivity. }
  assert (forall m' lm, Forall2 same_kind is (RawModule_instructions m') -> validate m' = Ok lm -> exists lm', validate m = Ok lm') as SameOk.
  { intros m' lm SK V. pose proof (same_kinds m m' SK) as K. rewrite V in K. destruct (validate m); try contradiction. eauto. }
  pose proof (sections_steps (map from_Core is) w) as ST. rewrite validate_sections_in. unfold slice_new. fold is.
  destruct ST as [n sg w1 lm L C R P U|e n sg w1 En L C R U|n sg w1 L C N R U]; rewrite map_length in L; unfold vthen; rewrite R.
  - destruct (Copy n (proj2 L)) as (js & w' & Cp & SK & Hc). rewrite Hc in C. injection C as <- ->.
    destruct (Place n js w1 (proj2 L) Cp SK Hc) as (Lj & Al & Sg & SK').
    specialize (U _ Al Sg). unfold get_remaining, get_slot. cbn [insts index]. rewrite map_length.
    pose proof (validate_sections (with_instructions m (js ++ skipn n is))) as V. cbn [RawModule_instructions with_instructions] in V.
    unfold slice_new in V. rewrite U in V. cbn [bind] in V. unfold get_remaining, get_slot in V. cbn [insts index] in V.
    rewrite map_length, app_length, skipn_length, Lj in V. replace (n + (length is - n) - n) with (length is - n) in V by lia.
    exists js, w1. rewrite Lj, V.
    destruct (0 <? length is - n) eqn:G.
    + rewrite (SameErr (with_instructions m (js ++ skipn n is)) SK' _ V). split; [exact Cp|reflexivity].
    + destruct (SameOk (with_instructions m (js ++ skipn n is)) lm SK' V) as [lm' ->]. cbn [examined]. fold is.
      apply Nat.ltb_ge in G. rewrite firstn_all2 in Cp by lia. split; [exact Cp|reflexivity].
  - destruct (Copy n (proj2 L)) as (js & w' & Cp & SK & Hc). rewrite Hc in C. injection C as <- ->.
    destruct (Place n js w1 (proj2 L) Cp SK Hc) as (Lj & Al & Sg & SK').
    specialize (U _ Al Sg).
    pose proof (validate_sections (with_instructions m (js ++ skipn n is))) as V. cbn [RawModule_instructions with_instructions] in V.
    unfold slice_new in V. rewrite U in V. cbn [bind] in V. exists js, w1. rewrite Lj, V.
    rewrite (SameErr (with_instructions m (js ++ skipn n is)) SK' _ V). cbn [examined]. rewrite En. split; [exact Cp|reflexivity].
  - assert (no_ext (seg (map from_Core is) 0 n)) as N'. { unfold seg. cbn [skipn]. rewrite Nat.sub_0_r. exact N. }
    rewrite (copy_no_ext _ w N') in C. injection C as <- <-. specialize (U _ eq_refl eq_refl).
    exists [], w. cbn [app length skipn].
    pose proof (validate_sections m) as V. fold is in V. unfold slice_new in V. rewrite U in V. cbn [bind] in V.
    assert (validate (with_instructions m is) = Err MemoryModelMissing) as -> by (rewrite <- V; subst is; destruct m; reflexivity).
    rewrite V. cbn [examined error_index]. split; [constructor|reflexivity].
Qed.

End Total.

(** ** Any copy: after a panic the world is dead *)
Section Any.
Context {E W : Type} (clone : E -> W -> option E * W).
Definition dying (x : E) (w : W + W) : E * (W + W) :=
  match w with
  | inl w => match clone x w with (Some y, w) => (y, inl w) | (None, w) => (x, inr w) end
  | inr w => (x, inr w)
  end.
Definition survives (x : E) (w : W + W) : option E * (W + W) := let (y, w) := dying x w in (Some y, w).

(** [m] does what [m'] does until the world dies, and panics then. *)
Definition dies {A} (m : vrun (W := W) A) (m' : vrun (W := W + W) A) : Prop :=
  (forall w, match m' (inl w) with (r, inl w') => m w = (r, w') | (_, inr w') => m w = (Panic, w') end)
  /\ (forall w, snd (m' (inr w)) = inr w).

Lemma dies_pure {A} : forall r : outcome ValidationError A, dies (vpure r) (vpure r).
Proof. intros r. split; intros w; reflexivity. Qed.
Lemma dies_bind {A R} : forall (m : vrun A) m' (k : A -> vrun R) k', dies m m' -> (forall a, dies (k a) (k' a)) -> dies (vthen m k) (vthen m' k').
Proof.
  intros m m' k k' [Ha Hd] K. unfold vthen. split; intros w.
  - specialize (Ha w). destruct (m' (inl w)) as [[a|e| |] [w1|w1]]; rewrite Ha; try reflexivity.
    + exact (proj1 (K a) w1).
    + pose proof (proj2 (K a) w1) as Kd. destruct (k' a (inr w1)) as [r w2]. cbn in Kd. subst. reflexivity.
  - specialize (Hd w). destruct (m' (inr w)) as [[a|e| |] w1]; cbn in Hd; subst; try reflexivity. apply (proj2 (K a)).
Qed.
Lemma dies_clone : forall g, dies (clone_GroupCode clone g) (clone_GroupCode survives g).
Proof.
  intros g. split; intros w.
  - destruct g; try reflexivity. unfold clone_GroupCode, survives, dying. destruct (clone (OpExtInst_instruction o) w) as [[y|] w1]; reflexivity.
  - destruct g; reflexivity.
Qed.
Lemma dies_rest {T} : forall (f : PhaseIn (E := E) T) f', (forall s, dies (f s) (f' s)) ->
  forall fuel s out, dies (read_rest_in fuel s f out) (read_rest_in fuel s f' out).
Proof.
  intros f f' H. induction fuel as [|fuel IH]; intros s out; cbn [read_rest_in]; apply dies_bind; try apply H; intros [x s'|s']; try apply dies_pure. apply IH.
Qed.
Lemma dies_many {T} : forall (f : PhaseIn (E := E) T) f', (forall s, dies (f s) (f' s)) -> forall s, dies (read_many_in s f) (read_many_in s f').
Proof. intros f f' H s. apply dies_rest. exact H. Qed.
Lemma dies_code : forall s, dies (read_code_in clone s) (read_code_in survives s).
Proof.
  intros s. unfold read_code_in. destruct (first s) as [[]|]; try apply dies_pure. apply dies_bind; [apply dies_clone|]. intros item.
  apply dies_bind; [apply dies_pure|]. intros next. apply dies_pure.
Qed.
Lemma dies_block : forall s, dies (read_basic_block_in clone s) (read_basic_block_in survives s).
Proof.
  intros s. unfold read_basic_block_in. destruct (first s) as [[]|]; try apply dies_pure. apply dies_bind; [apply dies_pure|]. intros s1.
  apply dies_bind; [apply dies_many, dies_code|]. intros [code s2]. apply dies_bind; [apply dies_pure|]. intros [merge s3].
  apply dies_bind; [apply dies_pure|]. intros [branch s4]. apply dies_pure.
Qed.
Lemma dies_definition : forall s, dies (read_function_definition_in clone s) (read_function_definition_in survives s).
Proof.
  intros s. unfold read_function_definition_in. destruct (get_remaining s <? 2); [apply dies_pure|]. destruct (first s) as [[]|]; try apply dies_pure.
  apply dies_bind; [apply dies_pure|]. intros s1. apply dies_bind; [apply dies_many; intros; apply dies_pure|]. intros [params s2].
  apply dies_bind; [apply dies_many, dies_block|]. intros [blocks s3]. destruct (first s3) as [[]|]; try apply dies_pure.
  apply dies_bind; [apply dies_pure|]. intros s4. apply dies_pure.
Qed.
Lemma dies_validate : forall m, dies (validate_in clone m) (validate_in survives m).
Proof.
  intros m. unfold validate_in.
  repeat (apply dies_bind; [first [apply dies_pure | apply dies_many; intros; first [apply dies_pure | apply dies_definition]]|intros [? ?]]).
  destruct (0 <? _); apply dies_pure.
Qed.

Lemma copied_dying : forall w is js w', copied survives w is js w' -> match w with
  | inr d => w' = inr d
  | inl a => match w' with inl a' => copied clone a is js a' | inr d => copying_panics clone a is d end
  end.
Proof.
  intros w is js w' H. induction H as [w|w i is js w' P H IH|w t r s x y w1 is js w' Hc H IH].
  - destruct w; [constructor|reflexivity].
  - destruct w as [a|d]; [|exact IH]. destruct w' as [a'|d]; [constructor; assumption|].
    destruct IH as (before & t & r & s & x & after & js' & w1 & -> & H1 & H2). exists (i :: before), t, r, s, x, after, (i :: js'), w1.
    split; [reflexivity|]. split; [constructor; assumption|exact H2].
  - unfold survives, dying in Hc. destruct w as [a|d].
    + destruct (clone x a) as [[y'|] a1] eqn:Ha; injection Hc as <- <-.
      * destruct w' as [a'|d]; [econstructor; eassumption|].
        destruct IH as (before & t' & r' & s' & x' & after & js' & w1 & -> & H1 & H2).
        exists (extended t r s x :: before), t', r', s', x', after, (extended t r s y' :: js'), w1. split; [reflexivity|]. split; [econstructor; eassumption|exact H2].
      * cbn in IH. subst w'. exists [], t, r, s, x, is, [], a. split; [reflexivity|]. split; [constructor|exact Ha].
    + injection Hc as <- <-. exact IH.
Qed.

Lemma copied_functional : forall w is js w', copied clone w is js w' -> forall js2 w2, copied clone w is js2 w2 -> js2 = js /\ w2 = w'.
Proof.
  intros w is js w' H. induction H as [w|w i is js w' P H IH|w t r s x y w1 is js w' Hc H IH]; intros js2 w2 H2; inversion H2; subst.
  - split; reflexivity.
  - match goal with K : copied clone _ _ _ _ |- _ => destruct (IH _ _ K) as [-> ->] || fail end. split; reflexivity.
  - exfalso. eapply P. reflexivity.
  - exfalso. match goal with K : plain _ |- _ => eapply K end. reflexivity.
  - match goal with K : clone x w = _ |- _ => match type of K with _ = (Some y, w1) => fail 1 | _ => rewrite Hc in K; injection K as <- <- end end.
    match goal with K : copied clone _ _ _ _ |- _ => destruct (IH _ _ K) as [-> ->] end. split; reflexivity.
Qed.
Lemma copied_prefix : forall a b w js w', copied clone w (a ++ b) js w' -> exists js1 w1 js2, copied clone w a js1 w1 /\ copied clone w1 b js2 w'.
Proof.
  induction a as [|i a IH]; intros b w js w' H; [exists [], w, js; split; [constructor|exact H]|].
  inversion H; subst; destruct (IH _ _ _ _ ltac:(eassumption)) as (js1 & w2 & js2 & H1 & H2).
  - exists (i :: js1), w2, js2. split; [constructor; assumption|exact H2].
  - eexists (_ :: js1), w2, js2. split; [econstructor; eassumption|exact H2].
Qed.
Lemma panics_exclusive : forall w is js w' w2, copied clone w is js w' -> ~ copying_panics clone w is w2.
Proof.
  intros w is js w' w2 H (before & t & r & s & x & after & js1 & w1 & -> & H1 & H2). destruct (copied_prefix _ _ _ _ _ H) as (js3 & w3 & js4 & H3 & H4).
  destruct (copied_functional _ _ _ _ H1 _ _ H3) as [-> ->]. inversion H4; subst; [match goal with K : plain _ |- _ => eapply K; reflexivity end|]. congruence.
Qed.
Lemma app_ext_unique : forall (b1 b2 : list (Core E)) e1 e2 a1 a2, b1 ++ e1 :: a1 = b2 ++ e2 :: a2 ->
  (b1 = b2 /\ e1 = e2) \/ (exists l, b2 = b1 ++ e1 :: l) \/ (exists l, b1 = b2 ++ e2 :: l).
Proof.
  induction b1 as [|x b1 IH]; intros [|y b2] e1 e2 a1 a2 H; cbn in *; injection H as -> H.
  - left. split; reflexivity.
  - right. left. exists b2. reflexivity.
  - right. right. exists b1. reflexivity.
  - destruct (IH _ _ _ _ _ H) as [[-> ->]|[[l ->]|[l ->]]]; [left; split; reflexivity|right; left|right; right]; eauto.
Qed.
Lemma panics_functional : forall w is w1 w2, copying_panics clone w is w1 -> copying_panics clone w is w2 -> w1 = w2.
Proof.
  intros w is w1 w2 (b1 & t & r & s & x & a1 & js1 & v1 & -> & H1 & P1) (b2 & t' & r' & s' & x' & a2 & js2 & v2 & Eq & H2 & P2).
  destruct (app_ext_unique _ _ _ _ _ _ Eq) as [[-> Ex]|[[l ->]|[l ->]]].
  - injection Ex as -> -> -> ->. destruct (copied_functional _ _ _ _ H1 _ _ H2) as [-> ->]. congruence.
  - exfalso. eapply (panics_exclusive _ _ _ _ w1 H2). exists b1, t, r, s, x, l, js1, v1. repeat split; assumption.
  - exfalso. eapply (panics_exclusive _ _ _ _ w2 H1). exists b2, t', r', s', x', l, js2, v2. repeat split; assumption.
Qed.

Theorem validate_copies : forall m w r w', validate_in clone m w = (r, w') <->
  (exists js, copied clone w (examined m (validate m)) js w'
     /\ r = validate (with_instructions m (js ++ skipn (length js) (RawModule_instructions m))))
  \/ (copying_panics clone w (examined m (validate m)) w' /\ r = Panic).
Proof.
  intros m w r w'.
  assert (forall r w', validate_in clone m w = (r, w') ->
    (exists js, copied clone w (examined m (validate m)) js w'
     /\ r = validate (with_instructions m (js ++ skipn (length js) (RawModule_instructions m))))
    \/ (copying_panics clone w (examined m (validate m)) w' /\ r = Panic)) as Fwd.
  { clear r w'. intros r w' H. destruct (total_copies dying m (inl w)) as (js & v & Cp & V).
    pose proof (proj1 (dies_validate m) w) as D. change (validate_in survives m (inl w) =
      (validate (with_instructions m (js ++ skipn (length js) (RawModule_instructions m))), v)) in V. rewrite V in D.
    apply copied_dying in Cp. destruct v as [a|d]; rewrite H in D; injection D as -> ->.
    - left. exists js. split; [exact Cp|reflexivity].
    - right. split; [exact Cp|reflexivity]. }
  split; [apply Fwd|]. intros H. destruct (validate_in clone m w) as [r0 w0] eqn:V. specialize (Fwd r0 w0 eq_refl).
  destruct H as [(js & Cp & ->)|[Pn ->]], Fwd as [(js0 & Cp0 & ->)|[Pn0 ->]].
  - destruct (copied_functional _ _ _ _ Cp _ _ Cp0) as [-> ->]. reflexivity.
  - exfalso. eapply panics_exclusive; eassumption.
  - exfalso. eapply panics_exclusive; eassumption.
  - rewrite (panics_functional _ _ _ _ Pn Pn0). reflexivity.
Qed.

Lemma copied_kinds : forall w is js w', copied clone w is js w' -> Forall2 same_kind is js.
Proof.
  intros w is js w' H. induction H as [w|w i is js w' P H IH|w t r s x y w1 is js w' Hc H IH]; constructor; try exact IH.
  - apply same_kind_refl.
  - split; [reflexivity|discriminate].
Qed.
Lemma examined_prefix : forall m : RawModule E, exists rest, RawModule_instructions m = examined m (validate m) ++ rest.
Proof.
  intros m. unfold examined. destruct (validate m) as [lm|e| |]; try (exists []; rewrite app_nil_r; reflexivity).
  destruct (error_index e) as [n|]; [exists (skipn n (RawModule_instructions m)); symmetry; apply firstn_skipn|exists (RawModule_instructions m); reflexivity].
Qed.
Lemma replaced_kinds : forall (m : RawModule E) w js w', copied clone w (examined m (validate m)) js w' ->
  Forall2 same_kind (RawModule_instructions m) (js ++ skipn (length js) (RawModule_instructions m)).
Proof.
  intros m w js w' H. apply copied_kinds in H. destruct (examined_prefix m) as [rest ->]. rewrite <- (Forall2_length H).
  rewrite skipn_app, skipn_all, Nat.sub_diag. cbn. apply Forall2_app; [exact H|apply same_kinds_refl].
Qed.

(** Copies do not decide the verdict. *)
Theorem verdict_without_copies : forall m w r w', validate_in clone m w = (r, w') ->
  match r with
  | Ok _ => exists lm, validate m = Ok lm
  | Err e => validate m = Err e
  | Panic => copying_panics clone w (examined m (validate m)) w'
  | OutOfFuel => False
  end.
Proof.
  intros m w r w' H. apply validate_copies in H. destruct H as [(js & Cp & ->)|[Pn ->]]; [|exact Pn].
  pose proof (same_kinds m (with_instructions m (js ++ skipn (length js) (RawModule_instructions m))) (replaced_kinds _ _ _ _ Cp)) as K.
  destruct (validate_total (with_instructions m (js ++ skipn (length js) (RawModule_instructions m)))) as [[lm V]|[e V]]; rewrite V in *;
    destruct (validate m); try contradiction; [eauto|subst; reflexivity].
Qed.

(** An accepted module holds the copies. *)
Theorem accepted_copies : forall m w lm w', validate_in clone m w = (Ok lm, w') <->
  copied clone w (RawModule_instructions m) (write_module lm) w' /\ canonical lm.
Proof.
  intros m w lm w'. split.
  - intros H. pose proof (verdict_without_copies _ _ _ _ H) as [lm0 V0]. apply validate_copies in H.
    rewrite V0 in H. cbn [examined] in H. destruct H as [(js & Cp & V)|[_ H]]; [|discriminate H].
    pose proof (copied_kinds _ _ _ _ Cp) as K. rewrite <- (Forall2_length K), skipn_all, app_nil_r in V. symmetry in V. apply validate_iff in V.
    destruct V as [V C]. cbn in V. subst js. split; assumption.
  - intros [Cp C]. assert (validate (with_instructions m (write_module lm)) = Ok lm) as V by (apply validate_iff; split; [reflexivity|exact C]).
    pose proof (copied_kinds _ _ _ _ Cp) as K. pose proof (same_kinds m (with_instructions m (write_module lm)) K) as S. rewrite V in S.
    destruct (validate m) as [lm0|e| |] eqn:V0; try contradiction. apply validate_copies. left. exists (write_module lm). rewrite V0. cbn [examined].
    split; [exact Cp|]. rewrite <- (Forall2_length K), skipn_all, app_nil_r. symmetry. exact V.
Qed.

Lemma copied_faithful : forall w is js w', (forall x w, fst (clone x w) = Some x) -> copied clone w is js w' -> js = is.
Proof.
  intros w is js w' F H. induction H as [w|w i is js w' P H IH|w t r s x y w1 is js w' Hc H IH]; [reflexivity|f_equal; exact IH|].
  specialize (F x w). rewrite Hc in F. injection F as ->. f_equal. exact IH.
Qed.
Theorem faithful_copies : (forall x w, fst (clone x w) = Some x) -> forall m w, fst (validate_in clone m w) = validate m.
Proof.
  intros F m w. destruct (validate_in clone m w) as [r w'] eqn:H. apply validate_copies in H. cbn [fst]. destruct H as [(js & Cp & ->)|[Pn _]].
  - rewrite (copied_faithful _ _ _ _ F Cp). destruct (examined_prefix m) as [rest H].
    assert (examined m (validate m) ++ skipn (length (examined m (validate m))) (RawModule_instructions m) = RawModule_instructions m) as ->.
    { set (e := examined m (validate m)) in *. clearbody e. rewrite H, skipn_app, skipn_all, Nat.sub_diag. reflexivity. }
    destruct m; reflexivity.
  - destruct Pn as (b & t & q & s & x & a & js & w1 & _ & _ & P). specialize (F x w1). rewrite P in F. discriminate F.
Qed.
End Any.
