(** Functions in which every block is used once, C138. *)
From Coq Require Import Lia Permutation.
From Verif Require Import Base Types Ops Groups ExtSet ControlFlow Spec_Flow Spec_Invariance Spec_Structured Spec_Unshare
  Proofs_Flow Proofs_Flow2 Proofs_Flow3 Proofs_Structured Proofs_Cost.

(** ** Exits stand where the loop starts again *)
Lemma placed_tail : forall s stops loop next tail, placed stops loop s next -> (forall h m, loop = Some (h, m) -> In h stops) ->
  (tail = false -> forall h m, loop = Some (h, m) -> next <> h) -> exits_last tail s.
Proof.
  assert (Q : forall l, Forall (fun s => forall stops loop next tail, placed stops loop s next -> (forall h m, loop = Some (h, m) -> In h stops) ->
      (tail = false -> forall h m, loop = Some (h, m) -> next <> h) -> exits_last tail s) l ->
    forall stops loop next tail, each (placed stops loop) l next -> (forall h m, loop = Some (h, m) -> In h stops) ->
      (tail = false -> forall h m, loop = Some (h, m) -> next <> h) -> tail_last exits_last tail l).
  { intros l F. induction F as [|s l Fs F IH]; intros stops loop next tail PL NH NT; [exact I|]. cbn [each] in PL. destruct PL as [Ps Pl].
    pose proof (IH stops loop next tail Pl NH NT) as TL. destruct l as [|s' l]; cbn [tail_last].
    - apply (Fs stops loop next tail Ps NH NT).
    - split; [|exact TL]. apply (Fs stops loop (start s') false Ps NH). intros _ h m X Y. cbn [each] in Pl. destruct Pl as [Pl _]. pose proof (NH h m X) as Z. rewrite <- Y in Z.
      destruct s'; cbn [placed start] in *; destruct Pl as [Pl _]; exact (Pl Z). }
  induction s as [id|id cond yes no hint w IHy IHn|id ct body hint IHb|id cond rest w IHr|id cond rest w IHr] using statement_ind'; intros stops loop next tail PL NH NT;
    cbn [placed] in PL; destruct PL as [_ PL]; cbn [exits_last].
  - exact I.
  - destruct PL as [Py Pn]. split; [apply (Q yes IHy _ _ _ _ Py)|apply (Q no IHn _ _ _ _ Pn)]; try exact NT; intros h m X; right; exact (NH h m X).
  - apply (Q body IHb _ _ _ _ PL); [|discriminate]. intros h m X. injection X as <- _. left. reflexivity.
  - destruct PL as [(m & X) Pr]. subst loop. split; [destruct tail; [reflexivity|destruct (NT eq_refl _ _ eq_refl eq_refl)]|]. apply (Q rest IHr _ _ _ _ Pr NH). discriminate.
  - destruct PL as [(m & X & _) Pr]. subst loop. split; [destruct tail; [reflexivity|destruct (NT eq_refl _ _ eq_refl eq_refl)]|]. apply (Q rest IHr _ _ _ _ Pr NH). discriminate.
Qed.
Lemma placed_program_tail : forall p last, placed_program p last -> tail_last exits_last false p.
Proof.
  unfold placed_program. induction p as [|s l IH]; intros last PL; [exact I|]. cbn [each] in PL. destruct PL as [Ps Pl]. pose proof (IH last Pl) as TL.
  assert (X : exits_last false s) by (apply (placed_tail s _ _ _ false Ps); discriminate). destruct l as [|s' l]; cbn [tail_last]; auto.
Qed.

(** ** Other labels *)
Section Origin.
Context (o : BlockId -> BlockId).
Fixpoint back (s : statement) : statement :=
  match s with
  | Step id => Step (o id)
  | Choose id c yes no h w => Choose (o id) c (map back yes) (map back no) h w
  | Repeat id ct body h => Repeat (o id) ct (map back body) h
  | LeaveUnless id c rest w => LeaveUnless (o id) c (map back rest) w
  | RestartUnless id c rest w => RestartUnless (o id) c (map back rest) w
  end.
Lemma back_start : forall s, start (back s) = o (start s).
Proof. intros []; reflexivity. Qed.
Lemma back_first : forall l next, first_of (map back l) (o next) = o (first_of l next).
Proof. intros [|s l] next; [reflexivity|]. cbn [map first_of]. apply back_start. Qed.
Lemma map_app_split : forall L (a b : list BlockId), map o L = a ++ b -> exists La Lb, L = La ++ Lb /\ map o La = a /\ map o Lb = b.
Proof. intros L a b H. apply map_eq_app in H as (La & Lb & -> & A & B). eauto. Qed.
Definition lifts (s : statement) : Prop := forall L, map o L = blocks_of s -> exists s', back s' = s /\ blocks_of s' = L.
Lemma lift_all : forall l, Forall lifts l -> forall L, map o L = flat_map blocks_of l -> exists l', map back l' = l /\ flat_map blocks_of l' = L.
Proof.
  intros l F. induction F as [|s l Fs F IH]; intros L H; cbn [flat_map] in H.
  - apply map_eq_nil in H as ->. exists []. split; reflexivity.
  - apply map_app_split in H as (L1 & L2 & -> & H1 & H2). destruct (Fs L1 H1) as (s' & S1 & S2). destruct (IH L2 H2) as (l' & T1 & T2). exists (s' :: l'). cbn [map flat_map]. subst. split; reflexivity.
Qed.
Lemma lift : forall s, lifts s.
Proof.
  induction s as [id|id cond yes no hint w IHy IHn|id ct body hint IHb|id cond rest w IHr|id cond rest w IHr] using statement_ind'; intros L H; cbn [blocks_of] in H;
    destruct L as [|x L]; try discriminate H; cbn [map] in H; injection H as <- H.
  - apply map_eq_nil in H as ->. exists (Step x). split; reflexivity.
  - apply map_app_split in H as (L1 & L2 & -> & H1 & H2). destruct (lift_all yes IHy L1 H1) as (y & <- & <-), (lift_all no IHn L2 H2) as (n & <- & <-). exists (Choose x cond y n hint w). split; reflexivity.
  - destruct (lift_all body IHb L H) as (y & <- & <-). exists (Repeat x ct y hint). split; reflexivity.
  - destruct (lift_all rest IHr L H) as (y & <- & <-). exists (LeaveUnless x cond y w). split; reflexivity.
  - destruct (lift_all rest IHr L H) as (y & <- & <-). exists (RestartUnless x cond y w). split; reflexivity.
Qed.
Lemma lift_program : forall l L, map o L = flat_map blocks_of l -> exists l', map back l' = l /\ flat_map blocks_of l' = L.
Proof. intros l. apply lift_all. apply Forall_forall. intros s _. apply lift. Qed.

Lemma back_exit : forall s, is_exit (back s) = is_exit s.
Proof. intros []; reflexivity. Qed.
Lemma back_arm : forall l, Forall (fun s => chain_of (back s) = rename_chain o (chain_of s)) l -> arm chain_of (map back l) = rename_chain o (arm chain_of l).
Proof.
  intros l F. destruct F as [|s l Fs F]; [reflexivity|]. destruct F as [|s' l Fs' F]; cbn [map arm].
  - rewrite back_exit, Fs. destruct (is_exit s); reflexivity.
  - cbn [rename_chain map]. rewrite Fs, Fs'. do 3 f_equal. induction F as [|x l Fx F IH]; [reflexivity|]. cbn [map]. rewrite Fx, IH. reflexivity.
Qed.
Lemma back_chain : forall s, chain_of (back s) = rename_chain o (chain_of s).
Proof.
  induction s as [id|id cond yes no hint w IHy IHn|id ct body hint IHb|id cond rest w IHr|id cond rest w IHr] using statement_ind'; cbn [back chain_of rename_chain]; rewrite ?back_arm by assumption; reflexivity.
Qed.
Lemma back_program_chain : forall l last, program_chain (map back l) (o last) = rename_chain o (program_chain l last).
Proof.
  intros [|s l] last; [reflexivity|]. cbn [map program_chain rename_chain]. f_equal. rewrite back_chain. cbn [app map]. f_equal. rewrite map_app, !map_map. f_equal. apply map_ext. exact back_chain.
Qed.
Definition back_loop (loop : option (BlockId * BlockId)) := option_map (fun '(h, m) => (o h, o m)) loop.
Lemma back_sequence : forall l, Forall (fun s => forall loop next, lower (back_loop loop) (back s) (o next) = map (origin_skeleton o) (lower loop s next)) l ->
  forall loop next, sequence (lower (back_loop loop)) (map back l) (o next) = map (origin_skeleton o) (sequence (lower loop) l next).
Proof.
  intros l F. induction F as [|s l Fs F IH]; intros loop next; [reflexivity|]. cbn [map sequence]. rewrite map_app, back_first, Fs, IH. reflexivity.
Qed.
Lemma back_lower : forall s loop next, lower (back_loop loop) (back s) (o next) = map (origin_skeleton o) (lower loop s next).
Proof.
  induction s as [id|id cond yes no hint w IHy IHn|id ct body hint IHb|id cond rest w IHr|id cond rest w IHr] using statement_ind'; intros loop next; cbn [back lower map].
  - reflexivity.
  - rewrite map_app, !back_first, (back_sequence yes IHy), (back_sequence no IHn). reflexivity.
  - rewrite back_first. change (Some (o id, o next)) with (back_loop (Some (id, next))). rewrite (back_sequence body IHb). reflexivity.
  - rewrite back_first, (back_sequence rest IHr). destruct loop as [[h m]|]; reflexivity.
  - rewrite back_first, (back_sequence rest IHr). destruct loop as [[h m]|]; reflexivity.
Qed.
Lemma back_lower_program : forall l last merge, lower_program (map back l) (o last) merge = map (origin_skeleton o) (lower_program l last merge).
Proof.
  intros l last merge. unfold lower_program. rewrite map_app. f_equal. change None with (back_loop None) at 1. apply back_sequence. apply Forall_forall. intros s _. apply back_lower.
Qed.
Lemma back_tail : forall l, Forall (fun s => forall tail, exits_last tail (back s) -> exits_last tail s) l -> forall tail, tail_last exits_last tail (map back l) -> tail_last exits_last tail l.
Proof.
  intros l F. induction F as [|s l Fs F IH]; intros tail T; [exact I|]. destruct l as [|s' l]; [exact (Fs tail T)|]. destruct T as [T1 T2]. split; [exact (Fs false T1)|exact (IH tail T2)].
Qed.
Lemma back_exits : forall s tail, exits_last tail (back s) -> exits_last tail s.
Proof.
  induction s as [id|id cond yes no hint w IHy IHn|id ct body hint IHb|id cond rest w IHr|id cond rest w IHr] using statement_ind'; intros tail T; cbn [back exits_last] in *.
  - exact I.
  - destruct T as [T1 T2]. split; [exact (back_tail yes IHy tail T1)|exact (back_tail no IHn tail T2)].
  - exact (back_tail body IHb true T).
  - destruct T as [T1 T2]. split; [exact T1|exact (back_tail rest IHr true T2)].
  - destruct T as [T1 T2]. split; [exact T1|exact (back_tail rest IHr true T2)].
Qed.

(** ** Executions *)
Lemma exec_back : forall c', (forall t e, exec c' t e -> exec (rename_chain o c') (origin_events o t) e).
Proof.
  assert (X : (forall c t e, exec c t e -> exec (rename_chain o c) (origin_events o t) e) /\ (forall l t e, exec_list l t e -> exec_list (map (rename_chain o) l) (origin_events o t) e)).
  { apply exec_exec_list_ind; intros; cbn [rename_chain origin_events map fst snd] in *; fold (origin_events o) in *.
    all: try (econstructor; eassumption).
    - apply exec_selection. destruct taken; assumption.
    - unfold origin_events. cbn [map fst snd]. rewrite map_app. eapply exec_loop_again; eassumption.
    - unfold origin_events. rewrite map_app. apply exec_cons; assumption. }
  intros c'. exact (proj1 X c').
Qed.
Lemma exec_forth : (forall c t e, exec c t e -> forall c', c = rename_chain o c' -> exists t', exec c' t' e /\ t = origin_events o t')
  /\ (forall l t e, exec_list l t e -> forall l', l = map (rename_chain o) l' -> exists t', exec_list l' t' e /\ t = origin_events o t').
Proof.
  apply exec_exec_list_ind.
  - intros c c' _. exists []. split; [constructor|reflexivity].
  - intros id [] Q; try discriminate Q. injection Q as ->. eexists [_]. split; [constructor|reflexivity].
  - intros l t e X IH [] Q; try discriminate Q. injection Q as Q. destruct (IH _ Q) as (t' & X' & ->). exists t'. split; [constructor; exact X'|reflexivity].
  - intros id lhs rhs hint weights taken t e X IH [] Q; try discriminate Q. injection Q as -> -> -> -> ->.
    match goal with _ : exec (if taken then rename_chain o ?a else rename_chain o ?b) _ _ |- _ => destruct (IH (if taken then a else b)) as (t' & X' & ->); [destruct taken; reflexivity|] end.
    eexists (_ :: t'). split; [apply exec_selection; exact X'|reflexivity].
  - intros id inner hint weights t X IH [] Q; try discriminate Q. injection Q as -> -> -> ->. destruct (IH _ eq_refl) as (t' & X' & ->). eexists (_ :: t'). split; [apply exec_loop_leave; exact X'|reflexivity].
  - intros id inner hint weights t X IH [] Q; try discriminate Q. injection Q as -> -> -> ->. destruct (IH _ eq_refl) as (t' & X' & ->). eexists (_ :: t'). split; [apply exec_loop_interrupted; exact X'|reflexivity].
  - intros id inner hint weights t1 e1 t2 e X IH O Y IH2 [] Q; try discriminate Q. pose proof (IH2 _ Q) as (t2' & Y' & ->). injection Q as -> -> -> ->. destruct (IH _ eq_refl) as (t1' & X' & ->).
    eexists (_ :: t1' ++ t2'). split; [eapply exec_loop_again; eassumption|]. unfold origin_events. cbn [map]. rewrite map_app. reflexivity.
  - intros [] Q; try discriminate Q. exists []. split; [constructor|reflexivity].
  - intros [] Q; try discriminate Q. exists []. split; [constructor|reflexivity].
  - intros [] Q; try discriminate Q. exists []. split; [constructor|reflexivity].
  - intros c l t1 t2 e X IH Y IH2 [|c' l'] Q; try discriminate Q. injection Q as Q1 Q2. destruct (IH _ Q1) as (t1' & X' & ->), (IH2 _ Q2) as (t2' & Y' & ->).
    exists (t1' ++ t2'). split; [apply exec_cons; assumption|]. unfold origin_events. rewrite map_app. reflexivity.
  - intros c l t e X IH N [|c' l'] Q; try discriminate Q. injection Q as Q1 Q2. destruct (IH _ Q1) as (t' & X' & ->). exists t'. split; [apply exec_exit; assumption|reflexivity].
Qed.
End Origin.

Theorem same_executions : forall E E' (f : FunctionDefinition E) (f' : FunctionDefinition E') chain chain' origin, returns f (Ok chain) -> returns f' (Ok chain') -> rename_chain origin chain' = chain ->
  forall t, complete_run f t <-> exists t', complete_run f' t' /\ t = origin_events origin t'.
Proof.
  intros E E' f f' chain chain' o [_ [d F]] [_ [d' F']] <- t. rewrite <- (runs_complete f d _ F t). split.
  - intros X. destruct (proj1 (exec_forth o) _ _ _ X chain' eq_refl) as (t' & Y & ->). exists t'. split; [|reflexivity]. apply (runs_complete f' d' chain' F'). exact Y.
  - intros (t' & Y & ->). apply exec_back. apply (runs_complete f' d' chain' F'). exact Y.
Qed.

(** ** The function *)
Lemma origin_numbers : forall base (ids : list BlockId), exists o : BlockId -> BlockId, map o (numbers_from base (length ids)) = ids.
Proof.
  intros base ids. exists (fun n => nth (N.to_nat (n - base)) ids 0%N). unfold numbers_from. rewrite map_map. unfold BlockId in *. apply (nth_ext _ _ 0%N 0%N); [rewrite map_length, seq_length; reflexivity|].
  intros n L. rewrite map_length, seq_length in L. set (h := fun k => nth (N.to_nat (base + N.of_nat k - base)) ids 0%N). rewrite (nth_indep _ 0%N (h 0)) by (rewrite map_length, seq_length; exact L).
  rewrite map_nth, seq_nth by exact L. unfold h. cbn [Nat.add]. f_equal. lia.
Qed.
Lemma numbers_differ : forall base n, NoDup (numbers_from base n).
Proof. intros base n. unfold numbers_from. apply FinFun.Injective_map_NoDup; [|apply seq_NoDup]. intros a b Q. lia. Qed.
Lemma program_labels : forall l last merge, map (fun b : BlockId * option GroupMerge * GroupBranch => fst (fst b)) (lower_program l last merge) = flat_map blocks_of l ++ [last].
Proof. intros l last merge. unfold lower_program. rewrite map_app, sequence_labels. reflexivity. Qed.

Section Make.
Context {E : Type} (f : FunctionDefinition E) (o : N -> N).
Definition code_at (id : BlockId) : list (GroupCode E) := match find (fun b => N.eqb (label_of b) id) (FunctionDefinition_blocks f) with Some b => BasicBlock_code b | None => [] end.
Definition copy (s : BlockId * option GroupMerge * GroupBranch) : BasicBlock E := let '(l, m, b) := s in Build_BasicBlock (Build_OpLabel l) (code_at (o l)) m b.
Lemma copy_skeleton : forall s, skeleton (copy s) = s.
Proof. intros [[l m] b]. reflexivity. Qed.
Lemma code_found : forall b, NoDup (labels f) -> In b (FunctionDefinition_blocks f) -> code_at (label_of b) = BasicBlock_code b.
Proof.
  unfold labels, code_at. intros b. induction (FunctionDefinition_blocks f) as [|x l IH]; intros D I; [destruct I|]. cbn [map] in D. inversion D as [|? ? N D']; subst. cbn [find].
  destruct (N.eqb_spec (label_of x) (label_of b)) as [Q|Q].
  - destruct I as [->|I]; [reflexivity|]. exfalso. apply N. rewrite Q. apply in_map. exact I.
  - destruct I as [->|I]; [destruct (Q eq_refl)|]. exact (IH D' I).
Qed.
End Make.

Theorem unshare : forall E (f : FunctionDefinition E) chain, returns f (Ok chain) -> forall base, exists f' chain' origin, returns f' (Ok chain') /\ rename_chain origin chain' = chain
  /\ labels f' = numbers_from base (length (chain_ids chain)) /\ chain_ids chain' = labels f' /\ made_of_copies origin f f'
  /\ FunctionDefinition_function f' = FunctionDefinition_function f /\ FunctionDefinition_parameters f' = FunctionDefinition_parameters f
  /\ exists program last, written_from f' program last.
Proof.
  intros E f chain R base. pose proof (proj1 (structured_iff f chain) R) as (D & p & last & mg & PL & IN & En & ->). rewrite program_ids.
  destruct (origin_numbers base (flat_map blocks_of p ++ [last])) as [o O]. pose proof O as O'. apply map_eq_app in O' as (L1 & L2 & Q & O1 & O2).
  destruct L2 as [|last' [|? ?]]; try discriminate O2. cbn [map] in O2. injection O2 as O2. destruct (lift_program o p L1 O1) as (p' & P1 & P2).
  set (f' := Build_FunctionDefinition (FunctionDefinition_function f) (FunctionDefinition_parameters f) (map (copy f o) (lower_program p' last' mg))).
  assert (LB : labels f' = numbers_from base (length (flat_map blocks_of p ++ [last]))).
  { refine (eq_trans _ (eq_sym Q)). rewrite <- P2, <- (program_labels p' last' mg). unfold labels, f'. cbn [FunctionDefinition_blocks]. rewrite map_map. apply map_ext. intros [[l m] b]. reflexivity. }
  assert (W : written_from f' p' last').
  { split; [|split; [|split]].
    - apply (back_tail o p'); [apply Forall_forall; intros s _; apply back_exits|]. rewrite P1. exact (placed_program_tail p last PL).
    - rewrite P2. refine (eq_ind _ (@NoDup BlockId) (numbers_differ _ _) _ Q).
    - exists mg. unfold f'. cbn [FunctionDefinition_blocks]. rewrite map_map, (map_ext _ (fun s => s) (copy_skeleton f o)), map_id. apply Permutation_refl.
    - unfold entry. assert (X : exists tl, labels f' = first_of p' last' :: tl).
      { rewrite (eq_trans LB Q), <- P2. destruct p' as [|s p']; [exists []; reflexivity|]. cbn [flat_map first_of]. destruct s; cbn [blocks_of start app]; eexists; reflexivity. }
      destruct X as [tl X]. unfold labels in X. destruct (FunctionDefinition_blocks f') as [|b bs]; [discriminate X|]. injection X as X _. exists b, bs. split; [reflexivity|exact X]. }
  assert (R' : returns f' (Ok (program_chain p' last'))).
  { destruct W as (W1 & W2 & (m & W3) & W4). exact (structured_round_trip f' p' last' m W1 W2 W3 W4). }
  exists f', (program_chain p' last'), o. split; [exact R'|]. split; [rewrite <- back_program_chain, P1, O2; reflexivity|]. split; [exact LB|].
  split; [rewrite program_ids, (eq_trans LB Q), P2; reflexivity|]. split; [|split; [reflexivity|]; split; [reflexivity|]; exists p', last'; exact W].
  intros b' X. unfold f' in X. cbn [FunctionDefinition_blocks] in X. apply in_map_iff in X as (s & <- & X).
  assert (Y : In (origin_skeleton o s) (lower_program p last mg)) by (rewrite <- P1, <- O2, back_lower_program; apply in_map; exact X).
  apply IN in Y. apply in_map_iff in Y as (b & Y & Z). exists b. split; [exact Z|]. rewrite copy_skeleton. split; [|exact Y].
  rewrite <- (code_found f b D Z). destruct s as [[l m] br]. cbn [copy BasicBlock_code]. f_equal. unfold skeleton in Y. destruct br; cbn [origin_skeleton] in Y; congruence.
Qed.

(** ** How many blocks *)
Lemma rename_ids : forall o c, chain_ids (rename_chain o c) = map o (chain_ids c).
Proof.
  intros o. fix IH 1. intros c. destruct c as [id|l|id lhs rhs h w|id inner h w| |]; cbn [rename_chain chain_ids map]; try reflexivity.
  - induction l as [|x l IHl]; [reflexivity|]. cbn [map flat_map]. rewrite map_app, IH, IHl. reflexivity.
  - rewrite map_app, !IH. reflexivity.
  - rewrite IH. reflexivity.
Qed.
Theorem unshared_size : forall E E' (f : FunctionDefinition E) (f' : FunctionDefinition E') chain chain' origin,
  returns f (Ok chain) -> returns f' (Ok chain') -> rename_chain origin chain' = chain -> NoDup (chain_ids chain') ->
  length (chain_ids chain) <= length (FunctionDefinition_blocks f').
Proof.
  intros E E' f f' chain chain' o R [_ [d F]] <- N. rewrite rename_ids, map_length. rewrite <- (map_length label_of (FunctionDefinition_blocks f')). apply NoDup_incl_length; [exact N|].
  intros id X. destruct (chain_ids_exist f' d chain' F id X) as (b & B & <-). apply in_map. exact B.
Qed.
Lemma occurrences_length : forall id l, (Spec_Flow.occurrences id l <= N.of_nat (length l))%N.
Proof. intros id l. induction l as [|x l IH]; [reflexivity|]. cbn [Spec_Flow.occurrences length]. destruct (N.eqb x id); lia. Qed.
Theorem unshared_large : forall E n, exists (f : FunctionDefinition E) chain, length (FunctionDefinition_blocks f) = 2 * n + 1 /\ returns f (Ok chain)
  /\ forall E' (f' : FunctionDefinition E') chain' origin, returns f' (Ok chain') -> rename_chain origin chain' = chain -> NoDup (chain_ids chain') ->
     (2 ^ N.of_nat n <= N.of_nat (length (FunctionDefinition_blocks f')))%N.
Proof.
  intros E n. destruct (exponential (E := E) n) as (f & c & id & L & R & O). exists f, c. split; [exact L|]. split; [exact R|]. intros E' f' c' o R' Q N.
  pose proof (unshared_size E E' f f' c c' o R R' Q N) as X. pose proof (occurrences_length id (chain_ids c)) as Y. rewrite O in Y. lia.
Qed.
