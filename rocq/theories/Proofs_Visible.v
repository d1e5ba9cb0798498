(** Lemmas for C108: a chain determines what is visible of the blocks it names, and is determined by it. *)
From Verif Require Import Base Types Ops Groups ExtSet ControlFlow Spec_Flow Spec_Structured Spec_Visible Proofs_Flow Proofs_Structured Proofs_Cost.

Notation block_tuple := (BlockId * option GroupMerge * GroupBranch)%type.
Definition seen (t : block_tuple) : BlockId * (option GroupMerge * GroupBranch) := let '(id, m, b) := t in (id, visible_of m b).

(** ** Other conditions and continue targets *)
Section Redirect.
Context (cond target : BlockId -> OpId).
Fixpoint redirect (s : statement) : statement :=
  match s with
  | Step id => Step id
  | Choose id _ yes no h w => Choose id (cond id) (map redirect yes) (map redirect no) h w
  | Repeat id _ body h => Repeat id (target id) (map redirect body) h
  | LeaveUnless id _ rest w => LeaveUnless id (cond id) (map redirect rest) w
  | RestartUnless id _ rest w => RestartUnless id (cond id) (map redirect rest) w
  end.
Definition fix_tuple (t : block_tuple) : block_tuple :=
  let '(id, m, b) := t in
  (id, match m with
       | Some (GroupMerge_OpLoopMerge m) => Some (GroupMerge_OpLoopMerge (Build_OpLoopMerge (OpLoopMerge_merge_block m) (target id) (OpLoopMerge_loop_control m)))
       | m => m
       end,
   match b with
   | GroupBranch_OpBranchConditional b => GroupBranch_OpBranchConditional (Build_OpBranchConditional (cond id) (OpBranchConditional_true_label b) (OpBranchConditional_false_label b)
                                          (OpBranchConditional_weights b))
   | b => b
   end).
Lemma redirect_start : forall s, start (redirect s) = start s.
Proof. intros []; reflexivity. Qed.
Lemma redirect_first : forall l next, first_of (map redirect l) next = first_of l next.
Proof. intros [|s l] next; [reflexivity|]. apply redirect_start. Qed.
Lemma redirect_exit : forall s, is_exit (redirect s) = is_exit s.
Proof. intros []; reflexivity. Qed.
Lemma lower_redirect : forall s loop next, lower loop (redirect s) next = map fix_tuple (lower loop s next).
Proof.
  assert (Q : forall l, Forall (fun s => forall loop next, lower loop (redirect s) next = map fix_tuple (lower loop s next)) l ->
    forall loop next, sequence (lower loop) (map redirect l) next = map fix_tuple (sequence (lower loop) l next)).
  { intros l F. induction F as [|s l H F IH]; intros loop next; [reflexivity|]. cbn [map sequence]. rewrite map_app, H, IH, redirect_first. reflexivity. }
  induction s as [id|id c yes no h w IHy IHn|id ct body h IHb|id c rest w IHr|id c rest w IHr] using statement_ind'; intros loop next;
    cbn [redirect lower map fix_tuple]; rewrite ?map_app, ?Q, ?redirect_first by assumption; reflexivity.
Qed.
Lemma sequence_redirect : forall l loop next, sequence (lower loop) (map redirect l) next = map fix_tuple (sequence (lower loop) l next).
Proof. induction l as [|s l IH]; intros loop next; [reflexivity|]. cbn [map sequence]. rewrite map_app, lower_redirect, IH, redirect_first. reflexivity. Qed.
Lemma chain_redirect : forall s, chain_of (redirect s) = chain_of s.
Proof.
  assert (Q : forall l, Forall (fun s => chain_of (redirect s) = chain_of s) l -> arm chain_of (map redirect l) = arm chain_of l).
  { intros l F. assert (M : map chain_of (map redirect l) = map chain_of l).
    { induction F as [|s l H F IH]; [reflexivity|]. cbn [map]. rewrite H, IH. reflexivity. }
    destruct l as [|s [|t l]]; [reflexivity| |]; cbn [arm map] in *; [|rewrite M; reflexivity]. injection M as M. rewrite redirect_exit, M. reflexivity. }
  induction s as [id|id c yes no h w IHy IHn|id ct body h IHb|id c rest w IHr|id c rest w IHr] using statement_ind'; cbn [redirect chain_of]; rewrite ?Q by assumption; reflexivity.
Qed.
Lemma program_redirect : forall p last, program_chain (map redirect p) last = program_chain p last.
Proof.
  intros p last. assert (M : map chain_of (map redirect p) = map chain_of p) by (rewrite map_map; apply map_ext; exact chain_redirect).
  destruct p as [|s p]; [reflexivity|]. unfold program_chain. cbn [map] in *. rewrite M. reflexivity.
Qed.
Lemma placed_redirect : forall s stops loop next, placed stops loop s next -> placed stops loop (redirect s) next.
Proof.
  assert (Q : forall l, Forall (fun s => forall stops loop next, placed stops loop s next -> placed stops loop (redirect s) next) l ->
    forall stops loop next, each (placed stops loop) l next -> each (placed stops loop) (map redirect l) next).
  { intros l F. induction F as [|s l H F IH]; intros stops loop next P; [exact I|]. cbn [map each] in *. rewrite redirect_first. destruct P. split; auto. }
  induction s as [id|id c yes no h w IHy IHn|id ct body h IHb|id c rest w IHr|id c rest w IHr] using statement_ind'; intros stops loop next P;
    cbn [redirect placed start] in *; destruct P as [P1 P2]; split; try exact P1; auto.
  - destruct P2; split; auto.
  - destruct P2; split; auto.
  - destruct P2; split; auto.
Qed.
Lemma placed_program_redirect : forall p last, placed_program p last -> placed_program (map redirect p) last.
Proof.
  unfold placed_program. induction p as [|s p IH]; intros last P; [exact I|]. cbn [map each] in *. rewrite redirect_first. destruct P. split; [apply placed_redirect; assumption|auto].
Qed.
End Redirect.

Definition bare : statement -> statement := redirect (fun _ => 0%N) (fun _ => 0%N).
Lemma seen_fix : forall cond target t, seen (fix_tuple cond target t) = seen t.
Proof. intros cond target [[id m] b]. unfold fix_tuple, seen. destruct b; cbn [visible_of OpBranchConditional_true_label OpBranchConditional_false_label OpBranchConditional_weights]; try reflexivity; destruct m as [[|]|]; reflexivity. Qed.
Lemma seen_bare : forall l loop next, map seen (sequence (lower loop) (map bare l) next) = map seen (sequence (lower loop) l next).
Proof. intros l loop next. unfold bare. rewrite sequence_redirect, map_map. apply map_ext. apply seen_fix. Qed.

(** ** The chain determines the program up to these *)
Lemma arm_inj : forall l l', arm chain_of l = arm chain_of l' -> map chain_of l = map chain_of l'.
Proof. intros l l' H. rewrite <- !items_arm, H. reflexivity. Qed.
Lemma arm_not_exit : forall l, arm chain_of l <> Break /\ arm chain_of l <> Continue.
Proof. intros [|s [|t l]]; cbn [arm]; [split; discriminate| |split; discriminate]. destruct (is_exit s) eqn:X; [|split; discriminate]. destruct s; try discriminate X; split; discriminate. Qed.
Lemma chain_inj : forall s t, chain_of s = chain_of t -> bare s = bare t.
Proof.
  assert (Q : forall l, Forall (fun s => forall t, chain_of s = chain_of t -> bare s = bare t) l -> forall l', arm chain_of l = arm chain_of l' -> map bare l = map bare l').
  { intros l F l' A. apply arm_inj in A. revert l' A. induction F as [|s l H F IH]; intros [|t l'] A; cbn [map] in *; try discriminate A; [reflexivity|].
    injection A as A1 A2. f_equal; auto. }
  induction s as [id|id c yes no h w IHy IHn|id ct body h IHb|id c rest w IHr|id c rest w IHr] using statement_ind'; intros t H; destruct t; cbn [chain_of] in H; try discriminate H.
  - injection H as ->. reflexivity.
  - injection H as -> A B -> ->. unfold bare. cbn [redirect]. f_equal; [exact (Q _ IHy _ A)|exact (Q _ IHn _ B)].
  - injection H as _ _ B _ _. exfalso. apply (proj1 (arm_not_exit no)). exact B.
  - injection H as _ _ B _ _. exfalso. apply (proj2 (arm_not_exit no)). exact B.
  - injection H as -> A ->. unfold bare. cbn [redirect]. f_equal. exact (Q _ IHb _ A).
  - injection H as _ _ B _ _. exfalso. symmetry in B. exact (proj1 (arm_not_exit _) B).
  - injection H as -> A ->. unfold bare. cbn [redirect]. f_equal. exact (Q _ IHr _ A).
  - injection H as _ _ B _ _. exfalso. symmetry in B. exact (proj2 (arm_not_exit _) B).
  - injection H as -> A ->. unfold bare. cbn [redirect]. f_equal. exact (Q _ IHr _ A).
Qed.
Lemma program_inj : forall p q last last', program_chain p last = program_chain q last' -> map bare p = map bare q /\ last = last'.
Proof.
  intros p q last last' H. assert (V : forall p last, items (program_chain p last) = map chain_of p ++ [Atom last]) by (intros [|s l] x; reflexivity).
  assert (A : map chain_of p ++ [Atom last] = map chain_of q ++ [Atom last']) by (rewrite <- !V, H; reflexivity).
  apply app_inj_tail in A as [A B]. injection B as ->. split; [|reflexivity]. clear H V. revert q A.
  induction p as [|s p IH]; intros [|t q] A; cbn [map] in *; try discriminate A; [reflexivity|]. injection A as A1 A2. f_equal; [apply chain_inj, A1|auto].
Qed.
Lemma same_seen : forall p q last m m', map bare p = map bare q -> map seen (lower_program p last m) = map seen (lower_program q last m').
Proof.
  intros p q last m m' H. unfold lower_program. rewrite !map_app. cbn [map seen visible_of]. f_equal. rewrite <- (seen_bare p), <- (seen_bare q), H. reflexivity.
Qed.

(** ** Two functions *)
Section Same.
Context {E F : Type} (f : FunctionDefinition E) (g : FunctionDefinition F).
Definition agree (id : BlockId) : Prop := exists a b, has_block f id a /\ has_block g id b /\ visible a = visible b.

Lemma in_seen : forall l l' t, map seen l = map seen l' -> In t l -> exists t', In t' l' /\ seen t' = seen t.
Proof. intros l l' t H I. apply (in_map seen) in I. rewrite H in I. apply in_map_iff in I as (t' & X & Y). eauto. Qed.
Lemma of_tuple : forall {X} (h : FunctionDefinition X) id m b, In (id, m, b) (map skeleton (FunctionDefinition_blocks h)) ->
  exists k, has_block h id k /\ BasicBlock_merge k = m /\ BasicBlock_branch k = b.
Proof. intros X h id m b I. apply in_map_iff in I as (k & S & I). unfold skeleton in S. injection S as <- <- <-. exists k. repeat split. exact I. Qed.
Lemma lowered_label : forall p last m id, In id (chain_ids (program_chain p last)) -> exists m' b, In (id, m', b) (lower_program p last m).
Proof.
  intros p last m id I. rewrite program_ids in I. unfold lower_program. apply in_app_or in I as [I|[<-|[]]].
  - rewrite <- (sequence_labels p None last) in I. apply in_map_iff in I as ([[x m'] b] & X & I). cbn in X. subst x. exists m', b. apply in_or_app. left. exact I.
  - exists m, (GroupBranch_OpReturn Build_OpReturn). apply in_or_app. right. left. reflexivity.
Qed.
Lemma unique_block : forall {X} (h : FunctionDefinition X) id a b, NoDup (labels h) -> has_block h id a -> has_block h id b -> a = b.
Proof.
  intros X h id a b ND [I L] [J M]. unfold labels in ND. revert I J ND. generalize (FunctionDefinition_blocks h). intros l. induction l as [|k l IH]; intros I J ND; [contradiction I|].
  cbn [map] in ND. inversion ND as [|? ? N1 N2]; subst. destruct I as [->|I], J as [J|J]; auto.
  - exfalso. apply N1. rewrite <- M. apply in_map. exact J.
  - subst k. exfalso. apply N1. rewrite M. apply in_map. exact I.
Qed.
Lemma entry_unique : forall {X} (h : FunctionDefinition X) x y, entry h x -> entry h y -> x = y.
Proof. intros X h x y (b & r & A & <-) (b' & r' & A' & <-). rewrite A in A'. injection A' as <- _. reflexivity. Qed.

Lemma same_chain_agree : forall c, returns f (Ok c) -> returns g (Ok c) ->
  NoDup (labels g) /\ (exists id, entry f id /\ entry g id) /\ forall id, In id (chain_ids c) -> agree id.
Proof.
  intros c RF RG. apply structured_iff in RF as (NF & p & last & m & PF & IF & EF & CF). apply structured_iff in RG as (NG & q & last' & m' & PG & IG & EG & CG).
  rewrite CF in CG. apply program_inj in CG as [B <-]. split; [exact NG|]. split.
  - exists (first_of p last). split; [exact EF|]. replace (first_of p last) with (first_of q last); [exact EG|].
    unfold bare in B. rewrite <- (redirect_first (fun _ => 0%N) (fun _ => 0%N) p), <- (redirect_first (fun _ => 0%N) (fun _ => 0%N) q), B. reflexivity.
  - intros id I. rewrite CF in I. destruct (lowered_label p last m id I) as (m1 & b1 & L).
    destruct (in_seen _ _ _ (same_seen p q last m m' B) L) as ([[id2 m2] b2] & L2 & S). cbn [seen] in S. injection S as -> S.
    destruct (of_tuple f _ _ _ (IF _ L)) as (x & HX & X1 & X2). destruct (of_tuple g _ _ _ (IG _ L2)) as (y & HY & Y1 & Y2).
    exists x, y. split; [exact HX|]. split; [exact HY|]. unfold visible. rewrite X1, X2, Y1, Y2. symmetry. exact S.
Qed.

(** The condition and continue target [g] has in a block. *)
Definition the_block (id : BlockId) : option (BasicBlock F) := find (fun b => N.eqb (label_of b) id) (FunctionDefinition_blocks g).
Definition cond_of (id : BlockId) : OpId :=
  match the_block id with Some b => match BasicBlock_branch b with GroupBranch_OpBranchConditional b => OpBranchConditional_condition b | _ => 0%N end | None => 0%N end.
Definition target_of (id : BlockId) : OpId :=
  match the_block id with Some b => match BasicBlock_merge b with Some (GroupMerge_OpLoopMerge m) => OpLoopMerge_continue_target m | _ => 0%N end | None => 0%N end.
Lemma the_block_ok : forall id b, NoDup (labels g) -> has_block g id b -> the_block id = Some b.
Proof.
  intros id b ND H. unfold the_block. destruct (find _ _) as [b'|] eqn:X.
  - apply find_some in X as [X Y]. apply N.eqb_eq in Y. f_equal. apply (unique_block g id); [exact ND|split; assumption|exact H].
  - exfalso. destruct H as [I L]. apply (find_none _ _ X) in I. rewrite L, N.eqb_refl in I. discriminate I.
Qed.
Lemma lower_no_return : forall s loop next t, In t (lower loop s next) -> match snd t with GroupBranch_OpReturn _ => False | _ => True end.
Proof.
  assert (Q : forall l, Forall (fun s => forall loop next t, In t (lower loop s next) -> match snd t with GroupBranch_OpReturn _ => False | _ => True end) l ->
    forall loop next t, In t (sequence (lower loop) l next) -> match snd t with GroupBranch_OpReturn _ => False | _ => True end).
  { intros l G. induction G as [|s l H G IH]; intros loop next t I; [contradiction I|]. cbn [sequence] in I. apply in_app_or in I as [I|I]; [exact (H _ _ _ I)|exact (IH _ _ _ I)]. }
  induction s as [id|id c yes no h w IHy IHn|id ct body h IHb|id c rest w IHr|id c rest w IHr] using statement_ind'; intros loop next t I; cbn [lower] in I;
    destruct I as [<-|I]; try exact Logic.I; try contradiction I; try (apply in_app_or in I as [I|I]);
    first [exact (Q _ IHy _ _ _ I)|exact (Q _ IHn _ _ _ I)|exact (Q _ IHb _ _ _ I)|exact (Q _ IHr _ _ _ I)].
Qed.
Lemma sequence_no_return : forall l loop next t, In t (sequence (lower loop) l next) -> match snd t with GroupBranch_OpReturn _ => False | _ => True end.
Proof. induction l as [|s l IH]; intros loop next t I; [contradiction I|]. cbn [sequence] in I. apply in_app_or in I as [I|I]; [exact (lower_no_return _ _ _ _ I)|exact (IH _ _ _ I)]. Qed.
Lemma fixed_is_there : forall id m b k, NoDup (labels g) -> has_block g id k -> visible_of m b = visible k ->
  match b with GroupBranch_OpReturn _ => False | _ => True end -> fix_tuple cond_of target_of (id, m, b) = skeleton k.
Proof.
  intros id m b k ND H V NR. pose proof (the_block_ok id k ND H) as TB. destruct H as [_ L]. unfold skeleton, fix_tuple. rewrite L.
  unfold cond_of, target_of. rewrite TB. unfold visible in V. destruct k as [l code mg br]. cbn [BasicBlock_merge BasicBlock_branch] in *.
  destruct b as [b|b|b]; [| |contradiction NR]; destruct br as [b'|b'|b']; cbn [visible_of] in V; try discriminate V.
  - injection V as V1 V2. subst b'. f_equal. f_equal. destruct m as [[[x y z]|[x y]]|], mg as [[[x' y' z']|[x' y']]|]; cbn in V1 |- *; try discriminate V1; try reflexivity; injection V1 as -> ->; reflexivity.
  - destruct b as [c t e w], b' as [c' t' e' w']. cbn in V |- *. injection V as V1 -> -> ->.
    f_equal. f_equal. destruct m as [[[x y z]|[x y]]|], mg as [[[x' y' z']|[x' y']]|]; cbn in V1 |- *; try discriminate V1; try reflexivity; injection V1 as -> ->; reflexivity.
Qed.
Lemma agree_same_chain : forall c, returns f (Ok c) -> NoDup (labels g) -> (exists id, entry f id /\ entry g id) -> (forall id, In id (chain_ids c) -> agree id) ->
  returns g (Ok c).
Proof.
  intros c RF NG (e & EF & EG) A. apply structured_iff in RF as (NF & p & last & m & PF & IF & EF' & CF). pose proof (entry_unique f _ _ EF EF') as ->. clear EF.
  assert (T : forall id m1 b1, In (id, m1, b1) (lower_program p last m) -> exists k, has_block g id k /\ visible_of m1 b1 = visible k).
  { intros id m1 b1 I. assert (J : In id (chain_ids c)).
    { rewrite CF, program_ids. unfold lower_program in I. apply in_app_or in I as [I|[I|[]]]; apply in_or_app.
      - left. rewrite <- (sequence_labels p None last). apply (in_map (fun b : BlockId * option GroupMerge * GroupBranch => fst (fst b))) in I. exact I.
      - right. left. injection I as -> _ _. reflexivity. }
    destruct (A id J) as (x & y & HX & HY & V). destruct (of_tuple f _ _ _ (IF _ I)) as (x' & HX' & X1 & X2).
    pose proof (unique_block f id x x' NF HX HX') as ->. exists y. split; [exact HY|]. rewrite <- V. unfold visible. rewrite X1, X2. reflexivity. }
  destruct (T last m (GroupBranch_OpReturn Build_OpReturn)) as (kl & HL & VL); [unfold lower_program; apply in_or_app; right; left; reflexivity|].
  apply structured_iff. split; [exact NG|]. exists (map (redirect cond_of target_of) p), last, (BasicBlock_merge kl). split; [apply placed_program_redirect, PF|]. split; [|split].
  - intros t I. unfold lower_program in I. apply in_app_or in I as [I|[<-|[]]].
    + rewrite sequence_redirect in I. apply in_map_iff in I as ([[id m1] b1] & <- & I). destruct (T id m1 b1) as (k & HK & V); [unfold lower_program; apply in_or_app; left; exact I|].
      rewrite (fixed_is_there id m1 b1 k NG HK V (sequence_no_return _ _ _ _ I)). apply in_map. apply HK.
    + apply in_map_iff. exists kl. split; [|apply HL]. unfold skeleton. destruct HL as [_ ->]. unfold visible in VL. destruct (BasicBlock_branch kl) as [b|b|[]]; cbn in VL; try discriminate VL. reflexivity.
  - rewrite redirect_first. exact EG.
  - rewrite program_redirect. exact CF.
Qed.
Theorem same_chain_iff : forall c, returns f (Ok c) ->
  (returns g (Ok c) <-> NoDup (labels g) /\ (exists id, entry f id /\ entry g id) /\ forall id, In id (chain_ids c) -> agree id).
Proof. intros c RF. split; [apply same_chain_agree, RF|]. intros (N & EN & A). exact (agree_same_chain c RF N EN A). Qed.
End Same.

(** ** Nothing else is looked at *)
Section Strip.
Context {E : Type}.
Definition strip (b : BasicBlock E) : BasicBlock unit := Build_BasicBlock (Build_OpLabel (label_of b)) [] (fst (visible b)) (snd (visible b)).
Definition strip_entry (p : BlockId * BasicBlock E) : BlockId * BasicBlock unit := (fst p, strip (snd p)).
Lemma get_strip : forall id (m : list (BlockId * BasicBlock E)), map_get id (map strip_entry m) = option_map strip (map_get id m).
Proof. intros id m. induction m as [|[k b] m IH]; [reflexivity|]. cbn [map strip_entry fst snd map_get]. destruct (N.eqb id k); [reflexivity|exact IH]. Qed.
Lemma build_strip : forall l start m,
  build_map (map strip l) start (map strip_entry m)
  = let! (start, m) := build_map l start m in Ok (start, map strip_entry m).
Proof.
  induction l as [|b l IH]; intros start m; [reflexivity|]. cbn [map build_map]. change (OpLabel_result_id (BasicBlock_label (strip b))) with (label_of b).
  unfold map_insert. rewrite get_strip. destruct (map_get (label_of b) m) eqn:G; unfold label_of in *; rewrite G; cbn [option_map]; [reflexivity|].
  exact (IH _ ((OpLabel_result_id (BasicBlock_label b), b) :: m)).
Qed.
Lemma search_strip : forall n id fl (m : list (BlockId * BasicBlock E)), search_block n id fl (map strip_entry m) = search_block n id fl m.
Proof.
  induction n as [|n IH]; intros id fl m; [reflexivity|]. cbn [search_block]. destruct (merges fl id); [reflexivity|]. rewrite get_strip.
  destruct (map_get id m) as [b|]; [|reflexivity]. cbn [option_map strip BasicBlock_branch BasicBlock_merge]. unfold visible.
  destruct (BasicBlock_branch b) as [br|br|br]; cbn [visible_of fst snd]; [| |reflexivity];
    destruct (BasicBlock_merge b) as [[[x y z]|[x y]]|]; cbn [option_map without_continue_target OpLoopMerge_merge_block OpLoopMerge_loop_control
      OpSelectionMerge_merge_block OpSelectionMerge_selection_control OpBranchConditional_true_label OpBranchConditional_false_label OpBranchConditional_weights];
    rewrite ?IH; try reflexivity.
Qed.
Lemma find_strip : forall n (f : FunctionDefinition E) k,
  find_control_flow n (Build_FunctionDefinition k [] (map strip (FunctionDefinition_blocks f))) = find_control_flow n f.
Proof.
  intros n f k. unfold find_control_flow. cbn [FunctionDefinition_blocks]. pose proof (build_strip (FunctionDefinition_blocks f) None []) as B. cbn [map] in B. rewrite B.
  destruct (build_map (FunctionDefinition_blocks f) None []) as [[[st|] m]| | |]; cbn [bind]; try reflexivity. rewrite search_strip. reflexivity.
Qed.
End Strip.
Theorem only_visible : forall E F (f : FunctionDefinition E) (g : FunctionDefinition F),
  Forall2 (fun a b => label_of a = label_of b /\ visible a = visible b) (FunctionDefinition_blocks f) (FunctionDefinition_blocks g) ->
  forall n, find_control_flow n f = find_control_flow n g.
Proof.
  intros E F f g H n. rewrite <- (find_strip n f (FunctionDefinition_function f)), <- (find_strip n g (FunctionDefinition_function f)). f_equal. f_equal.
  induction H as [|a b l l' [L V] H IH]; [reflexivity|]. cbn [map]. rewrite IH. f_equal. unfold strip. rewrite L, V. reflexivity.
Qed.
