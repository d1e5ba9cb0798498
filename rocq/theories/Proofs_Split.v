(** Cutting a block in two, C121. *)
From Coq Require Import Permutation.
From Verif Require Import Base Types Ops Groups ExtSet ControlFlow Spec_Flow Spec_Split Proofs_Flow Proofs_Flow2 Proofs_Flow3.

Section Chains.
Context (b n : BlockId).
Local Notation cut_chain := (cut_chain b n).
Local Notation cut_parts := (cut_parts b n).

Definition items (c : ControlFlowChain) : list ControlFlowChain := match c with Block l => l | c => [c] end.
Lemma block_items : forall x y, block [x; y] = Block (items x ++ items y).
Proof. intros x y. unfold block. destruct x, y; reflexivity. Qed.
Lemma items_cut : forall c, items (cut_chain c) = flat_map cut_parts (items c).
Proof.
  intros c. destruct c; cbn [items flat_map]; rewrite ?app_nil_r; unfold Spec_Split.cut_chain; try reflexivity.
  - cbn. destruct (N.eqb id b); reflexivity.
  - cbn. destruct (N.eqb id b); reflexivity.
Qed.
Lemma cut_block : forall x y, cut_chain (block [x; y]) = Block (flat_map cut_parts (items x) ++ flat_map cut_parts (items y)).
Proof. intros x y. rewrite block_items, <- flat_map_app. reflexivity. Qed.
End Chains.

Section Search.
Context {E : Type} (b n : BlockId).
Local Notation cut_chain := (cut_chain b n).
Local Notation cut_id := (cut_id b n).
Local Notation cut_error := (cut_error b n).

(* one call of search_block *)
Definition step (rec : BlockId -> FlowList -> outcome ControlFlowError (ControlFlowChain * Cont)) (id : BlockId) (flow_list : FlowList)
    (blk : BasicBlock E) : outcome ControlFlowError (ControlFlowChain * Cont) :=
  match BasicBlock_branch blk with
  | GroupBranch_OpBranch op =>
      match BasicBlock_merge blk with
      | Some (GroupMerge_OpLoopMerge lm) =>
          let! (inner_chain, inner_next) := rec (OpBranch_target_label op) (Converge_Loop id (OpLoopMerge_merge_block lm) (OpLoopMerge_loop_control lm) :: flow_list) in
          if cont_eqb inner_next (Cont_Next id) then
            let! (after_chain, after_next) := rec (OpLoopMerge_merge_block lm) flow_list in
            Ok (block [Loop id inner_chain (OpLoopMerge_loop_control lm) None; after_chain], after_next)
          else Err (InvalidConvergePrediction ControlType_Loop id)
      | None =>
          let! (next_chain, next_next) := rec (OpBranch_target_label op) flow_list in
          Ok (block [Atom id; next_chain], next_next)
      | Some (GroupMerge_OpSelectionMerge _) => Panic
      end
  | GroupBranch_OpBranchConditional op =>
      match BasicBlock_merge blk with
      | Some (GroupMerge_OpSelectionMerge sel) =>
          let inner_fl := Converge_If (OpSelectionMerge_merge_block sel) (OpSelectionMerge_selection_control sel) :: flow_list in
          let! (true_chain, true_next) := rec (OpBranchConditional_true_label op) inner_fl in
          let! (false_chain, false_next) := rec (OpBranchConditional_false_label op) inner_fl in
          if cont_eqb true_next false_next && cont_eqb true_next (Cont_Next (OpSelectionMerge_merge_block sel)) then
            let! (next_chain, next_next) := rec (OpSelectionMerge_merge_block sel) flow_list in
            Ok (block [Selection id true_chain false_chain (OpSelectionMerge_selection_control sel) (OpBranchConditional_weights op); next_chain], next_next)
          else Err (InvalidConvergePrediction ControlType_Selection id)
      | Some (GroupMerge_OpLoopMerge _) => Panic
      | None =>
          match innermost_loop flow_list with
          | None => Err (CouldNotPredictConverge id)
          | Some (head, merge) =>
              if N.eqb (OpBranchConditional_false_label op) merge || N.eqb (OpBranchConditional_false_label op) head then
                let! (inner_chain, inner_next) := rec (OpBranchConditional_true_label op) flow_list in
                if cont_eqb inner_next (Cont_Next head) then
                  Ok (Selection id inner_chain (if N.eqb (OpBranchConditional_false_label op) merge then Break else Continue)
                        SelectionControl_default (OpBranchConditional_weights op), inner_next)
                else Err (InvalidConvergePrediction ControlType_Loop id)
              else Err (CouldNotPredictConverge id)
          end
      end
  | GroupBranch_OpReturn _ => Ok (Atom id, Cont_Return)
  end.
Lemma search_step : forall d id fl (m : BlockMap (E := E)), search_block (S d) id fl m =
  if merges fl id then Ok (Block [], Cont_Next id) else
  match map_get id m with None => Err (UnknownBlockId id) | Some blk => step (fun id fl => search_block d id fl m) id fl blk end.
Proof. reflexivity. Qed.

Definition cut_found (r : outcome ControlFlowError (ControlFlowChain * Cont)) : outcome ControlFlowError (ControlFlowChain * Cont) :=
  match r with Ok (c, k) => Ok (cut_chain c, k) | Err e => Err (cut_error e) | Panic => Panic | OutOfFuel => OutOfFuel end.

(* n is not in the flow list *)
Definition clean (fl : FlowList) : Prop := Forall (fun c => match c with Converge_If j _ => j <> n | Converge_Loop h m _ => h <> n /\ m <> n end) fl.
Lemma clean_merges : forall fl, clean fl -> merges fl n = false.
Proof.
  intros fl H. induction H as [|c fl H _ IH]; [reflexivity|]. destruct c as [j h|j m h]; cbn.
  - apply N.eqb_neq in H. rewrite H. exact IH.
  - destruct H as [H _]. apply N.eqb_neq in H. rewrite H. exact IH.
Qed.

(* the second part of the block comes after the first *)
Definition before_it (id : BlockId) (r : outcome ControlFlowError (ControlFlowChain * Cont)) : outcome ControlFlowError (ControlFlowChain * Cont) :=
  bind r (fun '(c, k) => Ok (if N.eqb id b then block [Atom b; c] else c, k)).

(* what is known of one run is known of the other: [ahead] if the run in the cut function is known to end *)
Definition related (ahead : bool) (r r' : outcome ControlFlowError (ControlFlowChain * Cont)) : Prop :=
  (if ahead then r' else r) <> OutOfFuel -> r' = cut_found r.
Lemma related_bind : forall ahead id r r' K K', related ahead r r' ->
  (forall c k, related ahead (K (c, k)) (before_it id (K' (cut_chain c, k)))) -> related ahead (bind r K) (before_it id (bind r' K')).
Proof.
  intros ahead id r r' K K' H HK. unfold related in H.
  assert (D : r' = cut_found r \/ (r' = OutOfFuel /\ ahead = true) \/ (r = OutOfFuel /\ ahead = false)).
  { destruct ahead; [destruct r'|destruct r]; auto; left; apply H; discriminate. }
  destruct D as [->|[[-> ->]|[-> ->]]]; [|intros X; exfalso; apply X; reflexivity|intros X; exfalso; apply X; reflexivity].
  destruct r as [[c k]|e| |]; cbn [cut_found bind]; [apply HK|intros _; reflexivity..].
Qed.
Lemma related_refl : forall ahead r r', r' = cut_found r -> related ahead r r'.
Proof. intros ahead r r' H _. exact H. Qed.

Lemma step_cut : forall ahead rec rec' id fl blk, clean fl -> id <> n ->
  (id = b -> ~ starts_loop blk) -> ~ In n (branch_targets blk) -> ~ In n (merge_targets blk) ->
  (forall x fl, clean fl -> x <> n -> related ahead (rec x fl) (rec' x fl)) ->
  related ahead (step rec id fl blk) (before_it id (step rec' (cut_id id) fl blk)).
Proof.
  intros ahead rec rec' id fl blk C N L T M R. unfold step, Spec_Split.cut_id.
  unfold branch_targets in T. unfold merge_targets in M. unfold starts_loop in L.
  assert (NB : forall x l, ~ In n l -> In x l -> x <> n) by (intros x l H I <-; contradiction).
  destruct (BasicBlock_branch blk) as [op|op|op].
  - destruct (BasicBlock_merge blk) as [[lm|sm]|].
    + destruct (N.eqb id b) eqn:Q; [apply N.eqb_eq in Q; exfalso; apply (L Q); eauto|].
      apply related_bind; [apply R; [constructor; [split; [exact N|eapply NB; [exact M|left; reflexivity]]|exact C]|eapply NB; [exact T|left; reflexivity]]|].
      intros c k. destruct (cont_eqb k (Cont_Next id)).
      * apply related_bind; [apply R; [exact C|eapply NB; [exact M|left; reflexivity]]|]. intros c2 k2. apply related_refl.
        unfold before_it. cbn [bind cut_found]. rewrite Q, cut_block, block_items, items_cut. reflexivity.
      * apply related_refl. cbn. unfold Spec_Split.cut_id. rewrite Q. reflexivity.
    + apply related_refl. reflexivity.
    + apply related_bind; [apply R; [exact C|eapply NB; [exact T|left; reflexivity]]|]. intros c k. apply related_refl.
      unfold before_it. cbn [bind cut_found]. rewrite cut_block, !block_items, items_cut. cbn. destruct (N.eqb id b) eqn:Q; [apply N.eqb_eq in Q; subst|]; reflexivity.
  - destruct (BasicBlock_merge blk) as [[lm|sm]|].
    + apply related_refl. reflexivity.
    + set (fl' := Converge_If _ _ :: fl).
      assert (C' : clean fl') by (constructor; [eapply NB; [exact M|left; reflexivity]|exact C]).
      apply related_bind; [apply R; [exact C'|eapply NB; [exact T|left; reflexivity]]|]. intros c k.
      apply related_bind; [apply R; [exact C'|eapply NB; [exact T|right; left; reflexivity]]|]. intros c2 k2.
      destruct (cont_eqb k k2 && cont_eqb k (Cont_Next (OpSelectionMerge_merge_block sm))).
      * apply related_bind; [apply R; [exact C|eapply NB; [exact M|left; reflexivity]]|]. intros c3 k3. apply related_refl.
        unfold before_it. cbn [bind cut_found]. rewrite cut_block, !block_items, items_cut. cbn. destruct (N.eqb id b) eqn:Q; [apply N.eqb_eq in Q; subst|]; reflexivity.
      * apply related_refl. reflexivity.
    + destruct (innermost_loop fl) as [[h mg]|]; [|apply related_refl; reflexivity].
      destruct (_ || _); [|apply related_refl; reflexivity].
      apply related_bind; [apply R; [exact C|eapply NB; [exact T|left; reflexivity]]|]. intros c k.
      destruct (cont_eqb k (Cont_Next h)); [|apply related_refl; reflexivity]. apply related_refl.
      unfold before_it. cbn [bind cut_found]. destruct (N.eqb id b) eqn:Q.
      * apply N.eqb_eq in Q. subst. unfold Spec_Split.cut_chain. cbn. rewrite N.eqb_refl. destruct (N.eqb _ mg); reflexivity.
      * unfold Spec_Split.cut_chain. cbn. rewrite Q. destruct (N.eqb _ mg); reflexivity.
  - apply related_refl. unfold before_it. cbn. unfold Spec_Split.cut_chain. cbn. destruct (N.eqb id b) eqn:Q; [apply N.eqb_eq in Q; subst|]; reflexivity.
Qed.

(* the blocks of the function and of the one with the cut *)
Context (m m' : BlockMap (E := E)) (cut first second : BasicBlock E).
Hypothesis HB : map_get b m = Some cut.
Hypothesis HB' : map_get b m' = Some first.
Hypothesis HN' : map_get n m' = Some second.
Hypothesis HO : forall id, id <> b -> id <> n -> map_get id m' = map_get id m.
Hypothesis BN : b <> n.
Hypothesis F1 : BasicBlock_branch first = GroupBranch_OpBranch (Build_OpBranch n).
Hypothesis F2 : BasicBlock_merge first = None.
Hypothesis S1 : BasicBlock_branch second = BasicBlock_branch cut.
Hypothesis S2 : BasicBlock_merge second = BasicBlock_merge cut.
Hypothesis NL : ~ starts_loop cut.
Hypothesis FR : forall id x, map_get id m = Some x -> ~ In n (branch_targets x) /\ ~ In n (merge_targets x).

Lemma step_same : forall rec id fl x y, BasicBlock_branch x = BasicBlock_branch y -> BasicBlock_merge x = BasicBlock_merge y -> step rec id fl x = step rec id fl y.
Proof. intros rec id fl x y Hb Hm. unfold step. rewrite Hb, Hm. reflexivity. Qed.

(* one call for [b] in the function is two in the one with the cut *)
Lemma unfold_cut : forall d' id fl, clean fl -> id <> n -> merges fl id = false -> (id = b -> exists d2, d' = S d2) ->
  search_block (S d') id fl m' = match map_get id m with
    | None => Err (UnknownBlockId id)
    | Some blk => before_it id (step (fun x fl => search_block (if N.eqb id b then pred d' else d') x fl m') (cut_id id) fl blk)
    end.
Proof.
  intros d' id fl C N M D. rewrite search_step, M. unfold Spec_Split.cut_id. destruct (N.eqb id b) eqn:Q.
  - apply N.eqb_eq in Q. subst id. destruct (D eq_refl) as [d2 ->]. rewrite HB', HB. unfold step at 1. rewrite F1, F2. cbn [OpBranch_target_label pred].
    rewrite search_step, (clean_merges fl C), HN'. unfold before_it. rewrite N.eqb_refl, (step_same _ _ _ _ _ S1 S2). reflexivity.
  - apply N.eqb_neq in Q. rewrite (HO id Q N). destruct (map_get id m) as [blk|]; [|reflexivity]. unfold before_it.
    apply N.eqb_neq in Q. rewrite Q. destruct (step _ _ _ _) as [[c k]|e| |]; reflexivity.
Qed.

Lemma search_forward : forall d id fl, clean fl -> id <> n -> related false (search_block d id fl m) (search_block (2 * d) id fl m').
Proof.
  induction d as [|d IH]; intros id fl C N; [intros X; exfalso; apply X; reflexivity|].
  replace (2 * S d) with (S (S (2 * d))) by lia. destruct (merges fl id) eqn:M.
  - apply related_refl. rewrite !search_step, M. reflexivity.
  - rewrite (unfold_cut _ _ _ C N M) by eauto. rewrite search_step, M. destruct (map_get id m) as [blk|] eqn:G; [|apply related_refl; reflexivity].
    apply step_cut; try assumption.
    + intros ->. rewrite HB in G. injection G as <-. exact NL.
    + exact (proj1 (FR _ _ G)).
    + exact (proj2 (FR _ _ G)).
    + intros x fl' C' N'. destruct (N.eqb id b); [exact (IH x fl' C' N')|].
      intros X. assert (Y := IH x fl' C' N' X). cbn [pred] in *. rewrite <- Y. apply search_mono1. rewrite Y.
      destruct (search_block d x fl' m) as [[]|e| |]; cbn in *; congruence.
Qed.
Lemma search_backward : forall d id fl, clean fl -> id <> n -> related true (search_block d id fl m) (search_block d id fl m').
Proof.
  induction d as [d IH] using lt_wf_ind. intros id fl C N. destruct d as [|d]; [intros X; exfalso; apply X; reflexivity|].
  destruct (merges fl id) eqn:M.
  - apply related_refl. rewrite !search_step, M. reflexivity.
  - destruct (N.eq_dec id b) as [->|NE].
    + destruct d as [|d].
      * intros X. exfalso. apply X. rewrite search_step, M, HB'. unfold step. rewrite F1, F2. reflexivity.
      * rewrite (unfold_cut _ _ _ C N M) by eauto. rewrite search_step, M, HB. rewrite N.eqb_refl. cbn [pred].
        apply step_cut; try assumption; [intros _; exact NL|exact (proj1 (FR _ _ HB))|exact (proj2 (FR _ _ HB))|].
        intros x fl' C' N' X. assert (Y := IH d ltac:(lia) x fl' C' N' X). rewrite search_mono1; [exact Y|]. intros Z. cbn [related] in *. apply X. rewrite Y, Z. reflexivity.
    + rewrite (unfold_cut _ _ _ C N M) by (intros; congruence). rewrite search_step, M. destruct (map_get id m) as [blk|] eqn:G; [|apply related_refl; reflexivity].
      apply step_cut; try assumption.
      * intros; congruence.
      * exact (proj1 (FR _ _ G)).
      * exact (proj2 (FR _ _ G)).
      * destruct (N.eqb id b) eqn:Q; [apply N.eqb_eq in Q; contradiction|]. intros x fl' C' N'. exact (IH d ltac:(lia) x fl' C' N').
Qed.

End Search.

(** ** Labels that occur twice *)
Fixpoint again (seen ls : list N) : option N :=
  match ls with
  | [] => None
  | l :: ls => if existsb (N.eqb l) seen then Some l else again (l :: seen) ls
  end.
Lemma existsb_In : forall (l : N) seen, existsb (N.eqb l) seen = true <-> In l seen.
Proof. intros l seen. rewrite existsb_exists. split; [intros (x & I & H); apply N.eqb_eq in H; subst; exact I|intros I; exists l; split; [exact I|apply N.eqb_refl]]. Qed.
Lemma again_build {E} : forall (blocks : list (BasicBlock E)) start m,
  match again (map fst m) (map label_of blocks) with
  | Some x => build_map blocks start m = Err (DuplicateBlockId x)
  | None => exists r, build_map blocks start m = Ok r
  end.
Proof.
  induction blocks as [|p blocks IH]; intros start m; cbn [map again build_map]; [eauto|].
  unfold map_insert. destruct (map_get (OpLabel_result_id (BasicBlock_label p)) m) eqn:G.
  - assert (I : existsb (N.eqb (label_of p)) (map fst m) = true).
    { apply existsb_In. apply map_get_In in G. apply in_map_iff. eexists. split; [|exact G]. reflexivity. }
    rewrite I. reflexivity.
  - destruct (existsb (N.eqb (label_of p)) (map fst m)) eqn:I.
    + apply existsb_In in I. apply map_get_None in G. contradiction.
    + apply (IH _ ((OpLabel_result_id (BasicBlock_label p), p) :: m)).
Qed.
Lemma again_seen : forall ls a c n, ~ In n ls -> again (a ++ n :: c) ls = again (a ++ c) ls.
Proof.
  induction ls as [|l ls IH]; intros a c n N; [reflexivity|]. cbn [again].
  assert (existsb (N.eqb l) (a ++ n :: c) = existsb (N.eqb l) (a ++ c)) as ->.
  { rewrite !existsb_app. cbn [existsb]. destruct (N.eqb l n) eqn:Q; [apply N.eqb_eq in Q; subst; destruct N; left; reflexivity|]. reflexivity. }
  destruct (existsb _ _); [reflexivity|]. apply (IH (l :: a)). intros I. apply N. right. exact I.
Qed.
Lemma again_fresh : forall pre post seen n, ~ In n pre -> ~ In n post -> ~ In n seen -> again seen (pre ++ n :: post) = again seen (pre ++ post).
Proof.
  induction pre as [|l pre IH]; intros post seen n P Q S; cbn [app again].
  - destruct (existsb (N.eqb n) seen) eqn:I; [apply existsb_In in I; contradiction|]. apply (again_seen post [] seen n Q).
  - destruct (existsb _ _); [reflexivity|]. apply IH; [intros I; apply P; right; exact I|exact Q|]. intros [I|I]; [apply P; left; exact I|contradiction].
Qed.

Section Function.
Context {E : Type} (f g : FunctionDefinition E) (cut : BasicBlock E) (n : BlockId).
Hypothesis CUT : cut_at f g cut n.

Lemma cut_again : again [] (labels g) = again [] (labels f).
Proof.
  destruct CUT as (before & after & code1 & code2 & F & _ & G & FR). unfold labels. unfold fresh in FR. rewrite F in FR. rewrite F, G, !map_app. cbn [map].
  change (label_of {| BasicBlock_label := BasicBlock_label cut; BasicBlock_code := code1; BasicBlock_merge := None; BasicBlock_branch := GroupBranch_OpBranch {| OpBranch_target_label := n |} |}) with (label_of cut).
  change (label_of {| BasicBlock_label := {| OpLabel_result_id := n |}; BasicBlock_code := code2; BasicBlock_merge := BasicBlock_merge cut; BasicBlock_branch := BasicBlock_branch cut |}) with n.
  rewrite Forall_app in FR. destruct FR as [FB FA]. inversion FA as [|? ? [NC _] FA' ]; subst.
  assert (X : forall l, Forall (fun b : BasicBlock E => label_of b <> n /\ ~ In n (branch_targets b) /\ ~ In n (merge_targets b)) l -> ~ In n (map label_of l)).
  { intros l H I. apply in_map_iff in I as (y & Q & I). rewrite Forall_forall in H. destruct (H y I) as [Z _]. contradiction. }
  assert (L : forall c, map label_of before ++ label_of cut :: c = (map label_of before ++ [label_of cut]) ++ c) by (intros; rewrite <- app_assoc; reflexivity).
  rewrite (L (n :: _)), (L (map label_of after)). apply again_fresh; [|apply X; exact FA'|intros []].
  intros I. apply in_app_iff in I as [I|[I|[]]]; [exact (X before FB I)|contradiction].
Qed.

Lemma find_unfold : forall (h : FunctionDefinition E), again [] (labels h) = None -> NoDup (labels h).
Proof.
  intros h A. destruct (labels_dec h) as [N|N]; [exact N|]. exfalso.
  assert (B := again_build (FunctionDefinition_blocks h) None []). unfold labels in A. cbn [map] in B. rewrite A in B. destruct B as [[s m] B].
  assert (D := proj1 (build_map_dup (FunctionDefinition_blocks h) None []) _ B (NoDup_nil _)). cbn [snd] in D.
  apply build_map_spec in B as [M _]. cbn [snd] in M. rewrite app_nil_r in M. subst m. apply N, NoDup_labels. exact D.
Qed.
Lemma find_dup : forall (h : FunctionDefinition E) x, again [] (labels h) = Some x -> forall d, find_control_flow d h = Err (DuplicateBlockId x).
Proof.
  intros h x A d. assert (B := again_build (FunctionDefinition_blocks h) None []). unfold labels in A. cbn [map] in B. rewrite A in B.
  unfold find_control_flow. match goal with |- context [build_map ?a ?s ?c] => replace (build_map a s c) with (Err (A := option BlockId * BlockMap (E := E)) (DuplicateBlockId x)) by (symmetry; exact B) end. reflexivity.
Qed.

Hypothesis NL : ~ starts_loop cut.

Definition answer (r : outcome ControlFlowError (ControlFlowChain * Cont)) : outcome ControlFlowError ControlFlowChain :=
  let! (chain, next) := r in match next with Cont_Return => Ok chain | _ => Err Failed end.
Lemma answer_cut : forall b r, answer (cut_found b n r) = cut_answer b n (answer r).
Proof. intros b [[c []]|e| |]; reflexivity. Qed.

Lemma cut_runs : NoDup (labels f) ->
  (forall d, find_control_flow d f <> OutOfFuel -> find_control_flow (2 * d) g = cut_answer (label_of cut) n (find_control_flow d f))
  /\ (forall d, find_control_flow d g <> OutOfFuel -> find_control_flow d g = cut_answer (label_of cut) n (find_control_flow d f)).
Proof.
  intros ND. assert (NDg : NoDup (labels g)).
  { apply find_unfold. rewrite cut_again. destruct (again [] (labels f)) eqn:A; [|reflexivity].
    exfalso. assert (X := find_dup _ _ A 0). rewrite (find_eq f ND) in X. destruct (FunctionDefinition_blocks f); discriminate X. }
  destruct CUT as (before & after & code1 & code2 & F & _ & G & FR). unfold fresh in FR. rewrite Forall_forall in FR.
  set (b1 := Build_BasicBlock (BasicBlock_label cut) code1 None (GroupBranch_OpBranch (Build_OpBranch n))) in *.
  set (b2 := Build_BasicBlock (Build_OpLabel n) code2 (BasicBlock_merge cut) (BasicBlock_branch cut)) in *.
  assert (HC : In cut (FunctionDefinition_blocks f)) by (rewrite F; apply in_app_iff; right; left; reflexivity).
  assert (HB : map_get (label_of cut) (block_map f) = Some cut) by (apply (find_map_iff f ND); split; [exact HC|reflexivity]).
  assert (HB' : map_get (label_of cut) (block_map g) = Some b1) by (apply (find_map_iff g NDg); split; [rewrite G; apply in_app_iff; right; left; reflexivity|reflexivity]).
  assert (HN' : map_get n (block_map g) = Some b2) by (apply (find_map_iff g NDg); split; [rewrite G; apply in_app_iff; right; right; left; reflexivity|reflexivity]).
  assert (HO : forall id, id <> label_of cut -> id <> n -> map_get id (block_map g) = map_get id (block_map f)).
  { intros id N1 N2. assert (X : forall x, has_block f id x <-> has_block g id x).
    { intros x. unfold has_block. rewrite F, G, !in_app_iff. cbn [In]. split.
      - intros [[I|[I|I]] L]; [auto|subst; contradiction|auto].
      - intros [[I|[I|[I|I]]] L]; [auto|subst x; subst id; contradiction|subst x; subst id; contradiction|auto]. }
    destruct (map_get id (block_map f)) as [x|] eqn:Q.
    - apply (find_map_iff g NDg), X, (find_map_iff f ND). exact Q.
    - destruct (map_get id (block_map g)) as [x|] eqn:Q2; [|reflexivity]. apply (find_map_iff g NDg), X, (find_map_iff f ND) in Q2. congruence. }
  assert (BN : label_of cut <> n) by (exact (proj1 (FR _ HC))).
  assert (FR' : forall id x, map_get id (block_map f) = Some x -> ~ In n (branch_targets x) /\ ~ In n (merge_targets x)).
  { intros id x Q. apply (find_map_iff f ND) in Q. destruct Q as [I _]. exact (proj2 (FR _ I)). }
  assert (ST : exists s, (forall d, find_control_flow d f = answer (search_block d s [] (block_map f))) /\ (forall d, find_control_flow d g = answer (search_block d s [] (block_map g))) /\ s <> n).
  { setoid_rewrite (find_eq f ND). setoid_rewrite (find_eq g NDg). rewrite F, G. destruct before as [|p before]; cbn [app].
    - exists (label_of cut). split; [reflexivity|]. split; [reflexivity|]. exact BN.
    - exists (label_of p). split; [reflexivity|]. split; [reflexivity|]. apply (FR p). rewrite F. left. reflexivity. }
  destruct ST as (s & Sf & Sg & SN).
  assert (OF : forall r, answer r <> OutOfFuel -> r <> OutOfFuel) by (intros r H ->; apply H; reflexivity).
  split; intros d H; rewrite Sf, Sg in *; rewrite <- answer_cut; f_equal.
  - apply (search_forward (label_of cut) n _ _ cut b1 b2 HB HB' HN' HO BN eq_refl eq_refl eq_refl eq_refl NL FR' d s []); [constructor|exact SN|apply OF; exact H].
  - apply (search_backward (label_of cut) n _ _ cut b1 b2 HB HB' HN' HO BN eq_refl eq_refl eq_refl eq_refl NL FR' d s []); [constructor|exact SN|apply OF; exact H].
Qed.

Theorem cut_iff : forall r, returns g r <-> exists r0, returns f r0 /\ r = cut_answer (label_of cut) n r0.
Proof.
  intros r. destruct (again [] (labels f)) as [x|] eqn:A.
  - assert (Af := find_dup _ _ A).
    assert (Ag : forall d, find_control_flow d g = Err (DuplicateBlockId x)) by (apply find_dup; rewrite cut_again; exact A).
    split.
    + intros [_ [d H]]. rewrite Ag in H. subst r. exists (Err (DuplicateBlockId x)). split; [split; [discriminate|exists 0; apply Af]|reflexivity].
    + intros (r0 & [_ [d H]] & ->). rewrite Af in H. subst r0. split; [discriminate|exists 0; apply Ag].
  - apply find_unfold in A. destruct (cut_runs A) as [FW BW]. split.
    + intros [N [d H]]. subst r. exists (find_control_flow d f). split; [|apply BW; exact N]. split; [|eauto].
      intros Q. apply N. rewrite (BW d N), Q. reflexivity.
    + intros (r0 & [N [d H]] & ->). subst r0. split; [|exists (2 * d); apply FW; exact N]. destruct (find_control_flow d f); cbn; congruence.
Qed.
End Function.
