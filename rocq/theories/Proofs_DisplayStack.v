(** Lemmas for C97: the depth of the recursion of the chain printers. *)
From Coq Require Import Permutation.
From Verif Require Import Base Types Ops Groups ExtSet DisplayBase DisplayTypes DisplayOps DisplayModule ControlFlow DisplayFlow DisplayStack.
From Verif Require Import Spec_Flow Spec_Structured Spec_Cost Spec_DisplayStack Proofs_Flow Proofs_Flow2 Proofs_Structured Proofs_Cost.
Local Open Scope string_scope.
Local Open Scope nat_scope.

Lemma nesting_pos : forall c, 1 <= nesting c.
Proof. intros []; cbn [nesting]; lia. Qed.
Lemma empty_nesting : forall c, is_empty_block c = true -> nesting c = 1.
Proof. intros [| [|] | | | | ] H; try discriminate H. reflexivity. Qed.

Lemma indent_fits : forall i k, (N.of_nat (i + S k) < 2 ^ 32)%N -> next_indent i = Ok (S i).
Proof. intros i k H. unfold next_indent. rewrite (proj2 (N.ltb_lt _ _)); [reflexivity|]. lia. Qed.

Lemma within_limit : forall {A} a b (x : A) k (y : A), (if Nat.max a b <=? k then x else y) = (if a <=? k then if b <=? k then x else y else y).
Proof.
  intros A a b x k y. destruct (Nat.leb_spec (Nat.max a b) k), (Nat.leb_spec a k), (Nat.leb_spec b k); try reflexivity; lia.
Qed.

(** ** The printer of chains *)
Lemma items_exact : forall (print : ControlFlowChain -> outcome unit string) (text : ControlFlowChain -> string) k l,
  (forall c, print c = if nesting c <=? k then Ok (text c) else OutOfFuel) ->
  print_items print l = if list_max (map nesting l) <=? k
                        then Ok ((fix go l := match l with [] => "" | c :: l => text c ++ go l end) l) else OutOfFuel.
Proof.
  intros print text k l H. induction l as [|c l IH]; [reflexivity|].
  cbn [print_items map]. change (list_max (nesting c :: map nesting l)) with (Nat.max (nesting c) (list_max (map nesting l))).
  rewrite within_limit, H, IH. destruct (nesting c <=? k); [|reflexivity]. cbn [bind].
  destruct (list_max _ <=? k); reflexivity.
Qed.

Lemma chain_exact : forall k c i, (N.of_nat (i + k) < 2 ^ 32)%N ->
  chain_within k c i = if nesting c <=? k then Ok (chain_fmt_indent c i) else OutOfFuel.
Proof.
  induction k as [|k IH]; intros c i L.
  - pose proof (nesting_pos c). rewrite (proj2 (Nat.leb_gt _ _)) by lia. reflexivity.
  - assert (L1 : (N.of_nat (S i + k) < 2 ^ 32)%N) by (replace (S i + k) with (i + S k) by lia; exact L).
    destruct c as [id|l|id lhs rhs h w|id inner h w| |]; cbn [chain_within nesting chain_fmt_indent]; try reflexivity.
    + rewrite (items_exact _ (fun c => chain_fmt_indent c i) k l); [reflexivity|]. intros c. apply IH. lia.
    + rewrite (indent_fits i k L). cbn [bind]. cbn [Nat.add Nat.leb]. rewrite within_limit, (IH lhs _ L1).
      destruct (nesting lhs <=? k) eqn:Hl; [|reflexivity]. cbn [bind]. apply Nat.leb_le in Hl. pose proof (nesting_pos lhs).
      destruct (is_empty_block rhs) eqn:R.
      * rewrite (empty_nesting _ R). rewrite (proj2 (Nat.leb_le _ _)) by lia. reflexivity.
      * rewrite (IH rhs _ L1). destruct (nesting rhs <=? k); reflexivity.
    + rewrite (indent_fits i k L). cbn [bind]. cbn [Nat.add Nat.leb]. rewrite (IH inner _ L1). destruct (nesting inner <=? k); reflexivity.
Qed.
Lemma print_chain_exact : forall n c, (N.of_nat n < 2 ^ 32)%N ->
  disp_ControlFlowChain_within n c = if nesting c <=? n then Ok (disp_ControlFlowChain c) else OutOfFuel.
Proof. intros n c L. exact (chain_exact n c 0 L). Qed.

(** ** The printer of functions *)
Section Printer.
Context {E : Type} (d : E -> string) (f : FunctionDefinition E).

(** The number, for the call at indentation [i]. *)
Definition outcome_ok (x : outcome unit string) : bool := match x with Ok _ => true | _ => false end.
Definition and_then (ok : bool) (n : nat) : nat := if ok then n else 0.
Definition needed_items (need : ControlFlowChain -> nat) (ok : ControlFlowChain -> bool) : list ControlFlowChain -> nat :=
  fix go l :=
  match l with
  | [] => 0
  | c :: l => Nat.max (need c) (and_then (ok c) (go l))
  end.
Fixpoint needed (c : ControlFlowChain) (i : nat) : nat :=
  match c with
  | Atom _ | Break | Continue => 1
  | Block l => 1 + needed_items (fun c => needed c i) (fun c => outcome_ok (printer_fmt_indent d f c i)) l
  | Selection id lhs rhs _ _ => 1 + and_then (outcome_ok (fmt_block_indent d f i id))
      (Nat.max (needed lhs (S i)) (and_then (outcome_ok (printer_fmt_indent d f lhs (S i))) (if is_empty_block rhs then 0 else needed rhs (S i))))
  | Loop id inner _ _ => 1 + and_then (outcome_ok (fmt_block_indent d f i id)) (needed inner (S i))
  end.
Lemma needed_pos : forall c i, 1 <= needed c i.
Proof. intros [] i; cbn [needed]; lia. Qed.

Lemma block_never_out : forall i id, fmt_block_indent d f i id <> OutOfFuel.
Proof.
  intros i id. unfold fmt_block_indent. assert (X : forall l found, find_block (E := E) l id found <> OutOfFuel).
  { induction l as [|b l IH]; intros found; cbn [find_block]; [discriminate|]. destruct (N.eqb _ _); [destruct found; [discriminate|apply IH]|apply IH]. }
  specialize (X (FunctionDefinition_blocks f) None). destruct (find_block _ _ _) as [[b|]| | |]; cbn [bind]; congruence.
Qed.

Lemma items_needed : forall (print : ControlFlowChain -> outcome unit string) full need k l,
  (forall c, print c = if need c <=? k then full c else OutOfFuel) ->
  print_items print l = if needed_items need (fun c => outcome_ok (full c)) l <=? k
    then (fix go l := match l with [] => Ok "" | c :: l => let! a := full c in let! b := go l in Ok (a ++ b) end) l else OutOfFuel.
Proof.
  intros print full need k l H. induction l as [|c l IH]; [reflexivity|].
  cbn [print_items needed_items]. rewrite within_limit, H, IH. destruct (need c <=? k); [|reflexivity].
  destruct (full c) as [a| | |]; cbn [bind outcome_ok and_then]; try reflexivity. destruct (needed_items _ _ l <=? k); reflexivity.
Qed.

Lemma printer_exact : forall k c i, (N.of_nat (i + k) < 2 ^ 32)%N ->
  printer_within d k f c i = if needed c i <=? k then printer_fmt_indent d f c i else OutOfFuel.
Proof.
  induction k as [|k IH]; intros c i L.
  - pose proof (needed_pos c i). rewrite (proj2 (Nat.leb_gt _ _)) by lia. reflexivity.
  - assert (L1 : (N.of_nat (S i + k) < 2 ^ 32)%N) by (replace (S i + k) with (i + S k) by lia; exact L).
    destruct c as [id|l|id lhs rhs h w|id inner h w| |]; cbn [printer_within needed printer_fmt_indent]; try reflexivity.
    + rewrite (items_needed _ (fun c => printer_fmt_indent d f c i) (fun c => needed c i) k l); [reflexivity|]. intros c. apply IH. lia.
    + destruct (fmt_block_indent d f i id) as [b| | |] eqn:B; cbn [bind outcome_ok and_then]; try reflexivity.
      rewrite (indent_fits i k L). cbn [bind]. cbn [Nat.add Nat.leb]. rewrite within_limit, (IH lhs _ L1).
      destruct (needed lhs (S i) <=? k) eqn:Hl; [|reflexivity].
      destruct (printer_fmt_indent d f lhs (S i)) as [l| | |]; cbn [bind outcome_ok and_then]; try reflexivity.
      destruct (is_empty_block rhs) eqn:R; [reflexivity|].
      rewrite (IH rhs _ L1). destruct (needed rhs (S i) <=? k); reflexivity.
    + destruct (fmt_block_indent d f i id) as [b| | |] eqn:B; cbn [bind outcome_ok and_then]; try reflexivity.
      rewrite (indent_fits i k L). cbn [bind]. cbn [Nat.add Nat.leb]. rewrite (IH inner _ L1). destruct (needed inner (S i) <=? k); reflexivity.
Qed.

Lemma items_needed_bound : forall need ok l, Forall (fun c => need c <= nesting c) l -> needed_items need ok l <= list_max (map nesting l).
Proof.
  intros need ok l H. induction H as [|c l H F IH]; [cbn; lia|]. cbn [needed_items map].
  change (list_max (nesting c :: map nesting l)) with (Nat.max (nesting c) (list_max (map nesting l))). destruct (ok c); cbn [and_then]; lia.
Qed.
Lemma needed_bound : forall c i, needed c i <= nesting c.
Proof.
  induction c as [id|l IH|id lhs rhs h w IHl IHr|id inner h w IHi| |] using chain_ind'; intros i; cbn [needed nesting]; try lia.
  - apply le_n_S. apply items_needed_bound. rewrite Forall_forall in *. auto.
  - specialize (IHl (S i)). specialize (IHr (S i)). destruct (outcome_ok (fmt_block_indent d f i id)); cbn [and_then]; [|lia].
    destruct (outcome_ok _); cbn [and_then]; [|lia]. destruct (is_empty_block rhs); lia.
  - specialize (IHi (S i)). destruct (outcome_ok _); cbn [and_then]; lia.
Qed.
Lemma needed_all : forall c i s, printer_fmt_indent d f c i = Ok s -> needed c i = nesting c.
Proof.
  induction c as [id|l IH|id lhs rhs h w IHl IHr|id inner h w IHi| |] using chain_ind'; intros i s; cbn [needed nesting printer_fmt_indent]; try reflexivity.
  - intros H. f_equal. revert s H. induction IH as [|c l Hc F IHl]; intros s H; [reflexivity|]. cbn [needed_items map].
    change (list_max (nesting c :: map nesting l)) with (Nat.max (nesting c) (list_max (map nesting l))).
    destruct (printer_fmt_indent d f c i) as [a| | |] eqn:A; try discriminate H. cbn [bind outcome_ok and_then] in *.
    match type of H with bind ?x _ = _ => destruct x as [b| | |] eqn:B; try discriminate H end.
    rewrite (Hc i a A), (IHl b eq_refl). reflexivity.
  - destruct (fmt_block_indent d f i id) as [b| | |]; cbn [bind outcome_ok and_then]; try discriminate.
    destruct (printer_fmt_indent d f lhs (S i)) as [l| | |] eqn:A; cbn [bind outcome_ok and_then]; try discriminate.
    rewrite (IHl _ _ A). pose proof (nesting_pos lhs). destruct (is_empty_block rhs) eqn:R.
    + intros _. rewrite (empty_nesting _ R). lia.
    + destruct (printer_fmt_indent d f rhs (S i)) as [r| | |] eqn:B; cbn [bind]; try discriminate. intros _. rewrite (IHr _ _ B). reflexivity.
  - destruct (fmt_block_indent d f i id) as [b| | |]; cbn [bind outcome_ok and_then]; try discriminate.
    destruct (printer_fmt_indent d f inner (S i)) as [l| | |] eqn:A; cbn [bind]; try discriminate. intros _. rewrite (IHi _ _ A). reflexivity.
Qed.

Lemma print_function_threshold : forall c, exists need, need <= nesting c /\ forall n, (N.of_nat n < 2 ^ 32)%N ->
  disp_ControlFlowFunctionPrinter_within d n f c = if need <=? n then disp_ControlFlowFunctionPrinter d f c else OutOfFuel.
Proof. intros c. exists (needed c 0). split; [apply needed_bound|]. intros n L. exact (printer_exact n c 0 L). Qed.
Lemma print_function_exact : forall c text, disp_ControlFlowFunctionPrinter d f c = Ok text -> forall n, (N.of_nat n < 2 ^ 32)%N ->
  disp_ControlFlowFunctionPrinter_within d n f c = if nesting c <=? n then Ok text else OutOfFuel.
Proof. intros c text H n L. unfold disp_ControlFlowFunctionPrinter_within. rewrite (printer_exact n c 0 L), (needed_all c 0 text H). unfold disp_ControlFlowFunctionPrinter in H. rewrite H. reflexivity. Qed.
End Printer.

(** ** Chains that were found *)
Definition tops (c : ControlFlowChain) : nat := list_max (map nesting (items c)).
Lemma nesting_tops : forall c, nesting c <= S (tops c).
Proof. intros []; cbn [nesting tops items]; unfold tops; cbn [items map]; try lia; cbn; lia. Qed.
Lemma tops_nesting : forall c, tops c <= nesting c.
Proof. intros []; unfold tops; cbn [items map nesting]; cbn; lia. Qed.
Lemma tops_block : forall a b, tops (block [a; b]) = Nat.max (tops a) (tops b).
Proof. intros a b. rewrite block2. unfold tops. cbn [items]. rewrite map_app, list_max_app. reflexivity. Qed.
Lemma tops_one : forall c, match c with Block _ => False | _ => True end -> tops c = nesting c.
Proof. intros [] H; try contradiction H; unfold tops; cbn [items map nesting]; cbn; lia. Qed.
Lemma nesting_block2 : forall a b, nesting (block [a; b]) = S (Nat.max (tops a) (tops b)).
Proof. intros a b. rewrite block2. cbn [nesting]. rewrite map_app, list_max_app. reflexivity. Qed.

Lemma Ok_fst : forall {X A B} (a a' : A) (b b' : B), @Ok X (A * B) (a, b) = Ok (a', b') -> a = a'.
Proof. intros X A B a a' b b' H. injection H as H _. exact H. Qed.
Section Found.
Context {E : Type}.
Lemma search_nesting : forall n id fl (m : BlockMap (E := E)) c next, search_block n id fl m = Ok (c, next) -> nesting c <= 2 * n - 1 /\ 1 <= n.
Proof.
  induction n as [|n IH]; intros id fl m c next H; [discriminate H|]. split; [|lia]. cbn [search_block] in H.
  destruct (merges fl id); [injection H as <- <-; cbn; lia|].
  destruct (map_get id m) as [b|]; [|discriminate H].
  destruct (BasicBlock_branch b) as [op|op|op].
  - destruct (BasicBlock_merge b) as [[sm|lm]|]; try discriminate H.
    + apply bind_Ok in H as ([inner inext] & H1 & H). destruct (cont_eqb _ _); [|discriminate H].
      apply bind_Ok in H as ([after anext] & H2 & H). apply Ok_fst in H. rewrite <- H. clear H.
      apply IH in H1 as [H1 _]. apply IH in H2 as [H2 L]. pose proof (tops_nesting after).
      rewrite nesting_block2, (tops_one (Loop _ _ _ _) I). cbn [nesting]. lia.
    + apply bind_Ok in H as ([after anext] & H2 & H). apply Ok_fst in H. rewrite <- H. clear H.
      apply IH in H2 as [H2 L]. pose proof (tops_nesting after).
      rewrite nesting_block2, (tops_one (Atom _) I). cbn [nesting]. lia.
  - destruct (BasicBlock_merge b) as [[sm|lm]|]; try discriminate H.
    + apply bind_Ok in H as ([lhs lnext] & H1 & H). apply bind_Ok in H as ([rhs rnext] & H2 & H). destruct (_ && _)%bool; [|discriminate H].
      apply bind_Ok in H as ([after anext] & H3 & H). apply Ok_fst in H. rewrite <- H. clear H.
      apply IH in H1 as [H1 _]. apply IH in H2 as [H2 _]. apply IH in H3 as [H3 L]. pose proof (tops_nesting after).
      rewrite nesting_block2, (tops_one (Selection _ _ _ _ _) I). cbn [nesting]. lia.
    + destruct (innermost_loop fl) as [[head merge]|]; [|discriminate H]. destruct (_ || _)%bool; [|discriminate H].
      apply bind_Ok in H as ([inner inext] & H1 & H). destruct (cont_eqb _ _); [|discriminate H]. injection H as <- <-.
      apply IH in H1 as [H1 L]. cbn [nesting]. destruct (N.eqb _ merge); cbn [nesting]; lia.
  - injection H as <- <-. cbn. lia.
Qed.
Lemma found_nesting : forall n (f : FunctionDefinition E) c, find_control_flow n f = Ok c -> nesting c <= 2 * n - 1.
Proof.
  intros n f c H. unfold find_control_flow in H. apply bind_Ok in H as ([start m] & _ & H). destruct start as [start|]; [|discriminate H].
  apply bind_Ok in H as ([chain next] & H1 & H). destruct next; [discriminate H|]. injection H as <-. apply search_nesting in H1. apply H1.
Qed.
Lemma found_size : forall (f : FunctionDefinition E) c, returns f (Ok c) -> nesting c <= 2 * length (chain_ids c) - 1.
Proof.
  intros f c R. destruct (chain_depth f c R) as (need & B & D). specialize (D need). rewrite Nat.leb_refl in D. apply found_nesting in D. lia.
Qed.
End Found.

(** Selections inside one another. *)
Fixpoint nested (n : nat) : list statement :=
  match n with
  | O => []
  | S k => [Choose (N.of_nat n) 0%N (nested k) [] (Build_SelectionControl false false) None]
  end.
Definition nested_function {E} (n : nat) : FunctionDefinition E :=
  Build_FunctionDefinition (Build_OpFunction 0%N 0%N (Build_FunctionControl false false false false) 0%N) [] (map of_skeleton (lower_program (nested n) 0%N None)).
Lemma nested_ids : forall n x, In x (flat_map blocks_of (nested n)) -> (1 <= x <= N.of_nat n)%N.
Proof.
  induction n as [|n IH]; intros x H; [contradiction H|]. cbn [nested flat_map blocks_of] in H. rewrite !app_nil_r in H.
  destruct H as [<-|H]; [lia|]. apply IH in H. lia.
Qed.
Lemma nested_nodup : forall n, NoDup (flat_map blocks_of (nested n)).
Proof.
  induction n as [|n IH]; [constructor|]. cbn [nested flat_map blocks_of]. rewrite !app_nil_r. constructor; [|exact IH].
  intros H. apply nested_ids in H. lia.
Qed.
Lemma nested_depth : forall n, program_depth (nested n) = S n.
Proof.
  unfold program_depth. induction n as [|n IH]; [reflexivity|]. cbn [nested sequence_depth inside_depth]. rewrite IH. lia.
Qed.
Lemma nested_nesting : forall n, nesting (arm chain_of (nested n)) = 2 * n + 1.
Proof.
  induction n as [|n IH]; [reflexivity|]. cbn [nested arm is_exit chain_of nesting map]. rewrite IH. cbn [list_max fold_right nesting map]. lia.
Qed.
Lemma deep_chain : forall E n, exists (f : FunctionDefinition E) c, length (FunctionDefinition_blocks f) = S n /\ find_control_flow (S n) f = Ok c /\ nesting c = 2 * S n - 1.
Proof.
  intros E n. exists (nested_function n), (program_chain (nested n) 0%N).
  assert (T : tail_last exits_last false (nested n)).
  { induction n as [|n IH]; [exact I|]. cbn [nested tail_last exits_last]. split; [exact IH|exact I]. }
  assert (D : NoDup (flat_map blocks_of (nested n) ++ [0%N])).
  { apply (Permutation_NoDup (l := 0%N :: flat_map blocks_of (nested n))); [apply Permutation_cons_append|]. constructor; [|apply nested_nodup].
    intros J. apply nested_ids in J. lia. }
  set (f := nested_function n : FunctionDefinition E).
  assert (EN : entry f (first_of (nested n) 0%N)).
  { unfold entry, f, nested_function. cbn [FunctionDefinition_blocks]. unfold lower_program. destruct n as [|n]; cbn; eauto. }
  assert (PM : Permutation (map skeleton (FunctionDefinition_blocks f)) (lower_program (nested n) 0%N None)).
  { unfold f, nested_function. cbn [FunctionDefinition_blocks]. rewrite skeleton_of. reflexivity. }
  pose proof (structured_round_trip f _ _ _ T D PM EN) as R. pose proof (ordinary_placed _ _ T D) as PL. apply structured_iff in R as (ND & _).
  split; [|split].
  - unfold f, nested_function. cbn [FunctionDefinition_blocks]. rewrite map_length. unfold lower_program. rewrite app_length.
    rewrite <- (map_length (fun b : BlockId * option GroupMerge * GroupBranch => fst (fst b)) (sequence _ _ _)), sequence_labels.
    assert (length (flat_map blocks_of (nested n)) = n) as ->; [|cbn [length]; lia].
    clear. induction n as [|n IH]; [reflexivity|]. cbn [nested flat_map blocks_of]. rewrite !app_nil_r. cbn [length]. rewrite IH. reflexivity.
  - rewrite (depth_exact f ND _ _ None PL (fun x I => Permutation_in _ (Permutation_sym PM) I) EN), nested_depth, Nat.leb_refl. reflexivity.
  - destruct n as [|n]; [reflexivity|]. unfold program_chain. cbn [nested map app nesting chain_of]. rewrite nested_nesting. cbn [map nesting list_max fold_right arm]. lia.
Qed.

(** ** Overflow of the indentation *)
Definition fits (i : nat) (c : ControlFlowChain) : bool := N.ltb (N.of_nat (i + indentation c)) (2 ^ 32).
Definition all_fit (i : nat) (l : list ControlFlowChain) : bool := N.ltb (N.of_nat (i + list_max (map indentation l))) (2 ^ 32).

Lemma fits_cons : forall i c l, all_fit i (c :: l) = fits i c && all_fit i l.
Proof.
  intros i c l. unfold all_fit, fits. cbn [map]. change (list_max (indentation c :: map indentation l)) with (Nat.max (indentation c) (list_max (map indentation l))).
  destruct (N.ltb_spec (N.of_nat (i + indentation c)) (2 ^ 32)), (N.ltb_spec (N.of_nat (i + list_max (map indentation l))) (2 ^ 32)); cbn [andb];
    first [apply N.ltb_lt; lia|apply N.ltb_ge; lia].
Qed.
Lemma fits_two : forall i a b, N.ltb (N.of_nat (i + (1 + Nat.max (indentation a) (indentation b)))) (2 ^ 32) = fits (S i) a && fits (S i) b.
Proof.
  intros i a b. unfold fits. destruct (N.ltb_spec (N.of_nat (S i + indentation a)) (2 ^ 32)), (N.ltb_spec (N.of_nat (S i + indentation b)) (2 ^ 32)); cbn [andb];
    first [apply N.ltb_lt; lia|apply N.ltb_ge; lia].
Qed.
Lemma fits_one : forall i a, N.ltb (N.of_nat (i + (1 + indentation a))) (2 ^ 32) = fits (S i) a.
Proof. intros i a. unfold fits. f_equal. lia. Qed.
Lemma next_indent_is : forall i, (N.of_nat i < 2 ^ 32)%N ->
  next_indent i = Ok (S i) /\ (N.of_nat (S i) < 2 ^ 32)%N \/ next_indent i = Panic /\ forall c, fits (S i) c = false.
Proof.
  intros i L. unfold next_indent. destruct (N.ltb_spec (N.of_nat (S i)) (2 ^ 32)) as [H|H]; [left|right]; (split; [reflexivity|]); [exact H|].
  intro c. apply N.ltb_ge. lia.
Qed.
Lemma fits_low : forall i, (N.of_nat i < 2 ^ 32)%N -> N.ltb (N.of_nat (i + 0)) (2 ^ 32) = true.
Proof. intros i L. apply N.ltb_lt. rewrite Nat.add_0_r. exact L. Qed.

Lemma chain_overflow : forall k c i, nesting c <= k -> (N.of_nat i < 2 ^ 32)%N ->
  chain_within k c i = if fits i c then Ok (chain_fmt_indent c i) else Panic.
Proof.
  induction k as [|k IH]; intros c i K L; [pose proof (nesting_pos c); lia|].
  destruct c as [id|l|id lhs rhs h w|id inner h w| |]; cbn [chain_within chain_fmt_indent nesting] in *; unfold fits; cbn [indentation];
    try (rewrite (fits_low i L); reflexivity).
  - change (N.ltb (N.of_nat (i + list_max (map indentation l))) (2 ^ 32)) with (all_fit i l).
    assert (K' : list_max (map nesting l) <= k) by lia. clear K.
    induction l as [|c l IHl]; [rewrite (fits_low i L : all_fit i [] = true); reflexivity|]. cbn [map] in K'.
    change (list_max (nesting c :: map nesting l)) with (Nat.max (nesting c) (list_max (map nesting l))) in K'.
    cbn [print_items]. rewrite fits_cons, (IH c i) by (assumption || lia). rewrite IHl by lia. destruct (fits i c); [|reflexivity]. cbn [bind andb].
    destruct (all_fit i l); reflexivity.
  - rewrite fits_two. destruct (next_indent_is i L) as [[N1 L1]|[N1 F]]; rewrite N1; cbn [bind]; [|rewrite F; reflexivity].
    rewrite (IH lhs (S i)) by (assumption || lia). destruct (fits (S i) lhs); [|reflexivity]. cbn [bind andb].
    destruct (is_empty_block rhs) eqn:R.
    + assert (X : fits (S i) rhs = true) by (destruct rhs as [| [|] | | | |]; try discriminate R; apply (fits_low (S i) L1)). rewrite X. reflexivity.
    + rewrite (IH rhs (S i)) by (assumption || lia). destruct (fits (S i) rhs); reflexivity.
  - rewrite fits_one. destruct (next_indent_is i L) as [[N1 L1]|[N1 F]]; rewrite N1; cbn [bind]; [|rewrite F; reflexivity].
    rewrite (IH inner (S i)) by (assumption || lia). destruct (fits (S i) inner); reflexivity.
Qed.
Theorem print_chain_overflow : forall n c, nesting c <= n ->
  disp_ControlFlowChain_within n c = if N.ltb (N.of_nat (indentation c)) (2 ^ 32) then Ok (disp_ControlFlowChain c) else Panic.
Proof. intros n c K. exact (chain_overflow n c 0 K eq_refl). Qed.

Section Overflow.
Context {E : Type} (d : E -> string) (f : FunctionDefinition E).
Definition ok_or_panic (x : outcome unit string) : Prop := match x with Ok _ | Panic => True | _ => False end.
Lemma block_ok_or_panic : forall i id, ok_or_panic (fmt_block_indent d f i id).
Proof.
  intros i id. unfold fmt_block_indent.
  assert (X : forall l found, match find_block (E := E) l id found with Ok _ | Panic => True | _ => False end).
  { induction l as [|b l IH]; intros found; cbn [find_block]; [exact I|]. destruct (N.eqb _ _); [destruct found; [exact I|apply IH]|apply IH]. }
  specialize (X (FunctionDefinition_blocks f) None). destruct (find_block _ _ _) as [[b|]| | |]; try contradiction; exact I.
Qed.
Lemma printer_ok_or_panic : forall c i, ok_or_panic (printer_fmt_indent d f c i).
Proof.
  induction c as [id|l IH|id lhs rhs h w IHl IHr|id inner h w IHi| |] using chain_ind'; intros i; cbn [printer_fmt_indent]; try exact I.
  - apply block_ok_or_panic.
  - induction IH as [|c l Hc F IHl]; [exact I|]. specialize (Hc i). destruct (printer_fmt_indent d f c i); try contradiction; [|exact I]. cbn [bind].
    match goal with |- ok_or_panic (bind ?x _) => destruct x; try contradiction; exact I end.
  - pose proof (block_ok_or_panic i id) as B. destruct (fmt_block_indent d f i id); try contradiction; [|exact I]. cbn [bind].
    specialize (IHl (S i)). destruct (printer_fmt_indent d f lhs (S i)); try contradiction; [|exact I]. cbn [bind].
    destruct (is_empty_block rhs); [exact I|]. specialize (IHr (S i)). destruct (printer_fmt_indent d f rhs (S i)); try contradiction; exact I.
  - pose proof (block_ok_or_panic i id) as B. destruct (fmt_block_indent d f i id); try contradiction; [|exact I]. cbn [bind].
    specialize (IHi (S i)). destruct (printer_fmt_indent d f inner (S i)); try contradiction; exact I.
Qed.
Lemma printer_overflow : forall k c i, nesting c <= k -> (N.of_nat i < 2 ^ 32)%N ->
  printer_within d k f c i = if fits i c then printer_fmt_indent d f c i else Panic.
Proof.
  induction k as [|k IH]; intros c i K L; [pose proof (nesting_pos c); lia|].
  destruct c as [id|l|id lhs rhs h w|id inner h w| |]; cbn [printer_within printer_fmt_indent nesting] in *; unfold fits; cbn [indentation];
    try (rewrite (fits_low i L); reflexivity).
  - change (N.ltb (N.of_nat (i + list_max (map indentation l))) (2 ^ 32)) with (all_fit i l).
    assert (K' : list_max (map nesting l) <= k) by lia. clear K.
    induction l as [|c l IHl]; [rewrite (fits_low i L : all_fit i [] = true); reflexivity|]. cbn [map] in K'.
    change (list_max (nesting c :: map nesting l)) with (Nat.max (nesting c) (list_max (map nesting l))) in K'.
    cbn [print_items]. rewrite fits_cons, (IH c i) by (assumption || lia). rewrite IHl by lia.
    pose proof (printer_ok_or_panic c i) as P. destruct (fits i c); [|reflexivity]. cbn [andb].
    destruct (printer_fmt_indent d f c i); try contradiction; cbn [bind]; destruct (all_fit i l); reflexivity.
  - rewrite fits_two. pose proof (block_ok_or_panic i id) as B. destruct (fmt_block_indent d f i id); try contradiction; cbn [bind]; [|destruct (_ && _); reflexivity].
    destruct (next_indent_is i L) as [[N1 L1]|[N1 F]]; rewrite N1; cbn [bind]; [|rewrite F; reflexivity].
    rewrite (IH lhs (S i)) by (assumption || lia). pose proof (printer_ok_or_panic lhs (S i)) as P. destruct (fits (S i) lhs); [|reflexivity]. cbn [andb].
    destruct (printer_fmt_indent d f lhs (S i)); try contradiction; cbn [bind]; [|destruct (fits _ _); reflexivity].
    destruct (is_empty_block rhs) eqn:R.
    + assert (X : fits (S i) rhs = true) by (destruct rhs as [| [|] | | | |]; try discriminate R; apply (fits_low (S i) L1)). rewrite X. reflexivity.
    + rewrite (IH rhs (S i)) by (assumption || lia). destruct (fits (S i) rhs); reflexivity.
  - rewrite fits_one. pose proof (block_ok_or_panic i id) as B. destruct (fmt_block_indent d f i id); try contradiction; cbn [bind]; [|destruct (fits _ _); reflexivity].
    destruct (next_indent_is i L) as [[N1 L1]|[N1 F]]; rewrite N1; cbn [bind]; [|rewrite F; reflexivity].
    rewrite (IH inner (S i)) by (assumption || lia). destruct (fits (S i) inner); reflexivity.
Qed.
Theorem print_function_overflow : forall n c, nesting c <= n ->
  disp_ControlFlowFunctionPrinter_within d n f c = if N.ltb (N.of_nat (indentation c)) (2 ^ 32) then disp_ControlFlowFunctionPrinter d f c else Panic.
Proof. intros n c K. exact (printer_overflow n c 0 K eq_refl). Qed.
End Overflow.

(** ** A chain that overflows *)
Definition loops (n : nat) : ControlFlowChain := Nat.iter n (fun c => Loop 1%N c (Build_LoopControl false false false None) None) (Atom 1%N).
Lemma loops_indentation : forall n, indentation (loops n) = n.
Proof. induction n as [|n IH]; [reflexivity|]. change (loops (S n)) with (Loop 1%N (loops n) (Build_LoopControl false false false None) None). cbn [indentation]. rewrite IH. reflexivity. Qed.
Theorem overflow_happens : forall k, (2 ^ 32 <= N.of_nat k)%N -> exists c, indentation c = k /\ forall n, nesting c <= n -> disp_ControlFlowChain_within n c = Panic.
Proof.
  intros k K. exists (loops k). split; [apply loops_indentation|]. intros n H. rewrite (print_chain_overflow n _ H), loops_indentation.
  rewrite (proj2 (N.ltb_ge _ _) K). reflexivity.
Qed.
