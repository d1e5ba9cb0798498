(** Proofs about the objects that read_module owns, C119. *)
From Coq Require Import Permutation Lia.
From Verif Require Import Base Types Ops ReadErr ReadBase ReadOperands ExtSet ReadOps Reader ReaderState HashTable ReaderOwned
  Spec_Calls Spec_Drop Proofs_Operands Proofs_Hash Proofs_Calls.

(** ** The entries of a table *)
Section Entries.
Context {A : Type} (hashing : Hashing)
  (hash : N -> hasher_state (hasher hashing) -> hasher_state (hasher hashing)).
Notation table_get := (table_get (A := A) hashing hash).
Notation table_put := (table_put (A := A) hashing hash).
Notation rehash := (rehash (A := A) hashing hash).
Notation table_insert := (table_insert (A := A) hashing hash).
Notation placed := (placed (A := A) hashing hash).

Lemma bucket_put_new : forall k v (b : list (N * A)), bucket_get k b = None -> Permutation (bucket_put k v b) ((k, v) :: b).
Proof.
  intros k v. induction b as [|[k' v'] b IH]; cbn; intros H; [apply Permutation_refl|].
  destruct (N.eqb k k'); [discriminate H|]. apply IH in H.
  eapply perm_trans; [apply perm_skip; exact H|apply perm_swap].
Qed.

Lemma bucket_put_old : forall k v (b : list (N * A)) o, bucket_get k b = Some o ->
  Permutation ((k, o) :: bucket_put k v b) ((k, v) :: b).
Proof.
  intros k v. induction b as [|[k' v'] b IH]; cbn; intros o H; [discriminate H|].
  destruct (N.eqb k k') eqn:Q.
  - injection H as ->. apply N.eqb_eq in Q. subst. apply perm_swap.
  - apply IH in H. eapply perm_trans; [apply perm_swap|]. eapply perm_trans; [apply perm_skip; exact H|apply perm_swap].
Qed.

Lemma update_concat : forall (f : list (N * A) -> list (N * A)) t i b, nth_error t i = Some b ->
  exists l1 l2, concat t = l1 ++ b ++ l2 /\ concat (update i f t) = l1 ++ f b ++ l2.
Proof.
  intros f. induction t as [|x t IH]; intros [|i] b H; try discriminate H.
  - injection H as ->. exists [], (concat t). split; reflexivity.
  - cbn in H. destruct (IH i b H) as (l1 & l2 & H1 & H2). exists (x ++ l1), l2. cbn [update concat]. rewrite H1, H2, <- !app_assoc. auto.
Qed.

Lemma put_new : forall k v t, (0 < List.length t)%nat -> table_get k t = None -> Permutation (concat (table_put k v t)) ((k, v) :: concat t).
Proof.
  intros k v t H G. unfold HashTable.table_get in G. unfold HashTable.table_put.
  pose proof (slot_in hashing hash _ k H) as L. apply nth_error_Some in L.
  destruct (nth_error t _) as [b|] eqn:Hb; [|congruence].
  destruct (update_concat (bucket_put k v) t _ b Hb) as (l1 & l2 & -> & ->).
  eapply perm_trans; [apply Permutation_app_head, Permutation_app_tail, bucket_put_new; exact G|].
  apply Permutation_sym. apply (Permutation_middle l1 (b ++ l2) (k, v)).
Qed.

Lemma put_old : forall k v t o, (0 < List.length t)%nat -> table_get k t = Some o ->
  Permutation ((k, o) :: concat (table_put k v t)) ((k, v) :: concat t).
Proof.
  intros k v t o H G. unfold HashTable.table_get in G. unfold HashTable.table_put.
  destruct (nth_error t _) as [b|] eqn:Hb; [|discriminate G].
  destruct (update_concat (bucket_put k v) t _ b Hb) as (l1 & l2 & -> & ->).
  eapply perm_trans; [apply (Permutation_middle l1 (bucket_put k v b ++ l2) (k, o))|].
  eapply perm_trans; [|apply Permutation_sym, (Permutation_middle l1 (b ++ l2) (k, v))].
  apply Permutation_app_head. apply (Permutation_app_tail l2 (bucket_put_old k v b o G)).
Qed.

Lemma get_key : forall k v t, table_get k t = Some v -> In (k, v) (concat t).
Proof.
  intros k v t H. unfold HashTable.table_get in H. destruct (nth_error t _) as [b|] eqn:Hb; [|discriminate H].
  apply in_concat. exists b. split; [eapply nth_error_In; exact Hb|].
  clear Hb. induction b as [|[k' v'] b IH]; cbn in H; [discriminate H|].
  destruct (N.eqb k k') eqn:Q; [apply N.eqb_eq in Q; injection H as ->; subst; left; reflexivity|right; auto].
Qed.

Lemma rehash_same : forall n t, (0 < n)%nat -> NoDup (map fst (concat t)) -> Permutation (concat (rehash n t)) (concat t).
Proof.
  intros n t Hn. unfold HashTable.rehash.
  assert (G : forall l, NoDup (map fst l) ->
    let t' := fold_right (fun e t => table_put (fst e) (snd e) t) (repeat [] n) l in
    List.length t' = n /\ Permutation (concat t') l).
  { induction l as [|[k v] l IH]; intros D; cbn [fold_right fst snd].
    - split; [apply repeat_length|]. clear. induction n; cbn; auto.
    - cbn [map fst] in D. inversion D as [|? ? Hk D']; subst. destruct (IH D') as [L P]. cbv zeta in *.
      split; [rewrite put_length; exact L|].
      eapply perm_trans; [apply put_new; [rewrite L; exact Hn|]|apply perm_skip; exact P].
      destruct (table_get k _) as [x|] eqn:Q; [|reflexivity]. exfalso. apply get_key in Q.
      apply Hk. apply in_map_iff. exists (k, x). split; [reflexivity|]. eapply Permutation_in; [exact P|exact Q]. }
  intros D. apply G. exact D.
Qed.

(* the table has these entries *)
Definition has (t : Table (A := A)) (m : list (N * A)) : Prop :=
  placed t /\ NoDup (map fst m) /\ Permutation (concat t) m.

Lemma has_new : has table_new [].
Proof. split; [exact (empty_placed hashing hash 0)|]. split; [constructor|apply Permutation_refl]. Qed.

Lemma perm_get : forall (l m : list (N * A)), Permutation l m -> NoDup (map fst m) -> forall k, bucket_get k l = map_get k m.
Proof.
  intros l m P. induction P as [|[k v] l m P IH|[k v] [k' v'] l|l1 l2 l3 P1 IH1 P2 IH2]; intros D k0; cbn.
  - reflexivity.
  - inversion D; subst. rewrite IH by assumption. reflexivity.
  - assert (E : forall l : list (N * A), bucket_get k0 l = map_get k0 l) by (induction l0 as [|[? ?] l0 IHl]; cbn; auto; destruct (N.eqb _ _); auto).
    rewrite E. destruct (N.eqb k0 k') eqn:Q, (N.eqb k0 k) eqn:Q2; try reflexivity.
    apply N.eqb_eq in Q, Q2. subst. cbn in D. inversion D as [|? ? H _]. destruct H. left. reflexivity.
  - rewrite <- IH2 by exact D. rewrite IH1; [|eapply Permutation_NoDup; [apply Permutation_sym, Permutation_map; exact P2|exact D]].
    assert (E : forall l : list (N * A), bucket_get k0 l = map_get k0 l) by (induction l as [|[? ?] l0 IHl]; cbn; auto; destruct (N.eqb _ _); auto).
    symmetry. apply E.
Qed.

Lemma has_get : forall t m k, has t m -> table_get k t = map_get k m.
Proof.
  intros t m k (P & D & Q). rewrite <- (entries_get hashing hash t k P). apply perm_get; assumption.
Qed.

Lemma has_insert : forall k v t m, has t m ->
  fst (table_insert k v t) = map_get k m
  /\ match map_get k m with
     | None => has (snd (table_insert k v t)) ((k, v) :: m)
     | Some o => Permutation ((k, o) :: concat (snd (table_insert k v t))) ((k, v) :: m)
     end.
Proof.
  intros k v t m H. pose proof (has_get t m k H) as G. destruct H as (P & D & Q).
  unfold HashTable.table_insert. cbv zeta.
  set (n := Datatypes.S _). assert (Hn : (0 < n)%nat) by (unfold n; lia).
  set (t' := if Nat.eqb n (List.length t) then t else rehash n t).
  assert (L : List.length t' = n /\ placed t' /\ Permutation (concat t') m).
  { unfold t'. destruct (Nat.eqb n (List.length t)) eqn:QN.
    - apply Nat.eqb_eq in QN. repeat split; auto.
    - split; [apply rehash_length|]. split; [apply rehash_placed|].
      eapply perm_trans; [apply rehash_same; [exact Hn|]|exact Q].
      eapply Permutation_NoDup; [apply Permutation_sym, Permutation_map; exact Q|exact D]. }
  destruct L as (L & P' & Q'). clearbody t'. cbn [fst snd].
  assert (G' : table_get k t' = map_get k m) by (apply has_get; split; [exact P'|]; split; assumption).
  split; [exact G'|]. destruct (map_get k m) as [o|] eqn:M.
  - eapply perm_trans; [apply put_old; [lia|exact G']|]. apply perm_skip. exact Q'.
  - split; [apply put_placed; exact P'|]. split.
    + cbn [map fst]. constructor; [|exact D]. intros I. apply in_map_iff in I as ([k' x] & E & I). cbn in E. subst k'.
      clear - M I. induction m as [|[k' v'] m IH]; [destruct I|]. cbn in M, I. destruct (N.eqb k k') eqn:Q; [discriminate M|].
      destruct I as [E|I]; [injection E as -> ->; rewrite N.eqb_refl in Q; discriminate Q|auto].
    + eapply perm_trans; [apply put_new; [lia|exact G']|]. apply perm_skip. exact Q'.
Qed.

End Entries.

(** ** The reader *)
Section Reader.
Context {Obj E W : Type} (methods : SetMethods Obj E W) (drops : Drops Obj E W) (hashing : Hashing).
Notation ev := (call Obj E).
Notation has := (has (A := Obj) hashing (hash_OpId (hasher hashing))).

(* sets that write down the calls *)
Definition logged : SetMethods Obj E (W * list ev) := {|
  call_get_name := fun s '(w, log) => let (a, w) := call_get_name methods s w in (a, (w, log ++ [AskName s a]));
  call_duplicate := fun s '(w, log) => let (a, w) := call_duplicate methods s w in (a, (w, log ++ [AskCopy s a]));
  call_read_instruction := fun s n ws '(w, log) =>
    let (a, w) := call_read_instruction methods s n ws w in (a, (w, log ++ [AskInstruction s n ws a]))
|}.

Lemma answered_logged : forall wl calls wl', answered logged wl calls wl' ->
  snd wl' = snd wl ++ calls /\ answered methods (fst wl) calls (fst wl').
Proof.
  intros wl calls wl' H.
  induction H as [[w log]|[w log] s a w1 calls w' C _ [IH1 IH2]|[w log] s a w1 calls w' C _ [IH1 IH2]|[w log] s n ws a w1 calls w' C _ [IH1 IH2]]; cbn.
  - rewrite app_nil_r. split; [reflexivity|constructor].
  - cbn in C. destruct (call_get_name methods s w) as [a' w2] eqn:Q. injection C as <- <-. cbn in *.
    rewrite IH1, <- app_assoc. split; [reflexivity|]. econstructor; eassumption.
  - cbn in C. destruct (call_duplicate methods s w) as [a' w2] eqn:Q. injection C as <- <-. cbn in *.
    rewrite IH1, <- app_assoc. split; [reflexivity|]. econstructor; eassumption.
  - cbn in C. destruct (call_read_instruction methods s n ws w) as [a' w2] eqn:Q. injection C as <- <-. cbn in *.
    rewrite IH1, <- app_assoc. split; [reflexivity|]. econstructor; eassumption.
Qed.

Lemma copies_app : forall l1 l2 : list ev, copies_made (l1 ++ l2) = copies_made l1 ++ copies_made l2.
Proof. intros. apply flat_map_app. Qed.
Lemma made_app : forall l1 l2 : list ev, instructions_made (l1 ++ l2) = instructions_made l1 ++ instructions_made l2.
Proof. intros. apply flat_map_app. Qed.

(* the map owns all copies that have been made *)
Definition owns (t : Table (A := Obj)) (bound : bound_objects) (log : list ev) : Prop :=
  has t bound /\ Permutation (map snd bound) (copies_made log).

(* something went wrong: what was made since [log] has gone or is in the map *)
Definition ended (log : list ev) (t' : Table (A := Obj)) (w' : W) (wl : W * list ev) : Prop :=
  exists ds, w' = after_drops drops ds (fst wl)
    /\ Permutation (sets_dropped ds ++ map snd (concat t')) (copies_made (snd wl))
    /\ instructions_made (snd wl) = instructions_made log ++ instructions_dropped ds.

Definition follows {X} (log : list ev) (o : outcome ReadError (X * Core E) * Table (A := Obj) * W)
    (i : outcome ReadError (X * Core E * bound_objects) * (W * list ev)) : Prop :=
  let '(r, t', w') := o in
  match r, fst i with
  | Ok (x, c), Ok (x', c', bound') => x = x' /\ c = c' /\ w' = fst (snd i) /\ owns t' bound' (snd (snd i))
      /\ instructions_made (snd (snd i)) = instructions_made log ++ extended_of [c]
  | Err e, Err e' => e = e' /\ ended log t' w' (snd i)
  | Panic, Panic | OutOfFuel, OutOfFuel => ended log t' w' (snd i)
  | _, _ => False
  end.

Lemma ended_here : forall t bound log w, owns t bound log -> ended log t w (w, log).
Proof.
  intros t bound log w [(_ & _ & P) C]. exists []. split; [reflexivity|]. split; [|symmetry; apply app_nil_r].
  cbn. eapply perm_trans; [apply Permutation_map; exact P|exact C].
Qed.

Lemma follows_bind : forall X Y (r : outcome ReadError Y) (f : Y -> owning (Obj := Obj) (W := W) (X * Core E)) g t bound w log,
  owns t bound log -> (forall y, follows log (f y t w) (g y (w, log))) ->
  follows log (own_then (own_pure r) f t w) (and_then (pure r) g (w, log)).
Proof.
  intros X Y r f g t bound w log O H. unfold own_then, own_pure, and_then, pure.
  pose proof (ended_here t bound log w O) as D. destruct r as [y|e| |]; [apply H| | |]; cbn; auto.
Qed.

Lemma import_follows : forall id name block sets t bound w log0 log, owns t bound log ->
  instructions_made log = instructions_made log0 ->
  follows log0 (import_loop_owned methods drops hashing id name block sets t w)
    (import_loop_in logged id name block bound sets (w, log)).
Proof.
  intros id name block. induction sets as [|s sets IH]; intros t bound w log0 log O Q; cbn [import_loop_owned import_loop_in].
  - cbn. split; [reflexivity|]. destruct (ended_here t bound log w O) as (ds & D1 & D2 & D3). exists ds. rewrite <- Q. auto.
  - unfold and_then at 1, or_panic at 1. cbn [call_get_name logged].
    destruct (call_get_name methods s w) as [[n|] w1].
    + assert (O1 : owns t bound (log ++ [AskName s (Some n)])).
      { destruct O as [O1 O2]. split; [exact O1|]. rewrite copies_app. cbn. rewrite app_nil_r. exact O2. }
      assert (Q1 : instructions_made (log ++ [AskName s (Some n)]) = instructions_made log0).
      { rewrite made_app. cbn. rewrite app_nil_r. exact Q. }
      destruct (String.eqb n name); [|exact (IH _ _ _ _ _ O1 Q1)].
      unfold and_then, or_panic. cbn [call_duplicate logged].
      destruct (call_duplicate methods s w1) as [[copy|] w2].
      * destruct O1 as [O1 O2].
        destruct (has_insert hashing (hash_OpId (hasher hashing)) id copy t bound O1) as [Hold Hnew].
        destruct (table_insert _ _ id copy t) as [old t']. cbn [fst snd] in Hold, Hnew. subst old. unfold map_insert.
        destruct (map_get id bound) as [o|] eqn:M; cbn [follows pure fst snd].
        -- split; [reflexivity|]. exists [DropSet o]. cbn [after_drops fst snd sets_dropped instructions_dropped flat_map app].
           split; [reflexivity|]. split.
           ++ rewrite copies_app. cbn [copies_made flat_map]. rewrite app_nil_r.
              eapply perm_trans; [apply (Permutation_map snd) in Hnew; exact Hnew|]. cbn [map snd].
              eapply perm_trans; [apply Permutation_cons_append|]. apply Permutation_app_tail. exact O2.
           ++ rewrite made_app, Q1. cbn. reflexivity.
        -- split; [reflexivity|]. split; [reflexivity|]. split; [reflexivity|]. split.
           ++ split; [exact Hnew|]. rewrite copies_app. cbn [copies_made flat_map map snd]. rewrite app_nil_r.
              eapply perm_trans; [apply Permutation_cons_append|]. apply Permutation_app_tail. exact O2.
           ++ rewrite made_app, Q1. reflexivity.
      * cbn [follows pure fst snd]. destruct O1 as [(O0 & O1 & O2) O3]. exists []. cbn [after_drops sets_dropped instructions_dropped flat_map app fst snd]. split; [reflexivity|]. split.
        -- rewrite copies_app. cbn [copies_made flat_map]. rewrite app_nil_r. eapply perm_trans; [apply Permutation_map; exact O2|exact O3].
        -- rewrite made_app, Q1. cbn. reflexivity.
    + cbn [follows pure fst snd]. destruct O as [(O0 & O1 & O2) O3]. exists []. cbn [after_drops sets_dropped instructions_dropped flat_map app fst snd]. split; [reflexivity|]. split.
      * rewrite copies_app. cbn [copies_made flat_map]. rewrite app_nil_r. eapply perm_trans; [apply Permutation_map; exact O2|exact O3].
      * rewrite made_app, Q. cbn. reflexivity.
Qed.

Lemma extended_follows : forall block known t bound w log, owns t bound log ->
  follows log (read_core_OpExtInst_owned methods hashing block known t w) (read_core_OpExtInst_in logged block known bound (w, log)).
Proof.
  intros block known t bound w log O. unfold read_core_OpExtInst_owned, read_core_OpExtInst_in.
  eapply follows_bind; [exact O|]. intros [b1 rt]. eapply follows_bind; [exact O|]. intros [b2 id].
  eapply follows_bind; [exact O|]. intros [b3 set]. eapply follows_bind; [exact O|]. intros [b4 inst].
  rewrite (has_get hashing (hash_OpId (hasher hashing)) t bound set) by apply O.
  destruct (map_get set bound) as [s|].
  - unfold and_then. cbn [call_read_instruction logged].
    destruct (call_read_instruction methods s inst b4 w) as [a w1].
    assert (OC : forall a, copies_made (log ++ [AskInstruction s inst b4 a]) = copies_made log).
    { intros a'. rewrite copies_app. cbn. apply app_nil_r. }
    destruct O as [O1 O2].
    assert (D : forall a', match a' with Ok _ => False | _ => True end -> ended log t w1 (w1, log ++ [AskInstruction s inst b4 a'])).
    { intros a' Ha. exists []. cbn [after_drops fst snd]. split; [reflexivity|]. split.
      - rewrite OC. cbn. eapply perm_trans; [apply Permutation_map, O1|exact O2].
      - rewrite made_app. destruct a'; try contradiction; reflexivity. }
    destruct a as [[b5 x]|e| |]; cbn [bind follows pure fst snd]; try (split; [reflexivity|]); try (apply D; exact I).
    split; [reflexivity|]. split; [reflexivity|]. split; [split; [exact O1|rewrite OC; exact O2]|].
    rewrite made_app. reflexivity.
  - cbn. split; [reflexivity|]. exact (ended_here t bound log w O).
Qed.

Lemma dispatch_in_plain : forall op wc, op <> 11%N -> op <> 12%N ->
  dispatch_in logged op wc = (let! read_fn := dispatch (E := E) op wc in Ok (ignoring_sets (Obj := Obj) (W := W * list ev) read_fn)).
Proof.
  intros op wc N1 N2. unfold dispatch_in. destruct op as [|p]; [reflexivity|]. do 4 (destruct p as [p|p|]; try reflexivity); congruence.
Qed.
Lemma dispatch_owned_plain : forall op wc, op <> 11%N -> op <> 12%N ->
  dispatch_owned methods drops hashing op wc = (let! read_fn := dispatch (E := E) op wc in Ok (owning_nothing (Obj := Obj) (W := W) read_fn)).
Proof.
  intros op wc N1 N2. unfold dispatch_owned. destruct op as [|p]; [reflexivity|]. do 4 (destruct p as [p|p|]; try reflexivity); congruence.
Qed.

Lemma not_extended : forall op wc (read : CoreReader (E := E)), dispatch op wc = Ok read -> op <> 11%N -> op <> 12%N ->
  forall block r i b, read block [] [] = Ok (r, i, b) -> extended_of [i] = [].
Proof.
  intros op wc read H N1 N2. unfold dispatch in H.
  repeat match type of H with
  | Err _ = _ => discriminate H
  | Ok _ = _ => fail 1
  | match ?x with _ => _ end = _ => is_var x; destruct x
  | (if ?x then _ else _) = _ => destruct x
  end; try discriminate H; try congruence;
  (injection H as <-; intros block r i b R; unfold plain in R; apply bind_ok in R as ([? ?] & _ & R); injection R as _ <- _; reflexivity).
Qed.

Lemma dispatch_follows : forall op wc block known t bound w log, owns t bound log ->
  follows log (own_then (own_pure (dispatch_owned methods drops hashing op wc)) (fun f => f block known) t w)
    (and_then (pure (dispatch_in logged op wc)) (fun f => f block known bound) (w, log)).
Proof.
  intros op wc block known t bound w log O.
  destruct (N.eq_dec op 11) as [->|N1]; [|destruct (N.eq_dec op 12) as [->|N2]].
  - cbn [dispatch_owned dispatch_in]. unfold own_then at 1, own_pure at 1, and_then at 1, pure at 1.
    unfold read_core_OpExtInstImport_owned, read_core_OpExtInstImport_in.
    eapply follows_bind; [exact O|]. intros [b1 id]. eapply follows_bind; [exact O|]. intros [b2 name].
    apply import_follows; [exact O|reflexivity].
  - exact (extended_follows block known t bound w log O).
  - rewrite (dispatch_in_plain _ _ N1 N2), (dispatch_owned_plain _ _ N1 N2).
    destruct (dispatch op wc) as [read|e| |] eqn:D; cbn [bind].
    + unfold own_then, own_pure, and_then, pure, owning_nothing, own_pure, ignoring_sets, pure.
      destruct (read block [] []) as [[[b i] b0]|e| |] eqn:R; cbn [bind follows fst snd].
      * split; [reflexivity|]. split; [reflexivity|]. split; [reflexivity|]. split; [exact O|].
        rewrite (not_extended _ _ _ D N1 N2 _ _ _ _ R), app_nil_r. reflexivity.
      * split; [reflexivity|]. exact (ended_here t bound log w O).
      * exact (ended_here t bound log w O).
      * exact (ended_here t bound log w O).
    + cbn. split; [reflexivity|]. exact (ended_here t bound log w O).
    + cbn. exact (ended_here t bound log w O).
    + cbn. exact (ended_here t bound log w O).
Qed.

Lemma core_drop : forall i w, drop_core drops i w = after_drops drops (map DropInstruction (extended_of [i])) w.
Proof. intros i w. destruct i; reflexivity. Qed.

Lemma cores_drop : forall l w, drop_vec (drop_core drops) l w = after_drops drops (map DropInstruction (extended_of l)) w.
Proof.
  induction l as [|i l IH]; intros w; [reflexivity|]. cbn [drop_vec]. rewrite IH, core_drop.
  change (extended_of (i :: l)) with (extended_of ([i] ++ l)). unfold extended_of at 3. rewrite flat_map_app, map_app.
  fold (extended_of [i]). fold (extended_of l). generalize (map (@DropInstruction Obj E) (extended_of l)) as d2.
  generalize (map (@DropInstruction Obj E) (extended_of [i])) as d1. clear. intros d1 d2. revert w.
  induction d1 as [|[] d1 IH]; intros w; cbn; auto.
Qed.

Lemma sets_of_instructions : forall l : list E, sets_dropped (map (@DropInstruction Obj E) l) = [].
Proof. induction l; cbn; auto. Qed.
Lemma instructions_of_instructions : forall l : list E, instructions_dropped (map (@DropInstruction Obj E) l) = l.
Proof. induction l; cbn; [auto|]. f_equal. auto. Qed.

Lemma instruction_follows : forall stream known t bound w log, owns t bound log ->
  follows log (read_instruction_owned methods drops hashing stream known t w) (read_instruction_in logged stream known bound (w, log)).
Proof.
  intros stream known t bound w log O. unfold read_instruction_owned, read_instruction_in.
  eapply follows_bind; [exact O|]. intros [s1 head]. eapply follows_bind; [exact O|]. intros [s2 block].
  pose proof (dispatch_follows (as_u16 (N.land head 65535)) (as_u16 (N.shiftr head 16)) block known t bound w log O) as H.
  unfold own_then, own_pure, and_then, pure in *.
  destruct (dispatch_owned methods drops hashing _ _) as [f|e| |], (dispatch_in logged _ _) as [g|e'| |]; try exact H;
    try (destruct (f block known t w) as [[[[b i]|?| |] t'] w']);
    try (destruct (g block known bound (w, log)) as [[[[b' i'] bound']|?| |] [w1 log']]);
    cbn [follows fst snd] in H; try contradiction; try exact H.
  destruct H as (-> & -> & -> & O' & Q). destruct b' as [|b0 b']; cbn [follows fst snd].
  - repeat split; auto; apply O'.
  - split; [reflexivity|]. exists (map DropInstruction (extended_of [i'])). cbn [fst snd].
    split; [apply core_drop|]. rewrite sets_of_instructions, instructions_of_instructions. split; [|exact Q].
    destruct O' as [(_ & _ & P) C]. cbn. eapply perm_trans; [apply Permutation_map; exact P|exact C].
Qed.

Lemma after_app : forall d1 d2 w, after_drops drops (d1 ++ d2) w = after_drops drops d2 (after_drops drops d1 w).
Proof. induction d1 as [|[] d1 IH]; intros d2 w; cbn; auto. Qed.

Lemma loop_follows : forall fuel stream known acc t bound w log, owns t bound log -> instructions_made log = extended_of acc ->
  let '(r, acc', t', w') := read_instructions_owned methods drops hashing fuel stream known acc t w in
  let '(r', (w1, log')) := read_instructions_in logged fuel stream known bound acc (w, log) in
  match r, r' with
  | Ok tt, Ok is => is = acc' /\ w' = w1 /\ Permutation (map snd (concat t')) (copies_made log') /\ instructions_made log' = extended_of is
  | Err e, Err e' => e = e' /\ exists ds, w' = after_drops drops ds w1 /\ Permutation (sets_dropped ds ++ map snd (concat t')) (copies_made log')
      /\ instructions_made log' = extended_of acc' ++ instructions_dropped ds
  | Panic, Panic | OutOfFuel, OutOfFuel => exists ds, w' = after_drops drops ds w1 /\ Permutation (sets_dropped ds ++ map snd (concat t')) (copies_made log')
      /\ instructions_made log' = extended_of acc' ++ instructions_dropped ds
  | _, _ => False
  end.
Proof.
  induction fuel as [|fuel IH]; intros stream known acc t bound w log O Q; cbn [read_instructions_owned read_instructions_in].
  - destruct (stream_is_end stream); cbn.
    + destruct O as [(_ & _ & P) C]. split; [reflexivity|]. split; [reflexivity|]. split; [|exact Q].
      eapply perm_trans; [apply Permutation_map; exact P|exact C].
    + rewrite <- Q. exact (ended_here t bound log w O).
  - destruct (stream_is_end stream).
    { cbn. destruct O as [(_ & _ & P) C]. split; [reflexivity|]. split; [reflexivity|]. split; [|exact Q].
      eapply perm_trans; [apply Permutation_map; exact P|exact C]. }
    pose proof (instruction_follows stream known t bound w log O) as H. unfold and_then.
    destruct (read_instruction_owned methods drops hashing stream known t w) as [[[[s i]|e| |] t'] w'],
      (read_instruction_in logged stream known bound (w, log)) as [[[[s' i'] bound']|e'| |] [w1 log']]; cbn [follows fst snd] in H; try contradiction.
    + destruct H as (-> & -> & -> & O' & Q'). apply IH; [exact O'|].
      rewrite Q', Q. unfold extended_of. rewrite flat_map_app. reflexivity.
    + destruct H as [-> H]. rewrite <- Q. split; [reflexivity|exact H].
    + rewrite <- Q. exact H.
    + rewrite <- Q. exact H.
Qed.

Lemma vec_sets : forall l w, drop_vec (drop_set drops) l w = after_drops drops (map DropSet l) w.
Proof. induction l as [|s l IH]; intros w; cbn; auto. Qed.

Lemma table_sets : forall t w, drop_table drops t w = after_drops drops (map DropSet (map snd (concat t))) w.
Proof.
  assert (B : forall b w, drop_vec (fun entry : N * Obj => drop_set drops (snd entry)) b w = after_drops drops (map DropSet (map snd b)) w).
  { induction b as [|e b IH]; intros w; cbn; auto. }
  unfold drop_table. induction t as [|b t IH]; intros w; [reflexivity|]. cbn [drop_vec concat]. rewrite IH, B, !map_app, after_app. reflexivity.
Qed.

Lemma sets_of_sets : forall l : list Obj, sets_dropped (map (@DropSet Obj E) l) = l.
Proof. induction l; cbn; [auto|]. f_equal. auto. Qed.
Lemma instructions_of_sets : forall l : list Obj, instructions_dropped (map (@DropSet Obj E) l) = [].
Proof. induction l; cbn; auto. Qed.
Lemma sets_dropped_app : forall d1 d2 : list (drop Obj E), sets_dropped (d1 ++ d2) = sets_dropped d1 ++ sets_dropped d2.
Proof. intros. apply flat_map_app. Qed.
Lemma instructions_dropped_app : forall d1 d2 : list (drop Obj E), instructions_dropped (d1 ++ d2) = instructions_dropped d1 ++ instructions_dropped d2.
Proof. intros. apply flat_map_app. Qed.

Lemma owned_header : forall data known w,
  read_module_owned methods drops hashing data known w =
  match read_header_part data with
  | Ok (stream, version, generator, bound) =>
      let '(r, instructions, bound_inst_sets, w) :=
        read_instructions_owned methods drops hashing (List.length (Stream_source stream)) stream known [] table_new w in
      let w := drop_table drops bound_inst_sets w in
      match r with
      | Ok tt => (Ok (Build_RawModule version generator bound instructions), drop_vec (drop_set drops) known w)
      | Err e => (Err e, drop_vec (drop_set drops) known (drop_vec (drop_core drops) instructions w))
      | Panic => (Panic, drop_vec (drop_set drops) known (drop_vec (drop_core drops) instructions w))
      | OutOfFuel => (OutOfFuel, drop_vec (drop_set drops) known (drop_vec (drop_core drops) instructions w))
      end
  | Err e => (Err e, drop_vec (drop_set drops) known w)
  | Panic => (Panic, drop_vec (drop_set drops) known w)
  | OutOfFuel => (OutOfFuel, drop_vec (drop_set drops) known w)
  end.
Proof.
  intros data known w. unfold read_module_owned, read_header_part.
  destruct (stream_read_word (Build_Stream data true)) as [[s0 magic]|?| |]; cbn [bind]; reflexivity.
Qed.

Lemma module_drops : forall data known w r w', read_module_owned methods drops hashing data known w = (r, w') ->
  exists calls w1 ds first,
    answered methods w calls w1 /\ module_calls known data calls r /\ w' = after_drops drops ds w1
    /\ sets_dropped ds = first ++ known /\ Permutation first (copies_made calls)
    /\ match r with
       | Ok m => instructions_dropped ds = [] /\ instructions_made calls = extended_of (RawModule_instructions m)
       | _ => Permutation (instructions_dropped ds) (instructions_made calls)
       end.
Proof.
  intros data known w r w' H.
  assert (G : exists wl ds first, read_module_in logged data known (w, []) = (r, wl) /\ w' = after_drops drops ds (fst wl)
    /\ sets_dropped ds = first ++ known /\ Permutation first (copies_made (snd wl))
    /\ match r with
       | Ok m => instructions_dropped ds = [] /\ instructions_made (snd wl) = extended_of (RawModule_instructions m)
       | _ => Permutation (instructions_dropped ds) (instructions_made (snd wl))
       end).
  { rewrite owned_header in H. rewrite module_in_header.
    assert (N0 : Permutation (instructions_dropped (map (@DropSet Obj E) known)) (@instructions_made Obj E [])).
    { rewrite instructions_of_sets. constructor. }
    destruct (read_header_part data) as [[[[s v] g] b]|e| |];
      try (injection H as <- <-; exists (w, []), (map DropSet known), []; cbn [fst snd]; rewrite vec_sets, sets_of_sets;
           split; [reflexivity|]; split; [reflexivity|]; split; [reflexivity|]; split; [constructor|exact N0]).
    assert (O0 : owns table_new [] []) by (split; [apply has_new|constructor]).
    pose proof (loop_follows (List.length (Stream_source s)) s known [] table_new [] w [] O0 eq_refl) as L. unfold and_then.
    destruct (read_instructions_owned _ _ _ _ _ _ _ _ _) as [[[r0 acc] t'] w0].
    destruct (read_instructions_in _ _ _ _ _ _ _) as [r1 [w1 log]].
    cbv beta iota zeta in H. rewrite table_sets, ?cores_drop, !vec_sets in H.
    assert (F : forall ds, w0 = after_drops drops ds w1 -> Permutation (sets_dropped ds ++ map snd (concat t')) (copies_made log) ->
      instructions_made log = extended_of acc ++ instructions_dropped ds ->
      exists ds' first, after_drops drops (map DropSet known) (after_drops drops (map DropInstruction (extended_of acc))
          (after_drops drops (map DropSet (map snd (concat t'))) w0)) = after_drops drops ds' w1
        /\ sets_dropped ds' = first ++ known /\ Permutation first (copies_made log)
        /\ Permutation (instructions_dropped ds') (instructions_made log)).
    { intros ds -> P Q. exists (ds ++ map DropSet (map snd (concat t')) ++ map DropInstruction (extended_of acc) ++ map DropSet known), (sets_dropped ds ++ map snd (concat t')).
      rewrite !after_app, !sets_dropped_app, !instructions_dropped_app, !sets_of_sets, sets_of_instructions, !instructions_of_sets, instructions_of_instructions.
      split; [reflexivity|]. split; [rewrite <- app_assoc; reflexivity|]. split; [exact P|]. rewrite Q. cbn [app]. rewrite !app_nil_r.
      apply Permutation_app_comm. }
    destruct r0 as [[]|e| |], r1 as [is|e1| |]; try contradiction; cbn [pure]; injection H as <- <-.
    - destruct L as (-> & -> & P & Q). exists (w1, log), (map DropSet (map snd (concat t')) ++ map DropSet known), (map snd (concat t')). cbn [fst snd RawModule_instructions].
      split; [reflexivity|]. rewrite after_app, sets_dropped_app, instructions_dropped_app, !sets_of_sets, !instructions_of_sets.
      split; [reflexivity|]. split; [reflexivity|]. split; [exact P|]. split; [reflexivity|exact Q].
    - destruct L as (-> & ds & L1 & L2 & L3). destruct (F ds L1 L2 L3) as (ds' & first & F1 & F2 & F3 & F4).
      exists (w1, log), ds', first. auto.
    - destruct L as (ds & L1 & L2 & L3). destruct (F ds L1 L2 L3) as (ds' & first & F1 & F2 & F3 & F4).
      exists (w1, log), ds', first. auto.
    - destruct L as (ds & L1 & L2 & L3). destruct (F ds L1 L2 L3) as (ds' & first & F1 & F2 & F3 & F4).
      exists (w1, log), ds', first. auto. }
  destruct G as ([w1 log] & ds & first & M & G). apply module_exact in M as (calls & A & M).
  apply answered_logged in A as [A1 A2]. cbn [fst snd app] in *. subst log.
  exists calls, w1, ds, first. auto.
Qed.

(** The drops do not change the result, nor what the methods see. *)
Lemma owned_result : forall data known w,
  fst (read_module_owned methods drops hashing data known w) = fst (read_module_in methods data known w).
Proof.
  intros data known w. destruct (read_module_owned methods drops hashing data known w) as [r w'] eqn:H.
  apply module_drops in H as (calls & w1 & _ & _ & A & M & _).
  rewrite (proj2 (module_exact methods data known w r w1)); [reflexivity|]. exists calls. auto.
Qed.

End Reader.
