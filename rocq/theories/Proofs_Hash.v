(** Hash tables agree with association lists, whatever the hash function. *)
From Verif Require Import Base Types Ops Groups ReadErr ReadBase ReadOperands ExtSet ReadOps Reader ControlFlow
  HashTable ControlFlowHash ReaderHash Spec_Hash.
From Coq Require Import Lia.

Section Table.
Context {A : Type} (hashing : Hashing)
  (hash : N -> hasher_state (hasher hashing) -> hasher_state (hasher hashing)).

Notation slot := (slot hashing hash).
Notation table_get := (table_get (A := A) hashing hash).
Notation table_put := (table_put (A := A) hashing hash).
Notation rehash := (rehash (A := A) hashing hash).
Notation table_insert := (table_insert (A := A) hashing hash).

(* every entry is in the bucket of its key *)
Definition placed (t : Table (A := A)) : Prop :=
  forall i b e, nth_error t i = Some b -> In e b -> slot (List.length t) (fst e) = i.

Lemma slot_in : forall n k, (0 < n)%nat -> (slot n k < n)%nat.
Proof.
  intros n k H. unfold HashTable.slot. set (x := finish _ _). clearbody x.
  assert (N.modulo x (N.of_nat n) < N.of_nat n)%N by (apply N.mod_lt; lia). lia.
Qed.

Lemma update_length : forall B (f : B -> B) l i, List.length (update i f l) = List.length l.
Proof. intros B f. induction l as [|x l IH]; intros [|i]; cbn; auto. Qed.

Lemma update_same : forall B (f : B -> B) l i, nth_error (update i f l) i = option_map f (nth_error l i).
Proof. intros B f. induction l as [|x l IH]; intros [|i]; cbn; auto. Qed.

Lemma update_other : forall B (f : B -> B) l i j, i <> j -> nth_error (update i f l) j = nth_error l j.
Proof. intros B f. induction l as [|x l IH]; intros [|i] [|j] H; cbn; auto; congruence. Qed.

Lemma bucket_get_put : forall k k' v (b : list (N * A)),
  bucket_get k (bucket_put k' v b) = if N.eqb k k' then Some v else bucket_get k b.
Proof.
  intros k k' v. induction b as [|[k2 v2] b IH]; cbn; [reflexivity|].
  destruct (N.eqb k' k2) eqn:Q; cbn [bucket_get].
  - apply N.eqb_eq in Q. subst. destruct (N.eqb k k2); reflexivity.
  - destruct (N.eqb k k2) eqn:Q2.
    + apply N.eqb_eq in Q2. subst. rewrite N.eqb_sym, Q. reflexivity.
    + exact IH.
Qed.

Lemma bucket_put_in : forall k v (b : list (N * A)) e, In e (bucket_put k v b) -> fst e = k \/ In e b.
Proof.
  intros k v. induction b as [|[k2 v2] b IH]; cbn; intros e H.
  - destruct H as [<-|[]]. auto.
  - destruct (N.eqb k k2) eqn:Q; cbn in H.
    + apply N.eqb_eq in Q. subst. destruct H as [<-|H]; auto.
    + destruct H as [<-|H]; auto. destruct (IH _ H); auto.
Qed.

Lemma bucket_get_app : forall k (a b : list (N * A)),
  bucket_get k (a ++ b) = match bucket_get k a with Some v => Some v | None => bucket_get k b end.
Proof. intros k. induction a as [|[k2 v2] a IH]; intros b; cbn; auto. destruct (N.eqb k k2); auto. Qed.

Lemma bucket_get_none : forall k (b : list (N * A)), (forall e, In e b -> fst e <> k) -> bucket_get k b = None.
Proof.
  intros k. induction b as [|[k2 v2] b IH]; intros H; cbn; auto. destruct (N.eqb k k2) eqn:Q.
  - apply N.eqb_eq in Q. subst. destruct (H _ (or_introl eq_refl)). reflexivity.
  - apply IH. intros e I. apply H. right. exact I.
Qed.

Lemma put_length : forall k v t, List.length (table_put k v t) = List.length t.
Proof. intros. apply update_length. Qed.

Lemma get_put : forall k k' v t, (0 < List.length t)%nat ->
  table_get k (table_put k' v t) = if N.eqb k k' then Some v else table_get k t.
Proof.
  intros k k' v t H. unfold HashTable.table_get. rewrite put_length. unfold HashTable.table_put.
  destruct (Nat.eq_dec (slot (List.length t) k') (slot (List.length t) k)) as [Q|Q].
  - rewrite Q, update_same. pose proof (slot_in _ k H) as L. apply nth_error_Some in L.
    destruct (nth_error t (slot (List.length t) k)) as [b|]; [|congruence]. cbn [option_map]. apply bucket_get_put.
  - rewrite update_other by exact Q. destruct (N.eqb k k') eqn:Q2; [|reflexivity].
    apply N.eqb_eq in Q2. subst. congruence.
Qed.

Lemma put_placed : forall k v t, placed t -> placed (table_put k v t).
Proof.
  intros k v t P i b e Hn Hi. rewrite put_length. unfold HashTable.table_put in Hn.
  destruct (Nat.eq_dec (slot (List.length t) k) i) as [Q|Q].
  - subst i. rewrite update_same in Hn.
    destruct (nth_error t (slot (List.length t) k)) as [b0|] eqn:H0; [|discriminate Hn].
    cbn in Hn. injection Hn as <-. destruct (bucket_put_in _ _ _ _ Hi) as [->|Hi']; [reflexivity|].
    exact (P _ _ _ H0 Hi').
  - rewrite update_other in Hn by exact Q. exact (P _ _ _ Hn Hi).
Qed.

Lemma empty_placed : forall n, placed (repeat [] n).
Proof. intros n i b e H I. apply nth_error_In, repeat_spec in H. subst. destruct I. Qed.

Lemma empty_get : forall n k, table_get k (repeat [] n) = None.
Proof.
  intros n k. unfold HashTable.table_get. destruct (nth_error _ _) eqn:H; [|reflexivity].
  apply nth_error_In, repeat_spec in H. subst. reflexivity.
Qed.

Lemma rehash_length : forall n t, List.length (rehash n t) = n.
Proof.
  intros n t. unfold HashTable.rehash. induction (concat t) as [|e l IH]; cbn [fold_right].
  - apply repeat_length.
  - rewrite put_length. exact IH.
Qed.

Lemma rehash_placed : forall n t, placed (rehash n t).
Proof.
  intros n t. unfold HashTable.rehash. induction (concat t) as [|e l IH]; cbn [fold_right].
  - apply empty_placed.
  - apply put_placed. exact IH.
Qed.

Lemma rehash_entries : forall n t k, (0 < n)%nat -> table_get k (rehash n t) = bucket_get k (concat t).
Proof.
  intros n t k H. unfold HashTable.rehash.
  assert (G : forall l, table_get k (fold_right (fun e t => table_put (fst e) (snd e) t) (repeat [] n) l) = bucket_get k l
    /\ List.length (fold_right (fun e t => table_put (fst e) (snd e) t) (repeat [] n) l) = n).
  { induction l as [|[k' v] l [IH1 IH2]]; cbn [fold_right fst snd bucket_get].
    - split; [apply empty_get|apply repeat_length].
    - split; [|rewrite put_length; exact IH2]. rewrite get_put by (rewrite IH2; exact H). rewrite IH1. reflexivity. }
  apply G.
Qed.

Lemma concat_get : forall (t : list (list (N * A))) i k,
  (forall j b e, nth_error t j = Some b -> In e b -> fst e = k -> j = i) ->
  bucket_get k (concat t) = match nth_error t i with None => None | Some b => bucket_get k b end.
Proof.
  induction t as [|b t IH]; intros i k H; cbn [concat].
  - destruct i; reflexivity.
  - rewrite bucket_get_app. destruct i as [|i]; cbn [nth_error].
    + replace (bucket_get k (concat t)) with (@None A); [destruct (bucket_get k b); reflexivity|].
      symmetry. apply bucket_get_none. intros e He Hk. apply in_concat in He as (b' & Hb & He).
      apply In_nth_error in Hb as (j & Hj). specialize (H (Datatypes.S j) _ _ Hj He Hk). discriminate H.
    + rewrite (bucket_get_none k b).
      * apply IH. intros j b' e Hj He Hk. specialize (H (Datatypes.S j) _ _ Hj He Hk). congruence.
      * intros e He Hk. specialize (H 0%nat _ _ eq_refl He Hk). discriminate H.
Qed.

Lemma entries_get : forall t k, placed t -> bucket_get k (concat t) = table_get k t.
Proof.
  intros t k P. unfold HashTable.table_get. apply concat_get. intros j b e Hj He <-. symmetry. exact (P _ _ _ Hj He).
Qed.

(* a table stands for an association list *)
Definition stands (t : Table (A := A)) (m : list (N * A)) : Prop :=
  placed t /\ forall k, table_get k t = map_get k m.

Lemma stands_new : stands table_new [].
Proof. split; [exact (empty_placed 0)|exact (empty_get 0)]. Qed.

Lemma stands_insert : forall k v t m, stands t m ->
  fst (table_insert k v t) = map_get k m /\ stands (snd (table_insert k v t)) ((k, v) :: m).
Proof.
  intros k v t m [P G]. unfold HashTable.table_insert. cbv zeta.
  set (n := Datatypes.S _). assert (Hn : (0 < n)%nat) by (unfold n; lia).
  set (t' := if Nat.eqb n (List.length t) then t else rehash n t).
  assert (L : List.length t' = n /\ placed t' /\ forall k, table_get k t' = map_get k m).
  { unfold t'. destruct (Nat.eqb n (List.length t)) eqn:Q.
    - apply Nat.eqb_eq in Q. repeat split; auto.
    - split; [apply rehash_length|]. split; [apply rehash_placed|]. intros k0.
      rewrite rehash_entries by exact Hn. rewrite entries_get by exact P. apply G. }
  destruct L as (L & P' & G'). clearbody t'. cbn [fst snd]. split; [apply G'|].
  split; [apply put_placed; exact P'|]. intros k0. rewrite get_put by lia. rewrite G'. reflexivity.
Qed.

(** Any sequence of insertions *)
Lemma map_last : forall k (l : list (N * A)), map_get k (rev l) = last_value k l.
Proof.
  intros k l. unfold last_value. induction (rev l) as [|[k' v] m IH]; cbn; [reflexivity|].
  rewrite N.eqb_sym. destruct (N.eqb k' k); [reflexivity|exact IH].
Qed.

Lemma insert_all_ok : forall l t past, stands t (rev past) ->
  stands (snd (insert_all hashing hash l t)) (rev (past ++ l))
  /\ forall before k v after, l = before ++ (k, v) :: after ->
       nth_error (fst (insert_all hashing hash l t)) (List.length before) = Some (last_value k (past ++ before)).
Proof.
  induction l as [|[k v] l IH]; intros t past S; cbn [insert_all].
  - rewrite app_nil_r. split; [exact S|]. intros [|] ? ? ? Q; discriminate Q.
  - destruct (stands_insert k v t (rev past) S) as [Ho Hs].
    destruct (table_insert k v t) as [old t']. cbn [fst snd] in Ho, Hs.
    specialize (IH t' (past ++ [(k, v)])). rewrite rev_app_distr in IH. specialize (IH Hs) as [IHs IHo].
    destruct (insert_all hashing hash l t') as [olds t2]. cbn [fst snd] in *. split.
    + rewrite <- app_assoc in IHs. exact IHs.
    + intros [|e before] k0 v0 after Q; cbn [app] in Q; injection Q.
      * intros _ <- <-. cbn. rewrite Ho, map_last, app_nil_r. reflexivity.
      * intros Q2 <-. cbn [List.length nth_error]. rewrite (IHo before k0 v0 after Q2), <- app_assoc. reflexivity.
Qed.

Lemma table_map : forall l : list (N * A),
  (forall k, table_get k (snd (insert_all hashing hash l table_new)) = last_value k l)
  /\ forall before k v after, l = before ++ (k, v) :: after ->
       nth_error (fst (insert_all hashing hash l table_new)) (List.length before) = Some (last_value k before).
Proof.
  intros l. destruct (insert_all_ok l table_new [] stands_new) as [[_ G] O]. split; [|exact O].
  intros k. rewrite G. apply map_last.
Qed.

End Table.

(** The control-flow search *)
Section Flow.
Context {E : Type} (hashing : Hashing).
Notation stands := (stands hashing (hash_BlockId (hasher hashing))).

Lemma search_hashed_ok : forall fuel id fl (t : @BlockTable E) m, stands t m ->
  search_hashed hashing fuel id fl t = search_block fuel id fl m.
Proof.
  induction fuel as [|fuel IH]; intros id fl t m S; [reflexivity|].
  assert (IH' : forall id fl, search_hashed hashing fuel id fl t = search_block fuel id fl m).
  { intros. apply IH. exact S. }
  clear IH. cbn [search_hashed search_block]. unfold block_get.
  replace (table_get hashing (hash_BlockId (hasher hashing)) id t) with (map_get id m) by (symmetry; apply S).
  destruct (merges fl id); [reflexivity|]. destruct (map_get id m) as [blk|]; [|reflexivity].
  destruct (BasicBlock_branch blk); [| |reflexivity].
  all: destruct (BasicBlock_merge blk) as [[]|]; try reflexivity; try (rewrite !IH'; reflexivity).
Qed.

Lemma build_table_ok : forall bs start (t : @BlockTable E) m, stands t m ->
  match build_table hashing bs start t, build_map bs start m with
  | Ok (s, t), Ok (s', m) => s = s' /\ stands t m
  | Err e, Err e' => e = e'
  | Panic, Panic | OutOfFuel, OutOfFuel => True
  | _, _ => False
  end.
Proof.
  induction bs as [|b bs IH]; intros start t m S; cbn [build_table build_map]; [auto|].
  destruct (stands_insert hashing _ (OpLabel_result_id (BasicBlock_label b)) b t m S) as [Ho Hs].
  unfold map_insert. destruct (table_insert hashing _ _ b t) as [old t']. cbn [fst snd] in Ho, Hs. rewrite Ho.
  destruct (map_get _ m); [reflexivity|]. apply IH. exact Hs.
Qed.

Lemma find_hashed_ok : forall fuel (f : FunctionDefinition E),
  find_control_flow_hashed hashing fuel f = find_control_flow fuel f.
Proof.
  intros fuel f. unfold find_control_flow_hashed, find_control_flow.
  pose proof (build_table_ok (FunctionDefinition_blocks f) None table_new [] (stands_new _ _)) as H.
  destruct (build_table _ _ _ _) as [[s t]|e| |], (build_map _ _ _) as [[s' m]|e'| |]; try contradiction; cbn [bind];
    try (subst; reflexivity).
  destruct H as [-> S]. destruct s' as [start|]; [|reflexivity].
  rewrite (search_hashed_ok _ _ _ _ _ S). reflexivity.
Qed.

End Flow.

(** The reader *)
Section Reader.
Context {E : Type} (hashing : Hashing).
Notation stands := (stands hashing (hash_OpId (hasher hashing))).

(* the two results agree and the tables they return stand for the lists *)
Definition agree {B} (r : outcome ReadError (B * @bound_table E)) (r' : outcome ReadError (B * bound_sets E)) : Prop :=
  match r, r' with
  | Ok (x, t), Ok (x', m) => x = x' /\ stands t m
  | Err e, Err e' => e = e'
  | Panic, Panic | OutOfFuel, OutOfFuel => True
  | _, _ => False
  end.

Lemma agree_bind : forall X B (x : outcome ReadError X) (f : X -> outcome ReadError (B * @bound_table E)) g,
  (forall a, agree (f a) (g a)) -> agree (let! a := x in f a) (let! a := x in g a).
Proof. intros X B x f g H. destruct x; cbn [bind]; cbn; auto. Qed.

Lemma import_loop_ok : forall id name block sets t m, stands t m ->
  agree (import_loop_hashed hashing id name block t sets) (import_loop (E := E) id name block m sets).
Proof.
  intros id name block. induction sets as [|s sets IH]; intros t m S; cbn [import_loop_hashed import_loop]; [reflexivity|].
  destruct (String.eqb _ _); [|exact (IH _ _ S)].
  destruct (stands_insert hashing _ id (duplicate s) t m S) as [Ho Hs].
  unfold map_insert. destruct (table_insert hashing _ id (duplicate s) t) as [old t']. cbn [fst snd] in Ho, Hs. rewrite Ho.
  destruct (map_get id m); [reflexivity|]. split; [reflexivity|exact Hs].
Qed.

Lemma import_ok : forall block known t m, stands t m ->
  agree (read_core_OpExtInstImport_hashed hashing block known t) (read_core_OpExtInstImport (E := E) block known m).
Proof.
  intros block known t m S. unfold read_core_OpExtInstImport_hashed, read_core_OpExtInstImport.
  apply agree_bind. intros [block1 id]. apply agree_bind. intros [block2 name]. apply import_loop_ok. exact S.
Qed.

Lemma ext_inst_ok : forall block known t m, stands t m ->
  agree (read_core_OpExtInst_hashed hashing block known t) (read_core_OpExtInst (E := E) block known m).
Proof.
  intros block known t m S. unfold read_core_OpExtInst_hashed, read_core_OpExtInst.
  apply agree_bind. intros [block1 rt]. apply agree_bind. intros [block2 id]. apply agree_bind. intros [block3 set].
  apply agree_bind. intros [block4 inst].
  replace (table_get hashing (hash_OpId (hasher hashing)) set t) with (map_get set m) by (symmetry; apply S).
  destruct (map_get set m) as [read|]; [|reflexivity].
  apply agree_bind. intros [block5 e]. split; [reflexivity|exact S].
Qed.

Lemma plain_sets : forall A (read : Reader A) (wrap : A -> Core E) block known m,
  plain read wrap block known m
  = (let! (block, inst, _) := plain (E := E) read wrap block [] [] in Ok (block, inst, m)).
Proof. intros. unfold plain. destruct (read block) as [[b x]|?| |]; reflexivity. Qed.

Lemma dispatch_plain : forall op wc (read : CoreReader (E := E)), dispatch op wc = Ok read -> op <> 11%N -> op <> 12%N ->
  forall block known m, read block known m = (let! (block, inst, _) := read block [] [] in Ok (block, inst, m)).
Proof.
  intros op wc read H N1 N2. unfold dispatch in H.
  repeat match type of H with
  | Err _ = _ => discriminate H
  | Ok _ = _ => fail 1
  | match ?x with _ => _ end = _ => is_var x; destruct x
  | (if ?x then _ else _) = _ => destruct x
  end; try discriminate H; try congruence;
  (injection H as <-; intros; apply plain_sets).
Qed.

Lemma dispatch_hashed_plain : forall op wc, op <> 11%N -> op <> 12%N ->
  dispatch_hashed (E := E) hashing op wc = (let! read_fn := dispatch op wc in Ok (without_sets read_fn)).
Proof.
  intros op wc N1 N2. unfold dispatch_hashed.
  destruct op as [|p]; [reflexivity|]. do 4 (destruct p as [p|p|]; try reflexivity); congruence.
Qed.

Lemma dispatch_ok : forall op wc block known t m, stands t m ->
  agree (let! read_fn := dispatch_hashed (E := E) hashing op wc in read_fn block known t)
        (let! read_fn := dispatch op wc in read_fn block known m).
Proof.
  intros op wc block known t m S.
  destruct (N.eq_dec op 11) as [->|N1]; [exact (import_ok block known t m S)|].
  destruct (N.eq_dec op 12) as [->|N2]; [exact (ext_inst_ok block known t m S)|].
  rewrite (dispatch_hashed_plain _ _ N1 N2). destruct (dispatch op wc) as [read|?| |] eqn:D; cbn [bind]; try reflexivity.
  rewrite (dispatch_plain _ _ _ D N1 N2 block known m). unfold without_sets.
  destruct (read block [] []) as [[[b i] m0]|?| |]; cbn [bind]; try reflexivity. split; [reflexivity|exact S].
Qed.

Lemma read_instruction_ok : forall stream known t m, stands t m ->
  agree (read_instruction_hashed hashing stream known t) (read_instruction (E := E) stream known m).
Proof.
  intros stream known t m S. unfold read_instruction_hashed, read_instruction.
  apply agree_bind. intros [s1 head]. apply agree_bind. intros [s2 block].
  pose proof (dispatch_ok (as_u16 (N.land head 65535)) (as_u16 (N.shiftr head 16)) block known t m S) as H.
  destruct (dispatch_hashed _ _ _) as [f|?| |], (dispatch _ _) as [g|?| |]; cbn [bind] in *; try exact H;
    try (destruct (f block known t) as [[[b i] t']|?| |]); try (destruct (g block known m) as [[[b' i'] m']|?| |]);
    cbn [bind]; cbn in H; try contradiction; try exact H.
  destruct H as [Q S']. injection Q as -> ->. destruct b'; [|reflexivity]. split; [reflexivity|exact S'].
Qed.

Lemma read_instructions_ok : forall fuel stream known t m acc, stands t m ->
  read_instructions_hashed hashing fuel stream known t acc = read_instructions (E := E) fuel stream known m acc.
Proof.
  induction fuel as [|fuel IH]; intros stream known t m acc S; cbn [read_instructions_hashed read_instructions];
    destruct (stream_is_end stream); try reflexivity.
  pose proof (read_instruction_ok stream known t m S) as H.
  destruct (read_instruction_hashed _ _ _ _) as [[[s i] t']|?| |], (read_instruction _ _ _) as [[[s' i'] m']|?| |];
    cbn in H; try contradiction; cbn [bind]; try (subst; reflexivity).
  destruct H as [Q S']. injection Q as -> ->. apply IH. exact S'.
Qed.

Lemma read_module_hashed_ok : forall data (known : list (ExtInstSet E)),
  read_module_hashed hashing data known = read_module data known.
Proof.
  intros data known. unfold read_module_hashed, read_module.
  repeat match goal with
  | |- bind ?x _ = bind ?x _ => destruct x as [?|?| |]; cbn [bind]; try reflexivity
  | |- (let (_, _) := ?p in _) = _ => destruct p
  end.
  all: destruct (negb _); [reflexivity|].
  all: rewrite (read_instructions_ok _ _ _ _ _ _ (stands_new _ _)); reflexivity.
Qed.

End Reader.

(** Keys *)
Lemma equal_hashes : forall x y : N,
  (N.eqb x y = true <-> forall h (s : hasher_state h), hash_OpId h x s = hash_OpId h y s)
  /\ (N.eqb x y = true <-> forall h (s : hasher_state h), hash_BlockId h x s = hash_BlockId h y s).
Proof.
  intros x y. split; (split; [intros H; apply N.eqb_eq in H; subst; reflexivity|]);
    intros H; apply N.eqb_eq; exact (H (Build_Hasher N 0%N (fun n _ => n) (fun n => n)) 0%N).
Qed.
