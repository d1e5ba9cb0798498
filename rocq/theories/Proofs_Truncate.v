(** Reading and validating the first bytes of a file, C135. *)
From Coq Require Import Lia.
From Verif Require Import Base Types Ops Groups ReadErr Reader ExtSet Validate Spec_Tables Spec_Wire Spec_Layout Spec_Cut Spec_Neighbours Spec_Truncate
  Proofs_Reader Proofs_Facts Proofs_Layout Proofs_Layout2 Proofs_Cut Proofs_Neighbours.

(** ** The verdict about the start of an accepted list *)
Definition kind_verdict (k : kind) (n : nat) : option ValidationError :=
  match k with KFunction => Some (UnexpectedInstruction (n - 1)) | _ => stuck (after_kind k) n 0 end.
Lemma layout_last : forall ks s n k s', go s (ks ++ [k]) = Some s' -> layout s n (ks ++ [k]) = kind_verdict k (n + length ks + 1).
Proof.
  induction ks as [|q ks IH]; intros s n k s' G.
  - cbn [app go layout length] in *. rewrite Nat.add_0_r. destruct (step s k) as [s1|] eqn:S; [|discriminate G]. pose proof (step_after _ _ _ S) as ->.
    destruct s; destruct k; try discriminate S; cbn [kind_verdict after_kind stuck]; try reflexivity; try (f_equal; f_equal; lia).
  - cbn [app go] in G. destruct (step s q) as [s1|] eqn:T; [|discriminate G]. change ((q :: ks) ++ [k]) with (q :: ks ++ [k]).
    assert (X : layout s n (q :: ks ++ [k]) = layout s1 (S n) (ks ++ [k])).
    { cbn [layout]. rewrite T. destruct s; try reflexivity. destruct q; try reflexivity. destruct (ks ++ [k]) eqn:Q; [destruct ks; discriminate Q|reflexivity]. }
    rewrite X, (IH _ _ _ _ G). f_equal. cbn [length]. lia.
Qed.
Section Truncate.
Context {E : Type}.
Implicit Types (m : RawModule E) (lm : LogicalModule E).
Lemma layout_start : forall (start rest : list (Core E)) n, layout (Before 0) n (map kind_of (start ++ rest)) = None -> layout (Before 0) 0 (map kind_of start) = verdict_at_end start.
Proof.
  intros start rest n L. apply layout_go in L as [j L]. rewrite map_app, go_app in L. destruct (go (Before 0) (map kind_of start)) as [s|] eqn:G; [|discriminate L].
  unfold verdict_at_end, last_kind. destruct start as [|i start _] using rev_ind; [reflexivity|]. rewrite rev_app_distr. cbn [rev app]. rewrite map_app in *. cbn [map] in *.
  rewrite (layout_last _ _ 0 _ _ G). rewrite map_length, app_length. cbn [length Nat.add]. destruct (kind_of i); reflexivity.
Qed.
Theorem start_verdict : forall m lm, validate m = Ok lm -> forall start rest, RawModule_instructions m = start ++ rest ->
  match verdict_at_end start with Some e => validate (with_instructions m start) = Err e | None => exists small, validate (with_instructions m start) = Ok small /\ begins lm small end.
Proof.
  intros m lm V start rest Q. assert (L : valid (RawModule_instructions m)) by (apply valid_iff; eauto). unfold valid in L. rewrite Q in L. apply layout_start in L.
  pose proof (validate_layout (with_instructions m start)) as K. cbn [with_instructions RawModule_instructions] in K. rewrite L in K.
  destruct (verdict_at_end start); [exact K|]. destruct K as (small & K & _). exists small. split; [exact K|]. exact (cut_result m lm V start rest small Q K).
Qed.

(** ** The same for bytes *)
Lemma same_header_with : forall m m', same_header m m' -> m' = with_instructions m (RawModule_instructions m').
Proof. intros [] [] H. unfold same_header in H. cbn in *. unfold with_instructions. cbn. intuition congruence. Qed.
Theorem cut_file : forall (known : list (ExtInstSet E)) data m lm k, read_module data known = Ok m -> validate m = Ok lm -> k < length data ->
  match read_module (firstn k data) known with
  | Err e => if Nat.eqb (k mod 4) 0 then e = UnexpectedEndOfStream else e = UnexpectedStreamAlignment
  | Ok m' => (exists rest, rest <> [] /\ RawModule_instructions m = RawModule_instructions m' ++ rest)
      /\ match verdict_at_end (RawModule_instructions m') with
         | Some e => validate m' = Err e
         | None => exists small, validate m' = Ok small /\ begins lm small
         end
  | _ => False
  end.
Proof.
  intros known data m lm k R V K. pose proof (read_truncated data known m k R K) as T. destruct (read_module (firstn k data) known) as [m'|e| |]; try exact T.
  destruct T as (_ & H & n & N & I). assert (Q : RawModule_instructions m = RawModule_instructions m' ++ skipn n (RawModule_instructions m)) by (rewrite I; symmetry; apply firstn_skipn).
  split.
  - exists (skipn n (RawModule_instructions m)). split; [|exact Q]. intros X. apply (f_equal (@length _)) in X. rewrite skipn_length in X. cbn in X. lia.
  - pose proof (start_verdict m lm V _ _ Q) as S. rewrite <- (same_header_with m m' H) in S. exact S.
Qed.

(** ** How many cuts are accepted *)
Definition ending (i : Core E) : bool := may_end (kind_of i).
Fixpoint ends (n : nat) (is : list (Core E)) : list nat :=
  match is with [] => [] | i :: is => if ending i then S n :: ends (S n) is else ends (S n) is end.
Lemma ends_in : forall is n k, In k (ends n is) <-> exists a i b, is = a ++ i :: b /\ ending i = true /\ k = S (n + length a).
Proof.
  induction is as [|i is IH]; intros n k; cbn [ends].
  - split; [intros []|]. intros (a & i & b & Q & _). destruct a; discriminate Q.
  - assert (X : In k (ends (S n) is) <-> exists a j b, i :: is = (i :: a) ++ j :: b /\ ending j = true /\ k = S (n + length (i :: a))).
    { rewrite IH. split; intros (a & j & b & Q & J & L); exists a, j, b; (split; [|split; [exact J|cbn [length] in *; lia]]); [cbn; f_equal; exact Q|injection Q as Q; exact Q]. }
    split.
    + intros Y. assert (Z : (ending i = true /\ k = S n) \/ In k (ends (S n) is)). { destruct (ending i); [destruct Y as [<-|Y]; [left; split; reflexivity|right; exact Y]|right; exact Y]. }
      destruct Z as [[Z ->]|Z]; [exists [], i, is; split; [reflexivity|]; split; [exact Z|cbn; lia]|]. apply X in Z as (a & j & b & Z). exists (i :: a), j, b. exact Z.
    + intros ([|x a] & j & b & Q & J & L).
      * injection Q as <- <-. rewrite J. left. cbn in L. lia.
      * injection Q as <- Q. assert (Y : In k (ends (S n) is)) by (apply X; exists a, j, b; split; [cbn; f_equal; exact Q|]; split; assumption). destruct (ending i); [right|]; exact Y.
Qed.
Lemma ends_above : forall is n k, In k (ends n is) -> n < k.
Proof. intros is n k X. apply ends_in in X as (a & i & b & _ & _ & ->). lia. Qed.
Lemma ends_nodup : forall is n, NoDup (ends n is).
Proof. induction is as [|i is IH]; intros n; cbn [ends]; [constructor|]. destruct (ending i); [constructor; [|apply IH]|apply IH]. intros X. apply ends_above in X. lia. Qed.
Lemma ends_length : forall is n, length (ends n is) = length (filter ending is).
Proof. induction is as [|i is IH]; intros n; cbn [ends filter]; [reflexivity|]. destruct (ending i); cbn [length]; rewrite IH; reflexivity. Qed.

Lemma verdict_ending : forall is n, n <= length is -> (verdict_at_end (firstn n is) = None <-> In n (ends 0 is)).
Proof.
  intros is n L. rewrite ends_in. cbn [Nat.add]. destruct n as [|p].
  - split; [discriminate|]. intros (a & i & b & _ & _ & X). discriminate X.
  - assert (D : exists a i b, is = a ++ i :: b /\ length a = p).
    { destruct (skipn p is) as [|i b] eqn:K; [apply (f_equal (@length _)) in K; rewrite skipn_length in K; cbn in K; lia|].
      exists (firstn p is), i, b. rewrite <- K, firstn_skipn. split; [reflexivity|]. apply firstn_length_le. lia. }
    destruct D as (a & i & b & -> & <-).
    replace (firstn (S (length a)) (a ++ i :: b)) with (a ++ [i]) by (change (i :: b) with ([i] ++ b); rewrite app_assoc; replace (S (length a)) with (length (a ++ [i])) by (rewrite app_length; cbn; lia); rewrite firstn_app, Nat.sub_diag, firstn_all, app_nil_r; reflexivity).
    assert (X : verdict_at_end (a ++ [i]) = None <-> ending i = true).
    { unfold verdict_at_end, last_kind, ending. rewrite rev_app_distr. cbn [rev app]. destruct (kind_of i); cbn; split; congruence. }
    rewrite X. split.
    + intros Y. exists a, i, b. split; [reflexivity|]. split; [exact Y|reflexivity].
    + intros (a' & i' & b' & Q & Y & Z). injection Z as Z. 
      assert (W : nth_error (a ++ i :: b) (length a) = Some i) by (rewrite nth_error_app2, Nat.sub_diag by lia; reflexivity).
      rewrite Q, Z, nth_error_app2, Nat.sub_diag in W by lia. injection W as ->. exact Y.
Qed.

Lemma each_prefix : forall (known : list (ExtInstSet E)) data m n, read_module data known = Ok m ->
  exists k, k <= length data /\ read_module (firstn k data) known = Ok (with_instructions m (firstn n (RawModule_instructions m))).
Proof.
  intros known data m n R. destruct (read_prefix data known m n R) as (k & m' & R' & H & I). apply same_header_with in H. rewrite I in H. subst m'.
  destruct (Nat.le_gt_cases k (length data)) as [K|K]; [exists k; split; assumption|]. exists (length data). split; [lia|]. rewrite firstn_all. rewrite firstn_all2 in R' by lia. exact R'.
Qed.
Lemma cut_prefix : forall (known : list (ExtInstSet E)) data m k m', read_module data known = Ok m -> k <= length data -> read_module (firstn k data) known = Ok m' ->
  exists n, n <= length (RawModule_instructions m) /\ m' = with_instructions m (firstn n (RawModule_instructions m)).
Proof.
  intros known data m k m' R K R'. destruct (Nat.eq_dec k (length data)) as [->|N].
  - rewrite firstn_all in R'. assert (m' = m) by congruence. subst. exists (length (RawModule_instructions m)). split; [lia|]. rewrite firstn_all. destruct m; reflexivity.
  - pose proof (read_truncated data known m k R ltac:(lia)) as T. rewrite R' in T. destruct T as (_ & H & n & L & I). exists n. split; [lia|]. rewrite (same_header_with m m' H), I. reflexivity.
Qed.
Lemma cut_unique : forall (known : list (ExtInstSet E)) data m n k k', k <= length data -> k' <= length data -> n <= length (RawModule_instructions m) ->
  read_module (firstn k data) known = Ok (with_instructions m (firstn n (RawModule_instructions m))) ->
  read_module (firstn k' data) known = Ok (with_instructions m (firstn n (RawModule_instructions m))) -> k = k'.
Proof.
  assert (X : forall (known : list (ExtInstSet E)) data m n k k', k < k' -> k' <= length data -> n <= length (RawModule_instructions m) ->
    read_module (firstn k data) known = Ok (with_instructions m (firstn n (RawModule_instructions m))) ->
    read_module (firstn k' data) known = Ok (with_instructions m (firstn n (RawModule_instructions m))) -> False).
  { intros known data m n k k' L L' N R R'. pose proof (read_truncated (firstn k' data) known _ k R') as T. rewrite firstn_length_le in T by lia. specialize (T L).
    rewrite firstn_firstn, Nat.min_l in T by lia. rewrite R in T. destruct T as (_ & _ & p & P1 & P2). cbn [with_instructions RawModule_instructions] in P1, P2.
    apply (f_equal (@length _)) in P2. rewrite (firstn_length p) in P2. lia. }
  intros known data m n k k' L L' N R R'. destruct (Nat.lt_trichotomy k k') as [K|[K|K]]; [exfalso; exact (X known data m n k k' K L' N R R')|exact K|exfalso; exact (X known data m n k' k K L N R' R)].
Qed.

Lemma choose : forall (known : list (ExtInstSet E)) data m, read_module data known = Ok m -> forall ns, NoDup ns -> Forall (fun n => n <= length (RawModule_instructions m)) ns ->
  exists ks, NoDup ks /\ length ks = length ns
    /\ forall k, In k ks <-> k <= length data /\ exists n, In n ns /\ read_module (firstn k data) known = Ok (with_instructions m (firstn n (RawModule_instructions m))).
Proof.
  intros known data m R ns. induction ns as [|n ns IH]; intros D F.
  - exists []. split; [constructor|]. split; [reflexivity|]. intros k. split; [intros []|]. intros (_ & n & [] & _).
  - inversion D as [|? ? D1 D2]; subst. inversion F as [|? ? F1 F2]; subst. destruct (IH D2 F2) as (ks & K1 & K2 & K3). destruct (each_prefix known data m n R) as (k & L & P).
    exists (k :: ks). split; [|split].
    + constructor; [|exact K1]. intros X. apply K3 in X as (_ & n' & N & P'). rewrite P in P'. injection P' as P'. apply (f_equal (@length _)) in P'.
      rewrite Forall_forall in F2. pose proof (F2 _ N). rewrite !firstn_length_le in P' by assumption. subst n'. contradiction.
    + cbn. rewrite K2. reflexivity.
    + intros j. split.
      * intros [<-|J]; [split; [exact L|]; exists n; split; [left; reflexivity|exact P]|]. apply K3 in J as (J & n' & N & P'). split; [exact J|]. exists n'. split; [right; exact N|exact P'].
      * intros (J & n' & [<-|N] & P'); [left; exact (cut_unique known data m n k j L J F1 P P')|]. right. apply K3. split; [exact J|]. exists n'. split; assumption.
Qed.

(** ** Counting the endings of a written module *)
Definition cnt (l : list (Core E)) : nat := length (filter ending l).
Lemma cnt_app : forall a b, cnt (a ++ b) = cnt a + cnt b.
Proof. intros a b. unfold cnt. rewrite filter_app, app_length. reflexivity. Qed.
Lemma cnt_none : forall A (g : A -> Core E) l, Forall (fun x => ending (g x) = false) l -> cnt (map g l) = 0.
Proof. intros A g l F. unfold cnt. induction F as [|x l X F IH]; [reflexivity|]. cbn. rewrite X. exact IH. Qed.
Lemma cnt_all : forall A (g : A -> Core E) l, Forall (fun x => ending (g x) = true) l -> cnt (map g l) = length l.
Proof. intros A g l F. unfold cnt in *. induction F as [|x l X F IH]; [reflexivity|]. cbn. rewrite X. cbn. rewrite IH. reflexivity. Qed.
Lemma cnt_flat : forall A (g : A -> list (Core E)) c l, Forall (fun x => cnt (g x) = c) l -> cnt (flat_map g l) = c * length l.
Proof. intros A g c l F. induction F as [|x l X F IH]; [cbn; unfold cnt; cbn; lia|]. cbn [flat_map length]. rewrite cnt_app, X, IH. lia. Qed.
Lemma any : forall A (P : A -> Prop) l, (forall x, P x) -> Forall P l.
Proof. intros A P l H. apply Forall_forall. intros x _. apply H. Qed.
Lemma cnt_block : forall b : BasicBlock E, canonical_block b -> cnt (write_block b) = 0.
Proof.
  intros b C. unfold write_block. change (Core_OpLabel ?l :: ?r) with ([Core_OpLabel l] ++ r). rewrite !cnt_app. rewrite cnt_none.
  - destruct (BasicBlock_merge b) as [[]|], (BasicBlock_branch b); reflexivity.
  - unfold canonical_block in C. eapply Forall_impl; [|exact C]. intros c X. unfold ending. destruct c; try reflexivity. cbn in X. unfold function_variable in X. cbn. rewrite X. reflexivity.
Qed.
Lemma cnt_module : forall lm, canonical lm -> cnt (write_module lm) = 1 + things_after_memory_model lm.
Proof.
  intros lm (C1 & C2 & _). unfold write_module, things_after_memory_model. rewrite !cnt_app.
  rewrite (cnt_none _ (fun c => Core_OpCapability (Build_OpCapability c))) by (apply any; reflexivity).
  rewrite (cnt_none _ (fun s => Core_OpExtension (Build_OpExtension s))) by (apply any; reflexivity).
  rewrite (cnt_none _ Core_OpExtInstImport) by (apply any; reflexivity).
  rewrite (cnt_all _ Core_OpEntryPoint) by (apply any; reflexivity).
  rewrite (cnt_all _ Core_OpExecutionMode) by (apply any; reflexivity).
  rewrite (cnt_all _ core_of_debug) by (apply any; intros []; reflexivity).
  rewrite (cnt_all _ core_of_annotation) by (apply any; intros []; reflexivity).
  rewrite (cnt_all _ core_of_global).
  2: { eapply Forall_impl; [|exact C1]. intros g X. unfold ending. destruct g as [[]|[]|v]; try reflexivity. cbn in X. unfold function_variable in X. cbn. destruct (OpVariable_storage_class v); try reflexivity. exfalso. apply X. reflexivity. }
  rewrite (cnt_flat _ write_declaration 1). 2: { apply any. intros d. unfold write_declaration. change (Core_OpFunction ?l :: ?r) with ([Core_OpFunction l] ++ r). rewrite !cnt_app, cnt_none by (apply any; reflexivity). reflexivity. }
  rewrite (cnt_flat _ write_definition 1).
  2: { eapply Forall_impl; [|exact C2]. intros d X. unfold write_definition. change (Core_OpFunction ?l :: ?r) with ([Core_OpFunction l] ++ r). rewrite !cnt_app, cnt_none by (apply any; reflexivity).
       rewrite (cnt_flat _ write_block 0); [reflexivity|]. eapply Forall_impl; [|exact X]. exact cnt_block. }
  cbn [Nat.mul]. replace (cnt [Core_OpMemoryModel (LogicalModule_memory_model lm)]) with 1 by reflexivity. lia.
Qed.

Theorem count_cuts : forall (known : list (ExtInstSet E)) data m lm, read_module data known = Ok m -> validate m = Ok lm ->
  exists ks, NoDup ks /\ length ks = 1 + things_after_memory_model lm /\ forall k, In k ks <-> k <= length data /\ accepted_cut known data k.
Proof.
  intros known data m lm R V. pose proof V as V0. apply validate_iff in V0 as [W C].
  destruct (choose known data m R (ends 0 (RawModule_instructions m)) (ends_nodup _ _)) as (ks & K1 & K2 & K3).
  { apply Forall_forall. intros n X. apply ends_in in X as (a & i & b & -> & _ & ->). rewrite app_length. cbn. lia. }
  exists ks. split; [exact K1|]. split; [rewrite K2, ends_length, W; exact (cnt_module lm C)|]. intros k. rewrite K3.
  assert (X : forall n, n <= length (RawModule_instructions m) -> (In n (ends 0 (RawModule_instructions m)) <-> exists small, validate (with_instructions m (firstn n (RawModule_instructions m))) = Ok small)).
  { intros n N. rewrite <- (verdict_ending _ _ N). pose proof (start_verdict m lm V (firstn n (RawModule_instructions m)) (skipn n (RawModule_instructions m)) ltac:(symmetry; apply firstn_skipn)) as T.
    destruct (verdict_at_end (firstn n (RawModule_instructions m))) as [e|]; [split; [discriminate|]; intros [small U]; rewrite U in T; discriminate T|]. split; [|reflexivity]. intros _. destruct T as (small & T & _). exists small. exact T. }
  split.
  - intros (K & n & N & P). split; [exact K|]. apply X in N as [small N]; [|apply ends_in in N as (a & i & b & -> & _ & ->); rewrite app_length; cbn; lia]. unfold accepted_cut. eauto.
  - intros (K & m' & small & P & U). split; [exact K|]. destruct (cut_prefix known data m k m' R K P) as (n & N & ->). exists n. split; [|exact P]. apply (X n N). eauto.
Qed.
End Truncate.
