(** Consequences for read_module: continuation, truncation, extension, totality. *)
From Coq Require Import ZArith ZifyBool ZifyNat ZifyN.
From Verif Require Import Base Types Ops ReadErr Utf8 ReadBase ReadOperands ExtSet ReadOps Reader Spec_Wire
  Proofs_Operands Proofs_Composite Proofs_Ops Proofs_Instr Proofs_Stream.
Local Open Scope N_scope.
Ltac Zify.zify_post_hook ::= Z.div_mod_to_equations.

Section Reader.
Context {E : Type}.
Implicit Types (known : list (ExtInstSet E)) (earlier : list (Core E)) (bound : bound_sets E).

(** ** Progress and fuel *)

Lemma stream_read_word_shrinks : forall s s' w, stream_read_word s = Ok (s', w) ->
  Stream_is_le s' = Stream_is_le s /\ List.length (Stream_source s) = (4 + List.length (Stream_source s'))%nat.
Proof.
  intros [src le] s' w H. unfold stream_read_word in H. cbn [Stream_source Stream_is_le] in *.
  destruct src as [|a [|b [|c [|d rest]]]]; try discriminate. injection H as <- _. split; reflexivity.
Qed.

Lemma read_words_shrinks : forall n s s' ws, read_words n s = Ok (s', ws) ->
  Stream_is_le s' = Stream_is_le s /\ List.length (Stream_source s) = (4 * n + List.length (Stream_source s'))%nat.
Proof.
  induction n as [|n IH]; intros s s' ws H; cbn [read_words] in H.
  - injection H as <- _. split; reflexivity.
  - apply bind_ok in H. destruct H as ([s1 w] & H1 & H). apply bind_ok in H. destruct H as ([s2 ws2] & H2 & H).
    injection H as <- _. apply stream_read_word_shrinks in H1. apply IH in H2. destruct H1, H2. split; [congruence|lia].
Qed.

Lemma read_instruction_shrinks : forall s known bound s' i b, read_instruction s known bound = Ok (s', i, b) ->
  Stream_is_le s' = Stream_is_le s
  /\ exists k, List.length (Stream_source s) = (4 * S k + List.length (Stream_source s'))%nat.
Proof.
  intros s known bound s' i b H. rewrite read_instruction_decode in H.
  apply bind_ok in H. destruct H as ([s1 h] & H1 & H). apply bind_ok in H. destruct H as ([s2 ws2] & H2 & H).
  apply bind_ok in H. destruct H as ([i' b'] & _ & H). injection H as <- _ _.
  apply stream_read_word_shrinks in H1. apply read_words_shrinks in H2. destruct H1, H2. split; [congruence|].
  eexists. rewrite H0, H2. rewrite Nat.add_assoc. f_equal.
  instantiate (1 := N.to_nat (as_u16 (N.shiftr h 16) - 1)). lia.
Qed.

Lemma read_instructions_fuel : forall f1 f2 s known bound acc,
  (List.length (Stream_source s) <= f1)%nat -> (List.length (Stream_source s) <= f2)%nat ->
  read_instructions f1 s known bound acc = read_instructions f2 s known bound acc.
Proof.
  induction f1 as [|f1 IH]; intros f2 s known bound acc H1 H2.
  - assert (Hs : stream_is_end s = true) by (unfold stream_is_end; destruct (Stream_source s); [reflexivity|cbn in H1; lia]).
    destruct f2; cbn [read_instructions]; rewrite Hs; reflexivity.
  - destruct f2 as [|f2].
    + assert (Hs : stream_is_end s = true) by (unfold stream_is_end; destruct (Stream_source s); [reflexivity|cbn in H2; lia]).
      cbn [read_instructions]. rewrite Hs. reflexivity.
    + cbn [read_instructions]. destruct (stream_is_end s); [reflexivity|].
      destruct (read_instruction s known bound) as [[[s' i] b]|?| |] eqn:Hr; cbn [bind]; try reflexivity.
      apply read_instruction_shrinks in Hr. destruct Hr as (_ & k & Hk). apply IH; lia.
Qed.

(* the loop with the fuel read_module gives it *)
Definition loop (s : Stream) known bound acc := read_instructions (List.length (Stream_source s)) s known bound acc.

Lemma loop_unfold : forall s known bound acc,
  loop s known bound acc =
  if stream_is_end s then Ok acc
  else let! (s', i, b) := read_instruction s known bound in loop s' known b (acc ++ [i]).
Proof.
  intros s known bound acc. unfold loop. destruct s as [src le]. destruct src as [|a src].
  - reflexivity.
  - cbn [Stream_source List.length]. cbn [read_instructions].
    change (stream_is_end (Build_Stream (a :: src) le)) with false. cbv iota.
    destruct (read_instruction _ known bound) as [[[s' i] b]|?| |] eqn:Hr; cbn [bind]; try reflexivity.
    apply read_instruction_shrinks in Hr. destruct Hr as (_ & k & Hk). cbn [Stream_source List.length] in Hk.
    apply read_instructions_fuel; lia.
Qed.

Lemma loop_acc : forall n s known bound acc, (List.length (Stream_source s) <= n)%nat ->
  loop s known bound acc = let! l := loop s known bound [] in Ok (acc ++ l).
Proof.
  induction n as [|n IH]; intros s known bound acc Hn.
  - rewrite !loop_unfold. assert (Hs : stream_is_end s = true) by (unfold stream_is_end; destruct (Stream_source s); [reflexivity|cbn in Hn; lia]).
    rewrite Hs. cbn [bind]. rewrite app_nil_r. reflexivity.
  - rewrite (loop_unfold s known bound acc), (loop_unfold s known bound []).
    destruct (stream_is_end s); [cbn [bind]; rewrite app_nil_r; reflexivity|].
    destruct (read_instruction s known bound) as [[[s' i] b]|?| |] eqn:Hr; cbn [bind]; try reflexivity.
    apply read_instruction_shrinks in Hr. destruct Hr as (_ & k & Hk).
    rewrite (IH s' known b (acc ++ [i])) by lia. rewrite (IH s' known b ([] ++ [i])) by lia.
    destruct (loop s' known b []); cbn [bind]; try reflexivity. rewrite <- app_assoc. reflexivity.
Qed.

(** ** Continuation: reading more bytes after an accepted module *)

Lemma loop_continue : forall o known earlier is ws, wire_instructions known earlier is ws ->
  forall bound, bound_inv known earlier bound -> Forall word ws ->
  exists bound', bound_inv known (earlier ++ is) bound' /\ forall x,
  loop (Build_Stream (bytes_of_words o ws ++ x) (le_of o)) known bound earlier
  = loop (Build_Stream x (le_of o)) known bound' (earlier ++ is).
Proof.
  intros o known earlier is ws H. induction H as [earlier|earlier i is wc body ws Hwi Hwc Hsmall Hws IH]; intros bound Hi Hw.
  - exists bound. rewrite app_nil_r. auto.
  - inversion Hw as [|? ? Hh Hbw]; subst. apply Forall_app in Hbw. destruct Hbw as [Hb Hw'].
    destruct (read_instruction_complete o _ _ _ _ _ _ [] Hi Hwc Hsmall Hb Hwi) as (bound' & Hr0 & Hn & Hi').
    destruct (IH bound' Hi' Hw') as (bound'' & Hi'' & Hx). exists bound''.
    rewrite <- app_assoc in Hi''. cbn [app] in Hi''. split; [exact Hi''|]. intro x.
    destruct (read_instruction_complete o _ _ _ _ _ _ (bytes_of_words o ws ++ x) Hi Hwc Hsmall Hb Hwi) as (b1 & Hr & Hn1 & _).
    assert (b1 = bound') as ->.
    { destruct i; cbn [next_bound] in Hn, Hn1; try congruence.
      destruct Hn as (r & Hs & ->), Hn1 as (r' & Hs' & ->). rewrite (set_named_fun _ _ _ _ Hs Hs'). reflexivity. }
    replace (bytes_of_words o ((opcode i + 65536 * wc) :: body ++ ws) ++ x)
      with (bytes_of_words o ((opcode i + 65536 * wc) :: body) ++ (bytes_of_words o ws ++ x)).
    2:{ rewrite app_assoc, <- bytes_of_words_app. reflexivity. }
    rewrite loop_unfold.
    assert (Hne : forall y, stream_is_end (Build_Stream (bytes_of_words o ((opcode i + 65536 * wc) :: body) ++ y) (le_of o)) = false).
    { intro y. rewrite bytes_of_words_cons. destruct (bytes_of_word_form o (opcode i + 65536 * wc)) as (? & ? & ? & ? & ->). reflexivity. }
    rewrite Hne, Hr. cbn [bind]. rewrite Hx. rewrite <- app_assoc. reflexivity.
Qed.

Definition with_instructions (m : RawModule E) (l : list (Core E)) : RawModule E :=
  Build_RawModule (RawModule_version m) (RawModule_generator m) (RawModule_bound m) l.

(* header words followed by anything *)
Definition header_words (v g b : N) : list N := [magic_number; v; g; b; 0].

Lemma read_header : forall o v g b x known, word v -> word g -> word b -> version_word_accepted v ->
  read_module (bytes_of_words o (header_words v g b) ++ x) known =
  let! l := loop (Build_Stream x (le_of o)) known [] [] in
  Ok (Build_RawModule (Build_Version 1 0) (Build_Generator (tool_of_id (g / 65536)) (g mod 65536)) b l).
Proof.
  intros o v g b x known Hv Hg Hb Ha. rewrite read_module_magic. unfold header_words.
  rewrite bytes_of_words_cons, <- app_assoc, header_magic. cbn [bind].
  unfold read_after_magic. rewrite bytes_of_words_cons, <- app_assoc, stream_read_word_ok by exact Hv. cbn [bind].
  rewrite (proj2 (version_ok v Hv) Ha). cbn [bind check_version].
  rewrite bytes_of_words_cons, <- app_assoc, stream_read_word_ok by exact Hg. cbn [bind].
  rewrite bytes_of_words_cons, <- app_assoc, stream_read_word_ok by exact Hb. cbn [bind].
  rewrite bytes_of_words_cons, <- app_assoc, stream_read_word_ok by reflexivity. cbn [bind N.eqb negb].
  change (bytes_of_words o [] ++ x) with x. rewrite head_low, (head_high g Hg). reflexivity.
Qed.

Lemma order_unique : forall o1 o2 data, in_order o1 data -> in_order o2 data -> o1 = o2.
Proof. intros [] [] data (r1 & E1) (r2 & E2); try reflexivity; rewrite E1 in E2; discriminate. Qed.

Lemma read_continue : forall o data known m, in_order o data -> read_module data known = Ok m ->
  exists bound, bound_inv known (RawModule_instructions m) bound /\ forall x,
  read_module (data ++ x) known =
  let! l := loop (Build_Stream x (le_of o)) known bound (RawModule_instructions m) in Ok (with_instructions m l).
Proof.
  intros o data known m Ho H. apply read_module_sound in H.
  destruct H as (o' & v & g & ws & -> & Hw & Hv & Hver & Hg & Hwire).
  assert (o' = o) as -> by (eapply order_unique; [|exact Ho]; eexists; reflexivity).
  inversion Hw as [|? ? Hvw Hw1]; subst. inversion Hw1 as [|? ? Hbd Hws]; subst.
  destruct (loop_continue o known [] _ _ Hwire [] (bound_inv_nil known) Hws) as (bound & Hi & Hx).
  exists bound. split; [exact Hi|]. intro x. rewrite bytes_of_words_app, <- app_assoc.
  destruct Hg as (Hgw & Hg1 & Hg2 & Hg3).
  assert (Hgword : word g) by (unfold word; lia).
  change [magic_number; v; g; RawModule_bound m; 0] with (header_words v g (RawModule_bound m)).
  rewrite read_header by assumption. rewrite Hx. unfold with_instructions. rewrite Hver.
  replace (g / 65536) with (tool_number (Generator_tool (RawModule_generator m))) by lia.
  rewrite (tool_of_number _ Hg3). replace (g mod 65536) with (Generator_version (RawModule_generator m)) by lia.
  destruct (RawModule_generator m). reflexivity.
Qed.

(** ** Extension: what happens before the end of the data does not depend on what follows *)

(* [final e]: the error is not "ran out of bytes" *)
Definition final (e : ReadError) : Prop := e <> UnexpectedEndOfStream /\ e <> UnexpectedStreamAlignment.

Definition append (s : Stream) (x : list ascii) : Stream := Build_Stream (Stream_source s ++ x) (Stream_is_le s).

Lemma stream_read_word_ext : forall s x,
  match stream_read_word s with
  | Ok (s', w) => stream_read_word (append s x) = Ok (append s' x, w)
  | Err e => (e = UnexpectedEndOfStream /\ List.length (Stream_source s) = 0%nat)
             \/ (e = UnexpectedStreamAlignment /\ (0 < List.length (Stream_source s) < 4)%nat)
  | _ => False
  end.
Proof.
  intros [src le] x. unfold stream_read_word, append. cbn [Stream_source Stream_is_le].
  destruct src as [|a [|b [|c [|d rest]]]]; cbn [app List.length]; try (right; split; [reflexivity|lia]).
  - left. auto.
  - reflexivity.
Qed.

(* remaining bytes when a stream error happens *)
Definition ran_out (e : ReadError) (n : nat) : Prop :=
  (e = UnexpectedEndOfStream /\ (n mod 4 = 0)%nat) \/ (e = UnexpectedStreamAlignment /\ (n mod 4 <> 0)%nat).

Lemma ran_out_add : forall e n k, ran_out e n -> ran_out e (4 * k + n).
Proof.
  intros e n k H. assert (E0 : ((4 * k + n) mod 4 = n mod 4)%nat) by (rewrite Nat.mul_comm, Nat.add_comm; apply Nat.mod_add; lia).
  unfold ran_out. rewrite E0. exact H.
Qed.

Lemma read_words_ext : forall n s x,
  match read_words n s with
  | Ok (s', ws) => read_words n (append s x) = Ok (append s' x, ws)
  | Err e => ran_out e (List.length (Stream_source s))
  | _ => False
  end.
Proof.
  induction n as [|n IH]; intros s x; cbn [read_words]; [reflexivity|].
  pose proof (stream_read_word_ext s x) as H1.
  destruct (stream_read_word s) as [[s1 w]|e| |] eqn:Hs; cbn [bind]; try exact H1.
  - rewrite H1. cbn [bind]. specialize (IH s1 x).
    apply stream_read_word_shrinks in Hs. destruct Hs as [_ Hl].
    destruct (read_words n s1) as [[s2 ws]|e| |]; cbn [bind]; try exact IH.
    + rewrite IH. reflexivity.
    + rewrite Hl. apply (ran_out_add e _ 1). exact IH.
  - destruct H1 as [[-> H1]|[-> H1]]; [left; rewrite H1; auto|right]. split; [reflexivity|].
    rewrite Nat.mod_small by lia. lia.
Qed.

Lemma read_instruction_ext : forall s x known bound,
  match read_instruction s known bound with
  | Ok (s', i, b) => read_instruction (append s x) known bound = Ok (append s' x, i, b)
  | Err e => ran_out e (List.length (Stream_source s)) \/ read_instruction (append s x) known bound = Err e
  | r => read_instruction (append s x) known bound = r
  end.
Proof.
  intros s x known bound. rewrite !read_instruction_decode.
  pose proof (stream_read_word_ext s x) as H1.
  destruct (stream_read_word s) as [[s1 h]|e| |] eqn:Hs; cbn [bind].
  - rewrite H1. cbn [bind]. pose proof (read_words_ext (N.to_nat (as_u16 (N.shiftr h 16) - 1)) s1 x) as H2.
    apply stream_read_word_shrinks in Hs. destruct Hs as [_ Hl].
    destruct (read_words _ s1) as [[s2 ws]|e| |]; cbn [bind].
    + rewrite H2. cbn [bind]. destruct (decode _ _ ws known bound) as [[i b]|e| |]; cbn [bind]; auto.
    + left. rewrite Hl. apply (ran_out_add e _ 1). exact H2.
    + destruct H2.
    + destruct H2.
  - left. destruct H1 as [[-> H1]|[-> H1]]; [left; rewrite H1; auto|right]. split; [reflexivity|].
    rewrite Nat.mod_small by lia. lia.
  - destruct H1.
  - destruct H1.
Qed.

Lemma loop_ext : forall n s x known bound acc, (List.length (Stream_source s) <= n)%nat ->
  match loop s known bound acc with
  | Ok l => exists b, bound = bound /\ (List.length (Stream_source s) mod 4 = 0)%nat
      /\ loop (append s x) known bound acc = loop (Build_Stream x (Stream_is_le s)) known b l
  | Err e => ran_out e (List.length (Stream_source s)) \/ loop (append s x) known bound acc = Err e
  | Panic => loop (append s x) known bound acc = Panic
  | OutOfFuel => loop (append s x) known bound acc = OutOfFuel
  end.
Proof.
  induction n as [|n IH]; intros s x known bound acc Hn.
  - destruct s as [[|a src] le]; [|cbn in Hn; lia]. rewrite loop_unfold. cbn. exists bound. auto.
  - rewrite (loop_unfold s). destruct (stream_is_end s) eqn:He.
    + destruct s as [[|a src] le]; [|discriminate]. cbn. exists bound. auto.
    + assert (He' : stream_is_end (append s x) = false) by (destruct s as [[|a src] le]; [discriminate|reflexivity]).
      rewrite (loop_unfold (append s x)), He'.
      pose proof (read_instruction_ext s x known bound) as Hr.
      destruct (read_instruction s known bound) as [[[s' i] b]|e| |] eqn:Hs; cbn [bind].
      * rewrite Hr. cbn [bind]. apply read_instruction_shrinks in Hs. destruct Hs as (Hle & k & Hk).
        specialize (IH s' x known b (acc ++ [i]) ltac:(lia)). rewrite <- Hle.
        destruct (loop s' known b (acc ++ [i])) as [l|e| |]; try exact IH.
        -- destruct IH as (b' & _ & Hm & IH). exists b'. split; [reflexivity|]. split; [|exact IH].
           rewrite Hk. rewrite Nat.mul_comm, Nat.add_comm, Nat.mod_add by lia. exact Hm.
        -- destruct IH as [IH|IH]; [left|right; exact IH]. rewrite Hk. apply (ran_out_add e _ (S k)). exact IH.
      * destruct Hr as [Hr|Hr]; [left; exact Hr|right; rewrite Hr; reflexivity].
      * rewrite Hr. reflexivity.
      * rewrite Hr. reflexivity.
Qed.

Lemma loop_prefix : forall s known bound acc l, loop s known bound acc = Ok l -> exists l', l = acc ++ l'.
Proof.
  intros s known bound acc l H. rewrite (loop_acc _ s known bound acc (le_n _)) in H.
  apply bind_ok in H. destruct H as (l' & _ & H). injection H as <-. eauto.
Qed.

(* one header word more *)
Ltac header_step s x H :=
  pose proof (stream_read_word_ext s x) as H;
  destruct (stream_read_word s) as [[? ?]|?| |].

Lemma read_after_magic_ext : forall s x known,
  match read_after_magic s known with
  | Ok m => (List.length (Stream_source s) mod 4 = 0)%nat
     /\ (forall m', read_after_magic (append s x) known = Ok m' -> exists l', m' = with_instructions m (RawModule_instructions m ++ l'))
  | Err e => ran_out e (List.length (Stream_source s)) \/ read_after_magic (append s x) known = Err e
  | Panic => read_after_magic (append s x) known = Panic
  | OutOfFuel => read_after_magic (append s x) known = OutOfFuel
  end.
Proof.
  assert (Hout : forall s e, (e = UnexpectedEndOfStream /\ List.length (Stream_source s) = 0%nat)
             \/ (e = UnexpectedStreamAlignment /\ (0 < List.length (Stream_source s) < 4)%nat) ->
             ran_out e (List.length (Stream_source s))).
  { intros s e [[-> H]|[-> H]]; [left; rewrite H; auto|right]. split; [reflexivity|]. rewrite Nat.mod_small by lia. lia. }
  intros s x known. unfold read_after_magic.
  pose proof (stream_read_word_ext s x) as H1. destruct (stream_read_word s) as [[s1 v]|e| |] eqn:E1; cbn [bind];
    [|left; apply Hout; exact H1|destruct H1|destruct H1].
  rewrite H1. cbn [bind]. apply stream_read_word_shrinks in E1. destruct E1 as [_ E1].
  assert (Hadd : forall e, ran_out e (List.length (Stream_source s1)) -> ran_out e (List.length (Stream_source s))).
  { intros e H. rewrite E1. apply (ran_out_add e _ 1). exact H. }
  assert (Hmod : (List.length (Stream_source s) mod 4 = List.length (Stream_source s1) mod 4)%nat).
  { rewrite E1. rewrite Nat.add_comm. apply (Nat.mod_add _ 1 4). lia. }
  destruct (read_version v) as [ver|e| |]; cbn [bind]; auto.
  destruct (check_version ver) as [?|e| |]; cbn [bind]; auto.
  pose proof (stream_read_word_ext s1 x) as H2. destruct (stream_read_word s1) as [[s2 g]|e| |] eqn:E2; cbn [bind];
    [|left; apply Hadd; apply Hout; exact H2|destruct H2|destruct H2].
  rewrite H2. cbn [bind]. apply stream_read_word_shrinks in E2. destruct E2 as [_ E2].
  pose proof (stream_read_word_ext s2 x) as H3. destruct (stream_read_word s2) as [[s3 b]|e| |] eqn:E3; cbn [bind];
    [|left; apply Hadd; rewrite E2; apply (ran_out_add e _ 1); apply Hout; exact H3|destruct H3|destruct H3].
  rewrite H3. cbn [bind]. apply stream_read_word_shrinks in E3. destruct E3 as [_ E3].
  pose proof (stream_read_word_ext s3 x) as H4. destruct (stream_read_word s3) as [[s4 z]|e| |] eqn:E4; cbn [bind];
    [|left; apply Hadd; rewrite E2, E3; apply (ran_out_add e _ 1), (ran_out_add e _ 1); apply Hout; exact H4|destruct H4|destruct H4].
  rewrite H4. cbn [bind]. apply stream_read_word_shrinks in E4. destruct E4 as [_ E4].
  destruct (negb (N.eqb z 0)); [auto|].
  change (read_instructions (List.length (Stream_source s4)) s4 known [] []) with (loop s4 known [] []).
  change (read_instructions (List.length (Stream_source (append s4 x))) (append s4 x) known [] []) with (loop (append s4 x) known [] []).
  pose proof (loop_ext _ s4 x known [] [] (le_n _)) as H5.
  destruct (loop s4 known [] []) as [l|e| |]; cbn [bind].
  - destruct H5 as (b' & _ & Hm & H5). split.
    + rewrite Hmod, E2, E3, E4. clear - Hm.
      replace (4 + (4 + (4 + List.length (Stream_source s4))))%nat with (List.length (Stream_source s4) + 3 * 4)%nat by lia.
      rewrite Nat.mod_add by lia. exact Hm.
    + intros m' H. rewrite H5 in H. apply bind_ok in H. destruct H as (l2 & H & Hm'). apply Ok_inj in Hm'. subst m'.
      apply loop_prefix in H. destruct H as (l' & ->). exists l'. reflexivity.
  - destruct H5 as [H5|H5]; [left|right; rewrite H5; reflexivity].
    apply Hadd. rewrite E2, E3, E4. apply (ran_out_add e _ 1), (ran_out_add e _ 1), (ran_out_add e _ 1). exact H5.
  - rewrite H5. reflexivity.
  - rewrite H5. reflexivity.
Qed.

Lemma read_module_ext : forall data x known,
  match read_module data known with
  | Ok m => (List.length data mod 4 = 0)%nat
     /\ (forall m', read_module (data ++ x) known = Ok m' -> exists l', m' = with_instructions m (RawModule_instructions m ++ l'))
  | Err e => ran_out e (List.length data) \/ read_module (data ++ x) known = Err e
  | Panic => read_module (data ++ x) known = Panic
  | OutOfFuel => read_module (data ++ x) known = OutOfFuel
  end.
Proof.
  intros data x known. rewrite !read_module_magic.
  pose proof (stream_read_word_ext (Build_Stream data true) x) as H1.
  destruct (stream_read_word (Build_Stream data true)) as [[s m]|e| |] eqn:E1; cbn [bind]; [| |destruct H1|destruct H1].
  2:{ left. cbn [Stream_source] in H1. destruct H1 as [[-> H]|[-> H]]; [left; rewrite H; auto|right]. split; [reflexivity|]. rewrite Nat.mod_small by lia. lia. }
  change (append (Build_Stream data true) x) with (Build_Stream (data ++ x) true) in H1. rewrite H1. cbn [bind].
  apply stream_read_word_shrinks in E1. destruct E1 as [_ E1]. cbn [Stream_source] in E1.
  assert (G : forall s', List.length (Stream_source s') = List.length (Stream_source s) ->
    match read_after_magic s' known with
    | Ok m => (List.length data mod 4 = 0)%nat
       /\ (forall m', read_after_magic (append s' x) known = Ok m' -> exists l', m' = with_instructions m (RawModule_instructions m ++ l'))
    | Err e => ran_out e (List.length data) \/ read_after_magic (append s' x) known = Err e
    | Panic => read_after_magic (append s' x) known = Panic
    | OutOfFuel => read_after_magic (append s' x) known = OutOfFuel
    end).
  { intros s' Hs'. pose proof (read_after_magic_ext s' x known) as R.
    destruct (read_after_magic s' known) as [m0|e| |]; try exact R.
    - destruct R as [R1 R2]. split; [|exact R2]. rewrite E1, <- Hs', Nat.add_comm. rewrite (Nat.mod_add _ 1 4) by lia. exact R1.
    - destruct R as [R|R]; [left|right; exact R]. rewrite E1, <- Hs'. apply (ran_out_add e _ 1). exact R. }
  unfold check_magic. destruct (N.eqb m SPIRV_MAGIC_NUMBER); cbn [bind]; [apply G; reflexivity|].
  destruct (N.eqb m SPIRV_MAGIC_NUMBER_OTHER_ENDIAN); cbn [bind]; [|right; reflexivity].
  apply (G (invert_endianness s)). reflexivity.
Qed.

(** ** Totality *)

Definition fine {X A} (r : outcome X A) : Prop := match r with Ok _ | Err _ => True | _ => False end.

Lemma fine_bind : forall {X A B} (r : outcome X A) (f : A -> outcome X B), fine r -> (forall a, r = Ok a -> fine (f a)) -> fine (bind r f).
Proof. intros X A B [a|e| |] f H1 H2; cbn [bind]; try exact H1. apply H2. reflexivity. Qed.

Lemma bound_inv_total : forall known earlier bound, Forall set_total known -> bound_inv known earlier bound -> bound_total bound.
Proof.
  intros known earlier bound Hk [H1 _] id r Hg. apply H1 in Hg. destruct Hg as (name & _ & b & s & a & -> & _ & _ & ->).
  apply Forall_app in Hk. destruct Hk as [_ Hk]. inversion Hk; subst. assumption.
Qed.

Lemma stream_read_word_total : forall s, fine (stream_read_word s).
Proof. intros s. pose proof (stream_read_word_ext s []) as H. destruct (stream_read_word s) as [[? ?]|?| |]; exact I || exact H. Qed.

Lemma read_words_total : forall n s, fine (read_words n s).
Proof. intros n s. pose proof (read_words_ext n s []) as H. destruct (read_words n s) as [[? ?]|?| |]; exact I || exact H. Qed.

Lemma read_instruction_total : forall s known earlier bound, Forall set_total known -> bound_inv known earlier bound ->
  fine (read_instruction s known bound).
Proof.
  intros s known earlier bound Hk Hi. rewrite read_instruction_decode.
  apply fine_bind; [apply stream_read_word_total|]. intros [s1 h] _.
  apply fine_bind; [apply read_words_total|]. intros [s2 ws] _.
  apply fine_bind; [|intros [? ?] _; exact I]. unfold decode.
  apply fine_bind; [apply dispatch_total|]. intros f Hd.
  apply fine_bind; [apply (dispatch_returns _ _ _ Hd known bound ws (bound_inv_total _ _ _ Hk Hi))|].
  intros [[b i] bd] _. destruct b; exact I.
Qed.

Lemma loop_total : forall n o src known earlier bound, (List.length src <= n)%nat ->
  Forall set_total known -> bound_inv known earlier bound ->
  fine (loop (Build_Stream src (le_of o)) known bound earlier).
Proof.
  induction n as [|n IH]; intros o src known earlier bound Hn Hk Hi; rewrite loop_unfold.
  - destruct src; [exact I|cbn in Hn; lia].
  - destruct (stream_is_end _); [exact I|].
    apply fine_bind; [eapply read_instruction_total; eassumption|]. intros [[s i] b] Hr.
    pose proof (read_instruction_shrinks _ _ _ _ _ _ Hr) as (_ & k & Hk').
    apply (read_instruction_sound o src known earlier) in Hr; [|exact Hi].
    destruct Hr as (wc & body & rest & Hr). decompose [and] Hr. subst. apply IH; try assumption.
    cbn [Stream_source] in Hk'. lia.
Qed.

Lemma read_version_total : forall v, fine (read_version v).
Proof. intro v. unfold read_version. repeat match goal with |- context [match ?x with _ => _ end] => destruct x; try exact I end. Qed.

Lemma check_version_total : forall v, fine (check_version v).
Proof. intros [a b]. unfold check_version. destruct a as [|[]]; try exact I. destruct b; exact I. Qed.

Lemma read_module_total : forall data known, Forall set_total known -> fine (read_module data known).
Proof.
  intros data known Hk. rewrite read_module_magic.
  apply fine_bind.
  - apply fine_bind; [apply stream_read_word_total|]. intros [s m] _. unfold check_magic.
    destruct (N.eqb m SPIRV_MAGIC_NUMBER); [exact I|]. destruct (N.eqb m SPIRV_MAGIC_NUMBER_OTHER_ENDIAN); exact I.
  - intros s _. unfold read_after_magic.
    apply fine_bind; [apply stream_read_word_total|]. intros [s1 v] _.
    apply fine_bind; [apply read_version_total|]. intros ver _.
    apply fine_bind; [apply check_version_total|]. intros _ _.
    apply fine_bind; [apply stream_read_word_total|]. intros [s2 g] _.
    apply fine_bind; [apply stream_read_word_total|]. intros [s3 b] _.
    apply fine_bind; [apply stream_read_word_total|]. intros [[src le] z] _.
    destruct (negb (N.eqb z 0)); [exact I|].
    apply fine_bind; [|intros; exact I].
    pose proof (loop_total _ (order_of le) src known [] [] (le_n _) Hk (bound_inv_nil known)) as T. rewrite le_order in T. exact T.
Qed.

End Reader.
