(** Proofs about reading with instruction sets that have side effects, C83. *)
From Coq Require Import ZArith ZifyBool ZifyNat ZifyN.
From Verif Require Import Base Types Ops ReadErr Utf8 ReadBase ReadOperands ExtSet ReadOps Reader ReaderState Spec_Wire Spec_Opcodes Spec_Operands Spec_Failure Spec_Calls
  Proofs_Operands Proofs_Composite Proofs_Ops Proofs_Instr Proofs_Stream Proofs_Reader Proofs_Next Proofs_Facts Proofs_Facts2 Proofs_Failure.
Local Open Scope N_scope.
Ltac Zify.zify_post_hook ::= Z.div_mod_to_equations.

Section Calls.
Context {Obj E W : Type} (methods : SetMethods Obj E W).
Implicit Types (known : list Obj) (copies : list (N * Obj)) (w : W).
Notation answered := (answered methods).
Notation ev := (Spec_Calls.call Obj E).

(** ** Running *)

Lemma and_then_pure : forall {A B} (r : outcome ReadError A) (f : A -> run B) w,
  and_then (pure r) f w = match r with Ok a => f a w | Err e => (Err e, w) | Panic => (Panic, w) | OutOfFuel => (OutOfFuel, w) end.
Proof. intros A B [] f w; reflexivity. Qed.

Lemma answered_app : forall l1 w w1 l2 w2, answered w l1 w1 -> answered w1 l2 w2 -> answered w (l1 ++ l2) w2.
Proof.
  intros l1 w w1 l2 w2 H1 H2. induction H1 as [|? ? ? ? ? ? X _ IH|? ? ? ? ? ? X _ IH|? ? ? ? ? ? ? ? X _ IH]; [exact H2|..]; cbn [app].
  - eapply answered_name; eauto.
  - eapply answered_copy; eauto.
  - eapply answered_instruction; eauto.
Qed.
Lemma answered_split : forall l1 w l2 w2, answered w (l1 ++ l2) w2 -> exists w1, answered w l1 w1 /\ answered w1 l2 w2.
Proof.
  induction l1 as [|c l1 IH]; intros w l2 w2 H; cbn [app] in H; [exists w; split; [constructor|exact H]|].
  inversion H as [|? ? ? ? ? ? X Y|? ? ? ? ? ? X Y|? ? ? ? ? ? ? ? X Y]; subst; apply IH in Y; destruct Y as (w1' & Y1 & Y2); exists w1'; (split; [|exact Y2]).
  - eapply answered_name; eauto.
  - eapply answered_copy; eauto.
  - eapply answered_instruction; eauto.
Qed.
Lemma answered_unique : forall l w w1 w2, answered w l w1 -> answered w l w2 -> w1 = w2.
Proof.
  intros l w w1 w2 H. revert w2. induction H as [|? ? ? ? ? ? X _ IH|? ? ? ? ? ? X _ IH|? ? ? ? ? ? ? ? X _ IH]; intros w2 H2; inversion H2; subst; try reflexivity.
  all: apply IH; congruence.
Qed.

(** ** The map of imported sets *)

Definition holds copies (bound : bound_objects (Obj := Obj)) : Prop := bound = rev copies /\ NoDup (map fst copies).

Lemma get_in : forall (m : list (N * Obj)) id c, map_get id m = Some c -> In (id, c) m.
Proof.
  induction m as [|[k v] m IH]; intros id c H; cbn in H; [discriminate|].
  destruct (N.eqb_spec id k) as [->|]; [injection H as <-; left; reflexivity|right; auto].
Qed.
Lemma get_none : forall (m : list (N * Obj)) id, map_get id m = None <-> ~ In id (map fst m).
Proof.
  induction m as [|[k v] m IH]; intros id; cbn; [split; [intros _ []|reflexivity]|].
  destruct (N.eqb_spec id k) as [->|]; [split; [discriminate|intro X; exfalso; apply X; left; reflexivity]|].
  rewrite IH. split; [intros X [Y|Y]; [congruence|exact (X Y)]|tauto].
Qed.
Lemma in_get : forall (m : list (N * Obj)) id c, NoDup (map fst m) -> In (id, c) m -> map_get id m = Some c.
Proof.
  induction m as [|[k v] m IH]; intros id c H I; cbn; [destruct I|]. inversion H as [|? ? H1 H2]; subst.
  destruct I as [X|I].
  - injection X as -> ->. rewrite N.eqb_refl. reflexivity.
  - destruct (N.eqb_spec id k) as [->|]; [|auto]. exfalso. apply H1. apply in_map_iff. exists (k, c). auto.
Qed.

Lemma holds_some : forall copies bound id c, holds copies bound -> (map_get id bound = Some c <-> In (id, c) copies).
Proof.
  intros copies bound id c [-> H]. split; intro X.
  - apply in_rev. apply get_in. exact X.
  - apply in_get; [|apply in_rev in X; exact X]. rewrite map_rev. apply NoDup_rev. exact H.
Qed.
Lemma holds_none : forall copies bound id, holds copies bound -> (map_get id bound = None <-> ~ In id (map fst copies)).
Proof. intros copies bound id [-> H]. rewrite get_none, map_rev, <- in_rev. reflexivity. Qed.
Lemma holds_add : forall copies bound id c, holds copies bound -> ~ In id (map fst copies) -> holds (copies ++ [(id, c)]) ((id, c) :: bound).
Proof.
  intros copies bound id c [-> H] N. split; [rewrite rev_app_distr; reflexivity|]. rewrite map_app. cbn [map fst].
  apply NoDup_app_one; assumption.
Qed.
Lemma existsb_in : forall id (l : list N), existsb (N.eqb id) l = true <-> In id l.
Proof.
  intros id l. rewrite existsb_exists. split; [intros (x & Hx & X); apply N.eqb_eq in X; subst; exact Hx|].
  intro X. exists id. split; [exact X|apply N.eqb_refl].
Qed.

(** ** One instruction *)

(* the part of read_instruction_in after the words have been fetched *)
Definition decode_in (id wc : N) (block : list N) known (bound : bound_objects) : run (Core E * bound_objects) :=
  and_then (pure (dispatch_in methods id wc)) (fun read_fn =>
  and_then (read_fn block known bound) (fun '(block, inst, bound) =>
  match block with
  | [] => pure (Ok (inst, bound))
  | _ :: _ => pure (Err InstructionHadExcessData)
  end)).

Lemma decode_plain : forall op wc block known bound w, op <> 11 -> op <> 12 ->
  decode_in op wc block known bound w
  = (let! (i, _) := decode (E := E) op wc block [] [] in Ok (i, bound), w).
Proof.
  intros op wc block known bound w N11 N12. unfold decode_in, decode.
  replace (dispatch_in methods op wc) with (let! read_fn := dispatch (E := E) op wc in Ok (ignoring_sets (Obj := Obj) (W := W) read_fn)).
  - rewrite and_then_pure. destruct (dispatch op wc) as [f|?| |]; cbn [bind]; try reflexivity.
    unfold ignoring_sets. rewrite and_then_pure. destruct (f block [] []) as [[[b i] bd]|?| |]; cbn [bind]; try reflexivity.
    destruct b; reflexivity.
  - unfold dispatch_in. destruct op as [|p]; [reflexivity|]. do 4 (destruct p as [p|p|]; try reflexivity); congruence.
Qed.

Lemma decode_fine : forall op wc body, fine (decode (E := E) op wc body [] []).
Proof.
  intros op wc body. unfold decode. apply fine_bind; [apply dispatch_total|]. intros f Hd.
  apply fine_bind; [apply (dispatch_returns _ _ _ Hd [] [] body)|intros [[[|] i] bd] _; exact I].
  apply (bound_inv_total [] []); [constructor|apply bound_inv_nil].
Qed.

(* the result of an instruction, and its map if there is one *)
Definition fits copies' (r : outcome ReadError (Core E)) (r' : outcome ReadError (Core E * bound_objects)) : Prop :=
  match r, r' with
  | Ok i, Ok (i', b) => i' = i /\ holds copies' b
  | Err e, Err e' => e' = e
  | Panic, Panic => True
  | OutOfFuel, OutOfFuel => True
  | _, _ => False
  end.

Lemma wire_plain : forall (i : Core E) sets earlier body, opcode i <> 11 -> opcode i <> 12 ->
  (wire_instruction sets earlier i body <-> representable i /\ wire_operands (operands i) body).
Proof. intros i sets earlier body N11 N12. destruct i; try reflexivity; cbn in N11, N12; congruence. Qed.

(* the loop over the known sets *)
Lemma import_loop_run : forall id name rest copies bound known w, holds copies bound -> forall r w',
  import_loop_in methods id name rest bound known w = (r, w') ->
  exists calls, answered w calls w' /\
  ((other_names name known calls /\ r = Err (UnknownInstSet name))
  \/ exists before set after others, known = before ++ set :: after /\ other_names (E := E) name before others /\
     ((calls = others ++ [AskName set None] /\ r = Panic)
      \/ (calls = others ++ [AskName set (Some name); AskCopy set None] /\ r = Panic)
      \/ exists c, calls = others ++ [AskName set (Some name); AskCopy set (Some c)] /\
         r = if existsb (N.eqb id) (map fst copies) then Err (DuplicateResultId id)
             else Ok (rest, Core_OpExtInstImport (Build_OpExtInstImport id name), (id, c) :: bound))).
Proof.
  intros id name rest copies bound known w Hh. revert w. induction known as [|set known IH]; intros w r w' H; cbn [import_loop_in] in H.
  - injection H as <- <-. exists []. split; [constructor|]. left. split; [constructor|reflexivity].
  - unfold and_then at 1, or_panic at 1 in H. destruct (call_get_name methods set w) as [[n|] w1] eqn:Hn.
    2:{ injection H as <- <-. exists [AskName set None]. split; [eapply answered_name; [exact Hn|constructor]|].
        right. exists [], set, known, []. split; [reflexivity|]. split; [constructor|]. left. auto. }
    destruct (String.eqb_spec n name) as [->|Nn].
    + unfold and_then, or_panic in H. destruct (call_duplicate methods set w1) as [[c|] w2] eqn:Hc.
      * exists [AskName set (Some name); AskCopy set (Some c)]. assert (w' = w2) as ->.
        { unfold map_insert in H. destruct (map_get id bound); injection H as _ <-; reflexivity. }
        split; [eapply answered_name; [exact Hn|]; eapply answered_copy; [exact Hc|constructor]|].
        right. exists [], set, known, []. split; [reflexivity|]. split; [constructor|]. right. right. exists c. split; [reflexivity|].
        unfold map_insert in H. destruct (existsb (N.eqb id) (map fst copies)) eqn:Hx.
        -- apply existsb_in in Hx. destruct (map_get id bound) as [c'|] eqn:Hg; [injection H as <-; reflexivity|].
           apply (holds_none _ _ _ Hh) in Hg. contradiction.
        -- destruct (map_get id bound) as [c'|] eqn:Hg.
           { exfalso. apply (holds_some _ _ _ _ Hh) in Hg. assert (X : In id (map fst copies)) by (apply in_map_iff; exists (id, c'); auto).
             apply existsb_in in X. congruence. }
           injection H as <-. reflexivity.
      * injection H as <- <-. exists [AskName set (Some name); AskCopy set None].
        split; [eapply answered_name; [exact Hn|]; eapply answered_copy; [exact Hc|constructor]|].
        right. exists [], set, known, []. split; [reflexivity|]. split; [constructor|]. right. left. auto.
    + apply IH in H. destruct H as (calls & Ha & H). exists (AskName set (Some n) :: calls).
      split; [eapply answered_name; eassumption|]. destruct H as [[Ho ->]|(before & s & after & others & -> & Ho & H)].
      * left. split; [constructor; assumption|reflexivity].
      * right. exists (set :: before), s, after, (AskName set (Some n) :: others). split; [reflexivity|]. split; [constructor; assumption|].
        destruct H as [[-> ->]|[[-> ->]|(c & -> & ->)]]; [left; auto|right; left; auto|right; right; exists c; auto].
Qed.

Lemma names_skipped : forall id name rest bound others before after calls w w', other_names (E := E) name before others ->
  answered w (others ++ calls) w' -> exists w1, answered w1 calls w' /\
  import_loop_in methods id name rest bound (before ++ after) w = import_loop_in methods id name rest bound after w1.
Proof.
  intros id name rest bound others before after calls w w' H. revert w. induction H as [|set n sets others Nn H IH]; intros w Ha; cbn [app] in *.
  - exists w. auto.
  - inversion Ha as [|? ? ? w1 ? ? X Y| |]; subst. destruct (IH _ Y) as (w2 & H1 & H2). exists w2. split; [exact H1|].
    rewrite <- H2. cbn [import_loop_in]. unfold and_then at 1, or_panic. rewrite X.
    destruct (String.eqb_spec n name); [contradiction|reflexivity].
Qed.

Lemma import_string : forall id chars rest name wc known bound, Forall word (id :: chars ++ rest) -> wire_string name chars -> text name ->
  decode_in 11 wc (id :: chars ++ rest) known bound
  = and_then (import_loop_in methods id name rest bound known) (fun '(block, inst, bound) =>
      match block with [] => pure (Ok (inst, bound)) | _ :: _ => pure (Err InstructionHadExcessData) end).
Proof.
  intros id chars rest name wc known bound Hw Hs Ht. unfold decode_in. cbn [dispatch_in].
  unfold read_core_OpExtInstImport_in. inversion Hw as [|? ? _ Hw']; subst.
  assert (X : read_LitString (chars ++ rest) = Ok (rest, name)) by (apply (string_exact _ rest name Hw'); exists chars; auto).
  unfold and_then at 1. cbn [pure]. unfold and_then at 2. unfold read_ResultId. cbn [read_word bind pure].
  unfold and_then at 2. rewrite X. cbn [pure]. reflexivity.
Qed.

Theorem decode_calls : forall op wc body known copies bound w r' w', Forall word body -> holds copies bound ->
  decode_in op wc body known bound w = (r', w') ->
  exists calls copies' r, answered w calls w' /\ instruction_calls known copies op wc body calls copies' r /\ fits copies' r r'.
Proof.
  intros op wc body known copies bound w r' w' Hw Hh H.
  destruct (N.eq_dec op 11) as [->|N11]; [|destruct (N.eq_dec op 12) as [->|N12]].
  - (* import *)
    destruct (let! (block, _) := read_ResultId body in let! (block, name) := read_LitString block in Ok (block, name)) as [[rest name]|e| |] eqn:Hs.
    + apply bind_ok in Hs. destruct Hs as ([block id] & H1 & Hs). apply bind_ok in Hs. destruct Hs as ([rest' name'] & H2 & Hs).
      injection Hs as -> ->. unfold read_ResultId in H1. destruct body as [|b body]; [discriminate|]. cbn [read_word bind] in H1. injection H1 as -> ->.
      inversion Hw as [|? ? Hb Hw']; subst.
      apply (string_exact _ _ _ Hw') in H2. destruct H2 as (chars & -> & Hs & Ht).
      rewrite (import_string _ _ _ _ _ _ _ Hw Hs Ht) in H. unfold and_then in H.
      destruct (import_loop_in methods id name rest bound known w) as [q wq] eqn:Hq.
      destruct (import_loop_run _ _ _ _ _ _ _ Hh _ _ Hq) as (calls & Ha & D).
      destruct D as [[Ho ->]|(before & set & after & others & -> & Ho & [[-> ->]|[[-> ->]|(c & -> & ->)]])].
      * injection H as <- <-. exists calls, copies, (Err (UnknownInstSet name)). split; [exact Ha|]. split; [|reflexivity]. eapply Spec_Calls.import_unknown; eauto.
      * injection H as <- <-. eexists _, copies, Panic. split; [exact Ha|]. split; [|exact I]. eapply import_name_panics; eauto.
      * injection H as <- <-. eexists _, copies, Panic. split; [exact Ha|]. split; [|exact I]. eapply import_copy_panics; eauto.
      * eexists _, _, _. split; [|split; [eapply (import_copied _ copies 11 wc); eauto|]].
        -- destruct (existsb (N.eqb id) (map fst copies)); [injection H as _ <-; exact Ha|].
           destruct rest; injection H as _ <-; exact Ha.
        -- destruct (existsb (N.eqb id) (map fst copies)) eqn:Hx; [injection H as <- _; reflexivity|].
           destruct rest; injection H as <- _; [|reflexivity]. cbn. split; [reflexivity|]. apply holds_add; [exact Hh|].
           intro X. apply existsb_in in X. congruence.
    + exists [], copies, (Err e).
      assert (G : decode_in 11 wc body known bound w = (Err e, w)).
      { unfold decode_in. cbn [dispatch_in]. unfold read_core_OpExtInstImport_in. unfold and_then at 1. cbn [pure]. unfold and_then at 1.
        rewrite and_then_pure. destruct (read_ResultId body) as [[block id]|e'| |]; cbn [bind] in Hs; try discriminate; [|injection Hs as ->; reflexivity].
        rewrite and_then_pure. destruct (read_LitString block) as [[block' name]|e'| |]; cbn [bind] in Hs; try discriminate. injection Hs as ->. reflexivity. }
      rewrite G in H. injection H as <- <-. split; [constructor|]. split; [|reflexivity]. apply import_malformed; [reflexivity|].
      apply scans_import; assumption.
    + exfalso. unfold read_ResultId in Hs. destruct body as [|b body]; [discriminate|]. cbn [read_word bind] in Hs.
      pose proof (@good_total _ read_LitString _ _ _ body) as F. destruct (read_LitString body) as [[? ?]|?| |]; cbn [bind] in Hs; try discriminate; exact F.
    + exfalso. unfold read_ResultId in Hs. destruct body as [|b body]; [discriminate|]. cbn [read_word bind] in Hs.
      pose proof (@good_total _ read_LitString _ _ _ body) as F. destruct (read_LitString body) as [[? ?]|?| |]; cbn [bind] in Hs; try discriminate; exact F.
  - (* extended instruction *)
    unfold decode_in in H. cbn [dispatch_in] in H. unfold read_core_OpExtInst_in in H. rewrite and_then_pure in H.
    destruct body as [|t [|i [|s [|n ws]]]];
      try (cbn in H; injection H as <- <-; exists [], copies, (Err UnexpectedEndOfInstruction); split; [constructor|]; split; [|reflexivity];
           apply extended_short; [reflexivity|cbn; lia]).
    unfold read_OpId, read_ResultId, read_u32 in H. unfold and_then at 1 in H. rewrite and_then_pure in H. cbn [read_word bind] in H.
    rewrite and_then_pure in H. cbn [read_word bind] in H. rewrite and_then_pure in H. cbn [read_word bind] in H.
    rewrite and_then_pure in H. cbn [read_word bind] in H.
    destruct (map_get s bound) as [c|] eqn:Hg.
    + apply (holds_some _ _ _ _ Hh) in Hg. unfold and_then in H.
      destruct (call_read_instruction methods c n ws w) as [a w1] eqn:Hc.
      exists [AskInstruction c n ws a], copies, (accept t i s a).
      assert (w' = w1) as -> by (destruct a as [[[|] ?]|?| |]; cbn in H; injection H as _ <-; reflexivity).
      split; [eapply answered_instruction; [exact Hc|constructor]|]. split; [eapply extended_asked; eauto|].
      destruct a as [[[|] ?]|?| |]; cbn in H; injection H as <-; cbn; auto.
    + apply (holds_none _ _ _ Hh) in Hg. cbn [pure] in H. injection H as <- <-.
      exists [], copies, (Err (UnknownInstSetId s)). split; [constructor|]. split; [|reflexivity]. eapply extended_unknown; eauto.
  - (* other *)
    rewrite decode_plain in H by assumption. injection H as <- <-.
    destruct (decode (E := E) op wc body [] []) as [[i b]|e| |] eqn:Hd; cbn [bind].
    + destruct (decode_sound _ _ _ _ [] _ _ _ (bound_inv_nil []) Hw Hd) as (Ho & Hi & _).
      exists [], copies, (Ok i). split; [constructor|]. split; [|cbn; auto].
      apply wire_plain in Hi; [|rewrite Ho; assumption|rewrite Ho; assumption]. apply plain_accepted; try assumption; apply Hi.
    + exists [], copies, (Err e). split; [constructor|]. split; [|reflexivity]. apply plain_rejected; try assumption.
      apply (decode_fails [] [] [] op wc body e (bound_inv_nil []) Hw). exact Hd.
    + exfalso. pose proof (decode_fine op wc body) as F. rewrite Hd in F. exact F.
    + exfalso. pose proof (decode_fine op wc body) as F. rewrite Hd in F. exact F.
Qed.

Theorem calls_decode : forall op wc body known copies bound w calls copies' r w', Forall word body -> holds copies bound ->
  answered w calls w' -> instruction_calls known copies op wc body calls copies' r ->
  exists r', decode_in op wc body known bound w = (r', w') /\ fits copies' r r'.
Proof.
  intros op wc body known copies bound w calls copies' r w' Hw Hh Ha H.
  destruct H as [i N11 N12 Ho Hr Hi|e N11 N12 Hf|e -> Hf|id name chars rest calls -> -> Hs Ht Ho
    |id name chars rest before set after calls -> -> Hs Ht -> Ho|id name chars rest before set after calls -> -> Hs Ht -> Ho
    |id name chars rest before set after calls c -> -> Hs Ht -> Ho| -> Hl|t i s n ws -> -> Hn|t i s n ws c a -> -> Hc].
  - inversion Ha; subst. rewrite decode_plain by assumption.
    destruct (decode_complete wc body [] [] [] i (bound_inv_nil []) Hw) as (b & Hd & _).
    { apply wire_plain; auto. }
    rewrite Hd. eexists. split; [reflexivity|]. cbn. auto.
  - inversion Ha; subst. rewrite decode_plain by assumption.
    apply (decode_fails [] [] [] op wc body e (bound_inv_nil []) Hw) in Hf. rewrite Hf. eexists. split; [reflexivity|exact eq_refl].
  - inversion Ha; subst. apply (scans_import _ _ Hw) in Hf. exists (Err e). split; [|exact eq_refl].
    unfold decode_in. cbn [dispatch_in]. unfold read_core_OpExtInstImport_in. unfold and_then at 1. cbn [pure]. unfold and_then at 1.
    rewrite and_then_pure. destruct (read_ResultId body) as [[block id]|e'| |]; cbn [bind] in Hf; try discriminate; [|injection Hf as ->; reflexivity].
    rewrite and_then_pure. destruct (read_LitString block) as [[block' name]|e'| |]; cbn [bind] in Hf; try discriminate. injection Hf as ->. reflexivity.
  - rewrite (import_string _ _ _ _ _ _ _ Hw Hs Ht). unfold and_then.
    rewrite <- (app_nil_r calls) in Ha. destruct (names_skipped id name rest bound _ _ [] _ _ _ Ho Ha) as (w1 & Ha1 & L).
    rewrite app_nil_r in L. rewrite L. inversion Ha1; subst. cbn. eexists. split; [reflexivity|exact eq_refl].
  - rewrite (import_string _ _ _ _ _ _ _ Hw Hs Ht). unfold and_then.
    destruct (names_skipped id name rest bound _ _ (set :: after) _ _ _ Ho Ha) as (w1 & Ha1 & L). rewrite L.
    inversion Ha1 as [|? ? ? w2 ? ? X Y| |]; subst. inversion Y; subst. cbn [import_loop_in]. unfold and_then at 1, or_panic. rewrite X.
    eexists. split; [reflexivity|exact I].
  - rewrite (import_string _ _ _ _ _ _ _ Hw Hs Ht). unfold and_then.
    destruct (names_skipped id name rest bound _ _ (set :: after) _ _ _ Ho Ha) as (w1 & Ha1 & L). rewrite L.
    inversion Ha1 as [|? ? ? w2 ? ? X Y| |]; subst. inversion Y as [| |? ? ? w3 ? ? X2 Y2|]; subst. inversion Y2; subst.
    cbn [import_loop_in]. unfold and_then at 1, or_panic. rewrite X, String.eqb_refl. unfold and_then. rewrite X2.
    eexists. split; [reflexivity|exact I].
  - rewrite (import_string _ _ _ _ _ _ _ Hw Hs Ht). unfold and_then.
    destruct (names_skipped id name rest bound _ _ (set :: after) _ _ _ Ho Ha) as (w1 & Ha1 & L). rewrite L.
    inversion Ha1 as [|? ? ? w2 ? ? X Y| |]; subst. inversion Y as [| |? ? ? w3 ? ? X2 Y2|]; subst. inversion Y2; subst.
    cbn [import_loop_in]. unfold and_then at 1, or_panic. rewrite X, String.eqb_refl. unfold and_then. rewrite X2. unfold map_insert.
    destruct (existsb (N.eqb id) (map fst copies)) eqn:Hx.
    + apply existsb_in in Hx. destruct (map_get id bound) as [c'|] eqn:Hg; [eexists; split; [reflexivity|exact eq_refl]|].
      apply (holds_none _ _ _ Hh) in Hg. contradiction.
    + assert (Ni : ~ In id (map fst copies)) by (intro Z; apply existsb_in in Z; congruence).
      rewrite (proj2 (holds_none _ _ _ Hh) Ni). unfold pure. destruct rest; eexists; (split; [reflexivity|]); [|exact eq_refl].
      cbn. split; [reflexivity|]. apply holds_add; assumption.
  - inversion Ha; subst. exists (Err UnexpectedEndOfInstruction). split; [|exact eq_refl].
    destruct body as [|t [|i [|s [|n ws]]]]; try (cbn in Hl; lia); reflexivity.
  - inversion Ha; subst. exists (Err (UnknownInstSetId s)). split; [|exact eq_refl]. apply (holds_none _ _ _ Hh) in Hn.
    unfold decode_in. cbn [dispatch_in]. unfold read_core_OpExtInst_in, read_OpId, read_ResultId, read_u32, and_then, pure. cbn [read_word bind].
    rewrite Hn. reflexivity.
  - inversion Ha as [| | |? ? ? ? ? w1 ? ? X Y]; subst. inversion Y; subst. apply (holds_some _ _ _ _ Hh) in Hc.
    unfold decode_in. cbn [dispatch_in]. unfold read_core_OpExtInst_in, read_OpId, read_ResultId, read_u32, and_then, pure. cbn [read_word bind].
    rewrite Hc, X. destruct a as [[[|] ?]|?| |]; eexists; (split; [reflexivity|]); cbn; auto.
Qed.

(** ** The instructions *)

Lemma read_instruction_step : forall o h body rest known bound w, word h -> Forall word body ->
  List.length body = (N.to_nat (h / 65536) - 1)%nat ->
  read_instruction_in methods (Build_Stream (bytes_of_words o (h :: body) ++ rest) (le_of o)) known bound w
  = and_then (decode_in (h mod 65536) (h / 65536) body known bound) (fun '(i, b) => pure (Ok (Build_Stream rest (le_of o), i, b))) w.
Proof.
  intros o h body rest known bound w Hh Hb Hl. unfold read_instruction_in.
  rewrite and_then_pure, bytes_of_words_cons, <- app_assoc, stream_read_word_ok by exact Hh.
  rewrite head_low, (head_high h Hh), and_then_pure. replace (N.to_nat (h / 65536 - 1)) with (List.length body) by lia.
  rewrite (read_words_ok o body rest Hb). unfold decode_in. unfold and_then. cbn [pure].
  destruct (dispatch_in methods (h mod 65536) (h / 65536)) as [f|?| |]; try reflexivity.
  destruct (f body known bound w) as [[[[[|b0 b] i] bd]|?| |] w1]; reflexivity.
Qed.

Lemma chunks : forall o src, src = [] \/ (0 < List.length src < 4)%nat
  \/ (exists h rest, word h /\ src = bytes_of_word o h ++ rest /\ (List.length rest < 4 * (N.to_nat (h / 65536) - 1))%nat)
  \/ (exists h body rest, word h /\ Forall word body /\ List.length body = (N.to_nat (h / 65536) - 1)%nat /\ src = bytes_of_words o (h :: body) ++ rest).
Proof.
  intros o src. destruct src as [|a src]; [left; reflexivity|]. right. set (data := a :: src).
  destruct (Nat.lt_ge_cases (List.length data) 4) as [Hs|Hs]; [left; unfold data in *; cbn in *; lia|]. right.
  destruct (word_long o data Hs) as (h & rest & Hh & ->).
  destruct (Nat.lt_ge_cases (List.length rest) (4 * (N.to_nat (h / 65536) - 1))) as [Hr|Hr]; [left; exists h, rest; auto|right].
  assert (B : exists body rest', Forall word body /\ List.length body = (N.to_nat (h / 65536) - 1)%nat /\ rest = bytes_of_words o body ++ rest').
  { clear - Hr. revert rest Hr. generalize (N.to_nat (h / 65536) - 1)%nat. intro k. induction k as [|k IHk]; intros rest Hr.
    - exists [], rest. repeat split. constructor.
    - destruct (word_long o rest) as (w & r & Hw & ->); [lia|]. rewrite app_length, bytes_of_word_length in Hr.
      destruct (IHk r) as (body & r' & Hb & Hl & ->); [lia|]. exists (w :: body), r'.
      split; [constructor; assumption|]. split; [cbn; lia|]. rewrite bytes_of_words_cons, <- app_assoc. reflexivity. }
  destruct B as (body & rest' & Hb & Hl & ->). exists h, body, rest'. rewrite bytes_of_words_cons, <- app_assoc. auto.
Qed.

Lemma nonempty_end : forall o h rest, stream_is_end (Build_Stream (bytes_of_word o h ++ rest) (le_of o)) = false.
Proof. intros o h rest. destruct (bytes_of_word_form o h) as (? & ? & ? & ? & ->). reflexivity. Qed.
Lemma nonempty_end' : forall o h body rest, stream_is_end (Build_Stream (bytes_of_words o (h :: body) ++ rest) (le_of o)) = false.
Proof. intros o h body rest. rewrite bytes_of_words_cons, <- app_assoc. apply nonempty_end. Qed.

Lemma partial_word : forall n le rest known bound acc w, (0 < List.length rest < 4)%nat ->
  read_instructions_in methods (S n) (Build_Stream rest le) known bound acc w = (Err UnexpectedStreamAlignment, w).
Proof. intros n le [|a [|b [|c [|d rest]]]] known bound acc w H; cbn in H; try lia; reflexivity. Qed.

Lemma partial_instruction : forall n o h rest known bound acc w, word h -> (List.length rest < 4 * (N.to_nat (h / 65536) - 1))%nat ->
  read_instructions_in methods (S n) (Build_Stream (bytes_of_word o h ++ rest) (le_of o)) known bound acc w = (Err (ran_out_of rest), w).
Proof.
  intros n o h rest known bound acc w Hh Hr. cbn [read_instructions_in]. rewrite nonempty_end. unfold and_then at 1.
  unfold read_instruction_in. rewrite and_then_pure, stream_read_word_ok by exact Hh. rewrite (head_high h Hh), and_then_pure.
  rewrite words_short by lia. reflexivity.
Qed.

Theorem loop_calls : forall n o src known copies bound acc w r' w', (List.length src <= n)%nat -> holds copies bound ->
  read_instructions_in methods n (Build_Stream src (le_of o)) known bound acc w = (r', w') ->
  exists calls r, answered w calls w' /\ instructions_calls known o copies src calls r /\ r' = let! is := r in Ok (acc ++ is).
Proof.
  induction n as [|n IH]; intros o src known copies bound acc w r' w' Hn Hh H.
  - destruct src; [|cbn in Hn; lia]. cbn in H. injection H as <- <-. exists [], (Ok []). split; [constructor|]. split; [constructor|].
    cbn [bind]. rewrite app_nil_r. reflexivity.
  - destruct (chunks o src) as [->|[Hs|[(h & rest & Hw & -> & Hs)|(h & body & rest & Hw & Hb & Hl & ->)]]].
    + cbn in H. injection H as <- <-. exists [], (Ok []). split; [constructor|]. split; [constructor|]. cbn [bind]. rewrite app_nil_r. reflexivity.
    + rewrite partial_word in H by exact Hs. injection H as <- <-. exists [], (Err UnexpectedStreamAlignment).
      split; [constructor|]. split; [apply calls_partial_word; exact Hs|reflexivity].
    + rewrite partial_instruction in H by assumption. injection H as <- <-. exists [], (Err (ran_out_of rest)).
      split; [constructor|]. split; [apply calls_partial_instruction; assumption|reflexivity].
    + cbn [read_instructions_in] in H. rewrite nonempty_end' in H. unfold and_then at 1 in H.
      rewrite read_instruction_step in H by assumption. unfold and_then at 1 in H.
      destruct (decode_in (h mod 65536) (h / 65536) body known bound w) as [q w1] eqn:Hd.
      destruct (decode_calls _ _ _ _ _ _ _ _ _ Hb Hh Hd) as (calls & copies' & r & Ha & Hi & Hf).
      destruct r as [i|e| |], q as [[i' b]|e'| |]; cbn [fits] in Hf; try contradiction; cbn [pure] in H.
      2:{ subst e'. injection H as <- <-. exists calls, (Err e). split; [exact Ha|]. split; [|reflexivity]. eapply calls_stop; try eassumption. reflexivity. }
      2:{ injection H as <- <-. exists calls, Panic. split; [exact Ha|]. split; [|reflexivity]. eapply calls_stop; try eassumption. reflexivity. }
      2:{ injection H as <- <-. exists calls, OutOfFuel. split; [exact Ha|]. split; [|reflexivity]. eapply calls_stop; try eassumption. reflexivity. }
      destruct Hf as [-> Hh']. eapply IH in H; [|rewrite bytes_of_words_cons, !app_length, bytes_of_word_length in Hn; lia|exact Hh'].
      destruct H as (calls' & r & Ha' & Hi' & ->). exists (calls ++ calls'), (let! is := r in Ok (i :: is)).
      split; [eapply answered_app; eassumption|]. split; [eapply calls_go_on; eassumption|].
      destruct r; cbn [bind]; try reflexivity. rewrite <- app_assoc. reflexivity.
Qed.

Theorem calls_loop : forall known o copies src calls r, instructions_calls known o copies src calls r ->
  forall n bound acc w w', (List.length src <= n)%nat -> holds copies bound -> answered w calls w' ->
  read_instructions_in methods n (Build_Stream src (le_of o)) known bound acc w = (let! is := r in Ok (acc ++ is), w').
Proof.
  intros known o copies src calls r H.
  induction H as [copies|copies rest Hs|copies h rest Hw Hs|copies h body rest calls copies' r r' Hw Hb Hl Hi Hr
    |copies h body rest calls copies' i calls' r Hw Hb Hl Hi _ IH]; intros n bound acc w w' Hn Hh Ha.
  - inversion Ha; subst. cbn [bind]. rewrite app_nil_r. destruct n; reflexivity.
  - inversion Ha; subst. destruct n; [lia|]. apply partial_word. exact Hs.
  - inversion Ha; subst. rewrite app_length, bytes_of_word_length in Hn. destruct n; [lia|]. apply partial_instruction; assumption.
  - rewrite bytes_of_words_cons, !app_length, bytes_of_word_length in Hn. destruct n; [lia|].
    cbn [read_instructions_in]. rewrite nonempty_end'. unfold and_then at 1. rewrite read_instruction_step by assumption. unfold and_then at 1.
    destruct (calls_decode _ _ _ _ _ _ _ _ _ _ _ Hb Hh Ha Hi) as (q & -> & Hf).
    destruct r as [i|e| |], q as [[i' b]|e'| |]; cbn [fits] in Hf; try contradiction; subst; reflexivity.
  - rewrite bytes_of_words_cons, !app_length, bytes_of_word_length in Hn. destruct n; [lia|].
    apply answered_split in Ha. destruct Ha as (w1 & Ha & Ha').
    cbn [read_instructions_in]. rewrite nonempty_end'. unfold and_then at 1. rewrite read_instruction_step by assumption. unfold and_then at 1.
    destruct (calls_decode _ _ _ _ _ _ _ _ _ _ _ Hb Hh Ha Hi) as (q & -> & Hf).
    destruct q as [[i' b]|e'| |]; cbn [fits] in Hf; try contradiction. destruct Hf as [-> Hh']. cbn [pure].
    rewrite (IH n b (acc ++ [i]) w1 w'); [|lia|exact Hh'|exact Ha'].
    destruct r; cbn [bind]; try reflexivity. rewrite <- app_assoc. reflexivity.
Qed.

(** ** The header *)

Definition read_header_part (data : list ascii) : outcome ReadError (Stream * Version * Generator * N) :=
  let! stream := (let! (stream, magic) := stream_read_word (Build_Stream data true) in check_magic magic stream) in
  let! (stream, ver_word) := stream_read_word stream in
  let! version := read_version ver_word in
  let! _ := check_version version in
  let! (stream, generator_word) := stream_read_word stream in
  let generator := Build_Generator (tool_of_id (as_u16 (N.shiftr generator_word 16))) (as_u16 (N.land generator_word 0xFFFF)) in
  let! (stream, bound) := stream_read_word stream in
  let! (stream, zero) := stream_read_word stream in
  if negb (N.eqb zero 0) then Err UnknownReservedSchema else Ok (stream, version, generator, bound).

Lemma module_in_header : forall data known w,
  read_module_in methods data known w =
  match read_header_part data with
  | Ok (s, v, g, b) => and_then (read_instructions_in methods (List.length (Stream_source s)) s known [] []) (fun is => pure (Ok (Build_RawModule v g b is))) w
  | Err e => (Err e, w)
  | Panic => (Panic, w)
  | OutOfFuel => (OutOfFuel, w)
  end.
Proof.
  intros data known w. unfold read_module_in, read_header_part.
  rewrite and_then_pure. destruct (stream_read_word (Build_Stream data true)) as [[s0 magic]|?| |]; cbn [bind]; try reflexivity.
  rewrite and_then_pure. destruct (check_magic magic s0) as [s1|?| |]; cbn [bind]; try reflexivity.
  rewrite and_then_pure. destruct (stream_read_word s1) as [[s2 vw]|?| |]; cbn [bind]; try reflexivity.
  rewrite and_then_pure. destruct (read_version vw) as [v|?| |]; cbn [bind]; try reflexivity.
  rewrite and_then_pure. destruct (check_version v) as [[]|?| |]; cbn [bind]; try reflexivity.
  rewrite and_then_pure. destruct (stream_read_word s2) as [[s3 gw]|?| |]; cbn [bind]; try reflexivity.
  rewrite and_then_pure. destruct (stream_read_word s3) as [[s4 b]|?| |]; cbn [bind]; try reflexivity.
  rewrite and_then_pure. destruct (stream_read_word s4) as [[s5 z]|?| |]; cbn [bind]; try reflexivity.
  destruct (N.eqb z 0); reflexivity.
Qed.

Lemma module_header : forall data (sets : list (ExtInstSet E)),
  read_module data sets = let! (s, v, g, b) := read_header_part data in let! is := loop s sets [] [] in Ok (Build_RawModule v g b is).
Proof.
  intros data sets. unfold read_module, read_header_part, loop.
  destruct (stream_read_word (Build_Stream data true)) as [[s0 magic]|?| |]; cbn [bind]; try reflexivity.
  destruct (check_magic magic s0) as [s1|?| |]; cbn [bind]; try reflexivity.
  destruct (stream_read_word s1) as [[s2 vw]|?| |]; cbn [bind]; try reflexivity.
  destruct (read_version vw) as [v|?| |]; cbn [bind]; try reflexivity.
  destruct (check_version v) as [[]|?| |]; cbn [bind]; try reflexivity.
  destruct (stream_read_word s2) as [[s3 gw]|?| |]; cbn [bind]; try reflexivity.
  destruct (stream_read_word s3) as [[s4 b]|?| |]; cbn [bind]; try reflexivity.
  destruct (stream_read_word s4) as [[s5 z]|?| |]; cbn [bind]; try reflexivity.
  destruct (N.eqb z 0); reflexivity.
Qed.

Lemma header_part_fine : forall data, fine (read_header_part data).
Proof.
  intro data. unfold read_header_part.
  apply fine_bind; [apply fine_bind; [apply stream_read_word_total|]; intros [s m] _; unfold check_magic; repeat destruct (N.eqb _ _); exact I|]. intros s1 _.
  apply fine_bind; [apply stream_read_word_total|]. intros [s2 vw] _.
  apply fine_bind; [apply read_version_total|]. intros v _. apply fine_bind; [apply check_version_total|]. intros _ _.
  apply fine_bind; [apply stream_read_word_total|]. intros [s3 gw] _. apply fine_bind; [apply stream_read_word_total|]. intros [s4 b] _.
  apply fine_bind; [apply stream_read_word_total|]. intros [s5 z] _. destruct (negb _); exact I.
Qed.

(* a header that is read is one *)
Lemma header_part_ok : forall data s v g b, read_header_part data = Ok (s, v, g, b) ->
  exists o h rest, data = h ++ rest /\ in_order o h /\ s = Build_Stream rest (le_of o) /\ header h (Build_RawModule (E := E) v g b []).
Proof.
  intros data s v g b H. unfold read_header_part in H. apply bind_ok in H. destruct H as (s1 & Hm & H).
  apply header_magic_inv in Hm. destruct Hm as (o & r1 & -> & ->).
  apply bind_ok in H. destruct H as ([s2 vw] & H2 & H). apply stream_read_word_inv in H2. destruct H2 as (Hvw & r2 & -> & ->).
  apply bind_ok in H. destruct H as (v' & Hv & H). apply bind_ok in H. destruct H as ([] & Hcv & H).
  apply bind_ok in H. destruct H as ([s3 gw] & H3 & H). apply stream_read_word_inv in H3. destruct H3 as (Hgw & r3 & -> & ->).
  apply bind_ok in H. destruct H as ([s4 b'] & H4 & H). apply stream_read_word_inv in H4. destruct H4 as (Hb & r4 & -> & ->).
  apply bind_ok in H. destruct H as ([s5 z] & H5 & H). apply stream_read_word_inv in H5. destruct H5 as (Hz & r5 & -> & ->).
  destruct (N.eqb_spec z 0) as [->|]; [|discriminate]. cbn [negb] in H. cbv zeta in H. rewrite head_low, (head_high gw Hgw) in H. injection H as <- <- <- <-.
  exists o, (bytes_of_words o (header_words vw gw b')), r5. split.
  { unfold header_words. rewrite !bytes_of_words_cons, <- !app_assoc. reflexivity. }
  split; [eexists; reflexivity|]. split; [reflexivity|].
  destruct (read_version_cases vw Hvw) as [[Ha Hv']|[_ Hv']]; rewrite Hv in Hv'; [|discriminate]. injection Hv' as ->.
  split; [|reflexivity]. apply read_exact. rewrite <- (app_nil_r (bytes_of_words o _)), read_header by assumption.
  reflexivity.
Qed.

Lemma header_part_complete : forall o h (m : RawModule E) rest, in_order o h -> header h m ->
  read_header_part (h ++ rest) = Ok (Build_Stream rest (le_of o), RawModule_version m, RawModule_generator m, RawModule_bound m).
Proof.
  intros o h m rest Ho [Hm Hn]. destruct Hm as (o' & v & g & ws & -> & Hw & Ha & Hv & Hg & Hwire). rewrite Hn in Hwire. inversion Hwire; subst.
  assert (o' = o) as -> by (eapply order_unique; [|exact Ho]; eexists; reflexivity). rewrite app_nil_r in *.
  inversion Hw as [|? ? Hvw Hw1]; subst. inversion Hw1 as [|? ? Hb _]; subst.
  destruct Hg as (Hgw & Hg1 & Hg2 & Hg3). assert (Hgword : word g) by (unfold word; lia).
  unfold read_header_part. rewrite bytes_of_words_cons, <- app_assoc, header_magic. cbn [bind].
  rewrite bytes_of_words_cons, <- app_assoc, stream_read_word_ok by exact Hvw. cbn [bind].
  rewrite (proj2 (version_ok v Hvw) Ha). cbn [bind check_version].
  rewrite bytes_of_words_cons, <- app_assoc, stream_read_word_ok by exact Hgword. cbn [bind].
  rewrite bytes_of_words_cons, <- app_assoc, stream_read_word_ok by exact Hb. cbn [bind].
  rewrite bytes_of_words_cons, <- app_assoc, stream_read_word_ok by reflexivity. cbn [bind N.eqb negb].
  change (bytes_of_words o [] ++ rest) with rest. rewrite head_low, (head_high g Hgword), Hv.
  replace (g / 65536) with (tool_number (Generator_tool (RawModule_generator m))) by lia.
  rewrite (tool_of_number _ Hg3). replace (g mod 65536) with (Generator_version (RawModule_generator m)) by lia.
  destruct (RawModule_generator m). reflexivity.
Qed.

Theorem module_exact : forall data known w r w',
  read_module_in methods data known w = (r, w') <-> exists calls, answered w calls w' /\ module_calls known data calls r.
Proof.
  assert (holds0 : holds [] []) by (split; [reflexivity|constructor]).
  intros data known w r w'. rewrite module_in_header. pose proof (header_part_fine data) as F. split.
  - intro H. destruct (read_header_part data) as [[[[s v] g] b]|e| |] eqn:Hp; try contradiction.
    + destruct (header_part_ok _ _ _ _ _ Hp) as (o & h & rest & -> & Ho & -> & Hh). unfold and_then in H. cbn [Stream_source] in H.
      destruct (read_instructions_in methods (List.length rest) (Build_Stream rest (le_of o)) known [] [] w) as [q w1] eqn:Hq.
      destruct (loop_calls _ _ _ _ [] _ _ _ _ _ (le_n _) holds0 Hq) as (calls & q' & Ha & Hi & ->).
      pose proof (calls_header known o h _ rest calls q' Ho Hh Hi) as M. cbn [RawModule_version RawModule_generator RawModule_bound] in M.
      exists calls. destruct q' as [is|?| |]; cbn [bind app pure] in *; injection H as <- <-; auto.
    + injection H as <- <-. exists []. split; [constructor|]. apply calls_bad_header.
      * intros h m rest -> Hh. assert (exists o, in_order o h) as (o & Ho).
        { destruct Hh as [(o & ? & ? & ? & -> & _) _]. exists o. eexists. reflexivity. }
        rewrite (header_part_complete o h m rest Ho Hh) in Hp. discriminate.
      * apply read_fails. rewrite module_header, Hp. reflexivity.
  - intros (calls & Ha & H). destruct H as [data e Hno Hf|o h m rest calls q Ho Hh Hi].
    + inversion Ha; subst. apply read_fails in Hf. rewrite module_header in Hf.
      destruct (read_header_part data) as [[[[s v] g] b]|e'| |] eqn:Hp; try contradiction.
      * destruct (header_part_ok _ _ _ _ _ Hp) as (o & h & rest & -> & _ & _ & Hh). exfalso. eapply Hno; [reflexivity|exact Hh].
      * cbn [bind] in Hf. injection Hf as ->. reflexivity.
    + rewrite (header_part_complete o h m rest Ho Hh). unfold and_then. cbn [Stream_source].
      rewrite (calls_loop _ _ _ _ _ _ Hi (List.length rest) [] [] w w' (le_n _) holds0 Ha).
      destruct q; reflexivity.
Qed.

(** ** Consequences *)

Lemma names_no_instructions : forall name known calls, other_names (E := E) name known calls -> asked_instructions calls = [].
Proof. intros name known calls H. induction H; [reflexivity|exact IHother_names]. Qed.

Lemma asked_app : forall (l1 l2 : list ev), asked_instructions (l1 ++ l2) = asked_instructions l1 ++ asked_instructions l2.
Proof. intros. apply flat_map_app. Qed.

Lemma instruction_asked : forall known copies op wc body calls copies' (i : Core E),
  instruction_calls known copies op wc body calls copies' (Ok i) ->
  asked_instructions calls = map (fun x => Ok ([], x)) (extended_of [i])
  /\ (imports_of [i] = [] -> extended_of [i] = [] -> calls = []).
Proof.
  intros known copies op wc body calls copies' i H. inversion H; subst.
  - destruct i; cbn in *; try congruence; auto.
  - rewrite asked_app. cbn [asked_instructions flat_map app]. erewrite names_no_instructions by eassumption.
    destruct (existsb (N.eqb id) (map fst copies)); [discriminate|]. destruct rest; [|discriminate].
    match goal with X : Ok _ = Ok i |- _ => injection X as <- end. cbn. split; [reflexivity|discriminate].
  - destruct answer as [[[|] x]|?| |]; cbn [accept] in *; try discriminate.
    match goal with X : Ok _ = Ok i |- _ => injection X as <- end. cbn. split; [reflexivity|]. intros _ X. discriminate X.
Qed.

Lemma instructions_asked : forall known o copies src calls (r : outcome ReadError (list (Core E))), instructions_calls known o copies src calls r ->
  forall is, r = Ok is -> asked_instructions calls = map (fun x => Ok ([], x)) (extended_of is)
    /\ (imports_of is = [] -> extended_of is = [] -> calls = []).
Proof.
  intros known o copies src calls r H.
  induction H as [copies|copies rest Hs|copies h rest Hw Hs|copies h body rest calls copies' r r' Hw Hb Hl Hi Hr
    |copies h body rest calls copies' i calls' r Hw Hb Hl Hi _ IH]; intros is Hr'; try discriminate.
  - injection Hr' as <-. auto.
  - destruct r; [contradiction|subst..]; discriminate.
  - destruct r as [is'|?| |]; try discriminate. cbn [bind] in Hr'. injection Hr' as <-.
    destruct (IH is' eq_refl) as [H1 H2]. apply instruction_asked in Hi. destruct Hi as [H3 H4].
    rewrite asked_app, H1, H3. change (i :: is') with ([i] ++ is'). unfold extended_of, imports_of. rewrite !flat_map_app, map_app.
    split; [reflexivity|]. intros X Y. apply app_eq_nil in X. apply app_eq_nil in Y. rewrite H4, H2 by tauto. reflexivity.
Qed.

Theorem module_asked : forall data known w m w', read_module_in methods data known w = (Ok m, w') ->
  exists calls, answered w calls w' /\ module_calls known data calls (Ok m)
    /\ asked_instructions calls = map (fun x => Ok ([], x)) (extended_of (RawModule_instructions m)).
Proof.
  intros data known w m w' H. apply module_exact in H. destruct H as (calls & Ha & H). exists calls. split; [exact Ha|]. split; [exact H|].
  inversion H as [|o h m0 rest calls0 r Ho Hh Hi]; subst. destruct r as [is|?| |]; try discriminate. cbn [bind] in *.
  match goal with X : Ok _ = Ok m |- _ => injection X as <- end. cbn [RawModule_instructions]. eapply instructions_asked; [exact Hi|reflexivity].
Qed.

Lemma unimported : forall known o copies src calls (r : outcome ReadError (list (Core E))), instructions_calls known o copies src calls r ->
  copies = [] -> forall is, r = Ok is -> imports_of is = [] -> extended_of is = [].
Proof.
  intros known o copies src calls r H.
  induction H as [copies|copies rest Hs|copies h rest Hw Hs|copies h body rest calls copies' r r' Hw Hb Hl Hi Hr
    |copies h body rest calls copies' i calls' r Hw Hb Hl Hi _ IH]; intros Hc is Hr' Hn; try discriminate.
  - injection Hr' as <-. reflexivity.
  - destruct r; [contradiction|subst..]; discriminate.
  - destruct r as [is'|?| |]; try discriminate. cbn [bind] in Hr'. injection Hr' as <-. subst copies.
    change (i :: is') with ([i] ++ is') in *. unfold imports_of in Hn. rewrite flat_map_app in Hn. apply app_eq_nil in Hn. destruct Hn as [Hn1 Hn2].
    unfold extended_of. rewrite flat_map_app. fold (@extended_of E is').
    inversion Hi; subst.
    + rewrite (IH eq_refl is' eq_refl Hn2), app_nil_r. destruct i; try reflexivity; cbn in *; congruence.
    + exfalso. cbn [map existsb] in *. destruct rest0; [|discriminate]. match goal with X : Ok _ = Ok i |- _ => injection X as <- end. discriminate.
    + match goal with X : In _ [] |- _ => destruct X end.
Qed.

Theorem module_untouched : forall data known w m w', read_module_in methods data known w = (Ok m, w') ->
  imports_of (RawModule_instructions m) = [] -> w' = w.
Proof.
  intros data known w m w' H Hn. apply module_exact in H. destruct H as (calls & Ha & H).
  inversion H as [|o h m0 rest calls0 r Ho Hh Hi]; subst. destruct r as [is|?| |]; try discriminate. cbn [bind] in *.
  match goal with X : Ok _ = Ok m |- _ => injection X as <- end. cbn [RawModule_instructions] in Hn.
  assert (X : extended_of is = []) by (eapply unimported; [exact Hi|reflexivity|reflexivity|exact Hn]).
  destruct (instructions_asked _ _ _ _ _ _ Hi is eq_refl) as [_ N]. rewrite (N Hn X) in Ha. inversion Ha. reflexivity.
Qed.

Lemma instruction_panic : forall known copies op wc body calls copies',
  instruction_calls (E := E) known copies op wc body calls copies' Panic -> exists calls0 c, calls = calls0 ++ [c] /\ panicked c.
Proof.
  intros known copies op wc body calls copies' H. inversion H; subst.
  - eexists _, _. split; [reflexivity|exact I].
  - eexists (_ ++ [_]), _. rewrite <- app_assoc. split; [reflexivity|exact I].
  - repeat match goal with X : context [if ?b then _ else _] |- _ => destruct b; try discriminate end.
    all: destruct rest; discriminate.
  - exists [], (AskInstruction copy number words answer). split; [reflexivity|]. destruct answer as [[[|] ?]|?| |]; cbn in *; try discriminate. exact I.
Qed.

Lemma instructions_panic : forall known o copies src calls (r : outcome ReadError (list (Core E))), instructions_calls known o copies src calls r ->
  r = Panic -> exists calls0 c, calls = calls0 ++ [c] /\ panicked c.
Proof.
  intros known o copies src calls r H.
  induction H as [copies|copies rest Hs|copies h rest Hw Hs|copies h body rest calls copies' r r' Hw Hb Hl Hi Hr
    |copies h body rest calls copies' i calls' r Hw Hb Hl Hi _ IH]; intro X; try discriminate.
  - destruct r; [contradiction|subst; try discriminate..]. eapply instruction_panic; exact Hi.
  - destruct r; try discriminate. destruct (IH eq_refl) as (l & c & -> & Hc). exists (calls ++ l), c. rewrite app_assoc. auto.
Qed.

Theorem module_panic : forall data known w w', read_module_in methods data known w = (Panic, w') ->
  exists calls c, answered w (calls ++ [c]) w' /\ panicked c.
Proof.
  intros data known w w' H. apply module_exact in H. destruct H as (calls & Ha & H).
  inversion H as [|o h m0 rest calls0 r Ho Hh Hi]; subst. destruct r as [is|?| |]; try discriminate.
  destruct (instructions_panic _ _ _ _ _ _ Hi eq_refl) as (l & c & -> & Hc). exists l, c. auto.
Qed.

(** ** Sets whose answers do not depend on the world *)

Section Stateless.
Context (name : Obj -> string) (copy : Obj -> Obj) (answer : Obj -> N -> list N -> outcome ReadError (list N * E)).
Context (Hname : forall s w, fst (call_get_name methods s w) = Some (name s)).
Context (Hcopy : forall s w, fst (call_duplicate methods s w) = Some (copy s)).
Context (Hanswer : forall s n ws w, fst (call_read_instruction methods s n ws w) = answer s n ws).
Definition as_set (s : Obj) : ExtInstSet E := Build_ExtInstSet (name s) (answer (copy s)).
Definition as_bound (b : bound_objects (Obj := Obj)) : bound_sets E := map (fun p => (fst p, answer (snd p))) b.

Lemma get_as_bound : forall b id, map_get id (as_bound b) = match map_get id b with Some c => Some (answer c) | None => None end.
Proof. induction b as [|[k v] b IH]; intro id; cbn; [reflexivity|]. destruct (N.eqb id k); [reflexivity|apply IH]. Qed.

Definition same_result (r : outcome ReadError (list N * Core E * bound_objects)) : outcome ReadError (list N * Core E * bound_sets E) :=
  let! (block, i, b) := r in Ok (block, i, as_bound b).

Lemma stateless_import : forall id nm block bound known w,
  same_result (fst (import_loop_in methods id nm block bound known w)) = import_loop id nm block (as_bound bound) (map as_set known).
Proof.
  intros id nm block bound known. induction known as [|s known IH]; intro w; cbn [import_loop_in import_loop map]; [reflexivity|].
  unfold and_then at 1, or_panic at 1. pose proof (Hname s w) as Hn. destruct (call_get_name methods s w) as [a w1]. cbn [fst] in Hn. subst a.
  cbn [as_set get_name]. destruct (String.eqb (name s) nm); [|apply IH].
  unfold and_then, or_panic. pose proof (Hcopy s w1) as Hc. destruct (call_duplicate methods s w1) as [a w2]. cbn [fst] in Hc. subst a.
  unfold map_insert. rewrite get_as_bound. destruct (map_get id bound); reflexivity.
Qed.

Lemma stateless_decode : forall op wc body bound known w,
  (let! (i, b) := fst (decode_in op wc body known bound w) in Ok (i, as_bound b)) = decode op wc body (map as_set known) (as_bound bound).
Proof.
  intros op wc body bound known w. destruct (N.eq_dec op 11) as [->|N11]; [|destruct (N.eq_dec op 12) as [->|N12]].
  - unfold decode_in, decode. cbn [dispatch_in]. change (dispatch (E := E) 11 wc) with (@Ok ReadError _ (read_core_OpExtInstImport (E := E))).
    cbn [bind]. unfold read_core_OpExtInstImport_in, read_core_OpExtInstImport. rewrite and_then_pure. unfold and_then at 1. rewrite and_then_pure.
    destruct (read_ResultId body) as [[block id]|?| |]; cbn [bind]; try reflexivity. rewrite and_then_pure.
    destruct (read_LitString block) as [[block' nm]|?| |]; cbn [bind]; try reflexivity.
    rewrite <- (stateless_import id nm block' bound known w). unfold same_result.
    destruct (import_loop_in methods id nm block' bound known w) as [[[[[|] i] b]|?| |] w1]; reflexivity.
  - unfold decode_in, decode. cbn [dispatch_in]. change (dispatch (E := E) 12 wc) with (@Ok ReadError _ (read_core_OpExtInst (E := E))).
    cbn [bind]. unfold read_core_OpExtInst_in, read_core_OpExtInst. rewrite and_then_pure. unfold and_then at 1. rewrite and_then_pure.
    destruct (read_OpId body) as [[b1 t]|?| |]; cbn [bind]; try reflexivity. rewrite and_then_pure.
    destruct (read_ResultId b1) as [[b2 id]|?| |]; cbn [bind]; try reflexivity. rewrite and_then_pure.
    destruct (read_OpId b2) as [[b3 set]|?| |]; cbn [bind]; try reflexivity. rewrite and_then_pure.
    destruct (read_u32 b3) as [[b4 n]|?| |]; cbn [bind]; try reflexivity. rewrite get_as_bound.
    destruct (map_get set bound) as [c|]; cbn [bind]; [|reflexivity]. unfold and_then. pose proof (Hanswer c n b4 w) as Ha.
    destruct (call_read_instruction methods c n b4 w) as [a w1]. cbn [fst] in Ha. subst a.
    destruct (answer c n b4) as [[[|] x]|?| |]; reflexivity.
  - rewrite decode_plain by assumption. cbn [fst]. unfold decode.
    destruct (dispatch op wc) as [f|?| |] eqn:Hd; cbn [bind]; try reflexivity.
    destruct (decoded_tracked _ _ _ Hd N11 N12) as (A & R & wrap & -> & _). unfold plain.
    destruct (R body) as [[[|] x]|?| |]; reflexivity.
Qed.

Lemma stateless_loop : forall n o src bound known acc w, (List.length src <= n)%nat ->
  fst (read_instructions_in methods n (Build_Stream src (le_of o)) known bound acc w)
  = loop (Build_Stream src (le_of o)) (map as_set known) (as_bound bound) acc.
Proof.
  induction n as [|n IH]; intros o src bound known acc w Hn.
  - destruct src; [reflexivity|cbn in Hn; lia].
  - destruct (chunks o src) as [->|[Hs|[(h & rest & Hw & -> & Hs)|(h & body & rest & Hw & Hb & Hl & ->)]]].
    + reflexivity.
    + rewrite partial_word by exact Hs. rewrite loop_unfold. destruct src as [|a [|b [|c [|d rest]]]]; cbn in Hs; try lia; reflexivity.
    + rewrite partial_instruction by assumption. rewrite loop_unfold, nonempty_end, read_instruction_decode, stream_read_word_ok by exact Hw.
      cbn [bind]. rewrite (head_high h Hw), words_short by lia. reflexivity.
    + cbn [read_instructions_in]. rewrite nonempty_end'. unfold and_then at 1. rewrite read_instruction_step by assumption. unfold and_then at 1.
      rewrite loop_next; [|assumption|assumption|lia]. rewrite <- (stateless_decode _ _ _ _ _ w).
      destruct (decode_in (h mod 65536) (h / 65536) body known bound w) as [[[i b]|?| |] w1]; cbn [fst bind]; try reflexivity.
      cbn [pure]. apply IH. rewrite bytes_of_words_cons, !app_length, bytes_of_word_length in Hn. lia.
Qed.

Theorem stateless_module : forall data known w, fst (read_module_in methods data known w) = read_module data (map as_set known).
Proof.
  intros data known w. rewrite module_in_header, module_header. destruct (read_header_part data) as [[[[s v] g] b]|e| |] eqn:Hp; cbn [bind]; try reflexivity.
  destruct (header_part_ok _ _ _ _ _ Hp) as (o & h & rest & _ & _ & -> & _). cbn [Stream_source]. unfold and_then.
  change (@nil (OpId * ExtReader E)) with (as_bound []). rewrite <- (stateless_loop (List.length rest) o rest [] known [] w (le_n _)).
  destruct (read_instructions_in methods (List.length rest) (Build_Stream rest (le_of o)) known [] [] w) as [[is|?| |] w1]; reflexivity.
Qed.
End Stateless.
End Calls.
