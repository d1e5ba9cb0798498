(** What read_module does with the instruction after an accepted module. *)
From Coq Require Import ZArith ZifyBool ZifyNat ZifyN.
From Verif Require Import Base Types Ops ReadErr Utf8 ReadBase ReadOperands ExtSet ReadOps Reader Spec_Wire Spec_Opcodes
  Proofs_Utf8 Proofs_Operands Proofs_Composite Proofs_Ops Proofs_Instr Proofs_Stream Proofs_Errors Proofs_Reader Proofs_Encode.
Local Open Scope N_scope.
Ltac Zify.zify_post_hook ::= Z.div_mod_to_equations.

Section Next.
Context {E : Type}.
Implicit Types (known : list (ExtInstSet E)) (earlier : list (Core E)) (bound : bound_sets E) (m : RawModule E).

(** ** The next instruction *)

Lemma loop_next : forall o h body rest known bound acc, word h -> Forall word body ->
  List.length body = N.to_nat (h / 65536 - 1) ->
  loop (Build_Stream (bytes_of_words o (h :: body) ++ rest) (le_of o)) known bound acc =
  let! (i, b) := decode (h mod 65536) (h / 65536) body known bound in
  loop (Build_Stream rest (le_of o)) known b (acc ++ [i]).
Proof.
  intros o h body rest known bound acc Hh Hb Hl. rewrite loop_unfold.
  assert (Hne : stream_is_end (Build_Stream (bytes_of_words o (h :: body) ++ rest) (le_of o)) = false).
  { rewrite bytes_of_words_cons. destruct (bytes_of_word_form o h) as (? & ? & ? & ? & ->). reflexivity. }
  rewrite Hne, read_instruction_decode, bytes_of_words_cons, <- app_assoc, stream_read_word_ok by exact Hh.
  cbn [bind]. rewrite head_low, (head_high h Hh), <- Hl, (read_words_ok o body rest Hb). cbn [bind].
  destruct (decode (h mod 65536) (h / 65536) body known bound) as [[i b]|?| |]; reflexivity.
Qed.

Lemma read_next : forall o data known m, in_order o data -> read_module data known = Ok m ->
  exists bound, bound_inv known (RawModule_instructions m) bound /\
  forall h body rest, word h -> Forall word body -> List.length body = N.to_nat (h / 65536 - 1) ->
  read_module (data ++ bytes_of_words o (h :: body) ++ rest) known =
  let! (i, b) := decode (h mod 65536) (h / 65536) body known bound in
  let! l := loop (Build_Stream rest (le_of o)) known b (RawModule_instructions m ++ [i]) in Ok (with_instructions m l).
Proof.
  intros o data known m Ho H. destruct (read_continue _ _ _ _ Ho H) as (bound & Hi & Hx). exists bound. split; [exact Hi|].
  intros h body rest Hh Hb Hl. rewrite Hx, loop_next by assumption.
  destruct (decode (h mod 65536) (h / 65536) body known bound) as [[i b]|?| |]; reflexivity.
Qed.

Definition fits (body : list N) : Prop := Forall word body /\ 1 + N.of_nat (List.length body) < 65536.

Lemma read_next_words : forall o data known m, in_order o data -> read_module data known = Ok m ->
  exists bound, bound_inv known (RawModule_instructions m) bound /\
  forall op body rest, op < 65536 -> Forall word body -> 1 + N.of_nat (List.length body) < 65536 ->
  read_module (data ++ bytes_of_words o (instruction_words op body) ++ rest) known =
  let! (i, b) := decode op (1 + N.of_nat (List.length body)) body known bound in
  let! l := loop (Build_Stream rest (le_of o)) known b (RawModule_instructions m ++ [i]) in Ok (with_instructions m l).
Proof.
  intros o data known m Ho H. destruct (read_next _ _ _ _ Ho H) as (bound & Hi & Hx). exists bound. split; [exact Hi|].
  intros op body rest Hop Hb Hl. unfold instruction_words.
  rewrite Hx; [|unfold word; lia|exact Hb|lia].
  replace ((op + 65536 * (1 + N.of_nat (List.length body))) mod 65536) with op by lia.
  replace ((op + 65536 * (1 + N.of_nat (List.length body))) / 65536) with (1 + N.of_nat (List.length body)) by lia.
  reflexivity.
Qed.

(** ** Opcodes (C10, C23) *)

Lemma find_in : forall n (l : list (N * string)), ~ In n (map fst l) -> find (fun p => N.eqb (fst p) n) l = None.
Proof.
  intros n l H. induction l as [|[k v] l IH]; [reflexivity|]. cbn [find fst map In] in *.
  destruct (N.eqb_spec k n) as [->|_]; [exfalso; apply H; left; reflexivity|]. apply IH. tauto.
Qed.

Lemma support_large : forall n, 320 < n -> opcode_support n = Unknown.
Proof.
  intros n Hn. unfold opcode_support, opcode_name. rewrite find_in; [reflexivity|].
  assert (F : Forall (fun k => k <= 320) (map fst opcode_names)).
  { apply Forall_forall. intros k Hk. apply N.leb_le. revert k Hk. apply Forall_forall.
    assert (C : forallb (fun k => k <=? 320) (map fst opcode_names) = true) by (vm_compute; reflexivity).
    apply Forall_forall. rewrite forallb_forall in C. exact C. }
  intro Hin. rewrite Forall_forall in F. apply F in Hin. lia.
Qed.

Definition agrees (n wc : N) : Prop :=
  match opcode_support n with
  | Decoded _ => exists f, @dispatch E n wc = Ok f
  | Unimplemented name => @dispatch E n wc = Err (UnimplementedOp name)
  | Unknown => @dispatch E n wc = Err (UnknownOp n wc)
  end.

Lemma dispatch_large : forall n wc, 320 < n -> @dispatch E n wc = Err (UnknownOp n wc).
Proof.
  intros n wc Hn. unfold dispatch.
  repeat match goal with
  | |- _ = Err (UnknownOp ?x _) => progress (destruct n as [|n]; try lia)
  end.
  repeat (match goal with |- match ?p with _ => _ end = _ => is_var p; destruct p; try lia; try reflexivity end).
Qed.

Lemma dispatch_support : forall n wc, agrees n wc.
Proof.
  intros n wc. unfold agrees. destruct (N.le_gt_cases n 320) as [H|H].
  - assert (F : Forall (fun n => match opcode_support n with
      | Decoded _ => exists f, @dispatch E n wc = Ok f
      | Unimplemented name => @dispatch E n wc = Err (UnimplementedOp name)
      | Unknown => @dispatch E n wc = Err (UnknownOp n wc) end) (map N.of_nat (seq 0 321))).
    { cbv [seq map N.of_nat Pos.of_succ_nat Pos.succ].
      repeat (apply Forall_cons; [match goal with |- context [opcode_support ?n] =>
         let s := eval vm_compute in (opcode_support n) in
         replace (opcode_support n) with s by (vm_compute; reflexivity) end; first [reflexivity|eexists; reflexivity]|]).
      apply Forall_nil. }
    rewrite Forall_forall in F. apply F. apply in_map_iff. exists (N.to_nat n). split; [lia|]. apply in_seq. lia.
  - rewrite (support_large n H). apply dispatch_large. exact H.
Qed.

Definition next_result m i : outcome ReadError (RawModule E) := Ok (with_instructions m (RawModule_instructions m ++ [i])).

Lemma loop_end : forall le known bound acc, loop (Build_Stream [] le) known bound acc = Ok acc.
Proof. intros. rewrite loop_unfold. reflexivity. Qed.

Lemma decode_err : forall op wc body known bound, @dispatch E op wc = Err (UnknownOp op wc) ->
  decode op wc body known bound = Err (UnknownOp op wc).
Proof. intros op wc body known bound H. unfold decode. rewrite H. reflexivity. Qed.

Lemma next_unknown : forall o data known m op body rest, in_order o data -> read_module data known = Ok m ->
  op < 65536 -> Forall word body -> 1 + N.of_nat (List.length body) < 65536 -> opcode_support op = Unknown ->
  read_module (data ++ bytes_of_words o (instruction_words op body) ++ rest) known
    = Err (UnknownOp op (1 + N.of_nat (List.length body))).
Proof.
  intros o data known m op body rest Ho H Hop Hb Hl Hs. destruct (read_next_words _ _ _ _ Ho H) as (bound & _ & Hx).
  rewrite Hx by assumption. pose proof (dispatch_support op (1 + N.of_nat (List.length body))) as A.
  unfold agrees in A. rewrite Hs in A. unfold decode. rewrite A. reflexivity.
Qed.

Lemma next_unimplemented : forall o data known m op body rest name, in_order o data -> read_module data known = Ok m ->
  op < 65536 -> Forall word body -> 1 + N.of_nat (List.length body) < 65536 -> opcode_support op = Unimplemented name ->
  read_module (data ++ bytes_of_words o (instruction_words op body) ++ rest) known = Err (UnimplementedOp name).
Proof.
  intros o data known m op body rest name Ho H Hop Hb Hl Hs. destruct (read_next_words _ _ _ _ Ho H) as (bound & _ & Hx).
  rewrite Hx by assumption. pose proof (dispatch_support op (1 + N.of_nat (List.length body))) as A.
  unfold agrees in A. rewrite Hs in A. unfold decode. rewrite A. reflexivity.
Qed.

Lemma decode_errs : forall op wc body known bound name, opcode_support op = Decoded name -> op <> 12 ->
  errs (fun e => match e with UnknownOp _ _ | UnimplementedOp _ => False | _ => True end) (decode op wc body known bound).
Proof.
  intros op wc body known bound name Hs Hop. pose proof (dispatch_support op wc) as A. unfold agrees in A. rewrite Hs in A.
  destruct A as (f & A). unfold decode. rewrite A. cbn [bind].
  assert (W : errs (fun e => match e with UnknownOp _ _ | UnimplementedOp _ => False | _ => True end) (f body known bound)).
  { pose proof (dispatch_clean _ _ _ A) as C.
    assert (K : op = 11 \/ plain_clean f) by tauto. clear C. destruct K as [->|C].
    - injection A as <-. pose proof (import_clean body known bound) as C. destruct (read_core_OpExtInstImport body known bound) as [?|e| |]; try exact I.
      destruct C as [C|[(n & ->)|(r & ->)]]; [destruct e; exact I || destruct C|exact I|exact I].
    - specialize (C body known bound). destruct (f body known bound) as [?|e| |]; try exact I.
      destruct e; exact I || destruct C. }
  apply errs_bind; [exact W|]. intros [[b i] bd]. destruct b; exact I.
Qed.

Lemma next_decoded : forall o data known m op body name, in_order o data -> read_module data known = Ok m ->
  op < 65536 -> Forall word body -> 1 + N.of_nat (List.length body) < 65536 -> opcode_support op = Decoded name ->
  match read_module (data ++ bytes_of_words o (instruction_words op body)) known with
  | Ok m' => same_header m m' /\ exists i, RawModule_instructions m' = RawModule_instructions m ++ [i] /\ opcode i = op
  | Err (UnknownOp _ _) | Err (UnimplementedOp _) => op = 12
  | _ => True
  end.
Proof.
  intros o data known m op body name Ho H Hop Hb Hl Hs. destruct (read_next_words _ _ _ _ Ho H) as (bound & Hi & Hx).
  specialize (Hx op body [] Hop Hb Hl). rewrite app_nil_r in Hx. rewrite Hx.
  destruct (decode op _ body known bound) as [[i b]|e| |] eqn:Hd; cbn [bind]; try exact I.
  - rewrite loop_end. cbn [bind with_instructions RawModule_instructions]. split; [repeat split|]. exists i. split; [reflexivity|].
    eapply decode_sound; eassumption.
  - destruct (N.eq_dec op 12) as [->|Hne]; [destruct e; auto|].
    pose proof (decode_errs op (1 + N.of_nat (List.length body)) body known bound name Hs Hne) as W.
    rewrite Hd in W. destruct e; exact I || destruct W.
Qed.

(** ** Excess and missing operands (C11) *)

Lemma option_excess : forall {A} (R : Reader A) ops (G : Good R any ops) a ws rest, Forall word ws ->
  (forall a, ~ wire_operands (ops a) []) -> wire_operands (ops a) ws -> read_Option R (ws ++ rest) = Ok (rest, Some a).
Proof.
  intros A R ops G a ws rest Hw Hne H. destruct ws as [|w ws]; [exfalso; exact (Hne a H)|].
  pose proof (good_complete a (w :: ws) rest Hw I H) as Eq. cbn [app] in *. unfold read_Option. rewrite Eq. reflexivity.
Qed.

Lemma string_words : forall s, ~ wire_operands [OStr s] [].
Proof. intros s H. apply wire_one in H. destruct H as ((pad & _ & H) & _). cbn in H. destruct (bytes_of_string s); discriminate. Qed.
Lemma num_words : forall n, ~ wire_operands (num n) [].
Proof. intros n H. apply wire_num in H. discriminate. Qed.
Lemma flags_words : forall v ig, ~ wire_operands [OFlags v ig] [].
Proof. intros v ig H. apply wire_flags in H. destruct H as (w & H & _). discriminate. Qed.
Lemma two_words : forall a b, ~ wire_operands (num a ++ num b) [].
Proof.
  intros a b H. apply wire_operands_app in H. destruct H as (w1 & w2 & H & H1 & _). apply wire_num in H1. subst. discriminate.
Qed.

Ltac excess_last :=
  match goal with
  | Hop : wire_operands (opt _ (Some ?a)) ?pre, Hw : Forall word ?pre |- bind (read_Option ?R (?pre ++ ?r)) _ = _ =>
      let Eq := fresh in
      assert (Eq : read_Option R (pre ++ r) = Ok (r, Some a)) by
        (eapply (option_excess R _ _); [exact Hw| |exact Hop]; intro;
         first [apply num_words | apply string_words | apply flags_words | apply two_words]);
      rewrite Eq; clear Eq; cbn [bind]
  end.

Lemma reader_complete_excess : forall known bound (i : Core E) body extra, Forall word body -> representable i ->
  complete i -> not_import i -> wire_operands (operands i) body ->
  reader_of i (body ++ extra) known bound = Ok (extra, i, bound).
Proof.
  intros known bound i body extra Hw Hr Hc Hni H.
  assert (D : ~ open_ended i \/ (open_ended i /\ complete i)) by (destruct i; (left; exact Hc) || (right; split; [exact Logic.I|exact Hc])).
  destruct D as [D|[D _]]; [apply reader_excess; assumption|].
  assert (P : forall {A} (R : Reader A) (wrap : A -> Core E) a, R (body ++ extra) = Ok (extra, a) ->
    plain R wrap (body ++ extra) known bound = Ok (extra, wrap a, bound)).
  { intros A R wrap a Eq. unfold plain. rewrite Eq. reflexivity. }
  destruct i; try (destruct D; fail); try (exfalso; apply Hc; exact Logic.I); cbn [reader_of complete] in *; apply P.
  - destruct o as [language version file source]. destruct source as [s|]; [|exfalso; apply Hc; reflexivity].
    destruct Hr as [_ [Hr Hlang]]. cbn in Hr, Hlang. destruct file as [f|]; [|discriminate (Hr eq_refl)].
    unfold_ops_in H. wire_inv. words_inv. unfold read_OpSource. rewrite <- ?app_assoc.
    complete_step. complete_step. excess_last. excess_last. reflexivity.
  - destruct o as [r ty dim depth arrayed ms sampled format access]. destruct access as [a|]; [|exfalso; apply Hc; reflexivity].
    unfold_ops_in H. wire_inv. words_inv. unfold read_OpTypeImage. rewrite <- ?app_assoc.
    do 8 complete_step. excess_last. reflexivity.
  - destruct o as [t r class init]. destruct init as [a|]; [|exfalso; apply Hc; reflexivity].
    unfold_ops_in H. wire_inv. words_inv. unfold read_OpVariable. rewrite <- ?app_assoc.
    do 3 complete_step. excess_last. reflexivity.
  - destruct o as [t r p access]. destruct access as [a|]; [|exfalso; apply Hc; reflexivity].
    unfold_ops_in H. wire_inv. words_inv. unfold read_OpLoad. rewrite <- ?app_assoc.
    do 3 complete_step. excess_last. reflexivity.
  - destruct o as [p ob access]. destruct access as [a|]; [|exfalso; apply Hc; reflexivity].
    unfold_ops_in H. wire_inv. words_inv. unfold read_OpStore. rewrite <- ?app_assoc.
    do 2 complete_step. excess_last. reflexivity.
  - destruct o as [c t f w]. destruct w as [a|]; [|exfalso; apply Hc; reflexivity].
    unfold_ops_in H. wire_inv. words_inv. unfold read_OpBranchConditional. rewrite <- ?app_assoc.
    do 3 complete_step. excess_last. reflexivity.
Qed.

Lemma import_excess : forall known earlier bound id name body extra, bound_inv known earlier bound -> Forall word body ->
  wire_instruction known earlier (Core_OpExtInstImport (Build_OpExtInstImport id name)) body ->
  exists b, read_core_OpExtInstImport (body ++ extra) known bound
    = Ok (extra, Core_OpExtInstImport (Build_OpExtInstImport id name), b).
Proof.
  intros known earlier bound id name body extra Hi Hw (H & (r & Hs) & Hn). cbn in Hs, Hn.
  unfold_ops_in H. wire_inv. words_inv. exists ((id, r) :: bound). unfold read_core_OpExtInstImport. rewrite <- ?app_assoc.
  do 2 complete_step. apply (import_loop_complete known id name extra bound r Hs).
  apply (bound_inv_none _ _ _ _ Hi). exact Hn.
Qed.

Lemma decode_excess : forall known earlier bound (i : Core E) wc body extra, bound_inv known earlier bound ->
  Forall word body -> wire_instruction known earlier i body -> complete i -> extra <> [] ->
  decode (opcode i) wc (body ++ extra) known bound = Err InstructionHadExcessData.
Proof.
  intros known earlier bound i wc body extra Hi Hw H Hc Hne. unfold decode.
  rewrite (dispatch_opcode i) by (eapply wire_readable; eassumption). cbn [bind].
  assert (G : exists b, reader_of i (body ++ extra) known bound = Ok (extra, i, b)).
  { destruct i as [| | | | | | | | |op|op| | | | | | | | | | | | | | | | | | | | | | | | | | | | | | | | | | | | | | | | | | | | | | | | | | | | | | | | | | | | | | | | | | | | | | | | | | | | | | | | | | | | | | |];
    try (exists bound; apply reader_complete_excess; [exact Hw|apply H|exact Hc|exact Logic.I|apply H]).
    - destruct op as [id name]. eapply import_excess; eassumption.
    - exfalso. apply Hc. exact Logic.I. }
  destruct G as (b & ->). cbn [bind]. destruct extra; [contradiction|reflexivity].
Qed.

Lemma next_excess : forall o data known m i body extra rest, in_order o data -> read_module data known = Ok m ->
  wire_instruction known (RawModule_instructions m) i body -> complete i -> extra <> [] ->
  Forall word (body ++ extra) -> 1 + N.of_nat (List.length (body ++ extra)) < 65536 ->
  read_module (data ++ bytes_of_words o (instruction_words (opcode i) (body ++ extra)) ++ rest) known
    = Err InstructionHadExcessData.
Proof.
  intros o data known m i body extra rest Ho H Hwi Hc Hne Hw Hl. destruct (read_next_words _ _ _ _ Ho H) as (bound & Hi & Hx).
  rewrite Hx by (assumption || apply opcode_small).
  rewrite (decode_excess _ _ _ _ _ _ _ Hi (proj1 (proj1 (Forall_app _ _ _) Hw)) Hwi Hc Hne). reflexivity.
Qed.

(* extended instructions: the set did not use all words *)
Lemma next_ext_excess : forall o data known m t r set number words left x rd rest, in_order o data -> read_module data known = Ok m ->
  imported known (RawModule_instructions m) set rd -> rd number words = Ok (left, x) -> left <> [] ->
  Forall word (t :: r :: set :: number :: words) -> 5 + N.of_nat (List.length words) < 65536 ->
  read_module (data ++ bytes_of_words o (instruction_words 12 (t :: r :: set :: number :: words)) ++ rest) known
    = Err InstructionHadExcessData.
Proof.
  intros o data known m t r set number words left x rd rest Ho H Hi Hr Hne Hw Hl.
  destruct (read_next_words _ _ _ _ Ho H) as (bound & Hb & Hx).
  rewrite Hx; [|reflexivity|exact Hw|cbn [List.length]; lia].
  unfold decode. change (dispatch 12 _) with (@Ok ReadError _ (@read_core_OpExtInst E)). cbn [bind].
  unfold read_core_OpExtInst. cbn [read_OpId read_ResultId read_u32 read_word bind].
  rewrite (bound_inv_get _ _ _ _ _ Hb Hi), Hr. cbn [bind]. destruct left; [contradiction|reflexivity].
Qed.

Lemma next_short : forall o data known m (i : Core E) p1 p2 rest, in_order o data -> read_module data known = Ok m ->
  representable i -> wire_operands (required i) (p1 ++ p2) -> p2 <> [] ->
  Forall word (p1 ++ p2) -> 1 + N.of_nat (List.length p1) < 65536 ->
  read_module (data ++ bytes_of_words o (instruction_words (opcode i) p1) ++ rest) known = Err UnexpectedEndOfInstruction.
Proof.
  intros o data known m i p1 p2 rest Ho H Hr Hwi Hne Hw Hl. destruct (read_next_words _ _ _ _ Ho H) as (bound & Hi & Hx).
  rewrite Hx by (assumption || apply opcode_small || exact (proj1 (proj1 (Forall_app _ _ _) Hw))).
  unfold decode. rewrite (dispatch_opcode i) by apply Hr. cbn [bind].
  rewrite (reader_short known bound i p1 p2) by assumption. reflexivity.
Qed.

(* what an instruction is decoded to does not depend on what follows it *)
Lemma next_local : forall o data known m op body, in_order o data -> read_module data known = Ok m ->
  op < 65536 -> Forall word body -> 1 + N.of_nat (List.length body) < 65536 ->
  match read_module (data ++ bytes_of_words o (instruction_words op body)) known with
  | Ok m1 => exists i, RawModule_instructions m1 = RawModule_instructions m ++ [i] /\ opcode i = op /\
      wire_instruction known (RawModule_instructions m) i body /\
      forall rest m2, read_module (data ++ bytes_of_words o (instruction_words op body) ++ rest) known = Ok m2 ->
      same_header m m2 /\ exists l, RawModule_instructions m2 = RawModule_instructions m ++ i :: l
  | failure => forall rest, read_module (data ++ bytes_of_words o (instruction_words op body) ++ rest) known = failure
  end.
Proof.
  intros o data known m op body Ho H Hop Hb Hl. destruct (read_next_words _ _ _ _ Ho H) as (bound & Hi & Hx).
  pose proof (Hx op body [] Hop Hb Hl) as H0. rewrite app_nil_r in H0. rewrite H0. clear H0.
  destruct (decode op _ body known bound) as [[i b]|e| |] eqn:Hd; cbn [bind].
  - rewrite loop_end. cbn [bind with_instructions RawModule_instructions]. exists i. split; [reflexivity|].
    destruct (decode_sound _ _ _ _ _ _ _ _ Hi Hb Hd) as (Hop' & Hwi & _). split; [exact Hop'|]. split; [exact Hwi|].
    intros rest m2 H2. rewrite (Hx op body rest Hop Hb Hl), Hd in H2. cbn [bind] in H2.
    apply bind_ok in H2. destruct H2 as (l & H2 & H3). apply Ok_inj in H3. subst m2. split; [repeat split|].
    apply loop_prefix in H2. destruct H2 as (l' & ->). exists l'. cbn. rewrite <- app_assoc. reflexivity.
  - intro rest. rewrite (Hx op body rest Hop Hb Hl), Hd. reflexivity.
  - intro rest. rewrite (Hx op body rest Hop Hb Hl), Hd. reflexivity.
  - intro rest. rewrite (Hx op body rest Hop Hb Hl), Hd. reflexivity.
Qed.

End Next.
