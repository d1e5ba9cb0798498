(** Which bits of a module matter, C125. *)
From Coq Require Import Lia ZArith.
From Verif Require Import Base Types Ops ReadErr ExtSet Reader Glsl450 Spec_Wire Proofs_Operands Proofs_Stream Proofs_Reader Proofs_Facts2 Proofs_Glsl Proofs_CareBits Spec_Care Proofs_Care.
Local Open Scope N_scope.

(** ** Heads *)
Lemma head_agree : forall (op wc : N) (body k : list N) h, op < 65536 -> wc < 65536 -> List.length body = List.length k -> word h ->
  wc = 1 + N.of_nat (List.length body) \/ (wc = 0 /\ body = []) ->
  (N.land (op + 65536 * wc) (care_head k) = N.land h (care_head k)
   <-> exists wc', h = op + 65536 * wc' /\ (wc' = 1 + N.of_nat (List.length body) \/ (wc' = 0 /\ body = [])) /\ wc' < 65536).
Proof.
  intros op wc body k h O B L Hh C. destruct k as [|x k].
  - destruct body; [|discriminate L]. assert (WC : wc = 0 \/ wc = 1) by (destruct C as [->|[-> _]]; cbn; lia). cbn [care_head]. unfold word in *.
    rewrite head_small by assumption. split.
    + intros A. symmetry in A. destruct (head_word h op Hh O A) as [->| ->]; [exists 0|exists 1]; (split; [reflexivity|]); (split; [auto|reflexivity]).
    + intros (wc' & -> & A & _). symmetry. apply head_small; [exact O|]. destruct A as [->|[-> _]]; cbn; auto.
  - destruct body; [discriminate L|]. cbn [care_head]. rewrite !every_land; [|exact Hh|unfold word; lia]. split.
    + intros <-. exists wc. auto.
    + intros (wc' & -> & [->|[_ X]] & _); [|discriminate X]. destruct C as [->|[_ X]]; [reflexivity|discriminate X].
Qed.

(** ** Sequences *)
Section Sets.
Context {E : Type} (known : list (ExtInstSet E)).
Hypothesis APART : forall s, In s known -> tells_apart (duplicate s).
Lemma set_same : forall name r r', set_named known name r -> set_named known name r' -> r = r' /\ exists s, In s known /\ r = duplicate s.
Proof.
  intros name r r' (b & s & a & K & N & F & ->) (b' & s' & a' & K' & N' & F' & ->). split; [|exists s; split; [rewrite K; apply in_or_app; right; left; reflexivity|reflexivity]].
  rewrite K in K'. clear K APART. subst name. revert b' F' K'. induction b as [|x b IH]; intros [|x' b'] F' K'; cbn in K'.
  - injection K' as -> _. reflexivity.
  - injection K' as -> _. inversion F'; subst. contradiction.
  - injection K' as <- _. inversion F; subst. contradiction.
  - injection K' as <- K'. inversion F as [|? ? _ F1]; inversion F' as [|? ? _ F1']; subst. exact (IH F1 b' F1' K').
Qed.
Lemma body_agree : forall earlier (i : Core E) body sizes, Forall word body ->
  (forall name name' id, In (Core_OpExtInstImport (Build_OpExtInstImport id name)) earlier -> In (Core_OpExtInstImport (Build_OpExtInstImport id name')) earlier -> name = name') ->
  wire_instruction known earlier i body -> (match i with Core_OpExtInst _ => List.length body = 4 + hd 0 sizes | _ => True end)%nat ->
  forall body', Forall word body' -> (wire_instruction known earlier i body' <-> agree (care_body i sizes) body body').
Proof.
  intros earlier i body sizes W U H L body' W'.
  assert (X : (exists op, i = Core_OpExtInst op) \/ (exists op, i = Core_OpExtInstImport op)
    \/ ((forall b, wire_instruction known earlier i b <-> representable i /\ wire_operands (operands i) b) /\ care_body i sizes = care_operands (operands i))).
  { destruct i; try (right; right; split; [intros b; reflexivity|reflexivity]); [right; left|left]; eexists; reflexivity. }
  destruct X as [[op ->]|[[op ->]|[X Y]]].
  - cbn [wire_instruction] in *. cbn [care_body]. rewrite <- L, every_agree by assumption. destruct H as (n & rest & r & B & I & R). split.
    + intros (n' & rest' & r' & B' & I' & R'). destruct I as (name & I & S), I' as (name' & I' & S').
      rewrite (U _ _ _ I' I) in S'. destruct (set_same _ _ _ S S') as [<- (s & Is & ->)]. destruct (APART s Is _ _ _ _ _ R R') as [-> ->]. congruence.
    + intros <-. exists n, rest, r. auto.
  - cbn [wire_instruction] in *. destruct H as (H & K & F). change (care_body (Core_OpExtInstImport op) sizes) with (care_operands (operands (E := E) (Core_OpExtInstImport op))).
    rewrite <- (operands_agree _ body body' W W' H). tauto.
  - rewrite Y. apply X in H as [Rp H]. rewrite X, <- (operands_agree _ body body' W W' H). tauto.
Qed.

Definition import_names (earlier : list (Core E)) : Prop := forall name name' id,
  In (Core_OpExtInstImport (Build_OpExtInstImport id name)) earlier -> In (Core_OpExtInstImport (Build_OpExtInstImport id name')) earlier -> name = name'.
Lemma names_step : forall earlier i body, import_names earlier -> wire_instruction known earlier i body -> import_names (earlier ++ [i]).
Proof.
  intros earlier i body U H n n' id A A'. apply in_app_iff in A, A'. destruct A as [A|[A|[]]], A' as [A'|[A'|[]]].
  - exact (U _ _ _ A A').
  - subst i. destruct H as (_ & _ & F). contradiction (F n).
  - subst i. destruct H as (_ & _ & F). contradiction (F n').
  - rewrite A in A'. injection A' as ->. reflexivity.
Qed.
Lemma instructions_agree : forall is earlier ws, Forall word ws -> import_names earlier -> wire_instructions known earlier is ws ->
  exists sizes, forall ws', Forall word ws' -> (wire_instructions known earlier is ws' <-> agree (care_instructions is sizes) ws ws').
Proof.
  induction is as [|i is IH]; intros earlier ws W U H.
  - exists []. inversion H; subst. intros ws' W'. cbn. destruct ws'; split; intros X; try exact I; try constructor; [inversion X|contradiction X].
  - inversion H as [|? ? ? wc body rest Hi Hwc Hlt Hr]; subst. clear H. inversion W as [|? ? Wh W1]; subst. apply Forall_app in W1 as [Wb Wr].
    destruct (IH _ _ Wr (names_step _ _ _ U Hi) Hr) as [sizes S].
    set (sizes' := match i with Core_OpExtInst _ => (List.length body - 4)%nat :: sizes | _ => sizes end).
    assert (L : (match i with Core_OpExtInst _ => List.length body = 4 + hd 0 sizes' | _ => True end)%nat).
    { destruct i; try exact I. subst sizes'. cbn [hd]. destruct Hi as (n & r & x & -> & _). cbn. lia. }
    assert (T : match i with Core_OpExtInst _ => tl sizes' | _ => sizes' end = sizes) by (destruct i; reflexivity). clearbody sizes'.
    pose proof (body_agree earlier i body sizes' Wb U Hi L) as BA.
    pose proof (proj1 (agree_length _ _ _ (proj1 (BA body Wb) Hi))) as Lb.
    exists sizes'. intros ws' W'. cbn [care_instructions]. cbv zeta. rewrite T. split.
    + intros H. inversion H as [|? ? ? wc' body' rest' Hi' Hwc' Hlt' Hr']; subst. inversion W' as [|? ? Wh' W1']; subst. apply Forall_app in W1' as [Wb' Wr'].
      apply BA in Hi'; [|exact Wb']. pose proof (proj2 (agree_length _ _ _ Hi')) as Lb'. cbn [agree]. split.
      * apply (head_agree _ _ body); [apply opcode_small|assumption..|]. exists wc'. split; [reflexivity|]. split; [|exact Hlt'].
        destruct Hwc' as [->|[-> ->]]; [left; congruence|right]. split; [reflexivity|]. destruct body; [reflexivity|rewrite <- Lb' in Lb; discriminate Lb].
      * apply agree_app; [assumption..|]. split; [exact Hi'|]. apply S; assumption.
    + intros A. destruct ws' as [|h ws']; [contradiction A|]. cbn [agree] in A. destruct A as [A1 A2]. inversion W' as [|? ? Wh' W1']; subst.
      apply (head_agree _ _ body) in A1; [|apply opcode_small|assumption..]. destruct A1 as (wc' & -> & Hwc' & Hlt').
      apply agree_split in A2 as (b1 & b2 & -> & L1 & A3 & A4); [|exact Lb]. apply Forall_app in W1' as [Wb' Wr'].
      constructor; [apply BA; assumption| |assumption|apply S; assumption].
      destruct Hwc' as [->|[-> ->]]; [left; congruence|right]. split; [reflexivity|]. destruct b1; [reflexivity|]; cbn [List.length] in L1, Lb; lia.
Qed.

End Sets.

(** ** Modules *)
Lemma generator_same : forall g w w', generator_word g w -> generator_word g w' -> w = w'.
Proof. intros g w w' [-> _] [-> _]. reflexivity. Qed.
Lemma generator_small : forall g w, generator_word g w -> word w.
Proof. intros g w (-> & A & B & _). unfold word. lia. Qed.
Lemma magic_word : word magic_number.
Proof. reflexivity. Qed.

Theorem care_exact : forall E (known : list (ExtInstSet E)), (forall s, In s known -> tells_apart (duplicate s)) ->
  forall data m, read_module data known = Ok m ->
  exists sizes order ws, data = bytes_of_words order ws /\ Forall word ws
    /\ forall data', read_module data' known = Ok m
         <-> exists order' ws', data' = bytes_of_words order' ws' /\ Forall word ws' /\ agree (care_module m sizes) ws ws'.
Proof.
  intros E known A data m H. apply read_exact in H. destruct H as (o & v & g & ws & -> & W & V & Vm & G & I).
  inversion W as [|? ? Wv W1]; subst. inversion W1 as [|? ? Wb Ws]; subst. clear W W1.
  destruct (instructions_agree known A (RawModule_instructions m) [] ws Ws) as [sizes S]; [intros n n' id []|exact I|].
  exists sizes, o, ([magic_number; v; g; RawModule_bound m; 0] ++ ws). split; [reflexivity|].
  pose proof (generator_small _ _ G) as Wg. split; [repeat (constructor; [first [assumption|apply magic_word|reflexivity]|]); exact Ws|].
  intros data'. rewrite read_exact. unfold care_module. cbn [app agree]. split.
  - intros (o' & v' & g' & ws' & -> & W' & V' & _ & G' & I'). inversion W' as [|? ? Wv' W1]; subst. inversion W1 as [|? ? _ Ws']; subst.
    exists o', ([magic_number; v'; g'; RawModule_bound m; 0] ++ ws'). split; [reflexivity|].
    pose proof (generator_small _ _ G') as Wg'. split; [repeat (constructor; [first [assumption|apply magic_word|reflexivity]|]); exact Ws'|].
    cbn [app]. split; [reflexivity|]. split; [apply version_agree; assumption|]. split; [rewrite (generator_same _ _ _ G G'); reflexivity|]. split; [reflexivity|]. split; [reflexivity|].
    apply S; assumption.
  - intros (o' & ws' & -> & W' & Q). destruct ws' as [|w0 [|w1 [|w2 [|w3 [|w4 ws']]]]]; try (cbn [agree app] in Q; tauto).
    repeat match goal with H : Forall _ (_ :: _) |- _ => inversion H; clear H; subst end.
    destruct Q as (Q0 & Q1 & Q2 & Q3 & Q4 & Q5). rewrite !every_land in Q0, Q2, Q3, Q4; try assumption; try reflexivity. subst w0 w2 w3 w4.
    exists o', w1, g, ws'. split; [reflexivity|]. split; [repeat (constructor; [assumption|]); assumption|]. split; [apply (version_agree v w1); assumption|]. split; [exact Vm|]. split; [exact G|]. apply S; assumption.
Qed.

Lemma glsl_read : forall n w i, duplicate InstSet n w = Ok ([], i) ->
  exists x, w = [x] /\ ((n = 13 /\ i = Inst_Sin (Build_Sin x)) \/ (n = 14 /\ i = Inst_Cos (Build_Cos x))).
Proof.
  intros n w i H. assert (D : n = 13 \/ n = 14 \/ (n <> 13 /\ n <> 14)) by lia. rewrite glsl_reader in H. destruct D as [->|[->|[A B]]].
  - destruct w as [|x w]; [discriminate H|]. injection H as -> <-. exists x. auto.
  - destruct w as [|x w]; [discriminate H|]. injection H as -> <-. exists x. auto.
  - destruct n as [|p]; [discriminate H|]. do 4 (destruct p as [p|p|]; try discriminate H); contradiction.
Qed.
Lemma glsl_apart : tells_apart (duplicate InstSet).
Proof.
  intros n w n' w' i H H'. apply glsl_read in H as (x & -> & [[-> ->]|[-> ->]]); apply glsl_read in H' as (x' & -> & [[-> Q]|[-> Q]]); try discriminate Q; injection Q as ->; auto.
Qed.
Theorem care_built_in : forall data m, read_module data [InstSet] = Ok m ->
  exists sizes order ws, data = bytes_of_words order ws /\ Forall word ws
    /\ forall data', read_module data' [InstSet] = Ok m
         <-> exists order' ws', data' = bytes_of_words order' ws' /\ Forall word ws' /\ agree (care_module m sizes) ws ws'.
Proof. apply care_exact. intros s [<-|[]]. exact glsl_apart. Qed.
