(** Readers of several operands: tactics, optional and repeated operands, decorations and
    execution modes. *)
From Coq Require Import ZArith ZifyBool ZifyNat ZifyN.
From Verif Require Import Base Types Ops ReadErr Utf8 ReadBase ReadOperands Spec_Wire Proofs_Utf8 Proofs_Operands.
Local Open Scope N_scope.

(** ** Readers of a trailing optional part: completeness only at the end of the block *)

Class Tail {A} (R : Reader A) (ops : A -> list operand) : Prop := {
  tail_sound : forall ws rest a, Forall word ws -> R ws = Ok (rest, a) ->
    exists pre, ws = pre ++ rest /\ wire_operands (ops a) pre;
  tail_complete : forall a ws, Forall word ws -> wire_operands (ops a) ws -> R ws = Ok ([], a);
  tail_total : forall ws, match R ws with Ok _ | Err _ => True | _ => False end
}.

(** ** Tactics *)

(* One read step of a successful read *)
Ltac sound_step H :=
  apply bind_ok in H; destruct H as ([? ?] & ?H1 & H);
  match goal with
  | H1 : ?R ?ws = Ok (?b, ?x), Hw : Forall word ?ws |- _ =>
      let pre := fresh "pre" in
      first
      [ apply (@good_sound _ R _ _ _) in H1; [|exact Hw]; destruct H1 as (pre & ? & ? & ?); subst ws
      | apply (@tail_sound _ R _ _) in H1; [|exact Hw]; destruct H1 as (pre & ? & ?); subst ws ];
      apply Forall_app in Hw; destruct Hw as [_ Hw]
  end.

Ltac wire_split :=
  repeat match goal with
  | |- wire_operands (_ ++ _) (_ ++ _) => apply wire_app_intro
  | |- wire_operands (?o :: ?os) (_ ++ _) =>
      lazymatch os with [] => fail | _ => change (o :: os) with ([o] ++ os); apply wire_app_intro end
  end.

Ltac finish_sound :=
  eexists; split; [rewrite ?app_assoc; reflexivity|];
  rewrite <- ?app_assoc.

(* Take a wire form of a concatenation apart *)
Ltac wire_inv :=
  repeat match goal with
  | H : wire_operands (_ ++ _) _ |- _ =>
      apply wire_operands_app in H; destruct H as (? & ? & ? & ? & H); subst
  | H : wire_operands (?o :: ?os) _ |- _ =>
      lazymatch os with [] => fail | _ => change (o :: os) with ([o] ++ os) in H end
  | H : wire_operands [] _ |- _ => cbn [wire_operands] in H; subst
  end.
Ltac words_inv :=
  repeat match goal with
  | H : Forall word (_ ++ _) |- _ => apply Forall_app in H; destruct H
  end.

Ltac complete_step :=
  match goal with
  | Hop : wire_operands _ ?pre, Hw : Forall word ?pre |- bind (?R (?pre ++ ?r)) _ = _ =>
      let E := fresh in
      eassert (E : R (pre ++ r) = Ok (r, _)) by
        (eapply (@good_complete _ R _ _ _); [exact Hw| |exact Hop]; first [exact I | assumption]);
      rewrite E; clear E; cbn [bind]
  | Hop : wire_operands _ ?pre, Hw : Forall word ?pre |- bind (?R ?pre) _ = _ =>
      let E := fresh in
      eassert (E : R pre = Ok ([], _)) by
        (eapply (@tail_complete _ R _ _); [exact Hw|exact Hop]);
      rewrite E; clear E; cbn [bind]
  end.

(* A cut off sequence [E : x1 ++ (x2 ++ ...) = p1 ++ p2] *)
Ltac short_step E :=
  match type of E with
  | ?x ++ ?y = ?p1 ++ ?p2 =>
      apply split_short in E; destruct E as [(?q & -> & E)|(?q & -> & ? & _)];
      [ complete_step | ]
  end.
Ltac short_stop :=
  match goal with
  | Hop : wire_operands _ (?p ++ ?q), Hw : Forall word (?p ++ ?q) |- bind (?R ?p) _ = _ =>
      let E := fresh in
      eassert (E : R p = Err UnexpectedEndOfInstruction) by
        (eapply (@good_short _ R _ _ _); [exact Hw| |exact Hop|assumption]; first [exact I | assumption]);
      rewrite E; reflexivity
  end.

Ltac total_step :=
  match goal with
  | |- match bind (?R ?ws) _ with _ => _ end =>
      let T := fresh in
      first [ pose proof (@good_total _ R _ _ _ ws) as T | pose proof (@tail_total _ R _ _ ws) as T ];
      destruct (R ws) as [[? ?]|?| |]; cbn [bind]; [clear T|exact I|exact T|exact T]
  end.

Ltac unfold_ops := cbv beta iota delta [operands required unary binary].
Ltac unfold_ops_in H := cbv beta iota delta [operands required unary binary] in H.

(** The whole class for a reader without dispatch *)
Ltac good_sound_tac R :=
  let ws := fresh "ws" in let rest := fresh "rest" in let a := fresh "a" in
  let Hw := fresh "Hw" in let H := fresh "H" in
  intros ws rest a Hw H; unfold R in H; repeat sound_step H;
  first [injection H as <- <- | destruct a; injection H as <-];
  first
  [ exists []; split; [reflexivity|]; split; [exact I|reflexivity]
  | finish_sound; split; [first [exact I | assumption]|]; unfold_ops; wire_split; eassumption ].
Ltac good_complete_tac R :=
  let a := fresh "a" in let pre := fresh "pre" in let rest := fresh "rest" in
  let Hw := fresh "Hw" in let H := fresh "H" in let Hwf := fresh "Hwf" in
  intros a pre rest Hw Hwf H; destruct a; unfold_ops_in H; wire_inv; words_inv; unfold R;
  rewrite <- ?app_assoc; repeat complete_step; reflexivity.
Ltac short_go E :=
  lazymatch type of E with
  | _ ++ _ = _ ++ _ => short_step E; [short_go E|short_stop]
  | ?x = _ ++ _ => subst x; short_stop
  end.
Ltac short_start p1 p2 Hw :=
  lazymatch goal with
  | E : p1 ++ p2 = [] |- _ => exfalso; apply app_eq_nil in E; destruct E; contradiction
  | E : p1 ++ p2 = _ |- _ => rewrite E in Hw; symmetry in E; words_inv; short_go E
  | _ => short_stop
  end.
Ltac good_short_tac R :=
  let a := fresh "a" in let p1 := fresh "p1" in let p2 := fresh "p2" in
  let Hw := fresh "Hw" in let H := fresh "H" in let Hwf := fresh "Hwf" in let Hne := fresh "Hne" in
  intros a p1 p2 Hw Hwf H Hne; destruct a; unfold_ops_in H;
  wire_inv; unfold R; short_start p1 p2 Hw.
Ltac good_total_tac R :=
  let ws := fresh "ws" in intro ws; unfold R; repeat total_step; exact I.
Ltac good R := split; [good_sound_tac R|good_complete_tac R|good_short_tac R|good_total_tac R].

#[export] Instance good_BranchWeights :
  Good read_BranchWeights any (fun w => num (BranchWeights_true_weight w) ++ num (BranchWeights_false_weight w)).
Proof. good read_BranchWeights. Qed.

#[export] Instance good_PhiArg :
  Good read_PhiArg any (fun a => num (PhiArg_variable a) ++ num (PhiArg_parent a)).
Proof. good read_PhiArg. Qed.

(** ** Dispatching readers *)

Ltac dispatch_sound R :=
  let ws := fresh "ws" in let rest := fresh "rest" in let a := fresh "a" in
  let Hw := fresh "Hw" in let H := fresh "H" in
  intros ws rest a Hw H; destruct ws as [|w ws]; [discriminate|];
  apply Forall_cons_iff in Hw; destruct Hw as [_ Hw];
  unfold R in H; cbn [read_word bind] in H;
  repeat (match type of H with context [match ?x with _ => _ end] => is_var x; destruct x; try discriminate H end);
  match type of H with ?l = Ok (rest, a) =>
  repeat sound_step H; injection H as <- <-;
  match goal with |- exists pre, ?w :: ?ws = _ /\ _ => change (w :: ws) with ([w] ++ ws) end;
  finish_sound; (split; [exact I|]);
  match goal with |- wire_operands (?f ?x) _ => unfold f end;
  wire_split; first [eassumption | apply wire_num; reflexivity ]
  end.

Ltac dispatch_complete R f nf :=
  let a := fresh "a" in let pre := fresh "pre" in let rest := fresh "rest" in
  let Hw := fresh "Hw" in let H := fresh "H" in
  intros a pre rest Hw _ H; destruct a; unfold f, nf in H; cbv beta iota in H; wire_inv; words_inv;
  match goal with H : wire_operands [OWord ?k] ?x |- _ => apply (wire_num k x) in H; subst x end;
  rewrite <- ?app_assoc; cbn [app];
  unfold R; cbn [read_word bind];
  repeat complete_step; reflexivity.

Ltac dispatch_short R f nf :=
  let a := fresh "a" in let p1 := fresh "p1" in let p2 := fresh "p2" in
  let Hw := fresh "Hw" in let H := fresh "H" in let Hne := fresh "Hne" in
  intros a p1 p2 Hw _ H Hne; destruct p1 as [|k p1]; [reflexivity|];
  destruct a; unfold f, nf in H; cbv beta iota in H; wire_inv;
  first
  [ match goal with H : wire_operands [OWord ?k] (?x :: ?p1 ++ ?p2) |- _ =>
      apply (wire_num k) in H; injection H as _ H; apply app_eq_nil in H; destruct H; contradiction end
  | match goal with H : wire_operands [OWord ?k] ((?x :: ?p1) ++ ?p2) |- _ =>
      apply (wire_num k) in H; injection H as _ H; apply app_eq_nil in H; destruct H; contradiction end
  | match goal with H : wire_operands [OWord ?k] ?x |- _ => apply (wire_num k x) in H; subst x end;
    match goal with E : (?h :: p1) ++ p2 = [?k] ++ _ |- _ =>
      injection E as -> E; apply Forall_cons_iff in Hw; destruct Hw as [_ Hw];
      fold (p1 ++ p2) in Hw;
      unfold R; cbn [read_word bind];
      first
      [ match type of E with p1 ++ p2 = ?y => is_var y; subst y; short_stop end
      | rewrite E in Hw; symmetry in E; words_inv; short_go E ]
    end ].

Ltac dispatch_total R :=
  let ws := fresh "ws" in intro ws; destruct ws as [|w ws]; [exact I|];
  unfold R; cbn [read_word bind]; split_word; repeat total_step; exact I.

#[export] Instance good_ExecutionMode : Good read_ExecutionMode any execution_mode_operands.
Proof.
  split.
  - dispatch_sound read_ExecutionMode.
  - dispatch_complete read_ExecutionMode execution_mode_operands execution_mode_number.
  - dispatch_short read_ExecutionMode execution_mode_operands execution_mode_number.
  - dispatch_total read_ExecutionMode.
Qed.
#[export] Instance good_Decoration : Good read_Decoration any decoration_operands.
Proof.
  split.
  - dispatch_sound read_Decoration.
  - dispatch_complete read_Decoration decoration_operands decoration_number.
  - dispatch_short read_Decoration decoration_operands decoration_number.
  - dispatch_total read_Decoration.
Qed.

(** ** Optional and repeated operands *)

Lemma tail_Option : forall {A} (R : Reader A) ops, Good R any ops ->
  (forall a, ~ wire_operands (ops a) []) -> Tail (read_Option R) (opt ops).
Proof.
  intros A R ops G Hne. split.
  - intros [|w ws] rest a Hw H; cbn [read_Option] in H.
    + injection H as <- <-. exists []. split; reflexivity.
    + unfold read_Option in H. apply bind_ok in H. destruct H as ([b x] & H1 & H). injection H as <- <-.
      apply good_sound in H1; [|assumption]. destruct H1 as (pre & E & _ & H1). exists pre. auto.
  - intros [a|] ws Hw H; cbn [opt] in H.
    + destruct ws as [|w ws]; [exfalso; exact (Hne a H)|]. unfold read_Option.
      pose proof (good_complete a (w :: ws) [] Hw I H) as E. rewrite app_nil_r in E. rewrite E. reflexivity.
    + cbn in H. subst. reflexivity.
  - intros [|w ws]; [exact I|]. unfold read_Option. pose proof (good_total (w :: ws)) as T.
    destruct (R (w :: ws)) as [[? ?]|?| |]; cbn [bind]; exact T.
Qed.

Lemma many_app : forall {A} (f : A -> list operand) l1 l2, many f (l1 ++ l2) = many f l1 ++ many f l2.
Proof. intros. unfold many. apply flat_map_app. Qed.

Section Vec.
Context {A : Type} (R : Reader A) (ops : A -> list operand) {G : Good R any ops}.
Hypothesis nonempty : forall a, ~ wire_operands (ops a) [].

Lemma read_items_sound : forall fuel ws items rest l, Forall word ws ->
  read_items fuel R ws items = Ok (rest, l) ->
  rest = [] /\ exists l', l = items ++ l' /\ wire_operands (many ops l') ws.
Proof.
  induction fuel as [|fuel IH]; intros [|w ws] items rest l Hw H; cbn [read_items] in H; try discriminate;
    try (injection H as <- <-; split; [reflexivity|]; exists []; rewrite app_nil_r; split; reflexivity).
  apply bind_ok in H. destruct H as ([b x] & H1 & H).
  apply good_sound in H1; [|assumption]. destruct H1 as (pre & E & _ & H1). rewrite E in *.
  apply Forall_app in Hw. destruct Hw as [_ Hw].
  apply IH in H; [|assumption]. destruct H as (-> & l' & -> & H). split; [reflexivity|].
  exists (x :: l'). rewrite <- app_assoc. split; [reflexivity|].
  cbn [many flat_map]. apply wire_app_intro; assumption.
Qed.

Lemma read_items_complete : forall l' ws fuel items, Forall word ws -> (List.length ws <= fuel)%nat ->
  wire_operands (many ops l') ws -> read_items fuel R ws items = Ok ([], items ++ l').
Proof.
  induction l' as [|a l' IH]; intros ws fuel items Hw Hf H.
  - cbn in H. subst. destruct fuel; cbn [read_items]; rewrite app_nil_r; reflexivity.
  - cbn [many flat_map] in H. apply wire_operands_app in H. destruct H as (w1 & w2 & -> & H1 & H2).
    destruct w1 as [|w w1]; [exfalso; exact (nonempty a H1)|].
    destruct fuel as [|fuel]; [cbn in Hf; lia|].
    pose proof Hw as Hw'. apply Forall_app in Hw'. destruct Hw' as [Hw1 Hw2].
    change (read_items (S fuel) R ((w :: w1) ++ w2) items)
      with (bind (R ((w :: w1) ++ w2)) (fun '(next_block, item) => read_items fuel R next_block (items ++ [item]))).
    rewrite (good_complete a (w :: w1) w2 Hw1 I H1). cbn [bind].
    rewrite IH; [rewrite <- app_assoc; reflexivity|assumption| |assumption].
    rewrite app_length in Hf. cbn in Hf. lia.
Qed.

Hypothesis progress : forall ws rest a, R ws = Ok (rest, a) -> (List.length rest < List.length ws)%nat.

Lemma read_items_total : forall fuel ws items, (List.length ws <= fuel)%nat ->
  match read_items fuel R ws items with Ok _ | Err _ => True | _ => False end.
Proof.
  induction fuel as [|fuel IH]; intros [|w ws] items Hf; cbn [read_items]; try exact I; [cbn in Hf; lia|].
  pose proof (good_total (w :: ws)) as T.
  destruct (R (w :: ws)) as [[b x]|?| |] eqn:H1; cbn [bind]; try exact T.
  apply IH. apply progress in H1. cbn in H1, Hf. lia.
Qed.

Lemma tail_Vec : forall size, 4 <= size -> Tail (read_Vec size R) (many ops).
Proof.
  intros size Hsize.
  assert (E : forall ws, read_Vec size R ws = read_items (List.length ws) R ws []).
  { intro ws. unfold read_Vec. destruct (N.eqb_spec (N.min 1 (size / 4)) 0) as [H|H]; [|reflexivity].
    assert (4 / 4 <= size / 4) by (apply N.div_le_mono; [discriminate|exact Hsize]). cbn in *. lia. }
  split.
  - intros ws rest l Hw H. rewrite E in H. apply read_items_sound in H; [|assumption].
    destruct H as (-> & l' & -> & H). exists ws. rewrite app_nil_r. auto.
  - intros l ws Hw H. rewrite E. apply (read_items_complete l ws _ []); try assumption. apply le_n.
  - intro ws. rewrite E. apply read_items_total. apply le_n.
Qed.
End Vec.

#[export] Instance tail_Option_OpId : Tail (read_Option read_OpId) (opt num).
Proof. apply (tail_Option read_OpId (fun n => num n)); [exact _|]. intros a H. apply wire_num in H. discriminate. Qed.
#[export] Instance tail_Option_LitString : Tail (read_Option read_LitString) (opt (fun s => [OStr s])).
Proof.
  apply (tail_Option read_LitString (fun s => [OStr s])); [exact _|]. intros s H. apply wire_one in H.
  destruct H as ((pad & _ & H) & _). cbn in H. destruct (bytes_of_string s); discriminate.
Qed.
#[export] Instance tail_Option_AccessQualifier :
  Tail (read_Option read_AccessQualifier) (opt (fun a => num (access_qualifier_number a))).
Proof. apply (tail_Option read_AccessQualifier); [exact _|]. intros a H. apply wire_num in H. discriminate. Qed.
#[export] Instance tail_Option_MemoryAccess : Tail (read_Option read_MemoryAccess) (opt memory_access_operand).
Proof. apply (tail_Option read_MemoryAccess); [exact _|]. intros a H. apply wire_flags in H. destruct H as (w & H & _). discriminate. Qed.
#[export] Instance tail_Option_BranchWeights :
  Tail (read_Option read_BranchWeights) (opt (fun w => num (BranchWeights_true_weight w) ++ num (BranchWeights_false_weight w))).
Proof.
  apply (tail_Option read_BranchWeights); [exact _|]. intros a H. apply wire_operands_app in H.
  destruct H as (w1 & w2 & H & H1 & _). apply wire_num in H1. subst. discriminate.
Qed.

#[export] Instance tail_Vec_u32 : Tail (read_Vec size_of_u32 read_u32) (many num).
Proof.
  apply (tail_Vec read_u32 (fun n => num n) (G := good_read_u32)); [| |discriminate].
  - intros a H. apply wire_num in H. discriminate.
  - intros [|w ws] rest a H; [discriminate|]. injection H as <- _. apply le_n.
Qed.
#[export] Instance tail_Vec_OpId : Tail (read_Vec size_of_OpId read_OpId) (many num).
Proof.
  apply (tail_Vec read_OpId (fun n => num n) (G := good_read_OpId)); [| |discriminate].
  - intros a H. apply wire_num in H. discriminate.
  - intros [|w ws] rest a H; [discriminate|]. injection H as <- _. apply le_n.
Qed.
#[export] Instance tail_Vec_PhiArg :
  Tail (read_Vec size_of_PhiArg read_PhiArg) (many (fun a => num (PhiArg_variable a) ++ num (PhiArg_parent a))).
Proof.
  apply (tail_Vec read_PhiArg _ (G := good_PhiArg)); [| |discriminate].
  - intros a H. apply wire_operands_app in H.
    destruct H as (w1 & w2 & H & H1 & _). apply wire_num in H1. subst. discriminate.
  - intros [|w [|w' ws]] rest a H; [discriminate|discriminate|]. injection H as <- _. cbn. lia.
Qed.
