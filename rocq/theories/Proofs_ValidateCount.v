(** Lemmas for C98: how often validation looks at an instruction. *)
From Verif Require Import Base Types Ops Groups Validate ValidateStack ValidateCount Spec_Stack Spec_ValidateCount Proofs_Stack.

Section Counts.
Context {E : Type}.
Notation slice := (OpSlice (E := E)).

(** ** Binding *)
Lemma looked_ok : forall {A B} (X : looked A) (Y : A -> looked B) v, fst X = Ok v -> looked_bind X Y = (fst (Y v), snd X + snd (Y v)).
Proof. intros A B [x n] Y v H. cbn [fst] in H. subst x. cbn [looked_bind snd]. destruct (Y v). reflexivity. Qed.
Lemma looked_fst : forall {A B} (X : looked A) (Y : A -> looked B) x y, fst X = x -> (forall v, x = Ok v -> fst (Y v) = y v) ->
  fst (looked_bind X Y) = bind x y.
Proof.
  intros A B [x n] Y x' y H F. cbn [fst] in H. subst x'. destruct x as [v|e| |]; try reflexivity. cbn [looked_bind bind].
  specialize (F v eq_refl). destruct (Y v). exact F.
Qed.
Lemma looked_no : forall {A B} (X : looked A) (Y : A -> looked B), (forall v, fst X <> Ok v) -> snd (looked_bind X Y) = snd X.
Proof. intros A B [x n] Y H. destruct x as [v|e| |]; try reflexivity. exfalso. exact (H v eq_refl). Qed.

(** ** Lists *)
Section Many.
Context {T : Type} (f : Phase (E := E) T) (fc : PhaseCounted (E := E) T) (looks : T -> nat) (last : slice -> nat).

Record count_ok : Prop := {
  count_fst : forall s, fst (fc s) = f s;
  count_item : forall s item next, f s = Ok (PhaseOk item next) ->
    snd (fc s) = looks item /\ looks item + 2 * get_remaining next <= 2 * get_remaining s /\ get_remaining next < get_remaining s;
  count_next : forall s next, f s = Ok (PhaseNext next) -> next = s /\ snd (fc s) = last s;
  count_not : forall s, (forall r, f s <> Ok r) -> snd (fc s) <= 2 * get_remaining s + 2 }.

Hypothesis P : count_ok.

Lemma rest_fst : forall fuel s out, fst (read_rest_counted fuel s fc out) = read_rest fuel s f out.
Proof.
  induction fuel as [|fuel IH]; intros s out; cbn [read_rest_counted read_rest]; apply looked_fst; try apply (count_fst P); intros [item next|next] _; try reflexivity.
  apply IH.
Qed.
Lemma many_fst : forall s, fst (read_many_counted s fc) = read_many s f.
Proof. intros s. apply rest_fst. Qed.

Lemma rest_items : forall fuel s out items s', read_rest fuel s f out = Ok (items, s') ->
  exists read, items = out ++ read /\ f s' = Ok (PhaseNext s') /\
    snd (read_rest_counted fuel s fc out) = list_sum (map looks read) + last s' /\
    list_sum (map looks read) + 2 * get_remaining s' <= 2 * get_remaining s.
Proof.
  induction fuel as [|fuel IH]; intros s out items s' H; cbn [read_rest read_rest_counted] in *;
    destruct (f s) as [[item next|next]|e| |] eqn:F; cbn [bind] in H; try discriminate;
    (assert (FC : fst (fc s) = f s) by apply (count_fst P)); rewrite F in FC; rewrite (looked_ok _ _ _ FC); cbn [snd unlooked].
  - injection H as <- <-. destruct (count_next P _ _ F) as [-> L]. exists []. rewrite app_nil_r, L. cbn. repeat split; try exact F; lia.
  - destruct (count_item P _ _ _ F) as (L & B & _). destruct (IH _ _ _ _ H) as (read & -> & N & C & D). exists (item :: read).
    rewrite <- app_assoc, C, L. cbn [map list_sum fold_right app]. change (fold_right Nat.add 0) with list_sum. repeat split; try exact N; lia.
  - injection H as <- <-. destruct (count_next P _ _ F) as [-> L]. exists []. rewrite app_nil_r, L. cbn. repeat split; try exact F; lia.
Qed.
Lemma many_items : forall s items s', read_many s f = Ok (items, s') ->
  f s' = Ok (PhaseNext s') /\ snd (read_many_counted s fc) = list_sum (map looks items) + last s' /\
  list_sum (map looks items) + 2 * get_remaining s' <= 2 * get_remaining s.
Proof. intros s items s' H. destruct (rest_items _ _ _ _ _ H) as (read & -> & X). exact X. Qed.

Lemma rest_not : forall fuel s out, get_remaining s <= fuel -> (forall r, read_rest fuel s f out <> Ok r) ->
  snd (read_rest_counted fuel s fc out) <= 2 * get_remaining s + 2.
Proof.
  induction fuel as [|fuel IH]; intros s out L H; cbn [read_rest read_rest_counted] in *;
    (assert (FC : fst (fc s) = f s) by apply (count_fst P)); destruct (f s) as [[item next|next]|e| |] eqn:F; cbn [bind] in H;
    try (rewrite looked_no by (intros v; rewrite FC; discriminate); apply (count_not P); intros r; rewrite F; discriminate);
    try (exfalso; exact (H _ eq_refl)).
  - destruct (count_item P _ _ _ F) as (_ & _ & D). lia.
  - rewrite (looked_ok _ _ _ FC). cbn [snd]. destruct (count_item P _ _ _ F) as (-> & B & D). specialize (IH next (out ++ [item]) ltac:(lia) H). lia.
Qed.
Lemma many_not : forall s, (forall r, read_many s f <> Ok r) -> snd (read_many_counted s fc) <= 2 * get_remaining s + 2.
Proof. intros s. apply rest_not. lia. Qed.

Lemma many_start : forall s items s', read_many s f = Ok (items, s') ->
  match items with [] => f s = Ok (PhaseNext s) | item :: _ => exists next, f s = Ok (PhaseOk item next) end.
Proof.
  intros s items s'. unfold read_many. generalize (get_remaining s). intros fuel.
  assert (G : forall fuel s out, read_rest fuel s f out = Ok (items, s') ->
    exists read, items = out ++ read /\ match read with [] => f s = Ok (PhaseNext s) | item :: _ => exists next, f s = Ok (PhaseOk item next) end).
  { clear s fuel. induction fuel as [|fuel IH]; intros s out H; cbn [read_rest] in H; destruct (f s) as [[item next|next]|e| |] eqn:F; cbn [bind] in H; try discriminate.
    - injection H as <- <-. destruct (count_next P _ _ F) as [-> _]. exists []. rewrite app_nil_r. auto.
    - apply IH in H as (read & -> & _). exists (item :: read). rewrite <- app_assoc. eauto.
    - injection H as <- <-. destruct (count_next P _ _ F) as [-> _]. exists []. rewrite app_nil_r. auto. }
  intros H. destruct (G _ _ _ H) as (read & -> & X). exact X.
Qed.
End Many.
Arguments many_fst {T f fc looks last}.
Arguments many_items {T f fc looks last}.
Arguments many_not {T f fc looks last}.
Arguments many_start {T f fc looks last}.

(** ** The phases *)
Definition once {T} (_ : T) : nat := 1.
Definition one_look (_ : slice) : nat := 1.
Lemma sum_once : forall {T} (l : list T), list_sum (map once l) = length l.
Proof. intros T l. induction l as [|x l IH]; [reflexivity|]. cbn [map list_sum fold_right length]. change (fold_right Nat.add 0) with list_sum. rewrite IH. reflexivity. Qed.

Lemma one_count : forall {T} (pick : OpByBlock E -> option T), count_ok (one pick) (one_counted pick) once one_look.
Proof.
  intros T pick. split.
  - intros s. unfold one_counted, one, first_counted. cbn [looked_bind]. destruct (first s) as [o|]; [|reflexivity]. destruct (pick o); [|reflexivity].
    unfold advance_counted, unlooked. destruct (advance s); reflexivity.
  - intros s item next. unfold one, one_counted, first_counted. cbn [looked_bind]. destruct (first s) as [o|]; [|discriminate]. destruct (pick o); [|discriminate].
    unfold advance_counted, unlooked. destruct (advance s) as [s'|e| |] eqn:A; cbn [bind]; try discriminate. intros [= _ <-]. apply advance_less in A.
    unfold once. cbn. repeat split; lia.
  - intros s next. unfold one, one_counted, first_counted. cbn [looked_bind]. destruct (first s) as [o|]; [destruct (pick o)|].
    + destruct (advance s); cbn [bind]; discriminate.
    + intros [= <-]. auto.
    + intros [= <-]. auto.
  - intros s H. unfold one, one_counted, first_counted in *. cbn [looked_bind]. destruct (first s) as [o|]; [destruct (pick o)|]; cbn; try lia.
    unfold advance_counted, unlooked. destruct (advance s); cbn; lia.
Qed.

(** What a list of single instructions costs. *)
Lemma plain_items : forall {T} (pick : OpByBlock E -> option T) s items s', read_many s (one pick) = Ok (items, s') ->
  snd (read_many_counted s (one_counted pick)) = list_looks items /\ length items + 2 * get_remaining s' <= 2 * get_remaining s.
Proof. intros T pick s items s' H. destruct (many_items (one_count pick) _ _ _ H) as (_ & A & B). rewrite sum_once in A, B. auto. Qed.

(** The looks of the first lines of a function. *)
Definition head_last (s : slice) : nat :=
  if get_remaining s <? 2 then 0 else
  match first s with
  | Some (OpByBlock_OpFunction _) =>
      match advance s with
      | Ok s => match read_many s read_function_parameter with Ok (params, _) => head_looks params | _ => 0 end
      | _ => 0
      end
  | _ => 0
  end.

Lemma looked_first : forall {B} (s : slice) (Y : _ -> looked B), looked_bind (first_counted s) Y = (fst (Y (first s)), S (snd (Y (first s)))).
Proof. intros B s Y. exact (looked_ok (first_counted s) Y _ eq_refl). Qed.
Lemma looked_advance : forall {B} (s s' : slice) (Y : _ -> looked B), advance s = Ok s' -> looked_bind (advance_counted s) Y = Y s'.
Proof. intros B s s' Y H. unfold advance_counted, unlooked. rewrite H. cbn [looked_bind]. destruct (Y s'). reflexivity. Qed.
Ltac step := rewrite looked_first; cbn [fst snd].

Lemma params_total : forall s : slice, exists items s', read_many s read_function_parameter = Ok (items, s').
Proof.
  intros s. unfold read_many. assert (G : forall fuel (s : slice) out, get_remaining s <= fuel -> exists items s', read_rest fuel s read_function_parameter out = Ok (items, s')).
  { clear s. induction fuel as [|fuel IH]; intros s out L; cbn [read_rest].
    - unfold read_function_parameter, one. destruct (first s) as [o|] eqn:F; [|cbn [bind]; eauto].
      exfalso. unfold first, get_remaining in *. destruct (index s <? length (insts s)) eqn:K; [apply Nat.ltb_lt in K; lia|discriminate].
    - destruct (read_function_parameter s) as [[item next|next]|e| |] eqn:F; cbn [bind]; try eauto.
      + apply IH. destruct (count_item _ _ _ _ (one_count _) _ _ _ F) as (_ & _ & D). lia.
      + exfalso. unfold read_function_parameter, one in F. destruct (first s) as [o|]; [|discriminate]. destruct (match o with OpByBlock_OpFunctionParameter op => Some op | _ => None end); [|discriminate]. destruct (advance s) eqn:A; try discriminate. unfold advance in A. destruct (index s <? _); discriminate.
      + exfalso. unfold read_function_parameter, one in F. destruct (first s) as [o|] eqn:G; [|discriminate]. destruct (match o with OpByBlock_OpFunctionParameter op => Some op | _ => None end); [|discriminate]. destruct (advance s) eqn:A; try discriminate. unfold first in G. unfold advance in A. destruct (index s <? _); discriminate.
      + exfalso. unfold read_function_parameter, one in F. destruct (first s) as [o|]; [|discriminate]. destruct (match o with OpByBlock_OpFunctionParameter op => Some op | _ => None end); [|discriminate]. destruct (advance s) eqn:A; try discriminate. unfold advance in A. destruct (index s <? _); discriminate. }
  apply G. lia.
Qed.
Lemma first_advance : forall (s : slice) o, first s = Some o -> exists s', advance s = Ok s'.
Proof. intros s o. unfold first, advance. destruct (index s <? length (insts s)); [eauto|discriminate]. Qed.

Lemma decl_count : count_ok read_function_declaration read_function_declaration_counted (fun d => head_looks (FunctionDeclaration_parameters d)) head_last.
Proof.
  split.
  - intros s. unfold read_function_declaration_counted, read_function_declaration. destruct (get_remaining s <? 2); [reflexivity|].
    step. destruct (first s) as [o|]; [|reflexivity]. destruct o; try reflexivity.
    apply looked_fst; [reflexivity|]. intros s1 _. apply looked_fst; [apply (many_fst (one_count _))|]. intros [params s2] _.
    step. destruct (first s2) as [[]|]; try reflexivity. apply looked_fst; reflexivity.
  - intros s item next. unfold read_function_declaration_counted, read_function_declaration. destruct (get_remaining s <? 2); [discriminate|].
    step. destruct (first s) as [[]|]; try discriminate. destruct (advance s) as [s1|e| |] eqn:A; cbn [bind]; try discriminate.
    rewrite (looked_advance _ _ _ A).
    destruct (read_many s1 _) as [[params s2]|e| |] eqn:M; cbn [bind]; try discriminate.
    pose proof (many_fst (one_count _) s1 : fst (read_many_counted s1 read_function_parameter_counted) = read_many s1 read_function_parameter) as MF. rewrite M in MF.
    rewrite (looked_ok _ _ _ MF). destruct (plain_items _ _ _ _ M) as [C D].
    change (snd (read_many_counted s1 read_function_parameter_counted) = list_looks params) in C.
    step. destruct (first s2) as [[]|]; try discriminate. destruct (advance s2) as [s3|e| |] eqn:A2; cbn [bind]; try discriminate.
    rewrite (looked_advance _ _ _ A2). cbn [snd unlooked]. rewrite C.
    intros [= <- <-]. apply advance_less in A, A2. cbn [FunctionDeclaration_parameters]. unfold head_looks, list_looks. repeat split; lia.
  - intros s next. unfold read_function_declaration_counted, read_function_declaration, head_last. destruct (get_remaining s <? 2); [intros [= <-]; auto|].
    step. destruct (first s) as [[]|]; try discriminate. destruct (advance s) as [s1|e| |] eqn:A; cbn [bind]; try discriminate.
    rewrite (looked_advance _ _ _ A).
    destruct (read_many s1 _) as [[params s2]|e| |] eqn:M; cbn [bind]; try discriminate.
    pose proof (many_fst (one_count _) s1 : fst (read_many_counted s1 read_function_parameter_counted) = read_many s1 read_function_parameter) as MF. rewrite M in MF.
    rewrite (looked_ok _ _ _ MF). destruct (plain_items _ _ _ _ M) as [C D].
    change (snd (read_many_counted s1 read_function_parameter_counted) = list_looks params) in C. rewrite C.
    step. destruct (first s2) as [[]|]; try (destruct (advance s2); discriminate); intros [= <-]; split; try reflexivity; unfold head_looks; cbn; lia.
  - intros s H. unfold read_function_declaration_counted, read_function_declaration in *. destruct (get_remaining s <? 2); [cbn; lia|].
    step. destruct (first s) as [o|] eqn:F; [|cbn; lia]. destruct o; try (cbn; lia). exfalso.
    destruct (first_advance _ _ F) as [s1 A]. rewrite A in H. cbn [bind] in H. destruct (params_total s1) as (params & s2 & M). rewrite M in H. cbn [bind] in H.
    destruct (first s2) as [[]|] eqn:F2; try exact (H _ eq_refl). destruct (first_advance _ _ F2) as [s3 A3]. rewrite A3 in H. exact (H _ eq_refl).
Qed.
Lemma head_last_bound : forall s, head_last s <= get_remaining s + 2.
Proof.
  intros s. unfold head_last. destruct (get_remaining s <? 2); [lia|]. destruct (first s) as [[]|]; try lia.
  destruct (advance s) as [s1|e| |] eqn:A; try lia. destruct (read_many s1 _) as [[params s2]|e| |] eqn:M; try lia.
  apply advance_less in A. unfold head_looks, list_looks.
  assert (G : length params <= get_remaining s1); [|lia]. clear -M.
  destruct (params_total s1) as (p & s' & M'). rewrite M in M'. injection M' as <- <-. revert M. unfold read_many.
  assert (G : forall fuel (s : slice) out items s', read_rest fuel s read_function_parameter out = Ok (items, s') -> length items + get_remaining s' <= length out + get_remaining s).
  { induction fuel as [|fuel IH]; intros s out items s' H; cbn [read_rest] in H; destruct (read_function_parameter s) as [[item next|next]|e| |] eqn:F; cbn [bind] in H; try discriminate.
    - injection H as <- <-. destruct (count_next _ _ _ _ (one_count _) _ _ F) as [-> _]. lia.
    - apply IH in H. rewrite app_length in H. cbn [length] in H. destruct (count_item _ _ _ _ (one_count _) _ _ _ F) as (_ & _ & D). lia.
    - injection H as <- <-. destruct (count_next _ _ _ _ (one_count _) _ _ F) as [-> _]. lia. }
  intros M. apply G in M. cbn [length] in M. lia.
Qed.

Lemma merge_count : forall s : slice, fst (read_merge_counted s) = read_merge s /\ snd (read_merge_counted s) = 1 /\
  forall m s', read_merge s = Ok (m, s') -> get_remaining s' <= get_remaining s.
Proof.
  intros s. unfold read_merge_counted, read_merge. rewrite looked_first. cbn [fst snd].
  destruct (first s) as [o|] eqn:F; [destruct o|]; try (split; [reflexivity|]; split; [reflexivity|]; intros m s' [= <- <-]; lia).
  destruct (first_advance _ _ F) as [s1 A]. rewrite (looked_advance _ _ _ A), A. cbn [bind fst snd unlooked].
  split; [reflexivity|]. split; [reflexivity|]. intros m s' [= <- <-]. apply advance_less in A. lia.
Qed.
Lemma branch_count : forall s : slice, fst (read_branch_counted s) = read_branch s /\ snd (read_branch_counted s) = 1 /\
  forall b s', read_branch s = Ok (b, s') -> S (get_remaining s') = get_remaining s.
Proof.
  intros s. unfold read_branch_counted, read_branch. rewrite looked_first. cbn [fst snd].
  destruct (first s) as [o|] eqn:F; [destruct o|]; try (split; [reflexivity|]; split; [reflexivity|]; intros; discriminate).
  destruct (first_advance _ _ F) as [s1 A]. rewrite (looked_advance _ _ _ A), A. cbn [bind fst snd unlooked].
  split; [reflexivity|]. split; [reflexivity|]. intros m s' [= <- <-]. exact (advance_less _ _ A).
Qed.
Lemma code_fst : forall s : slice, fst (read_many_counted s read_code_counted) = read_many s read_code.
Proof. exact (many_fst (one_count _)). Qed.
Lemma params_fst : forall s : slice, fst (read_many_counted s read_function_parameter_counted) = read_many s read_function_parameter.
Proof. exact (many_fst (one_count _)). Qed.
Lemma code_items : forall (s : slice) items s', read_many s read_code = Ok (items, s') ->
  snd (read_many_counted s read_code_counted) = list_looks items /\ length items + 2 * get_remaining s' <= 2 * get_remaining s.
Proof. exact (plain_items _). Qed.
Lemma params_items : forall (s : slice) items s', read_many s read_function_parameter = Ok (items, s') ->
  snd (read_many_counted s read_function_parameter_counted) = list_looks items /\ length items + 2 * get_remaining s' <= 2 * get_remaining s.
Proof. exact (plain_items _). Qed.
Lemma code_not : forall s : slice, (forall r, read_many s read_code <> Ok r) -> snd (read_many_counted s read_code_counted) <= 2 * get_remaining s + 2.
Proof. exact (many_not (one_count _)). Qed.

Lemma block_count : count_ok read_basic_block read_basic_block_counted block_looks one_look.
Proof.
  split.
  - intros s. unfold read_basic_block_counted, read_basic_block. step. destruct (first s) as [[]|]; try reflexivity.
    apply looked_fst; [reflexivity|]. intros s1 _. apply looked_fst; [apply code_fst|]. intros [code s2] _.
    apply looked_fst; [apply merge_count|]. intros [m s3] _. apply looked_fst; [apply branch_count|]. intros [b s4] _. reflexivity.
  - intros s item next. unfold read_basic_block_counted, read_basic_block. step. destruct (first s) as [[]|]; try discriminate.
    destruct (advance s) as [s1|e| |] eqn:A; cbn [bind]; try discriminate. rewrite (looked_advance _ _ _ A).
    destruct (read_many s1 _) as [[code s2]|e| |] eqn:M; cbn [bind]; try discriminate.
    rewrite (looked_ok _ _ _ (eq_trans (code_fst s1) M)). destruct (code_items _ _ _ M) as [C D]. cbn [snd]. rewrite C.
    destruct (merge_count s2) as (GF & GS & GL). destruct (read_merge s2) as [[m s3]|e| |]; cbn [bind]; try discriminate.
    rewrite (looked_ok _ _ _ GF). cbn [snd]. rewrite GS. specialize (GL _ _ eq_refl).
    destruct (branch_count s3) as (BF & BS & BL). destruct (read_branch s3) as [[b s4]|e| |]; cbn [bind]; try discriminate.
    rewrite (looked_ok _ _ _ BF). cbn [snd unlooked]. rewrite BS. specialize (BL _ _ eq_refl).
    intros [= <- <-]. apply advance_less in A. unfold block_looks. cbn [BasicBlock_code]. unfold list_looks. repeat split; lia.
  - intros s next. unfold read_basic_block_counted, read_basic_block. step.
    destruct (first s) as [[]|]; try (intros [= <-]; split; reflexivity). destruct (advance s) as [s1|e| |] eqn:A; cbn [bind]; try discriminate.
    destruct (read_many s1 _) as [[code s2]|e| |] eqn:M; cbn [bind]; try discriminate.
    destruct (read_merge s2) as [[m s3]|e| |]; cbn [bind]; try discriminate.
    destruct (read_branch s3) as [[b s4]|e| |]; cbn [bind]; discriminate.
  - intros s H. unfold read_basic_block_counted, read_basic_block in *. step. destruct (first s) as [o|] eqn:F; [|cbn; lia]. destruct o; try (cbn; lia).
    destruct (first_advance _ _ F) as [s1 A]. rewrite (looked_advance _ _ _ A). rewrite A in H. cbn [bind] in H. apply advance_less in A.
    destruct (read_many s1 read_code) as [[code s2]|e| |] eqn:M; cbn [bind] in H.
    2-4: rewrite looked_no by (intros v; rewrite code_fst, M; discriminate);
         (assert (X : snd (read_many_counted s1 read_code_counted) <= 2 * get_remaining s1 + 2) by (apply code_not; intros r; rewrite M; discriminate)); lia.
    rewrite (looked_ok _ _ _ (eq_trans (code_fst s1) M)). destruct (code_items _ _ _ M) as [C D]. cbn [snd]. rewrite C. unfold list_looks.
    destruct (merge_count s2) as (GF & GS & GL). destruct (read_merge s2) as [[m s3]|e| |]; cbn [bind] in H.
    2-4: rewrite looked_no by (intros v; rewrite GF; discriminate); lia.
    rewrite (looked_ok _ _ _ GF). cbn [snd]. rewrite GS.
    destruct (branch_count s3) as (BF & BS & BL). destruct (read_branch s3) as [[b s4]|e| |]; cbn [bind] in H; [exfalso; exact (H _ eq_refl)|..].
    all: rewrite looked_no by (intros v; rewrite BF; discriminate); lia.
Qed.

Definition no_look (_ : slice) : nat := 0.
Lemma def_count : count_ok read_function_definition read_function_definition_counted definition_looks no_look.
Proof.
  split.
  - intros s. unfold read_function_definition_counted, read_function_definition. destruct (get_remaining s <? 2); [reflexivity|].
    step. destruct (first s) as [[]|]; try reflexivity.
    apply looked_fst; [reflexivity|]. intros s1 _. apply looked_fst; [apply params_fst|]. intros [params s2] _.
    apply looked_fst; [apply (many_fst block_count)|]. intros [blocks s3] _.
    step. destruct (first s3) as [[]|]; try reflexivity. apply looked_fst; reflexivity.
  - intros s item next. unfold read_function_definition_counted, read_function_definition. destruct (get_remaining s <? 2); [discriminate|].
    step. destruct (first s) as [[]|]; try discriminate. destruct (advance s) as [s1|e| |] eqn:A; cbn [bind]; try discriminate.
    rewrite (looked_advance _ _ _ A).
    destruct (read_many s1 _) as [[params s2]|e| |] eqn:M; cbn [bind]; try discriminate.
    rewrite (looked_ok _ _ _ (eq_trans (params_fst s1) M)). destruct (params_items _ _ _ M) as [C D]. cbn [snd]. rewrite C.
    destruct (read_many s2 _) as [[blocks s3]|e| |] eqn:M2; cbn [bind]; try discriminate.
    rewrite (looked_ok _ _ _ (eq_trans (many_fst block_count s2) M2)). destruct (many_items block_count _ _ _ M2) as (_ & C2 & D2). cbn [snd]. rewrite C2.
    step. destruct (first s3) as [[]|]; try discriminate. destruct (advance s3) as [s4|e| |] eqn:A2; cbn [bind]; try discriminate.
    rewrite (looked_advance _ _ _ A2). cbn [snd unlooked]. intros [= <- <-]. apply advance_less in A, A2.
    unfold definition_looks. cbn [FunctionDefinition_parameters FunctionDefinition_blocks]. unfold list_looks, one_look. repeat split; lia.
  - intros s next. unfold read_function_definition_counted, read_function_definition. destruct (get_remaining s <? 2); [intros [= <-]; split; reflexivity|].
    step. destruct (first s) as [[]|]; try discriminate. destruct (advance s) as [s1|e| |] eqn:A; cbn [bind]; try discriminate.
    destruct (read_many s1 _) as [[params s2]|e| |] eqn:M; cbn [bind]; try discriminate.
    destruct (read_many s2 _) as [[blocks s3]|e| |] eqn:M2; cbn [bind]; try discriminate.
    destruct (first s3) as [[]|]; try discriminate. destruct (advance s3) as [s4|e| |]; discriminate.
  - intros s H. unfold read_function_definition_counted, read_function_definition in *. destruct (get_remaining s <? 2); [cbn; lia|].
    step. destruct (first s) as [o|] eqn:F; [|cbn; lia]. destruct o; try (cbn; lia).
    destruct (first_advance _ _ F) as [s1 A]. rewrite (looked_advance _ _ _ A). rewrite A in H. cbn [bind] in H. apply advance_less in A.
    destruct (params_total s1) as (params & s2 & M). rewrite M in H. cbn [bind] in H.
    rewrite (looked_ok _ _ _ (eq_trans (params_fst s1) M)). destruct (params_items _ _ _ M) as [C D]. cbn [snd]. rewrite C. unfold list_looks.
    destruct (read_many s2 read_basic_block) as [[blocks s3]|e| |] eqn:M2; cbn [bind] in H.
    2-4: rewrite looked_no by (intros v; rewrite (many_fst block_count s2), M2; discriminate);
         (assert (X : snd (read_many_counted s2 read_basic_block_counted) <= 2 * get_remaining s2 + 2) by (apply (many_not block_count); intros r; rewrite M2; discriminate)); lia.
    rewrite (looked_ok _ _ _ (eq_trans (many_fst block_count s2) M2)). destruct (many_items block_count _ _ _ M2) as (_ & C2 & D2). cbn [snd]. rewrite C2. unfold one_look.
    step. destruct (first s3) as [o3|] eqn:F3; [|cbn [snd unlooked]; lia]. destruct o3; try (cbn [snd unlooked]; lia).
    destruct (first_advance _ _ F3) as [s4 A4]. rewrite A4 in H. exfalso. exact (H _ eq_refl).
Qed.
Lemma def_head : forall s item next, read_function_definition s = Ok (PhaseOk item next) -> head_last s = head_looks (FunctionDefinition_parameters item).
Proof.
  intros s item next. unfold read_function_definition, head_last. destruct (get_remaining s <? 2); [discriminate|].
  destruct (first s) as [[]|]; try discriminate. destruct (advance s) as [s1|e| |]; cbn [bind]; try discriminate.
  destruct (read_many s1 _) as [[params s2]|e| |] eqn:M; cbn [bind]; try discriminate.
  destruct (read_many s2 _) as [[blocks s3]|e| |] eqn:M2; cbn [bind]; try discriminate.
  destruct (first s3) as [[]|]; try discriminate. destruct (advance s3) as [s4|e| |]; cbn [bind]; try discriminate.
  intros [= <- _]. reflexivity.
Qed.
Lemma def_no_head : forall s : slice, read_function_definition s = Ok (PhaseNext s) -> head_last s = 0.
Proof.
  intros s. unfold read_function_definition, head_last. destruct (get_remaining s <? 2); [reflexivity|].
  destruct (first s) as [[]|]; try discriminate. destruct (advance s) as [s1|e| |]; cbn [bind]; try discriminate.
  destruct (read_many s1 _) as [[params s2]|e| |] eqn:M; cbn [bind]; try discriminate.
  destruct (read_many s2 _) as [[blocks s3]|e| |] eqn:M2; cbn [bind]; try discriminate.
  destruct (first s3) as [[]|]; try discriminate. destruct (advance s3) as [s4|e| |]; discriminate.
Qed.

(** ** The module *)
(** The rest of a run: its result, and how many looks it takes after [acc] of them. *)
Definition fine (X : looked (LogicalModule E)) (x : outcome ValidationError (LogicalModule E)) (bound acc : nat) : Prop :=
  fst X = x /\ acc + snd X <= bound /\ forall lm, x = Ok lm -> acc + snd X = module_looks lm.

Lemma fine_bind : forall {A} (X : looked A) x (Y : A -> looked (LogicalModule E)) y bound acc,
  fst X = x -> ((forall v, x <> Ok v) -> acc + snd X <= bound) -> (forall v, x = Ok v -> fine (Y v) (y v) bound (acc + snd X)) ->
  fine (looked_bind X Y) (bind x y) bound acc.
Proof.
  intros A X x Y y bound acc F N G. destruct x as [v|e| |].
  2-4: split; [exact (looked_fst X Y _ y F ltac:(discriminate))|]; split; [|discriminate];
       rewrite looked_no by (intros v; rewrite F; discriminate); apply N; discriminate.
  destruct (G v eq_refl) as (F2 & L2 & Q). rewrite (looked_ok _ _ _ F). cbn [bind]. split; [exact F2|]. cbn [snd].
  rewrite Nat.add_assoc. split; [exact L2|exact Q].
Qed.

Lemma validate_fine : forall m : RawModule E, fine (validate_counted m) (validate m) (3 * length (RawModule_instructions m) + 10) 0.
Proof.
  intros m. unfold validate_counted, validate. set (s0 := slice_new _).
  assert (L0 : get_remaining s0 = length (RawModule_instructions m)).
  { unfold s0, slice_new, get_remaining. cbn [insts index]. rewrite map_length. lia. }
  rewrite <- L0. set (bound := 3 * get_remaining s0 + 10). set (len := get_remaining s0) in *. assert (LL : len <= len) by lia. unfold len at 1 in LL.
  clearbody s0.
  assert (list_step : forall T (pick : OpByBlock E -> option T) k s acc (Y : list T * slice -> looked (LogicalModule E)) y,
    acc + 2 * get_remaining s <= 2 * len + k -> k <= 8 ->
    (forall l s', (acc + list_looks l) + 2 * get_remaining s' <= 2 * len + S k -> fine (Y (l, s')) (y (l, s')) bound (acc + list_looks l)) ->
    fine (looked_bind (read_many_counted s (one_counted pick)) Y) (bind (read_many s (one pick)) y) bound acc).
  { intros T pick k s acc Y y L K G. apply fine_bind; [apply (many_fst (one_count pick))| |].
    - intros N. pose proof (many_not (one_count pick) s N). lia.
    - intros [l s'] H. destruct (plain_items _ _ _ _ H) as [-> B]. apply G. unfold list_looks. lia. }
  assert (mm_step : forall k s acc (Y : OpMemoryModel * slice -> looked (LogicalModule E)) y,
    acc + 2 * get_remaining s <= 2 * len + S k -> k <= 8 ->
    (forall l s', (acc + 1) + 2 * get_remaining s' <= 2 * len + k -> fine (Y (l, s')) (y (l, s')) bound (acc + 1)) ->
    fine (looked_bind (read_memory_model_counted s) Y) (bind (read_memory_model s) y) bound acc).
  { intros k s acc Y y L K G.
    assert (X : fst (read_memory_model_counted s) = read_memory_model s /\ snd (read_memory_model_counted s) = 1 /\
      forall o s', read_memory_model s = Ok (o, s') -> S (get_remaining s') = get_remaining s).
    { unfold read_memory_model_counted, read_memory_model. rewrite looked_first. cbn [fst snd].
      destruct (first s) as [o|] eqn:F; [destruct o|]; try (split; [reflexivity|]; split; [reflexivity|]; intros; discriminate).
      destruct (first_advance _ _ F) as [s1 A]. rewrite (looked_advance _ _ _ A), A. cbn [bind fst snd unlooked].
      split; [reflexivity|]. split; [reflexivity|]. intros o' s' [= <- <-]. exact (advance_less _ _ A). }
    destruct X as (X1 & X2 & X3). apply fine_bind; [exact X1| |]; rewrite X2.
    - intros _. lia.
    - intros [o s'] H. apply G. apply X3 in H. lia. }
  assert (decl_step : forall s acc (Y : list FunctionDeclaration * slice -> looked (LogicalModule E)) y,
    acc + 2 * get_remaining s <= 2 * len + 7 -> get_remaining s < len ->
    (forall l s', acc + list_sum (map (fun d => head_looks (FunctionDeclaration_parameters d)) l) + 2 * get_remaining s' <= 2 * len + 7 -> head_last s' <= len + 1 ->
      fine (Y (l, s')) (y (l, s')) bound (acc + (list_sum (map (fun d => head_looks (FunctionDeclaration_parameters d)) l) + head_last s'))) ->
    fine (looked_bind (read_many_counted s read_function_declaration_counted) Y) (bind (read_many s read_function_declaration) y) bound acc).
  { intros s acc Y y L K G. apply fine_bind; [apply (many_fst decl_count)| |].
    - intros N. pose proof (many_not decl_count s N). lia.
    - intros [l s'] H. destruct (many_items decl_count _ _ _ H) as (_ & -> & B). apply G; [lia|]. pose proof (head_last_bound s'). lia. }
  apply (list_step _ _ 0); [lia|lia|]. intros caps s1 L1.
  apply (list_step _ _ 1); [lia|lia|]. intros exts s2 L2.
  apply (list_step _ _ 2); [lia|lia|]. intros imps s3 L3.
  apply (mm_step 2); [lia|lia|]. intros mm s4 L4.
  apply (list_step _ _ 2); [lia|lia|]. intros eps s5 L5.
  apply (list_step _ _ 3); [lia|lia|]. intros ems s6 L6.
  apply (list_step _ _ 4); [lia|lia|]. intros dbg s7 L7.
  apply (list_step _ _ 5); [lia|lia|]. intros ann s8 L8.
  apply (list_step _ _ 6); [lia|lia|]. intros glo s9 L9.
  apply decl_step; [exact L9|unfold list_looks in L9; lia|]. intros decls s10 L10 H10.
  apply fine_bind; [apply (many_fst def_count)| |].
  { intros N. pose proof (many_not def_count s10 N). lia. }
  intros [defs s11] H. destruct (many_items def_count _ _ _ H) as (_ & -> & B). unfold no_look. rewrite Nat.add_0_r.
  pose proof (many_start def_count _ _ _ H) as St.
  split; [destruct (0 <? get_remaining s11); reflexivity|].
  split; [destruct (0 <? get_remaining s11); cbn [snd unlooked]; lia|].
  intros lm. destruct (0 <? get_remaining s11); [discriminate|]. intros [= <-]. cbn [snd unlooked].
  unfold module_looks.
  cbn [LogicalModule_capabilities LogicalModule_extensions LogicalModule_ext_inst_imports LogicalModule_entry_points LogicalModule_execution_modes
       LogicalModule_debug LogicalModule_annotations LogicalModule_globals LogicalModule_function_declarations LogicalModule_function_definitions].
  assert (R : head_last s10 = match defs with [] => 0 | d :: _ => head_looks (FunctionDefinition_parameters d) end).
  { destruct defs as [|d defs]; [exact (def_no_head _ St)|]. destruct St as [next St]. exact (def_head _ _ _ St). }
  rewrite <- R. lia.
Qed.

(** ** Statements *)
Lemma count_transparent : forall m : RawModule E, fst (validate_counted m) = validate m.
Proof. intros m. apply validate_fine. Qed.
Lemma count_exact : forall (m : RawModule E) lm, validate m = Ok lm -> snd (validate_counted m) = module_looks lm.
Proof. intros m lm H. destruct (validate_fine m) as (_ & _ & Q). exact (Q lm H). Qed.
Lemma count_bound : forall m : RawModule E, snd (validate_counted m) <= 3 * length (RawModule_instructions m) + 10.
Proof. intros m. destruct (validate_fine m) as (_ & B & _). exact B. Qed.
End Counts.
