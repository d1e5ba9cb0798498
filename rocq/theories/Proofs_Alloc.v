(** Proofs about what the reader reserves in advance, C101. *)
From Coq Require Import Lia ZArith ZifyBool ZifyNat ZifyN.
From Verif Require Import Base Types Ops ReadErr Utf8 ReadBase ReadOperands ExtSet ReadOps Reader ReadAlloc Spec_Wire Spec_Size Spec_Alloc
  Proofs_Operands Proofs_Composite Proofs_Ops Proofs_Instr Proofs_Stream Proofs_Reader Proofs_Size.
Local Open Scope N_scope.
Ltac Zify.zify_post_hook ::= Z.div_mod_to_equations.

Local Notation len l := (N.of_nat (List.length l)).

(** ** What each reader takes *)
Lemma word_takes : forall b b' w, read_word b = Ok (b', w) -> List.length b = S (List.length b').
Proof. intros [|w b] b' x H; [discriminate|]. injection H as <- _. reflexivity. Qed.
Lemma bytes_takes : forall b acc b' l, read_bytes b acc = Ok (b', l) -> (List.length b' < List.length b)%nat.
Proof.
  induction b as [|w b IH]; intros acc b' l H; [discriminate|]. cbn [read_bytes] in H.
  destruct (push_chars (chars_of_word w) acc) as [[] bytes]; [injection H as <- _; cbn; lia|]. apply IH in H. cbn. lia.
Qed.
Lemma string_takes : forall b b' s, read_LitString b = Ok (b', s) -> (List.length b' < List.length b)%nat.
Proof.
  intros b b' s H. unfold read_LitString in H. apply bind_ok in H. destruct H as ([c l] & H1 & H). apply bytes_takes in H1.
  destruct (from_utf8 l); [|discriminate]. injection H as <- _. exact H1.
Qed.

(** ** Steps *)
Lemma after_ok : forall A (read : Reader A) more b b' a, read b = Ok (b', a) -> after read more b = more b'.
Proof. intros A read more b b' a H. unfold after. rewrite H. reflexivity. Qed.
Lemma string_ok : forall more b b' s, read_LitString b = Ok (b', s) -> string_then more b = 16 :: more b'.
Proof. intros more b b' s H. unfold string_then. rewrite (after_ok _ _ _ _ _ _ H). reflexivity. Qed.
Lemma vec_size : forall size b, 4 <= size -> vec size b = [size * len b].
Proof.
  intros size b H. unfold vec. replace (N.min 1 (size / 4)) with 1 by lia. change (1 =? 0) with false. cbv iota.
  unfold with_capacity. rewrite N.div_1_r. reflexivity.
Qed.
Lemma items_length : forall A (read : Reader A) k, (forall b b' a, read b = Ok (b', a) -> List.length b = (k + List.length b')%nat) ->
  forall fuel b items b' l, read_items fuel read b items = Ok (b', l) ->
  b' = [] /\ (k * List.length l = k * List.length items + List.length b)%nat.
Proof.
  intros A read k Hr. induction fuel as [|fuel IH]; intros [|w b] items b' l H; cbn [read_items] in H; try discriminate.
  1, 2: injection H as <- <-; split; [reflexivity|cbn; lia].
  apply bind_ok in H. destruct H as ([b1 a] & H1 & H). apply Hr in H1. apply IH in H. destruct H as [-> H]. split; [reflexivity|].
  rewrite app_length in H. cbn [List.length] in *. lia.
Qed.
Lemma vec_length : forall A size (read : Reader A) k b b' l, (forall b b' a, read b = Ok (b', a) -> List.length b = (k + List.length b')%nat) ->
  read_Vec size read b = Ok (b', l) -> List.length b = (k * List.length l)%nat.
Proof.
  intros A size read k b b' l Hr H. unfold read_Vec in H. destruct (N.min 1 (size / 4) =? 0); [discriminate|].
  apply (items_length _ _ _ Hr) in H. cbn [List.length] in H. lia.
Qed.
Lemma id_takes : forall b b' a, read_OpId b = Ok (b', a) -> List.length b = (1 + List.length b')%nat.
Proof. intros b b' a H. unfold read_OpId in H. apply bind_ok in H. destruct H as ([c x] & H1 & H). injection H as <- _. apply word_takes in H1. exact H1. Qed.
Lemma u32_takes : forall b b' a, read_u32 b = Ok (b', a) -> List.length b = (1 + List.length b')%nat.
Proof. intros b b' a H. exact (word_takes _ _ _ H). Qed.
Lemma phi_takes : forall b b' a, read_PhiArg b = Ok (b', a) -> List.length b = (2 + List.length b')%nat.
Proof.
  intros b b' a H. unfold read_PhiArg in H. apply bind_ok in H. destruct H as ([c x] & H1 & H). apply bind_ok in H.
  destruct H as ([d y] & H2 & H). injection H as <- _. apply id_takes in H1, H2. lia.
Qed.
Lemma vec_ids : forall b b' l, read_Vec size_of_OpId read_OpId b = Ok (b', l) -> vec size_of_OpId b = rooms 4 l.
Proof. intros b b' l H. rewrite vec_size by (unfold size_of_OpId; lia). rewrite (vec_length _ _ _ _ _ _ _ id_takes H). unfold rooms. f_equal. unfold size_of_OpId. lia. Qed.
Lemma vec_u32s : forall b b' l, read_Vec size_of_u32 read_u32 b = Ok (b', l) -> vec size_of_u32 b = rooms 4 l.
Proof. intros b b' l H. rewrite vec_size by (unfold size_of_u32; lia). rewrite (vec_length _ _ _ _ _ _ _ u32_takes H). unfold rooms. f_equal. unfold size_of_u32. lia. Qed.
Lemma vec_phis : forall b b' l, read_Vec size_of_PhiArg read_PhiArg b = Ok (b', l) -> vec size_of_PhiArg b = rooms 16 l.
Proof. intros b b' l H. rewrite vec_size by (unfold size_of_PhiArg; lia). rewrite (vec_length _ _ _ _ _ _ _ phi_takes H). unfold rooms. f_equal. unfold size_of_PhiArg. lia. Qed.
Lemma option_string_ok : forall more b b' s, read_Option read_LitString b = Ok (b', s) ->
  option_string_then more b = match s with Some _ => [16] | None => [] end ++ more b'.
Proof.
  intros more [|w b] b' s H; unfold read_Option in H.
  - injection H as <- <-. reflexivity.
  - apply bind_ok in H. destruct H as ([c x] & H1 & H). injection H as <- <-. unfold option_string_then. apply (string_ok more _ _ _ H1).
Qed.
Lemma decoration_ok : forall b b' d, read_Decoration b = Ok (b', d) -> requests_Decoration b = strings (decoration_operands d).
Proof.
  intros b b' d H. unfold read_Decoration in H. apply bind_ok in H. destruct H as ([c w] & H1 & H). unfold requests_Decoration. rewrite H1. clear H1.
  repeat match type of H with context [match ?x with _ => _ end] => is_var x; destruct x; try discriminate H end;
    repeat (apply bind_ok in H; destruct H as ([? ?] & ? & H)); injection H as <- <-; try reflexivity.
  match goal with H : read_LitString _ = Ok _ |- _ => exact (string_ok nothing _ _ _ H) end.
Qed.

Lemma strings_many : forall A (f : A -> list operand) l, (forall a, strings (f a) = []) -> strings (many f l) = [].
Proof. intros A f l H. induction l as [|a l IH]; [reflexivity|]. unfold many, strings in *. cbn [flat_map]. rewrite flat_map_app, H, IH. reflexivity. Qed.
Lemma strings_app : forall a b, strings (a ++ b) = strings a ++ strings b.
Proof. intros a b. apply flat_map_app. Qed.

Lemma strings_opt : forall A (f : A -> list operand) x, (forall a, strings (f a) = []) -> strings (opt f x) = [].
Proof. intros A f [a|] H; [apply H|reflexivity]. Qed.

(** ** An accepted instruction *)
Section Alloc.
Context {E : Type}.
Implicit Types (known : list (ExtInstSet E)) (bound : bound_sets E).

Ltac steps H := unfold plain in H; repeat (apply bind_ok in H; destruct H as ([? ?] & ? & H)).
Ltac go := repeat match goal with
  | H : ?r ?b = Ok (?c, ?a) |- context [after ?r ?m ?b] => rewrite (after_ok _ r m b c a H)
  | H : read_LitString ?b = Ok (?c, ?s) |- context [string_then ?m ?b] => rewrite (string_ok m b c s H)
  | H : read_Option read_LitString ?b = Ok (?c, ?s) |- context [option_string_then ?m ?b] => rewrite (option_string_ok m b c s H)
  | H : read_Vec size_of_OpId read_OpId ?b = Ok (?c, ?l) |- context [vec size_of_OpId ?b] => rewrite (vec_ids b c l H)
  | H : read_Vec size_of_u32 read_u32 ?b = Ok (?c, ?l) |- context [vec size_of_u32 ?b] => rewrite (vec_u32s b c l H)
  | H : read_Vec size_of_PhiArg read_PhiArg ?b = Ok (?c, ?l) |- context [vec size_of_PhiArg ?b] => rewrite (vec_phis b c l H)
  | H : read_Decoration ?b = Ok (?c, ?d) |- context [requests_Decoration ?b] => rewrite (decoration_ok b c d H)
  end.

Lemma plain_ok : forall A (R : Reader A) (wrap : A -> Core E) block known bound b' i bound',
  plain R wrap block known bound = Ok (b', i, bound') -> exists a, R block = Ok (b', a) /\ i = wrap a.
Proof.
  intros A R wrap block known bound b' i bound' H. unfold plain in H. apply bind_ok in H. destruct H as ([c a] & H1 & H).
  injection H as <- <- _. exists a. split; [exact H1|reflexivity].
Qed.
Lemma requests_accepted : forall (i : Core E) wc f block known bound b' bound', dispatch (opcode i) wc = Ok f ->
  f block known bound = Ok (b', i, bound') -> requests_of (opcode i) block = strings (operands i) ++ list_room i.
Proof.
  intros i wc f block known bound b' bound' D H.
  destruct i; cbv beta iota delta [opcode dispatch requests_of] in D |- *; try discriminate D; injection D as <-;
    try (destruct o; reflexivity); try reflexivity.
  all: try (apply (plain_ok _ _ _ _ known) in H; destruct H as (a & HR & H); injection H as ->;
    repeat (apply bind_ok in HR; destruct HR as ([? ?] & ? & HR)); injection HR as <- <-).
  all: try (match goal with |- ?r _ = _ => unfold r end; go; cbn [operands list_room]; unfold num; rewrite ?strings_app, ?strings_many by reflexivity; 
   cbn [strings flat_map app]; rewrite ?app_nil_r; reflexivity).
  all: try (solve [unfold read_core_OpExtInstImport in H; apply bind_ok in H; destruct H as ([? ?] & ? & H); apply bind_ok in H; destruct H as ([? ?] & ? & H);
    apply import_loop_sound in H; destruct H as (-> & H & _); injection H as ->; unfold requests_OpExtInstImport; go; reflexivity]).
  all: try (unfold nothing; cbn [operands list_room]; rewrite ?strings_app, ?strings_opt by reflexivity; reflexivity).
  - unfold requests_OpSource. go. cbn [operands list_room]. rewrite !strings_app, strings_opt by reflexivity.
    match goal with x : option LitString |- _ => destruct x end; reflexivity.
  - match goal with e : ExecutionMode |- _ => destruct e; reflexivity end.
  - match goal with l : LoopControl |- _ => destruct l as [? ? ? [?|]] end; reflexivity.
Qed.

(** ** How much the operands ask for *)
Definition takes {A} (read : Reader A) : Prop := forall b b' a, read b = Ok (b', a) -> (List.length b' < List.length b)%nat.
Lemma takes_id : takes read_OpId.
Proof. intros b b' a H. apply id_takes in H. lia. Qed.
Lemma takes_result : takes read_ResultId.
Proof. exact takes_id. Qed.
Lemma takes_member : takes read_MemberIndex.
Proof. intros b b' a H. unfold read_MemberIndex in H. apply bind_ok in H. destruct H as ([c w] & H1 & H). injection H as <- _. apply word_takes in H1. lia. Qed.
Lemma takes_model : takes read_ExecutionModel.
Proof.
  intros b b' a H. unfold read_ExecutionModel in H. apply bind_ok in H. destruct H as ([c w] & H1 & H). apply word_takes in H1.
  repeat match type of H with context [match ?x with _ => _ end] => is_var x; destruct x; try discriminate H end; injection H as <- _; lia.
Qed.
Lemma takes_string : takes read_LitString.
Proof. exact string_takes. Qed.

Lemma after_bound : forall A (read : Reader A) more b x, takes read ->
  (forall b', (List.length b' < List.length b)%nat -> total (more b') <= x) -> total (after read more b) <= x.
Proof.
  intros A read more b x T H. unfold after. destruct (read b) as [[b' a]| | |] eqn:R; [apply H, (T _ _ _ R)| | |]; cbn; lia.
Qed.
Lemma after_any : forall A (read : Reader A) more b x, (forall b', total (more b') <= x) -> total (after read more b) <= x.
Proof. intros A read more b x H. unfold after. destruct (read b) as [[b' a]| | |]; [apply H| | |]; cbn; lia. Qed.
Lemma string_bound : forall b, total (string_then nothing b) <= 16.
Proof. intro b. unfold string_then, after, nothing. destruct (read_LitString b) as [[? ?]| | |]; cbn; lia. Qed.
Lemma decoration_bound : forall b, total (requests_Decoration b) <= 16.
Proof.
  intro b. unfold requests_Decoration. destruct (read_word b) as [[c w]| | |]; try (cbn; lia).
  repeat match goal with |- context [match ?x with _ => _ end] => is_var x; destruct x; try (cbn; lia) end. apply string_bound.
Qed.

Lemma requests_bound : forall id b, total (requests_of id b) <= N.max 16 (8 + 8 * len b).
Proof.
  intros id b.
  assert (S16 : forall x, x <= 16 -> x <= N.max 16 (8 + 8 * len b)) by (intros; lia).
  assert (Z : total (nothing b) <= N.max 16 (8 + 8 * len b)) by (cbn; lia).
  assert (V : forall size c, 4 <= size <= 8 -> (List.length c < List.length b)%nat -> total (vec size c) <= N.max 16 (8 + 8 * len b)).
  { intros size c Hs Hc. rewrite vec_size by lia. cbn [total fold_right]. nia. }
  unfold requests_of.
  repeat match goal with |- context [match ?x with _ => _ end] => is_var x; destruct x; try exact Z end.
  all: try (apply S16, string_bound).
  all: try (apply S16; repeat (apply after_any; intro); first [apply string_bound | apply decoration_bound]).
  all: match goal with |- total (?r _) <= _ => unfold r end.
  all: try (solve [apply S16; do 3 (apply after_any; intro); unfold option_string_then; match goal with |- total (match ?c with _ => _ end) <= _ => destruct c end; [cbn; lia|apply string_bound]]).
  all: try (apply after_bound; [exact takes_id|intros; apply V; [unfold size_of_OpId; lia|assumption]]).
  all: try (do 2 (apply after_bound; [exact takes_id|intros]); apply V; [unfold size_of_OpId, size_of_u32, size_of_PhiArg; lia|lia]).
  all: try (do 3 (apply after_bound; [exact takes_id|intros]); apply V; [unfold size_of_OpId; lia|lia]).
  apply after_bound; [exact takes_model|]. intros c Hc. apply after_bound; [exact takes_id|]. intros d Hd. unfold string_then.
  cbn [total fold_right]. change (fold_right N.add 0 ?l) with (total l).
  assert (total (after read_LitString (vec size_of_OpId) d) <= 4 * len d).
  { apply after_bound; [exact takes_string|]. intros e He. rewrite vec_size by (unfold size_of_OpId; lia). cbn [total fold_right]. unfold size_of_OpId. lia. }
  unfold with_capacity. lia.
Qed.

Lemma requests_none : forall id wc (f : @CoreReader E) known bound r, dispatch id wc = Ok f -> f [] known bound = Ok r -> requests_of id [] = [].
Proof.
  intros id wc f known bound r D. apply dispatch_in_table in D. revert D.
  assert (T : Forall (fun p => snd p [] known bound = Ok r -> requests_of (fst p) [] = []) (dispatch_table (E := E))).
  { repeat (apply Forall_cons; [intro; first [reflexivity|discriminate]|]). apply Forall_nil. }
  rewrite Forall_forall in T. intro D. exact (T _ D).
Qed.

(** ** One instruction *)
Lemma words_length : forall n s s' ws, read_words n s = Ok (s', ws) -> List.length ws = n.
Proof.
  induction n as [|n IH]; intros s s' ws H; cbn [read_words] in H; [injection H as _ <-; reflexivity|].
  apply bind_ok in H. destruct H as ([s1 w] & H1 & H). apply bind_ok in H. destruct H as ([s2 l] & H2 & H). injection H as _ <-.
  apply IH in H2. cbn. congruence.
Qed.
Lemma wc_small : forall h, as_u16 (N.shiftr h 16) < 65536.
Proof. intro h. unfold as_u16. apply N.mod_lt. discriminate. Qed.

Lemma total_app : forall a b, total (a ++ b) = total a + total b.
Proof. induction a as [|x a IH]; intro b; [reflexivity|]. cbn [app total fold_right]. change (fold_right N.add 0 ?l) with (total l). rewrite IH. lia. Qed.
Lemma total_cons : forall x a, total (x :: a) = x + total a.
Proof. reflexivity. Qed.

Lemma instruction_bound : forall s, (Stream_source s <> [] -> 4 <= len (Stream_source s) \/ instruction_requests s = [])
  /\ (4 <= len (Stream_source s) -> total (instruction_requests s) <= 3 * len (Stream_source s) + 262128).
Proof.
  intro s. split.
  - intros _. unfold instruction_requests. destruct (stream_read_word s) as [[s1 h]| | |] eqn:H1; try (right; reflexivity).
    apply stream_read_word_shrinks in H1. left. lia.
  - intro L. unfold instruction_requests. destruct (stream_read_word s) as [[s1 h]| | |] eqn:H1; try (cbn; lia).
    apply stream_read_word_shrinks in H1. rewrite total_cons. unfold with_capacity, size_of_u32. pose proof (wc_small h) as W.
    destruct (read_words _ s1) as [[s2 block]| | |] eqn:H2; try (cbn [total fold_right]; lia).
    pose proof (words_length _ _ _ _ H2) as Lb. apply read_words_shrinks in H2.
    pose proof (requests_bound (as_u16 (N.land h 65535)) block). lia.
Qed.

Lemma le_of_some : forall s, exists o, s = Build_Stream (Stream_source s) (le_of o).
Proof. intros [src []]; [exists LittleEndian|exists BigEndian]; reflexivity. Qed.

Lemma instruction_accepted : forall s known earlier bound s' i bound', bound_inv known earlier bound -> read_instruction s known bound = Ok (s', i, bound') ->
  bound_inv known (earlier ++ [i]) bound' /\
  exists wc, instruction_requests s = reserved i wc /\ total (instruction_requests s) + 3 * len (Stream_source s') <= 3 * len (Stream_source s)
    /\ len (Stream_source s) = 4 * N.max 1 wc + len (Stream_source s') /\ counts i wc.
Proof.
  intros s known earlier bound s' i bound' Hi H. destruct (le_of_some s) as (o & Es). unfold read_instruction in H.
  apply bind_ok in H. destruct H as ([s1 h] & H1 & H). apply bind_ok in H. destruct H as ([s2 block] & H2 & H).
  apply bind_ok in H. destruct H as (f & D & H). apply bind_ok in H. destruct H as ([[b' i'] bd] & F & H).
  destruct b'; [|discriminate]. injection H as <- <- <-.
  assert (Hb : Forall word block).
  { rewrite Es in H1. apply stream_read_word_inv in H1. destruct H1 as (_ & rest & -> & _). apply read_words_inv in H2. apply H2. }
  destruct (dispatch_reads _ _ _ D _ _ _ _ _ _ Hi Hb F) as (Ho & Hw & Hi'). split; [exact Hi'|].
  set (wc := as_u16 (N.shiftr h 16)) in *. exists wc.
  assert (R : requests_of (as_u16 (N.land h 65535)) block = strings (operands i') ++ list_room i').
  { rewrite <- Ho in D |- *. exact (requests_accepted _ _ _ _ _ _ _ _ D F). }
  assert (Q : instruction_requests s = reserved i' wc).
  { unfold instruction_requests. rewrite H1. fold wc. rewrite H2, R. reflexivity. }
  pose proof (words_length _ _ _ _ H2) as Lb. apply stream_read_word_shrinks in H1. apply read_words_shrinks in H2.
  assert (L : len (Stream_source s) = 4 * N.max 1 wc + len (Stream_source s2)) by lia.
  split; [exact Q|]. split; [|split; [exact L|]].
  - rewrite Q. unfold reserved. rewrite total_cons, <- R. destruct block as [|w block].
    + rewrite (requests_none _ _ _ _ _ _ D F). cbn [total fold_right]. cbn [List.length] in Lb. lia.
    + pose proof (requests_bound (as_u16 (N.land h 65535)) (w :: block)). cbn [List.length] in *. lia.
  - destruct (instruction_length _ _ _ _ _ Hw) as (own & Lw). unfold counts.
    assert (X : is_extended i' \/ ~ is_extended i') by (destruct i'; cbn; tauto). destruct X as [X|X]; [left|right]; (split; [exact X|]).
    + unfold words_of in Lw. destruct i'; try contradiction X. cbn [operands app num map operand_words list_sum fold_right] in Lw. lia.
    + replace (words_of i' own) with (words_of i' 0) in Lw by (unfold words_of; destruct i'; try reflexivity; destruct X; exact I). lia.
Qed.

(** ** The loop *)
Lemma loop_bound : forall fuel s known earlier bound, bound_inv known earlier bound ->
  total (instructions_requests fuel s known bound) <= 3 * len (Stream_source s) + 262128
  /\ ((List.length (Stream_source s) < 4)%nat -> instructions_requests fuel s known bound = []).
Proof.
  induction fuel as [|fuel IH]; intros s known earlier bound Hi; cbn [instructions_requests]; destruct (stream_is_end s); try (split; [cbn; lia|reflexivity]).
  destruct (read_instruction s known bound) as [[[s' i] b]| | |] eqn:R.
  1: { destruct (instruction_accepted _ _ _ _ _ _ _ Hi R) as (Hi' & wc & _ & T & L & _). destruct (IH s' known _ b Hi') as [B _].
    split; [rewrite total_app; lia|lia]. }
  all: rewrite app_nil_r; destruct (instruction_bound s) as [A B]; split; [destruct (Nat.ltb_spec (List.length (Stream_source s)) 4)|];
    [destruct (Stream_source s) eqn:Es; [unfold instruction_requests, stream_read_word; rewrite Es; cbn; lia
      |destruct A as [A| ->]; [discriminate|lia|cbn [total fold_right]; lia]]|apply B; lia|].
  all: intro L; destruct (Stream_source s) eqn:Es; [unfold instruction_requests, stream_read_word; rewrite Es; reflexivity|destruct A as [A|A]; [discriminate|lia|exact A]].
Qed.

Lemma loop_accepted : forall fuel s known earlier bound acc l, bound_inv known earlier bound -> read_instructions fuel s known bound acc = Ok l ->
  exists is wcs, l = acc ++ is /\ List.length wcs = List.length is /\ len (Stream_source s) = 4 * total (map (N.max 1) wcs)
    /\ Forall (fun p => counts (fst p) (snd p)) (combine is wcs)
    /\ instructions_requests fuel s known bound = flat_map (fun p => reserved (fst p) (snd p)) (combine is wcs)
    /\ total (instructions_requests fuel s known bound) <= 3 * len (Stream_source s).
Proof.
  induction fuel as [|fuel IH]; intros s known earlier bound acc l Hi H; cbn [read_instructions instructions_requests] in *;
    destruct (stream_is_end s) eqn:Z; try discriminate.
  1, 2: injection H as <-; exists [], []; rewrite app_nil_r; unfold stream_is_end in Z; destruct (Stream_source s); [|discriminate];
    repeat split; [constructor|discriminate].
  apply bind_ok in H. destruct H as ([[s' i] b] & R & H). rewrite R.
  destruct (instruction_accepted _ _ _ _ _ _ _ Hi R) as (Hi' & wc & Q & T & L & C).
  apply (IH _ _ (earlier ++ [i])) in H; [|exact Hi']. destruct H as (is & wcs & -> & Ll & Ls & Cs & Qs & Ts).
  exists (i :: is), (wc :: wcs). rewrite <- app_assoc. split; [reflexivity|]. split; [cbn; congruence|]. split; [|split; [|split]].
  - cbn [map]. rewrite total_cons. lia.
  - cbn [combine]. constructor; assumption.
  - cbn [combine flat_map fst snd]. rewrite Q, Qs. reflexivity.
  - rewrite total_app. lia.
Qed.

(** ** Modules *)
Lemma header_takes : forall (data : list ascii) s1 m s2 s3 v s4 g s5 b s6 z, stream_read_word (Build_Stream data true) = Ok (s1, m) ->
  check_magic m s1 = Ok s2 -> stream_read_word s2 = Ok (s3, v) -> stream_read_word s3 = Ok (s4, g) -> stream_read_word s4 = Ok (s5, b) ->
  stream_read_word s5 = Ok (s6, z) -> len data = 20 + len (Stream_source s6).
Proof.
  intros data s1 m s2 s3 v s4 g s5 b s6 z H1 M H2 H3 H4 H5. apply stream_read_word_shrinks in H1, H2, H3, H4, H5.
  assert (Stream_source s2 = Stream_source s1).
  { unfold check_magic in M. destruct (m =? _); [injection M as <-; reflexivity|]. destruct (m =? _); [injection M as <-; reflexivity|discriminate]. }
  cbn [Stream_source] in H1. rewrite H in *. lia.
Qed.

Theorem module_bound : forall known data, total (module_requests data known) <= 3 * len data + 262068
  /\ (len data < 24 -> module_requests data known = []).
Proof.
  intros known data. unfold module_requests.
  match goal with |- context [match ?r with Ok s => _ | _ => _ end] => destruct r as [s| | |] eqn:H end; try (split; [cbn; lia|reflexivity]).
  apply bind_ok in H. destruct H as ([s1 m] & H1 & H). apply bind_ok in H. destruct H as (s2 & M & H).
  apply bind_ok in H. destruct H as ([s3 v] & H2 & H). apply bind_ok in H. destruct H as (ver & _ & H). apply bind_ok in H. destruct H as (u & _ & H).
  apply bind_ok in H. destruct H as ([s4 g] & H3 & H). apply bind_ok in H. destruct H as ([s5 b] & H4 & H). apply bind_ok in H. destruct H as ([s6 z] & H5 & H).
  destruct (negb _); [discriminate|]. injection H as <-. pose proof (header_takes _ _ _ _ _ _ _ _ _ _ _ _ H1 M H2 H3 H4 H5) as L.
  destruct (loop_bound (List.length (Stream_source s6)) s6 known [] [] (bound_inv_nil known)) as [A B]. split; [lia|intro; apply B; lia].
Qed.

Theorem module_exact : forall known data m, read_module data known = Ok m ->
  exists wcs, List.length wcs = List.length (RawModule_instructions m)
    /\ len data = 20 + 4 * total (map (N.max 1) wcs)
    /\ Forall (fun p => counts (fst p) (snd p)) (combine (RawModule_instructions m) wcs)
    /\ module_requests data known = flat_map (fun p => reserved (fst p) (snd p)) (combine (RawModule_instructions m) wcs)
    /\ total (module_requests data known) <= 3 * (len data - 20).
Proof.
  intros known data m H. unfold read_module in H. unfold module_requests.
  apply bind_ok in H. destruct H as ([s1 mg] & H1 & H). rewrite H1. cbn [bind]. apply bind_ok in H. destruct H as (s2 & M & H). rewrite M. cbn [bind].
  apply bind_ok in H. destruct H as ([s3 v] & H2 & H). rewrite H2. cbn [bind]. apply bind_ok in H. destruct H as (ver & V & H). rewrite V. cbn [bind].
  apply bind_ok in H. destruct H as (u & U & H). rewrite U. cbn [bind]. apply bind_ok in H. destruct H as ([s4 g] & H3 & H). rewrite H3. cbn [bind].
  apply bind_ok in H. destruct H as ([s5 b] & H4 & H). rewrite H4. cbn [bind]. apply bind_ok in H. destruct H as ([s6 z] & H5 & H). rewrite H5. cbn [bind].
  destruct (negb (z =? 0)); [discriminate|]. apply bind_ok in H. destruct H as (l & H6 & H). injection H as <-. cbn [RawModule_instructions].
  pose proof (header_takes _ _ _ _ _ _ _ _ _ _ _ _ H1 M H2 H3 H4 H5) as L.
  apply (loop_accepted _ _ _ []) in H6; [|apply bound_inv_nil]. destruct H6 as (is & wcs & -> & A & B & C & D & T). cbn [app].
  exists wcs. split; [exact A|]. split; [lia|]. split; [exact C|]. split; [exact D|lia].
Qed.

(** ** The bounds are met *)
Definition bytes (l : list N) : list ascii := map ascii_of_N l.
Definition header_bytes : list ascii := bytes [3; 2; 35; 7; 0; 0; 1; 0; 0; 0; 0; 0; 0; 0; 0; 0; 0; 0; 0; 0].
(* OpSourceContinued with the empty string *)
Definition empty_string : list ascii := bytes [2; 0; 2; 0; 0; 0; 0; 0].
(* the head of an instruction of 65535 words *)
Definition long_head : list ascii := bytes [2; 0; 255; 255].
Fixpoint strings_then (n : nat) (last : list ascii) : list ascii := match n with O => last | S n => empty_string ++ strings_then n last end.

Lemma strings_length : forall n last, List.length (strings_then n last) = (8 * n + List.length last)%nat.
Proof. induction n as [|n IH]; intro last; [reflexivity|]. cbn [strings_then]. rewrite app_length, IH. cbn. lia. Qed.
Lemma string_step : forall fuel rest known bound, instructions_requests (S fuel) (Build_Stream (empty_string ++ rest) true) known bound
  = 8 :: 16 :: instructions_requests fuel (Build_Stream rest true) known bound.
Proof. reflexivity. Qed.
Lemma string_read_step : forall fuel rest known bound acc, read_instructions (S fuel) (Build_Stream (empty_string ++ rest) true) known bound acc
  = read_instructions fuel (Build_Stream rest true) known bound (acc ++ [Core_OpSourceContinued (Build_OpSourceContinued ""%string)]).
Proof. reflexivity. Qed.
Lemma strings_total : forall n last fuel known bound, (n <= fuel)%nat ->
  total (instructions_requests fuel (Build_Stream (strings_then n last) true) known bound)
  = 24 * N.of_nat n + total (instructions_requests (fuel - n) (Build_Stream last true) known bound).
Proof.
  induction n as [|n IH]; intros last fuel known bound L; [rewrite Nat.sub_0_r; reflexivity|]. destruct fuel as [|fuel]; [lia|].
  cbn [strings_then]. rewrite string_step, !total_cons, IH by lia. cbn [Nat.sub]. lia.
Qed.
Lemma strings_read : forall n fuel known bound acc, (n <= fuel)%nat ->
  read_instructions fuel (Build_Stream (strings_then n []) true) known bound acc = Ok (acc ++ repeat (Core_OpSourceContinued (Build_OpSourceContinued ""%string)) n).
Proof.
  induction n as [|n IH]; intros fuel known bound acc L; [destruct fuel; cbn; rewrite app_nil_r; reflexivity|]. destruct fuel as [|fuel]; [lia|].
  cbn [strings_then]. rewrite string_read_step, IH by lia. rewrite <- app_assoc. reflexivity.
Qed.
Lemma header_requests : forall x known, module_requests (header_bytes ++ x) known = instructions_requests (List.length x) (Build_Stream x true) known [].
Proof. reflexivity. Qed.
Lemma header_read : forall x known, read_module (header_bytes ++ x) known
  = let! l := read_instructions (List.length x) (Build_Stream x true) known [] [] in
    Ok (Build_RawModule (Build_Version 1 0) (Build_Generator Tool_KhronosReserved 0) 0 l).
Proof. reflexivity. Qed.

Theorem bound_met : forall known n, exists data, len data = 24 + 8 * N.of_nat n /\ total (module_requests data known) = 3 * len data + 262068.
Proof.
  intros known n. exists (header_bytes ++ strings_then n long_head). split.
  - rewrite app_length, strings_length. change (List.length long_head) with 4%nat. change (List.length header_bytes) with 20%nat. lia.
  - rewrite header_requests, app_length, !strings_length, strings_total by lia.
    change (List.length long_head) with 4%nat. change (List.length header_bytes) with 20%nat.
    replace (8 * n + 4 - n)%nat with (S (7 * n + 3)) by lia.
    assert (X : forall fuel, instructions_requests (S fuel) (Build_Stream long_head true) known [] = [262140]) by (intro; reflexivity).
    rewrite X. cbn [total fold_right]. lia.
Qed.
Theorem accepted_met : forall known n, exists data m, read_module data known = Ok m /\ List.length (RawModule_instructions m) = n
  /\ len data = 20 + 8 * N.of_nat n /\ total (module_requests data known) = 3 * (len data - 20).
Proof.
  intros known n. exists (header_bytes ++ strings_then n []). eexists. split.
  - rewrite header_read, strings_read by (rewrite strings_length; lia). reflexivity.
  - cbn [RawModule_instructions app]. rewrite repeat_length. split; [reflexivity|]. rewrite app_length, header_requests, !strings_length, strings_total by lia.
    change (List.length header_bytes) with 20%nat. change (List.length (@nil ascii)) with 0%nat. split; [lia|].
    replace (instructions_requests (8 * n + 0 - n) (Build_Stream [] true) known []) with (@nil N) by (destruct (8 * n + 0 - n)%nat; reflexivity).
    cbn [total fold_right]. lia.
Qed.
End Alloc.
