(** How many steps read_module takes for the bytes it is given (C126). *)
From Verif Require Import Base Types Ops ReadErr Utf8 ReadBase ReadOperands ExtSet ReadOps Reader CountBase CountOperands CountOps CountReader.
From Verif Require Import Proofs_ReadCost Proofs_ReadCost2 Spec_ReadCost.
Local Open Scope nat_scope.

Section Steps.
Context {E : Type}.

(* a counted instruction reader gives what the reader gives, in 9 steps for each of the [n] words and 2 more, and one
   for each known set if it imports one *)
Definition core_costs (n asked : nat) (c : counted (list N * Core E * bound_sets E)) o : Prop :=
  snd c = o /\
  match o with
  | Ok (_, inst, _) => fst c <= 9 * n + 2 + (if is_import inst then asked else 0)
  | _ => fst c <= 9 * n + 2 + asked
  end.

Lemma plain_costs : forall A (c : CountReader A) r (wrap : A -> Core E), linear 9 c r ->
  forall block known bound,
  core_costs (length block) (length known) (count_plain c wrap block known bound) (plain r wrap block known bound).
Proof.
  intros A c r wrap H block known bound. unfold count_plain, plain. destruct (H block) as [Q C].
  destruct (c block) as [f s]. cbn [fst snd] in Q, C. subst s. unfold count_bind.
  destruct (r block) as [[rest a]|e| |]; cbn [fst snd bind count_Ok]; (split; [reflexivity|]); cbn [fst snd];
    lia.
Qed.

Lemma import_loop_costs : forall known rid name block bound,
  snd (count_import_loop (E := E) rid name block bound known) = import_loop rid name block bound known /\
  fst (count_import_loop (E := E) rid name block bound known) <= length known + 1 /\
  match import_loop rid name block bound known with Ok (_, inst, _) => is_import inst = true | _ => True end.
Proof.
  induction known as [|k known IH]; intros rid name block bound; cbn [count_import_loop import_loop];
    [repeat split; cbn; lia|].
  unfold count_bind, step, steps. cbn [fst snd]. destruct (String.eqb (get_name k) name); cbn [fst snd].
  - destruct (map_insert rid (duplicate k) bound) as [[?|] ?]; repeat split; cbn; lia.
  - destruct (IH rid name block bound) as (Q & C & I). destruct (count_import_loop rid name block bound known) as [f s].
    cbn [fst snd length] in *. repeat split; [exact Q|lia|exact I].
Qed.

Lemma import_costs : forall block known bound,
  core_costs (length block) (length known)
    (count_core_OpExtInstImport block known bound) (read_core_OpExtInstImport block known bound).
Proof.
  intros block known bound. unfold count_core_OpExtInstImport, read_core_OpExtInstImport.
  destruct (linear_ResultId block) as [Q C]. destruct (count_ResultId block) as [f s]. cbn [fst snd] in Q, C. subst s.
  unfold count_bind at 1.
  destruct (read_ResultId block) as [[b1 rid]|e| |]; cbn [fst snd bind]; try (split; [reflexivity|cbn [fst]; lia]).
  destruct (linear_LitString b1) as [Q' C']. destruct (count_LitString b1) as [f' s']. cbn [fst snd] in Q', C'. subst s'.
  unfold count_bind at 1.
  destruct (read_LitString b1) as [[b2 name]|e| |]; cbn [fst snd bind]; try (split; [reflexivity|cbn [fst]; lia]).
  destruct (import_loop_costs known rid name b2 bound) as (Q'' & C'' & I).
  destruct (count_import_loop rid name b2 bound known) as [f'' s'']. cbn [fst snd] in *. subst s''.
  split; [reflexivity|]. cbn [fst snd].
  destruct (import_loop rid name b2 bound known) as [[[b3 i] m]|e| |]; try (rewrite I); lia.
Qed.

Lemma ext_inst_costs : forall block known bound,
  core_costs (length block) (length known) (count_core_OpExtInst block known bound) (read_core_OpExtInst block known bound).
Proof.
  intros block known bound. unfold count_core_OpExtInst, read_core_OpExtInst.
  unfold count_OpId, count_ResultId, count_u32, read_OpId, read_ResultId, read_u32.
  destruct block as [|w1 [|w2 [|w3 [|w4 block]]]]; try (split; [reflexivity|cbn; lia]).
  cbn [count_word read_word count_bind bind step steps fst snd count_Ok].
  destruct (map_get w3 bound) as [read|]; [|split; [reflexivity|cbn; lia]].
  unfold count_bind. cbn [fst snd]. destruct (read w4 block) as [[rest i]|e| |]; (split; [reflexivity|cbn; lia]).
Qed.

Definition same_readers (n asked : nat) known bound block
    (c : outcome ReadError (@CountCoreReader E)) (o : outcome ReadError (@CoreReader E)) : Prop :=
  match c, o with
  | Ok c, Ok r => core_costs n asked (c block known bound) (r block known bound)
  | Err e, Err e' => e = e'
  | _, _ => False
  end.

Lemma dispatch_costs : forall id wc block known bound,
  same_readers (length block) (length known) known bound block (count_dispatch id wc) (dispatch id wc).
Proof.
  intros id wc block known bound.
  unfold count_dispatch, dispatch. destruct id as [|p].
  { apply plain_costs; auto with price. }
  do 9 (try (destruct p as [p|p|]; try exact eq_refl)); try exact eq_refl;
    first [ apply plain_costs; solve [auto with price] | apply import_costs | apply ext_inst_costs ].
Qed.

(* the words that are left in a stream *)
Definition left (s : Stream) : nat := length (Stream_source s) / 4.

Lemma stream_word_costs : forall s,
  snd (count_stream_word s) = stream_read_word s /\ fst (count_stream_word s) = 1 /\
  match stream_read_word s with Ok (s', _) => left s = 1 + left s' | _ => left s = 0 end.
Proof.
  intros [src le]. unfold count_stream_word, count_bind, step, steps, stream_read_word, left. cbn [fst snd Stream_source].
  destruct src as [|a [|b [|c [|d src]]]]; repeat split.
  cbn [Stream_source length]. change (S (S (S (S (length src))))) with (4 + length src).
  change 4 with (1 * 4) at 1. rewrite Nat.div_add_l; lia.
Qed.

Lemma words_costs : forall n s,
  snd (count_words n s) = read_words n s /\
  match read_words n s with
  | Ok (s', words) => length words = n /\ left s = n + left s' /\ fst (count_words n s) = n
  | Err _ => fst (count_words n s) <= left s + 1
  | _ => False
  end.
Proof.
  induction n as [|n IH]; intros s; cbn [count_words read_words]; [repeat split|].
  destruct (stream_word_costs s) as (Q & C & L). destruct (count_stream_word s) as [f o]. cbn [fst snd] in Q, C. subst f o.
  assert (P : match stream_read_word s with Ok _ => True | Err _ => True | _ => False end).
  { unfold stream_read_word. destruct (Stream_source s) as [|? [|? [|? [|? ?]]]]; exact Logic.I. }
  destruct (stream_read_word s) as [[s1 w]|e| |]; try contradiction; cbn [fst snd bind count_bind];
    [|split; [reflexivity|cbn [fst]; lia]].
  destruct (IH s1) as [Q' C']. destruct (count_words n s1) as [f' o']. cbn [fst snd] in Q', C'. subst o'.
  destruct (read_words n s1) as [[s2 words]|e| |]; try contradiction; cbn [fst snd bind count_bind count_Ok length];
    (split; [reflexivity|lia]).
Qed.

Definition instruction_takes (s : Stream) (asked : nat) (c : counted (Stream * Core E * bound_sets E)) o : Prop :=
  snd c = o /\
  match o with
  | Ok (s', inst, _) => left s' < left s /\ left s - left s' <= fst c /\
      fst c + 1 + 10 * left s' <= 10 * left s + (if is_import inst then asked else 0)
  | _ => fst c <= (10 + asked) * left s + 1
  end.

Lemma instruction_costs : forall s known bound,
  instruction_takes s (length known) (count_instruction s known bound) (read_instruction s known bound).
Proof.
  intros s known bound. unfold count_instruction, read_instruction.
  destruct (stream_word_costs s) as (Q & C & L). destruct (count_stream_word s) as [f o]. cbn [fst snd] in Q, C. subst f o.
  unfold count_bind at 1. destruct (stream_read_word s) as [[s1 head]|e| |]; cbn [fst snd bind];
    try (split; [reflexivity|cbn [fst]; lia]).
  set (wc := as_u16 (N.shiftr head 16)). set (id := as_u16 (N.land head 0xFFFF)).
  destruct (words_costs (N.to_nat (wc - 1)) s1) as [Q' C']. destruct (count_words (N.to_nat (wc - 1)) s1) as [f' o'].
  cbn [fst snd] in Q', C'. subst o'. unfold count_bind at 1.
  destruct (read_words (N.to_nat (wc - 1)) s1) as [[s2 block]|e| |]; try contradiction; cbn [fst snd bind];
    [|split; [reflexivity|cbn [fst snd]; nia]].
  pose proof (dispatch_costs id wc block known bound) as D. unfold same_readers in D.
  destruct C' as (LB & L' & C'). rewrite LB in D.
  generalize dependent (N.to_nat (wc - 1)). intros n LB L' C' D.
  unfold count_bind. cbn [fst snd].
  destruct (count_dispatch id wc) as [c|e| |], (dispatch id wc) as [r|e'| |]; try contradiction; cbn [fst snd bind];
    [|subst e'; split; [reflexivity|cbn [fst snd]; nia]].
  destruct D as [Q2 C2]. destruct (c block known bound) as [f2 o2]. cbn [fst snd] in Q2, C2. subst o2.
  destruct (r block known bound) as [[[rest i] m]|e| |]; cbn [fst snd bind]; try (split; [reflexivity|cbn [fst snd]; nia]).
  destruct rest; cbn [fst snd count_Ok count_Err]; (split; [reflexivity|]); cbn [fst snd]; destruct (is_import i); nia.
Qed.

Definition instructions_take (s : Stream) (asked : nat) (acc : list (Core E)) (c : counted (list (Core E))) o : Prop :=
  snd c = o /\
  match o with
  | Ok all => exists more, all = acc ++ more /\ left s <= fst c /\ imports more <= left s /\ fst c <= 10 * left s + asked * imports more
  | _ => fst c <= (10 + asked) * left s + 1
  end.

Lemma instructions_costs : forall fuel s known bound acc,
  instructions_take s (length known) acc
    (count_instructions fuel s known bound acc) (read_instructions fuel s known bound acc).
Proof.
  induction fuel as [|fuel IH]; intros s known bound acc; cbn [count_instructions read_instructions].
  { destruct s as [src le]. unfold stream_is_end, instructions_take, left. cbn [Stream_source].
    destruct src; (split; [reflexivity|]); cbn [fst count_Ok];
      [exists []; rewrite app_nil_r; split; [reflexivity|cbn; lia]|lia]. }
  destruct (stream_is_end s) eqn:Z.
  { split; [reflexivity|]. exists []. rewrite app_nil_r. unfold stream_is_end, left in *.
    destruct (Stream_source s); [|discriminate]. split; [reflexivity|cbn; lia]. }
  destruct (instruction_costs s known bound) as [Q C]. destruct (count_instruction s known bound) as [f o].
  cbn [fst snd] in Q, C. subst o. unfold count_bind at 1.
  destruct (read_instruction s known bound) as [[[s' inst] bound']|e| |]; cbn [fst snd bind];
    try (split; [reflexivity|exact C]).
  destruct C as (L & Lo & C). destruct (IH s' known bound' (acc ++ [inst])) as [Q' C'].
  unfold count_bind, step, steps. cbn [fst snd].
  destruct (count_instructions fuel s' known bound' (acc ++ [inst])) as [f' o']. cbn [fst snd] in *. subst o'.
  destruct (read_instructions fuel s' known bound' (acc ++ [inst])) as [all|e| |]; cbn [fst snd bind] in *;
    (split; [reflexivity|]); cbn [fst snd]; try (destruct (is_import inst); nia).
  destruct C' as (more & W & Lo' & Li & C'). exists (inst :: more). rewrite <- app_assoc in W. split; [exact W|].
  unfold imports in *. cbn [filter]. destruct (is_import inst); cbn [length]; nia.
Qed.

Definition module_takes (s : Stream) (asked : nat) (c : counted (RawModule E)) o : Prop :=
  snd c = o /\
  match o with
  | Ok m => left s <= fst c /\ imports (RawModule_instructions m) <= left s /\ fst c <= 10 * left s + asked * imports (RawModule_instructions m)
  | _ => fst c <= (10 + asked) * left s + 1
  end.

(* a word of the header *)
Lemma header_word : forall s asked (k : Stream * N -> counted (RawModule E)) k',
  (forall s' w, left s = 1 + left s' -> module_takes s' asked (k (s', w)) (k' (s', w))) ->
  module_takes s asked (count_bind (count_stream_word s) k) (bind (stream_read_word s) k').
Proof.
  intros s asked k k' H. destruct (stream_word_costs s) as (Q & C & L).
  destruct (count_stream_word s) as [f o]. cbn [fst snd] in Q, C. subst f o. unfold count_bind.
  destruct (stream_read_word s) as [[s1 w]|e| |]; cbn [fst snd bind]; try (split; [reflexivity|cbn [fst]; lia]).
  destruct (H s1 w L) as [Q C]. destruct (k (s1, w)) as [f o]. cbn [fst snd] in Q, C. subst o.
  split; [reflexivity|]. cbn [fst snd]. destruct (k' (s1, w)); nia.
Qed.

(* a check of the header *)
Lemma header_check : forall A s asked (o : outcome ReadError A) (k : A -> counted (RawModule E)) k',
  (forall a, o = Ok a -> module_takes s asked (k a) (k' a)) ->
  module_takes s asked (count_bind (0, o) k) (bind o k').
Proof.
  intros A s asked o k k' H. unfold count_bind. cbn [fst snd].
  destruct o as [a|e| |]; cbn [bind]; try (split; [reflexivity|cbn [fst]; lia]).
  specialize (H a eq_refl). destruct (k a) as [f o]. exact H.
Qed.

Lemma module_costs_from : forall s known,
  module_takes (Build_Stream s true) (length known) (count_module s known) (read_module s known).
Proof.
  intros data known. unfold count_module, read_module. cbv zeta.
  apply header_word. intros s1 magic _.
  apply header_check. intros s1' M.
  assert (L : left s1' = left s1).
  { unfold check_magic in M. destruct (N.eqb _ _); [|destruct (N.eqb _ _)]; inversion M; reflexivity. }
  unfold module_takes. rewrite <- L. fold (module_takes s1').
  apply header_word. intros s2 ver _. apply header_check. intros version _. apply header_check. intros _ _.
  apply header_word. intros s3 gen _. apply header_word. intros s4 bound _. apply header_word. intros s5 zero _.
  destruct (negb (N.eqb zero 0)); [split; [reflexivity|cbn [fst count_Err]; lia]|].
  destruct (instructions_costs (length (Stream_source s5)) s5 known [] []) as [Q C].
  destruct (count_instructions _ s5 known [] []) as [f o]. cbn [fst snd] in Q, C. subst o. unfold count_bind.
  destruct (read_instructions _ s5 known [] []) as [all|e| |]; cbn [fst snd bind count_Ok];
    (split; [reflexivity|]); cbn [fst snd]; try lia.
  destruct C as (more & -> & Lo & Li & C). cbn [app RawModule_instructions]. lia.
Qed.

Lemma left_data : forall data le, left (Build_Stream data le) = length data / 4.
Proof. reflexivity. Qed.

Lemma faithful : forall data known, snd (count_module (E := E) data known) = read_module data known.
Proof. intros data known. apply (module_costs_from data known). Qed.

Lemma accepted_costs : forall data known m, read_module (E := E) data known = Ok m ->
  length data / 4 <= fst (count_module data known) /\
  fst (count_module data known) <= 10 * (length data / 4) + length known * imports (RawModule_instructions m).
Proof.
  intros data known m R. destruct (module_costs_from data known) as [_ C]. rewrite R in C. rewrite left_data in C.
  destruct C as (Lo & _ & C). split; assumption.
Qed.

Lemma any_costs : forall data known,
  fst (count_module (E := E) data known) <= (10 + length known) * (length data / 4) + 1.
Proof.
  intros data known. destruct (module_costs_from data known) as [_ C]. rewrite left_data in C.
  destruct (read_module data known); try exact C. nia.
Qed.

End Steps.
