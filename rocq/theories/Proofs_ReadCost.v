(** How many steps a reader takes for the words it goes over (C126). *)
From Verif Require Import Base Types Ops ReadErr Utf8 ReadBase ReadOperands ExtSet ReadOps Reader CountBase CountOperands CountOps.
Local Open Scope nat_scope.

(* from a block of [n] words, a counted reader gives what the reader gives, and takes [K] steps for each word *)
Definition costs (K n : nat) {A} (c : counted (list N * A)) (o : outcome ReadError (list N * A)) : Prop :=
  snd c = o /\
  match o with
  | Ok (rest, _) => length rest <= n /\ fst c + K * length rest <= K * n
  | _ => fst c <= K * n + 1
  end.

Definition linear (K : nat) {A} (c : CountReader A) (r : Reader A) : Prop :=
  forall block, costs K (length block) (c block) (r block).

Lemma costs_Ok : forall K A block (a : A), costs K (length block) (count_Ok (block, a)) (Ok (block, a)).
Proof. intros. split; [reflexivity|]. cbn. lia. Qed.

Lemma costs_Err : forall K n A e, costs K n (@count_Err (list N * A) e) (Err e).
Proof. intros. split; [reflexivity|]. cbn. lia. Qed.

Lemma costs_bind : forall K n A B (c : counted (list N * A)) o
    (k : list N * A -> counted (list N * B)) k',
  costs K n c o ->
  (forall block a, length block <= n -> costs K (length block) (k (block, a)) (k' (block, a))) ->
  costs K n (count_bind c k) (bind o k').
Proof.
  intros K n A B [f s] o k k' [Q C] H. cbn in Q. subst s.
  destruct o as [[block a]|e| |]; unfold count_bind; cbn [snd fst bind] in *; try (split; [reflexivity|exact C]).
  destruct C as [L C]. specialize (H block a L). destruct (k (block, a)) as [f' s']. destruct H as [Q' C'].
  cbn [fst snd] in *. subst s'. split; [reflexivity|]. cbn [fst snd].
  destruct (k' (block, a)) as [[rest b]|e| |]; nia.
Qed.

Lemma costs_mono : forall K K' n A (c : counted (list N * A)) o, K <= K' -> costs K n c o -> costs K' n c o.
Proof.
  intros K K' n A c o L [Q C]. split; [exact Q|]. destruct o as [[rest a]|e| |]; nia.
Qed.

Lemma linear_mono : forall K K' A (c : CountReader A) r, K <= K' -> linear K c r -> linear K' c r.
Proof. intros K K' A c r L H block. exact (costs_mono _ _ _ _ _ _ L (H block)). Qed.

Lemma linear_word : forall K, 1 <= K -> linear K count_word read_word.
Proof. intros K L [|w block]; (split; [reflexivity|]); cbn; nia. Qed.

Lemma linear_Option : forall K A (c : CountReader A) r, linear K c r -> linear K (count_Option c) (read_Option r).
Proof.
  intros K A c r H [|w block]; [apply costs_Ok|].
  unfold count_Option, read_Option. apply costs_bind; [apply H|]. intros. apply costs_Ok.
Qed.

(* an item takes words *)
Definition takes {A} (r : Reader A) : Prop :=
  forall block rest a, r block = Ok (rest, a) -> length rest < length block.

Lemma linear_items : forall K A (c : CountReader A) r, linear K c r -> takes r ->
  forall fuel block items, costs (K + 1) (length block) (count_items fuel c block items) (read_items fuel r block items).
Proof.
  intros K A c r H T. induction fuel as [|fuel IH]; intros [|w block] items; cbn [count_items read_items];
    try apply costs_Ok; [split; [reflexivity|]; cbn; lia|].
  pose proof (H (w :: block)) as [Q C]. pose proof (T (w :: block)) as L.
  destruct (c (w :: block)) as [f s]. cbn [fst snd] in Q, C. subst s.
  destruct (r (w :: block)) as [[rest a]|e| |]; cbn [bind];
    unfold count_bind at 1; cbn [fst snd]; try (split; [reflexivity|]; cbn [fst snd]; nia).
  specialize (L rest a eq_refl). specialize (IH rest (items ++ [a])). destruct C as [L' C].
  unfold step, steps, count_bind. cbn [fst snd].
  destruct (count_items fuel c rest (items ++ [a])) as [f' s']. destruct IH as [Q' C']. cbn [fst snd] in *. subst s'.
  split; [reflexivity|]. cbn [fst snd].
  destruct (read_items fuel r rest (items ++ [a])) as [[rest' b]|e| |]; nia.
Qed.

Lemma linear_Vec : forall K A size (c : CountReader A) r, linear K c r -> takes r ->
  linear (K + 1) (count_Vec size c) (read_Vec size r).
Proof.
  intros K A size c r H T block. unfold count_Vec, read_Vec. destruct (N.eqb _ _).
  - split; [reflexivity|]. cbn [fst]. lia.
  - apply linear_items; assumption.
Qed.

Lemma chars_count : forall chars bytes,
  snd (count_chars chars bytes) = Ok (push_chars chars bytes) /\ fst (count_chars chars bytes) <= length chars /\
  length (snd (push_chars chars bytes)) <= length bytes + length chars.
Proof.
  induction chars as [|x chars IH]; intros bytes; cbn [count_chars push_chars]; [repeat split; cbn; lia|].
  unfold count_bind, step, steps. cbn [fst snd]. destruct (N.eqb x 0); [repeat split; cbn; lia|].
  destruct (IH (bytes ++ [x])) as (Q & C & L). destruct (count_chars chars (bytes ++ [x])) as [f s].
  cbn [fst snd] in *. rewrite app_length in L. cbn [length] in *. repeat split; [exact Q|lia|lia].
Qed.

Lemma bytes_count : forall block bytes,
  snd (count_bytes block bytes) = read_bytes block bytes /\
  match read_bytes block bytes with
  | Ok (rest, bytes') => length rest <= length block /\
      fst (count_bytes block bytes) + 5 * length rest <= 5 * length block /\
      length bytes' + 4 * length rest <= length bytes + 4 * length block
  | _ => fst (count_bytes block bytes) <= 5 * length block + 1
  end.
Proof.
  induction block as [|w block IH]; intros bytes; cbn [count_bytes read_bytes].
  - split; [reflexivity|]. cbn. lia.
  - destruct (chars_count (chars_of_word w) bytes) as (Q & C & L).
    destruct (count_chars (chars_of_word w) bytes) as [f s]. destruct (push_chars (chars_of_word w) bytes) as [null more].
    cbn [fst snd] in Q, C, L. subst s.
    change (length (chars_of_word w)) with 4 in C, L. unfold count_bind, step, steps. cbn [fst snd].
    destruct null; cbn [fst snd length].
    + split; [reflexivity|]. cbn. lia.
    + destruct (IH more) as [Q' C']. destruct (count_bytes block more) as [f' s']. cbn [fst snd] in *. subst s'.
      split; [reflexivity|]. destruct (read_bytes block more) as [[rest b]|e| |]; lia.
Qed.

Lemma linear_LitString : linear 9 count_LitString read_LitString.
Proof.
  intros block. unfold count_LitString, read_LitString. destruct (bytes_count block []) as [Q C].
  destruct (count_bytes block []) as [f s]. cbn [fst snd] in Q, C. subst s.
  destruct (read_bytes block []) as [[rest bytes]|e| |]; unfold count_bind, steps; cbn [fst snd bind length] in *;
    try (split; [reflexivity|cbn [fst]; lia]).
  destruct (from_utf8 bytes); (split; [reflexivity|]); cbn [fst snd count_Ok count_Err]; lia.
Qed.

Ltac price :=
  lazymatch goal with
  | |- linear _ ?c ?r => intros block; unfold c, r; price
  | |- costs _ _ (count_bind _ _) (bind _ _) => apply costs_bind; [price|intros ? ? ?; cbv beta iota; price]
  | |- costs _ _ (count_Ok _) (Ok _) => apply costs_Ok
  | |- costs _ _ (count_Err _) (Err _) => apply costs_Err
  | |- costs _ _ (count_word _) (read_word _) => apply linear_word; repeat constructor
  | |- costs _ _ (let x := ?v in _) _ => cbv zeta; price
  | |- costs _ _ (match ?x with _ => _ end) (match ?x with _ => _ end) => destruct x; price
  | |- costs _ _ (_ ?b) (_ ?b) => solve [auto with price]
  end.

Lemma linear_at : forall K A (c : CountReader A) r block, linear K c r -> costs K (length block) (c block) (r block).
Proof. intros. apply H. Qed.

Create HintDb price.
#[global] Hint Extern 1 (costs _ _ (_ ?b) (_ ?b)) => (apply linear_at) : price.
#[global] Hint Resolve linear_LitString : price.

Lemma linear_OpId : linear 9 count_OpId read_OpId.
Proof. price. Qed.
#[global] Hint Resolve linear_OpId : price.

Lemma linear_ResultId : linear 9 count_ResultId read_ResultId.
Proof. price. Qed.
#[global] Hint Resolve linear_ResultId : price.

Lemma linear_u32 : linear 9 count_u32 read_u32.
Proof. price. Qed.
#[global] Hint Resolve linear_u32 : price.

Lemma linear_SourceVersion : linear 9 count_SourceVersion read_SourceVersion.
Proof. price. Qed.
#[global] Hint Resolve linear_SourceVersion : price.

Lemma linear_MemberIndex : linear 9 count_MemberIndex read_MemberIndex.
Proof. price. Qed.
#[global] Hint Resolve linear_MemberIndex : price.

Lemma linear_SourceLanguage : linear 9 count_SourceLanguage read_SourceLanguage.
Proof. price. Qed.
#[global] Hint Resolve linear_SourceLanguage : price.

Lemma linear_AddressingModel : linear 9 count_AddressingModel read_AddressingModel.
Proof. price. Qed.
#[global] Hint Resolve linear_AddressingModel : price.

Lemma linear_MemoryModel : linear 9 count_MemoryModel read_MemoryModel.
Proof. price. Qed.
#[global] Hint Resolve linear_MemoryModel : price.

Lemma linear_ExecutionModel : linear 9 count_ExecutionModel read_ExecutionModel.
Proof. price. Qed.
#[global] Hint Resolve linear_ExecutionModel : price.

Lemma linear_ExecutionMode : linear 9 count_ExecutionMode read_ExecutionMode.
Proof. price. Qed.
#[global] Hint Resolve linear_ExecutionMode : price.

Lemma linear_Capability : linear 9 count_Capability read_Capability.
Proof. price. Qed.
#[global] Hint Resolve linear_Capability : price.

Lemma linear_Signedness : linear 9 count_Signedness read_Signedness.
Proof. price. Qed.
#[global] Hint Resolve linear_Signedness : price.

Lemma linear_Dim : linear 9 count_Dim read_Dim.
Proof. price. Qed.
#[global] Hint Resolve linear_Dim : price.

Lemma linear_DepthStatus : linear 9 count_DepthStatus read_DepthStatus.
Proof. price. Qed.
#[global] Hint Resolve linear_DepthStatus : price.

Lemma linear_Arrayed : linear 9 count_Arrayed read_Arrayed.
Proof. price. Qed.
#[global] Hint Resolve linear_Arrayed : price.

Lemma linear_MS : linear 9 count_MS read_MS.
Proof. price. Qed.
#[global] Hint Resolve linear_MS : price.

Lemma linear_SampledStatus : linear 9 count_SampledStatus read_SampledStatus.
Proof. price. Qed.
#[global] Hint Resolve linear_SampledStatus : price.

Lemma linear_ImageFormat : linear 9 count_ImageFormat read_ImageFormat.
Proof. price. Qed.
#[global] Hint Resolve linear_ImageFormat : price.

Lemma linear_AccessQualifier : linear 9 count_AccessQualifier read_AccessQualifier.
Proof. price. Qed.
#[global] Hint Resolve linear_AccessQualifier : price.

Lemma linear_StorageClass : linear 9 count_StorageClass read_StorageClass.
Proof. price. Qed.
#[global] Hint Resolve linear_StorageClass : price.

Lemma linear_BuiltIn : linear 9 count_BuiltIn read_BuiltIn.
Proof. price. Qed.
#[global] Hint Resolve linear_BuiltIn : price.

Lemma linear_FunctionParameterAttribute : linear 9 count_FunctionParameterAttribute read_FunctionParameterAttribute.
Proof. price. Qed.
#[global] Hint Resolve linear_FunctionParameterAttribute : price.

Lemma linear_FpRoundingMode : linear 9 count_FpRoundingMode read_FpRoundingMode.
Proof. price. Qed.
#[global] Hint Resolve linear_FpRoundingMode : price.

Lemma linear_LinkageType : linear 9 count_LinkageType read_LinkageType.
Proof. price. Qed.
#[global] Hint Resolve linear_LinkageType : price.

Lemma linear_FunctionControl : linear 9 count_FunctionControl read_FunctionControl.
Proof. price. Qed.
#[global] Hint Resolve linear_FunctionControl : price.

Lemma linear_MemoryAccess : linear 9 count_MemoryAccess read_MemoryAccess.
Proof. price. Qed.
#[global] Hint Resolve linear_MemoryAccess : price.

Lemma linear_FpFastMathMode : linear 9 count_FpFastMathMode read_FpFastMathMode.
Proof. price. Qed.
#[global] Hint Resolve linear_FpFastMathMode : price.

Lemma linear_Decoration : linear 9 count_Decoration read_Decoration.
Proof. price. Qed.
#[global] Hint Resolve linear_Decoration : price.

Lemma linear_LoopControl : linear 9 count_LoopControl read_LoopControl.
Proof. price. Qed.
#[global] Hint Resolve linear_LoopControl : price.

Lemma linear_SelectionControl : linear 9 count_SelectionControl read_SelectionControl.
Proof. price. Qed.
#[global] Hint Resolve linear_SelectionControl : price.

Lemma linear_BranchWeights : linear 9 count_BranchWeights read_BranchWeights.
Proof. price. Qed.
#[global] Hint Resolve linear_BranchWeights : price.

Lemma linear_PhiArg : linear 9 count_PhiArg read_PhiArg.
Proof. price. Qed.
#[global] Hint Resolve linear_PhiArg : price.

