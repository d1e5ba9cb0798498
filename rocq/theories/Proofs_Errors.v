(** Which errors decoding the operands of an instruction can give. *)
From Coq Require Import ZArith.
From Verif Require Import Base Types Ops ReadErr Utf8 ReadBase ReadOperands ExtSet ReadOps Spec_Wire
  Proofs_Operands Proofs_Instr.
Local Open Scope N_scope.

(* errors of the operand readers *)
Definition operand_error (e : ReadError) : Prop :=
  match e with
  | UnexpectedEndOfStream | UnexpectedStreamAlignment | BadMagic | UnknownVersionBytes _ _ _ _ | UnknownVersion _
  | UnknownReservedSchema | UnknownOp _ _ | UnimplementedOp _ | WrongWordCountForOp | InstructionHadExcessData
  | UnknownInstSet _ | UnknownInstSetId _ | UnknownExtInstOp _ _ | DuplicateResultId _ => False
  | _ => True
  end.

Definition errs {X A} (P : X -> Prop) (r : outcome X A) : Prop := match r with Err e => P e | _ => True end.

Lemma errs_bind : forall {X A B} P (r : outcome X A) (f : A -> outcome X B),
  errs P r -> (forall a, errs P (f a)) -> errs P (bind r f).
Proof. intros X A B P [a|e| |] f H1 H2; cbn [bind]; [apply H2|exact H1|exact I|exact I]. Qed.

Definition clean {A} (R : Reader A) : Prop := forall ws, errs operand_error (R ws).

Lemma clean_word : clean read_word.
Proof. intros [|w ws]; exact I. Qed.

Lemma clean_Option : forall {A} (R : Reader A), clean R -> clean (read_Option R).
Proof.
  intros A R H [|w ws]; [exact I|]. unfold read_Option. apply errs_bind; [apply H|]. intros [? ?]. exact I.
Qed.
Lemma clean_items : forall {A} (R : Reader A), clean R -> forall fuel ws items, errs operand_error (read_items fuel R ws items).
Proof.
  intros A R H fuel. induction fuel as [|fuel IH]; intros [|w ws] items; cbn [read_items]; try exact I.
  apply errs_bind; [apply H|]. intros [? ?]. apply IH.
Qed.
Lemma clean_Vec : forall {A} size (R : Reader A), clean R -> clean (read_Vec size R).
Proof. intros A size R H ws. unfold read_Vec. destruct (N.eqb _ 0); [exact I|]. apply clean_items, H. Qed.
Ltac clean_enum := intros [|w ws]; [exact I|]; match goal with |- errs _ (?R _) => unfold R end; cbn [read_word bind]; split_word; exact I.
Ltac errs_step := apply errs_bind; [auto with clean; solve [first [apply clean_Option | apply clean_Vec]; auto with clean]|intros [? ?]].
Ltac clean_seq := intro ws; match goal with |- errs _ (?R _) => unfold R end; repeat errs_step; exact I.

Create HintDb clean.
#[export] Hint Resolve clean_word : clean.
#[export] Hint Unfold clean : clean.

Lemma clean_OpId : clean read_OpId. Proof. clean_seq. Qed.
Lemma clean_ResultId : clean read_ResultId. Proof. clean_seq. Qed.
Lemma clean_u32 : clean read_u32. Proof. exact clean_word. Qed.
Lemma clean_SourceVersion : clean read_SourceVersion. Proof. clean_seq. Qed.
Lemma clean_MemberIndex : clean read_MemberIndex. Proof. clean_seq. Qed.
#[export] Hint Resolve clean_OpId clean_ResultId clean_u32 clean_SourceVersion clean_MemberIndex : clean.
Lemma clean_SourceLanguage : clean read_SourceLanguage. Proof. clean_enum. Qed.
Lemma clean_AddressingModel : clean read_AddressingModel. Proof. clean_enum. Qed.
Lemma clean_MemoryModel : clean read_MemoryModel. Proof. clean_enum. Qed.
Lemma clean_ExecutionModel : clean read_ExecutionModel. Proof. clean_enum. Qed.
Lemma clean_Capability : clean read_Capability. Proof. clean_enum. Qed.
Lemma clean_Signedness : clean read_Signedness. Proof. clean_enum. Qed.
Lemma clean_Dim : clean read_Dim. Proof. clean_enum. Qed.
Lemma clean_DepthStatus : clean read_DepthStatus. Proof. clean_enum. Qed.
Lemma clean_Arrayed : clean read_Arrayed. Proof. clean_enum. Qed.
Lemma clean_MS : clean read_MS. Proof. clean_enum. Qed.
Lemma clean_SampledStatus : clean read_SampledStatus. Proof. clean_enum. Qed.
Lemma clean_ImageFormat : clean read_ImageFormat. Proof. clean_enum. Qed.
Lemma clean_AccessQualifier : clean read_AccessQualifier. Proof. clean_enum. Qed.
Lemma clean_StorageClass : clean read_StorageClass. Proof. clean_enum. Qed.
Lemma clean_BuiltIn : clean read_BuiltIn. Proof. clean_enum. Qed.
Lemma clean_FunctionParameterAttribute : clean read_FunctionParameterAttribute. Proof. clean_enum. Qed.
Lemma clean_FpRoundingMode : clean read_FpRoundingMode. Proof. clean_enum. Qed.
Lemma clean_LinkageType : clean read_LinkageType. Proof. clean_enum. Qed.
Lemma clean_FunctionControl : clean read_FunctionControl. Proof. clean_seq. Qed.
Lemma clean_MemoryAccess : clean read_MemoryAccess.
Proof. intros [|w ws]; [exact I|]. unfold read_MemoryAccess; cbn [read_word bind]. destruct (nonzero _); exact I. Qed.
Lemma clean_FpFastMathMode : clean read_FpFastMathMode.
Proof. intros [|w ws]; [exact I|]. unfold read_FpFastMathMode; cbn [read_word bind]. destruct (nonzero _); exact I. Qed.
Lemma clean_SelectionControl : clean read_SelectionControl.
Proof. intros [|w ws]; [exact I|]. unfold read_SelectionControl; cbn [read_word bind]. destruct (nonzero _); exact I. Qed.
Lemma clean_LoopControl : clean read_LoopControl.
Proof.
  intros [|w ws]; [exact I|]. unfold read_LoopControl; cbn [read_word bind]. destruct (nonzero _); [exact I|].
  destruct (nonzero _); [|exact I]. destruct ws; exact I.
Qed.
Lemma clean_BranchWeights : clean read_BranchWeights. Proof. clean_seq. Qed.
Lemma clean_PhiArg : clean read_PhiArg. Proof. clean_seq. Qed.
Lemma clean_bytes : forall ws bytes, errs operand_error (read_bytes ws bytes).
Proof.
  induction ws as [|w ws IH]; intro bytes; cbn [read_bytes]; [exact I|].
  destruct (push_chars (chars_of_word w) bytes) as [b bs]. destruct b; [exact I|apply IH].
Qed.
Lemma clean_LitString : clean read_LitString.
Proof. intro ws. unfold read_LitString. apply errs_bind; [apply clean_bytes|]. intros [b bs]. destruct (from_utf8 bs); exact I. Qed.
#[export] Hint Resolve clean_SourceLanguage clean_AddressingModel clean_MemoryModel clean_ExecutionModel clean_Capability
  clean_Signedness clean_Dim clean_DepthStatus clean_Arrayed clean_MS clean_SampledStatus clean_ImageFormat
  clean_AccessQualifier clean_StorageClass clean_BuiltIn clean_FunctionParameterAttribute clean_FpRoundingMode
  clean_LinkageType clean_FunctionControl clean_MemoryAccess clean_FpFastMathMode clean_SelectionControl
  clean_LoopControl clean_BranchWeights clean_PhiArg clean_LitString : clean.
Lemma clean_ExecutionMode : clean read_ExecutionMode.
Proof. intros [|w ws]; [exact I|]. unfold read_ExecutionMode; cbn [read_word bind]. split_word; repeat errs_step; exact I. Qed.
Lemma clean_Decoration : clean read_Decoration.
Proof. intros [|w ws]; [exact I|]. unfold read_Decoration; cbn [read_word bind]. split_word; repeat errs_step; exact I. Qed.

#[export] Hint Resolve clean_ExecutionMode clean_Decoration : clean.

Section Clean.
Context {E : Type}.
Implicit Types (known : list (ExtInstSet E)) (bound : bound_sets E).

(* every dispatched reader except the two extended-set ones only gives operand errors *)
Definition plain_clean (f : @CoreReader E) : Prop := forall block known bound, errs operand_error (f block known bound).

Lemma plain_is_clean : forall {A} (R : Reader A) (wrap : A -> Core E), clean R -> plain_clean (plain R wrap).
Proof. intros A R wrap H block known bound. unfold plain. apply errs_bind; [apply H|]. intros [? ?]. exact I. Qed.

Lemma table_clean : Forall (fun p => fst p = 11 \/ fst p = 12 \/ plain_clean (snd p)) (@dispatch_table E).
Proof.
  unfold dispatch_table.
  repeat (apply Forall_cons; [first [left; reflexivity | right; left; reflexivity
    | right; right; apply plain_is_clean; clean_seq]|]).
  apply Forall_nil.
Qed.

Lemma dispatch_clean : forall id wc f, dispatch id wc = Ok f -> id = 11 \/ id = 12 \/ plain_clean f.
Proof.
  intros id wc f H. apply dispatch_in_table in H. pose proof table_clean as T. rewrite Forall_forall in T.
  exact (T (id, f) H).
Qed.

Lemma import_clean : forall block known bound,
  errs (fun e => operand_error e \/ (exists n, e = UnknownInstSet n) \/ (exists r, e = DuplicateResultId r))
    (read_core_OpExtInstImport block known bound).
Proof.
  intros block known bound. unfold read_core_OpExtInstImport.
  assert (W : forall {A} (r : outcome ReadError A), errs operand_error r ->
    errs (fun e => operand_error e \/ (exists n, e = UnknownInstSet n) \/ (exists r, e = DuplicateResultId r)) r).
  { intros A [a|e| |] H; try exact I. left. exact H. }
  apply errs_bind; [apply W, clean_ResultId|]. intros [b1 r]. apply errs_bind; [apply W, clean_LitString|]. intros [b2 name].
  induction known as [|s known IH]; cbn [import_loop]; [right; left; eauto|].
  destruct (String.eqb (get_name s) name); [|exact IH]. unfold map_insert.
  destruct (map_get r bound); [right; right; eauto|exact I].
Qed.

Lemma ext_inst_clean : forall block known bound,
  errs (fun e => operand_error e \/ (exists n, e = UnknownInstSetId n)
         \/ (exists id r number ws, map_get id bound = Some r /\ r number ws = Err e))
    (read_core_OpExtInst block known bound).
Proof.
  intros block known bound. unfold read_core_OpExtInst.
  assert (W : forall {A} (r : outcome ReadError A), errs operand_error r ->
    errs (fun e => operand_error e \/ (exists n, e = UnknownInstSetId n)
         \/ (exists id r number ws, map_get id bound = Some r /\ r number ws = Err e)) r).
  { intros A [a|e| |] H; try exact I. left. exact H. }
  apply errs_bind; [apply W, clean_OpId|]. intros [b1 t]. apply errs_bind; [apply W, clean_ResultId|]. intros [b2 r].
  apply errs_bind; [apply W, clean_OpId|]. intros [b3 s]. apply errs_bind; [apply W, clean_u32|]. intros [b4 n].
  destruct (map_get s bound) as [rd|] eqn:Hg; [|right; left; eauto].
  apply errs_bind; [|intros [? ?]; exact I].
  destruct (rd n b4) as [?|e| |] eqn:Hr; try exact I. right. right. exists s, rd, n, b4. auto.
Qed.

End Clean.
