(** Instruction readers against the wire format. *)
From Coq Require Import ZArith ZifyBool ZifyNat ZifyN.
From Verif Require Import Base Types Ops ReadErr Utf8 ReadBase ReadOperands ExtSet ReadOps Spec_Wire
  Proofs_Operands Proofs_Composite Proofs_Ops.
Local Open Scope N_scope.

Section Instr.
Context {E : Type}.
Implicit Types (known : list (ExtInstSet E)) (earlier : list (Core E)) (bound : bound_sets E).

(** ** The map of imported sets *)

Lemma set_named_fun : forall known name r1 r2, set_named known name r1 -> set_named known name r2 -> r1 = r2.
Proof.
  intros known name r1 r2 (b1 & s1 & a1 & E1 & N1 & F1 & ->) (b2 & s2 & a2 & E2 & N2 & F2 & ->).
  rewrite E1 in E2. clear E1 known. revert b2 E2 F2. induction F1 as [|x b1 Hx F1 IH]; intros [|y b2] E2 F2.
  - injection E2 as -> _. reflexivity.
  - injection E2 as -> _. inversion F2; subst. contradiction.
  - injection E2 as -> _. contradiction.
  - injection E2 as -> E2. inversion F2; subst. eapply IH; eassumption.
Qed.

Definition bound_inv known earlier bound : Prop :=
  (forall id r, map_get id bound = Some r -> imported known earlier id r)
  /\ (forall id name, In (Core_OpExtInstImport (Build_OpExtInstImport id name)) earlier ->
        exists r, map_get id bound = Some r /\ set_named known name r).

Lemma bound_inv_nil : forall known, bound_inv known [] [].
Proof. intro known. split; [discriminate|intros id name []]. Qed.

Lemma bound_inv_get : forall known earlier bound id r, bound_inv known earlier bound ->
  imported known earlier id r -> map_get id bound = Some r.
Proof.
  intros known earlier bound id r [_ H2] (name & Hin & Hs). apply H2 in Hin. destruct Hin as (r' & Hg & Hs').
  rewrite Hg. f_equal. eapply set_named_fun; eassumption.
Qed.

Definition not_import (i : Core E) : Prop :=
  match i with Core_OpExtInstImport _ => False | _ => True end.

Lemma bound_inv_skip : forall known earlier bound i, not_import i ->
  bound_inv known earlier bound -> bound_inv known (earlier ++ [i]) bound.
Proof.
  intros known earlier bound i Hi [H1 H2]. split.
  - intros id r H. apply H1 in H. destruct H as (name & Hin & Hs). exists name.
    split; [apply in_or_app; left; exact Hin|exact Hs].
  - intros id name Hin. apply in_app_or in Hin. destruct Hin as [Hin|[->|[]]]; [auto|destruct Hi].
Qed.

(** ** Import *)

Lemma set_named_cons_ne : forall known s name r, get_name s <> name -> set_named (s :: known) name r -> set_named known name r.
Proof.
  intros known s name r Hne (b & s' & a & Eq & Hn & F & ->). destruct b as [|x b]; injection Eq as -> Eq; [contradiction|].
  inversion F; subst. exists b, s', a. auto.
Qed.
Lemma set_named_skip : forall known s name r, get_name s <> name -> set_named known name r -> set_named (s :: known) name r.
Proof.
  intros known s name r Hne (b & s' & a & -> & Hn & F & ->). exists (s :: b), s', a. auto.
Qed.
Lemma set_named_here : forall known s, set_named (s :: known) (get_name s) (duplicate s).
Proof. intros known s. exists [], s, known. auto. Qed.

Lemma import_loop_sound : forall known id name block bound block' i bound',
  import_loop id name block bound known = Ok (block', i, bound') ->
  block' = block /\ i = Core_OpExtInstImport (Build_OpExtInstImport id name) /\ map_get id bound = None
  /\ exists r, set_named known name r /\ bound' = (id, r) :: bound.
Proof.
  induction known as [|s known IH]; intros id name block bound block' i bound' H; cbn [import_loop] in H; [discriminate|].
  destruct (String.eqb_spec (get_name s) name) as [<-|Hne].
  - unfold map_insert in H. destruct (map_get id bound) eqn:Hg; [discriminate|]. injection H as <- <- <-.
    repeat split. exists (duplicate s). split; [apply set_named_here|reflexivity].
  - apply IH in H. destruct H as (-> & -> & Hg & r & Hs & ->). repeat split; [exact Hg|]. exists r.
    split; [apply set_named_skip; assumption|reflexivity].
Qed.

Lemma import_loop_complete : forall known id name block bound r,
  set_named known name r -> map_get id bound = None ->
  import_loop id name block bound known = Ok (block, Core_OpExtInstImport (Build_OpExtInstImport id name), (id, r) :: bound).
Proof.
  induction known as [|s known IH]; intros id name block bound r Hs Hg.
  - destruct Hs as ([|] & ? & ? & Eq & _); discriminate.
  - cbn [import_loop]. destruct (String.eqb_spec (get_name s) name) as [<-|Hne].
    + unfold map_insert. rewrite Hg.
      rewrite (set_named_fun _ _ _ _ Hs (set_named_here known s)). reflexivity.
    + apply IH; [|exact Hg]. eapply set_named_cons_ne; eassumption.
Qed.

Lemma import_loop_duplicate : forall known id name block bound r r',
  set_named known name r -> map_get id bound = Some r' ->
  import_loop id name block bound known = Err (DuplicateResultId id).
Proof.
  induction known as [|s known IH]; intros id name block bound r r' Hs Hg.
  - destruct Hs as ([|] & ? & ? & Eq & _); discriminate.
  - cbn [import_loop]. destruct (String.eqb_spec (get_name s) name) as [<-|Hne].
    + unfold map_insert. rewrite Hg. reflexivity.
    + eapply IH; [|exact Hg]. eapply set_named_cons_ne; eassumption.
Qed.

Lemma import_loop_unknown : forall known id name block bound,
  Forall (fun s => get_name s <> name) known ->
  import_loop id name block bound known = Err (UnknownInstSet name).
Proof.
  induction known as [|s known IH]; intros id name block bound F; cbn [import_loop]; [reflexivity|].
  inversion F; subst. destruct (String.eqb_spec (get_name s) name); [contradiction|]. apply IH. assumption.
Qed.

Lemma import_loop_total : forall known id name block bound,
  match import_loop id name block bound known with Ok _ | Err _ => True | _ => False end.
Proof.
  induction known as [|s known IH]; intros; cbn [import_loop]; [exact I|].
  destruct (String.eqb (get_name s) name); [|apply IH]. unfold map_insert. destruct (map_get id bound); exact I.
Qed.

Lemma bound_inv_import : forall known earlier bound id name r,
  bound_inv known earlier bound -> map_get id bound = None -> set_named known name r ->
  bound_inv known (earlier ++ [Core_OpExtInstImport (Build_OpExtInstImport id name)]) ((id, r) :: bound).
Proof.
  intros known earlier bound id name r [H1 H2] Hg Hs. split.
  - intros id' r' H. cbn [map_get] in H. destruct (N.eqb_spec id' id) as [->|Hne].
    + injection H as <-. exists name. split; [apply in_or_app; right; left; reflexivity|exact Hs].
    + apply H1 in H. destruct H as (n & Hin & Hs'). exists n. split; [apply in_or_app; left; exact Hin|exact Hs'].
  - intros id' name' Hin. cbn [map_get]. apply in_app_or in Hin. destruct Hin as [Hin|[Eq|[]]].
    + apply H2 in Hin. destruct Hin as (r' & Hg' & Hs'). destruct (N.eqb_spec id' id) as [->|Hne]; [congruence|eauto].
    + injection Eq as -> ->. rewrite N.eqb_refl. eauto.
Qed.

Lemma bound_inv_none : forall known earlier bound id, bound_inv known earlier bound ->
  (map_get id bound = None <-> forall name, ~ In (Core_OpExtInstImport (Build_OpExtInstImport id name)) earlier).
Proof.
  intros known earlier bound id [H1 H2]. split.
  - intros Hg name Hin. apply H2 in Hin. destruct Hin as (r & Hg' & _). congruence.
  - intro Hn. destruct (map_get id bound) as [r|] eqn:Hg; [|reflexivity].
    apply H1 in Hg. destruct Hg as (name & Hin & _). exfalso. exact (Hn name Hin).
Qed.

(** ** The dispatch table *)

(* [f] reads the instructions with opcode [id] *)
Definition reads (id : N) (f : @CoreReader E) : Prop :=
  forall known earlier bound block inst bound', bound_inv known earlier bound -> Forall word block ->
    f block known bound = Ok ([], inst, bound') ->
    opcode inst = id /\ wire_instruction known earlier inst block /\ bound_inv known (earlier ++ [inst]) bound'.

Lemma plain_reads : forall {A} (R : Reader A) repr fixed ops req (wrap : A -> Core E) id,
  OpReads R repr fixed ops req ->
  (forall a, opcode (wrap a) = id) -> (forall a, not_import (wrap a)) ->
  (forall known earlier a b, repr a -> wire_operands (ops a) b -> wire_instruction known earlier (wrap a) b) ->
  reads id (plain R wrap).
Proof.
  intros A R repr fixed ops req wrap id O Hop Hni Hw known earlier bound block inst bound' Hi Hb H.
  unfold plain in H. apply bind_ok in H. destruct H as ([b a] & H1 & H). injection H as -> <- <-.
  apply (op_sound _ _ _ _ _ O) in H1; [|assumption]. destruct H1 as (pre & -> & Hr & H1). rewrite app_nil_r.
  split; [apply Hop|]. split; [apply Hw; assumption|]. apply bound_inv_skip; [apply Hni|exact Hi].
Qed.

Lemma reads_import : reads 11 read_core_OpExtInstImport.
Proof.
  intros known earlier bound block inst bound' Hi Hb H. unfold read_core_OpExtInstImport in H.
  do 2 sound_step H. apply import_loop_sound in H. destruct H as (<- & -> & Hg & rd & Hs & ->).
  split; [reflexivity|]. split.
  - cbn [wire_instruction OpExtInstImport_result_id OpExtInstImport_name]. split; [|split].
    + unfold_ops. rewrite app_nil_r. wire_split; assumption.
    + exists rd. exact Hs.
    + apply (bound_inv_none _ _ _ _ Hi). exact Hg.
  - apply bound_inv_import; assumption.
Qed.

Lemma reads_ext : reads 12 read_core_OpExtInst.
Proof.
  intros known earlier bound block inst bound' Hi Hb H. unfold read_core_OpExtInst in H.
  do 4 sound_step H. match type of H with context [map_get ?id bound] => destruct (map_get id bound) as [rd|] eqn:Hg end; [|discriminate].
  apply bind_ok in H. destruct H as ([b x] & Hr & H). injection H as -> <- <-.
  repeat match goal with H : wire_operands (num _) _ |- _ => apply wire_num in H; subst end.
  split; [reflexivity|]. split.
  - cbn [wire_instruction OpExtInst_result_type OpExtInst_result_id OpExtInst_set OpExtInst_instruction].
    eexists _, _, rd. split; [reflexivity|]. split; [|exact Hr]. apply (proj1 Hi). exact Hg.
  - apply bound_inv_skip; [exact I|exact Hi].
Qed.

Definition dispatch_table : list (N * @CoreReader E) :=
  [(0, read_core_OpNop);
   (1, read_core_OpUndef);
   (2, read_core_OpSourceContinued);
   (3, read_core_OpSource);
   (4, read_core_OpSourceExtension);
   (5, read_core_OpName);
   (6, read_core_OpMemberName);
   (7, read_core_OpString);
   (10, read_core_OpExtension);
   (11, read_core_OpExtInstImport);
   (12, read_core_OpExtInst);
   (14, read_core_OpMemoryModel);
   (15, read_core_OpEntryPoint);
   (16, read_core_OpExecutionMode);
   (17, read_core_OpCapability);
   (19, read_core_OpTypeVoid);
   (20, read_core_OpTypeBool);
   (21, read_core_OpTypeInt);
   (22, read_core_OpTypeFloat);
   (23, read_core_OpTypeVector);
   (24, read_core_OpTypeMatrix);
   (25, read_core_OpTypeImage);
   (26, read_core_OpTypeSampler);
   (27, read_core_OpTypeSampledImage);
   (28, read_core_OpTypeArray);
   (29, read_core_OpTypeRuntimeArray);
   (30, read_core_OpTypeStruct);
   (31, read_core_OpTypeOpaque);
   (32, read_core_OpTypePointer);
   (33, read_core_OpTypeFunction);
   (43, read_core_OpConstant);
   (44, read_core_OpConstantComposite);
   (54, read_core_OpFunction);
   (55, read_core_OpFunctionParameter);
   (56, read_core_OpFunctionEnd);
   (59, read_core_OpVariable);
   (61, read_core_OpLoad);
   (62, read_core_OpStore);
   (65, read_core_OpAccessChain);
   (71, read_core_OpDecorate);
   (72, read_core_OpMemberDecorate);
   (112, read_core_OpConvertUToF);
   (124, read_core_OpBitcast);
   (128, read_core_OpIAdd);
   (129, read_core_OpFAdd);
   (130, read_core_OpISub);
   (131, read_core_OpFSub);
   (132, read_core_OpIMul);
   (133, read_core_OpFMul);
   (134, read_core_OpUDiv);
   (135, read_core_OpSDiv);
   (136, read_core_OpFDiv);
   (137, read_core_OpUMod);
   (138, read_core_OpSRem);
   (139, read_core_OpSMod);
   (140, read_core_OpFRem);
   (141, read_core_OpFMod);
   (149, read_core_OpIAddCarry);
   (150, read_core_OpISubBorrow);
   (151, read_core_OpUMulExtended);
   (152, read_core_OpSMulExtended);
   (170, read_core_OpIEqual);
   (171, read_core_OpINotEqual);
   (172, read_core_OpUGreaterThan);
   (173, read_core_OpSGreaterThan);
   (174, read_core_OpUGreaterThanEqual);
   (175, read_core_OpSGreaterThanEqual);
   (176, read_core_OpULessThan);
   (177, read_core_OpSLessThan);
   (178, read_core_OpULessThanEqual);
   (179, read_core_OpSLessThanEqual);
   (180, read_core_OpFOrdEqual);
   (181, read_core_OpFUnordEqual);
   (182, read_core_OpFOrdNotEqual);
   (183, read_core_OpFUnordNotEqual);
   (184, read_core_OpFOrdLessThan);
   (185, read_core_OpFUnordLessThan);
   (186, read_core_OpFOrdGreaterThan);
   (187, read_core_OpFUnordGreaterThan);
   (188, read_core_OpFOrdLessThanEqual);
   (189, read_core_OpFUnordLessThanEqual);
   (190, read_core_OpFOrdGreaterThanEqual);
   (191, read_core_OpFUnordGreaterThanEqual);
   (197, read_core_OpBitwiseOr);
   (198, read_core_OpBitwiseXor);
   (199, read_core_OpBitwiseAnd);
   (245, read_core_OpPhi);
   (246, read_core_OpLoopMerge);
   (247, read_core_OpSelectionMerge);
   (248, read_core_OpLabel);
   (249, read_core_OpBranch);
   (250, read_core_OpBranchConditional);
   (253, read_core_OpReturn)].

Lemma map_get_in : forall {A} (m : list (N * A)) k v, map_get k m = Some v -> In (k, v) m.
Proof.
  induction m as [|[k' v'] m IH]; intros k v H; cbn [map_get] in H; [discriminate|].
  destruct (N.eqb_spec k k') as [->|]; [injection H as ->; left; reflexivity|right; apply IH; exact H].
Qed.

Lemma dispatch_in_table : forall id wc f, dispatch id wc = Ok f -> In (id, f) dispatch_table.
Proof.
  intros id wc f H. unfold dispatch in H.
  repeat (match type of H with context [match ?x with _ => _ end] => is_var x; destruct x; try discriminate H end);
    injection H as <-; apply map_get_in; reflexivity.
Qed.

Lemma table_reads : Forall (fun p => reads (fst p) (snd p)) dispatch_table.
Proof.
  unfold dispatch_table.
  apply Forall_cons; [apply (plain_reads _ _ _ _ _ _ _ (op_OpNop (E := E))); [reflexivity|intro; exact I|intros known earlier a b Hr H; split; [split; [exact I|first [exact I|exact Hr]]|exact H]]|].
  apply Forall_cons; [apply (plain_reads _ _ _ _ _ _ _ (op_OpUndef (E := E))); [reflexivity|intro; exact I|intros known earlier a b Hr H; split; [split; [exact I|first [exact I|exact Hr]]|exact H]]|].
  apply Forall_cons; [apply (plain_reads _ _ _ _ _ _ _ (op_OpSourceContinued (E := E))); [reflexivity|intro; exact I|intros known earlier a b Hr H; split; [split; [exact I|first [exact I|exact Hr]]|exact H]]|].
  apply Forall_cons; [apply (plain_reads _ _ _ _ _ _ _ (op_OpSource (E := E))); [reflexivity|intro; exact I|intros known earlier a b Hr H; split; [split; [exact I|first [exact I|exact Hr]]|exact H]]|].
  apply Forall_cons; [apply (plain_reads _ _ _ _ _ _ _ (op_OpSourceExtension (E := E))); [reflexivity|intro; exact I|intros known earlier a b Hr H; split; [split; [exact I|first [exact I|exact Hr]]|exact H]]|].
  apply Forall_cons; [apply (plain_reads _ _ _ _ _ _ _ (op_OpName (E := E))); [reflexivity|intro; exact I|intros known earlier a b Hr H; split; [split; [exact I|first [exact I|exact Hr]]|exact H]]|].
  apply Forall_cons; [apply (plain_reads _ _ _ _ _ _ _ (op_OpMemberName (E := E))); [reflexivity|intro; exact I|intros known earlier a b Hr H; split; [split; [exact I|first [exact I|exact Hr]]|exact H]]|].
  apply Forall_cons; [apply (plain_reads _ _ _ _ _ _ _ (op_OpString (E := E))); [reflexivity|intro; exact I|intros known earlier a b Hr H; split; [split; [exact I|first [exact I|exact Hr]]|exact H]]|].
  apply Forall_cons; [apply (plain_reads _ _ _ _ _ _ _ (op_OpExtension (E := E))); [reflexivity|intro; exact I|intros known earlier a b Hr H; split; [split; [exact I|first [exact I|exact Hr]]|exact H]]|].
  apply Forall_cons; [exact reads_import|].
  apply Forall_cons; [exact reads_ext|].
  apply Forall_cons; [apply (plain_reads _ _ _ _ _ _ _ (op_OpMemoryModel (E := E))); [reflexivity|intro; exact I|intros known earlier a b Hr H; split; [split; [exact I|first [exact I|exact Hr]]|exact H]]|].
  apply Forall_cons; [apply (plain_reads _ _ _ _ _ _ _ (op_OpEntryPoint (E := E))); [reflexivity|intro; exact I|intros known earlier a b Hr H; split; [split; [exact I|first [exact I|exact Hr]]|exact H]]|].
  apply Forall_cons; [apply (plain_reads _ _ _ _ _ _ _ (op_OpExecutionMode (E := E))); [reflexivity|intro; exact I|intros known earlier a b Hr H; split; [split; [exact I|first [exact I|exact Hr]]|exact H]]|].
  apply Forall_cons; [apply (plain_reads _ _ _ _ _ _ _ (op_OpCapability (E := E))); [reflexivity|intro; exact I|intros known earlier a b Hr H; split; [split; [exact I|first [exact I|exact Hr]]|exact H]]|].
  apply Forall_cons; [apply (plain_reads _ _ _ _ _ _ _ (op_OpTypeVoid (E := E))); [reflexivity|intro; exact I|intros known earlier a b Hr H; split; [split; [exact I|first [exact I|exact Hr]]|exact H]]|].
  apply Forall_cons; [apply (plain_reads _ _ _ _ _ _ _ (op_OpTypeBool (E := E))); [reflexivity|intro; exact I|intros known earlier a b Hr H; split; [split; [exact I|first [exact I|exact Hr]]|exact H]]|].
  apply Forall_cons; [apply (plain_reads _ _ _ _ _ _ _ (op_OpTypeInt (E := E))); [reflexivity|intro; exact I|intros known earlier a b Hr H; split; [split; [exact I|first [exact I|exact Hr]]|exact H]]|].
  apply Forall_cons; [apply (plain_reads _ _ _ _ _ _ _ (op_OpTypeFloat (E := E))); [reflexivity|intro; exact I|intros known earlier a b Hr H; split; [split; [exact I|first [exact I|exact Hr]]|exact H]]|].
  apply Forall_cons; [apply (plain_reads _ _ _ _ _ _ _ (op_OpTypeVector (E := E))); [reflexivity|intro; exact I|intros known earlier a b Hr H; split; [split; [exact I|first [exact I|exact Hr]]|exact H]]|].
  apply Forall_cons; [apply (plain_reads _ _ _ _ _ _ _ (op_OpTypeMatrix (E := E))); [reflexivity|intro; exact I|intros known earlier a b Hr H; split; [split; [exact I|first [exact I|exact Hr]]|exact H]]|].
  apply Forall_cons; [apply (plain_reads _ _ _ _ _ _ _ (op_OpTypeImage (E := E))); [reflexivity|intro; exact I|intros known earlier a b Hr H; split; [split; [exact I|first [exact I|exact Hr]]|exact H]]|].
  apply Forall_cons; [apply (plain_reads _ _ _ _ _ _ _ (op_OpTypeSampler (E := E))); [reflexivity|intro; exact I|intros known earlier a b Hr H; split; [split; [exact I|first [exact I|exact Hr]]|exact H]]|].
  apply Forall_cons; [apply (plain_reads _ _ _ _ _ _ _ (op_OpTypeSampledImage (E := E))); [reflexivity|intro; exact I|intros known earlier a b Hr H; split; [split; [exact I|first [exact I|exact Hr]]|exact H]]|].
  apply Forall_cons; [apply (plain_reads _ _ _ _ _ _ _ (op_OpTypeArray (E := E))); [reflexivity|intro; exact I|intros known earlier a b Hr H; split; [split; [exact I|first [exact I|exact Hr]]|exact H]]|].
  apply Forall_cons; [apply (plain_reads _ _ _ _ _ _ _ (op_OpTypeRuntimeArray (E := E))); [reflexivity|intro; exact I|intros known earlier a b Hr H; split; [split; [exact I|first [exact I|exact Hr]]|exact H]]|].
  apply Forall_cons; [apply (plain_reads _ _ _ _ _ _ _ (op_OpTypeStruct (E := E))); [reflexivity|intro; exact I|intros known earlier a b Hr H; split; [split; [exact I|first [exact I|exact Hr]]|exact H]]|].
  apply Forall_cons; [apply (plain_reads _ _ _ _ _ _ _ (op_OpTypeOpaque (E := E))); [reflexivity|intro; exact I|intros known earlier a b Hr H; split; [split; [exact I|first [exact I|exact Hr]]|exact H]]|].
  apply Forall_cons; [apply (plain_reads _ _ _ _ _ _ _ (op_OpTypePointer (E := E))); [reflexivity|intro; exact I|intros known earlier a b Hr H; split; [split; [exact I|first [exact I|exact Hr]]|exact H]]|].
  apply Forall_cons; [apply (plain_reads _ _ _ _ _ _ _ (op_OpTypeFunction (E := E))); [reflexivity|intro; exact I|intros known earlier a b Hr H; split; [split; [exact I|first [exact I|exact Hr]]|exact H]]|].
  apply Forall_cons; [apply (plain_reads _ _ _ _ _ _ _ (op_OpConstant (E := E))); [reflexivity|intro; exact I|intros known earlier a b Hr H; split; [split; [exact I|first [exact I|exact Hr]]|exact H]]|].
  apply Forall_cons; [apply (plain_reads _ _ _ _ _ _ _ (op_OpConstantComposite (E := E))); [reflexivity|intro; exact I|intros known earlier a b Hr H; split; [split; [exact I|first [exact I|exact Hr]]|exact H]]|].
  apply Forall_cons; [apply (plain_reads _ _ _ _ _ _ _ (op_OpFunction (E := E))); [reflexivity|intro; exact I|intros known earlier a b Hr H; split; [split; [exact I|first [exact I|exact Hr]]|exact H]]|].
  apply Forall_cons; [apply (plain_reads _ _ _ _ _ _ _ (op_OpFunctionParameter (E := E))); [reflexivity|intro; exact I|intros known earlier a b Hr H; split; [split; [exact I|first [exact I|exact Hr]]|exact H]]|].
  apply Forall_cons; [apply (plain_reads _ _ _ _ _ _ _ (op_OpFunctionEnd (E := E))); [reflexivity|intro; exact I|intros known earlier a b Hr H; split; [split; [exact I|first [exact I|exact Hr]]|exact H]]|].
  apply Forall_cons; [apply (plain_reads _ _ _ _ _ _ _ (op_OpVariable (E := E))); [reflexivity|intro; exact I|intros known earlier a b Hr H; split; [split; [exact I|first [exact I|exact Hr]]|exact H]]|].
  apply Forall_cons; [apply (plain_reads _ _ _ _ _ _ _ (op_OpLoad (E := E))); [reflexivity|intro; exact I|intros known earlier a b Hr H; split; [split; [exact I|first [exact I|exact Hr]]|exact H]]|].
  apply Forall_cons; [apply (plain_reads _ _ _ _ _ _ _ (op_OpStore (E := E))); [reflexivity|intro; exact I|intros known earlier a b Hr H; split; [split; [exact I|first [exact I|exact Hr]]|exact H]]|].
  apply Forall_cons; [apply (plain_reads _ _ _ _ _ _ _ (op_OpAccessChain (E := E))); [reflexivity|intro; exact I|intros known earlier a b Hr H; split; [split; [exact I|first [exact I|exact Hr]]|exact H]]|].
  apply Forall_cons; [apply (plain_reads _ _ _ _ _ _ _ (op_OpDecorate (E := E))); [reflexivity|intro; exact I|intros known earlier a b Hr H; split; [split; [exact I|first [exact I|exact Hr]]|exact H]]|].
  apply Forall_cons; [apply (plain_reads _ _ _ _ _ _ _ (op_OpMemberDecorate (E := E))); [reflexivity|intro; exact I|intros known earlier a b Hr H; split; [split; [exact I|first [exact I|exact Hr]]|exact H]]|].
  apply Forall_cons; [apply (plain_reads _ _ _ _ _ _ _ (op_OpConvertUToF (E := E))); [reflexivity|intro; exact I|intros known earlier a b Hr H; split; [split; [exact I|first [exact I|exact Hr]]|exact H]]|].
  apply Forall_cons; [apply (plain_reads _ _ _ _ _ _ _ (op_OpBitcast (E := E))); [reflexivity|intro; exact I|intros known earlier a b Hr H; split; [split; [exact I|first [exact I|exact Hr]]|exact H]]|].
  apply Forall_cons; [apply (plain_reads _ _ _ _ _ _ _ (op_OpIAdd (E := E))); [reflexivity|intro; exact I|intros known earlier a b Hr H; split; [split; [exact I|first [exact I|exact Hr]]|exact H]]|].
  apply Forall_cons; [apply (plain_reads _ _ _ _ _ _ _ (op_OpFAdd (E := E))); [reflexivity|intro; exact I|intros known earlier a b Hr H; split; [split; [exact I|first [exact I|exact Hr]]|exact H]]|].
  apply Forall_cons; [apply (plain_reads _ _ _ _ _ _ _ (op_OpISub (E := E))); [reflexivity|intro; exact I|intros known earlier a b Hr H; split; [split; [exact I|first [exact I|exact Hr]]|exact H]]|].
  apply Forall_cons; [apply (plain_reads _ _ _ _ _ _ _ (op_OpFSub (E := E))); [reflexivity|intro; exact I|intros known earlier a b Hr H; split; [split; [exact I|first [exact I|exact Hr]]|exact H]]|].
  apply Forall_cons; [apply (plain_reads _ _ _ _ _ _ _ (op_OpIMul (E := E))); [reflexivity|intro; exact I|intros known earlier a b Hr H; split; [split; [exact I|first [exact I|exact Hr]]|exact H]]|].
  apply Forall_cons; [apply (plain_reads _ _ _ _ _ _ _ (op_OpFMul (E := E))); [reflexivity|intro; exact I|intros known earlier a b Hr H; split; [split; [exact I|first [exact I|exact Hr]]|exact H]]|].
  apply Forall_cons; [apply (plain_reads _ _ _ _ _ _ _ (op_OpUDiv (E := E))); [reflexivity|intro; exact I|intros known earlier a b Hr H; split; [split; [exact I|first [exact I|exact Hr]]|exact H]]|].
  apply Forall_cons; [apply (plain_reads _ _ _ _ _ _ _ (op_OpSDiv (E := E))); [reflexivity|intro; exact I|intros known earlier a b Hr H; split; [split; [exact I|first [exact I|exact Hr]]|exact H]]|].
  apply Forall_cons; [apply (plain_reads _ _ _ _ _ _ _ (op_OpFDiv (E := E))); [reflexivity|intro; exact I|intros known earlier a b Hr H; split; [split; [exact I|first [exact I|exact Hr]]|exact H]]|].
  apply Forall_cons; [apply (plain_reads _ _ _ _ _ _ _ (op_OpUMod (E := E))); [reflexivity|intro; exact I|intros known earlier a b Hr H; split; [split; [exact I|first [exact I|exact Hr]]|exact H]]|].
  apply Forall_cons; [apply (plain_reads _ _ _ _ _ _ _ (op_OpSRem (E := E))); [reflexivity|intro; exact I|intros known earlier a b Hr H; split; [split; [exact I|first [exact I|exact Hr]]|exact H]]|].
  apply Forall_cons; [apply (plain_reads _ _ _ _ _ _ _ (op_OpSMod (E := E))); [reflexivity|intro; exact I|intros known earlier a b Hr H; split; [split; [exact I|first [exact I|exact Hr]]|exact H]]|].
  apply Forall_cons; [apply (plain_reads _ _ _ _ _ _ _ (op_OpFRem (E := E))); [reflexivity|intro; exact I|intros known earlier a b Hr H; split; [split; [exact I|first [exact I|exact Hr]]|exact H]]|].
  apply Forall_cons; [apply (plain_reads _ _ _ _ _ _ _ (op_OpFMod (E := E))); [reflexivity|intro; exact I|intros known earlier a b Hr H; split; [split; [exact I|first [exact I|exact Hr]]|exact H]]|].
  apply Forall_cons; [apply (plain_reads _ _ _ _ _ _ _ (op_OpIAddCarry (E := E))); [reflexivity|intro; exact I|intros known earlier a b Hr H; split; [split; [exact I|first [exact I|exact Hr]]|exact H]]|].
  apply Forall_cons; [apply (plain_reads _ _ _ _ _ _ _ (op_OpISubBorrow (E := E))); [reflexivity|intro; exact I|intros known earlier a b Hr H; split; [split; [exact I|first [exact I|exact Hr]]|exact H]]|].
  apply Forall_cons; [apply (plain_reads _ _ _ _ _ _ _ (op_OpUMulExtended (E := E))); [reflexivity|intro; exact I|intros known earlier a b Hr H; split; [split; [exact I|first [exact I|exact Hr]]|exact H]]|].
  apply Forall_cons; [apply (plain_reads _ _ _ _ _ _ _ (op_OpSMulExtended (E := E))); [reflexivity|intro; exact I|intros known earlier a b Hr H; split; [split; [exact I|first [exact I|exact Hr]]|exact H]]|].
  apply Forall_cons; [apply (plain_reads _ _ _ _ _ _ _ (op_OpIEqual (E := E))); [reflexivity|intro; exact I|intros known earlier a b Hr H; split; [split; [exact I|first [exact I|exact Hr]]|exact H]]|].
  apply Forall_cons; [apply (plain_reads _ _ _ _ _ _ _ (op_OpINotEqual (E := E))); [reflexivity|intro; exact I|intros known earlier a b Hr H; split; [split; [exact I|first [exact I|exact Hr]]|exact H]]|].
  apply Forall_cons; [apply (plain_reads _ _ _ _ _ _ _ (op_OpUGreaterThan (E := E))); [reflexivity|intro; exact I|intros known earlier a b Hr H; split; [split; [exact I|first [exact I|exact Hr]]|exact H]]|].
  apply Forall_cons; [apply (plain_reads _ _ _ _ _ _ _ (op_OpSGreaterThan (E := E))); [reflexivity|intro; exact I|intros known earlier a b Hr H; split; [split; [exact I|first [exact I|exact Hr]]|exact H]]|].
  apply Forall_cons; [apply (plain_reads _ _ _ _ _ _ _ (op_OpUGreaterThanEqual (E := E))); [reflexivity|intro; exact I|intros known earlier a b Hr H; split; [split; [exact I|first [exact I|exact Hr]]|exact H]]|].
  apply Forall_cons; [apply (plain_reads _ _ _ _ _ _ _ (op_OpSGreaterThanEqual (E := E))); [reflexivity|intro; exact I|intros known earlier a b Hr H; split; [split; [exact I|first [exact I|exact Hr]]|exact H]]|].
  apply Forall_cons; [apply (plain_reads _ _ _ _ _ _ _ (op_OpULessThan (E := E))); [reflexivity|intro; exact I|intros known earlier a b Hr H; split; [split; [exact I|first [exact I|exact Hr]]|exact H]]|].
  apply Forall_cons; [apply (plain_reads _ _ _ _ _ _ _ (op_OpSLessThan (E := E))); [reflexivity|intro; exact I|intros known earlier a b Hr H; split; [split; [exact I|first [exact I|exact Hr]]|exact H]]|].
  apply Forall_cons; [apply (plain_reads _ _ _ _ _ _ _ (op_OpULessThanEqual (E := E))); [reflexivity|intro; exact I|intros known earlier a b Hr H; split; [split; [exact I|first [exact I|exact Hr]]|exact H]]|].
  apply Forall_cons; [apply (plain_reads _ _ _ _ _ _ _ (op_OpSLessThanEqual (E := E))); [reflexivity|intro; exact I|intros known earlier a b Hr H; split; [split; [exact I|first [exact I|exact Hr]]|exact H]]|].
  apply Forall_cons; [apply (plain_reads _ _ _ _ _ _ _ (op_OpFOrdEqual (E := E))); [reflexivity|intro; exact I|intros known earlier a b Hr H; split; [split; [exact I|first [exact I|exact Hr]]|exact H]]|].
  apply Forall_cons; [apply (plain_reads _ _ _ _ _ _ _ (op_OpFUnordEqual (E := E))); [reflexivity|intro; exact I|intros known earlier a b Hr H; split; [split; [exact I|first [exact I|exact Hr]]|exact H]]|].
  apply Forall_cons; [apply (plain_reads _ _ _ _ _ _ _ (op_OpFOrdNotEqual (E := E))); [reflexivity|intro; exact I|intros known earlier a b Hr H; split; [split; [exact I|first [exact I|exact Hr]]|exact H]]|].
  apply Forall_cons; [apply (plain_reads _ _ _ _ _ _ _ (op_OpFUnordNotEqual (E := E))); [reflexivity|intro; exact I|intros known earlier a b Hr H; split; [split; [exact I|first [exact I|exact Hr]]|exact H]]|].
  apply Forall_cons; [apply (plain_reads _ _ _ _ _ _ _ (op_OpFOrdLessThan (E := E))); [reflexivity|intro; exact I|intros known earlier a b Hr H; split; [split; [exact I|first [exact I|exact Hr]]|exact H]]|].
  apply Forall_cons; [apply (plain_reads _ _ _ _ _ _ _ (op_OpFUnordLessThan (E := E))); [reflexivity|intro; exact I|intros known earlier a b Hr H; split; [split; [exact I|first [exact I|exact Hr]]|exact H]]|].
  apply Forall_cons; [apply (plain_reads _ _ _ _ _ _ _ (op_OpFOrdGreaterThan (E := E))); [reflexivity|intro; exact I|intros known earlier a b Hr H; split; [split; [exact I|first [exact I|exact Hr]]|exact H]]|].
  apply Forall_cons; [apply (plain_reads _ _ _ _ _ _ _ (op_OpFUnordGreaterThan (E := E))); [reflexivity|intro; exact I|intros known earlier a b Hr H; split; [split; [exact I|first [exact I|exact Hr]]|exact H]]|].
  apply Forall_cons; [apply (plain_reads _ _ _ _ _ _ _ (op_OpFOrdLessThanEqual (E := E))); [reflexivity|intro; exact I|intros known earlier a b Hr H; split; [split; [exact I|first [exact I|exact Hr]]|exact H]]|].
  apply Forall_cons; [apply (plain_reads _ _ _ _ _ _ _ (op_OpFUnordLessThanEqual (E := E))); [reflexivity|intro; exact I|intros known earlier a b Hr H; split; [split; [exact I|first [exact I|exact Hr]]|exact H]]|].
  apply Forall_cons; [apply (plain_reads _ _ _ _ _ _ _ (op_OpFOrdGreaterThanEqual (E := E))); [reflexivity|intro; exact I|intros known earlier a b Hr H; split; [split; [exact I|first [exact I|exact Hr]]|exact H]]|].
  apply Forall_cons; [apply (plain_reads _ _ _ _ _ _ _ (op_OpFUnordGreaterThanEqual (E := E))); [reflexivity|intro; exact I|intros known earlier a b Hr H; split; [split; [exact I|first [exact I|exact Hr]]|exact H]]|].
  apply Forall_cons; [apply (plain_reads _ _ _ _ _ _ _ (op_OpBitwiseOr (E := E))); [reflexivity|intro; exact I|intros known earlier a b Hr H; split; [split; [exact I|first [exact I|exact Hr]]|exact H]]|].
  apply Forall_cons; [apply (plain_reads _ _ _ _ _ _ _ (op_OpBitwiseXor (E := E))); [reflexivity|intro; exact I|intros known earlier a b Hr H; split; [split; [exact I|first [exact I|exact Hr]]|exact H]]|].
  apply Forall_cons; [apply (plain_reads _ _ _ _ _ _ _ (op_OpBitwiseAnd (E := E))); [reflexivity|intro; exact I|intros known earlier a b Hr H; split; [split; [exact I|first [exact I|exact Hr]]|exact H]]|].
  apply Forall_cons; [apply (plain_reads _ _ _ _ _ _ _ (op_OpPhi (E := E))); [reflexivity|intro; exact I|intros known earlier a b Hr H; split; [split; [exact I|first [exact I|exact Hr]]|exact H]]|].
  apply Forall_cons; [apply (plain_reads _ _ _ _ _ _ _ (op_OpLoopMerge (E := E))); [reflexivity|intro; exact I|intros known earlier a b Hr H; split; [split; [exact I|first [exact I|exact Hr]]|exact H]]|].
  apply Forall_cons; [apply (plain_reads _ _ _ _ _ _ _ (op_OpSelectionMerge (E := E))); [reflexivity|intro; exact I|intros known earlier a b Hr H; split; [split; [exact I|first [exact I|exact Hr]]|exact H]]|].
  apply Forall_cons; [apply (plain_reads _ _ _ _ _ _ _ (op_OpLabel (E := E))); [reflexivity|intro; exact I|intros known earlier a b Hr H; split; [split; [exact I|first [exact I|exact Hr]]|exact H]]|].
  apply Forall_cons; [apply (plain_reads _ _ _ _ _ _ _ (op_OpBranch (E := E))); [reflexivity|intro; exact I|intros known earlier a b Hr H; split; [split; [exact I|first [exact I|exact Hr]]|exact H]]|].
  apply Forall_cons; [apply (plain_reads _ _ _ _ _ _ _ (op_OpBranchConditional (E := E))); [reflexivity|intro; exact I|intros known earlier a b Hr H; split; [split; [exact I|first [exact I|exact Hr]]|exact H]]|].
  apply Forall_cons; [apply (plain_reads _ _ _ _ _ _ _ (op_OpReturn (E := E))); [reflexivity|intro; exact I|intros known earlier a b Hr H; split; [split; [exact I|first [exact I|exact Hr]]|exact H]]|].
  apply Forall_nil.
Qed.

Lemma dispatch_reads : forall id wc f, dispatch id wc = Ok f -> reads id f.
Proof.
  intros id wc f H. apply dispatch_in_table in H.
  pose proof table_reads as T. rewrite Forall_forall in T. apply (T (id, f) H).
Qed.

(** ** From instructions to readers *)

Definition reader_of (i : Core E) : @CoreReader E :=
  match i with
  | Core_OpNop _ => read_core_OpNop
  | Core_OpUndef _ => read_core_OpUndef
  | Core_OpSourceContinued _ => read_core_OpSourceContinued
  | Core_OpSource _ => read_core_OpSource
  | Core_OpSourceExtension _ => read_core_OpSourceExtension
  | Core_OpName _ => read_core_OpName
  | Core_OpMemberName _ => read_core_OpMemberName
  | Core_OpString _ => read_core_OpString
  | Core_OpExtension _ => read_core_OpExtension
  | Core_OpExtInstImport _ => read_core_OpExtInstImport
  | Core_OpExtInst _ => read_core_OpExtInst
  | Core_OpMemoryModel _ => read_core_OpMemoryModel
  | Core_OpEntryPoint _ => read_core_OpEntryPoint
  | Core_OpExecutionMode _ => read_core_OpExecutionMode
  | Core_OpCapability _ => read_core_OpCapability
  | Core_OpTypeVoid _ => read_core_OpTypeVoid
  | Core_OpTypeBool _ => read_core_OpTypeBool
  | Core_OpTypeInt _ => read_core_OpTypeInt
  | Core_OpTypeFloat _ => read_core_OpTypeFloat
  | Core_OpTypeVector _ => read_core_OpTypeVector
  | Core_OpTypeMatrix _ => read_core_OpTypeMatrix
  | Core_OpTypeImage _ => read_core_OpTypeImage
  | Core_OpTypeSampler _ => read_core_OpTypeSampler
  | Core_OpTypeSampledImage _ => read_core_OpTypeSampledImage
  | Core_OpTypeArray _ => read_core_OpTypeArray
  | Core_OpTypeRuntimeArray _ => read_core_OpTypeRuntimeArray
  | Core_OpTypeStruct _ => read_core_OpTypeStruct
  | Core_OpTypeOpaque _ => read_core_OpTypeOpaque
  | Core_OpTypePointer _ => read_core_OpTypePointer
  | Core_OpTypeFunction _ => read_core_OpTypeFunction
  | Core_OpConstant _ => read_core_OpConstant
  | Core_OpConstantComposite _ => read_core_OpConstantComposite
  | Core_OpFunction _ => read_core_OpFunction
  | Core_OpFunctionParameter _ => read_core_OpFunctionParameter
  | Core_OpFunctionEnd _ => read_core_OpFunctionEnd
  | Core_OpVariable _ => read_core_OpVariable
  | Core_OpLoad _ => read_core_OpLoad
  | Core_OpStore _ => read_core_OpStore
  | Core_OpAccessChain _ => read_core_OpAccessChain
  | Core_OpDecorate _ => read_core_OpDecorate
  | Core_OpMemberDecorate _ => read_core_OpMemberDecorate
  | Core_OpConvertUToF _ => read_core_OpConvertUToF
  | Core_OpBitcast _ => read_core_OpBitcast
  | Core_OpIAdd _ => read_core_OpIAdd
  | Core_OpFAdd _ => read_core_OpFAdd
  | Core_OpISub _ => read_core_OpISub
  | Core_OpFSub _ => read_core_OpFSub
  | Core_OpIMul _ => read_core_OpIMul
  | Core_OpFMul _ => read_core_OpFMul
  | Core_OpUDiv _ => read_core_OpUDiv
  | Core_OpSDiv _ => read_core_OpSDiv
  | Core_OpFDiv _ => read_core_OpFDiv
  | Core_OpUMod _ => read_core_OpUMod
  | Core_OpSRem _ => read_core_OpSRem
  | Core_OpSMod _ => read_core_OpSMod
  | Core_OpFRem _ => read_core_OpFRem
  | Core_OpFMod _ => read_core_OpFMod
  | Core_OpIAddCarry _ => read_core_OpIAddCarry
  | Core_OpISubBorrow _ => read_core_OpISubBorrow
  | Core_OpUMulExtended _ => read_core_OpUMulExtended
  | Core_OpSMulExtended _ => read_core_OpSMulExtended
  | Core_OpBitwiseOr _ => read_core_OpBitwiseOr
  | Core_OpBitwiseXor _ => read_core_OpBitwiseXor
  | Core_OpBitwiseAnd _ => read_core_OpBitwiseAnd
  | Core_OpIEqual _ => read_core_OpIEqual
  | Core_OpINotEqual _ => read_core_OpINotEqual
  | Core_OpUGreaterThan _ => read_core_OpUGreaterThan
  | Core_OpSGreaterThan _ => read_core_OpSGreaterThan
  | Core_OpUGreaterThanEqual _ => read_core_OpUGreaterThanEqual
  | Core_OpSGreaterThanEqual _ => read_core_OpSGreaterThanEqual
  | Core_OpULessThan _ => read_core_OpULessThan
  | Core_OpSLessThan _ => read_core_OpSLessThan
  | Core_OpULessThanEqual _ => read_core_OpULessThanEqual
  | Core_OpSLessThanEqual _ => read_core_OpSLessThanEqual
  | Core_OpFOrdEqual _ => read_core_OpFOrdEqual
  | Core_OpFUnordEqual _ => read_core_OpFUnordEqual
  | Core_OpFOrdNotEqual _ => read_core_OpFOrdNotEqual
  | Core_OpFUnordNotEqual _ => read_core_OpFUnordNotEqual
  | Core_OpFOrdLessThan _ => read_core_OpFOrdLessThan
  | Core_OpFUnordLessThan _ => read_core_OpFUnordLessThan
  | Core_OpFOrdGreaterThan _ => read_core_OpFOrdGreaterThan
  | Core_OpFUnordGreaterThan _ => read_core_OpFUnordGreaterThan
  | Core_OpFOrdLessThanEqual _ => read_core_OpFOrdLessThanEqual
  | Core_OpFUnordLessThanEqual _ => read_core_OpFUnordLessThanEqual
  | Core_OpFOrdGreaterThanEqual _ => read_core_OpFOrdGreaterThanEqual
  | Core_OpFUnordGreaterThanEqual _ => read_core_OpFUnordGreaterThanEqual
  | Core_OpPhi _ => read_core_OpPhi
  | Core_OpLoopMerge _ => read_core_OpLoopMerge
  | Core_OpSelectionMerge _ => read_core_OpSelectionMerge
  | Core_OpLabel _ => read_core_OpLabel
  | Core_OpBranch _ => read_core_OpBranch
  | Core_OpBranchConditional _ => read_core_OpBranchConditional
  | Core_OpReturn _ => read_core_OpReturn
  | _ => fun _ _ _ => Panic
  end.

Lemma dispatch_opcode : forall (i : Core E) wc, readable i -> dispatch (opcode i) wc = Ok (reader_of i).
Proof. intros i wc Hr. destruct i; try reflexivity; destruct Hr. Qed.

Lemma plain_complete : forall {A} (R : Reader A) repr fixed ops req (wrap : A -> Core E) a known bound body,
  OpReads R repr fixed ops req -> Forall word body -> repr a -> wire_operands (ops a) body ->
  plain R wrap body known bound = Ok ([], wrap a, bound).
Proof.
  intros A R repr fixed ops req wrap a known bound body O Hb Hr H. unfold plain.
  rewrite (op_complete _ _ _ _ _ O a body) by assumption. reflexivity.
Qed.

Definition next_bound (known : list (ExtInstSet E)) (i : Core E) bound bound' : Prop :=
  match i with
  | Core_OpExtInstImport op => exists r, set_named known (OpExtInstImport_name op) r /\ bound' = (OpExtInstImport_result_id op, r) :: bound
  | _ => bound' = bound
  end.

Lemma wire_readable : forall known earlier (i : Core E) body, wire_instruction known earlier i body -> readable i.
Proof. intros known earlier i body H. destruct i; try exact I; apply H. Qed.

Lemma reader_complete : forall known earlier bound (i : Core E) body,
  bound_inv known earlier bound -> Forall word body -> wire_instruction known earlier i body ->
  exists bound', reader_of i body known bound = Ok ([], i, bound') /\ next_bound known i bound bound'
    /\ bound_inv known (earlier ++ [i]) bound'.
Proof.
  intros known earlier bound i body Hi Hb H.
  destruct i; cbn [reader_of];
    try (exists bound; split; [|split; [reflexivity|apply bound_inv_skip; [exact I|exact Hi]]]).
  { apply (plain_complete _ _ _ _ _ _ _ _ _ _ (op_OpNop (E := E))); [exact Hb|exact I|apply H]. }
  { apply (plain_complete _ _ _ _ _ _ _ _ _ _ (op_OpUndef (E := E))); [exact Hb|exact I|apply H]. }
  { apply (plain_complete _ _ _ _ _ _ _ _ _ _ (op_OpSourceContinued (E := E))); [exact Hb|exact I|apply H]. }
  { apply (plain_complete _ _ _ _ _ _ _ _ _ _ (op_OpSource (E := E))); [exact Hb|apply H|apply H]. }
  { apply (plain_complete _ _ _ _ _ _ _ _ _ _ (op_OpSourceExtension (E := E))); [exact Hb|exact I|apply H]. }
  { apply (plain_complete _ _ _ _ _ _ _ _ _ _ (op_OpName (E := E))); [exact Hb|exact I|apply H]. }
  { apply (plain_complete _ _ _ _ _ _ _ _ _ _ (op_OpMemberName (E := E))); [exact Hb|exact I|apply H]. }
  { apply (plain_complete _ _ _ _ _ _ _ _ _ _ (op_OpString (E := E))); [exact Hb|exact I|apply H]. }
  { apply (plain_complete _ _ _ _ _ _ _ _ _ _ (op_OpExtension (E := E))); [exact Hb|exact I|apply H]. }
  { destruct H as (H & (r & Hs) & Hn). destruct o as [id name]. cbn [OpExtInstImport_result_id OpExtInstImport_name] in *.
    apply (bound_inv_none _ _ _ _ Hi) in Hn. exists ((id, r) :: bound). split; [|split].
    - unfold_ops_in H. wire_inv. words_inv. unfold read_core_OpExtInstImport. complete_step.
      rewrite <- (app_nil_r x0). complete_step. apply import_loop_complete; assumption.
    - exists r. auto.
    - apply bound_inv_import; assumption. }
  { destruct H as (number & rest & r & -> & Himp & Hr). destruct o as [t rid set x].
    cbn [OpExtInst_result_type OpExtInst_result_id OpExtInst_set OpExtInst_instruction] in *.
    cbn [app]. unfold read_core_OpExtInst. cbn [read_OpId read_ResultId read_u32 read_word bind].
    rewrite (bound_inv_get _ _ _ _ _ Hi Himp), Hr. reflexivity. }
  { apply (plain_complete _ _ _ _ _ _ _ _ _ _ (op_OpMemoryModel (E := E))); [exact Hb|exact I|apply H]. }
  { apply (plain_complete _ _ _ _ _ _ _ _ _ _ (op_OpEntryPoint (E := E))); [exact Hb|exact I|apply H]. }
  { apply (plain_complete _ _ _ _ _ _ _ _ _ _ (op_OpExecutionMode (E := E))); [exact Hb|exact I|apply H]. }
  { apply (plain_complete _ _ _ _ _ _ _ _ _ _ (op_OpCapability (E := E))); [exact Hb|exact I|apply H]. }
  { apply (plain_complete _ _ _ _ _ _ _ _ _ _ (op_OpTypeVoid (E := E))); [exact Hb|exact I|apply H]. }
  { apply (plain_complete _ _ _ _ _ _ _ _ _ _ (op_OpTypeBool (E := E))); [exact Hb|exact I|apply H]. }
  { apply (plain_complete _ _ _ _ _ _ _ _ _ _ (op_OpTypeInt (E := E))); [exact Hb|exact I|apply H]. }
  { apply (plain_complete _ _ _ _ _ _ _ _ _ _ (op_OpTypeFloat (E := E))); [exact Hb|exact I|apply H]. }
  { apply (plain_complete _ _ _ _ _ _ _ _ _ _ (op_OpTypeVector (E := E))); [exact Hb|exact I|apply H]. }
  { apply (plain_complete _ _ _ _ _ _ _ _ _ _ (op_OpTypeMatrix (E := E))); [exact Hb|exact I|apply H]. }
  { apply (plain_complete _ _ _ _ _ _ _ _ _ _ (op_OpTypeImage (E := E))); [exact Hb|exact I|apply H]. }
  { apply (plain_complete _ _ _ _ _ _ _ _ _ _ (op_OpTypeSampler (E := E))); [exact Hb|exact I|apply H]. }
  { apply (plain_complete _ _ _ _ _ _ _ _ _ _ (op_OpTypeSampledImage (E := E))); [exact Hb|exact I|apply H]. }
  { apply (plain_complete _ _ _ _ _ _ _ _ _ _ (op_OpTypeArray (E := E))); [exact Hb|exact I|apply H]. }
  { apply (plain_complete _ _ _ _ _ _ _ _ _ _ (op_OpTypeRuntimeArray (E := E))); [exact Hb|exact I|apply H]. }
  { apply (plain_complete _ _ _ _ _ _ _ _ _ _ (op_OpTypeStruct (E := E))); [exact Hb|exact I|apply H]. }
  { apply (plain_complete _ _ _ _ _ _ _ _ _ _ (op_OpTypeOpaque (E := E))); [exact Hb|exact I|apply H]. }
  { apply (plain_complete _ _ _ _ _ _ _ _ _ _ (op_OpTypePointer (E := E))); [exact Hb|exact I|apply H]. }
  { apply (plain_complete _ _ _ _ _ _ _ _ _ _ (op_OpTypeFunction (E := E))); [exact Hb|exact I|apply H]. }
  (* OpTypeEvent *) { destruct H as [[[] _] _]. }
  (* OpTypeDeviceEvent *) { destruct H as [[[] _] _]. }
  (* OpTypeQueue *) { destruct H as [[[] _] _]. }
  (* OpTypePipe *) { destruct H as [[[] _] _]. }
  (* OpTypeForwardPointer *) { destruct H as [[[] _] _]. }
  { apply (plain_complete _ _ _ _ _ _ _ _ _ _ (op_OpConstant (E := E))); [exact Hb|exact I|apply H]. }
  { apply (plain_complete _ _ _ _ _ _ _ _ _ _ (op_OpConstantComposite (E := E))); [exact Hb|exact I|apply H]. }
  { apply (plain_complete _ _ _ _ _ _ _ _ _ _ (op_OpFunction (E := E))); [exact Hb|exact I|apply H]. }
  { apply (plain_complete _ _ _ _ _ _ _ _ _ _ (op_OpFunctionParameter (E := E))); [exact Hb|exact I|apply H]. }
  { apply (plain_complete _ _ _ _ _ _ _ _ _ _ (op_OpFunctionEnd (E := E))); [exact Hb|exact I|apply H]. }
  { apply (plain_complete _ _ _ _ _ _ _ _ _ _ (op_OpVariable (E := E))); [exact Hb|exact I|apply H]. }
  { apply (plain_complete _ _ _ _ _ _ _ _ _ _ (op_OpLoad (E := E))); [exact Hb|exact I|apply H]. }
  { apply (plain_complete _ _ _ _ _ _ _ _ _ _ (op_OpStore (E := E))); [exact Hb|exact I|apply H]. }
  { apply (plain_complete _ _ _ _ _ _ _ _ _ _ (op_OpAccessChain (E := E))); [exact Hb|exact I|apply H]. }
  { apply (plain_complete _ _ _ _ _ _ _ _ _ _ (op_OpDecorate (E := E))); [exact Hb|exact I|apply H]. }
  { apply (plain_complete _ _ _ _ _ _ _ _ _ _ (op_OpMemberDecorate (E := E))); [exact Hb|exact I|apply H]. }
  { apply (plain_complete _ _ _ _ _ _ _ _ _ _ (op_OpConvertUToF (E := E))); [exact Hb|exact I|apply H]. }
  { apply (plain_complete _ _ _ _ _ _ _ _ _ _ (op_OpBitcast (E := E))); [exact Hb|exact I|apply H]. }
  { apply (plain_complete _ _ _ _ _ _ _ _ _ _ (op_OpIAdd (E := E))); [exact Hb|exact I|apply H]. }
  { apply (plain_complete _ _ _ _ _ _ _ _ _ _ (op_OpFAdd (E := E))); [exact Hb|exact I|apply H]. }
  { apply (plain_complete _ _ _ _ _ _ _ _ _ _ (op_OpISub (E := E))); [exact Hb|exact I|apply H]. }
  { apply (plain_complete _ _ _ _ _ _ _ _ _ _ (op_OpFSub (E := E))); [exact Hb|exact I|apply H]. }
  { apply (plain_complete _ _ _ _ _ _ _ _ _ _ (op_OpIMul (E := E))); [exact Hb|exact I|apply H]. }
  { apply (plain_complete _ _ _ _ _ _ _ _ _ _ (op_OpFMul (E := E))); [exact Hb|exact I|apply H]. }
  { apply (plain_complete _ _ _ _ _ _ _ _ _ _ (op_OpUDiv (E := E))); [exact Hb|exact I|apply H]. }
  { apply (plain_complete _ _ _ _ _ _ _ _ _ _ (op_OpSDiv (E := E))); [exact Hb|exact I|apply H]. }
  { apply (plain_complete _ _ _ _ _ _ _ _ _ _ (op_OpFDiv (E := E))); [exact Hb|exact I|apply H]. }
  { apply (plain_complete _ _ _ _ _ _ _ _ _ _ (op_OpUMod (E := E))); [exact Hb|exact I|apply H]. }
  { apply (plain_complete _ _ _ _ _ _ _ _ _ _ (op_OpSRem (E := E))); [exact Hb|exact I|apply H]. }
  { apply (plain_complete _ _ _ _ _ _ _ _ _ _ (op_OpSMod (E := E))); [exact Hb|exact I|apply H]. }
  { apply (plain_complete _ _ _ _ _ _ _ _ _ _ (op_OpFRem (E := E))); [exact Hb|exact I|apply H]. }
  { apply (plain_complete _ _ _ _ _ _ _ _ _ _ (op_OpFMod (E := E))); [exact Hb|exact I|apply H]. }
  { apply (plain_complete _ _ _ _ _ _ _ _ _ _ (op_OpIAddCarry (E := E))); [exact Hb|exact I|apply H]. }
  { apply (plain_complete _ _ _ _ _ _ _ _ _ _ (op_OpISubBorrow (E := E))); [exact Hb|exact I|apply H]. }
  { apply (plain_complete _ _ _ _ _ _ _ _ _ _ (op_OpUMulExtended (E := E))); [exact Hb|exact I|apply H]. }
  { apply (plain_complete _ _ _ _ _ _ _ _ _ _ (op_OpSMulExtended (E := E))); [exact Hb|exact I|apply H]. }
  { apply (plain_complete _ _ _ _ _ _ _ _ _ _ (op_OpBitwiseOr (E := E))); [exact Hb|exact I|apply H]. }
  { apply (plain_complete _ _ _ _ _ _ _ _ _ _ (op_OpBitwiseXor (E := E))); [exact Hb|exact I|apply H]. }
  { apply (plain_complete _ _ _ _ _ _ _ _ _ _ (op_OpBitwiseAnd (E := E))); [exact Hb|exact I|apply H]. }
  { apply (plain_complete _ _ _ _ _ _ _ _ _ _ (op_OpIEqual (E := E))); [exact Hb|exact I|apply H]. }
  { apply (plain_complete _ _ _ _ _ _ _ _ _ _ (op_OpINotEqual (E := E))); [exact Hb|exact I|apply H]. }
  { apply (plain_complete _ _ _ _ _ _ _ _ _ _ (op_OpUGreaterThan (E := E))); [exact Hb|exact I|apply H]. }
  { apply (plain_complete _ _ _ _ _ _ _ _ _ _ (op_OpSGreaterThan (E := E))); [exact Hb|exact I|apply H]. }
  { apply (plain_complete _ _ _ _ _ _ _ _ _ _ (op_OpUGreaterThanEqual (E := E))); [exact Hb|exact I|apply H]. }
  { apply (plain_complete _ _ _ _ _ _ _ _ _ _ (op_OpSGreaterThanEqual (E := E))); [exact Hb|exact I|apply H]. }
  { apply (plain_complete _ _ _ _ _ _ _ _ _ _ (op_OpULessThan (E := E))); [exact Hb|exact I|apply H]. }
  { apply (plain_complete _ _ _ _ _ _ _ _ _ _ (op_OpSLessThan (E := E))); [exact Hb|exact I|apply H]. }
  { apply (plain_complete _ _ _ _ _ _ _ _ _ _ (op_OpULessThanEqual (E := E))); [exact Hb|exact I|apply H]. }
  { apply (plain_complete _ _ _ _ _ _ _ _ _ _ (op_OpSLessThanEqual (E := E))); [exact Hb|exact I|apply H]. }
  { apply (plain_complete _ _ _ _ _ _ _ _ _ _ (op_OpFOrdEqual (E := E))); [exact Hb|exact I|apply H]. }
  { apply (plain_complete _ _ _ _ _ _ _ _ _ _ (op_OpFUnordEqual (E := E))); [exact Hb|exact I|apply H]. }
  { apply (plain_complete _ _ _ _ _ _ _ _ _ _ (op_OpFOrdNotEqual (E := E))); [exact Hb|exact I|apply H]. }
  { apply (plain_complete _ _ _ _ _ _ _ _ _ _ (op_OpFUnordNotEqual (E := E))); [exact Hb|exact I|apply H]. }
  { apply (plain_complete _ _ _ _ _ _ _ _ _ _ (op_OpFOrdLessThan (E := E))); [exact Hb|exact I|apply H]. }
  { apply (plain_complete _ _ _ _ _ _ _ _ _ _ (op_OpFUnordLessThan (E := E))); [exact Hb|exact I|apply H]. }
  { apply (plain_complete _ _ _ _ _ _ _ _ _ _ (op_OpFOrdGreaterThan (E := E))); [exact Hb|exact I|apply H]. }
  { apply (plain_complete _ _ _ _ _ _ _ _ _ _ (op_OpFUnordGreaterThan (E := E))); [exact Hb|exact I|apply H]. }
  { apply (plain_complete _ _ _ _ _ _ _ _ _ _ (op_OpFOrdLessThanEqual (E := E))); [exact Hb|exact I|apply H]. }
  { apply (plain_complete _ _ _ _ _ _ _ _ _ _ (op_OpFUnordLessThanEqual (E := E))); [exact Hb|exact I|apply H]. }
  { apply (plain_complete _ _ _ _ _ _ _ _ _ _ (op_OpFOrdGreaterThanEqual (E := E))); [exact Hb|exact I|apply H]. }
  { apply (plain_complete _ _ _ _ _ _ _ _ _ _ (op_OpFUnordGreaterThanEqual (E := E))); [exact Hb|exact I|apply H]. }
  { apply (plain_complete _ _ _ _ _ _ _ _ _ _ (op_OpPhi (E := E))); [exact Hb|exact I|apply H]. }
  { apply (plain_complete _ _ _ _ _ _ _ _ _ _ (op_OpLoopMerge (E := E))); [exact Hb|exact I|apply H]. }
  { apply (plain_complete _ _ _ _ _ _ _ _ _ _ (op_OpSelectionMerge (E := E))); [exact Hb|exact I|apply H]. }
  { apply (plain_complete _ _ _ _ _ _ _ _ _ _ (op_OpLabel (E := E))); [exact Hb|exact I|apply H]. }
  { apply (plain_complete _ _ _ _ _ _ _ _ _ _ (op_OpBranch (E := E))); [exact Hb|exact I|apply H]. }
  { apply (plain_complete _ _ _ _ _ _ _ _ _ _ (op_OpBranchConditional (E := E))); [exact Hb|exact I|apply H]. }
  { apply (plain_complete _ _ _ _ _ _ _ _ _ _ (op_OpReturn (E := E))); [exact Hb|exact I|apply H]. }
Qed.

(** ** Missing and left over words *)

Lemma reader_short : forall known bound (i : Core E) p1 p2, Forall word (p1 ++ p2) -> representable i ->
  wire_operands (required i) (p1 ++ p2) -> p2 <> [] -> reader_of i p1 known bound = Err UnexpectedEndOfInstruction.
Proof.
  intros known bound i p1 p2 Hw Hr H Hne.
  assert (P : forall {A} (R : Reader A) repr fixed ops req (wrap : A -> Core E) a,
    OpReads R repr fixed ops req -> repr a -> wire_operands (req a) (p1 ++ p2) ->
    plain R wrap p1 known bound = Err UnexpectedEndOfInstruction).
  { intros A R repr fixed ops req wrap a O Ha H'. unfold plain.
    rewrite (op_short _ _ _ _ _ O a p1 p2) by assumption. reflexivity. }
  destruct i; cbn [reader_of]; try (destruct Hr as [[] _]; fail).
  { apply (P _ _ _ _ _ _ _ o (op_OpNop (E := E))); [exact I|exact H]. }
  { apply (P _ _ _ _ _ _ _ o (op_OpUndef (E := E))); [exact I|exact H]. }
  { apply (P _ _ _ _ _ _ _ o (op_OpSourceContinued (E := E))); [exact I|exact H]. }
  { apply (P _ _ _ _ _ _ _ o (op_OpSource (E := E))); [apply Hr|exact H]. }
  { apply (P _ _ _ _ _ _ _ o (op_OpSourceExtension (E := E))); [exact I|exact H]. }
  { apply (P _ _ _ _ _ _ _ o (op_OpName (E := E))); [exact I|exact H]. }
  { apply (P _ _ _ _ _ _ _ o (op_OpMemberName (E := E))); [exact I|exact H]. }
  { apply (P _ _ _ _ _ _ _ o (op_OpString (E := E))); [exact I|exact H]. }
  { apply (P _ _ _ _ _ _ _ o (op_OpExtension (E := E))); [exact I|exact H]. }
  { unfold read_core_OpExtInstImport. destruct o. unfold_ops_in H. wire_inv. short_start p1 p2 Hw. }
  { unfold read_core_OpExtInst. destruct o as [t rid set x]. unfold_ops_in H.
    cbn [OpExtInst_result_type OpExtInst_result_id OpExtInst_set] in H. wire_inv. short_start p1 p2 Hw. }
  { apply (P _ _ _ _ _ _ _ o (op_OpMemoryModel (E := E))); [exact I|exact H]. }
  { apply (P _ _ _ _ _ _ _ o (op_OpEntryPoint (E := E))); [exact I|exact H]. }
  { apply (P _ _ _ _ _ _ _ o (op_OpExecutionMode (E := E))); [exact I|exact H]. }
  { apply (P _ _ _ _ _ _ _ o (op_OpCapability (E := E))); [exact I|exact H]. }
  { apply (P _ _ _ _ _ _ _ o (op_OpTypeVoid (E := E))); [exact I|exact H]. }
  { apply (P _ _ _ _ _ _ _ o (op_OpTypeBool (E := E))); [exact I|exact H]. }
  { apply (P _ _ _ _ _ _ _ o (op_OpTypeInt (E := E))); [exact I|exact H]. }
  { apply (P _ _ _ _ _ _ _ o (op_OpTypeFloat (E := E))); [exact I|exact H]. }
  { apply (P _ _ _ _ _ _ _ o (op_OpTypeVector (E := E))); [exact I|exact H]. }
  { apply (P _ _ _ _ _ _ _ o (op_OpTypeMatrix (E := E))); [exact I|exact H]. }
  { apply (P _ _ _ _ _ _ _ o (op_OpTypeImage (E := E))); [exact I|exact H]. }
  { apply (P _ _ _ _ _ _ _ o (op_OpTypeSampler (E := E))); [exact I|exact H]. }
  { apply (P _ _ _ _ _ _ _ o (op_OpTypeSampledImage (E := E))); [exact I|exact H]. }
  { apply (P _ _ _ _ _ _ _ o (op_OpTypeArray (E := E))); [exact I|exact H]. }
  { apply (P _ _ _ _ _ _ _ o (op_OpTypeRuntimeArray (E := E))); [exact I|exact H]. }
  { apply (P _ _ _ _ _ _ _ o (op_OpTypeStruct (E := E))); [exact I|exact H]. }
  { apply (P _ _ _ _ _ _ _ o (op_OpTypeOpaque (E := E))); [exact I|exact H]. }
  { apply (P _ _ _ _ _ _ _ o (op_OpTypePointer (E := E))); [exact I|exact H]. }
  { apply (P _ _ _ _ _ _ _ o (op_OpTypeFunction (E := E))); [exact I|exact H]. }
  { apply (P _ _ _ _ _ _ _ o (op_OpConstant (E := E))); [exact I|exact H]. }
  { apply (P _ _ _ _ _ _ _ o (op_OpConstantComposite (E := E))); [exact I|exact H]. }
  { apply (P _ _ _ _ _ _ _ o (op_OpFunction (E := E))); [exact I|exact H]. }
  { apply (P _ _ _ _ _ _ _ o (op_OpFunctionParameter (E := E))); [exact I|exact H]. }
  { apply (P _ _ _ _ _ _ _ o (op_OpFunctionEnd (E := E))); [exact I|exact H]. }
  { apply (P _ _ _ _ _ _ _ o (op_OpVariable (E := E))); [exact I|exact H]. }
  { apply (P _ _ _ _ _ _ _ o (op_OpLoad (E := E))); [exact I|exact H]. }
  { apply (P _ _ _ _ _ _ _ o (op_OpStore (E := E))); [exact I|exact H]. }
  { apply (P _ _ _ _ _ _ _ o (op_OpAccessChain (E := E))); [exact I|exact H]. }
  { apply (P _ _ _ _ _ _ _ o (op_OpDecorate (E := E))); [exact I|exact H]. }
  { apply (P _ _ _ _ _ _ _ o (op_OpMemberDecorate (E := E))); [exact I|exact H]. }
  { apply (P _ _ _ _ _ _ _ o (op_OpConvertUToF (E := E))); [exact I|exact H]. }
  { apply (P _ _ _ _ _ _ _ o (op_OpBitcast (E := E))); [exact I|exact H]. }
  { apply (P _ _ _ _ _ _ _ o (op_OpIAdd (E := E))); [exact I|exact H]. }
  { apply (P _ _ _ _ _ _ _ o (op_OpFAdd (E := E))); [exact I|exact H]. }
  { apply (P _ _ _ _ _ _ _ o (op_OpISub (E := E))); [exact I|exact H]. }
  { apply (P _ _ _ _ _ _ _ o (op_OpFSub (E := E))); [exact I|exact H]. }
  { apply (P _ _ _ _ _ _ _ o (op_OpIMul (E := E))); [exact I|exact H]. }
  { apply (P _ _ _ _ _ _ _ o (op_OpFMul (E := E))); [exact I|exact H]. }
  { apply (P _ _ _ _ _ _ _ o (op_OpUDiv (E := E))); [exact I|exact H]. }
  { apply (P _ _ _ _ _ _ _ o (op_OpSDiv (E := E))); [exact I|exact H]. }
  { apply (P _ _ _ _ _ _ _ o (op_OpFDiv (E := E))); [exact I|exact H]. }
  { apply (P _ _ _ _ _ _ _ o (op_OpUMod (E := E))); [exact I|exact H]. }
  { apply (P _ _ _ _ _ _ _ o (op_OpSRem (E := E))); [exact I|exact H]. }
  { apply (P _ _ _ _ _ _ _ o (op_OpSMod (E := E))); [exact I|exact H]. }
  { apply (P _ _ _ _ _ _ _ o (op_OpFRem (E := E))); [exact I|exact H]. }
  { apply (P _ _ _ _ _ _ _ o (op_OpFMod (E := E))); [exact I|exact H]. }
  { apply (P _ _ _ _ _ _ _ o (op_OpIAddCarry (E := E))); [exact I|exact H]. }
  { apply (P _ _ _ _ _ _ _ o (op_OpISubBorrow (E := E))); [exact I|exact H]. }
  { apply (P _ _ _ _ _ _ _ o (op_OpUMulExtended (E := E))); [exact I|exact H]. }
  { apply (P _ _ _ _ _ _ _ o (op_OpSMulExtended (E := E))); [exact I|exact H]. }
  { apply (P _ _ _ _ _ _ _ o (op_OpBitwiseOr (E := E))); [exact I|exact H]. }
  { apply (P _ _ _ _ _ _ _ o (op_OpBitwiseXor (E := E))); [exact I|exact H]. }
  { apply (P _ _ _ _ _ _ _ o (op_OpBitwiseAnd (E := E))); [exact I|exact H]. }
  { apply (P _ _ _ _ _ _ _ o (op_OpIEqual (E := E))); [exact I|exact H]. }
  { apply (P _ _ _ _ _ _ _ o (op_OpINotEqual (E := E))); [exact I|exact H]. }
  { apply (P _ _ _ _ _ _ _ o (op_OpUGreaterThan (E := E))); [exact I|exact H]. }
  { apply (P _ _ _ _ _ _ _ o (op_OpSGreaterThan (E := E))); [exact I|exact H]. }
  { apply (P _ _ _ _ _ _ _ o (op_OpUGreaterThanEqual (E := E))); [exact I|exact H]. }
  { apply (P _ _ _ _ _ _ _ o (op_OpSGreaterThanEqual (E := E))); [exact I|exact H]. }
  { apply (P _ _ _ _ _ _ _ o (op_OpULessThan (E := E))); [exact I|exact H]. }
  { apply (P _ _ _ _ _ _ _ o (op_OpSLessThan (E := E))); [exact I|exact H]. }
  { apply (P _ _ _ _ _ _ _ o (op_OpULessThanEqual (E := E))); [exact I|exact H]. }
  { apply (P _ _ _ _ _ _ _ o (op_OpSLessThanEqual (E := E))); [exact I|exact H]. }
  { apply (P _ _ _ _ _ _ _ o (op_OpFOrdEqual (E := E))); [exact I|exact H]. }
  { apply (P _ _ _ _ _ _ _ o (op_OpFUnordEqual (E := E))); [exact I|exact H]. }
  { apply (P _ _ _ _ _ _ _ o (op_OpFOrdNotEqual (E := E))); [exact I|exact H]. }
  { apply (P _ _ _ _ _ _ _ o (op_OpFUnordNotEqual (E := E))); [exact I|exact H]. }
  { apply (P _ _ _ _ _ _ _ o (op_OpFOrdLessThan (E := E))); [exact I|exact H]. }
  { apply (P _ _ _ _ _ _ _ o (op_OpFUnordLessThan (E := E))); [exact I|exact H]. }
  { apply (P _ _ _ _ _ _ _ o (op_OpFOrdGreaterThan (E := E))); [exact I|exact H]. }
  { apply (P _ _ _ _ _ _ _ o (op_OpFUnordGreaterThan (E := E))); [exact I|exact H]. }
  { apply (P _ _ _ _ _ _ _ o (op_OpFOrdLessThanEqual (E := E))); [exact I|exact H]. }
  { apply (P _ _ _ _ _ _ _ o (op_OpFUnordLessThanEqual (E := E))); [exact I|exact H]. }
  { apply (P _ _ _ _ _ _ _ o (op_OpFOrdGreaterThanEqual (E := E))); [exact I|exact H]. }
  { apply (P _ _ _ _ _ _ _ o (op_OpFUnordGreaterThanEqual (E := E))); [exact I|exact H]. }
  { apply (P _ _ _ _ _ _ _ o (op_OpPhi (E := E))); [exact I|exact H]. }
  { apply (P _ _ _ _ _ _ _ o (op_OpLoopMerge (E := E))); [exact I|exact H]. }
  { apply (P _ _ _ _ _ _ _ o (op_OpSelectionMerge (E := E))); [exact I|exact H]. }
  { apply (P _ _ _ _ _ _ _ o (op_OpLabel (E := E))); [exact I|exact H]. }
  { apply (P _ _ _ _ _ _ _ o (op_OpBranch (E := E))); [exact I|exact H]. }
  { apply (P _ _ _ _ _ _ _ o (op_OpBranchConditional (E := E))); [exact I|exact H]. }
  { apply (P _ _ _ _ _ _ _ o (op_OpReturn (E := E))); [exact I|exact H]. }
Qed.

Lemma reader_excess : forall known bound (i : Core E) body extra, Forall word body -> representable i ->
  ~ open_ended i -> not_import i -> wire_operands (operands i) body ->
  reader_of i (body ++ extra) known bound = Ok (extra, i, bound).
Proof.
  intros known bound i body extra Hw Hr Ho Hni H.
  assert (P : forall {A} (R : Reader A) repr ops req (wrap : A -> Core E) a,
    OpReads R repr True ops req -> repr a -> wire_operands (ops a) body ->
    plain R wrap (body ++ extra) known bound = Ok (extra, wrap a, bound)).
  { intros A R repr ops req wrap a O Ha H'. unfold plain.
    rewrite (op_excess _ _ _ _ _ O Logic.I a body extra) by assumption. reflexivity. }
  destruct i; cbn [reader_of]; try (destruct Hr as [[] _]; fail); try (exfalso; apply Ho; exact Logic.I); try (destruct Hni; fail).
  { apply (P _ _ _ _ _ _ o (op_OpNop (E := E))); [exact Logic.I|exact H]. }
  { apply (P _ _ _ _ _ _ o (op_OpUndef (E := E))); [exact Logic.I|exact H]. }
  { apply (P _ _ _ _ _ _ o (op_OpSourceContinued (E := E))); [exact Logic.I|exact H]. }
  { apply (P _ _ _ _ _ _ o (op_OpSourceExtension (E := E))); [exact Logic.I|exact H]. }
  { apply (P _ _ _ _ _ _ o (op_OpName (E := E))); [exact Logic.I|exact H]. }
  { apply (P _ _ _ _ _ _ o (op_OpMemberName (E := E))); [exact Logic.I|exact H]. }
  { apply (P _ _ _ _ _ _ o (op_OpString (E := E))); [exact Logic.I|exact H]. }
  { apply (P _ _ _ _ _ _ o (op_OpExtension (E := E))); [exact Logic.I|exact H]. }
  { apply (P _ _ _ _ _ _ o (op_OpMemoryModel (E := E))); [exact Logic.I|exact H]. }
  { apply (P _ _ _ _ _ _ o (op_OpExecutionMode (E := E))); [exact Logic.I|exact H]. }
  { apply (P _ _ _ _ _ _ o (op_OpCapability (E := E))); [exact Logic.I|exact H]. }
  { apply (P _ _ _ _ _ _ o (op_OpTypeVoid (E := E))); [exact Logic.I|exact H]. }
  { apply (P _ _ _ _ _ _ o (op_OpTypeBool (E := E))); [exact Logic.I|exact H]. }
  { apply (P _ _ _ _ _ _ o (op_OpTypeInt (E := E))); [exact Logic.I|exact H]. }
  { apply (P _ _ _ _ _ _ o (op_OpTypeFloat (E := E))); [exact Logic.I|exact H]. }
  { apply (P _ _ _ _ _ _ o (op_OpTypeVector (E := E))); [exact Logic.I|exact H]. }
  { apply (P _ _ _ _ _ _ o (op_OpTypeMatrix (E := E))); [exact Logic.I|exact H]. }
  { apply (P _ _ _ _ _ _ o (op_OpTypeSampler (E := E))); [exact Logic.I|exact H]. }
  { apply (P _ _ _ _ _ _ o (op_OpTypeSampledImage (E := E))); [exact Logic.I|exact H]. }
  { apply (P _ _ _ _ _ _ o (op_OpTypeArray (E := E))); [exact Logic.I|exact H]. }
  { apply (P _ _ _ _ _ _ o (op_OpTypeRuntimeArray (E := E))); [exact Logic.I|exact H]. }
  { apply (P _ _ _ _ _ _ o (op_OpTypeOpaque (E := E))); [exact Logic.I|exact H]. }
  { apply (P _ _ _ _ _ _ o (op_OpTypePointer (E := E))); [exact Logic.I|exact H]. }
  { apply (P _ _ _ _ _ _ o (op_OpFunction (E := E))); [exact Logic.I|exact H]. }
  { apply (P _ _ _ _ _ _ o (op_OpFunctionParameter (E := E))); [exact Logic.I|exact H]. }
  { apply (P _ _ _ _ _ _ o (op_OpFunctionEnd (E := E))); [exact Logic.I|exact H]. }
  { apply (P _ _ _ _ _ _ o (op_OpDecorate (E := E))); [exact Logic.I|exact H]. }
  { apply (P _ _ _ _ _ _ o (op_OpMemberDecorate (E := E))); [exact Logic.I|exact H]. }
  { apply (P _ _ _ _ _ _ o (op_OpConvertUToF (E := E))); [exact Logic.I|exact H]. }
  { apply (P _ _ _ _ _ _ o (op_OpBitcast (E := E))); [exact Logic.I|exact H]. }
  { apply (P _ _ _ _ _ _ o (op_OpIAdd (E := E))); [exact Logic.I|exact H]. }
  { apply (P _ _ _ _ _ _ o (op_OpFAdd (E := E))); [exact Logic.I|exact H]. }
  { apply (P _ _ _ _ _ _ o (op_OpISub (E := E))); [exact Logic.I|exact H]. }
  { apply (P _ _ _ _ _ _ o (op_OpFSub (E := E))); [exact Logic.I|exact H]. }
  { apply (P _ _ _ _ _ _ o (op_OpIMul (E := E))); [exact Logic.I|exact H]. }
  { apply (P _ _ _ _ _ _ o (op_OpFMul (E := E))); [exact Logic.I|exact H]. }
  { apply (P _ _ _ _ _ _ o (op_OpUDiv (E := E))); [exact Logic.I|exact H]. }
  { apply (P _ _ _ _ _ _ o (op_OpSDiv (E := E))); [exact Logic.I|exact H]. }
  { apply (P _ _ _ _ _ _ o (op_OpFDiv (E := E))); [exact Logic.I|exact H]. }
  { apply (P _ _ _ _ _ _ o (op_OpUMod (E := E))); [exact Logic.I|exact H]. }
  { apply (P _ _ _ _ _ _ o (op_OpSRem (E := E))); [exact Logic.I|exact H]. }
  { apply (P _ _ _ _ _ _ o (op_OpSMod (E := E))); [exact Logic.I|exact H]. }
  { apply (P _ _ _ _ _ _ o (op_OpFRem (E := E))); [exact Logic.I|exact H]. }
  { apply (P _ _ _ _ _ _ o (op_OpFMod (E := E))); [exact Logic.I|exact H]. }
  { apply (P _ _ _ _ _ _ o (op_OpIAddCarry (E := E))); [exact Logic.I|exact H]. }
  { apply (P _ _ _ _ _ _ o (op_OpISubBorrow (E := E))); [exact Logic.I|exact H]. }
  { apply (P _ _ _ _ _ _ o (op_OpUMulExtended (E := E))); [exact Logic.I|exact H]. }
  { apply (P _ _ _ _ _ _ o (op_OpSMulExtended (E := E))); [exact Logic.I|exact H]. }
  { apply (P _ _ _ _ _ _ o (op_OpBitwiseOr (E := E))); [exact Logic.I|exact H]. }
  { apply (P _ _ _ _ _ _ o (op_OpBitwiseXor (E := E))); [exact Logic.I|exact H]. }
  { apply (P _ _ _ _ _ _ o (op_OpBitwiseAnd (E := E))); [exact Logic.I|exact H]. }
  { apply (P _ _ _ _ _ _ o (op_OpIEqual (E := E))); [exact Logic.I|exact H]. }
  { apply (P _ _ _ _ _ _ o (op_OpINotEqual (E := E))); [exact Logic.I|exact H]. }
  { apply (P _ _ _ _ _ _ o (op_OpUGreaterThan (E := E))); [exact Logic.I|exact H]. }
  { apply (P _ _ _ _ _ _ o (op_OpSGreaterThan (E := E))); [exact Logic.I|exact H]. }
  { apply (P _ _ _ _ _ _ o (op_OpUGreaterThanEqual (E := E))); [exact Logic.I|exact H]. }
  { apply (P _ _ _ _ _ _ o (op_OpSGreaterThanEqual (E := E))); [exact Logic.I|exact H]. }
  { apply (P _ _ _ _ _ _ o (op_OpULessThan (E := E))); [exact Logic.I|exact H]. }
  { apply (P _ _ _ _ _ _ o (op_OpSLessThan (E := E))); [exact Logic.I|exact H]. }
  { apply (P _ _ _ _ _ _ o (op_OpULessThanEqual (E := E))); [exact Logic.I|exact H]. }
  { apply (P _ _ _ _ _ _ o (op_OpSLessThanEqual (E := E))); [exact Logic.I|exact H]. }
  { apply (P _ _ _ _ _ _ o (op_OpFOrdEqual (E := E))); [exact Logic.I|exact H]. }
  { apply (P _ _ _ _ _ _ o (op_OpFUnordEqual (E := E))); [exact Logic.I|exact H]. }
  { apply (P _ _ _ _ _ _ o (op_OpFOrdNotEqual (E := E))); [exact Logic.I|exact H]. }
  { apply (P _ _ _ _ _ _ o (op_OpFUnordNotEqual (E := E))); [exact Logic.I|exact H]. }
  { apply (P _ _ _ _ _ _ o (op_OpFOrdLessThan (E := E))); [exact Logic.I|exact H]. }
  { apply (P _ _ _ _ _ _ o (op_OpFUnordLessThan (E := E))); [exact Logic.I|exact H]. }
  { apply (P _ _ _ _ _ _ o (op_OpFOrdGreaterThan (E := E))); [exact Logic.I|exact H]. }
  { apply (P _ _ _ _ _ _ o (op_OpFUnordGreaterThan (E := E))); [exact Logic.I|exact H]. }
  { apply (P _ _ _ _ _ _ o (op_OpFOrdLessThanEqual (E := E))); [exact Logic.I|exact H]. }
  { apply (P _ _ _ _ _ _ o (op_OpFUnordLessThanEqual (E := E))); [exact Logic.I|exact H]. }
  { apply (P _ _ _ _ _ _ o (op_OpFOrdGreaterThanEqual (E := E))); [exact Logic.I|exact H]. }
  { apply (P _ _ _ _ _ _ o (op_OpFUnordGreaterThanEqual (E := E))); [exact Logic.I|exact H]. }
  { apply (P _ _ _ _ _ _ o (op_OpLoopMerge (E := E))); [exact Logic.I|exact H]. }
  { apply (P _ _ _ _ _ _ o (op_OpSelectionMerge (E := E))); [exact Logic.I|exact H]. }
  { apply (P _ _ _ _ _ _ o (op_OpLabel (E := E))); [exact Logic.I|exact H]. }
  { apply (P _ _ _ _ _ _ o (op_OpBranch (E := E))); [exact Logic.I|exact H]. }
  { apply (P _ _ _ _ _ _ o (op_OpReturn (E := E))); [exact Logic.I|exact H]. }
Qed.

(** ** Totality *)

(** The sets return normally *)
Definition set_total (s : ExtInstSet E) : Prop :=
  forall number ws, match duplicate s number ws with Ok _ | Err _ => True | _ => False end.
Definition bound_total (bound : bound_sets E) : Prop :=
  forall id r, map_get id bound = Some r ->
  forall number ws, match r number ws with Ok _ | Err _ => True | _ => False end.

Definition returns (f : @CoreReader E) : Prop :=
  forall known bound block, bound_total bound ->
    match f block known bound with Ok _ | Err _ => True | _ => False end.

Lemma plain_returns : forall {A} (R : Reader A) repr fixed ops req (wrap : A -> Core E),
  OpReads R repr fixed ops req -> returns (plain R wrap).
Proof.
  intros A R repr fixed ops req wrap O known bound block _. unfold plain.
  pose proof (op_total _ _ _ _ _ O block) as T. destruct (R block) as [[? ?]|?| |]; exact T.
Qed.

Lemma table_returns : Forall (fun p => returns (snd p)) dispatch_table.
Proof.
  unfold dispatch_table.
  apply Forall_cons; [apply (plain_returns _ _ _ _ _ _ (op_OpNop (E := E)))|].
  apply Forall_cons; [apply (plain_returns _ _ _ _ _ _ (op_OpUndef (E := E)))|].
  apply Forall_cons; [apply (plain_returns _ _ _ _ _ _ (op_OpSourceContinued (E := E)))|].
  apply Forall_cons; [apply (plain_returns _ _ _ _ _ _ (op_OpSource (E := E)))|].
  apply Forall_cons; [apply (plain_returns _ _ _ _ _ _ (op_OpSourceExtension (E := E)))|].
  apply Forall_cons; [apply (plain_returns _ _ _ _ _ _ (op_OpName (E := E)))|].
  apply Forall_cons; [apply (plain_returns _ _ _ _ _ _ (op_OpMemberName (E := E)))|].
  apply Forall_cons; [apply (plain_returns _ _ _ _ _ _ (op_OpString (E := E)))|].
  apply Forall_cons; [apply (plain_returns _ _ _ _ _ _ (op_OpExtension (E := E)))|].
  apply Forall_cons.
  { intros known bound block _. cbn [snd]. unfold read_core_OpExtInstImport. do 2 total_step. apply import_loop_total. }
  apply Forall_cons.
  { intros known bound block Hb. cbn [snd]. unfold read_core_OpExtInst. do 4 total_step.
    match goal with |- context [map_get ?id bound] => destruct (map_get id bound) as [rd|] eqn:Hg end; [|exact I].
    match goal with |- context [rd ?n ?l] => pose proof (Hb _ _ Hg n l) as T; destruct (rd n l) as [[? ?]|?| |]; exact T end. }
  apply Forall_cons; [apply (plain_returns _ _ _ _ _ _ (op_OpMemoryModel (E := E)))|].
  apply Forall_cons; [apply (plain_returns _ _ _ _ _ _ (op_OpEntryPoint (E := E)))|].
  apply Forall_cons; [apply (plain_returns _ _ _ _ _ _ (op_OpExecutionMode (E := E)))|].
  apply Forall_cons; [apply (plain_returns _ _ _ _ _ _ (op_OpCapability (E := E)))|].
  apply Forall_cons; [apply (plain_returns _ _ _ _ _ _ (op_OpTypeVoid (E := E)))|].
  apply Forall_cons; [apply (plain_returns _ _ _ _ _ _ (op_OpTypeBool (E := E)))|].
  apply Forall_cons; [apply (plain_returns _ _ _ _ _ _ (op_OpTypeInt (E := E)))|].
  apply Forall_cons; [apply (plain_returns _ _ _ _ _ _ (op_OpTypeFloat (E := E)))|].
  apply Forall_cons; [apply (plain_returns _ _ _ _ _ _ (op_OpTypeVector (E := E)))|].
  apply Forall_cons; [apply (plain_returns _ _ _ _ _ _ (op_OpTypeMatrix (E := E)))|].
  apply Forall_cons; [apply (plain_returns _ _ _ _ _ _ (op_OpTypeImage (E := E)))|].
  apply Forall_cons; [apply (plain_returns _ _ _ _ _ _ (op_OpTypeSampler (E := E)))|].
  apply Forall_cons; [apply (plain_returns _ _ _ _ _ _ (op_OpTypeSampledImage (E := E)))|].
  apply Forall_cons; [apply (plain_returns _ _ _ _ _ _ (op_OpTypeArray (E := E)))|].
  apply Forall_cons; [apply (plain_returns _ _ _ _ _ _ (op_OpTypeRuntimeArray (E := E)))|].
  apply Forall_cons; [apply (plain_returns _ _ _ _ _ _ (op_OpTypeStruct (E := E)))|].
  apply Forall_cons; [apply (plain_returns _ _ _ _ _ _ (op_OpTypeOpaque (E := E)))|].
  apply Forall_cons; [apply (plain_returns _ _ _ _ _ _ (op_OpTypePointer (E := E)))|].
  apply Forall_cons; [apply (plain_returns _ _ _ _ _ _ (op_OpTypeFunction (E := E)))|].
  apply Forall_cons; [apply (plain_returns _ _ _ _ _ _ (op_OpConstant (E := E)))|].
  apply Forall_cons; [apply (plain_returns _ _ _ _ _ _ (op_OpConstantComposite (E := E)))|].
  apply Forall_cons; [apply (plain_returns _ _ _ _ _ _ (op_OpFunction (E := E)))|].
  apply Forall_cons; [apply (plain_returns _ _ _ _ _ _ (op_OpFunctionParameter (E := E)))|].
  apply Forall_cons; [apply (plain_returns _ _ _ _ _ _ (op_OpFunctionEnd (E := E)))|].
  apply Forall_cons; [apply (plain_returns _ _ _ _ _ _ (op_OpVariable (E := E)))|].
  apply Forall_cons; [apply (plain_returns _ _ _ _ _ _ (op_OpLoad (E := E)))|].
  apply Forall_cons; [apply (plain_returns _ _ _ _ _ _ (op_OpStore (E := E)))|].
  apply Forall_cons; [apply (plain_returns _ _ _ _ _ _ (op_OpAccessChain (E := E)))|].
  apply Forall_cons; [apply (plain_returns _ _ _ _ _ _ (op_OpDecorate (E := E)))|].
  apply Forall_cons; [apply (plain_returns _ _ _ _ _ _ (op_OpMemberDecorate (E := E)))|].
  apply Forall_cons; [apply (plain_returns _ _ _ _ _ _ (op_OpConvertUToF (E := E)))|].
  apply Forall_cons; [apply (plain_returns _ _ _ _ _ _ (op_OpBitcast (E := E)))|].
  apply Forall_cons; [apply (plain_returns _ _ _ _ _ _ (op_OpIAdd (E := E)))|].
  apply Forall_cons; [apply (plain_returns _ _ _ _ _ _ (op_OpFAdd (E := E)))|].
  apply Forall_cons; [apply (plain_returns _ _ _ _ _ _ (op_OpISub (E := E)))|].
  apply Forall_cons; [apply (plain_returns _ _ _ _ _ _ (op_OpFSub (E := E)))|].
  apply Forall_cons; [apply (plain_returns _ _ _ _ _ _ (op_OpIMul (E := E)))|].
  apply Forall_cons; [apply (plain_returns _ _ _ _ _ _ (op_OpFMul (E := E)))|].
  apply Forall_cons; [apply (plain_returns _ _ _ _ _ _ (op_OpUDiv (E := E)))|].
  apply Forall_cons; [apply (plain_returns _ _ _ _ _ _ (op_OpSDiv (E := E)))|].
  apply Forall_cons; [apply (plain_returns _ _ _ _ _ _ (op_OpFDiv (E := E)))|].
  apply Forall_cons; [apply (plain_returns _ _ _ _ _ _ (op_OpUMod (E := E)))|].
  apply Forall_cons; [apply (plain_returns _ _ _ _ _ _ (op_OpSRem (E := E)))|].
  apply Forall_cons; [apply (plain_returns _ _ _ _ _ _ (op_OpSMod (E := E)))|].
  apply Forall_cons; [apply (plain_returns _ _ _ _ _ _ (op_OpFRem (E := E)))|].
  apply Forall_cons; [apply (plain_returns _ _ _ _ _ _ (op_OpFMod (E := E)))|].
  apply Forall_cons; [apply (plain_returns _ _ _ _ _ _ (op_OpIAddCarry (E := E)))|].
  apply Forall_cons; [apply (plain_returns _ _ _ _ _ _ (op_OpISubBorrow (E := E)))|].
  apply Forall_cons; [apply (plain_returns _ _ _ _ _ _ (op_OpUMulExtended (E := E)))|].
  apply Forall_cons; [apply (plain_returns _ _ _ _ _ _ (op_OpSMulExtended (E := E)))|].
  apply Forall_cons; [apply (plain_returns _ _ _ _ _ _ (op_OpIEqual (E := E)))|].
  apply Forall_cons; [apply (plain_returns _ _ _ _ _ _ (op_OpINotEqual (E := E)))|].
  apply Forall_cons; [apply (plain_returns _ _ _ _ _ _ (op_OpUGreaterThan (E := E)))|].
  apply Forall_cons; [apply (plain_returns _ _ _ _ _ _ (op_OpSGreaterThan (E := E)))|].
  apply Forall_cons; [apply (plain_returns _ _ _ _ _ _ (op_OpUGreaterThanEqual (E := E)))|].
  apply Forall_cons; [apply (plain_returns _ _ _ _ _ _ (op_OpSGreaterThanEqual (E := E)))|].
  apply Forall_cons; [apply (plain_returns _ _ _ _ _ _ (op_OpULessThan (E := E)))|].
  apply Forall_cons; [apply (plain_returns _ _ _ _ _ _ (op_OpSLessThan (E := E)))|].
  apply Forall_cons; [apply (plain_returns _ _ _ _ _ _ (op_OpULessThanEqual (E := E)))|].
  apply Forall_cons; [apply (plain_returns _ _ _ _ _ _ (op_OpSLessThanEqual (E := E)))|].
  apply Forall_cons; [apply (plain_returns _ _ _ _ _ _ (op_OpFOrdEqual (E := E)))|].
  apply Forall_cons; [apply (plain_returns _ _ _ _ _ _ (op_OpFUnordEqual (E := E)))|].
  apply Forall_cons; [apply (plain_returns _ _ _ _ _ _ (op_OpFOrdNotEqual (E := E)))|].
  apply Forall_cons; [apply (plain_returns _ _ _ _ _ _ (op_OpFUnordNotEqual (E := E)))|].
  apply Forall_cons; [apply (plain_returns _ _ _ _ _ _ (op_OpFOrdLessThan (E := E)))|].
  apply Forall_cons; [apply (plain_returns _ _ _ _ _ _ (op_OpFUnordLessThan (E := E)))|].
  apply Forall_cons; [apply (plain_returns _ _ _ _ _ _ (op_OpFOrdGreaterThan (E := E)))|].
  apply Forall_cons; [apply (plain_returns _ _ _ _ _ _ (op_OpFUnordGreaterThan (E := E)))|].
  apply Forall_cons; [apply (plain_returns _ _ _ _ _ _ (op_OpFOrdLessThanEqual (E := E)))|].
  apply Forall_cons; [apply (plain_returns _ _ _ _ _ _ (op_OpFUnordLessThanEqual (E := E)))|].
  apply Forall_cons; [apply (plain_returns _ _ _ _ _ _ (op_OpFOrdGreaterThanEqual (E := E)))|].
  apply Forall_cons; [apply (plain_returns _ _ _ _ _ _ (op_OpFUnordGreaterThanEqual (E := E)))|].
  apply Forall_cons; [apply (plain_returns _ _ _ _ _ _ (op_OpBitwiseOr (E := E)))|].
  apply Forall_cons; [apply (plain_returns _ _ _ _ _ _ (op_OpBitwiseXor (E := E)))|].
  apply Forall_cons; [apply (plain_returns _ _ _ _ _ _ (op_OpBitwiseAnd (E := E)))|].
  apply Forall_cons; [apply (plain_returns _ _ _ _ _ _ (op_OpPhi (E := E)))|].
  apply Forall_cons; [apply (plain_returns _ _ _ _ _ _ (op_OpLoopMerge (E := E)))|].
  apply Forall_cons; [apply (plain_returns _ _ _ _ _ _ (op_OpSelectionMerge (E := E)))|].
  apply Forall_cons; [apply (plain_returns _ _ _ _ _ _ (op_OpLabel (E := E)))|].
  apply Forall_cons; [apply (plain_returns _ _ _ _ _ _ (op_OpBranch (E := E)))|].
  apply Forall_cons; [apply (plain_returns _ _ _ _ _ _ (op_OpBranchConditional (E := E)))|].
  apply Forall_cons; [apply (plain_returns _ _ _ _ _ _ (op_OpReturn (E := E)))|].
  apply Forall_nil.
Qed.

Lemma dispatch_returns : forall id wc f, dispatch id wc = Ok f -> returns f.
Proof.
  intros id wc f H. apply dispatch_in_table in H.
  pose proof table_returns as T. rewrite Forall_forall in T. apply (T (id, f) H).
Qed.

Lemma dispatch_total : forall id wc, match @dispatch E id wc with Ok _ | Err _ => True | _ => False end.
Proof. intros id wc. unfold dispatch. split_word; exact I. Qed.

End Instr.
