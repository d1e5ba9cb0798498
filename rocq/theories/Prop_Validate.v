(** Property theorems about validate, C25-C35.  The vocabulary of the statements is in
    Spec_Layout. *)
From Verif Require Import Base Types Ops ReadErr ReadBase ExtSet ReadOps Reader Glsl450 Groups Validate
  Spec_Tables Spec_Wire Spec_Layout Samples Proofs_Layout Proofs_Layout2.

(** The sample is accepted: one declaration, then two definitions of which the second has no block. *)
Example sample_valid : exists lm, validate (module_of layout_sample) = Ok lm
  /\ LogicalModule_function_declarations lm = [Build_FunctionDeclaration (Build_OpFunction 1%N 20%N control0 6%N) [Build_OpFunctionParameter 7%N 8%N]]
  /\ map (fun d => length (FunctionDefinition_blocks d)) (LogicalModule_function_definitions lm) = [2; 0]
  /\ length (LogicalModule_globals lm) = 1 /\ LogicalModule_extensions lm = [].
Proof. eexists. split; [vm_compute; reflexivity|]. repeat split. Qed.

(** ** C25 *)
Theorem C25_validation_loses_nothing : forall E (m : RawModule E) lm, validate m = Ok lm -> write_module lm = RawModule_instructions m.
Proof. intros E m lm H. symmetry. exact (proj1 (proj1 (validate_iff m lm) H)). Qed.
Print Assumptions C25_validation_loses_nothing.
Example C25_example : exists lm, validate (module_of layout_sample) = Ok lm /\ write_module lm = layout_sample.
Proof. eexists. split; vm_compute; reflexivity. Qed.

(** ** C26 *)
Theorem C26_exact_layout : forall E (m : RawModule E) lm,
  validate m = Ok lm <-> RawModule_instructions m = write_module lm /\ canonical lm.
Proof. intros E m lm. exact (validate_iff m lm). Qed.
Print Assumptions C26_exact_layout.

Theorem C26_unique : forall E (lm1 lm2 : LogicalModule E), canonical lm1 -> canonical lm2 -> write_module lm1 = write_module lm2 -> lm1 = lm2.
Proof. intros E lm1 lm2. exact (validate_unique lm1 lm2). Qed.
Print Assumptions C26_unique.

Example C26_example : exists lm, canonical lm /\ write_module lm = layout_sample.
Proof.
  destruct C25_example as (lm & V & W). exists lm. split; [|exact W]. apply (C26_exact_layout _ (module_of layout_sample) lm). exact V.
Qed.

(** ** C27 *)
Theorem C27_total : forall E (m : RawModule E), (exists lm, validate m = Ok lm) \/ (exists e, validate m = Err e).
Proof. intros E m. exact (validate_total m). Qed.
Print Assumptions C27_total.
Example C27_example : validate (module_of (firstn 14 layout_sample)) = Err (ExpectedOpFunctionEnd 14).
Proof. vm_compute. reflexivity. Qed.

(** ** C28 *)
Theorem C28_error_position : forall E (m : RawModule E) e i, validate m = Err e -> error_index e = Some i ->
  let l := RawModule_instructions m in
  i <= length l
  /\ (exists suffix, accepts (firstn i l ++ suffix))
  /\ (i < length l ->
       (forall suffix, rejects (firstn (S i) l ++ suffix))
       \/ (exists op, S i = length l /\ nth_error l i = Some (Core_OpFunction op)
            /\ e = UnexpectedInstruction i /\ exists suffix, accepts (l ++ suffix))).
Proof. intros E m e i. exact (error_position m e i). Qed.
Print Assumptions C28_error_position.

(** Which error: the one the layout automaton of Spec_Layout prescribes. *)
Theorem C28_exact_error : forall E (m : RawModule E),
  match layout (Before 0) 0 (map kind_of (RawModule_instructions m)) with
  | Some e => validate m = Err e
  | None => exists lm, validate m = Ok lm /\ write_module lm = RawModule_instructions m /\ canonical lm
  end.
Proof. intros E m. exact (validate_layout m). Qed.
Print Assumptions C28_exact_error.

Example C28_example :
  validate (module_of (firstn 10 layout_sample)) = Err (ExpectedBranch 10)
  /\ validate (module_of (firstn 10 layout_sample ++ [Core_OpLabel (Build_OpLabel 1%N); Core_OpReturn Build_OpReturn])) = Err (ExpectedBranch 10)
  /\ validate (module_of (firstn 8 layout_sample)) = Err (UnexpectedInstruction 7)
  /\ validate (module_of (firstn 4 layout_sample ++ firstn 5 layout_sample)) = Err (ExpectedOpFunction 4).
Proof. repeat split; vm_compute; reflexivity. Qed.

(** ** C29 *)
Theorem C29_memory_model_missing : forall E (m : RawModule E), validate m = Err MemoryModelMissing <->
  ~ exists caps exts imports mm rest, RawModule_instructions m =
      map Core_OpCapability caps ++ map Core_OpExtension exts ++ map Core_OpExtInstImport imports ++ Core_OpMemoryModel mm :: rest.
Proof. intros E m. exact (memory_model_missing m). Qed.
Print Assumptions C29_memory_model_missing.

Theorem C29_one_memory_model : forall E (m : RawModule E) lm, validate m = Ok lm ->
  filter (fun i => N.eqb (opcode i) 14) (RawModule_instructions m) = [Core_OpMemoryModel (LogicalModule_memory_model lm)].
Proof. intros E m lm. exact (one_memory_model m lm). Qed.
Print Assumptions C29_one_memory_model.

Example C29_example : validate (module_of [Core_OpName (Build_OpName 4%N "x"%string); Core_OpMemoryModel (Build_OpMemoryModel AddressingModel_Logical MemoryModel_Simple)])
  = Err MemoryModelMissing.
Proof. vm_compute. reflexivity. Qed.

(** ** C30 *)
Theorem C30_variables_sorted : forall E (m : RawModule E) lm, validate m = Ok lm ->
  (forall v, In (GroupGlobal_OpVariable v) (LogicalModule_globals lm) -> OpVariable_storage_class v <> StorageClass_Function)
  /\ (forall d b v, In d (LogicalModule_function_definitions lm) -> In b (FunctionDefinition_blocks d) ->
        In (GroupCode_OpVariable v) (BasicBlock_code b) -> OpVariable_storage_class v = StorageClass_Function).
Proof. intros E m lm. exact (variables_sorted m lm). Qed.
Print Assumptions C30_variables_sorted.

Example C30_example : exists lm, validate (module_of layout_sample) = Ok lm
  /\ In (GroupGlobal_OpVariable (Build_OpVariable 2%N 3%N StorageClass_Input None)) (LogicalModule_globals lm)
  /\ exists d b, In d (LogicalModule_function_definitions lm) /\ In b (FunctionDefinition_blocks d)
     /\ In (GroupCode_OpVariable (Build_OpVariable 2%N 11%N StorageClass_Function None)) (BasicBlock_code b).
Proof.
  eexists. split; [vm_compute; reflexivity|]. split; [left; reflexivity|].
  eexists _, _. split; [left; reflexivity|]. split; [left; reflexivity|]. left. reflexivity.
Qed.

(** ** C31 *)
Theorem C31_blocks_well_formed : forall E (m : RawModule E) lm d, validate m = Ok lm -> In d (LogicalModule_function_definitions lm) ->
  exists before after bodies,
    RawModule_instructions m = before ++ Core_OpFunction (FunctionDefinition_function d)
      :: map Core_OpFunctionParameter (FunctionDefinition_parameters d) ++ concat bodies
      ++ Core_OpFunctionEnd Build_OpFunctionEnd :: after
    /\ Forall2 (fun b body => exists code merge terminator,
         body = Core_OpLabel (BasicBlock_label b) :: code ++ merge ++ [terminator]
         /\ code = map core_of_code (BasicBlock_code b) /\ terminator = core_of_branch (BasicBlock_branch b)
         /\ merge = match BasicBlock_merge b with Some g => [core_of_merge g] | None => [] end
         /\ Forall (fun i => kind_of i = KCode) code /\ Forall (fun i => kind_of i = KMerge) merge /\ kind_of terminator = KTerminator)
       (FunctionDefinition_blocks d) bodies.
Proof. intros E m lm d. exact (blocks_well_formed m lm d). Qed.
Print Assumptions C31_blocks_well_formed.

Example C31_example : exists lm d, validate (module_of layout_sample) = Ok lm /\ In d (LogicalModule_function_definitions lm)
  /\ length (FunctionDefinition_blocks d) = 2.
Proof. eexists _, _. split; [vm_compute; reflexivity|]. split; [left; reflexivity|reflexivity]. Qed.

(** ** C32 *)
Theorem C32_first_definition : forall E (m : RawModule E) lm d ds, validate m = Ok lm ->
  LogicalModule_function_definitions lm = d :: ds -> FunctionDefinition_blocks d <> [].
Proof. intros E m lm d ds. exact (first_definition m lm d ds). Qed.
Print Assumptions C32_first_definition.

(** A function without body is a declaration iff no block precedes it. *)
Theorem C32_function_without_body : forall E (m : RawModule E) lm pre f ps post, validate m = Ok lm ->
  RawModule_instructions m = pre ++ Core_OpFunction f :: map Core_OpFunctionParameter ps ++ Core_OpFunctionEnd Build_OpFunctionEnd :: post ->
  if existsb (fun i => N.eqb (opcode i) 248) pre
  then In (Build_FunctionDefinition f ps []) (LogicalModule_function_definitions lm)
  else In (Build_FunctionDeclaration f ps) (LogicalModule_function_declarations lm).
Proof. intros E m lm pre f ps post. exact (bodiless_function m lm pre f ps post). Qed.
Print Assumptions C32_function_without_body.

Example C32_example : layout_sample = firstn 4 layout_sample ++ Core_OpFunction (Build_OpFunction 1%N 20%N control0 6%N)
    :: map Core_OpFunctionParameter [Build_OpFunctionParameter 7%N 8%N] ++ Core_OpFunctionEnd Build_OpFunctionEnd :: skipn 7 layout_sample
  /\ layout_sample = firstn 15 layout_sample ++ Core_OpFunction (Build_OpFunction 1%N 20%N control0 6%N)
    :: map Core_OpFunctionParameter [Build_OpFunctionParameter 7%N 8%N] ++ Core_OpFunctionEnd Build_OpFunctionEnd :: [].
Proof. split; reflexivity. Qed.

(** ** C33 *)
Theorem C33_header_irrelevant : forall E (m1 m2 : RawModule E), RawModule_instructions m1 = RawModule_instructions m2 -> validate m1 = validate m2.
Proof. intros E m1 m2. exact (only_instructions m1 m2). Qed.
Print Assumptions C33_header_irrelevant.

Theorem C33_only_kinds : forall E (m1 m2 : RawModule E), Forall2 same_kind (RawModule_instructions m1) (RawModule_instructions m2) ->
  match validate m1, validate m2 with
  | Ok lm1, Ok lm2 => shape_of lm1 = shape_of lm2
  | Err e1, Err e2 => e1 = e2
  | _, _ => False
  end.
Proof. intros E m1 m2. exact (same_kinds m1 m2). Qed.
Print Assumptions C33_only_kinds.

Example C33_example : same_kind (E := Inst) (Core_OpVariable (Build_OpVariable 2%N 3%N StorageClass_Input None)) (Core_OpVariable (Build_OpVariable 5%N 5%N StorageClass_Output (Some 7%N)))
  /\ ~ same_kind (E := Inst) (Core_OpVariable (Build_OpVariable 2%N 3%N StorageClass_Input None)) (Core_OpVariable (Build_OpVariable 2%N 3%N StorageClass_Function None)).
Proof.
  split.
  - split; [reflexivity|]. intros v w [= <-] [= <-]. split; discriminate.
  - intros [_ H]. specialize (H _ _ eq_refl eq_refl). destruct H as [_ H]. discriminate (H eq_refl).
Qed.

(** ** C34 *)
(** Any change of operands that keeps opcodes and storage classes, in particular any renaming of ids, keeps acceptance. *)
Theorem C34_renaming : forall E (rename : Core E -> Core E) (m : RawModule E), (forall i, same_kind i (rename i)) ->
  ((exists lm, validate m = Ok lm) <-> exists lm, validate (with_instructions m (map rename (RawModule_instructions m))) = Ok lm).
Proof. intros E rename m. exact (renaming rename m). Qed.
Print Assumptions C34_renaming.

(** The result is the renamed one: the same error, or a module of the same shape with every instruction renamed in its place. *)
Theorem C34_renaming_exact : forall E (rename : Core E -> Core E) (m : RawModule E), (forall i, same_kind i (rename i)) ->
  match validate m, validate (with_instructions m (map rename (RawModule_instructions m))) with
  | Ok lm1, Ok lm2 => shape_of lm1 = shape_of lm2 /\ write_module lm2 = map rename (write_module lm1)
  | Err e1, Err e2 => e1 = e2
  | _, _ => False
  end.
Proof. intros E rename m. exact (renaming_exact rename m). Qed.
Print Assumptions C34_renaming_exact.

(** Result ids need not be unique and branch targets need not exist: the sample is accepted, two of its functions
    have result id 20 and two parameters have result id 8, and it branches to 99, which no label has. *)
Theorem C34_ids_checked_refuted : exists lm, validate (module_of layout_sample) = Ok lm
  /\ (exists f1 f2, In (Build_FunctionDeclaration f1 [Build_OpFunctionParameter 7%N 8%N]) (LogicalModule_function_declarations lm)
       /\ In (Build_FunctionDefinition f2 [Build_OpFunctionParameter 7%N 8%N] []) (LogicalModule_function_definitions lm)
       /\ OpFunction_result_id f1 = OpFunction_result_id f2)
  /\ (exists d b op, In d (LogicalModule_function_definitions lm) /\ In b (FunctionDefinition_blocks d)
       /\ BasicBlock_branch b = GroupBranch_OpBranchConditional op
       /\ ~ In (OpBranchConditional_false_label op) (map (fun b => OpLabel_result_id (BasicBlock_label b)) (FunctionDefinition_blocks d))).
Proof.
  eexists. split; [vm_compute; reflexivity|]. split.
  - eexists _, _. split; [left; reflexivity|]. split; [right; left; reflexivity|reflexivity].
  - eexists _, _, _. split; [left; reflexivity|]. split; [left; reflexivity|]. split; [reflexivity|].
    intros [H|[H|[]]]; discriminate H.
Qed.
Print Assumptions C34_ids_checked_refuted.

Example C34_example : exists rename : Core Inst -> Core Inst, (forall i, same_kind i (rename i))
  /\ rename (Core_OpLabel (Build_OpLabel 3%N)) = Core_OpLabel (Build_OpLabel 4%N).
Proof.
  exists (fun i => match i with Core_OpLabel op => Core_OpLabel (Build_OpLabel (N.add (OpLabel_result_id op) 1)) | _ => i end). split.
  - intros i. destruct i; (split; [reflexivity|]); intros v w Hv Hw; try discriminate Hv. injection Hv as <-. injection Hw as <-. reflexivity.
  - reflexivity.
Qed.

(** ** C35 *)
Theorem C35_read_validate_lossless : forall E (known : list (ExtInstSet E)) data m lm,
  read_module data known = Ok m -> validate m = Ok lm ->
  exists p, encodable known (with_instructions m (write_module lm)) p
    /\ forall o, read_module (encode_module o (with_instructions m (write_module lm)) p) known = Ok m.
Proof. intros E known data m lm. exact (read_validate_lossless known data m lm). Qed.
Print Assumptions C35_read_validate_lossless.

Example C35_example : read_module (sample_bytes BigEndian) [InstSet] = Ok sample /\ exists lm, validate sample = Ok lm.
Proof. split; [apply sample_read|]. eexists. vm_compute. reflexivity. Qed.
