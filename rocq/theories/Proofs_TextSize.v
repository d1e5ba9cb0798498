(** Proofs about the length of the disassembly of accepted input, C99. *)
From Coq Require Import Lia ZArith ZifyNat ZifyN.
From Verif Require Import Base Types Ops ReadErr ExtSet Reader Glsl450 DisplayBase DisplayTypes DisplayOps DisplayModule
  Spec_Wire Spec_Text Spec_Size Spec_Calls Proofs_Stream Proofs_Reader Proofs_Facts2 Proofs_Size Proofs_Text Proofs_Text2.
Local Open Scope string_scope.
Local Open Scope nat_scope.

Definition operand_fits (o : operand) : Prop := match o with OWord n => word n | _ => True end.
Definition fits (os : list operand) : Prop := Forall operand_fits os.
Definition size (os : list operand) : nat := list_sum (map operand_words os).

Lemma fits_app : forall a b, fits (a ++ b) <-> fits a /\ fits b.
Proof. intros. unfold fits. apply Forall_app. Qed.
Lemma fits_cons : forall o a, fits (o :: a) <-> operand_fits o /\ fits a.
Proof. intros. unfold fits. apply Forall_cons_iff. Qed.
Lemma size_app : forall a b, size (a ++ b) = size a + size b.
Proof. intros. unfold size. rewrite map_app, list_sum_app. reflexivity. Qed.
Lemma size_cons : forall o a, size (o :: a) = operand_words o + size a.
Proof. reflexivity. Qed.
Lemma size_nil : size [] = 0.
Proof. reflexivity. Qed.

Lemma fits_num : forall n, fits (num n) <-> word n.
Proof. intro n. unfold num. rewrite fits_cons. split; [tauto|]. intro H. split; [exact H|constructor]. Qed.
Lemma size_num : forall n, size (num n) = 1.
Proof. reflexivity. Qed.

Notation len := String.length.
Lemma number_size : forall n, word n -> len (disp_u32 n) <= 10.
Proof. exact decimal_length. Qed.
Lemma id_size : forall n, word n -> len (disp_OpId n) <= 11.
Proof. intros n H. unfold disp_OpId. rewrite slength_app. pose proof (number_size n H). cbn [String.length]. lia. Qed.
Lemma result_size : forall n, word n -> len (disp_Result n) = 15.
Proof.
  intros n H. unfold disp_Result, pad_right12. pose proof (id_size n H). rewrite !slength_app, spaces_blanks, blanks_length. cbn [String.length]. lia.
Qed.
Lemma no_result_size : len disp_NoResult = 15.
Proof. reflexivity. Qed.
Lemma quoted_size : forall s, len (display_arg_String s) = 2 + len s.
Proof. intro s. unfold display_arg_String. rewrite !slength_app. cbn [String.length]. lia. Qed.
Lemma arg_size : forall A (d : A -> string) x, len (format_arg d x) = 1 + len (d x).
Proof. reflexivity. Qed.

Ltac enum := intros []; apply Nat.leb_le; vm_compute; reflexivity.
Lemma language_size : forall x, word (source_language_number x) -> len (disp_SourceLanguage x) <= 20.
Proof.
  intros [| | | | |n] H; try (apply Nat.leb_le; vm_compute; reflexivity). cbn [disp_SourceLanguage source_language_number] in *.
  rewrite ?slength_app. pose proof (number_size n H). cbn [String.length]. lia.
Qed.
Lemma built_in_size : forall x, len (disp_BuiltIn x) <= 25. Proof. enum. Qed.
Lemma attribute_size : forall x, len (disp_FunctionParameterAttribute x) <= 11. Proof. enum. Qed.
Lemma rounding_size : forall x, len (disp_FpRoundingMode x) <= 3. Proof. enum. Qed.
Lemma linkage_size : forall x, len (disp_LinkageType x) <= 6. Proof. enum. Qed.
Lemma addressing_size : forall x, len (disp_AddressingModel x) <= 10. Proof. enum. Qed.
Lemma memory_model_size : forall x, len (disp_MemoryModel x) <= 7. Proof. enum. Qed.
Lemma execution_model_size : forall x, len (disp_ExecutionModel x) <= 22. Proof. enum. Qed.
Lemma capability_size : forall x, len (disp_Capability x) <= 33. Proof. enum. Qed.
Lemma signedness_size : forall x, len (disp_Signedness x) <= 11. Proof. enum. Qed.
Lemma storage_size : forall x, len (disp_StorageClass x) <= 15. Proof. enum. Qed.
Lemma dim_size : forall x, len (disp_Dim x) <= 11. Proof. enum. Qed.
Lemma depth_size : forall x, len (disp_DepthStatus x) <= 20. Proof. enum. Qed.
Lemma arrayed_size : forall x, len (disp_Arrayed x) <= 20. Proof. enum. Qed.
Lemma ms_size : forall x, len (disp_MS x) <= 20. Proof. enum. Qed.
Lemma sampled_size : forall x, len (disp_SampledStatus x) <= 20. Proof. enum. Qed.
Lemma format_size : forall x, len (disp_ImageFormat x) <= 12. Proof. enum. Qed.
Lemma access_size : forall x, len (disp_AccessQualifier x) <= 9. Proof. enum. Qed.
Ltac mask := intros []; repeat match goal with b : bool |- _ => destruct b end; apply Nat.leb_le; vm_compute; reflexivity.
Lemma fast_math_size : forall x, len (disp_FpFastMathMode x) <= 41. Proof. mask. Qed.
Lemma memory_access_size : forall x, len (disp_MemoryAccess x) <= 32. Proof. mask. Qed.
Lemma function_control_size : forall x, len (disp_FunctionControl x) <= 34. Proof. mask. Qed.
Lemma selection_control_size : forall x, len (disp_SelectionControl x) <= 21. Proof. mask. Qed.
Lemma loop_control_size : forall x, fits (loop_control_operands x) -> len (disp_LoopControl x) <= 9 + 31 * size (loop_control_operands x).
Proof.
  intros [u d i [l|]] F; unfold loop_control_operands, opt, num in *; cbn [LoopControl_dependency_length] in *.
  - rewrite !fits_cons in F. destruct F as (_ & F & _). cbn [operand_fits] in F. pose proof (number_size l F).
    rewrite !size_cons, size_nil. cbn [operand_words]. unfold disp_LoopControl. cbn [LoopControl_unroll LoopControl_dont_unroll LoopControl_dependency_infinite LoopControl_dependency_length].
    destruct u, d, i; cbn [app String.concat]; rewrite ?slength_app; cbn [String.length]; lia.
  - destruct u, d, i; apply Nat.leb_le; vm_compute; reflexivity.
Qed.

(** ** Lists and options of operands *)
Lemma list_size : forall A (d : A -> string) (f : A -> list operand) k, (forall x, fits (f x) -> 1 + len (d x) <= k * size (f x)) ->
  forall l, fits (many f l) -> len (format_arg_Vec d l) <= k * size (many f l).
Proof.
  intros A d f k H l. unfold many. induction l as [|x l IH]; intro F; [cbn; lia|]. cbn [flat_map] in F. apply fits_app in F. destruct F as [F1 F2].
  specialize (H x F1). specialize (IH F2). cbn [format_arg_Vec flat_map]. rewrite !slength_app, size_app. cbn [String.length]. nia.
Qed.
Lemma option_size : forall A (d : A -> string) (f : A -> list operand) k, (forall x, fits (f x) -> 1 + len (d x) <= k * size (f x)) ->
  forall o, fits (opt f o) -> len (format_arg_Option d o) <= k * size (opt f o).
Proof.
  intros A d f k H [x|] F; [|cbn; lia]. cbn [opt format_arg_Option] in *. rewrite slength_app. cbn [String.length]. exact (H x F).
Qed.
Lemma num_id : forall n, fits (num n) -> 1 + len (disp_OpId n) <= 31 * size (num n).
Proof. intros n F. apply fits_cons in F. destruct F as [F _]. pose proof (id_size n F). change (size (num n)) with 1. lia. Qed.
Lemma num_number : forall n, fits (num n) -> 1 + len (disp_u32 n) <= 31 * size (num n).
Proof. intros n F. apply fits_cons in F. destruct F as [F _]. pose proof (number_size n F). change (size (num n)) with 1. lia. Qed.
Lemma quoted_operand : forall s, fits [OStr s] -> 1 + len (display_arg_String s) <= 31 * size [OStr s].
Proof. intros s _. rewrite quoted_size, size_cons, size_nil. cbn [operand_words]. pose proof (Nat.div_mod_eq (len s) 4). pose proof (Nat.mod_upper_bound (len s) 4). lia. Qed.
Lemma phi_size : forall x, fits (num (PhiArg_variable x) ++ num (PhiArg_parent x)) -> 1 + len (disp_PhiArg x) <= 31 * size (num (PhiArg_variable x) ++ num (PhiArg_parent x)).
Proof.
  intros x F. unfold num in F. cbn [app] in F. rewrite !fits_cons in F. destruct F as (F1 & F2 & _). pose proof (id_size _ F1). pose proof (id_size _ F2).
  unfold disp_PhiArg. rewrite !slength_app. cbn -[disp_OpId]. lia.
Qed.
Lemma weights_size : forall x, fits (num (BranchWeights_true_weight x) ++ num (BranchWeights_false_weight x)) ->
  1 + len (disp_BranchWeights x) <= 31 * size (num (BranchWeights_true_weight x) ++ num (BranchWeights_false_weight x)).
Proof.
  intros x F. unfold num in F. cbn [app] in F. rewrite !fits_cons in F. destruct F as (F1 & F2 & _). pose proof (number_size _ F1). pose proof (number_size _ F2).
  unfold disp_BranchWeights. rewrite !slength_app. cbn -[disp_u32]. lia.
Qed.
Lemma access_operand_size : forall x, fits (num (access_qualifier_number x)) -> 1 + len (disp_AccessQualifier x) <= 31 * size (num (access_qualifier_number x)).
Proof. intros x _. pose proof (access_size x). cbn -[disp_AccessQualifier]. lia. Qed.
Lemma memory_operand_size : forall x, fits (memory_access_operand x) -> 1 + len (disp_MemoryAccess x) <= 33 * size (memory_access_operand x).
Proof. intros x _. pose proof (memory_access_size x). cbn -[disp_MemoryAccess]. lia. Qed.
Lemma mode_size : forall x, fits (execution_mode_operands x) -> 1 + len (disp_ExecutionMode x) <= 31 * size (execution_mode_operands x).
Proof.
  intros x F. destruct x; try (apply Nat.leb_le; vm_compute; reflexivity); unfold execution_mode_operands, num in *; cbn [app] in F;
    rewrite ?fits_cons in F; cbn [operand_fits] in F; cbn [disp_ExecutionMode app]; rewrite ?size_cons, ?size_nil; cbn [operand_words];
    rewrite ?slength_app; decompose [and] F;
    repeat match goal with H : word ?n |- _ => pose proof (number_size n H); pose proof (id_size n H); clear H end; cbn [String.length]; lia.
Qed.
Lemma decoration_size : forall x, fits (decoration_operands x) -> 1 + len (disp_Decoration x) <= 31 * size (decoration_operands x).
Proof.
  intros x F. destruct x; try (apply Nat.leb_le; vm_compute; reflexivity); unfold decoration_operands, num in *; cbn [app] in F;
    rewrite ?fits_cons in F; cbn [operand_fits] in F; cbn [disp_Decoration app]; rewrite ?size_cons, ?size_nil; cbn [operand_words];
    rewrite ?slength_app; decompose [and] F;
    repeat match goal with H : word ?n |- _ => pose proof (number_size n H); clear H end; cbn [String.length];
    try match goal with
    | |- context [disp_BuiltIn ?y] => pose proof (built_in_size y)
    | |- context [disp_FunctionParameterAttribute ?y] => pose proof (attribute_size y)
    | |- context [disp_FpRoundingMode ?y] => pose proof (rounding_size y)
    | |- context [disp_FpFastMathMode ?y] => pose proof (fast_math_size y)
    | |- context [disp_LinkageType ?y] => pose proof (linkage_size y)
    end; try lia.
Qed.

(** ** Lines *)
Definition ext_size {E} (d : E -> string) (i : Core E) : nat :=
  match i with Core_OpExtInst op => len (d (OpExtInst_instruction op)) | _ => 0 end.

Ltac leaf F :=
  repeat match goal with
  | |- context [disp_SourceLanguage ?y] => let H := fresh in assert (H := language_size y ltac:(tauto)); revert H; generalize (len (disp_SourceLanguage y)); intro; intro
  | |- context [len (disp_Result ?y)] => rewrite (result_size y) by tauto
  | |- context [len (disp_OpId ?y)] => let H := fresh in assert (H := id_size y ltac:(tauto)); revert H; generalize (len (disp_OpId y)); intro; intro
  | |- context [len (disp_u32 ?y)] => let H := fresh in assert (H := number_size y ltac:(tauto)); revert H; generalize (len (disp_u32 y)); intro; intro
  | |- context [len (disp_AddressingModel ?y)] => pose proof (addressing_size y); generalize dependent (len (disp_AddressingModel y)); intros
  | |- context [len (disp_MemoryModel ?y)] => pose proof (memory_model_size y); generalize dependent (len (disp_MemoryModel y)); intros
  | |- context [len (disp_ExecutionModel ?y)] => pose proof (execution_model_size y); generalize dependent (len (disp_ExecutionModel y)); intros
  | |- context [len (disp_Capability ?y)] => pose proof (capability_size y); generalize dependent (len (disp_Capability y)); intros
  | |- context [len (disp_Signedness ?y)] => pose proof (signedness_size y); generalize dependent (len (disp_Signedness y)); intros
  | |- context [len (disp_StorageClass ?y)] => pose proof (storage_size y); generalize dependent (len (disp_StorageClass y)); intros
  | |- context [len (disp_Dim ?y)] => pose proof (dim_size y); generalize dependent (len (disp_Dim y)); intros
  | |- context [len (disp_DepthStatus ?y)] => pose proof (depth_size y); generalize dependent (len (disp_DepthStatus y)); intros
  | |- context [len (disp_Arrayed ?y)] => pose proof (arrayed_size y); generalize dependent (len (disp_Arrayed y)); intros
  | |- context [len (disp_MS ?y)] => pose proof (ms_size y); generalize dependent (len (disp_MS y)); intros
  | |- context [len (disp_SampledStatus ?y)] => pose proof (sampled_size y); generalize dependent (len (disp_SampledStatus y)); intros
  | |- context [len (disp_ImageFormat ?y)] => pose proof (format_size y); generalize dependent (len (disp_ImageFormat y)); intros
  | |- context [len (disp_AccessQualifier ?y)] => pose proof (access_size y); generalize dependent (len (disp_AccessQualifier y)); intros
  | |- context [len (disp_FunctionControl ?y)] => pose proof (function_control_size y); generalize dependent (len (disp_FunctionControl y)); intros
  | |- context [len (disp_SelectionControl ?y)] => pose proof (selection_control_size y); generalize dependent (len (disp_SelectionControl y)); intros
  | |- context [len (disp_LoopControl ?y)] => let H := fresh in assert (H := loop_control_size y ltac:(tauto)); revert H; generalize (len (disp_LoopControl y)); intro; intro
  | |- context [len (disp_ExecutionMode ?y)] => let H := fresh in assert (H := mode_size y ltac:(tauto)); revert H; generalize (len (disp_ExecutionMode y)); intro; intro
  | |- context [len (disp_Decoration ?y)] => let H := fresh in assert (H := decoration_size y ltac:(tauto)); revert H; generalize (len (disp_Decoration y)); intro; intro
  | |- context [len ?s] => match s with format_arg_Vec disp_OpId ?y => let H := fresh in assert (H : len s <= 31 * size (many num y)) by (apply (list_size _ _ _ _ num_id); tauto); generalize dependent (len s); intros end
  | |- context [len ?s] => match s with format_arg_Vec disp_u32 ?y => let H := fresh in assert (H : len s <= 31 * size (many num y)) by (apply (list_size _ _ _ _ num_number); tauto); generalize dependent (len s); intros end
  | |- context [len (format_arg_Vec disp_PhiArg ?y)] => let H := fresh in assert (H := list_size _ _ _ _ phi_size y ltac:(tauto)); revert H; generalize (len (format_arg_Vec disp_PhiArg y)); intro; intro
  | |- context [len ?s] => match s with format_arg_Option disp_OpId ?y => let H := fresh in assert (H : len s <= 31 * size (opt num y)) by (apply (option_size _ _ _ _ num_id); tauto); generalize dependent (len s); intros end
  | |- context [len (format_arg_Option display_arg_String ?y)] => let H := fresh in assert (H := option_size _ _ _ _ quoted_operand y ltac:(tauto)); revert H; generalize (len (format_arg_Option display_arg_String y)); intro; intro
  | |- context [len (format_arg_Option disp_AccessQualifier ?y)] => let H := fresh in assert (H := option_size _ _ _ _ access_operand_size y ltac:(tauto)); revert H; generalize (len (format_arg_Option disp_AccessQualifier y)); intro; intro
  | |- context [len ?s] => match s with format_arg_Option disp_MemoryAccess ?y => let H := fresh in assert (H : len s <= 33 * size (opt memory_access_operand y)) by (apply (option_size _ _ _ _ memory_operand_size); tauto); generalize dependent (len s); intros end
  | |- context [len (format_arg_Option disp_BranchWeights ?y)] => let H := fresh in assert (H := option_size _ _ _ _ weights_size y ltac:(tauto)); revert H; generalize (len (format_arg_Option disp_BranchWeights y)); intro; intro
  end.

Lemma option_memory_words : forall o, size (opt memory_access_operand o) <= 1.
Proof. intros [x|]; cbn; lia. Qed.

Lemma line_size : forall E (d : E -> string) (i : Core E), fits (operands i) ->
  len (disp_Core d i) + 1 <= 31 * (1 + size (operands i)) + ext_size d i.
Proof.
  intros E d i F. destruct i as [o|o|o|o|o|o|o|o|o|o|o|o|o|o|o|o|o|o|o|o|o|o|o|o|o|o|o|o|o|o|o|o|o|o|o|o|o|o|o|o|o|o|o|o|o|o|o|o|o|o|o|o|o|o|o|o|o|o|o|o|o|o|o|o|o|o|o|o|o|o|o|o|o|o|o|o|o|o|o|o|o|o|o|o|o|o|o|o|o|o|o|o|o|o|o|o|o|o];
  cbn [disp_Core ext_size]; unfold_ops; unfold disp_SourceVersion, disp_MemberIndex; rewrite ?slength_app, ?no_result_size, ?arg_size, ?quoted_size; destruct o;
  cbn -[append String.length format_arg format_arg_Option format_arg_Vec display_arg_String size Nat.add Nat.mul operands disp_AccessQualifier disp_AddressingModel disp_Arrayed disp_BranchWeights disp_BuiltIn disp_Capability disp_Decoration disp_DepthStatus disp_Dim disp_ExecutionMode disp_ExecutionModel disp_FpFastMathMode disp_FpRoundingMode disp_FunctionControl disp_FunctionParameterAttribute disp_ImageFormat disp_LinkageType disp_LoopControl disp_MS disp_MemberIndex disp_MemoryAccess disp_MemoryModel disp_NoResult disp_OpId disp_PhiArg disp_Result disp_SampledStatus disp_SelectionControl disp_Signedness disp_SourceLanguage disp_SourceVersion disp_StorageClass disp_u32].
  all: unfold operands, unary, binary, function_control_operand, selection_control_operand in *.
  all: cbn [append] in F; unfold disp_SourceVersion, disp_MemberIndex.
  all: rewrite ?fits_app, ?fits_cons, ?fits_num in F; cbn [operand_fits] in F.
  all: rewrite ?slength_app, ?size_app, ?size_cons, ?size_num, ?size_nil, ?no_result_size, ?arg_size, ?quoted_size; cbn [operand_words].
  all: unfold disp_SourceVersion, disp_MemberIndex; leaf F; cbn [String.length].
  all: try lia.
  - pose proof (option_memory_words OpLoad_memory_access). lia.
  - pose proof (option_memory_words OpStore_memory_access). lia.
Qed.

(** ** Modules *)
Lemma wire_fits_words : forall os ws, wire_operands os ws -> Forall word ws -> fits os.
Proof.
  induction os as [|o os IH]; intros ws H W; [constructor|]. destruct H as (w1 & w2 & -> & H1 & H2). apply Forall_app in W. destruct W as [W1 W2].
  constructor; [|exact (IH _ H2 W2)]. destruct o; [|exact I|exact I]. cbn in H1. subst w1. inversion W1; assumption.
Qed.
Lemma instruction_text : forall E known earlier (d : E -> string) (i : Core E) body, wire_instruction known earlier i body -> Forall word body ->
  len (disp_Core d i) + 1 <= 31 * (1 + List.length body) + ext_size d i.
Proof.
  intros E known earlier d i body H W.
  assert (X : fits (operands i) /\ size (operands i) <= List.length body).
  { assert (Y : (exists op, i = Core_OpExtInst op) \/ wire_operands (operands i) body) by (destruct i; try (right; apply H); left; eexists; reflexivity).
    destruct Y as [(op & ->)|Y].
    - destruct H as (number & rest & r & -> & _). cbn [app] in W. inversion W as [|? ? W1 W2]; subst. inversion W2 as [|? ? W3 W4]; subst. inversion W4 as [|? ? W5 W6]; subst. split.
      + unfold operands. rewrite !fits_app, !fits_num. tauto.
      + cbn. lia.
    - split; [exact (wire_fits_words _ _ Y W)|]. rewrite (operands_length _ _ Y). apply le_n. }
  destruct X as [X1 X2]. pose proof (line_size _ d i X1). lia.
Qed.
Definition ext_sizes {E} (d : E -> string) (is : list (Core E)) : nat := list_sum (map (ext_size d) is).
Lemma ext_sizes_extended : forall E (d : E -> string) is, ext_sizes d is = list_sum (map (fun x => len (d x)) (extended_of is)).
Proof.
  intros E d is. unfold ext_sizes, extended_of. induction is as [|i is IH]; [reflexivity|]. cbn [map flat_map]. rewrite map_app, list_sum_app, <- IH.
  change (list_sum (ext_size d i :: ?l)) with (ext_size d i + list_sum l). f_equal. destruct i; try reflexivity. cbn. lia.
Qed.
Lemma instructions_text : forall E known earlier (d : E -> string) (is : list (Core E)) ws, wire_instructions known earlier is ws -> Forall word ws ->
  len (disp_instructions d is) <= 31 * List.length ws + ext_sizes d is.
Proof.
  intros E known earlier d is ws H. induction H as [|earlier i is wc body ws Hi Hw Hb _ IH]; intro W; [cbn; lia|].
  inversion W as [|? ? _ W1]; subst. apply Forall_app in W1. destruct W1 as [W1 W2]. specialize (IH W2). pose proof (instruction_text _ _ _ d _ _ Hi W1).
  cbn [disp_instructions List.length]. rewrite !slength_app, app_length. unfold ext_sizes in *. cbn [map].
  change (list_sum (ext_size d i :: ?l)) with (ext_size d i + list_sum l). change (len nl) with 1. lia.
Qed.

Lemma generator_size : forall g, len (generator_name g) <= 48.
Proof. intros [t v]. destruct t; apply Nat.leb_le; vm_compute; reflexivity. Qed.

Lemma words_length : forall o l, List.length (bytes_of_words o l) = 4 * List.length l.
Proof. intros o. induction l as [|w l IH]; [reflexivity|]. rewrite bytes_of_words_cons, app_length, bytes_of_word_length. cbn [List.length]. lia. Qed.

Lemma module_text : forall E (text : E -> string) (known : list (ExtInstSet E)) data m k, read_module data known = Ok m ->
  (forall ws, wire_instructions known [] (RawModule_instructions m) ws -> Forall word ws -> len (disp_instructions text (RawModule_instructions m)) <= 31 * List.length ws + k) ->
  4 * len (disp_RawModule text m) <= 31 * List.length data + 4 * k.
Proof.
  intros E d known data m k H L. apply read_exact in H. destruct H as (o & v & g & ws & -> & W & _ & V & G & H).
  inversion W as [|? ? _ W1]; subst. inversion W1 as [|? ? B W2]; subst. specialize (L ws H W2).
  rewrite words_length, app_length. unfold disp_RawModule. rewrite !slength_app, V.
  pose proof (generator_size (RawModule_generator m)). pose proof (number_size _ B).
  assert (Q : word (Generator_version (RawModule_generator m))) by (destruct G as (_ & G & _); unfold word; lia). pose proof (number_size _ Q).
  change (len nl) with 1. cbn -[disp_u32 generator_name disp_instructions Nat.add Nat.mul]. change (len (disp_u32 1)) with 1. change (len (disp_u32 0)) with 1. lia.
Qed.

Theorem text_size : forall E (text : E -> string) (known : list (ExtInstSet E)) data m, read_module data known = Ok m ->
  4 * len (disp_RawModule text m) <= 31 * List.length data + 4 * list_sum (map (fun x => len (text x)) (extended_of (RawModule_instructions m))).
Proof.
  intros E d known data m H. rewrite <- ext_sizes_extended. apply (module_text _ _ known _ _ _ H). intros ws. apply instructions_text.
Qed.

(** ** The built-in set *)
Lemma glsl_text : forall number rest x, glsl450_read_instruction number rest = Ok ([], x) -> Forall word rest -> len (disp_Inst x) <= 15.
Proof.
  intros number rest x H W. unfold glsl450_read_instruction in H.
  assert (X : forall s y, rest = [y] -> len s = 4 -> len (s ++ disp_OpId y)%string <= 15).
  { intros s y -> L. inversion W as [|? ? Wy _]; subst. rewrite slength_app, L. pose proof (id_size y Wy). lia. }
  destruct rest as [|y [|z rest]].
  - destruct number as [|p]; [discriminate H|]. do 4 (destruct p; try discriminate H).
  - destruct number as [|p]; [discriminate H|]. do 4 (destruct p; try discriminate H); injection H as <-; apply X; reflexivity.
  - destruct number as [|p]; [discriminate H|]. do 4 (destruct p; try discriminate H).
Qed.
Lemma instruction_text_glsl : forall known earlier (i : Core Inst) body, (forall s, In s known -> duplicate s = glsl450_read_instruction) ->
  wire_instruction known earlier i body -> Forall word body -> len (disp_Core disp_Inst i) + 1 <= 31 * (1 + List.length body).
Proof.
  intros known earlier i body K H W. pose proof (instruction_text _ _ _ disp_Inst _ _ H W) as L.
  assert (X : (exists op, i = Core_OpExtInst op) \/ ext_size disp_Inst i = 0) by (destruct i; try (right; reflexivity); left; eexists; reflexivity).
  destruct X as [(op & ->)|X]; [|lia]. destruct H as (number & rest & r & -> & (name & _ & before & s & after & -> & _ & _ & ->) & R).
  rewrite K in R by (apply in_or_app; right; left; reflexivity). cbn [app] in W.
  inversion W as [|? ? W1 Z1]; subst. inversion Z1 as [|? ? W2 Z2]; subst. inversion Z2 as [|? ? W3 Z3]; subst. inversion Z3 as [|? ? _ W4]; subst.
  pose proof (glsl_text _ _ _ R W4). cbn [disp_Core]. unfold disp_OpExtInst. rewrite !slength_app, !arg_size, (result_size _ W2).
  pose proof (id_size _ W1). pose proof (id_size _ W3). cbn -[disp_OpId disp_Inst Nat.add Nat.mul]. lia.
Qed.
Theorem text_size_glsl : forall (known : list (ExtInstSet Inst)) data m, (forall s, In s known -> duplicate s = duplicate InstSet) ->
  read_module data known = Ok m -> 4 * len (disp_RawModule disp_Inst m) <= 31 * List.length data.
Proof.
  intros known data m K H. replace (31 * List.length data) with (31 * List.length data + 4 * 0) by lia. apply (module_text _ _ known _ _ _ H).
  intros ws X. clear H. induction X as [|earlier i is wc body ws Hi Hw Hb _ IH]; intro W; [cbn; lia|].
  inversion W as [|? ? _ W1]; subst. apply Forall_app in W1. destruct W1 as [W1 W2]. specialize (IH W2). pose proof (instruction_text_glsl _ _ _ _ K Hi W1).
  cbn [disp_instructions List.length]. rewrite !slength_app, app_length. change (len nl) with 1. lia.
Qed.

(** ** The factor is exact *)
Definition longest {E} : Core E := Core_OpCapability (Build_OpCapability Capability_UniformBufferArrayDynamicIndexing).
Definition worst_words (n : nat) : list N := List.concat (repeat [17 + 65536 * 2; 28]%N n).
Lemma worst_wire : forall E (known : list (ExtInstSet E)) n earlier, wire_instructions known earlier (repeat longest n) (worst_words n).
Proof.
  intros E known n. induction n as [|n IH]; intro earlier; [constructor|]. cbn [repeat worst_words List.concat]. change (worst_words (S n)) with ([17 + 65536 * 2; 28]%N ++ worst_words n)%list.
  apply (wire_cons known earlier longest (repeat longest n) 2 [28%N] (worst_words n)); [|left; reflexivity|reflexivity|apply IH].
  split; [repeat split|]. cbn. exists [28%N], []. repeat split.
Qed.
Theorem factor_exact : forall n, exists data m, read_module data [InstSet] = Ok m /\ List.length data = 20 + 8 * n
  /\ 4 * len (disp_RawModule disp_Inst m) + 336 = 31 * List.length data.
Proof.
  intro n. exists (bytes_of_words LittleEndian ([magic_number; 65536; 0; 1; 0]%N ++ worst_words n)).
  exists (Build_RawModule (Build_Version 1 0) (Build_Generator Tool_KhronosReserved 0) 1 (repeat longest n)).
  assert (L : List.length (worst_words n) = 2 * n) by (unfold worst_words; induction n as [|n IH]; [reflexivity|]; cbn in *; lia).
  rewrite words_length, app_length, L. split; [|split; [cbn; lia|]].
  - apply read_exact. exists LittleEndian, 65536%N, 0%N, (worst_words n). split; [reflexivity|]. split.
    + constructor; [reflexivity|]. constructor; [reflexivity|]. unfold worst_words. clear L. induction n as [|n IH]; [constructor|]. cbn. constructor; [reflexivity|]. constructor; [reflexivity|exact IH].
    + split; [repeat split|]. split; [reflexivity|]. split; [repeat split|]. apply worst_wire.
  - clear L. induction n as [|n IH].
    + vm_compute. reflexivity.
    + unfold disp_RawModule in *. rewrite !slength_app in *. cbn [RawModule_version RawModule_generator RawModule_bound RawModule_instructions repeat disp_instructions List.length] in *.
      rewrite !slength_app. change (len (disp_Core disp_Inst longest)) with 61. change (len nl) with 1 in *. lia.
Qed.
