(** Facts about operand readers, compositionality and error kinds. *)
From Coq Require Import ZArith ZifyBool ZifyNat ZifyN.
From Verif Require Import Base Types Ops ReadErr Utf8 ReadBase ReadOperands ExtSet ReadOps Reader Spec_Unicode Spec_Tables Spec_Wire
  Spec_Operands Spec_Opcodes
  Proofs_Utf8 Proofs_Operands Proofs_Composite Proofs_Ops Proofs_Instr Proofs_Stream Proofs_Errors Proofs_Reader Proofs_Encode
  Proofs_Next Proofs_Facts.
Local Open Scope N_scope.
Ltac Zify.zify_post_hook ::= Z.div_mod_to_equations.

(** ** Enumerations (C18) *)

Lemma decodes_intro : forall {A} (R : Reader A) number unknown,
  (forall a rest, R (number a :: rest) = Ok (rest, a)) ->
  (forall w rest, R (w :: rest) = Err (unknown w) \/ exists a, number a = w) ->
  R [] = Err UnexpectedEndOfInstruction -> decodes R number unknown.
Proof.
  intros A R number unknown H1 H2 H3. split; [exact H1|]. split; [|split; [|exact H3]].
  - intros w rest H. destruct (H2 w rest) as [E|(a & E)]; [exact E|]. exfalso. exact (H a E).
  - intros a b H. pose proof (H1 a []) as A1. rewrite H, (H1 b []) in A1. apply Ok_inj in A1. congruence.
Qed.

Ltac enum_unknown number :=
  first [ left; reflexivity
        | right; match goal with |- exists a : ?T, _ = ?w =>
            eexists; match goal with |- ?f _ = _ => idtac end; reflexivity end ].
Ltac enums R number unknown :=
  apply decodes_intro;
  [ intros a rest; destruct a; reflexivity
  | intros w rest;
    let G := fresh "G" in
    assert (G : (exists a, R (w :: rest) = Ok (rest, a) /\ number a = w) \/ R (w :: rest) = Err (unknown w));
    [ unfold R; cbn [read_word bind]; split_word;
      solve [ right; reflexivity | left; eexists; split; [reflexivity|reflexivity] ]
    | destruct G as [(a & _ & G)|G]; [right; exists a; exact G|left; exact G] ]
  | reflexivity ].

Lemma dec_AddressingModel : decodes read_AddressingModel addressing_model_number UnknownAddressingModel.
Proof. enums read_AddressingModel addressing_model_number UnknownAddressingModel. Qed.
Lemma dec_MemoryModel : decodes read_MemoryModel memory_model_number UnknownMemoryModel.
Proof. enums read_MemoryModel memory_model_number UnknownMemoryModel. Qed.
Lemma dec_ExecutionModel : decodes read_ExecutionModel execution_model_number UnknownExecutionModel.
Proof. enums read_ExecutionModel execution_model_number UnknownExecutionModel. Qed.
Lemma dec_Capability : decodes read_Capability capability_number UnknownCapability.
Proof. enums read_Capability capability_number UnknownCapability. Qed.
Lemma dec_Signedness : decodes read_Signedness signedness_number UnknownSignedness.
Proof. enums read_Signedness signedness_number UnknownSignedness. Qed.
Lemma dec_Dim : decodes read_Dim dim_number UnknownDim.
Proof. enums read_Dim dim_number UnknownDim. Qed.
Lemma dec_DepthStatus : decodes read_DepthStatus depth_number UnknownDepthStatus.
Proof. enums read_DepthStatus depth_number UnknownDepthStatus. Qed.
Lemma dec_Arrayed : decodes read_Arrayed arrayed_number UnknownArrayed.
Proof. enums read_Arrayed arrayed_number UnknownArrayed. Qed.
Lemma dec_MS : decodes read_MS ms_number UnknownMS.
Proof. enums read_MS ms_number UnknownMS. Qed.
Lemma dec_SampledStatus : decodes read_SampledStatus sampled_number UnknownSampledStatus.
Proof. enums read_SampledStatus sampled_number UnknownSampledStatus. Qed.
Lemma dec_ImageFormat : decodes read_ImageFormat image_format_number UnknownImageFormat.
Proof. enums read_ImageFormat image_format_number UnknownImageFormat. Qed.
Lemma dec_AccessQualifier : decodes read_AccessQualifier access_qualifier_number UnknownAccessQualifier.
Proof. enums read_AccessQualifier access_qualifier_number UnknownAccessQualifier. Qed.
Lemma dec_StorageClass : decodes read_StorageClass storage_class_number UnknownStorageClass.
Proof. enums read_StorageClass storage_class_number UnknownStorageClass. Qed.
Lemma dec_BuiltIn : decodes read_BuiltIn built_in_number UnknownBuiltIn.
Proof. enums read_BuiltIn built_in_number UnknownBuiltIn. Qed.
Lemma dec_FunctionParameterAttribute :
  decodes read_FunctionParameterAttribute function_parameter_attribute_number UnknownFunctionParameterAttribute.
Proof. enums read_FunctionParameterAttribute function_parameter_attribute_number UnknownFunctionParameterAttribute. Qed.
Lemma dec_FpRoundingMode : decodes read_FpRoundingMode fp_rounding_mode_number UnknownFpRoundingMode.
Proof. enums read_FpRoundingMode fp_rounding_mode_number UnknownFpRoundingMode. Qed.
Lemma dec_LinkageType : decodes read_LinkageType linkage_type_number UnknownLinkageType.
Proof. enums read_LinkageType linkage_type_number UnknownLinkageType. Qed.

Lemma dec_SourceLanguage : forall w rest, exists l, read_SourceLanguage (w :: rest) = Ok (rest, l)
  /\ source_language_number l = w /\ match l with SourceLanguage_Other n => 5 <= n | _ => True end.
Proof.
  intros w rest. unfold read_SourceLanguage. cbn [read_word bind].
  split_word; eexists; (split; [reflexivity|split; [reflexivity|cbn; try exact I; lia]]).
Qed.

Ltac representative R H n :=
  let r := eval vm_compute in (R [n; 0; 0; 0]) in
  match r with Ok (_, ?a) => exact (H a eq_refl) end.
Lemma good_iff : forall {A} (R : Reader A) ops, Good R any ops -> forall ws rest a, Forall word ws ->
  (R ws = Ok (rest, a) <-> exists pre, ws = pre ++ rest /\ wire_operands (ops a) pre).
Proof.
  intros A R ops G ws rest a Hw. split.
  - intro H. apply (good_sound _ _ _ Hw) in H. destruct H as (pre & -> & _ & H). exists pre. auto.
  - intros (pre & -> & H). apply Forall_app in Hw. apply good_complete; [apply Hw|exact I|exact H].
Qed.
Lemma dec_ExecutionMode : decodes_with read_ExecutionMode execution_mode_number execution_mode_operands UnknownExecutionMode.
Proof.
  split; [exact (good_iff _ _ good_ExecutionMode)|]. split; [|split; [|reflexivity]].
  - intro a. destruct a; eexists; reflexivity.
  - intros w rest H. unfold read_ExecutionMode. cbn [read_word bind]. split_word; try reflexivity.
    all: match type of H with forall x, _ <> ?n => exfalso; representative read_ExecutionMode H n end.
Qed.
Lemma dec_Decoration : decodes_with read_Decoration decoration_number decoration_operands UnknownDecoration.
Proof.
  split; [exact (good_iff _ _ good_Decoration)|]. split; [|split; [|reflexivity]].
  - intro a. destruct a; eexists; reflexivity.
  - intros w rest H. unfold read_Decoration. cbn [read_word bind]. split_word; try reflexivity.
    all: match type of H with forall x, _ <> ?n => exfalso; representative read_Decoration H n end.
Qed.

(** ** Masks (C17) *)

Lemma nonzero_bit : forall w k, nonzero (N.land w (2 ^ k)) = N.testbit w k.
Proof.
  intros w k. unfold nonzero. destruct (N.testbit w k) eqn:Hb.
  - destruct (N.eqb_spec (N.land w (2 ^ k)) 0) as [Z|_]; [|reflexivity]. exfalso.
    assert (T : N.testbit (N.land w (2 ^ k)) k = true) by (rewrite N.land_spec, Hb, N.pow2_bits_true; reflexivity).
    rewrite Z, N.bits_0 in T. discriminate.
  - assert (Z : N.land w (2 ^ k) = 0).
    { apply N.bits_inj. intro j. rewrite N.land_spec, N.bits_0. destruct (N.eq_dec j k) as [->|Hne].
      - rewrite Hb. reflexivity.
      - rewrite N.pow2_bits_false by congruence. apply andb_false_r. }
    rewrite Z. reflexivity.
Qed.
Lemma bit0 : forall w, nonzero (N.land w 1) = N.testbit w 0. Proof. intro w. exact (nonzero_bit w 0). Qed.
Lemma bit1 : forall w, nonzero (N.land w 2) = N.testbit w 1. Proof. intro w. exact (nonzero_bit w 1). Qed.
Lemma bit2 : forall w, nonzero (N.land w 4) = N.testbit w 2. Proof. intro w. exact (nonzero_bit w 2). Qed.
Lemma bit3 : forall w, nonzero (N.land w 8) = N.testbit w 3. Proof. intro w. exact (nonzero_bit w 3). Qed.
Lemma bit4 : forall w, nonzero (N.land w 16) = N.testbit w 4. Proof. intro w. exact (nonzero_bit w 4). Qed.

Lemma nonzero_spec : forall n, nonzero n = negb (n =? 0). Proof. reflexivity. Qed.

Ltac mask R f :=
  split; [|split; [|reflexivity]]; intros w rest H; unfold R; cbn [read_word bind];
  [ try (rewrite nonzero_spec, H; cbn [N.eqb negb]); rewrite ?bit0, ?bit1, ?bit2, ?bit3, ?bit4; reflexivity
  | try (rewrite nonzero_spec, (proj2 (N.eqb_neq _ _) H)); try reflexivity ].

Lemma mask_MemoryAccess : decodes_mask read_MemoryAccess 0xFFF8 memory_access_of UnknownMemoryAccess.
Proof. mask read_MemoryAccess memory_access_of. Qed.
Lemma mask_FpFastMathMode : decodes_mask read_FpFastMathMode 0xFFC0 fp_fast_math_of UnknownFpFastMathMode.
Proof. mask read_FpFastMathMode fp_fast_math_of. Qed.
Lemma mask_SelectionControl : decodes_mask read_SelectionControl 0xFFFC selection_control_of UnknownSelectionControl.
Proof. mask read_SelectionControl selection_control_of. Qed.
Lemma mask_FunctionControl : forall w rest, read_FunctionControl (w :: rest) = Ok (rest, function_control_of w).
Proof. intros w rest. unfold read_FunctionControl. cbn [read_word bind]. rewrite bit0, bit1, bit2, bit3. reflexivity. Qed.
Lemma mask_LoopControl : forall w rest,
  read_LoopControl (w :: rest) =
  if negb (N.land w 0xFFF0 =? 0) then Err (UnknownLoopControl w)
  else if N.testbit w 3
    then match rest with [] => Err UnexpectedEndOfInstruction | n :: rest' => Ok (rest', loop_control_of w (Some n)) end
    else Ok (rest, loop_control_of w None).
Proof.
  intros w rest. unfold read_LoopControl. cbn [read_word bind]. rewrite nonzero_spec.
  destruct (negb (N.land w 0xFFF0 =? 0)); [reflexivity|]. cbv zeta. rewrite bit0, bit1, bit2, bit3.
  destruct (N.testbit w 3); [|reflexivity]. destruct rest; reflexivity.
Qed.

(** ** Strings (C14, C15) *)

Lemma string_exact : forall ws rest s, Forall word ws ->
  (read_LitString ws = Ok (rest, s) <-> exists pre, ws = pre ++ rest /\ wire_string s pre /\ text s).
Proof.
  intros ws rest s Hw. split.
  - intro H. apply (good_sound (Good := good_LitString) _ _ _ Hw) in H. destruct H as (pre & -> & _ & H). apply wire_one in H.
    exists pre. split; [reflexivity|exact H].
  - intros (pre & -> & H). apply Forall_app in Hw. apply (good_complete (Good := good_LitString)); [apply Hw|exact I|].
    apply wire_one. exact H.
Qed.

Lemma string_decision : forall ws rest bytes padding, Forall word ws -> ~ In 0 bytes -> (List.length padding < 4)%nat ->
  word_bytes ws = bytes ++ 0 :: padding ->
  (is_utf8 bytes -> exists s, bytes_of_string s = bytes /\ read_LitString (ws ++ rest) = Ok (rest, s))
  /\ (~ is_utf8 bytes -> read_LitString (ws ++ rest) = Err InvalidString).
Proof.
  intros ws rest bytes padding Hw Hn Hl Hb.
  assert (R : read_LitString (ws ++ rest) = match from_utf8 bytes with Some s => Ok (rest, s) | None => Err InvalidString end).
  { unfold read_LitString. rewrite (read_bytes_complete ws [] rest bytes padding) by assumption. reflexivity. }
  rewrite R. unfold from_utf8. split; intro H.
  - apply valid_utf8_iff in H. rewrite H. exists (string_of_bytes bytes). split; [|reflexivity].
    apply bytes_of_string_of_bytes. apply word_bytes_small in Hw. rewrite Hb in Hw. apply Forall_app in Hw. tauto.
  - destruct (valid_utf8 bytes) eqn:V; [|reflexivity]. apply valid_utf8_iff in V. contradiction.
Qed.

Lemma string_unterminated : forall ws, Forall word ws -> ~ In 0 (word_bytes ws) -> read_LitString ws = Err UnexpectedEndOfInstruction.
Proof.
  intros ws Hw Hn. unfold read_LitString.
  assert (G : forall acc, read_bytes ws acc = Err UnexpectedEndOfInstruction); [|rewrite G; reflexivity].
  induction ws as [|w ws IH]; intro acc; cbn [read_bytes]; [reflexivity|].
  inversion Hw as [|? ? Hw1 Hws]; subst. rewrite word_bytes_cons in Hn.
  rewrite (chars_of_word_spec w Hw1). rewrite push_chars_nozero.
  - apply IH; [exact Hws|]. intro Hin. apply Hn. apply in_or_app. right. exact Hin.
  - intro Hin. apply Hn. apply in_or_app. left. exact Hin.
Qed.

Lemma string_round_trip : forall s rest, text s -> read_LitString (encode_string s ++ rest) = Ok (rest, s).
Proof.
  intros s rest Ht.
  destruct (encode_string_wire s) as [Hs Hw]. apply (good_complete (Good := good_LitString)); [exact Hw|exact I|].
  apply wire_one. split; assumption.
Qed.

(** ** Unknown enumerants in modules (C18) *)

Lemma dec_known : forall {A} {R : Reader A} {number unknown}, decodes R number unknown ->
  forall a rest, R (number a :: rest) = Ok (rest, a).
Proof. intros A R number unknown H. apply H. Qed.
Lemma dec_unknown : forall {A} {R : Reader A} {number unknown}, decodes R number unknown ->
  forall w rest, (forall a, number a <> w) -> R (w :: rest) = Err (unknown w).
Proof. intros A R number unknown H. apply H. Qed.
Lemma option_some : forall {A} (R : Reader A) w ws e, R (w :: ws) = Err e -> read_Option R (w :: ws) = Err e.
Proof. intros A R w ws e H. unfold read_Option. rewrite H. reflexivity. Qed.

Lemma decode_error : forall {E} op wc body known (bound : bound_sets E) f e, dispatch op wc = Ok f ->
  f body known bound = Err e -> decode op wc body known bound = Err e.
Proof. intros E op wc body known bound f e H1 H2. unfold decode. rewrite H1. cbn [bind]. rewrite H2. reflexivity. Qed.

Lemma plain_error : forall {E A} (R : Reader A) (wrap : A -> Core E) body known bound e, R body = Err e ->
  plain R wrap body known bound = Err e.
Proof. intros E A R wrap body known bound e H. unfold plain. rewrite H. reflexivity. Qed.

Lemma bind_err : forall {X A B} (r : outcome X A) (f : A -> outcome X B) e, r = Err e -> bind r f = Err e.
Proof. intros X A B r f e ->. reflexivity. Qed.
Lemma bind_ok_eq : forall {X A B} (r : outcome X A) (f : A -> outcome X B) a res, r = Ok a -> f a = res -> bind r f = res.
Proof. intros X A B r f a res -> H. exact H. Qed.

Ltac bad_step :=
  first
  [ apply bind_err; first [eassumption | apply option_some; eassumption ]
  | eapply bind_ok_eq; [first [reflexivity | eapply (dec_known dec_AddressingModel) | eapply (dec_known dec_Dim)
      | eapply (dec_known dec_DepthStatus) | eapply (dec_known dec_Arrayed) | eapply (dec_known dec_MS)
      | eapply (dec_known dec_SampledStatus) | eapply (dec_known dec_ImageFormat) ] | cbv beta iota ] ].

Lemma bad_decoration_read : forall ws e, Forall word ws -> bad_decoration ws e -> read_Decoration ws = Err e.
Proof.
  intros ws e Hw H. inversion H as [? ? U|? ? U|? ? U|? ? U|? ? U|name chars w ws' Hs Ht U]; subst.
  - destruct dec_Decoration as (_ & _ & D & _). apply D. exact U.
  - unfold read_Decoration. eapply bind_ok_eq; [reflexivity|]. cbv beta iota. apply bind_err. exact (dec_unknown dec_BuiltIn _ _ U).
  - unfold read_Decoration. eapply bind_ok_eq; [reflexivity|]. cbv beta iota. apply bind_err. exact (dec_unknown dec_FunctionParameterAttribute _ _ U).
  - unfold read_Decoration. eapply bind_ok_eq; [reflexivity|]. cbv beta iota. apply bind_err. exact (dec_unknown dec_FpRoundingMode _ _ U).
  - unfold read_Decoration. eapply bind_ok_eq; [reflexivity|]. cbv beta iota. apply bind_err. destruct mask_FpFastMathMode as (_ & M & _). apply M. exact U.
  - change (read_Decoration (41 :: chars ++ w :: ws')) with
      (let! (block, name) := read_LitString (chars ++ w :: ws') in
       let! (block, linkage_type) := read_LinkageType block in
       Ok (block, Decoration_LinkageAttributes name linkage_type)).
    inversion Hw as [|? ? _ Hw1]; subst.
    rewrite (proj2 (string_exact _ (w :: ws') name Hw1)) by (exists chars; auto). cbn [bind].
    apply bind_err. exact (dec_unknown dec_LinkageType _ _ U).
Qed.

Theorem bad_operand_rejected : forall {E} o data (known : list (ExtInstSet E)) m op body e rest,
  in_order o data -> read_module data known = Ok m ->
  bad_operand op body e -> Forall word body -> 1 + N.of_nat (List.length body) < 65536 ->
  read_module (data ++ bytes_of_words o (instruction_words op body) ++ rest) known = Err e.
Proof.
  intros E o data known m op body e rest Ho H Hbad Hw Hl.
  destruct (read_next_words _ _ _ _ Ho H) as (bound & Hi & Hx).
  assert (Hop : op < 65536) by (destruct Hbad; reflexivity).
  rewrite Hx by assumption. apply bind_err. clear Hx Hl H Ho Hop Hi.
  destruct Hbad; (eapply decode_error; [reflexivity|]); apply plain_error;
    match goal with
    | U : forall x, addressing_model_number x <> _ |- _ => pose proof (fun r => dec_unknown dec_AddressingModel _ r U) as K
    | U : forall x, memory_model_number x <> _ |- _ => pose proof (fun r => dec_unknown dec_MemoryModel _ r U) as K
    | U : forall x, execution_model_number x <> _ |- _ => pose proof (fun r => dec_unknown dec_ExecutionModel _ r U) as K
    | U : forall x, execution_mode_number x <> _ |- _ => pose proof (fun r => proj1 (proj2 (proj2 dec_ExecutionMode)) _ r U) as K
    | U : forall x, capability_number x <> _ |- _ => pose proof (fun r => dec_unknown dec_Capability _ r U) as K
    | U : forall x, signedness_number x <> _ |- _ => pose proof (fun r => dec_unknown dec_Signedness _ r U) as K
    | U : forall x, dim_number x <> _ |- _ => pose proof (fun r => dec_unknown dec_Dim _ r U) as K
    | U : forall x, depth_number x <> _ |- _ => pose proof (fun r => dec_unknown dec_DepthStatus _ r U) as K
    | U : forall x, arrayed_number x <> _ |- _ => pose proof (fun r => dec_unknown dec_Arrayed _ r U) as K
    | U : forall x, ms_number x <> _ |- _ => pose proof (fun r => dec_unknown dec_MS _ r U) as K
    | U : forall x, sampled_number x <> _ |- _ => pose proof (fun r => dec_unknown dec_SampledStatus _ r U) as K
    | U : forall x, image_format_number x <> _ |- _ => pose proof (fun r => dec_unknown dec_ImageFormat _ r U) as K
    | U : forall x, access_qualifier_number x <> _ |- _ => pose proof (fun r => option_some _ _ _ _ (dec_unknown dec_AccessQualifier _ r U)) as K
    | U : forall x, storage_class_number x <> _ |- _ => pose proof (fun r => dec_unknown dec_StorageClass _ r U) as K
    | U : N.land _ 0xFFF8 <> 0 |- _ => pose proof (fun r => option_some _ _ _ _ (proj1 (proj2 mask_MemoryAccess) _ r U)) as K
    | U : N.land _ 0xFFFC <> 0 |- _ => pose proof (fun r => proj1 (proj2 mask_SelectionControl) _ r U) as K
    | U : N.land ?w 0xFFF0 <> 0 |- _ =>
        assert (K : forall r, read_LoopControl (w :: r) = Err (UnknownLoopControl w))
          by (intro r; rewrite mask_LoopControl, (proj2 (N.eqb_neq _ _) U); reflexivity)
    | U : bad_decoration (?w :: ?ws) ?e |- _ =>
        assert (K : read_Decoration (w :: ws) = Err e)
          by (apply bad_decoration_read; [repeat match goal with F : Forall word (_ :: _) |- _ => first [exact F|apply Forall_cons_iff in F; destruct F as [_ F]] end|exact U])
    end;
    match goal with |- ?R _ = _ => unfold R end;
    repeat (eapply bind_ok_eq; [first [reflexivity | eapply (dec_known dec_AddressingModel) | eapply (dec_known dec_Dim)
      | eapply (dec_known dec_DepthStatus) | eapply (dec_known dec_Arrayed) | eapply (dec_known dec_MS)
      | eapply (dec_known dec_SampledStatus) | eapply (dec_known dec_ImageFormat) ] | cbv beta iota ]);
    apply bind_err; first [exact K | apply K].
Qed.

(** ** Compositionality (C24) *)

Section Compose.
Context {E : Type}.
Implicit Types (known : list (ExtInstSet E)) (bound : bound_sets E) (m : RawModule E).

Definition same_sets bound1 bound2 : Prop := forall id, map_get id bound1 = map_get id bound2.

Definition sim_out {A} (r1 r2 : outcome ReadError (A * bound_sets E)) : Prop :=
  match r1, r2 with
  | Ok (a1, b1), Ok (a2, b2) => a1 = a2 /\ same_sets b1 b2
  | Err e1, Err e2 => e1 = e2
  | Panic, Panic | OutOfFuel, OutOfFuel => True
  | _, _ => False
  end.

Definition sim_reader (f : @CoreReader E) : Prop := forall block known b1 b2, same_sets b1 b2 ->
  sim_out (f block known b1) (f block known b2).

Lemma sim_plain : forall {A} (R : Reader A) (wrap : A -> Core E), sim_reader (plain R wrap).
Proof.
  intros A R wrap block known b1 b2 H. unfold plain. destruct (R block) as [[bl a]|e| |]; cbn [bind sim_out]; auto.
Qed.

Lemma sim_import_loop : forall known id name block b1 b2, same_sets b1 b2 ->
  sim_out (import_loop id name block b1 known) (import_loop id name block b2 known).
Proof.
  induction known as [|s known IH]; intros id name block b1 b2 H; cbn [import_loop]; [reflexivity|].
  destruct (String.eqb (get_name s) name); [|apply IH; exact H].
  unfold map_insert. rewrite (H id). destruct (map_get id b2); cbn [sim_out]; [reflexivity|]. split; [reflexivity|].
  intro k. cbn [map_get]. destruct (N.eqb _ _); [reflexivity|apply H].
Qed.

Lemma table_sim : Forall (fun p => sim_reader (snd p)) (@dispatch_table E).
Proof.
  unfold dispatch_table.
  repeat (apply Forall_cons; [first [apply sim_plain | cbn [snd]]|]); try apply Forall_nil.
  - intros block known b1 b2 H. unfold read_core_OpExtInstImport.
    destruct (read_ResultId block) as [[bl id]|e| |]; cbn [bind sim_out]; auto.
    destruct (read_LitString bl) as [[bl' name]|e| |]; cbn [bind sim_out]; auto. apply sim_import_loop. exact H.
  - intros block known b1 b2 H. unfold read_core_OpExtInst.
    destruct (read_OpId block) as [[bl1 t]|e| |]; cbn [bind sim_out]; auto.
    destruct (read_ResultId bl1) as [[bl2 r]|e| |]; cbn [bind sim_out]; auto.
    destruct (read_OpId bl2) as [[bl3 set]|e| |]; cbn [bind sim_out]; auto.
    destruct (read_u32 bl3) as [[bl4 inst]|e| |]; cbn [bind sim_out]; auto.
    rewrite (H set). destruct (map_get set b2) as [rd|]; cbn [sim_out]; auto.
    destruct (rd inst bl4) as [[bl5 x]|e| |]; cbn [bind sim_out]; auto.
Qed.

Lemma decode_sim : forall op wc body known b1 b2, same_sets b1 b2 ->
  sim_out (decode op wc body known b1) (decode op wc body known b2).
Proof.
  intros op wc body known b1 b2 H. unfold decode.
  destruct (dispatch op wc) as [f|e| |] eqn:Hd; cbn [bind]; try reflexivity; try exact I.
  apply dispatch_in_table in Hd. pose proof table_sim as T. rewrite Forall_forall in T. specialize (T _ Hd body known b1 b2 H).
  cbn [snd] in T. destruct (f body known b1) as [[[bl1 i1] c1]|e1| |], (f body known b2) as [[[bl2 i2] c2]|e2| |]; cbn [bind];
    try destruct T; try exact I; [|subst; reflexivity].
  injection H0 as -> ->. destruct bl2; cbn [sim_out]; auto.
Qed.

Definition same_tail (n1 n2 : list (Core E)) (r1 r2 : outcome ReadError (list (Core E))) : Prop :=
  match r1, r2 with
  | Ok l1, Ok l2 => exists l, l1 = n1 ++ l /\ l2 = n2 ++ l
  | Err e1, Err e2 => e1 = e2
  | Panic, Panic | OutOfFuel, OutOfFuel => True
  | _, _ => False
  end.

Lemma instructions_sim : forall fuel s known b1 b2 acc1 acc2 n1 n2 l, same_sets b1 b2 ->
  acc1 = n1 ++ l -> acc2 = n2 ++ l ->
  same_tail n1 n2 (read_instructions fuel s known b1 acc1) (read_instructions fuel s known b2 acc2).
Proof.
  induction fuel as [|fuel IH]; intros s known b1 b2 acc1 acc2 n1 n2 l H E1 E2; cbn [read_instructions];
    destruct (stream_is_end s); cbn [same_tail]; eauto.
  rewrite !read_instruction_decode. destruct (stream_read_word s) as [[s1 h]|e| |]; cbn [bind same_tail]; auto.
  destruct (read_words _ s1) as [[s2 ws]|e| |]; cbn [bind same_tail]; auto.
  pose proof (decode_sim (as_u16 (N.land h 0xFFFF)) (as_u16 (N.shiftr h 16)) ws known b1 b2 H) as D.
  destruct (decode _ _ ws known b1) as [[i1 c1]|e1| |], (decode _ _ ws known b2) as [[i2 c2]|e2| |]; cbn [bind same_tail];
    try destruct D; auto.
  subst. apply (IH _ _ _ _ _ _ _ _ (l ++ [i2])); [assumption| |]; rewrite app_assoc; reflexivity.
Qed.

Lemma imports_in : forall (is : list (Core E)) op, In (Core_OpExtInstImport op) is <-> In op (imports_of is).
Proof.
  intros is op. unfold imports_of. rewrite in_flat_map. split.
  - intro H. exists (Core_OpExtInstImport op). split; [exact H|left; reflexivity].
  - intros (i & H1 & H2). destruct i; try (solve [destruct H2]). destruct H2 as [->|[]]. exact H1.
Qed.

Lemma bound_inv_same : forall known is1 is2 b1 b2, imports_of is1 = imports_of is2 ->
  bound_inv known is1 b1 -> bound_inv known is2 b2 -> same_sets b1 b2.
Proof.
  intros known is1 is2 b1 b2 He H1 H2 id.
  destruct (map_get id b1) as [r|] eqn:G1.
  - destruct (proj1 H1 _ _ G1) as (name & Hin & Hs). apply imports_in in Hin. rewrite He in Hin. apply imports_in in Hin.
    symmetry. eapply bound_inv_get; [exact H2|]. exists name. split; assumption.
  - symmetry. apply (bound_inv_none _ _ _ _ H2). intros name Hin. apply imports_in in Hin. rewrite <- He in Hin. apply imports_in in Hin.
    exact (proj1 (bound_inv_none _ _ _ _ H1) G1 name Hin).
Qed.

Theorem read_composes : forall o known data1 data2 m1 m2 x, in_order o data1 -> in_order o data2 ->
  read_module data1 known = Ok m1 -> read_module data2 known = Ok m2 ->
  imports_of (RawModule_instructions m1) = imports_of (RawModule_instructions m2) ->
  match read_module (data1 ++ x) known, read_module (data2 ++ x) known with
  | Ok m1', Ok m2' => same_header m1 m1' /\ same_header m2 m2' /\ exists l,
      RawModule_instructions m1' = RawModule_instructions m1 ++ l /\ RawModule_instructions m2' = RawModule_instructions m2 ++ l
  | Err e1, Err e2 => e1 = e2
  | Panic, Panic | OutOfFuel, OutOfFuel => True
  | _, _ => False
  end.
Proof.
  intros o known data1 data2 m1 m2 x Ho1 Ho2 H1 H2 Him.
  destruct (read_continue _ _ _ _ Ho1 H1) as (b1 & I1 & X1). destruct (read_continue _ _ _ _ Ho2 H2) as (b2 & I2 & X2).
  rewrite X1, X2. unfold loop.
  pose proof (instructions_sim (List.length (Stream_source (Build_Stream x (le_of o)))) (Build_Stream x (le_of o)) known b1 b2
    (RawModule_instructions m1) (RawModule_instructions m2) (RawModule_instructions m1) (RawModule_instructions m2) []
    (bound_inv_same _ _ _ _ _ Him I1 I2) (eq_sym (app_nil_r _)) (eq_sym (app_nil_r _))) as S.
  destruct (read_instructions _ _ known b1 _) as [l1|?| |], (read_instructions _ _ known b2 _) as [l2|?| |]; cbn [bind same_tail] in *; auto.
  destruct S as (l & -> & ->). split; [repeat split|]. split; [repeat split|]. exists l. split; reflexivity.
Qed.

(** ** Errors that never occur (C61) *)

Definition never (e : ReadError) : Prop := match e with UnknownVersion _ | WrongWordCountForOp => True | _ => False end.

Definition from_set known (e : ReadError) : Prop := exists s number ws, In s known /\ duplicate s number ws = Err e.

Lemma decode_never : forall op wc body known earlier bound, bound_inv known earlier bound ->
  errs (fun e => never e -> from_set known e) (decode op wc body known bound).
Proof.
  intros op wc body known earlier bound Hi. unfold decode.
  destruct (dispatch op wc) as [f|e| |] eqn:Hd; cbn [bind errs]; try exact I.
  - apply errs_bind.
    + destruct (dispatch_clean _ _ _ Hd) as [->|[->|C]].
      * injection Hd as <-. pose proof (import_clean body known bound) as C.
        destruct (read_core_OpExtInstImport body known bound) as [?|e| |]; cbn [errs] in *; try exact I.
        intro N. destruct C as [C|[(n & ->)|(n & ->)]]; [destruct e; first [solve [destruct N] | solve [destruct C]]|destruct N|destruct N].
      * injection Hd as <-. pose proof (ext_inst_clean body known bound) as C.
        destruct (read_core_OpExtInst body known bound) as [?|e| |]; cbn [errs] in *; try exact I.
        intro N. destruct C as [C|[(n & ->)|(id & r & number & ws & Hg & Hr)]]; [destruct e; first [solve [destruct N] | solve [destruct C]]|destruct N|].
        destruct (proj1 Hi _ _ Hg) as (name & _ & b & s & a & -> & _ & _ & ->).
        exists s, number, ws. split; [apply in_elt|exact Hr].
      * specialize (C body known bound). destruct (f body known bound) as [?|e| |]; cbn [errs] in *; try exact I.
        intro N. destruct e; first [solve [destruct N] | solve [destruct C]].
    + intros [[b i] bd]. destruct b; [exact I|]. intros [].
  - pose proof (dispatch_support (E := E) op wc) as A. unfold agrees in A. rewrite Hd in A.
    intro N. destruct (opcode_support op); [destruct A as (? & A)| |]; try discriminate A; injection A as ->; destruct N.
Qed.

Lemma errs_bind_eq : forall {X A B} P (r : outcome X A) (f : A -> outcome X B),
  errs P r -> (forall a, r = Ok a -> errs P (f a)) -> errs P (bind r f).
Proof. intros X A B P [a|e| |] f H1 H2; cbn [bind]; [apply H2; reflexivity|exact H1|exact I|exact I]. Qed.

Lemma stream_word_never : forall (P : ReadError -> Prop) s, errs (fun e => never e -> P e) (stream_read_word s).
Proof. intros P [[|a [|b [|c [|d src]]]] le]; unfold stream_read_word; cbn [Stream_source errs]; try exact I; intros []. Qed.
Lemma words_never : forall (P : ReadError -> Prop) n s, errs (fun e => never e -> P e) (read_words n s).
Proof.
  induction n as [|n IH]; intro s; cbn [read_words]; [exact I|].
  apply errs_bind; [apply stream_word_never|]. intros [s1 w]. apply errs_bind; [apply IH|]. intros [s2 ws]. exact I.
Qed.

Lemma loop_never : forall n o src known earlier bound, (List.length src <= n)%nat -> bound_inv known earlier bound ->
  errs (fun e => never e -> from_set known e) (loop (Build_Stream src (le_of o)) known bound earlier).
Proof.
  induction n as [|n IH]; intros o src known earlier bound Hn Hi.
  - destruct src; [exact I|cbn [List.length] in Hn; lia].
  - rewrite loop_unfold. destruct src as [|a src]; [exact I|].
    change (stream_is_end (Build_Stream (a :: src) (le_of o))) with false. cbv iota.
    apply errs_bind_eq.
    + rewrite read_instruction_decode. apply errs_bind; [apply stream_word_never|]. intros [s1 h].
      apply errs_bind; [apply words_never|]. intros [s2 ws]. apply errs_bind; [eapply decode_never; exact Hi|]. intros [? ?]. exact I.
    + intros [[s i] b] Hr. pose proof (read_instruction_shrinks _ _ _ _ _ _ Hr) as (_ & k & Hk).
      apply (read_instruction_sound o (a :: src) known earlier) in Hr; [|exact Hi].
      destruct Hr as (wc & body & rest & Hr). decompose [and] Hr. subst. apply IH; try assumption.
      cbn [Stream_source List.length] in *. lia.
Qed.

Theorem read_never : forall data known e, read_module data known = Err e -> never e -> from_set known e.
Proof.
  intros data known e H.
  assert (G : errs (fun e => never e -> from_set known e) (read_module data known)); [|rewrite H in G; exact G].
  clear e H. rewrite read_module_magic. apply errs_bind.
  - apply errs_bind; [apply stream_word_never|]. intros [s m]. unfold check_magic.
    destruct (N.eqb m SPIRV_MAGIC_NUMBER); [exact I|]. destruct (N.eqb m SPIRV_MAGIC_NUMBER_OTHER_ENDIAN); [exact I|]. intros [].
  - intros s. unfold read_after_magic. destruct (stream_read_word s) as [[s1 v]|e| |] eqn:Hs; cbn [bind].
    2-4: pose proof (stream_word_never (from_set known) s) as W; rewrite Hs in W; exact W.
    destruct s as [src le]. rewrite <- (le_order le) in Hs. apply stream_read_word_inv in Hs. destruct Hs as (Hv & rest & -> & ->).
    destruct (read_version_cases v Hv) as [[_ ->]|[_ ->]]; [|intros []].
    cbn [bind check_version]. rewrite !le_order.
    apply errs_bind; [apply stream_word_never|]. intros [s2 g].
    apply errs_bind; [apply stream_word_never|]. intros [s3 b].
    apply errs_bind; [apply stream_word_never|]. intros [[src' le'] z].
    destruct (negb (N.eqb z 0)); [intros []|].
    apply errs_bind; [|intros; exact I].
    pose proof (loop_never _ (order_of le') src' known [] [] (le_n _) (bound_inv_nil known)) as T. rewrite le_order in T. exact T.
Qed.
End Compose.

(** ** Statements in the form of the properties *)

Section Wrap.
Context {E : Type}.
Implicit Types (known : list (ExtInstSet E)) (m : RawModule E).

Lemma read_exact : forall data known m, read_module data known = Ok m <-> wire_module known data m.
Proof. intros. split; [apply read_module_sound|apply read_module_complete]. Qed.

Lemma read_returns : forall data known,
  (forall s n ws, In s known -> (exists r, duplicate s n ws = Ok r) \/ (exists e, duplicate s n ws = Err e)) ->
  (exists m, read_module data known = Ok m) \/ (exists e, read_module data known = Err e).
Proof.
  intros data known H. pose proof (read_module_total data known) as T.
  destruct (read_module data known) as [m|e| |]; [left|right| |]; try (eexists; reflexivity); exfalso;
    apply T; apply Forall_forall; intros s Hs n ws; destruct (H s n ws Hs) as [(r & ->)|(e & ->)]; exact I.
Qed.

Lemma accepted_whole_words : forall data known m, read_module data known = Ok m ->
  (List.length data mod 4 = 0)%nat /\ (20 <= List.length data)%nat.
Proof. intros data known m H. apply accepted_length in H. destruct H as (k & ->). lia. Qed.

Lemma string_read_bytes : forall ws rest s, Forall word ws -> read_LitString ws = Ok (rest, s) ->
  exists pre padding, ws = pre ++ rest /\ word_bytes pre = bytes_of_string s ++ 0 :: padding
    /\ ~ In 0 (bytes_of_string s) /\ (List.length padding < 4)%nat.
Proof.
  intros ws rest s Hw H. apply (string_exact _ _ _ Hw) in H. destruct H as (pre & -> & (pad & Hl & Hb) & _ & Hn).
  exists pre, pad. auto.
Qed.

Lemma never_without_sets : forall data known e, read_module data known = Err e ->
  (forall s n ws, In s known -> duplicate s n ws <> Err e) ->
  e <> WrongWordCountForOp /\ forall v, e <> UnknownVersion v.
Proof.
  intros data known e H Hk. split; [|intro v]; intros ->; destruct (read_never _ _ _ H I) as (s & n & ws & Hs & Hd); exact (Hk s n ws Hs Hd).
Qed.

Lemma undispatched_unknown : forall o data known m op body rest, in_order o data -> read_module data known = Ok m ->
  In op [34; 35; 36; 37; 38; 39] -> Forall word body -> 1 + N.of_nat (List.length body) < 65536 ->
  read_module (data ++ bytes_of_words o (instruction_words op body) ++ rest) known
    = Err (UnknownOp op (1 + N.of_nat (List.length body))).
Proof.
  intros o data known m op body rest Ho H Hin Hb Hl.
  destruct Hin as [<-|[<-|[<-|[<-|[<-|[<-|[]]]]]]]; apply (next_unknown o data known m); assumption || reflexivity.
Qed.
End Wrap.

Lemma all_enumerants :
  decodes read_AddressingModel addressing_model_number UnknownAddressingModel
  /\ decodes read_MemoryModel memory_model_number UnknownMemoryModel
  /\ decodes read_ExecutionModel execution_model_number UnknownExecutionModel
  /\ decodes read_Capability capability_number UnknownCapability
  /\ decodes read_Signedness signedness_number UnknownSignedness
  /\ decodes read_Dim dim_number UnknownDim
  /\ decodes read_DepthStatus depth_number UnknownDepthStatus
  /\ decodes read_Arrayed arrayed_number UnknownArrayed
  /\ decodes read_MS ms_number UnknownMS
  /\ decodes read_SampledStatus sampled_number UnknownSampledStatus
  /\ decodes read_ImageFormat image_format_number UnknownImageFormat
  /\ decodes read_AccessQualifier access_qualifier_number UnknownAccessQualifier
  /\ decodes read_StorageClass storage_class_number UnknownStorageClass
  /\ decodes read_BuiltIn built_in_number UnknownBuiltIn
  /\ decodes read_FunctionParameterAttribute function_parameter_attribute_number UnknownFunctionParameterAttribute
  /\ decodes read_FpRoundingMode fp_rounding_mode_number UnknownFpRoundingMode
  /\ decodes read_LinkageType linkage_type_number UnknownLinkageType.
Proof.
  exact (conj dec_AddressingModel (conj dec_MemoryModel (conj dec_ExecutionModel (conj dec_Capability (conj dec_Signedness
   (conj dec_Dim (conj dec_DepthStatus (conj dec_Arrayed (conj dec_MS (conj dec_SampledStatus (conj dec_ImageFormat
   (conj dec_AccessQualifier (conj dec_StorageClass (conj dec_BuiltIn (conj dec_FunctionParameterAttribute
   (conj dec_FpRoundingMode dec_LinkageType)))))))))))))))).
Qed.

Lemma imports_ids : forall {E} (is : list (Core E)), import_ids is = map OpExtInstImport_result_id (imports_of is).
Proof.
  intros E is. induction is as [|i is IH]; [reflexivity|]. unfold import_ids, imports_of in *. cbn [flat_map]. rewrite map_app, IH.
  destruct i; reflexivity.
Qed.

Lemma imports_unique' : forall {E} data (known : list (ExtInstSet E)) m, read_module data known = Ok m ->
  NoDup (map OpExtInstImport_result_id (imports_of (RawModule_instructions m)))
  /\ forall id name, In (Core_OpExtInstImport (Build_OpExtInstImport id name)) (RawModule_instructions m) ->
     exists s, In s known /\ get_name s = name.
Proof. intros E data known m H. rewrite <- imports_ids. apply imports_unique in H. exact H. Qed.

Lemma accepted_dispatched : forall {E} data (known : list (ExtInstSet E)) m i,
  read_module data known = Ok m -> In i (RawModule_instructions m) ->
  match i with
  | Core_OpTypeEvent _ | Core_OpTypeDeviceEvent _ | Core_OpTypeQueue _ | Core_OpTypePipe _ | Core_OpTypeForwardPointer _ => False
  | _ => True
  end.
Proof.
  intros E data known m i H Hi. apply accepted_readable in H. rewrite Forall_forall in H. specialize (H i Hi).
  destruct i; exact I || exact H.
Qed.
