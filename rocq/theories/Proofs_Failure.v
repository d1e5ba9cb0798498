(** The error read_module returns. *)
From Coq Require Import ZArith ZifyBool ZifyNat ZifyN.
From Verif Require Import Base Types Ops ReadErr Utf8 ReadBase ReadOperands ExtSet ReadOps Reader Spec_Unicode Spec_Tables Spec_Wire
  Spec_Operands Spec_Opcodes Spec_Names Spec_Failure
  Proofs_Utf8 Proofs_Operands Proofs_Composite Proofs_Ops Proofs_Instr Proofs_Stream Proofs_Errors Proofs_Reader Proofs_Encode
  Proofs_Next Proofs_Facts Proofs_Facts2.
Local Open Scope N_scope.
Ltac Zify.zify_post_hook ::= Z.div_mod_to_equations.

(** ** Readers against scans *)

Definition out {A} (r : outcome ReadError (list N * A)) : option scanned :=
  match r with Ok (rest, _) => Some (Left rest) | Err e => Some (Fails e) | _ => None end.

Definition tracks {A} (R : Reader A) (S : list N -> scanned -> Prop) : Prop :=
  forall ws, Forall word ws -> (forall v, S ws v <-> out (R ws) = Some v)
    /\ (forall rest a, R ws = Ok (rest, a) -> exists pre, ws = pre ++ rest).

Lemma tracks_bind : forall {A B} (R : Reader A) S1 (F : A -> Reader B) S2, tracks R S1 -> (forall a, tracks (F a) S2) ->
  tracks (fun ws => let! (rest, a) := R ws in F a rest) (andthen S1 S2).
Proof.
  intros A B R S1 F S2 T1 T2 ws Hw. destruct (T1 ws Hw) as [V1 P1]. unfold andthen.
  destruct (R ws) as [[rest a]|e| |]; cbn [bind out] in *.
  - destruct (P1 rest a eq_refl) as (pre & ->). apply Forall_app in Hw. destruct (T2 a rest (proj2 Hw)) as [V2 P2]. split.
    + intro v. rewrite <- V2. split.
      * intros [(e & H & _)|(r & H & H2)]; apply V1 in H; [discriminate|]. injection H as ->. exact H2.
      * intro H. right. exists rest. split; [apply V1; reflexivity|exact H].
    + intros rest' b H. apply P2 in H. destruct H as (pre' & ->). exists (pre ++ pre'). apply app_assoc.
  - split; [|discriminate]. intro v. split.
    + intros [(e' & H & ->)|(r & H & _)]; apply V1 in H; [exact H|discriminate].
    + intro H. injection H as <-. left. exists e. split; [apply V1; reflexivity|reflexivity].
  - split; [|discriminate]. intro v. split; [|discriminate].
    intros [(e' & H & ->)|(r & H & _)]; apply V1 in H; discriminate.
  - split; [|discriminate]. intro v. split; [|discriminate].
    intros [(e' & H & ->)|(r & H & _)]; apply V1 in H; discriminate.
Qed.

Lemma tracks_done : forall {A} (a : A), tracks (fun ws => Ok (ws, a)) (fun ws v => v = Left ws).
Proof.
  intros A a ws _. split; [|intros rest b H; injection H as <- _; exists []; reflexivity].
  intro v. cbn [out]. split; [intros ->; reflexivity|intro H; injection H as <-; reflexivity].
Qed.

Lemma tracks_map : forall {A B} (R : Reader A) S (f : A -> B), tracks R S ->
  tracks (fun ws => let! (rest, a) := R ws in Ok (rest, f a)) S.
Proof.
  intros A B R S f T ws Hw. destruct (T ws Hw) as [V P].
  destruct (R ws) as [[rest a]|e| |]; cbn [bind out] in *; (split; [exact V|]); try discriminate.
  intros rest' b H. injection H as <- _. eapply P. reflexivity.
Qed.

Lemma tracks_optional : forall {A B} (R : Reader A) (F : option A -> Reader B) g gs, tracks R (scans_all g) ->
  (forall a, tracks (F a) (scans_optional gs)) ->
  tracks (fun ws => let! (rest, a) := read_Option R ws in F a rest) (scans_optional (g :: gs)).
Proof.
  intros A B R F g gs T1 T2 ws Hw. destruct ws as [|w ws].
  - cbn [read_Option bind]. destruct (T2 None [] Hw) as [V P]. split; [|exact P]. intro v. rewrite <- V.
    destruct gs; reflexivity.
  - pose proof (tracks_bind R (scans_all g) (fun a => F (Some a)) _ T1 (fun a => T2 (Some a)) (w :: ws) Hw) as [V P].
    cbn [scans_optional]. unfold read_Option. destruct (R (w :: ws)) as [[rest a]|e| |]; cbn [bind] in *; split; assumption.
Qed.
Lemma tracks_no_more : forall {A} (a : A), tracks (fun ws => Ok (ws, a)) (scans_optional []).
Proof. intros A a. exact (tracks_done a). Qed.

Lemma tracks_items : forall {A} (R : Reader A) g, tracks R (scans_all g) ->
  (forall w ws rest a, R (w :: ws) = Ok (rest, a) -> (List.length rest <= List.length ws)%nat) ->
  forall fuel ws items, (List.length ws <= fuel)%nat -> Forall word ws ->
  (forall v, scans_repeated g ws v <-> out (read_items fuel R ws items) = Some v)
  /\ (forall rest l, read_items fuel R ws items = Ok (rest, l) -> rest = []).
Proof.
  intros A R g T L fuel. induction fuel as [|fuel IH]; intros ws items Hf Hw.
  - destruct ws as [|w ws]; [|cbn in Hf; lia]. cbn [read_items out]. split.
    + intro v. split; [intro H; inversion H; reflexivity|intro H; injection H as <-; constructor].
    + intros rest l H. injection H as <- _. reflexivity.
  - destruct ws as [|w ws]; cbn [read_items].
    + split.
      * intro v. split; [intro H; inversion H; reflexivity|intro H; injection H as <-; constructor].
      * intros rest l H. injection H as <- _. reflexivity.
    + assert (U : forall v, scans_repeated g (w :: ws) v <-> andthen (scans_all g) (scans_repeated g) (w :: ws) v).
      { intro v. split; [intro H; inversion H; assumption|apply repeated_more]. }
      destruct (T (w :: ws) Hw) as [V P]. unfold andthen in U.
      destruct (R (w :: ws)) as [[rest a]|e| |] eqn:Hr; cbn [bind out] in *.
      * destruct (P rest a eq_refl) as (pre & Hp). pose proof (L _ _ _ _ Hr). cbn in Hf.
        assert (Hw' : Forall word rest) by (rewrite Hp in Hw; apply Forall_app in Hw; tauto).
        destruct (IH rest (items ++ [a]) ltac:(lia) Hw') as [V2 P2]. split; [|exact P2].
        intro v. rewrite U, <- V2. split.
        -- intros [(e & H1 & _)|(r & H1 & H2)]; apply V in H1; [discriminate|]. injection H1 as ->. exact H2.
        -- intro H1. right. exists rest. split; [apply V; reflexivity|exact H1].
      * split; [|discriminate]. intro v. rewrite U. split.
        -- intros [(e' & H & ->)|(r & H & _)]; apply V in H; [exact H|discriminate].
        -- intro H. injection H as <-. left. exists e. split; [apply V; reflexivity|reflexivity].
      * split; [|discriminate]. intro v. rewrite U. split; [|discriminate].
        intros [(e' & H & ->)|(r & H & _)]; apply V in H; discriminate.
      * split; [|discriminate]. intro v. rewrite U. split; [|discriminate].
        intros [(e' & H & ->)|(r & H & _)]; apply V in H; discriminate.
Qed.

Lemma tracks_vec : forall {A} size (R : Reader A) g, N.min 1 (size / 4) <> 0 -> tracks R (scans_all g) ->
  (forall w ws rest a, R (w :: ws) = Ok (rest, a) -> (List.length rest <= List.length ws)%nat) ->
  tracks (read_Vec size R) (scans_repeated g).
Proof.
  intros A size R g Hs T L ws Hw. unfold read_Vec. cbv zeta. rewrite (proj2 (N.eqb_neq _ _) Hs).
  destruct (tracks_items R g T L (List.length ws) ws [] (le_n _) Hw) as [V P]. split; [exact V|].
  intros rest l H. apply P in H. subst. exists ws. symmetry. apply app_nil_r.
Qed.

(** ** Single operands *)

Lemma tracks_word : tracks read_word (scans AWord).
Proof.
  intros [|w ws] _; cbn [read_word out].
  - split; [|discriminate]. intro v. split; [intro H; inversion H; reflexivity|].
    intro H. injection H as <-. apply scans_missing. discriminate.
  - split; [|intros rest a H; injection H as <- _; exists [w]; reflexivity].
    intro v. split; [intro H; inversion H; reflexivity|intro H; injection H as <-; constructor].
Qed.
Lemma tracks_one : forall {A} (R : Reader A), (forall w rest, exists a, R (w :: rest) = Ok (rest, a)) -> R [] = Err UnexpectedEndOfInstruction ->
  tracks R (scans AWord).
Proof.
  intros A R H1 H0 [|w ws] Hw; destruct (tracks_word _ Hw) as [V P].
  - rewrite H0. split; [exact V|discriminate].
  - destruct (H1 w ws) as (a & ->). split; [exact V|]. intros rest b H. injection H as <- _. exists [w]. reflexivity.
Qed.

Lemma tracks_enum : forall {A} {R : Reader A} {number} {unknown} (numbers : list N), decodes R number unknown ->
  (forall a, In (number a) numbers) ->
  Forall (fun w => forall rest, exists a, R (w :: rest) = Ok (rest, a)) numbers ->
  tracks R (scans (AnEnum numbers unknown)).
Proof.
  intros A R number unknown numbers (_ & D & _ & D0) H1 H2 [|w ws] _.
  - rewrite D0. split; [|discriminate]. intro v. split; [intro H; inversion H; reflexivity|].
    intro H. injection H as <-. apply scans_missing. discriminate.
  - destruct (in_dec N.eq_dec w numbers) as [Hin|Hn].
    + rewrite Forall_forall in H2. destruct (H2 w Hin ws) as (a & ->). cbn [out].
      split; [|intros rest b H; injection H as <- _; exists [w]; reflexivity].
      intro v. split; [intro H; inversion H; subst; [reflexivity|contradiction]|].
      intro H. injection H as <-. apply scans_enum. exact Hin.
    + rewrite D; [|intros a Ha; apply Hn; rewrite <- Ha; apply H1]. split; [|discriminate]. cbn [out].
      intro v. split; [intro H; inversion H; subst; [contradiction|reflexivity]|].
      intro H. injection H as <-. apply scans_enum_unknown. exact Hn.
Qed.

Lemma tracks_mask : forall {A} {R : Reader A} {reserved flags unknown}, decodes_mask R reserved flags unknown ->
  tracks R (scans (AMask reserved unknown)).
Proof.
  intros A R reserved flags unknown (D1 & D2 & D0) [|w ws] _.
  - rewrite D0. split; [|discriminate]. intro v. split; [intro H; inversion H; reflexivity|].
    intro H. injection H as <-. apply scans_missing. discriminate.
  - destruct (N.eq_dec (N.land w reserved) 0) as [Hz|Hn].
    + rewrite D1 by exact Hz. split; [|intros rest a H; injection H as <- _; exists [w]; reflexivity]. cbn [out].
      intro v. split; [intro H; inversion H; subst; [reflexivity|contradiction]|].
      intro H. injection H as <-. apply scans_mask. exact Hz.
    + rewrite D2 by exact Hn. split; [|discriminate]. cbn [out].
      intro v. split; [intro H; inversion H; subst; [contradiction|reflexivity]|].
      intro H. injection H as <-. apply scans_mask_reserved. exact Hn.
Qed.

Lemma read_bytes_err : forall ws acc e, Forall word ws -> read_bytes ws acc = Err e ->
  e = UnexpectedEndOfInstruction /\ ~ In 0 (word_bytes ws).
Proof.
  induction ws as [|w ws IH]; intros acc e Hw H; cbn [read_bytes] in H.
  - injection H as <-. split; [reflexivity|]. intros [].
  - inversion Hw as [|? ? Hw1 Hws]; subst. rewrite (chars_of_word_spec w Hw1) in H. rewrite word_bytes_cons.
    set (cs := [w mod 256; w / 256 mod 256; w / 65536 mod 256; w / 16777216]) in *.
    destruct (push_chars_spec cs acc) as [(bs & pad & Hcs & Hn & Hp)|(Hn & Hp)]; rewrite Hp in H; [discriminate|].
    apply IH in H; [|exact Hws]. destruct H as [-> H]. split; [reflexivity|].
    intro Hin. apply in_app_or in Hin. destruct Hin; contradiction.
Qed.

Lemma tracks_string : tracks read_LitString (scans AString).
Proof.
  intros ws Hw. split; [|intros rest s H; apply (string_exact _ _ _ Hw) in H; destruct H as (pre & -> & _); exists pre; reflexivity].
  intro v. split.
  - intro H. inversion H as [s Hs|w rest|numbers unknown w rest Hin|numbers unknown w rest Hin|r unknown w rest Hin|r unknown w rest Hin
      |s pre rest Hp Ht E1 E2|pre bytes padding rest Hb Hn Hl Hu E1 E2|ws' Hn E1 E2]; subst.
    + contradiction.
    + rewrite (proj2 (string_exact _ rest s Hw)); [reflexivity|]. exists pre. auto.
    + apply Forall_app in Hw. destruct (string_decision pre rest bytes padding (proj1 Hw) Hn Hl Hb) as [_ D].
      rewrite (D Hu). reflexivity.
    + rewrite (string_unterminated ws Hw Hn). reflexivity.
  - unfold read_LitString. destruct (read_bytes ws []) as [[rest bytes]|e| |] eqn:Hr; cbn [bind]; try discriminate.
    + destruct (from_utf8 bytes) as [s|] eqn:Hu; intro H; injection H as <-.
      * assert (Hs : read_LitString ws = Ok (rest, s)) by (unfold read_LitString; rewrite Hr; cbn [bind]; rewrite Hu; reflexivity).
        apply (string_exact _ _ _ Hw) in Hs. destruct Hs as (pre & -> & H1 & H2). eapply scans_string; eassumption.
      * apply (read_bytes_sound _ _ _ _ Hw) in Hr. destruct Hr as (pre & bs & pad & -> & -> & Hn & Hb & Hl).
        apply (scans_string_not_utf8 pre bs pad rest Hb Hn Hl). intro V. apply valid_utf8_iff in V.
        unfold from_utf8 in Hu. cbn [app] in Hu. rewrite V in Hu. discriminate.
    + apply (read_bytes_err _ _ _ Hw) in Hr. destruct Hr as [-> Hn]. intro H. injection H as <-.
      apply scans_string_unterminated. exact Hn.
Qed.

Ltac member := first [left; reflexivity | right; member].
Ltac table := first [let a := fresh in intro a; destruct a; cbv; member | repeat (apply Forall_cons; [intro rest; eexists; reflexivity|]); apply Forall_nil].
Ltac enum D l := apply (tracks_enum l D); table.

Lemma t_AddressingModel : tracks read_AddressingModel (scans (AnEnum (map fst addressing_models) UnknownAddressingModel)).
Proof. enum dec_AddressingModel (map fst addressing_models). Qed.
Lemma t_MemoryModel : tracks read_MemoryModel (scans (AnEnum (map fst memory_models) UnknownMemoryModel)).
Proof. enum dec_MemoryModel (map fst memory_models). Qed.
Lemma t_ExecutionModel : tracks read_ExecutionModel (scans (AnEnum (map fst execution_models) UnknownExecutionModel)).
Proof. enum dec_ExecutionModel (map fst execution_models). Qed.
Lemma t_Capability : tracks read_Capability (scans (AnEnum (map fst capabilities) UnknownCapability)).
Proof. enum dec_Capability (map fst capabilities). Qed.
Lemma t_Signedness : tracks read_Signedness (scans (AnEnum [0; 1] UnknownSignedness)).
Proof. enum dec_Signedness [0; 1]. Qed.
Lemma t_Dim : tracks read_Dim (scans (AnEnum (map fst dims) UnknownDim)).
Proof. enum dec_Dim (map fst dims). Qed.
Lemma t_DepthStatus : tracks read_DepthStatus (scans (AnEnum [0; 1; 2] UnknownDepthStatus)).
Proof. enum dec_DepthStatus [0; 1; 2]. Qed.
Lemma t_Arrayed : tracks read_Arrayed (scans (AnEnum [0; 1] UnknownArrayed)).
Proof. enum dec_Arrayed [0; 1]. Qed.
Lemma t_MS : tracks read_MS (scans (AnEnum [0; 1] UnknownMS)).
Proof. enum dec_MS [0; 1]. Qed.
Lemma t_SampledStatus : tracks read_SampledStatus (scans (AnEnum [0; 1; 2] UnknownSampledStatus)).
Proof. enum dec_SampledStatus [0; 1; 2]. Qed.
Lemma t_ImageFormat : tracks read_ImageFormat (scans (AnEnum (map fst image_formats) UnknownImageFormat)).
Proof. enum dec_ImageFormat (map fst image_formats). Qed.
Lemma t_AccessQualifier : tracks read_AccessQualifier (scans (AnEnum (map fst access_qualifiers) UnknownAccessQualifier)).
Proof. enum dec_AccessQualifier (map fst access_qualifiers). Qed.
Lemma t_StorageClass : tracks read_StorageClass (scans (AnEnum (map fst storage_classes) UnknownStorageClass)).
Proof. enum dec_StorageClass (map fst storage_classes). Qed.
Lemma t_BuiltIn : tracks read_BuiltIn (scans (AnEnum (map fst built_ins) UnknownBuiltIn)).
Proof. enum dec_BuiltIn (map fst built_ins). Qed.
Lemma t_FunctionParameterAttribute :
  tracks read_FunctionParameterAttribute (scans (AnEnum (map fst function_parameter_attributes) UnknownFunctionParameterAttribute)).
Proof. enum dec_FunctionParameterAttribute (map fst function_parameter_attributes). Qed.
Lemma t_FpRoundingMode : tracks read_FpRoundingMode (scans (AnEnum (map fst fp_rounding_modes) UnknownFpRoundingMode)).
Proof. enum dec_FpRoundingMode (map fst fp_rounding_modes). Qed.
Lemma t_LinkageType : tracks read_LinkageType (scans (AnEnum (map fst linkage_types) UnknownLinkageType)).
Proof. enum dec_LinkageType (map fst linkage_types). Qed.
Lemma t_OpId : tracks read_OpId (scans AWord).
Proof. apply tracks_one; [intros; eexists; reflexivity|reflexivity]. Qed.
Lemma t_ResultId : tracks read_ResultId (scans AWord).
Proof. exact t_OpId. Qed.
Lemma t_SourceVersion : tracks read_SourceVersion (scans AWord).
Proof. exact t_OpId. Qed.
Lemma t_MemberIndex : tracks read_MemberIndex (scans AWord).
Proof. exact t_OpId. Qed.
Lemma t_u32 : tracks read_u32 (scans AWord).
Proof. exact tracks_word. Qed.
Lemma t_SourceLanguage : tracks read_SourceLanguage (scans AWord).
Proof.
  apply tracks_one; [|reflexivity]. intros w rest. destruct (dec_SourceLanguage w rest) as (l & H & _). exists l. exact H.
Qed.
Lemma t_FunctionControl : tracks read_FunctionControl (scans AWord).
Proof. apply tracks_one; [|reflexivity]. intros w rest. rewrite mask_FunctionControl. eexists. reflexivity. Qed.
Definition t_MemoryAccess := tracks_mask mask_MemoryAccess.
Definition t_SelectionControl := tracks_mask mask_SelectionControl.
Definition t_FpFastMathMode := tracks_mask mask_FpFastMathMode.

(* one reader *)
Ltac leaf :=
  lazymatch goal with
  | |- tracks read_word _ => exact tracks_word
  | |- tracks read_LitString _ => exact tracks_string
  | |- tracks read_u32 _ => exact t_u32
  | |- tracks read_OpId _ => exact t_OpId
  | |- tracks read_ResultId _ => exact t_ResultId
  | |- tracks read_SourceVersion _ => exact t_SourceVersion
  | |- tracks read_MemberIndex _ => exact t_MemberIndex
  | |- tracks read_SourceLanguage _ => exact t_SourceLanguage
  | |- tracks read_FunctionControl _ => exact t_FunctionControl
  | |- tracks read_AddressingModel _ => exact t_AddressingModel
  | |- tracks read_MemoryModel _ => exact t_MemoryModel
  | |- tracks read_ExecutionModel _ => exact t_ExecutionModel
  | |- tracks read_Capability _ => exact t_Capability
  | |- tracks read_Signedness _ => exact t_Signedness
  | |- tracks read_Dim _ => exact t_Dim
  | |- tracks read_DepthStatus _ => exact t_DepthStatus
  | |- tracks read_Arrayed _ => exact t_Arrayed
  | |- tracks read_MS _ => exact t_MS
  | |- tracks read_SampledStatus _ => exact t_SampledStatus
  | |- tracks read_ImageFormat _ => exact t_ImageFormat
  | |- tracks read_AccessQualifier _ => exact t_AccessQualifier
  | |- tracks read_StorageClass _ => exact t_StorageClass
  | |- tracks read_BuiltIn _ => exact t_BuiltIn
  | |- tracks read_FunctionParameterAttribute _ => exact t_FunctionParameterAttribute
  | |- tracks read_FpRoundingMode _ => exact t_FpRoundingMode
  | |- tracks read_LinkageType _ => exact t_LinkageType
  | |- tracks read_MemoryAccess _ => exact t_MemoryAccess
  | |- tracks read_SelectionControl _ => exact t_SelectionControl
  | |- tracks read_FpFastMathMode _ => exact t_FpFastMathMode
  end.

(* a sequence of single readers *)
Ltac group :=
  lazymatch goal with
  | |- tracks ?R (scans_all (?s :: ?l)) =>
      change (scans_all (s :: l)) with (andthen (scans s) (scans_all l)); try (is_const R; unfold R);
      refine (tracks_bind _ (scans s) _ (scans_all l) _ _); [leaf|intro; group]
  | |- tracks _ (scans_all []) => refine (tracks_done _)
  end.

Lemma t_PhiArg : tracks read_PhiArg (scans_all [AWord; AWord]).
Proof. unfold read_PhiArg. group. Qed.
Lemma t_BranchWeights : tracks read_BranchWeights (scans_all [AWord; AWord]).
Proof. unfold read_BranchWeights. group. Qed.
Lemma tracks_single : forall {A} (R : Reader A) s, tracks R (scans s) -> tracks R (scans_all [s]).
Proof.
  intros A R s T ws Hw. destruct (T ws Hw) as [V P]. split; [|exact P]. intro v. rewrite <- V. cbn [scans_all]. unfold andthen. split.
  - intros [(e & H & ->)|(r & H & ->)]; exact H.
  - intro H. destruct v as [r|e]; [right; exists r; auto|left; exists e; auto].
Qed.

Lemma t_LoopControl : tracks read_LoopControl (scans_item LoopFlags).
Proof.
  intros [|w ws] Hw.
  - split; [|discriminate]. intro v. cbn. split; [intros ->; reflexivity|intro H; injection H as <-; reflexivity].
  - rewrite mask_LoopControl. cbn [scans_item]. destruct (N.land w 0xFFF0 =? 0) eqn:Z; cbn [negb].
    + inversion Hw as [|? ? _ Hws]; subst. destruct (N.testbit w 3).
      * destruct (tracks_single _ _ tracks_word ws Hws) as [V P]. destruct ws as [|n ws]; cbn [read_word out] in *.
        -- split; [exact V|discriminate].
        -- split; [exact V|]. intros rest a H. injection H as <- _. exists [w; n]. reflexivity.
      * split; [|intros rest a H; injection H as <- _; exists [w]; reflexivity].
        intro v. cbn. split; [intros ->; reflexivity|intro H; injection H as <-; reflexivity].
    + split; [|discriminate]. intro v. cbn [out]. split; [intros ->; reflexivity|intro H; injection H as <-; reflexivity].
Qed.

(** ** Variants with operands *)

Lemma variant_known : forall {A} (R : Reader A) numbers more (unknown : N -> ReadError) w ws,
  Forall word (w :: ws) -> In w numbers -> forall (F : Reader A), R (w :: ws) = F ws -> tracks F (scans_all (more w)) ->
  (forall v, scans_item (Variant numbers more unknown) (w :: ws) v <-> out (R (w :: ws)) = Some v)
  /\ (forall rest a, R (w :: ws) = Ok (rest, a) -> exists pre, w :: ws = pre ++ rest).
Proof.
  intros A R numbers more unknown w ws Hw Hin F HF T. inversion Hw as [|? ? _ Hws]; subst. destruct (T ws Hws) as [V P].
  rewrite HF. split.
  - intro v. cbn [scans_item]. rewrite <- V. tauto.
  - intros rest a H. apply P in H. destruct H as (pre & ->). exists (w :: pre). reflexivity.
Qed.
Lemma variant_unknown : forall {A} (R : Reader A) numbers more (unknown : N -> ReadError) w ws,
  ~ In w numbers -> R (w :: ws) = Err (unknown w) ->
  (forall v, scans_item (Variant numbers more unknown) (w :: ws) v <-> out (R (w :: ws)) = Some v)
  /\ (forall rest a, R (w :: ws) = Ok (rest, a) -> exists pre, w :: ws = pre ++ rest).
Proof.
  intros A R numbers more unknown w ws Hn HR. rewrite HR. split; [|discriminate].
  intro v. cbn [scans_item out]. split.
  - intros [[H _]|[_ ->]]; [contradiction|reflexivity].
  - intro H. injection H as <-. right. split; [exact Hn|reflexivity].
Qed.

(* the same, from the numbers *)
Lemma tracks_variant : forall {A} (R : Reader A) numbers more (unknown : N -> ReadError),
  R [] = Err UnexpectedEndOfInstruction ->
  Forall (fun w => exists F : Reader A, (forall ws, R (w :: ws) = F ws) /\ tracks F (scans_all (more w))) numbers ->
  (forall w ws, ~ In w numbers -> R (w :: ws) = Err (unknown w)) ->
  tracks R (scans_item (Variant numbers more unknown)).
Proof.
  intros A R numbers more unknown H0 H1 H2 [|w ws] Hw.
  - rewrite H0. split; [|discriminate]. intro v. cbn [scans_item out]. split; [intros ->; reflexivity|intro H; injection H as <-; reflexivity].
  - destruct (in_dec N.eq_dec w numbers) as [Hin|Hn].
    + rewrite Forall_forall in H1. destruct (H1 w Hin) as (F & HF & T). eapply variant_known; [exact Hw|exact Hin|apply HF|exact T].
    + apply variant_unknown; [exact Hn|apply H2; exact Hn].
Qed.

Ltac variants R :=
  apply tracks_variant;
  [ reflexivity
  | repeat (apply Forall_cons; [eexists; split; [intro; reflexivity|unfold R; cbn [read_word bind fst]; cbv beta iota delta [mode_more decoration_more fst]; group]|]); apply Forall_nil
  | let w := fresh "w" in let ws := fresh "ws" in let H := fresh "H" in
    intros w ws H; unfold R; cbn [read_word bind]; split_word; try reflexivity; exfalso; apply H; cbv; member ].

Lemma t_ExecutionMode : tracks read_ExecutionMode (scans_item (Variant (map fst execution_modes) mode_more UnknownExecutionMode)).
Proof. variants read_ExecutionMode. Qed.
Lemma t_Decoration : tracks read_Decoration (scans_item (Variant (map fst decorations) decoration_more UnknownDecoration)).
Proof. variants read_Decoration. Qed.

(** ** Instructions *)

Lemma shrinks_OpId : forall w ws rest a, read_OpId (w :: ws) = Ok (rest, a) -> (List.length rest <= List.length ws)%nat.
Proof. intros w ws rest a H. injection H as <- _. lia. Qed.
Lemma shrinks_u32 : forall w ws rest a, read_u32 (w :: ws) = Ok (rest, a) -> (List.length rest <= List.length ws)%nat.
Proof. exact shrinks_OpId. Qed.
Lemma shrinks_PhiArg : forall w ws rest a, read_PhiArg (w :: ws) = Ok (rest, a) -> (List.length rest <= List.length ws)%nat.
Proof. intros w [|w' ws] rest a H; [discriminate|]. injection H as <- _. cbn. lia. Qed.

Lemma t_many_OpId : tracks (read_Vec size_of_OpId read_OpId) (scans_repeated [AWord]).
Proof. apply tracks_vec; [discriminate|exact (tracks_single _ _ t_OpId)|exact shrinks_OpId]. Qed.
Lemma t_many_u32 : tracks (read_Vec size_of_u32 read_u32) (scans_repeated [AWord]).
Proof. apply tracks_vec; [discriminate|exact (tracks_single _ _ t_u32)|exact shrinks_u32]. Qed.
Lemma t_many_PhiArg : tracks (read_Vec size_of_PhiArg read_PhiArg) (scans_repeated [AWord; AWord]).
Proof. apply tracks_vec; [discriminate|exact t_PhiArg|exact shrinks_PhiArg]. Qed.

Ltac item_leaf :=
  lazymatch goal with
  | |- tracks read_LoopControl _ => exact t_LoopControl
  | |- tracks read_ExecutionMode _ => exact t_ExecutionMode
  | |- tracks read_Decoration _ => exact t_Decoration
  | |- tracks ?R (scans_item (One ?s)) => change (tracks R (scans s)); leaf
  end.
Ltac vec_leaf :=
  lazymatch goal with
  | |- tracks (read_Vec size_of_OpId read_OpId) _ => exact t_many_OpId
  | |- tracks (read_Vec size_of_u32 read_u32) _ => exact t_many_u32
  | |- tracks (read_Vec size_of_PhiArg read_PhiArg) _ => exact t_many_PhiArg
  end.
Ltac option_leaf :=
  lazymatch goal with
  | |- tracks read_BranchWeights _ => exact t_BranchWeights
  | |- tracks _ (scans_all [?s]) => apply tracks_single; leaf
  end.
Ltac optional :=
  lazymatch goal with
  | |- tracks _ (scans_optional []) => refine (tracks_no_more _)
  | |- tracks _ (scans_optional (?g :: ?gs)) => refine (tracks_optional _ _ g gs _ _); [option_leaf|intro; optional]
  end.
Ltac instr :=
  lazymatch goal with
  | |- tracks _ (scans_operands (?i :: ?is) ?t) =>
      change (scans_operands (i :: is) t) with (andthen (scans_item i) (scans_operands is t));
      refine (tracks_bind _ (scans_item i) _ (scans_operands is t) _ _); [item_leaf|intro; instr]
  | |- tracks _ (scans_operands [] Nothing) => refine (tracks_done _)
  | |- tracks ?R (scans_operands [] (Optional ?g)) => change (tracks R (scans_optional g)); optional
  | |- tracks ?R (scans_operands [] (Repeated ?g)) => change (tracks R (scans_repeated g)); refine (tracks_map _ _ _ _); vec_leaf
  end.

Section Modules.
Context {E : Type}.
Implicit Types (known : list (ExtInstSet E)) (earlier : list (Core E)) (bound : bound_sets E) (m : RawModule E).

Definition tracked (id : N) (f : @CoreReader E) : Prop :=
  exists A (R : Reader A) wrap, f = plain R wrap /\ tracks R (scans_instruction id).

Lemma table_tracked : Forall (fun p => fst p = 11 \/ fst p = 12 \/ tracked (fst p) (snd p)) (@dispatch_table E).
Proof.
  unfold dispatch_table.
  repeat (apply Forall_cons;
    [ cbn [fst snd];
      lazymatch goal with
      | |- 11 = 11 \/ _ => left; reflexivity
      | |- _ \/ 12 = 12 \/ _ => right; left; reflexivity
      | |- _ \/ _ \/ tracked _ ?f => right; right; match f with ?g _ => unfold g end; eexists _, _, _; split; [reflexivity|];
          match goal with |- tracks ?R (scans_instruction ?n) => unfold R; change (scans_instruction n) with (scans_operands (fst (syntax n)) (snd (syntax n))) end;
          cbv beta iota zeta delta [syntax fst snd]; instr
      end |]).
  apply Forall_nil.
Qed.

Lemma bound_none : forall known earlier bound id, bound_inv known earlier bound -> (map_get id bound = None <-> not_imported earlier id).
Proof. exact bound_inv_none. Qed.

Lemma named_exists : forall known name, (exists s, In s known /\ get_name s = name) -> exists r, set_named known name r.
Proof.
  induction known as [|s known IH]; intros name (s' & Hin & Hn); [destruct Hin|].
  destruct (string_dec (get_name s) name) as [<-|Hne]; [exists (duplicate s); apply set_named_here|].
  destruct Hin as [->|Hin]; [contradiction|]. destruct (IH name) as (r & Hr); [eauto|]. exists r. apply set_named_skip; assumption.
Qed.
Lemma exists_named : forall known name r, set_named known name r -> exists s, In s known /\ get_name s = name.
Proof. intros known name r (b & s & a & -> & Hn & _). exists s. split; [apply in_elt|exact Hn]. Qed.
Lemma named_or_not : forall known name, (exists s, In s known /\ get_name s = name) \/ (forall s, In s known -> get_name s <> name).
Proof.
  induction known as [|s known IH]; intro name; [right; intros s []|].
  destruct (string_dec (get_name s) name) as [H|Hne]; [left; exists s; split; [left; reflexivity|exact H]|].
  destruct (IH name) as [(s' & Hin & Hn)|H]; [left; exists s'; split; [right; exact Hin|exact Hn]|right].
  intros s' [<-|Hin]; [exact Hne|auto].
Qed.

Lemma decoded_tracked : forall op wc f, @dispatch E op wc = Ok f -> op <> 11 -> op <> 12 -> tracked op f.
Proof.
  intros op wc f H H1 H2. apply dispatch_in_table in H. pose proof (proj1 (Forall_forall _ _) table_tracked _ H) as T.
  cbn [fst snd] in T. tauto.
Qed.

(* an import whose id and name can be read *)
Lemma import_read : forall id name chars rest known bound, Forall word (id :: chars ++ rest) -> wire_string name chars -> text name ->
  read_core_OpExtInstImport (id :: chars ++ rest) known bound = import_loop id name rest bound known.
Proof.
  intros id name chars rest known bound Hw Hs Ht. unfold read_core_OpExtInstImport, read_ResultId. cbn [read_word bind].
  inversion Hw as [|? ? _ Hw']; subst. rewrite (proj2 (string_exact _ rest name Hw')); [reflexivity|]. exists chars. auto.
Qed.

Lemma scans_import : forall body e, Forall word body ->
  (scans_instruction 11 body (Fails e) <->
   (let! (block, _) := read_ResultId body in let! (block, name) := read_LitString block in Ok (block, name)) = Err e).
Proof.
  intros body e Hw.
  assert (T : tracks (fun body => let! (block, _) := read_ResultId body in let! (block, name) := read_LitString block in Ok (block, name)) (scans_instruction 11)).
  { change (scans_instruction 11) with (scans_operands (fst (syntax 11)) (snd (syntax 11))).
    cbv beta iota zeta delta [syntax fst snd]. instr. }
  destruct (T body Hw) as [V _]. rewrite V.
  match goal with |- out ?r = _ <-> _ => destruct r as [[? ?]|?| |] end; cbn [out]; split; intro H; try discriminate; injection H as ->; reflexivity.
Qed.

Lemma support_11 : opcode_support 11 = Decoded "OpExtInstImport". Proof. reflexivity. Qed.
Lemma support_12 : opcode_support 12 = Decoded "OpExtInst". Proof. reflexivity. Qed.

Lemma import_fails : forall known earlier bound wc body e, bound_inv known earlier bound -> Forall word body ->
  (decode 11 wc body known bound = Err e <-> instruction_fails known earlier 11 wc body e).
Proof.
  intros known earlier bound wc body e Hi Hw.
  change (decode 11 wc body known bound) with
    (let! (block, inst, bound) := read_core_OpExtInstImport body known bound in
     match block with [] => Ok (inst, bound) | _ :: _ => @Err ReadError (Core E * bound_sets E) InstructionHadExcessData end).
  split.
  - intro H. destruct body as [|id body].
    { cbn in H. injection H as <-. apply (fails_operand known earlier 11 wc [] "OpExtInstImport"); [reflexivity|discriminate|].
      apply scans_import; [exact Hw|reflexivity]. }
    unfold read_core_OpExtInstImport, read_ResultId in H. cbn [read_word bind] in H.
    destruct (read_LitString body) as [[rest name]|e'| |] eqn:Hs; cbn [bind] in H; try discriminate.
    2:{ injection H as ->. apply (fails_operand known earlier 11 wc _ "OpExtInstImport"); [reflexivity|discriminate|].
        apply scans_import; [exact Hw|]. unfold read_ResultId. cbn [read_word bind]. rewrite Hs. reflexivity. }
    inversion Hw as [|? ? _ Hb]; subst. apply (string_exact _ _ _ Hb) in Hs. destruct Hs as (chars & -> & Hs & Ht).
    destruct (named_or_not known name) as [Hk|Hk].
    + destruct (named_exists known name Hk) as (r & Hr). destruct (map_get id bound) as [r'|] eqn:Hg.
      * rewrite (import_loop_duplicate known id name rest bound r r' Hr Hg) in H. cbn [bind] in H. injection H as <-.
        apply (fails_import_duplicate known earlier 11 wc _ id name chars rest); try assumption; try reflexivity.
        intro Hn. apply (bound_none _ _ _ id Hi) in Hn. congruence.
      * rewrite (import_loop_complete known id name rest bound r Hr Hg) in H. cbn [bind] in H.
        destruct rest as [|w rest]; [discriminate|]. injection H as <-.
        apply (fails_import_excess known earlier 11 wc _ id name chars w rest); try assumption; try reflexivity.
        apply (bound_none _ _ _ id Hi). exact Hg.
    + rewrite import_loop_unknown in H by (apply Forall_forall; exact Hk). cbn [bind] in H. injection H as <-.
      apply (fails_import_unknown known earlier 11 wc _ id name chars rest); try assumption; reflexivity.
  - intro H. inversion H as [Hs|name Hs|name e' Hs H12 Hf|name w rest Hs H11 H12 Hf|id name chars rest _ Hb Hs Ht Hk
      |id name chars rest _ Hb Hs Ht Hk Hd|id name chars w rest _ Hb Hs Ht Hk Hd|H12 Hl|t r s n ws H12|t r s n ws rd e' H12|t r s n ws rd w rest x H12]; subst;
      try discriminate; try contradiction.
    + apply scans_import in Hf; [|exact Hw]. unfold read_core_OpExtInstImport.
      destruct (read_ResultId body) as [[b i]|?| |]; cbn [bind] in *; try discriminate; [|injection Hf as ->; reflexivity].
      destruct (read_LitString b) as [[b' n]|?| |]; cbn [bind] in *; try discriminate. injection Hf as ->; reflexivity.
    + rewrite (import_read id name chars) by assumption. rewrite import_loop_unknown by (apply Forall_forall; exact Hk). reflexivity.
    + rewrite (import_read id name chars) by assumption. destruct (named_exists known name Hk) as (r & Hr).
      destruct (map_get id bound) as [r'|] eqn:Hg; [|apply (bound_none _ _ _ id Hi) in Hg; contradiction].
      rewrite (import_loop_duplicate known id name rest bound r r' Hr Hg). reflexivity.
    + rewrite (import_read id name chars) by assumption. destruct (named_exists known name Hk) as (r & Hr).
      apply (bound_none _ _ _ id Hi) in Hd. rewrite (import_loop_complete known id name _ bound r Hr Hd). reflexivity.
Qed.

Lemma extended_fails : forall known earlier bound wc body e, bound_inv known earlier bound -> Forall word body ->
  (decode 12 wc body known bound = Err e <-> instruction_fails known earlier 12 wc body e).
Proof.
  intros known earlier bound wc body e Hi Hw.
  change (decode 12 wc body known bound) with
    (let! (block, inst, bound) := read_core_OpExtInst body known bound in
     match block with [] => Ok (inst, bound) | _ :: _ => @Err ReadError (Core E * bound_sets E) InstructionHadExcessData end).
  assert (S : (List.length body < 4)%nat -> read_core_OpExtInst body known bound = Err UnexpectedEndOfInstruction).
  { destruct body as [|t [|r [|s [|n ws]]]]; try reflexivity. cbn. lia. }
  split.
  - intro H. destruct body as [|t [|r [|s [|n ws]]]]; try (cbn in H; injection H as <-; apply fails_extended_short; [reflexivity|cbn; lia]).
    unfold read_core_OpExtInst, read_OpId, read_ResultId, read_u32 in H. cbn [read_word bind] in H.
    destruct (map_get s bound) as [rd|] eqn:Hg.
    + pose proof (proj1 Hi s rd Hg) as Him. destruct (rd n ws) as [[[|w rest] x]|e'| |] eqn:Hr; cbn [bind] in H; try discriminate; injection H as <-.
      * eapply fails_extended_excess; try eassumption; reflexivity.
      * eapply fails_extended_instruction; try eassumption; reflexivity.
    + cbn [bind] in H. injection H as <-. eapply fails_extended_set; try reflexivity. apply (bound_none _ _ _ s Hi). exact Hg.
  - intro H. inversion H as [Hs|name Hs|name e' Hs H12 Hf|name w rest Hs H11 H12 Hf|id name chars rest H11
      |id name chars rest H11|id name chars w rest H11|_ Hl|t r s n ws _ Hb Hn|t r s n ws rd e' _ Hb Him Hr|t r s n ws rd w rest x _ Hb Him Hr]; subst;
      try discriminate; try contradiction.
    + rewrite (S Hl). reflexivity.
    + unfold read_core_OpExtInst, read_OpId, read_ResultId, read_u32. cbn [read_word bind].
      apply (bound_none _ _ _ s Hi) in Hn. rewrite Hn. reflexivity.
    + unfold read_core_OpExtInst, read_OpId, read_ResultId, read_u32. cbn [read_word bind].
      rewrite (bound_inv_get _ _ _ s rd Hi Him), Hr. reflexivity.
    + unfold read_core_OpExtInst, read_OpId, read_ResultId, read_u32. cbn [read_word bind].
      rewrite (bound_inv_get _ _ _ s rd Hi Him), Hr. reflexivity.
Qed.

Lemma decode_fails : forall known earlier bound op wc body e, bound_inv known earlier bound -> Forall word body ->
  (decode op wc body known bound = Err e <-> instruction_fails known earlier op wc body e).
Proof.
  intros known earlier bound op wc body e Hi Hw.
  destruct (N.eq_dec op 11) as [->|N11]; [apply import_fails; assumption|].
  destruct (N.eq_dec op 12) as [->|N12]; [apply extended_fails; assumption|].
  pose proof (@dispatch_support E op wc) as A. unfold agrees in A. unfold decode.
  destruct (opcode_support op) as [name|name|] eqn:Hs.
  - destruct A as (f & A). rewrite A. cbn [bind]. destruct (decoded_tracked _ _ _ A N11 N12) as (X & R & wrap & -> & T).
    unfold plain. destruct (T body Hw) as [V _]. split.
    + intro H. destruct (R body) as [[[|w rest] x]|e'| |]; cbn [bind] in H; try discriminate; injection H as <-.
      * eapply fails_excess; [exact Hs|exact N11|exact N12|]. apply V. reflexivity.
      * eapply fails_operand; [exact Hs|exact N12|]. apply V. reflexivity.
    + intro H. destruct H; try congruence.
      * apply V in H1. destruct (R body) as [[? ?]|?| |]; cbn in H1; try discriminate. injection H1 as ->. reflexivity.
      * apply V in H2. destruct (R body) as [[? ?]|?| |]; cbn in H2; try discriminate. injection H2 as ->. reflexivity.
  - rewrite A. cbn [bind]. split.
    + intro H. injection H as <-. apply fails_unimplemented. exact Hs.
    + intro H. destruct H; congruence.
  - rewrite A. cbn [bind]. split.
    + intro H. injection H as <-. apply fails_unknown. exact Hs.
    + intro H. destruct H; congruence.
Qed.

(** ** Running out of input *)

Lemma ran_out_word : forall o w rest, ran_out_of (bytes_of_word o w ++ rest) = ran_out_of rest.
Proof.
  intros o w rest. unfold ran_out_of. rewrite app_length, bytes_of_word_length.
  replace ((4 + List.length rest) mod 4)%nat with (List.length rest mod 4)%nat; [reflexivity|].
  rewrite Nat.add_comm. symmetry. apply (Nat.mod_add (List.length rest) 1 4). lia.
Qed.

Lemma word_short : forall src le, (List.length src < 4)%nat -> stream_read_word (Build_Stream src le) = Err (ran_out_of src).
Proof. intros [|a [|b [|c [|d rest]]]] le H; try reflexivity. cbn in H. lia. Qed.
Lemma word_err : forall src le e, stream_read_word (Build_Stream src le) = Err e ->
  (List.length src < 4)%nat /\ e = ran_out_of src.
Proof. intros [|a [|b [|c [|d rest]]]] le e H; try discriminate; injection H as <-; (split; [cbn; lia|reflexivity]). Qed.
Lemma word_long : forall o src, (4 <= List.length src)%nat -> exists w rest, word w /\ src = bytes_of_word o w ++ rest.
Proof.
  intros o [|a [|b [|c [|d rest]]]] H; cbn in H; try lia.
  destruct o.
  - exists (le_u32 a b c d), rest. split; [apply le_u32_word|]. rewrite bytes_le_u32. reflexivity.
  - exists (be_u32 a b c d), rest. split; [apply le_u32_word|]. rewrite bytes_be_u32. reflexivity.
Qed.

Lemma words_err : forall n o src e, read_words n (Build_Stream src (le_of o)) = Err e ->
  (List.length src < 4 * n)%nat /\ e = ran_out_of src.
Proof.
  induction n as [|n IH]; intros o src e H; cbn [read_words] in H; [discriminate|].
  destruct (stream_read_word (Build_Stream src (le_of o))) as [[s w]|e'| |] eqn:H1; cbn [bind] in H; try discriminate.
  - apply stream_read_word_inv in H1. destruct H1 as (Hw & rest & -> & ->).
    destruct (read_words n (Build_Stream rest (le_of o))) as [[s ws]|e'| |] eqn:H2; cbn [bind] in H; try discriminate.
    injection H as ->. apply IH in H2. destruct H2 as [H2 ->]. rewrite ran_out_word, app_length, bytes_of_word_length.
    split; [lia|reflexivity].
  - injection H as ->. apply word_err in H1. destruct H1 as [H1 ->]. split; [lia|reflexivity].
Qed.
Lemma words_short : forall n o src, (List.length src < 4 * n)%nat ->
  read_words n (Build_Stream src (le_of o)) = Err (ran_out_of src).
Proof.
  induction n as [|n IH]; intros o src H; [lia|]. cbn [read_words].
  destruct (Nat.lt_ge_cases (List.length src) 4) as [Hs|Hs]; [rewrite (word_short _ _ Hs); reflexivity|].
  destruct (word_long o src Hs) as (w & rest & Hw & ->). rewrite stream_read_word_ok by exact Hw. cbn [bind].
  rewrite app_length, bytes_of_word_length in H. rewrite IH by lia. rewrite ran_out_word. reflexivity.
Qed.

(** ** The instructions *)

(* what follows accepted instructions and is rejected *)
Inductive tail_fails (o : byte_order) known earlier : list ascii -> ReadError -> Prop :=
| tail_word : forall rest, (0 < List.length rest < 4)%nat -> tail_fails o known earlier rest UnexpectedStreamAlignment
| tail_partial : forall head rest, word head -> (List.length rest < 4 * (N.to_nat (head / 65536) - 1))%nat ->
    tail_fails o known earlier (bytes_of_word o head ++ rest) (ran_out_of rest)
| tail_instruction : forall head body rest e, word head -> Forall word body ->
    List.length body = (N.to_nat (head / 65536) - 1)%nat ->
    instruction_fails known earlier (head mod 65536) (head / 65536) body e ->
    tail_fails o known earlier (bytes_of_words o (head :: body) ++ rest) e.

Lemma tail_rejected : forall o known earlier bound x e acc, bound_inv known earlier bound -> tail_fails o known earlier x e ->
  loop (Build_Stream x (le_of o)) known bound acc = Err e.
Proof.
  intros o known earlier bound x e acc Hi H. destruct H as [rest H|head rest Hh H|head body rest e Hh Hb Hl H].
  - rewrite loop_unfold. destruct rest as [|a [|b [|c [|d rest]]]]; cbn in H; try lia; reflexivity.
  - rewrite loop_unfold. destruct (bytes_of_word_form o head) as (a & b & c & d & Hf).
    assert (Hne : stream_is_end (Build_Stream (bytes_of_word o head ++ rest) (le_of o)) = false) by (rewrite Hf; reflexivity).
    rewrite Hne, read_instruction_decode, stream_read_word_ok by exact Hh. cbn [bind]. rewrite (head_high head Hh).
    rewrite words_short by lia. reflexivity.
  - rewrite loop_next; [|exact Hh|exact Hb|lia]. rewrite (proj2 (decode_fails known earlier bound _ _ _ _ Hi Hb) H). reflexivity.
Qed.

Lemma loop_fails : forall n o src known earlier bound e, (List.length src <= n)%nat -> bound_inv known earlier bound ->
  loop (Build_Stream src (le_of o)) known bound earlier = Err e ->
  exists is ws x, src = bytes_of_words o ws ++ x /\ Forall word ws /\ wire_instructions known earlier is ws
    /\ tail_fails o known (earlier ++ is) x e.
Proof.
  induction n as [|n IH]; intros o src known earlier bound e Hn Hi H.
  - destruct src; [|cbn in Hn; lia]. rewrite loop_end in H. discriminate.
  - destruct (Nat.lt_ge_cases (List.length src) 4) as [Hs|Hs].
    + exists [], [], src. split; [reflexivity|]. split; [constructor|]. split; [constructor|]. rewrite app_nil_r.
      destruct src as [|a src]; [rewrite loop_end in H; discriminate|].
      assert (e = UnexpectedStreamAlignment) as ->.
      { rewrite loop_unfold in H. destruct src as [|b [|c [|d rest]]]; cbn in Hs; try lia; cbn in H; injection H as <-; reflexivity. }
      apply tail_word. cbn in *. lia.
    + destruct (word_long o src Hs) as (h & rest & Hh & ->). destruct (Nat.lt_ge_cases (List.length rest) (4 * (N.to_nat (h / 65536) - 1))) as [Hr|Hr].
      * exists [], [], (bytes_of_word o h ++ rest). split; [reflexivity|]. split; [constructor|]. split; [constructor|].
        rewrite app_nil_r. assert (T : tail_fails o known earlier (bytes_of_word o h ++ rest) (ran_out_of rest)) by (apply tail_partial; assumption).
        pose proof (tail_rejected _ _ _ _ _ _ earlier Hi T) as R. rewrite R in H. injection H as <-. exact T.
      * assert (B : exists body rest', Forall word body /\ List.length body = (N.to_nat (h / 65536) - 1)%nat /\ rest = bytes_of_words o body ++ rest').
        { clear - Hr. revert rest Hr. generalize (N.to_nat (h / 65536) - 1)%nat. intro k. induction k as [|k IHk]; intros rest Hr.
          - exists [], rest. repeat split. constructor.
          - destruct (word_long o rest) as (w & r & Hw & ->); [lia|]. rewrite app_length, bytes_of_word_length in Hr.
            destruct (IHk r) as (body & r' & Hb & Hl & ->); [lia|]. exists (w :: body), r'.
            split; [constructor; assumption|]. split; [cbn; lia|]. rewrite bytes_of_words_cons, <- app_assoc. reflexivity. }
        destruct B as (body & rest' & Hb & Hl & ->). rewrite app_assoc, <- bytes_of_words_cons in H.
        rewrite loop_next in H; [|exact Hh|exact Hb|lia].
        destruct (decode (h mod 65536) (h / 65536) body known bound) as [[i b]|e'| |] eqn:Hd; cbn [bind] in H; try discriminate.
        -- destruct (decode_sound _ _ _ _ _ _ _ _ Hi Hb Hd) as (Hop & Hwi & Hi').
           apply IH in H; [|rewrite app_length, bytes_of_word_length, app_length in Hn; lia|exact Hi'].
           destruct H as (is & ws & x & -> & Hws & Hwire & T).
           exists (i :: is), (h :: body ++ ws), x. split; [|split; [|split]].
           ++ rewrite bytes_of_words_cons, bytes_of_words_app, <- !app_assoc. reflexivity.
           ++ constructor; [exact Hh|]. apply Forall_app. split; assumption.
           ++ unfold word in Hh. replace h with (opcode i + 65536 * (h / 65536)) by (rewrite Hop; lia).
              apply wire_cons; [exact Hwi| |lia|exact Hwire].
              destruct (N.eq_dec (h / 65536) 0) as [Z|Z]; [right|left; lia]. split; [exact Z|]. rewrite Z in Hl. destruct body; [reflexivity|discriminate].
           ++ rewrite <- app_assoc in T. exact T.
        -- injection H as ->. exists [], [], (bytes_of_words o (h :: body) ++ rest').
           split; [rewrite bytes_of_words_cons, <- app_assoc; reflexivity|]. split; [constructor|]. split; [constructor|]. rewrite app_nil_r.
           apply tail_instruction; try assumption. apply (decode_fails known earlier bound); assumption.
Qed.

(** ** Modules *)

Lemma version_bytes : forall o v rest known, word v -> ~ version_word_accepted v ->
  read_after_magic (Build_Stream (bytes_of_word o v ++ rest) (le_of o)) known
  = Err (UnknownVersionBytes (v / 16777216) (v / 65536 mod 16) (v / 256 mod 16) (v mod 16)).
Proof.
  intros o v rest known Hv Hn. unfold read_after_magic. rewrite stream_read_word_ok by exact Hv. cbn [bind].
  destruct (read_version_cases v Hv) as [[H _]|[_ H]]; [contradiction|]. rewrite H. reflexivity.
Qed.

(* the header up to the schema *)
Lemma after_version : forall o v rest known, word v -> version_word_accepted v ->
  read_after_magic (Build_Stream (bytes_of_word o v ++ rest) (le_of o)) known =
  let! (stream, ws) := read_words 3 (Build_Stream rest (le_of o)) in
  match ws with
  | [g; b; z] => if negb (N.eqb z 0) then Err UnknownReservedSchema else
      let! l := loop stream known [] [] in
      Ok (Build_RawModule (Build_Version 1 0) (Build_Generator (tool_of_id (as_u16 (N.shiftr g 16))) (as_u16 (N.land g 0xFFFF))) b l)
  | _ => Panic
  end.
Proof.
  intros o v rest known Hv Ha. unfold read_after_magic. rewrite stream_read_word_ok by exact Hv. cbn [bind].
  rewrite (proj2 (version_ok v Hv) Ha). cbn [bind check_version read_words].
  destruct (stream_read_word (Build_Stream rest (le_of o))) as [[s1 g]|?| |]; cbn [bind]; try reflexivity.
  destruct (stream_read_word s1) as [[s2 b]|?| |]; cbn [bind]; try reflexivity.
  destruct (stream_read_word s2) as [[s3 z]|?| |]; cbn [bind]; reflexivity.
Qed.

Lemma read_ordered : forall o rest known,
  read_module (bytes_of_word o magic_number ++ rest) known = read_after_magic (Build_Stream rest (le_of o)) known.
Proof. intros o rest known. rewrite read_module_magic, header_magic. reflexivity. Qed.

Lemma continue_fails : forall o before known m x e, in_order o before -> wire_module known before m ->
  tail_fails o known (RawModule_instructions m) x e -> read_module (before ++ x) known = Err e.
Proof.
  intros o before known m x e Ho Hm T. apply read_exact in Hm. destruct (read_continue _ _ _ _ Ho Hm) as (bound & Hi & Hx).
  rewrite Hx. rewrite (tail_rejected _ _ _ _ _ _ _ Hi T). reflexivity.
Qed.

Theorem read_fails : forall data known e, read_module data known = Err e <-> module_fails known data e.
Proof.
  intros data known e. split.
  - intro H. destruct (Nat.lt_ge_cases (List.length data) 4) as [Hs|Hs].
    { rewrite read_module_magic, (word_short _ _ Hs) in H. cbn [bind] in H. injection H as <-. apply fails_no_magic. exact Hs. }
    pose proof H as H'. rewrite read_module_magic in H.
    destruct (let! (stream, magic) := stream_read_word (Build_Stream data true) in check_magic magic stream) as [s|e'| |] eqn:Hm;
      cbn [bind] in H; try discriminate.
    2:{ injection H as ->. destruct (word_long LittleEndian data Hs) as (w & rest & Hw & ->).
        rewrite (stream_read_word_ok LittleEndian) in Hm by exact Hw. cbn [bind] in Hm.
        assert (e = BadMagic) as ->.
        { unfold check_magic in Hm. destruct (N.eqb w SPIRV_MAGIC_NUMBER); [discriminate|].
          destruct (N.eqb w SPIRV_MAGIC_NUMBER_OTHER_ENDIAN); [discriminate|]. injection Hm as <-. reflexivity. }
        apply fails_bad_magic; [exact Hs|]. intros o (rest' & Ho). rewrite Ho in H'.
        pose proof (header_magic o rest') as M. rewrite <- Ho, (stream_read_word_ok LittleEndian) in M by exact Hw. cbn [bind] in M.
        rewrite M in Hm. discriminate. }
    apply header_magic_inv in Hm. destruct Hm as (o & rest & -> & ->). clear H' Hs.
    destruct (Nat.lt_ge_cases (List.length rest) 4) as [Hs|Hs].
    { unfold read_after_magic in H. rewrite (word_short _ _ Hs) in H. cbn [bind] in H. injection H as <-. apply fails_no_version. exact Hs. }
    destruct (word_long o rest Hs) as (v & rest' & Hv & ->). clear Hs.
    replace (bytes_of_word o magic_number ++ bytes_of_word o v ++ rest') with (bytes_of_words o [magic_number; v] ++ rest')
      by (unfold bytes_of_words; cbn [flat_map]; rewrite app_nil_r, <- app_assoc; reflexivity).
    destruct (read_version_cases v Hv) as [[Ha _]|[Hn _]].
    2:{ rewrite version_bytes in H by assumption. injection H as <-. apply fails_version; assumption. }
    rewrite after_version in H by assumption.
    destruct (read_words 3 (Build_Stream rest' (le_of o))) as [[s ws]|e'| |] eqn:Hr; cbn [bind] in H; try discriminate.
    2:{ injection H as ->. apply words_err in Hr. destruct Hr as [Hr ->]. apply fails_header; try assumption. }
    apply read_words_inv in Hr. destruct Hr as (Hl & Hws & x & -> & ->).
    destruct ws as [|g [|b [|z [|]]]]; try discriminate Hl. clear Hl.
    inversion Hws as [|? ? Hg Hws1]; subst. inversion Hws1 as [|? ? Hb Hws2]; subst. inversion Hws2 as [|? ? Hz _]; subst. clear Hws1 Hws2.
    rewrite app_assoc, <- bytes_of_words_app. cbn [app].
    destruct (N.eqb_spec z 0) as [->|Hz0]; cbn [negb] in H.
    2:{ injection H as <-. apply fails_schema; assumption. }
    destruct (loop (Build_Stream x (le_of o)) known [] []) as [l|e'| |] eqn:Hlp; cbn [bind] in H; try discriminate. injection H as ->.
    apply (loop_fails (List.length x) o x known [] [] e (le_n _) (bound_inv_nil known)) in Hlp.
    destruct Hlp as (is & ws & y & -> & Hws' & Hwire & T). cbn [app] in T.
    rewrite app_assoc, <- bytes_of_words_app.
    set (m := Build_RawModule (E := E) (Build_Version 1 0) (Build_Generator (tool_of_id (g / 65536)) (g mod 65536)) b is).
    set (before := bytes_of_words o ([magic_number; v; g; b; 0] ++ ws)).
    assert (Ho : in_order o before) by (eexists; reflexivity).
    assert (Hm : wire_module known before m).
    { exists o, v, g, ws. split; [reflexivity|]. split; [repeat (constructor; try assumption)|]. split; [exact Ha|]. split; [reflexivity|].
      split; [|exact Hwire]. unfold generator_word, m. cbn [RawModule_generator Generator_version Generator_tool].
      rewrite tool_inverse. unfold word in Hg. repeat split; try lia. apply tool_of_id_other. }
    destruct T as [r T|h r Hh T|h body r e Hh Hb' Hl T].
    + eapply fails_partial_word; eassumption.
    + eapply fails_partial_instruction; eassumption.
    + eapply fails_instruction; try eassumption.
  - intro H. destruct H as [data Hs|data Hs Ho|o rest Hs|o v rest Hv Hn|o v rest Hv Ha Hs|o v g b z rest Hv Ha Hg Hb Hz Hz0
      |before m rest Hm Hr|o before m h rest Ho Hm Hh Hr|o before m h body rest e Ho Hm Hh Hb Hl T].
    + rewrite read_module_magic, (word_short _ _ Hs). reflexivity.
    + rewrite read_module_magic. destruct (word_long LittleEndian data Hs) as (w & rest & Hw & ->).
      destruct (let! (stream, magic) := stream_read_word (Build_Stream (bytes_of_word LittleEndian w ++ rest) true) in check_magic magic stream) as [s|e'| |] eqn:Hm.
      { apply header_magic_inv in Hm. destruct Hm as (o & rest' & E1 & _). exfalso. apply (Ho o). exists rest'. exact E1. }
      all: rewrite (stream_read_word_ok LittleEndian) in Hm by exact Hw; cbn [bind] in Hm; unfold check_magic in Hm;
        destruct (N.eqb w SPIRV_MAGIC_NUMBER); try discriminate; destruct (N.eqb w SPIRV_MAGIC_NUMBER_OTHER_ENDIAN); try discriminate.
      injection Hm as <-. reflexivity.
    + rewrite read_ordered. unfold read_after_magic. rewrite (word_short _ _ Hs). reflexivity.
    + rewrite bytes_of_words_cons, <- app_assoc, read_ordered, bytes_of_words_cons, <- app_assoc. apply version_bytes; assumption.
    + rewrite bytes_of_words_cons, <- app_assoc, read_ordered, bytes_of_words_cons, <- app_assoc, after_version by assumption.
      cbn [bytes_of_words flat_map app]. rewrite words_short by lia. reflexivity.
    + rewrite bytes_of_words_cons, <- app_assoc, read_ordered, bytes_of_words_cons, <- app_assoc, after_version by assumption.
      assert (Hws : Forall word [g; b; z]) by (repeat (constructor; try assumption)).
      pose proof (read_words_ok o [g; b; z] rest Hws) as RW. cbn [List.length] in RW. rewrite RW. cbn [bind].
      rewrite (proj2 (N.eqb_neq z 0) Hz0). reflexivity.
    + assert (exists o, in_order o before) as (o & Ho) by (destruct Hm as (o & ? & ? & ? & -> & _); exists o; eexists; reflexivity).
      eapply continue_fails; [exact Ho|exact Hm|]. apply tail_word. exact Hr.
    + eapply continue_fails; [exact Ho|exact Hm|]. apply tail_partial; assumption.
    + eapply continue_fails; [exact Ho|exact Hm|]. apply tail_instruction; assumption.
Qed.

End Modules.

Lemma decided : forall {E} data (known : list (ExtInstSet E)),
  (forall s n ws, In s known -> (exists r, duplicate s n ws = Ok r) \/ (exists e, duplicate s n ws = Err e)) ->
  (exists m, wire_module known data m /\ (forall e, ~ module_fails known data e))
  \/ (exists e, module_fails known data e /\ (forall e', module_fails known data e' -> e' = e) /\ (forall m, ~ wire_module known data m)).
Proof.
  intros E data known H. destruct (read_returns data known H) as [(m & Hm)|(e & He)].
  - left. exists m. split; [apply read_exact; exact Hm|]. intros e He. apply read_fails in He. congruence.
  - right. exists e. split; [apply read_fails; exact He|]. split.
    + intros e' He'. apply read_fails in He'. congruence.
    + intros m Hm. apply read_exact in Hm. congruence.
Qed.
