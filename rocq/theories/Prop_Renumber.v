(** C136: Giving other numbers to the ids of a file. *)
From Verif Require Import Base Types Ops Groups Reader ExtSet Validate Glsl450 ControlFlow Spec_Wire Spec_Layout Spec_Flow Spec_Invariance Spec_Link Spec_Renumber Samples Proofs_Renumber Proofs_Renumber2.

(** A file that is read can be read with other numbers for its ids exactly if the imports still have different ones. *)
Theorem C136_read : forall E f (g : E -> E), words_to_words f -> forall known, carried_by g known -> forall data m, read_module data known = Ok m ->
  ((exists data', read_module data' known = Ok (renumbered f g m)) <-> imports_stay_apart f m).
Proof. intros E f g F known G. exact (renumber_iff f g F known G). Qed.
Print Assumptions C136_read.

(** So it can with any numbering that keeps different ids different. *)
Theorem C136_injective : forall E f (g : E -> E), words_to_words f -> forall known, carried_by g known -> injective f ->
  forall data m, read_module data known = Ok m -> exists data', read_module data' known = Ok (renumbered f g m).
Proof. intros E f g F known G. exact (renumber_injective f g F known G). Qed.
Print Assumptions C136_injective.

(** GLSL.std.450 goes along with every numbering. *)
Theorem C136_glsl : forall f, words_to_words f -> carried_by (renumber_glsl f) [InstSet].
Proof. exact glsl_carried. Qed.
Print Assumptions C136_glsl.

(** With any numbering at all, validate says the same: the same error, or a module of the same shape with the numbers changed. *)
Theorem C136_validate : forall E f (g : E -> E) (m : RawModule E),
  match validate m, validate (renumbered f g m) with
  | Ok lm, Ok lm' => shape_of lm = shape_of lm' /\ write_module lm' = map (renumber f g) (write_module lm)
  | Err e, Err e' => e = e'
  | _, _ => False
  end.
Proof. exact renumber_validate. Qed.
Print Assumptions C136_validate.

(** With a numbering that keeps different ids different, the control flow of every function is the same with the numbers changed. *)
Theorem C136_control_flow : forall E f (g : E -> E) (m : RawModule E) lm, validate m = Ok lm -> injective f -> exists lm', validate (renumbered f g m) = Ok lm'
  /\ Forall2 (fun d d' => forall depth, find_control_flow depth d' = rename_result f (find_control_flow depth d))
       (LogicalModule_function_definitions lm) (LogicalModule_function_definitions lm').
Proof. exact (fun E f g => flow_renumbered f g). Qed.
Print Assumptions C136_control_flow.

(** A numbering that gives the imports of one accepted file ids that no import of another has makes it possible to put the two together. *)
Theorem C136_link : forall f, words_to_words f -> forall data data' m m' a b,
  read_module data [InstSet] = Ok m -> validate m = Ok a -> read_module data' [InstSet] = Ok m' -> validate m' = Ok b -> imports_stay_apart f m' ->
  (forall x y, In x (LogicalModule_ext_inst_imports a) -> In y (LogicalModule_ext_inst_imports b) -> OpExtInstImport_result_id x <> f (OpExtInstImport_result_id y)) ->
  exists c, validate (renumbered f (renumber_glsl f) m') = Ok c /\ has_file [InstSet] (link a c).
Proof. exact renumber_link. Qed.
Print Assumptions C136_link.

(** A numbering is undone by the one that gives the old numbers back. *)
Theorem C136_undo : forall E f f' (g g' : E -> E) (m : RawModule E), (forall n, f' (f n) = n) -> (forall e, g' (g e) = e) -> renumbered f' g' (renumbered f g m) = m.
Proof. exact renumber_undo. Qed.
Print Assumptions C136_undo.

(** Not with every numbering. *)
Theorem C136_numbering_refuted : ~ (forall f, words_to_words f -> forall data m, read_module data [InstSet] = Ok m ->
  exists data', read_module data' [InstSet] = Ok (renumbered f (renumber_glsl f) m)).
Proof. exact not_every_numbering. Qed.
Print Assumptions C136_numbering_refuted.

(** The sample can be put together with itself, with ids 11 higher (and the ids that would not be words left alone). *)
Example C136_example : let f := fun n => if (n <? 1000)%N then (n + 11)%N else n in
  words_to_words f /\ carried_by (renumber_glsl f) [InstSet] /\ imports_stay_apart f sample
  /\ nth 11 (map (renumber f (renumber_glsl f)) (RawModule_instructions sample)) (Core_OpReturn Build_OpReturn)
     = Core_OpExtInst (Build_OpExtInst 15%N 18%N 12%N (Inst_Sin (Build_Sin 19%N)))
  /\ exists a c, validate sample = Ok a /\ validate (renumbered f (renumber_glsl f) sample) = Ok c /\ has_file [InstSet] (link a c)
    /\ map OpExtInstImport_result_id (LogicalModule_ext_inst_imports (link a c)) = [1; 12]%N.
Proof.
  intros f. assert (F : words_to_words f).
  { intros n W. unfold f, word in *. destruct (N.ltb_spec n 1000) as [X|X]; [|exact W]. apply (N.lt_trans _ (1000 + 11)); [apply N.add_lt_mono_r; exact X|reflexivity]. }
  assert (S : imports_stay_apart f sample) by (unfold imports_stay_apart; cbn; constructor; [intros []|constructor]).
  split; [exact F|]. split; [exact (C136_glsl f F)|]. split; [exact S|]. split; [vm_compute; reflexivity|].
  assert (A : exists a, validate sample = Ok a) by (eexists; vm_compute; reflexivity). destruct A as [a A].
  assert (D : forall x y, In x (LogicalModule_ext_inst_imports a) -> In y (LogicalModule_ext_inst_imports a) -> OpExtInstImport_result_id x <> f (OpExtInstImport_result_id y)).
  { vm_compute in A. injection A as <-. intros x y [<-|[]] [<-|[]]. vm_compute. discriminate. }
  destruct (C136_link f F _ _ sample sample a a (sample_read LittleEndian) A (sample_read LittleEndian) A S D) as (c & C & L).
  exists a, c. split; [exact A|]. split; [exact C|]. split; [exact L|]. vm_compute in A. injection A as <-. vm_compute in C. injection C as <-. reflexivity.
Qed.

(** A function with an if, with ids 100 higher. *)
Example C136_control_flow_example : let f := fun n => (n + 100)%N in
  let m := with_instructions sample [Core_OpMemoryModel (Build_OpMemoryModel AddressingModel_Logical MemoryModel_Glsl450);
    Core_OpFunction (Build_OpFunction 2 5 control0 3); Core_OpLabel (Build_OpLabel 6); Core_OpSelectionMerge (Build_OpSelectionMerge 8 SelectionControl_default);
    Core_OpBranchConditional (Build_OpBranchConditional 9 7 8 None); Core_OpLabel (Build_OpLabel 7); Core_OpBranch (Build_OpBranch 8);
    Core_OpLabel (Build_OpLabel 8); Core_OpReturn Build_OpReturn; Core_OpFunctionEnd Build_OpFunctionEnd]%N in
  injective f /\ exists lm lm', validate m = Ok lm /\ validate (renumbered f (renumber_glsl f) m) = Ok lm'
    /\ map (find_control_flow 20) (LogicalModule_function_definitions lm) = [Ok (Block [Selection 6 (Block [Atom 7]) (Block []) SelectionControl_default None; Atom 8])]%N
    /\ map (find_control_flow 20) (LogicalModule_function_definitions lm') = [Ok (Block [Selection 106 (Block [Atom 107]) (Block []) SelectionControl_default None; Atom 108])]%N.
Proof.
  intros f m. split; [intros a b X; exact (proj1 (N.add_cancel_r a b 100) X)|]. do 2 eexists. split; [vm_compute; reflexivity|]. split; [vm_compute; reflexivity|]. split.
  all: vm_compute; reflexivity.
Qed.
