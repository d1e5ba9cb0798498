(** The text of a function that was read says what the function is, C124. *)
From Verif Require Import Base Types Ops ReadErr ExtSet Reader Glsl450 Groups Validate ControlFlow DisplayBase DisplayTypes DisplayOps DisplayModule DisplayFlow
  Spec_Wire Spec_Layout Spec_Flow Spec_Names Spec_Text Proofs_Layout Proofs_Text Proofs_Text2 Proofs_Text3 Proofs_Text5 Proofs_Text6 Samples Samples_Flow Spec_Visible Proofs_Visible Proofs_Flow Proofs_Flow2 Spec_Page Proofs_Page Proofs_Listing.

Lemma code_strings : forall E (i : GroupCode E), strings_of (core_of_code i) = [].
Proof.
  intros E i. destruct i as [o|o|o|o|o|o|o|o|o|o|o|o|o|o|o|o|o|o|o|o|o|o|o|o|o|o|o|o|o|o|o|o|o|o|o|o|o|o|o|o|o|o|o|o|o|o|o|o|o|o|o|o|o]; try reflexivity; destruct o; try reflexivity; unfold strings_of; cbn.
  all: try (repeat match goal with |- context [match ?x with _ => _ end] => destruct x end; reflexivity).
  all: try (match goal with l : list _ |- _ => induction l; [reflexivity|cbn; assumption] end).
  all: match goal with o : option _ |- _ => destruct o; reflexivity end.
Qed.
Lemma code_single : forall i : GroupCode Inst, ~ contains line_feed (disp_Core disp_Inst (core_of_code i)).
Proof.
  intros i. apply line_lf. split; [rewrite code_strings; intros s []|]. destruct i; try exact I. apply glsl_lf.
Qed.
Lemma code_in : forall (m : RawModule Inst) lm f, validate m = Ok lm -> In f (LogicalModule_function_definitions lm) ->
  forall b i, In b (FunctionDefinition_blocks f) -> In i (BasicBlock_code b) -> In (core_of_code i) (RawModule_instructions m).
Proof.
  intros m lm f V F b i B C. apply validate_iff in V as [-> _]. unfold write_module. rewrite !in_app_iff. do 10 right. apply in_flat_map. exists f. split; [exact F|].
  unfold write_definition. right. rewrite !in_app_iff. right. left. apply in_flat_map. exists b. split; [exact B|]. unfold write_block. right. rewrite in_app_iff. left. apply in_map. exact C.
Qed.
(** ** The other way *)
Section Back.
Context {E : Type} (d : E -> string) (f f' : FunctionDefinition E).
Definition same_at (id : BlockId) : Prop := exists b b', has_block f id b /\ has_block f' id b'
  /\ BasicBlock_code b = BasicBlock_code b' /\ BasicBlock_branch b = BasicBlock_branch b'.
Lemma same_lines : NoDup (labels f) -> NoDup (labels f') -> forall c n, (forall id, In id (chain_ids c) -> same_at id) ->
  function_lines (disp_Core d) f n c = function_lines (disp_Core d) f' n c.
Proof.
  intros N N'. assert (B : forall id n, same_at id -> block_lines (disp_Core d) f n id = block_lines (disp_Core d) f' n id).
  { intros id n (b & b' & H & H' & C & B). unfold block_lines. rewrite (block_of_has f N _ _ H), (block_of_has f' N' _ _ H'), C, B. reflexivity. }
  fix IH 1. intros [id|l|id lhs rhs h w|id inner h w| |] n S; cbn [function_lines]; cbn [chain_ids] in S.
  - apply B, S. left. reflexivity.
  - induction l as [|x l IHl]; [reflexivity|]. cbn [flat_map] in *. rewrite (IH x n), IHl; [reflexivity| |]; intros id I; apply S, in_or_app; auto.
  - rewrite B by (apply S; left; reflexivity). rewrite (IH lhs (Datatypes.S n)), (IH rhs (Datatypes.S n)); [reflexivity| |]; intros i I; apply S; right; apply in_or_app; auto.
  - rewrite B by (apply S; left; reflexivity). rewrite (IH inner (Datatypes.S n)); [reflexivity|]. intros i I. apply S. right. exact I.
  - reflexivity.
  - reflexivity.
Qed.
End Back.
Lemma found_page : forall E (d : E -> string) (f : FunctionDefinition E) c, returns f (Ok c) ->
  NoDup (labels f) /\ disp_ControlFlowFunctionPrinter d f c = Ok (page (function_lines (disp_Core d) f 0 c)).
Proof.
  intros E d f c [_ [dp Q]]. destruct (printer_total f d dp c Q) as [s T]. apply find_inv in Q as (N & _). split; [exact N|].
  apply printer_page. intros id I. destruct (Nat.eq_dec (count_occ N.eq_dec (labels f) id) 1) as [Y|X]; [exact Y|].
  destruct (printer_exact d f c) as [_ P]. rewrite P in T by (exists id; auto). discriminate T.
Qed.

Theorem listing_iff : forall E (d : E -> string), (forall a b, d a = d b -> a = b) -> forall f f' : FunctionDefinition E, fits f -> fits f' ->
  (forall b i, In b (FunctionDefinition_blocks f ++ FunctionDefinition_blocks f') -> In i (BasicBlock_code b) -> ~ contains line_feed (disp_Core d (core_of_code i))) ->
  forall c c', returns f (Ok c) -> returns f' (Ok c') ->
  (disp_ControlFlowFunctionPrinter d f c = disp_ControlFlowFunctionPrinter d f' c' <-> c = c' /\ forall id, In id (chain_ids c) -> same_at f f' id).
Proof.
  intros E d J f f' F F' O c c' R R'. destruct (found_page _ d _ _ R) as [N P], (found_page _ d _ _ R') as [N' P']. split.
  - intros T. rewrite P in T. symmetry in T. assert (O1 : forall b i, In b (FunctionDefinition_blocks f) -> In i (BasicBlock_code b) -> ~ contains line_feed (disp_Core d (core_of_code i))) by (intros b i B; apply O, in_or_app; auto).
    assert (O2 : forall b i, In b (FunctionDefinition_blocks f') -> In i (BasicBlock_code b) -> ~ contains line_feed (disp_Core d (core_of_code i))) by (intros b i B; apply O, in_or_app; auto).
    destruct (listing d J f f' F F' O1 O2 c c' _ R R' P T) as [Q A].
    split; [exact Q|]. intros id I. destruct (A id I) as (b & b' & B & B' & C1 & C2 & _). exists b, b'. auto.
  - intros [<- A]. rewrite P, P'. rewrite (same_lines d f f' N N' c 0 A). reflexivity.
Qed.
Theorem accepted_listing : forall data data' known known' m m' lm lm' f f' c c',
  read_module data known = Ok m -> read_module data' known' = Ok m' -> validate m = Ok lm -> validate m' = Ok lm' ->
  In f (LogicalModule_function_definitions lm) -> In f' (LogicalModule_function_definitions lm') -> returns f (Ok c) -> returns f' (Ok c') ->
  (disp_ControlFlowFunctionPrinter disp_Inst f c = disp_ControlFlowFunctionPrinter disp_Inst f' c' <-> c = c' /\ forall id, In id (chain_ids c) -> same_at f f' id).
Proof.
  intros data data' known known' m m' lm lm' f f' c c' R R' V V' F F' H H'. apply (listing_iff _ disp_Inst glsl_inj); try assumption.
  - intros b i B C. exact (proj1 (accepted_fits _ _ _ _ _ R (code_in _ _ _ V F _ _ B C))).
  - intros b i B C. exact (proj1 (accepted_fits _ _ _ _ _ R' (code_in _ _ _ V' F' _ _ B C))).
  - intros b i _ _. apply code_single.
Qed.

(** A loop and a selection without else print the same. *)
Lemma alike_chains : exists (f : FunctionDefinition Inst) c c' text, disp_ControlFlowFunctionPrinter disp_Inst f c = Ok text
  /\ disp_ControlFlowFunctionPrinter disp_Inst f c' = Ok text /\ steps c <> steps c'.
Proof.
  exists loop_function, (Loop 9 (Atom 14) LoopControl_default None)%N, (Selection 9 (Atom 14) (Block []) SelectionControl_default None)%N. eexists.
  split; [vm_compute; reflexivity|]. split; [vm_compute; reflexivity|discriminate].
Qed.
