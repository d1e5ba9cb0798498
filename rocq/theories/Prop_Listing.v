(** Property theorems about the text of functions, C124.  The vocabulary of the statements is in Spec_Flow and Spec_Text. *)
From Verif Require Import Base Types Ops ReadErr ExtSet Reader Glsl450 Groups Validate ControlFlow DisplayBase DisplayTypes DisplayOps DisplayModule DisplayFlow
  Spec_Wire Spec_Layout Spec_Flow Spec_Names Spec_Text Samples Samples_Flow Proofs_Stream Proofs_Listing Proofs_Listing2.
Local Open Scope string_scope.

(** ** C124 *)
(** The functions that find_control_flow understands have the same text if and only if they have the same chain and the
    blocks on it have the same instructions and the same branches. *)
Theorem C124_text : forall E (ext_text : E -> string), (forall a b, ext_text a = ext_text b -> a = b) -> forall f g : FunctionDefinition E,
  (forall b i, In b (FunctionDefinition_blocks f) -> In i (BasicBlock_code b) -> result_fits (core_of_code i)) ->
  (forall b i, In b (FunctionDefinition_blocks g) -> In i (BasicBlock_code b) -> result_fits (core_of_code i)) ->
  (forall b i, In b (FunctionDefinition_blocks f ++ FunctionDefinition_blocks g)%list -> In i (BasicBlock_code b) ->
     ~ contains line_feed (disp_Core ext_text (core_of_code i))) ->
  forall c c', returns f (Ok c) -> returns g (Ok c') ->
  (disp_ControlFlowFunctionPrinter ext_text f c = disp_ControlFlowFunctionPrinter ext_text g c'
   <-> c = c' /\ forall id, In id (chain_ids c) -> exists b b', has_block f id b /\ has_block g id b'
         /\ BasicBlock_code b = BasicBlock_code b' /\ BasicBlock_branch b = BasicBlock_branch b').
Proof. exact listing_iff. Qed.
Print Assumptions C124_text.

(** Functions of modules that were read and validated, with no further condition. *)
Theorem C124_accepted : forall data data' known known' m m' lm lm' f g c c',
  read_module data known = Ok m -> read_module data' known' = Ok m' -> validate m = Ok lm -> validate m' = Ok lm' ->
  In f (LogicalModule_function_definitions lm) -> In g (LogicalModule_function_definitions lm') -> returns f (Ok c) -> returns g (Ok c') ->
  (disp_ControlFlowFunctionPrinter disp_Inst f c = disp_ControlFlowFunctionPrinter disp_Inst g c'
   <-> c = c' /\ forall id, In id (chain_ids c) -> exists b b', has_block f id b /\ has_block g id b'
         /\ BasicBlock_code b = BasicBlock_code b' /\ BasicBlock_branch b = BasicBlock_branch b').
Proof. exact accepted_listing. Qed.
Print Assumptions C124_accepted.

(** Of a chain that was not found for the function the text does not tell what it is: a loop looks like a selection. *)
Theorem C124_any_chain_refuted : exists (f : FunctionDefinition Inst) c c' text, disp_ControlFlowFunctionPrinter disp_Inst f c = Ok text
  /\ disp_ControlFlowFunctionPrinter disp_Inst f c' = Ok text /\ steps c <> steps c'.
Proof. exact alike_chains. Qed.
Print Assumptions C124_any_chain_refuted.

Example C124_example :
  (forall o, read_module (sample_bytes o) [InstSet] = Ok sample)
  /\ (exists lm f, validate sample = Ok lm /\ In f (LogicalModule_function_definitions lm) /\ returns f (Ok (Atom 6%N)) /\ length (FunctionDefinition_blocks f) = 1)
  /\ returns loop_function (Ok loop_chain)
  /\ (exists text, disp_ControlFlowFunctionPrinter disp_Inst loop_function loop_chain = Ok text /\ length (lines text) = 33).
Proof.
  split; [exact sample_read|]. split.
  - eexists. eexists. split; [vm_compute; reflexivity|]. split; [left; reflexivity|]. split; [split; [discriminate|exists 10; vm_compute; reflexivity]|vm_compute; reflexivity].
  - split; [split; [discriminate|exists 10; vm_compute; reflexivity]|]. eexists. split; [vm_compute; reflexivity|vm_compute; reflexivity].
Qed.
