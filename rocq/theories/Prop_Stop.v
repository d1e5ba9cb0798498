(** C102: what the printers have written when something on the way ends them. *)
From Verif Require Import Base Types Ops Groups ControlFlow DisplayBase DisplayOps DisplayModule DisplayFlow Glsl450
  FmtBase FmtTypes FmtOps FmtFlow Spec_Layout Spec_Flow Spec_Text Spec_Writer Spec_Page Spec_Stop Samples Samples_Flow Proofs_Fmt Proofs_Stop.
Local Open Scope string_scope.

(** ** C102 *)
(** The Display implementation of the extended instructions may fail or panic: for each of them [ext_text] says what it
    writes before it ends, and [ext_end] how it ends. *)
Theorem C102_instruction : forall E (fmt_ext : Display E) ext_text ext_end options, quiet options ->
  (forall e, ends (fmt_ext e options) (ext_text e) (ext_end e)) ->
  forall i, ends (fmt_Core fmt_ext i options) (disp_Core ext_text i) (end_of ext_end i).
Proof. exact stop_instruction. Qed.
Print Assumptions C102_instruction.
Theorem C102_module : forall E (fmt_ext : Display E) ext_text ext_end,
  (forall e, ends (fmt_ext e plain) (ext_text e) (ext_end e)) ->
  forall m options, let '(text, r) := performed (disp_Core ext_text) ext_end (module_items m) in ends (fmt_RawModule fmt_ext m options) text r.
Proof. exact stop_module. Qed.
Print Assumptions C102_module.
(** In particular, the first instruction that does not end well is the last that anything is written of. *)
Theorem C102_module_stops : forall E (fmt_ext : Display E) ext_text ext_end,
  (forall e, ends (fmt_ext e plain) (ext_text e) (ext_end e)) ->
  forall m options before i after, RawModule_instructions m = (before ++ i :: after)%list ->
  (forall j, In j before -> end_of ext_end j = Fmt_Ok) -> end_of ext_end i <> Fmt_Ok ->
  ends (fmt_RawModule fmt_ext m options) (page (header_lines m ++ map (disp_Core ext_text) before) ++ disp_Core ext_text i) (end_of ext_end i).
Proof. exact stop_module_at. Qed.
Print Assumptions C102_module_stops.
Theorem C102_function : forall E (fmt_ext : Display E) ext_text ext_end,
  (forall e, ends (fmt_ext e plain) (ext_text e) (ext_end e)) ->
  forall f c options, let '(text, r) := performed (disp_Core ext_text) ext_end (function_items f 0 c) in
  ends (fmt_ControlFlowFunctionPrinter fmt_ext f c options) text r.
Proof. exact stop_function. Qed.
Print Assumptions C102_function.
(** With nothing in the way this is the text of C60. *)
Theorem C102_function_whole : forall E (ext_text : E -> string) ext_end (f : FunctionDefinition E) c, (forall e, ext_end e = Fmt_Ok) ->
  (forall id, In id (chain_ids c) -> count_occ N.eq_dec (labels f) id = 1) ->
  performed (disp_Core ext_text) ext_end (function_items f 0 c) = (page (function_lines (disp_Core ext_text) f 0 c), Fmt_Ok).
Proof. exact whole_performed. Qed.
Print Assumptions C102_function_whole.
(** What this means for a String and for a buffer of limited size. *)
Theorem C102_string : forall p text r, ends p text r -> forall buffer, p string growing buffer = (buffer ++ text, r).
Proof. exact ends_growing. Qed.
Print Assumptions C102_string.
Theorem C102_buffer : forall p text r, ends p text r -> forall capacity,
  p string (bounded capacity) "" = (substring 0 capacity text, if Nat.leb (String.length text) capacity then r else Fmt_Err).
Proof. exact ends_bounded. Qed.
Print Assumptions C102_buffer.

(** Extended instructions of which 0 is shown, 1 fails after some text and 2 panics. *)
Definition fragile : Display N := fun e _ =>
  if N.eqb e 0 then lit "fine" else if N.eqb e 1 then try_ (lit "part") (fun W _ w => (w, Fmt_Err)) else try_ (lit "burst") panic.
Definition fragile_text (e : N) : string := if N.eqb e 0 then "fine" else if N.eqb e 1 then "part" else "burst".
Definition fragile_end (e : N) : fmt_result := if N.eqb e 0 then Fmt_Ok else if N.eqb e 1 then Fmt_Err else Fmt_Panic.
Definition ext_of (e : N) : OpExtInst N := Build_OpExtInst 6%N 7%N 3%N e.
Definition fragile_function (e : N) : FunctionDefinition N := Build_FunctionDefinition (Build_OpFunction 1%N 4%N control0 5%N) []
  [ Build_BasicBlock (Build_OpLabel 9%N) [GroupCode_OpExtInst (ext_of 0); GroupCode_OpExtInst (ext_of e)] None (branch_to 10%N);
    Build_BasicBlock (Build_OpLabel 10%N) [] None (GroupBranch_OpReturn Build_OpReturn) ].
Example C102_hypothesis : forall e options, ends (fragile e options) (fragile_text e) (fragile_end e).
Proof.
  intros e options. unfold fragile, fragile_text, fragile_end. destruct (N.eqb e 0); [exact (prints_lit "fine")|]. destruct (N.eqb e 1).
  - apply (ends_try (lit "part") "part" _ "" Fmt_Err (prints_lit "part")). intros W ws w w' r' [= <- <-]. left. split; [reflexivity|constructor].
  - exact (ends_try (lit "burst") "burst" _ "" Fmt_Panic (prints_lit "burst") ends_panic).
Qed.
Definition head_text (e : N) : string :=
  "> Begin 9" ++ nl ++ ">>>           %7 = OpExtInst %6 %3 fine" ++ nl ++ ">>>           %7 = OpExtInst %6 %3 " ++ fragile_text e.
Definition fragile_module : RawModule N := Build_RawModule (Build_Version 1 0)%N (Build_Generator Tool_LunarG 0)%N 9%N
  [Core_OpNop Build_OpNop; Core_OpExtInst (ext_of 0); Core_OpExtInst (ext_of 1); Core_OpNop Build_OpNop; Core_OpExtInst (ext_of 2)].
Example C102_example :
  fmt_Core fragile (Core_OpExtInst (ext_of 1)) plain _ growing "" = ("          %7 = OpExtInst %6 %3 part", Fmt_Err)
  /\ fmt_RawModule fragile fragile_module plain _ growing ""
     = ("; SPIR-V" ++ nl ++ "; Version: 1.0" ++ nl ++ "; Generator: LunarG; 0" ++ nl ++ "; Bound: 9" ++ nl ++ "; Schema: 0" ++ nl
        ++ "               OpNop" ++ nl ++ "          %7 = OpExtInst %6 %3 fine" ++ nl ++ "          %7 = OpExtInst %6 %3 part", Fmt_Err)
  /\ fmt_ControlFlowFunctionPrinter fragile (fragile_function 1) (Block [Atom 9; Atom 10])%N plain _ growing "" = (head_text 1, Fmt_Err)
  /\ fmt_ControlFlowFunctionPrinter fragile (fragile_function 2) (Block [Atom 9; Atom 10])%N plain _ growing "" = (head_text 2, Fmt_Panic)
  /\ fmt_ControlFlowFunctionPrinter fragile (fragile_function 2) (Block [Atom 10; Atom 11; Atom 9])%N plain _ growing "> "
     = ("> > Begin 10" ++ nl ++ ">>>                OpReturn" ++ nl ++ "> End 10" ++ nl, Fmt_Panic)
  /\ snd (performed (disp_Core fragile_text) fragile_end (function_items (fragile_function 0) 0 (Block [Atom 9; Atom 10])%N)) = Fmt_Ok.
Proof. repeat match goal with |- _ /\ _ => split end; vm_compute; reflexivity. Qed.
(** The hypotheses of [C102_module_stops] and [C102_function_whole] are met. *)
Example C102_stops_met :
  (RawModule_instructions fragile_module = [Core_OpNop Build_OpNop; Core_OpExtInst (ext_of 0)] ++ Core_OpExtInst (ext_of 1) :: [Core_OpNop Build_OpNop; Core_OpExtInst (ext_of 2)])%list
  /\ (forall j, In j [Core_OpNop Build_OpNop; Core_OpExtInst (ext_of 0)] -> end_of fragile_end j = Fmt_Ok)
  /\ end_of fragile_end (Core_OpExtInst (ext_of 1)) <> Fmt_Ok.
Proof. split; [reflexivity|]. split; [|discriminate]. intros j [<-|[<-|[]]]; reflexivity. Qed.
Example C102_whole_met : forall id, In id (chain_ids loop_chain) -> count_occ N.eq_dec (labels loop_function) id = 1.
Proof. intros id H. cbn in H. repeat (destruct H as [<-|H]; [vm_compute; reflexivity|]). destruct H. Qed.
