(** Property theorems about printing into a writer, C67-C69.  The vocabulary of the statements is in Spec_Writer; the
    texts are those of C52-C60. *)
From Coq Require Import ZArith.
From Verif Require Import Base Types Ops ReadErr Groups Glsl450 ControlFlow DisplayBase DisplayTypes DisplayOps DisplayModule DisplayFlow
  FmtBase ErrText FmtTypes FmtOps FmtFlow Spec_Wire Spec_Names Spec_Opcodes Spec_Text Spec_Flow Spec_Writer
  Spec_Options Samples Samples_Flow Proofs_Flow4 Proofs_Fmt Proofs_Options.
Local Open Scope string_scope.

(** ** C67 *)
Theorem C67_error_texts : forall e e',
  one_line (description e) /\ (description e = description e' <-> error_kind e = error_kind e').
Proof. intros e e'. exact (conj (description_line e) (description_kind e e')). Qed.
Print Assumptions C67_error_texts.
Theorem C67_messages : forall e, nth_error messages (error_kind e) = Some (description e).
Proof. exact description_message. Qed.
Print Assumptions C67_messages.
Theorem C67_error_display : forall e options, prints (fmt_ReadError e options) (description e).
Proof. exact prints_ReadError. Qed.
Print Assumptions C67_error_display.
Example C67_example : error_kind (UnknownDim 7%N) = error_kind (UnknownDim 9%N) /\ error_kind (UnknownDim 7%N) <> error_kind BadMagic
  /\ fmt_ReadError (UnknownDim 7%N) right12 _ growing "error: " = ("error: unknown image dimension", Fmt_Ok)
  /\ fmt_ReadError BadMagic plain _ (bounded 7) "" = ("invalid", Fmt_Err)
  /\ List.length messages = 39 /\ nth_error messages 30 = Some "unknown image dimension".
Proof. repeat split; discriminate. Qed.

(** ** C68 *)
Theorem C68_module : forall E (fmt_ext : Display E) (ext_text : E -> string),
  (forall e, prints (fmt_ext e plain) (ext_text e)) ->
  forall m options, prints (fmt_RawModule fmt_ext m options) (disp_RawModule ext_text m).
Proof. exact @prints_RawModule. Qed.
Print Assumptions C68_module.
Theorem C68_instruction : forall E (fmt_ext : Display E) (ext_text : E -> string) options, quiet options ->
  (forall e, prints (fmt_ext e options) (ext_text e)) ->
  forall i, prints (fmt_Core fmt_ext i options) (disp_Core ext_text i).
Proof. exact @prints_Core_q. Qed.
Print Assumptions C68_instruction.
Theorem C68_chain : forall c options, prints (fmt_ControlFlowChain c options) (disp_ControlFlowChain c).
Proof. intros c options. exact (prints_chain c 0). Qed.
Print Assumptions C68_chain.
Theorem C68_function : forall E (fmt_ext : Display E) (ext_text : E -> string),
  (forall e, prints (fmt_ext e plain) (ext_text e)) ->
  forall f c options,
  match disp_ControlFlowFunctionPrinter ext_text f c with
  | Ok text => prints (fmt_ControlFlowFunctionPrinter fmt_ext f c options) text
  | Panic => exists text, prints_then_panics (fmt_ControlFlowFunctionPrinter fmt_ext f c options) text
  | _ => False
  end.
Proof. intros E fmt_ext ext_text H f c options. exact (follows_function fmt_ext ext_text H f c 0). Qed.
Print Assumptions C68_function.
(** What the built-in instruction set writes. *)
Theorem C68_built_in_set : forall i options, prints (fmt_Inst i options) (disp_Inst i).
Proof. exact prints_Inst. Qed.
Print Assumptions C68_built_in_set.
(** Into a String everything is written; a buffer of limited size gets the beginning of the text, and an error is
    reported exactly if that is not all of it. *)
Theorem C68_string : forall p text, prints p text -> forall buffer, p string growing buffer = (buffer ++ text, Fmt_Ok).
Proof. exact prints_growing. Qed.
Print Assumptions C68_string.
Theorem C68_buffer : forall p text, prints p text -> forall capacity,
  p string (bounded capacity) "" = (substring 0 capacity text, if Nat.leb (String.length text) capacity then Fmt_Ok else Fmt_Err).
Proof. exact prints_bounded. Qed.
Print Assumptions C68_buffer.

Example C68_example :
  fmt_RawModule fmt_Inst sample plain _ (bounded 30) "" = (substring 0 30 (disp_RawModule disp_Inst sample), Fmt_Err)
  /\ snd (fmt_RawModule fmt_Inst sample plain _ (bounded 2000) "") = Fmt_Ok
  /\ fmt_ControlFlowChain loop_chain plain _ growing "" = (disp_ControlFlowChain loop_chain, Fmt_Ok)
  /\ (exists text, disp_ControlFlowFunctionPrinter disp_Inst loop_function loop_chain = Ok text /\ 100 < String.length text)
  /\ fmt_ControlFlowFunctionPrinter fmt_Inst loop_function (Block [Break; Atom 99%N]) plain _ growing "" = ("break;" ++ nl, Fmt_Panic).
Proof.
  split; [vm_compute; reflexivity|]. split; [vm_compute; reflexivity|]. split; [vm_compute; reflexivity|].
  split; [|vm_compute; reflexivity]. eexists. split; [vm_compute; reflexivity|]. vm_compute. repeat constructor.
Qed.

(** ** C69 *)
(** A minimum width that the line of an instruction already has still changes the line: the width goes to the
    operands. *)
Theorem C69_width_refuted : exists (i : Core Inst) options text,
  Options_width options = Some 20 /\ Options_precision options = None /\ 20 <= String.length (disp_Core disp_Inst i)
  /\ prints (fmt_Core fmt_Inst i options) text /\ text <> disp_Core disp_Inst i.
Proof. exact width_goes_to_operands. Qed.
Print Assumptions C69_width_refuted.
(** A module, chain, function or error prints the same text under all options. *)
Theorem C69_options_irrelevant : forall E (fmt_ext : Display E) options options' W (write_str : string -> W -> W * bool) w,
  (forall m, fmt_RawModule fmt_ext m options _ write_str w = fmt_RawModule fmt_ext m options' _ write_str w)
  /\ (forall c, fmt_ControlFlowChain c options _ write_str w = fmt_ControlFlowChain c options' _ write_str w)
  /\ (forall f c, fmt_ControlFlowFunctionPrinter fmt_ext f c options _ write_str w = fmt_ControlFlowFunctionPrinter fmt_ext f c options' _ write_str w)
  /\ (forall e, fmt_ReadError e options _ write_str w = fmt_ReadError e options' _ write_str w).
Proof. exact options_irrelevant. Qed.
Print Assumptions C69_options_irrelevant.
Example C69_example : fst (fmt_Core fmt_Inst (Core_OpBranch (Build_OpBranch 7%N)) (Build_Options (Some 20) None "." Align_Left false false) _ growing "")
  = "               OpBranch %7..................".
Proof. vm_compute. reflexivity. Qed.
(** What all the options do to the line of an instruction. *)
Theorem C69_instruction : forall E (fmt_ext : Display E) (ext_text : E -> string) options,
  (forall e, prints (fmt_ext e options) (ext_text e)) ->
  forall i : Core E, canonical i -> result_fits i ->
  exists column name texts,
    result_column i column /\ opcode_name (opcode i) = Some name
    /\ have_effects options (fst (effects (opcode i))) (snd (effects (opcode i))) (operand_texts ext_text i) texts
    /\ prints (fmt_Core fmt_ext i options) (column ++ name ++ spaced texts).
Proof. exact instruction_with. Qed.
Print Assumptions C69_instruction.
Example C69_instruction_example : let options := Build_Options (Some 7) None "*" Align_Center true false in
  (forall e, prints (fmt_Inst e options) (disp_Inst e))
  /\ fst (fmt_Core fmt_Inst (Core_OpTypeVector (Build_OpTypeVector 9%N 5%N 4%N)) options _ growing "") = "          %9 = OpTypeVector **%5*** **+4***"
  /\ operand_texts disp_Inst (Core_OpTypeVector (Build_OpTypeVector 9%N 5%N 4%N)) = ["%5"; "4"]
  /\ effects 23 = ([AsText; AsNumber], Unchanged).
Proof. cbn zeta. split; [intros e; apply prints_Inst|]. repeat split; vm_compute; reflexivity. Qed.
