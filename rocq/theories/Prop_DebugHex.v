(** Property theorems about the Debug format with hexadecimal numbers, [{:x?}] and [{:X?}], C100.  The vocabulary of the statements is in
    Spec_DebugHex, Spec_DebugOptions and Spec_Writer; [layout] is None for [{:x?}] and Some for [{:#x?}], [upper] is for capital letters, [user]
    is what the Debug implementation of the extended instructions shows (a derived one, or any that uses the same builders). *)
From Verif Require Import Base Types Ops ReadErr Groups Validate ControlFlow Glsl450 MoreOps DisplayModule FmtBase DebugBase Debug DebugMore DebugOps PlainOps
  DebugPretty DebugOptions DebugWriter DebugHex Spec_Text Spec_Writer Spec_Options Spec_Debug Spec_Pretty Spec_DebugOptions Spec_DebugWriter Spec_DebugHex
  Proofs_Debug3 Proofs_DebugHex2.
Local Open Scope string_scope.

(** What is written, to any writer: the text of C88 or C92 with other numbers and booleans. *)
Theorem C100_text : forall E upper o e,
  (forall several_lines, exists number boolean, hex_leaves_of upper several_lines o number boolean)
  /\ (forall number boolean, hex_leaves_of upper false o number boolean ->
      forall (ext : E -> Step) (ext_text : E -> string) t, (forall x, In x (boxed t) -> prints (ext x) (ext_text x)) ->
      prints (fmt_debug_hex upper None o e ext t) (debug_text e ext_text (with_leaves number boolean t)))
  /\ (forall number boolean, hex_leaves_of upper true o number boolean ->
      forall (ext : E -> Step) (ext_text : E -> string) t, (forall x, In x (boxed t) -> prints (ext x) (ext_text x)) ->
      forall trailing, prints (fmt_debug_hex upper (Some trailing) o e ext t) (pretty_text trailing e ext_text (with_leaves number boolean t))).
Proof. exact hex_text. Qed.
Print Assumptions C100_text.

(** A panic of an extended instruction is passed on, after a beginning of the text that would have been written without it. *)
Theorem C100_panics : forall E upper layout o e (ext : E -> Step) (ext_text : E -> string) (bad : E -> bool) t,
  (forall x, In x (boxed t) -> if bad x then panics_within (ext x) (ext_text x) else prints (ext x) (ext_text x)) ->
  forall x, In x (boxed t) -> bad x = true ->
  exists text, panics_within (fmt_debug_hex upper layout o e ext t) text
    /\ forall ext', (forall y, In y (boxed t) -> prints (ext' y) (ext_text y)) -> prints (fmt_debug_hex upper layout o e ext' t) text.
Proof. exact hex_panics. Qed.
Print Assumptions C100_panics.

(** No name in the crate can be taken for a hexadecimal number. *)
Theorem C100_names : forall E upper,
  (forall m : RawModule E, spoken upper (dbg_RawModule m)) /\ (forall m : LogicalModule E, spoken upper (dbg_LogicalModule m))
  /\ (forall f : FunctionDefinition E, spoken upper (dbg_FunctionDefinition f)) /\ (forall i : Core E, spoken upper (dbg_Core i))
  /\ (forall x, spoken upper (dbg_ReadError (E := E) x)) /\ (forall x, spoken upper (dbg_ValidationError (E := E) x))
  /\ (forall x, spoken upper (dbg_ControlFlowError (E := E) x)) /\ (forall c, spoken upper (dbg_ControlFlowChain (E := E) c))
  /\ (forall i, spoken upper (dbg_Inst (E := E) i)) /\ (forall T (x : PlainValue T), spoken upper (dbg_Plain (E := E) T x))
  /\ (forall i, spoken upper (dbg_MoreOp (E := E) i)).
Proof. exact all_spoken. Qed.
Print Assumptions C100_names.

(** The text of [{:?}] can be got back: without the options and with the hexadecimal numbers replaced by decimal ones it is that text. *)
Theorem C100_undone : forall E upper layout o e (user : E -> dtree Empty_set), readable o -> (forall x, identified (user x) /\ spoken upper (user x)) ->
  forall t, identified t -> spoken upper t ->
  decimals upper Between "" (without_options Between
    (written (fmt_debug_hex upper layout o e (fun x => fmt_debug_hex upper layout o e (fun y : Empty_set => match y with end) (user x)) t)))
  = debug_text e (fun x => debug_text e no_ext (user x)) t.
Proof. exact hex_undone. Qed.
Print Assumptions C100_undone.

(** Equal texts, equal values. *)
Theorem C100_exact : forall E upper layout o e (user : E -> dtree Empty_set), readable o -> (forall x, identified (user x) /\ spoken upper (user x)) ->
  unambiguous (fun x => debug_text e no_ext (user x)) ->
  let show := fun t => written (fmt_debug_hex upper layout o e (fun x => fmt_debug_hex upper layout o e (fun y : Empty_set => match y with end) (user x)) t) in
  (forall a b : RawModule E, show (dbg_RawModule a) = show (dbg_RawModule b) <-> a = b)
  /\ (forall a b : LogicalModule E, show (dbg_LogicalModule a) = show (dbg_LogicalModule b) <-> a = b)
  /\ (forall a b : FunctionDefinition E, show (dbg_FunctionDefinition a) = show (dbg_FunctionDefinition b) <-> a = b)
  /\ (forall a b : Core E, show (dbg_Core a) = show (dbg_Core b) <-> a = b)
  /\ (forall a b : ReadError, show (dbg_ReadError a) = show (dbg_ReadError b) <-> a = b)
  /\ (forall a b : ValidationError, show (dbg_ValidationError a) = show (dbg_ValidationError b) <-> a = b)
  /\ (forall a b : ControlFlowError, show (dbg_ControlFlowError a) = show (dbg_ControlFlowError b) <-> a = b)
  /\ (forall a b : ControlFlowChain, show (dbg_ControlFlowChain a) = show (dbg_ControlFlowChain b) <-> a = b).
Proof. exact all_hex_exact. Qed.
Print Assumptions C100_exact.

(** The instructions of GLSL.std.450 meet the hypotheses; what is shown, and back. *)
Example C100_example : forall e upper, let user := dbg_Inst (E := Empty_set) in
  (forall x, identified (user x) /\ spoken upper (user x)) /\ unambiguous (fun x => debug_text e no_ext (user x))
  /\ let show := fun upper layout o t => written (fmt_debug_hex upper layout o e (fun x => fmt_debug_hex upper layout o e (fun y : Empty_set => match y with end) (user x)) t) in
     let zeros := Build_Options (Some 4) None " " Align_Unknown true true in
     readable plain /\ readable zeros
  /\ (let i := Core_OpExtInst (Build_OpExtInst 10%N 171%N 3%N (Inst_Sin (Build_Sin 70%N))) in
      show false None plain (dbg_Core i)
      = "OpExtInst(OpExtInst { result_type: OpId(a), result_id: ResultId(ab), set: OpId(3), instruction: ExtInstBox(Sin(Sin { x: OpId(46) })) })"
      /\ show true None zeros (dbg_Core i)
      = "OpExtInst(OpExtInst { result_type: OpId(+00A), result_id: ResultId(+0AB), set: OpId(+003), instruction: ExtInstBox(Sin(Sin { x: OpId(+046) })) })"
      /\ decimals true Between "" (without_options Between (show true None zeros (dbg_Core i)))
      = "OpExtInst(OpExtInst { result_type: OpId(10), result_id: ResultId(171), set: OpId(3), instruction: ExtInstBox(Sin(Sin { x: OpId(70) })) })")
  /\ (let c := dbg_ControlFlowChain (Atom 171%N) in
      show true (Some true) plain c = joined ["Atom("; "    BlockId("; "        0xAB,"; "    ),"; ")"]
      /\ decimals true Between "" (without_options Between (show true (Some true) plain c)) = "Atom(BlockId(171))").
Proof.
  intros e upper user. split; [exact (glsl_spoken upper)|]. split; [exact (glsl_unambiguous e)|]. split; [split; [reflexivity|exact I]|]. split; [split; [reflexivity|exact I]|].
  split; [repeat split; vm_compute; reflexivity|split; vm_compute; reflexivity].
Qed.
