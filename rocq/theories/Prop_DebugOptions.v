(** Property theorems about the Debug format with formatting options, C95.  The vocabulary of the statements is in Spec_DebugOptions; [layout] is
    None for [{:?}] and Some for [{:#?}], [user] is what the Debug implementation of the extended instructions shows (a derived
    one, or any that uses the same builders). *)
From Verif Require Import Base Types Ops ReadErr Groups Validate ControlFlow Glsl450 MoreOps FmtBase DebugBase Debug DebugMore DebugOps PlainOps
  DebugPretty DebugOptions Spec_Text Spec_Options Spec_Debug Spec_Pretty Spec_DebugOptions Proofs_Debug3 Proofs_DebugOptions2.
Local Open Scope string_scope.

(** What is shown: the text of C88 or C92 in which only numbers and booleans are different. *)
Theorem C95_text : forall E o e (ext : E -> string) t,
  (exists number boolean, leaves_of o number boolean)
  /\ forall number boolean, leaves_of o number boolean ->
     debug_with None o e ext t = debug_text e ext (with_leaves number boolean t)
     /\ forall trailing, debug_with (Some trailing) o e ext t = pretty_text trailing e ext (with_leaves number boolean t).
Proof. exact options_text. Qed.
Print Assumptions C95_text.

(** Without options it is the text of C88 or C92. *)
Theorem C95_plain : forall E e (ext : E -> string) t,
  debug_with None plain e ext t = debug_text e ext t /\ forall trailing, debug_with (Some trailing) plain e ext t = pretty_text trailing e ext t.
Proof. exact no_options. Qed.
Print Assumptions C95_plain.

(** All types of the crate are shown with names that are identifiers. *)
Theorem C95_names : forall E,
  (forall m : RawModule E, identified (dbg_RawModule m)) /\ (forall m : LogicalModule E, identified (dbg_LogicalModule m))
  /\ (forall f : FunctionDefinition E, identified (dbg_FunctionDefinition f)) /\ (forall i : Core E, identified (dbg_Core i))
  /\ (forall x, identified (dbg_ReadError (E := E) x)) /\ (forall x, identified (dbg_ValidationError (E := E) x))
  /\ (forall x, identified (dbg_ControlFlowError (E := E) x)) /\ (forall c, identified (dbg_ControlFlowChain (E := E) c))
  /\ (forall i, identified (dbg_Inst (E := E) i)) /\ (forall T (x : PlainValue T), identified (dbg_Plain (E := E) T x))
  /\ (forall i, identified (dbg_MoreOp (E := E) i)).
Proof. exact all_identified. Qed.
Print Assumptions C95_names.

(** The text of [{:?}] can be got back: widths, alignments, signs and zeros, on one line or on several, add nothing and hide nothing. *)
Theorem C95_undone : forall E layout o e (user : E -> dtree Empty_set), readable o -> (forall x, identified (user x)) ->
  forall t, identified t ->
  without_options Between (debug_with layout o e (fun x => debug_with layout o e no_ext (user x)) t)
  = debug_text e (fun x => debug_text e no_ext (user x)) t.
Proof. exact lost_options. Qed.
Print Assumptions C95_undone.

(** Equal texts, equal values. *)
Theorem C95_exact : forall E layout o e (user : E -> dtree Empty_set), readable o -> (forall x, identified (user x)) ->
  unambiguous (fun x => debug_text e no_ext (user x)) ->
  let show := debug_with layout o e (fun x => debug_with layout o e no_ext (user x)) in
  (forall a b : RawModule E, show (dbg_RawModule a) = show (dbg_RawModule b) <-> a = b)
  /\ (forall a b : LogicalModule E, show (dbg_LogicalModule a) = show (dbg_LogicalModule b) <-> a = b)
  /\ (forall a b : FunctionDefinition E, show (dbg_FunctionDefinition a) = show (dbg_FunctionDefinition b) <-> a = b)
  /\ (forall a b : Core E, show (dbg_Core a) = show (dbg_Core b) <-> a = b)
  /\ (forall a b : ReadError, show (dbg_ReadError a) = show (dbg_ReadError b) <-> a = b)
  /\ (forall a b : ValidationError, show (dbg_ValidationError a) = show (dbg_ValidationError b) <-> a = b)
  /\ (forall a b : ControlFlowError, show (dbg_ControlFlowError a) = show (dbg_ControlFlowError b) <-> a = b)
  /\ (forall a b : ControlFlowChain, show (dbg_ControlFlowChain a) = show (dbg_ControlFlowChain b) <-> a = b).
Proof. exact all_options_exact. Qed.
Print Assumptions C95_exact.

(** A precision of zero hides all booleans: two selection merges that differ in a flag are shown alike. *)
Theorem C95_precision_refuted : forall E layout o e (ext : E -> string), Options_precision o = Some 0 ->
  let merge := fun flatten => Core_OpSelectionMerge (Build_OpSelectionMerge 1%N (Build_SelectionControl flatten false)) : Core E in
  debug_with layout o e ext (dbg_Core (merge true)) = debug_with layout o e ext (dbg_Core (merge false)).
Proof. exact cut_off. Qed.
Print Assumptions C95_precision_refuted.

(** A fill character that is a digit can make different numbers alike. *)
Theorem C95_fill_refuted : exists o, Options_precision o = None /\ forall E layout e (ext : E -> string),
  debug_with layout o e ext (dbg_ControlFlowChain (Atom 1%N)) = debug_with layout o e ext (dbg_ControlFlowChain (Atom 10%N)).
Proof. exact filled_in. Qed.
Print Assumptions C95_fill_refuted.

(** The instructions of GLSL.std.450 meet the hypotheses, and so do these options; what they show. *)
Example C95_example : forall e, let user := dbg_Inst (E := Empty_set) in
  (forall x, identified (user x)) /\ unambiguous (fun x => debug_text e no_ext (user x))
  /\ let wide := Build_Options (Some 5) None " " Align_Unknown false false in
     let zeros := Build_Options (Some 4) None " " Align_Unknown true true in
     readable wide /\ readable zeros
  /\ (let i := Core_OpExtInst (Build_OpExtInst 1%N 2%N 3%N (Inst_Sin (Build_Sin 70%N))) in
      debug_with None wide e (fun x => debug_with None wide e no_ext (user x)) (dbg_Core i)
      = "OpExtInst(OpExtInst { result_type: OpId(    1), result_id: ResultId(    2), set: OpId(    3), instruction: ExtInstBox(Sin(Sin { x: OpId(   70) })) })")
  /\ (let i := Core_OpSelectionMerge (Build_OpSelectionMerge 10%N (Build_SelectionControl true false)) in
      debug_with None zeros e (fun x => debug_with None zeros e no_ext (user x)) (dbg_Core i)
      = "OpSelectionMerge(OpSelectionMerge { merge_block: OpId(+010), selection_control: SelectionControl { flatten: true, dont_flatten: false } })"
      /\ debug_with None wide e (fun x => debug_with None wide e no_ext (user x)) (dbg_Core i)
         = "OpSelectionMerge(OpSelectionMerge { merge_block: OpId(   10), selection_control: SelectionControl { flatten: true , dont_flatten: false } })")
  /\ debug_with (Some true) wide e (fun x => debug_with (Some true) wide e no_ext (user x)) (dbg_ControlFlowChain (Atom 1%N)) = joined
       ["Atom("; "    BlockId("; "            1,"; "    ),"; ")"].
Proof.
  intros e user. split; [exact glsl_identified|]. split; [exact (glsl_unambiguous e)|]. split; [split; [reflexivity|exact I]|]. split; [split; [reflexivity|exact I]|].
  split; [vm_compute; reflexivity|]. split; [split; vm_compute; reflexivity|vm_compute; reflexivity].
Qed.
