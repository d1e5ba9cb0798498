(** Property theorems about the Debug format over several lines, C92.  The vocabulary of the statements is in Spec_Pretty;
    [trailing] and [e] say how the release of Rust in use shows the end of a list and which characters it escapes, [user] is what
    the Debug implementation of the extended instructions shows (a derived one, or any that uses the same builders). *)
From Verif Require Import Base Types Ops ReadErr Groups Validate ControlFlow Glsl450 MoreOps DebugBase Debug DebugMore DebugOps PlainOps
  DebugPretty Spec_Text Spec_Debug Spec_Pretty Proofs_Debug3 Proofs_Pretty2.
Local Open Scope string_scope.

(** What is shown, line by line.  The extended instructions may show any lines. *)
Theorem C92_lines : forall E trailing e (pretty_ext : E -> string) (ext_lines : E -> list string) t,
  (forall x, ext_lines x <> [] /\ (forall l, In l (ext_lines x) -> ~ contains line_feed l) /\ pretty_ext x = joined (ext_lines x)) ->
  plainly_named t -> pretty_text trailing e pretty_ext t = joined (pretty_lines trailing e ext_lines t)
    /\ (forall l, In l (pretty_lines trailing e ext_lines t) -> ~ contains line_feed l).
Proof. exact lines_exact. Qed.
Print Assumptions C92_lines.

(** All types of the crate are shown with names that are identifiers. *)
Theorem C92_names : forall E,
  (forall m : RawModule E, plainly_named (dbg_RawModule m)) /\ (forall m : LogicalModule E, plainly_named (dbg_LogicalModule m))
  /\ (forall f : FunctionDefinition E, plainly_named (dbg_FunctionDefinition f)) /\ (forall i : Core E, plainly_named (dbg_Core i))
  /\ (forall x, plainly_named (dbg_ReadError (E := E) x)) /\ (forall x, plainly_named (dbg_ValidationError (E := E) x))
  /\ (forall x, plainly_named (dbg_ControlFlowError (E := E) x)) /\ (forall c, plainly_named (dbg_ControlFlowChain (E := E) c))
  /\ (forall i, plainly_named (dbg_Inst (E := E) i)) /\ (forall T (x : PlainValue T), plainly_named (dbg_Plain (E := E) T x))
  /\ (forall i, plainly_named (dbg_MoreOp (E := E) i)).
Proof. exact all_plain. Qed.
Print Assumptions C92_names.

(** Without its line breaks, the text is the one of [{:?}]. *)
Theorem C92_one_line : forall E trailing e (user : E -> dtree Empty_set), (forall x, plainly_named (user x)) ->
  forall t, plainly_named t ->
  one_line Outside (pretty_text trailing e (fun x => pretty_text trailing e no_ext (user x)) t)
  = debug_text e (fun x => debug_text e no_ext (user x)) t.
Proof. intros E trailing e user P t. exact (collapsed trailing e user P t). Qed.
Print Assumptions C92_one_line.

(** Equal texts, equal values. *)
Theorem C92_exact : forall E trailing e (user : E -> dtree Empty_set), (forall x, plainly_named (user x)) ->
  unambiguous (fun x => debug_text e no_ext (user x)) ->
  let show := pretty_text trailing e (fun x => pretty_text trailing e no_ext (user x)) in
  (forall a b : RawModule E, show (dbg_RawModule a) = show (dbg_RawModule b) <-> a = b)
  /\ (forall a b : LogicalModule E, show (dbg_LogicalModule a) = show (dbg_LogicalModule b) <-> a = b)
  /\ (forall a b : FunctionDefinition E, show (dbg_FunctionDefinition a) = show (dbg_FunctionDefinition b) <-> a = b)
  /\ (forall a b : Core E, show (dbg_Core a) = show (dbg_Core b) <-> a = b)
  /\ (forall a b : ReadError, show (dbg_ReadError a) = show (dbg_ReadError b) <-> a = b)
  /\ (forall a b : ValidationError, show (dbg_ValidationError a) = show (dbg_ValidationError b) <-> a = b)
  /\ (forall a b : ControlFlowError, show (dbg_ControlFlowError a) = show (dbg_ControlFlowError b) <-> a = b)
  /\ (forall a b : ControlFlowChain, show (dbg_ControlFlowChain a) = show (dbg_ControlFlowChain b) <-> a = b).
Proof. exact all_exact. Qed.
Print Assumptions C92_exact.

(** The instructions of GLSL.std.450 meet the hypotheses; an instruction with one of them, as a recent and as an old release shows it. *)
Example C92_example : forall e, let user := dbg_Inst (E := Empty_set) in
  (forall x, plainly_named (user x)) /\ unambiguous (fun x => debug_text e no_ext (user x))
  /\ let i := Core_OpExtInst (Build_OpExtInst 1%N 2%N 3%N (Inst_Sin (Build_Sin 7%N))) in
     pretty_text true e (fun x => pretty_text true e no_ext (user x)) (dbg_Core i) = joined
       ["OpExtInst("; "    OpExtInst {"; "        result_type: OpId("; "            1,"; "        ),"; "        result_id: ResultId("; "            2,";
        "        ),"; "        set: OpId("; "            3,"; "        ),"; "        instruction: ExtInstBox("; "            Sin("; "                Sin {";
        "                    x: OpId("; "                        7,"; "                    ),"; "                },"; "            ),"; "        ),";
        "    },"; ")"]
  /\ pretty_text false e (fun x => pretty_text false e no_ext (user x)) (dbg_ControlFlowChain (Block [Break; Atom 1%N])) = joined
       ["Block("; "    ["; "        Break,"; "        Atom("; "            BlockId("; "                1"; "            )"; "        )"; "    ]"; ")"].
Proof. intros e user. split; [exact glsl_plain|]. split; [exact (glsl_unambiguous e)|]. split; vm_compute; reflexivity. Qed.
(** The lines of the built-in instructions, as C92_lines asks for them. *)
Example C92_lines_met : forall e, let user := dbg_Inst (E := Empty_set) in
  let ext_lines := fun x => pretty_lines true e (fun y : Empty_set => match y with end) (user x) in
  forall x, ext_lines x <> [] /\ (forall l, In l (ext_lines x) -> ~ contains line_feed l) /\ pretty_text true e no_ext (user x) = joined (ext_lines x).
Proof.
  intros e user ext_lines x.
  destruct (C92_lines Empty_set true e no_ext (fun y : Empty_set => match y with end) (user x)) as [H1 H2]; [intros []|apply glsl_plain|].
  split; [|split; [exact H2|exact H1]]. destruct x; discriminate.
Qed.
