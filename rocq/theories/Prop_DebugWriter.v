(** Property theorems about the Debug format into a writer, C96.  The vocabulary of the statements is in Spec_Writer and Spec_DebugWriter; the
    texts are those of C88, C92 and C95.  [layout] is None for [{:?}] and Some for [{:#?}]. *)
From Verif Require Import Base Types Ops Groups ControlFlow Glsl450 DisplayModule FmtBase DebugBase Debug DebugMore DebugPretty DebugOptions DebugWriter
  Spec_Writer Spec_Debug Spec_DebugWriter Proofs_Fmt Proofs_DebugWriter.
Local Open Scope string_scope.

(** All of the text is written and success reported, or the writer failed on the way, nothing more was written and the
    failure is reported, if the same holds for the extended instructions shown. *)
Theorem C96_prints : forall E layout o e (ext : E -> Step) (ext_text : E -> string) t,
  (forall x, In x (boxed t) -> prints (ext x) (ext_text x)) ->
  prints (fmt_debug layout o e ext t) (debug_with layout o e ext_text t).
Proof. exact prints_debug. Qed.
Print Assumptions C96_prints.

(** It does hold for those with a derived Debug. *)
Theorem C96_derived : forall E layout o e (user : E -> dtree Empty_set) t,
  prints (fmt_debug layout o e (fun x => fmt_debug layout o e (fun y : Empty_set => match y with end) (user x)) t)
    (debug_with layout o e (fun x => debug_with layout o e no_ext (user x)) t).
Proof. exact derived_debug. Qed.
Print Assumptions C96_derived.

(** Into a String everything is written; a buffer of limited size gets the beginning, and an error is reported exactly if
    that is not all of it. *)
Theorem C96_buffers : forall E layout o e (user : E -> dtree Empty_set) t,
  let p := fmt_debug layout o e (fun x => fmt_debug layout o e (fun y : Empty_set => match y with end) (user x)) t in
  let text := debug_with layout o e (fun x => debug_with layout o e no_ext (user x)) t in
  (forall buffer, p string growing buffer = (buffer ++ text, Fmt_Ok))
  /\ forall capacity, p string (bounded capacity) "" = (substring 0 capacity text, if Nat.leb (String.length text) capacity then Fmt_Ok else Fmt_Err).
Proof. exact derived_buffers. Qed.
Print Assumptions C96_buffers.

(** If the Debug implementation of an extended instruction in the value panics, a beginning of the text is written, unless
    the writer failed before, and the panic is passed on. *)
Theorem C96_panics : forall E layout o e (ext : E -> Step) (ext_text : E -> string) (bad : E -> bool) t,
  (forall x, In x (boxed t) -> if bad x then panics_within (ext x) (ext_text x) else prints (ext x) (ext_text x)) ->
  forall x, In x (boxed t) -> bad x = true -> panics_within (fmt_debug layout o e ext t) (debug_with layout o e ext_text t).
Proof. exact panics_debug. Qed.
Print Assumptions C96_panics.

(** A chain over several lines into a buffer of 24 bytes and into a String, and an instruction whose Debug panics. *)
Example C96_example : forall e, let show := fun layout => fmt_debug (E := Empty_set) layout plain e (fun y => match y with end) in
  let c := dbg_ControlFlowChain (Block [Break; Atom 1%N]) in
  show (Some true) c _ (bounded 24) "" = ("Block(" ++ nl ++ "    [" ++ nl ++ "        Bre", Fmt_Err)
  /\ show (Some true) c _ growing "" = (debug_with (Some true) plain e no_ext c, Fmt_Ok)
  /\ show None c _ growing "chain: " = ("chain: Block([Break, Atom(BlockId(1))])", Fmt_Ok)
  /\ let i := dbg_Core (Core_OpExtInst (Build_OpExtInst 1%N 2%N 3%N tt)) in
     boxed i = [tt] /\ fmt_debug None plain e (fun _ => panic) i _ growing ""
       = ("OpExtInst(OpExtInst { result_type: OpId(1), result_id: ResultId(2), set: OpId(3), instruction: ExtInstBox(", Fmt_Panic).
Proof. intros e show c. split; [vm_compute; reflexivity|]. split; [vm_compute; reflexivity|]. split; [vm_compute; reflexivity|]. split; vm_compute; reflexivity. Qed.
(** An instruction of the user that writes something and then panics, beside one that does not. *)
Example C96_panics_met : let ext := fun bad : bool => if bad then try_ (lit "My") panic else lit "Mine" in
  let ext_text := fun bad : bool => if bad then "My instruction" else "Mine" in
  let t := dbg_RawModule (Build_RawModule (Build_Version 1 0) (Build_Generator Tool_KhronosGlslang 1) 9
    [Core_OpExtInst (Build_OpExtInst 1 2 3 false); Core_OpExtInst (Build_OpExtInst 1 2 3 true)])%N in
  boxed t = [false; true] /\ forall x, In x (boxed t) -> if x then panics_within (ext x) (ext_text x) else prints (ext x) (ext_text x).
Proof.
  intros ext ext_text t. split; [reflexivity|]. intros x _. destruct x.
  - exists "My", " instruction". split; [reflexivity|]. exact (prints_try_panic (lit "My") "My" panic "" (prints_lit "My") panics).
  - apply prints_lit.
Qed.
