(** Property theorems about the Debug format when an extended instruction ends it, C104.  The vocabulary of the statements is in Spec_Writer,
    Spec_Stop ([ends]) and Spec_DebugStop; [layout] is None for [{:?}] and Some for [{:#?}]. *)
From Verif Require Import Base Types Ops Groups ControlFlow DisplayModule FmtBase DebugBase Debug DebugMore DebugPretty DebugOptions DebugWriter DebugHex
  Spec_Writer Spec_Debug Spec_DebugWriter Spec_Stop Spec_DebugStop Proofs_Fmt Proofs_Stop Proofs_DebugStop.
Local Open Scope string_scope.

(** Whatever the Debug implementations of the extended instructions write and however they end, the pieces of the text up
    to the first that does not end well are written, and nothing else; then the printing ends in the same way. *)
Theorem C104_stops : forall E layout o e (ext : E -> Step) (ext_text : E -> string) (ext_end : E -> fmt_result) t,
  (forall x, In x (boxed t) -> ends (ext x) (ext_text x) (ext_end x)) ->
  let (text, r) := displayed ext_text ext_end true (pieces (debug_with layout o e ext_text) layout 0 t) in
  ends (fmt_debug layout o e ext t) text r.
Proof. exact stops_debug. Qed.
Print Assumptions C104_stops.

(** The same with hexadecimal numbers; [leaf] is what is written for numbers, booleans, strings and names (C100). *)
Theorem C104_hexadecimal : forall E upper layout o e (ext : E -> Step) (ext_text : E -> string) (ext_end : E -> fmt_result) (leaf : dtree E -> string) t,
  (forall x, In x (boxed t) -> ends (ext x) (ext_text x) (ext_end x)) ->
  (forall l, boxed l = [] -> prints (fmt_debug_hex upper layout o e ext l) (leaf l)) ->
  let (text, r) := displayed ext_text ext_end true (pieces leaf layout 0 t) in
  ends (fmt_debug_hex upper layout o e ext t) text r.
Proof. exact stops_hex. Qed.
Print Assumptions C104_hexadecimal.

(** How it ends is decided by the first extended instruction that does not end well. *)
Theorem C104_first : forall E layout (leaf : dtree E -> string) ext_text (ext_end : E -> fmt_result) t,
  snd (displayed ext_text ext_end true (pieces leaf layout 0 t))
  = fold_right (fun x r => match ext_end x with Fmt_Ok => r | end_here => end_here end) Fmt_Ok (boxed t).
Proof. exact first_end. Qed.
Print Assumptions C104_first.

(** If all end well the pieces make up the whole text of C88, C92 and C95. *)
Theorem C104_whole : forall E layout o e (ext_text : E -> string) (ext_end : E -> fmt_result) t, (forall x, In x (boxed t) -> ext_end x = Fmt_Ok) ->
  displayed ext_text ext_end true (pieces (debug_with layout o e ext_text) layout 0 t) = (debug_with layout o e ext_text t, Fmt_Ok).
Proof. exact whole_debug. Qed.
Print Assumptions C104_whole.

(** A String holds all of it, a buffer of limited size the part that fits. *)
Theorem C104_buffers : forall p text r, ends p text r ->
  (forall buffer, p string growing buffer = (buffer ++ text, r))
  /\ forall capacity, p string (bounded capacity) "" = (substring 0 capacity text, if Nat.leb (String.length text) capacity then r else Fmt_Err).
Proof. exact stopped_buffers. Qed.
Print Assumptions C104_buffers.

(** An instruction that writes two lines and part of a third and panics: no blanks are written before what would have been next. *)
Example C104_example : forall e,
  let i := dbg_Core (Core_OpExtInst (Build_OpExtInst 1%N 2%N 3%N tt)) in
  let ext := fun _ : unit => try_ (lit ("My" ++ nl ++ "own" ++ nl)) panic in
  ends (ext tt) ("My" ++ nl ++ "own" ++ nl) Fmt_Panic
  /\ displayed (fun _ => "My" ++ nl ++ "own" ++ nl) (fun _ => Fmt_Panic) true (pieces (debug_with (Some true) plain e (fun _ => "")) (Some true) 0 i)
     = ("OpExtInst(" ++ nl ++ "    OpExtInst {" ++ nl
     ++ "        result_type: OpId(" ++ nl ++ "            1," ++ nl ++ "        )," ++ nl
     ++ "        result_id: ResultId(" ++ nl ++ "            2," ++ nl ++ "        )," ++ nl
     ++ "        set: OpId(" ++ nl ++ "            3," ++ nl ++ "        )," ++ nl
     ++ "        instruction: ExtInstBox(" ++ nl ++ "            My" ++ nl ++ "            own" ++ nl, Fmt_Panic)
  /\ boxed i = [tt].
Proof.
  intros e i ext. split; [|split; vm_compute; reflexivity].
  exact (prints_try_panic (lit ("My" ++ nl ++ "own" ++ nl)) _ panic "" (prints_lit _) panics).
Qed.
(** In one line, with hexadecimal numbers, an instruction that returns an error beside one that ends well. *)
Example C104_hexadecimal_met : forall e,
  let i := fun bad => dbg_Core (Core_OpExtInst (Build_OpExtInst 10%N 2%N 3%N bad)) in
  let ext := fun bad : bool => if bad then try_ (lit "My") (fun W ws w => (w, Fmt_Err)) else lit "Mine" in
  let text_of := fun bad : bool => if bad then "My" else "Mine" in
  let end_of := fun bad : bool => if bad then Fmt_Err else Fmt_Ok in
  (forall x, ends (ext x) (text_of x) (end_of x))
  /\ fmt_debug_hex false None plain e ext (DList [i false; i true]) _ growing ""
    = ("[OpExtInst(OpExtInst { result_type: OpId(a), result_id: ResultId(2), set: OpId(3), instruction: ExtInstBox(Mine) }), "
      ++ "OpExtInst(OpExtInst { result_type: OpId(a), result_id: ResultId(2), set: OpId(3), instruction: ExtInstBox(My", Fmt_Err).
Proof.
  intros e i ext text_of end_of. split; [|vm_compute; reflexivity]. intros [|]; [|exact (prints_lit "Mine")].
  apply (ends_try (lit "My") "My" (fun W ws w => (w, Fmt_Err)) "" Fmt_Err (prints_lit "My")).
  intros W ws w w' r [= <- <-]. left. split; [reflexivity|constructor].
Qed.
