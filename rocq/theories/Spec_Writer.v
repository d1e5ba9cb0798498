(** Printing into a writer.  Nothing is assumed about the writer: [write_str] may do anything with its state and
    reports success or failure. *)
From Verif Require Import Base ReadErr FmtBase.

Section Writer.
Context {W : Type} (write_str : string -> W -> W * bool).

(** [wrote w text w']: successful writes that make up [text] take the writer from [w] to [w']. *)
Inductive wrote : W -> string -> W -> Prop :=
| wrote_nothing : forall w, wrote w "" w
| wrote_more : forall w s w1 text w2, write_str s w = (w1, true) -> wrote w1 text w2 -> wrote w (s ++ text)%string w2.

(** [broke_off w text w']: after writing a beginning of [text] successfully, the next write, of what follows in
    [text], failed; the writer was not used again. *)
Definition broke_off (w : W) (text : string) (w' : W) : Prop :=
  exists before failing after w1, text = (before ++ failing ++ after)%string
    /\ wrote w before w1 /\ write_str failing w1 = (w', false).
End Writer.

(** [p] prints [text]: into any writer, all of it is written and success reported, or the writer failed on the way and
    that is reported. *)
Definition prints (p : Step) (text : string) : Prop :=
  forall W (write_str : string -> W -> W * bool) w w' r, p W write_str w = (w', r) ->
    (r = Fmt_Ok /\ wrote write_str w text w') \/ (r = Fmt_Err /\ broke_off write_str w text w').

(** [p] prints [text] and then panics. *)
Definition prints_then_panics (p : Step) (text : string) : Prop :=
  forall W (write_str : string -> W -> W * bool) w w' r, p W write_str w = (w', r) ->
    (r = Fmt_Panic /\ wrote write_str w text w') \/ (r = Fmt_Err /\ broke_off write_str w text w').

(** A String that grows, and a buffer of [capacity] bytes that fills up. *)
Definition growing (s : string) (buffer : string) : string * bool := ((buffer ++ s)%string, true).
Definition bounded (capacity : nat) (s : string) (buffer : string) : string * bool :=
  (substring 0 capacity (buffer ++ s), Nat.leb (String.length buffer + String.length s) capacity).

(** Formatting options that ask for no width, no precision and no sign, like those of {}. *)
Definition quiet (o : Options) : Prop :=
  Options_width o = None /\ Options_precision o = None /\ Options_plus o = false.

(** ** Errors *)

(** The kind of a reader error: which error it is, whatever values it carries. *)
Definition error_kind (e : ReadError) : nat :=
  match e with
  | UnexpectedEndOfStream => 0
  | UnexpectedStreamAlignment => 1
  | BadMagic => 2
  | UnknownVersionBytes _ _ _ _ => 3
  | UnknownVersion _ => 4
  | UnknownReservedSchema => 5
  | UnknownOp _ _ => 6
  | UnimplementedOp _ => 7
  | WrongWordCountForOp => 8
  | InvalidString => 9
  | UnexpectedEndOfInstruction => 10
  | InstructionHadExcessData => 11
  | UnknownInstSet _ => 12
  | UnknownInstSetId _ => 13
  | UnknownExtInstOp _ _ => 14
  | DuplicateResultId _ => 15
  | UnknownAddressingModel _ => 16
  | UnknownMemoryModel _ => 17
  | UnknownExecutionModel _ => 18
  | UnknownExecutionMode _ => 19
  | UnknownCapability _ => 20
  | UnknownDecoration _ => 21
  | UnknownBuiltIn _ => 22
  | UnknownFpRoundingMode _ => 23
  | UnknownFpFastMathMode _ => 24
  | UnknownLinkageType _ => 25
  | UnknownSignedness _ => 26
  | UnknownStorageClass _ => 27
  | UnknownFunctionParameterAttribute _ => 28
  | UnknownMemoryAccess _ => 29
  | UnknownDim _ => 30
  | UnknownDepthStatus _ => 31
  | UnknownArrayed _ => 32
  | UnknownMS _ => 33
  | UnknownSampledStatus _ => 34
  | UnknownImageFormat _ => 35
  | UnknownAccessQualifier _ => 36
  | UnknownLoopControl _ => 37
  | UnknownSelectionControl _ => 38
  end.

(** One line of plain text: printable ASCII characters only, and at least one. *)
Definition one_line (s : string) : Prop :=
  s <> ""%string /\ forall n c, String.get n s = Some c -> (32 <= N_of_ascii c <= 126)%N.

(** The sentence for each kind, by number: what is wrong with the binary, or what was not recognised. *)
Definition problems : list string :=
  ["unexpected end of stream"; "stream is not word aligned"; "invalid magic number"; "unknown version bytes";
   "unknown version"; "unknown reserved schema field"; "unknown op"; "unimplemented op"; "op has invalid word count";
   "invalid string literal"; "instruction didn't have enough data"; "instruction didn't require all data";
   "unknown instruction set"; "extended instruction referenced unknown instruction set";
   "unknown op in extended instruction set"; "duplicate result id"]%string.
Definition unrecognised : list string :=
  ["addressing model"; "memory model"; "execution model"; "execution mode"; "capability"; "decoration"; "built in";
   "fp rounding mode"; "fp fast math mode"; "linkage type"; "signedness"; "storage class"; "function parameter attribute";
   "memory access"; "image dimension"; "image depth hint"; "image arrayed status"; "multisampled status"; "sampled hint";
   "image format"; "access qualifier"; "loop control"; "selection control"]%string.
Definition messages : list string := problems ++ map (String.append "unknown ") unrecognised.
