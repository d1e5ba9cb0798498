(** Formatting into a writer that may fail: core::fmt, src/spv/dis.rs and the printers of the u32 newtypes.
    The Display*.v files model the same code as functions to strings; here every write and every try! is kept. *)
From Verif Require Import Base Types ReadErr DisplayBase.
Local Open Scope string_scope.

(** core::fmt::Alignment *)
(* the Formatter of every Display, e.g. src/spv/dis.rs:11 *)
Inductive Alignment : Type := Align_Left | Align_Right | Align_Center | Align_Unknown.

(** The options of a core::fmt::Formatter, e.g. those of {:>12}.  [fill] is one character. *)
(* the Formatter of every Display, e.g. src/spv/dis.rs:11 *)
Record Options : Type := Build_Options {
  Options_width : option nat;
  Options_precision : option nat;
  Options_fill : string;
  Options_align : Alignment;
  Options_plus : bool;
  Options_zero : bool
}.
(** {} *)
(* e.g. src/spv/raw/mod.rs:30 *)
Definition plain : Options := Build_Options None None " " Align_Unknown false false.
(** {:>12} *)
(* src/spv/dis.rs:12 *)
Definition right12 : Options := Build_Options (Some 12) None " " Align_Right false false.

(** fmt::Result, or a panic. *)
(* e.g. src/spv/dis.rs:11 *)
Inductive fmt_result : Type := Fmt_Ok | Fmt_Err | Fmt_Panic.

(** Code that writes: [W] is the state of the fmt::Write behind the Formatter, the function is its write_str, which
    reports success. *)
(* e.g. src/spv/dis.rs:11 *)
Definition Step : Type := forall W : Type, (string -> W -> W * bool) -> W -> W * fmt_result.

(* Ok(()) *)
(* e.g. src/spv/dis.rs:50 *)
Definition done : Step := fun W write_str w => (w, Fmt_Ok).
(* f.write_str(s); also a literal piece of a format string, and a str or String argument of {} *)
(* e.g. src/spv/dis.rs:21, src/spv/logical/control_flow.rs:76 *)
Definition lit (s : string) : Step := fun W write_str w =>
  let (w, ok) := write_str s w in (w, if ok then Fmt_Ok else Fmt_Err).
(* try!(p); q *)
(* e.g. src/spv/dis.rs:36 *)
Definition try_ (p q : Step) : Step := fun W write_str w =>
  let (w, r) := p W write_str w in
  match r with Fmt_Ok => q W write_str w | r => (w, r) end.
(* panic!(..) *)
(* src/spv/logical/control_flow.rs:436, 440 *)
Definition panic : Step := fun W write_str w => (w, Fmt_Panic).

(* core::fmt::write: the pieces and arguments of a format string in turn, up to the first failure *)
(* write!, e.g. src/spv/dis.rs:12 *)
Fixpoint write_fmt (l : list Step) : Step :=
  match l with [] => done | [p] => p | p :: l => try_ p (write_fmt l) end.

(* write_char in a loop *)
(* core::fmt, used by src/spv/dis.rs:12 *)
Fixpoint repeat_fill (fill : string) (n : nat) : Step :=
  match n with O => done | S n => try_ (lit fill) (repeat_fill fill n) end.

(* Formatter::padding: fill before and after [body]; [default] is the alignment if none was asked for *)
(* core::fmt, used by src/spv/dis.rs:12 *)
Definition padding (o : Options) (n : nat) (default : Alignment) (body : Step) : Step :=
  let pre := match (match Options_align o with Align_Unknown => default | a => a end) with
             | Align_Right => n | Align_Center => Nat.div n 2 | _ => 0 end in
  try_ (repeat_fill (Options_fill o) pre) (try_ body (repeat_fill (Options_fill o) (n - pre))).

(* Formatter::pad.  All strings this crate pads are ASCII, so bytes are characters. *)
(* src/spv/types.rs:13 *)
Definition pad (s : string) (o : Options) : Step :=
  let s := match Options_precision o with Some p => substring 0 p s | None => s end in
  match Options_width o with
  | None => lit s
  | Some width => if Nat.leb width (String.length s) then lit s else padding o (width - String.length s) Align_Left (lit s)
  end.

(* Formatter::pad_integral of a non-negative number with digits [s] *)
(* core::fmt, used by src/spv/dis.rs:89 *)
Definition pad_integral (s : string) (o : Options) : Step :=
  let prefix := if Options_plus o then lit "+" else done in
  let size := String.length s + (if Options_plus o then 1 else 0) in
  match Options_width o with
  | None => try_ prefix (lit s)
  | Some width =>
      if Nat.leb width size then try_ prefix (lit s)
      else if Options_zero o then try_ prefix (try_ (repeat_fill "0" (width - size)) (lit s))
      else padding o (width - size) Align_Right (try_ prefix (lit s))
  end.

(** A Display impl: fmt(&self, f) with the options of f. *)
(* the Formatter of every Display, e.g. src/spv/dis.rs:11 *)
Definition Display (A : Type) : Type := A -> Options -> Step.

(* core::fmt Display for u32/u16/u8 *)
(* src/spv/dis.rs:89 *)
Definition fmt_u32 : Display N := fun n => pad_integral (disp_u32 n).

(* src/spv/types.rs:11-15.  format! builds a String first. *)
Definition fmt_OpId : Display OpId := fun id => pad ("%" ++ disp_u32 id).
(* src/spv/types.rs:118-122 *)
Definition fmt_SourceVersion : Display SourceVersion := fun v f => write_fmt [fmt_u32 v plain].
(* src/spv/types.rs:360-364 *)
Definition fmt_MemberIndex : Display MemberIndex := fun m f => write_fmt [fmt_u32 m plain].

(* src/spv/dis.rs:10-14 *)
Definition fmt_Result : Display ResultId := fun id f => write_fmt [fmt_OpId id right12; lit " = "].
(* src/spv/dis.rs:19-24 *)
Definition fmt_NoResult (f : Options) : Step := write_fmt [lit "               "].

(* src/spv/dis.rs:72-76 *)
Definition display_arg_fmt_String : Display string := fun s f => write_fmt [lit """"; lit s; lit """"].
(* src/spv/dis.rs:83-87 passes its Formatter on, so display_arg of a DisplayArgType is its fmt *)

(* src/spv/dis.rs:32-39 *)
Definition fmt_arg {A} (display_arg : Display A) : Display A := fun x f => try_ (write_fmt [lit " "]) (display_arg x f).
(* src/spv/dis.rs:41-53 *)
Definition fmt_arg_Option {A} (display_arg : Display A) : Display (option A) := fun x f =>
  match x with Some t => try_ (write_fmt [lit " "]) (display_arg t f) | None => done end.
(* src/spv/dis.rs:55-65 *)
Fixpoint fmt_arg_Vec {A} (display_arg : Display A) (l : list A) (f : Options) : Step :=
  match l with
  | [] => done
  | element :: l => try_ (write_fmt [lit " "]) (try_ (display_arg element f) (fmt_arg_Vec display_arg l f))
  end.
