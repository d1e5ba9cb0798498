(** Equality of extended instructions, chains and validation errors. *)
From Verif Require Import Base Types Groups Validate ControlFlow Glsl450 EqBase Equality.

(* src/spv/logical/parser/parser.rs:8-15 *)
Definition eq_ValidationError (a b : ValidationError) : bool :=
  match a, b with
  | MemoryModelMissing, MemoryModelMissing => true
  | ExpectedOpFunction x, ExpectedOpFunction y => Nat.eqb x y
  | ExpectedOpFunctionEnd x, ExpectedOpFunctionEnd y => Nat.eqb x y
  | ExpectedBranch x, ExpectedBranch y => Nat.eqb x y
  | UnexpectedInstruction x, UnexpectedInstruction y => Nat.eqb x y
  | _, _ => false
  end.

(* src/spv/logical/control_flow.rs:19-31; a Box compares its contents *)
Fixpoint eq_ControlFlowChain (a b : ControlFlowChain) : bool :=
  match a, b with
  | Atom x, Atom y => N.eqb x y
  | Block x, Block y => eq_Vec eq_ControlFlowChain x y
  | Selection x0 x1 x2 x3 x4, Selection y0 y1 y2 y3 y4 =>
      N.eqb x0 y0 && eq_ControlFlowChain x1 y1 && eq_ControlFlowChain x2 y2 && eq_SelectionControl x3 y3 && eq_Option eq_BranchWeights x4 y4
  | Loop x0 x1 x2 x3, Loop y0 y1 y2 y3 =>
      N.eqb x0 y0 && eq_ControlFlowChain x1 y1 && eq_LoopControl x2 y2 && eq_Option eq_BranchWeights x3 y3
  | Break, Break => true
  | Continue, Continue => true
  | _, _ => false
  end.

(* src/glsl450/op.rs:7-10 *)
Definition eq_Sin (a b : Sin) : bool := N.eqb (Sin_x a) (Sin_x b).
(* src/glsl450/op.rs:24-27 *)
Definition eq_Cos (a b : Cos) : bool := N.eqb (Cos_x a) (Cos_x b).
(* src/glsl450/mod.rs:15-19 *)
Definition eq_Inst (a b : Inst) : bool :=
  match a, b with
  | Inst_Sin x, Inst_Sin y => eq_Sin x y
  | Inst_Cos x, Inst_Cos y => eq_Cos x y
  | _, _ => false
  end.

Section Dynamic.
(* The values behind an ExtInst trait object: an instruction of the GLSL set, or an instruction of a type of the
   user's.  A user's type brings its own ExtInst::eq and its own as_any; of as_any only what the crate asks of it is
   modelled, whether it downcasts to an instruction of the GLSL set. *)
Context {F : Type}.
(* src/spv/mod.rs:25-32 *)
Definition AnyInst : Type := Inst + F.
Context (eq_user : F -> AnyInst -> bool) (user_as_Inst : F -> option Inst).

(* src/glsl450/mod.rs:29-31, 34: as_any().downcast_ref::<Inst>() *)
Definition downcast_Inst (x : AnyInst) : option Inst := match x with inl i => Some i | inr y => user_as_Inst y end.

(* src/glsl450/mod.rs:33-38 *)
Definition inst_eq (self : Inst) (other : AnyInst) : bool :=
  match downcast_Inst other with
  | Some other_glsl450 => eq_Inst self other_glsl450
  | None => false
  end.

(* src/spv/mod.rs:57-61: dynamic dispatch on self *)
Definition eq_ExtInstBox (a b : AnyInst) : bool :=
  match a with
  | inl i => inst_eq i b
  | inr x => eq_user x b
  end.
End Dynamic.
