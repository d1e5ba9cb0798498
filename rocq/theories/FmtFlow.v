(** Display into a writer of RawModule, the GLSL.std.450 instructions, ControlFlowChain and ControlFlowFunctionPrinter:
    src/spv/raw/mod.rs:27-49, src/glsl450/, src/spv/logical/control_flow.rs:13-17, 33-37, 73-133, 416-513. *)
From Verif Require Import Base Types Ops Groups Glsl450 DisplayBase DisplayModule ControlFlow DisplayFlow FmtBase FmtTypes FmtOps.
Local Open Scope string_scope.

(* src/spv/raw/mod.rs:44-46 *)
Fixpoint fmt_instructions {E} (fmt_ext : Display E) (l : list (Core E)) : Step :=
  match l with
  | [] => done
  | inst :: l => try_ (write_fmt [fmt_Core fmt_ext inst plain; lit nl]) (fmt_instructions fmt_ext l)
  end.

(* src/spv/raw/mod.rs:27-49 *)
Definition fmt_RawModule {E} (fmt_ext : Display E) : Display (RawModule E) := fun m f =>
  try_ (write_fmt [lit ("; SPIR-V" ++ nl)])
  (try_ (write_fmt [lit "; Version: "; fmt_u32 (Version_0 (RawModule_version m)) plain; lit ".";
                    fmt_u32 (Version_1 (RawModule_version m)) plain; lit nl])
  (let gen_name := generator_name (RawModule_generator m) in
   try_ (write_fmt [lit "; Generator: "; lit gen_name; lit "; "; fmt_u32 (Generator_version (RawModule_generator m)) plain; lit nl])
  (try_ (write_fmt [lit "; Bound: "; fmt_u32 (RawModule_bound m) plain; lit nl])
  (try_ (write_fmt [lit ("; Schema: 0" ++ nl)])
  (fmt_instructions fmt_ext (RawModule_instructions m)))))).

(* src/glsl450/op.rs:18-22 *)
Definition fmt_Sin : Display Sin := fun op f => write_fmt [lit "Sin "; fmt_OpId (Sin_x op) plain].
(* src/glsl450/op.rs:35-39 *)
Definition fmt_Cos : Display Cos := fun op f => write_fmt [lit "Cos "; fmt_OpId (Cos_x op) plain].
(* src/glsl450/mod.rs:41-49 *)
Definition fmt_Inst : Display Inst := fun i f => match i with Inst_Sin op => fmt_Sin op f | Inst_Cos op => fmt_Cos op f end.

(* src/spv/logical/control_flow.rs:13-17 *)
Definition fmt_BlockId : Display BlockId := fun id f => write_fmt [fmt_OpId id plain].

(* src/spv/logical/control_flow.rs:74-79 (and the copies at 427-432, 454-459) *)
Fixpoint put_indent (indent : nat) : Step :=
  match indent with O => done | S n => try_ (lit "    ") (put_indent n) end.

(* src/spv/logical/control_flow.rs:94-96, 472-474 *)
Definition put_hint_sel (hint : SelectionControl) : Step :=
  if selection_is_default hint then done else write_fmt [lit " ["; fmt_SelectionControl hint plain; lit "]"].
(* src/spv/logical/control_flow.rs:113-115, 491-493 *)
Definition put_hint_loop (hint : LoopControl) : Step :=
  if loop_is_default hint then done else write_fmt [lit " ["; fmt_LoopControl hint plain; lit "]"].
(* src/spv/logical/control_flow.rs:97-99, 116-118, 475-477, 494-496 *)
Definition put_weights (w : option BranchWeights) : Step :=
  match w with Some w => write_fmt [lit " ["; fmt_BranchWeights w plain; lit "]"] | None => done end.

(* src/spv/logical/control_flow.rs:73-133 *)
Fixpoint put_chain (c : ControlFlowChain) (indent : nat) : Step :=
  match c with
  | Atom id => try_ (put_indent indent) (write_fmt [fmt_BlockId id plain; lit nl])
  | Block l =>
      (fix go l := match l with [] => done | cfc :: l => try_ (put_chain cfc indent) (go l) end) l
  | Selection id lhs rhs hint weights =>
      try_ (put_indent indent)
      (try_ (write_fmt [lit "selection "; fmt_BlockId id plain])
      (try_ (put_hint_sel hint)
      (try_ (put_weights weights)
      (try_ (write_fmt [lit (" {" ++ nl)])
      (try_ (put_chain lhs (S indent))
      (try_ (if is_empty_block rhs then done
             else try_ (put_indent indent) (try_ (write_fmt [lit ("} else {" ++ nl)]) (put_chain rhs (S indent))))
      (try_ (put_indent indent)
      (write_fmt [lit ("}" ++ nl)]))))))))
  | Loop id inner hint weights =>
      try_ (put_indent indent)
      (try_ (write_fmt [lit "loop "; fmt_BlockId id plain])
      (try_ (put_hint_loop hint)
      (try_ (put_weights weights)
      (try_ (write_fmt [lit (" {" ++ nl)])
      (try_ (put_chain inner (S indent))
      (try_ (put_indent indent)
      (write_fmt [lit ("}" ++ nl)])))))))
  | Break => try_ (put_indent indent) (write_fmt [lit ("break;" ++ nl)])
  | Continue => try_ (put_indent indent) (write_fmt [lit ("continue;" ++ nl)])
  end.

(* src/spv/logical/control_flow.rs:33-37 *)
Definition fmt_ControlFlowChain : Display ControlFlowChain := fun c f => put_chain c 0.

Section Printer.
Context {E : Type} (fmt_ext : Display E).

(* src/spv/logical/control_flow.rs:443-446 *)
Fixpoint put_code (indent : nat) (code : list (GroupCode E)) : Step :=
  match code with
  | [] => done
  | op :: code => try_ (put_indent indent) (try_ (write_fmt [lit ">>> "; fmt_GroupCode fmt_ext op plain; lit nl]) (put_code indent code))
  end.

(* src/spv/logical/control_flow.rs:426-451; the search for the block (find_block) writes nothing *)
Definition put_block (fn : FunctionDefinition E) (indent : nat) (id : BlockId) : Step :=
  match find_block (FunctionDefinition_blocks fn) id None with
  | Ok (Some blk) =>
      try_ (put_indent indent)
      (try_ (write_fmt [lit "> Begin "; fmt_u32 id plain; lit nl])
      (try_ (put_code indent (BasicBlock_code blk))
      (try_ (put_indent indent)
      (try_ (write_fmt [lit ">>> "; fmt_GroupBranch (BasicBlock_branch blk) plain; lit nl])
      (try_ (put_indent indent)
      (write_fmt [lit "> End "; fmt_u32 id plain; lit nl]))))))
  | _ => panic
  end.

(* src/spv/logical/control_flow.rs:453-512 *)
Fixpoint put_function (fn : FunctionDefinition E) (c : ControlFlowChain) (indent : nat) : Step :=
  match c with
  | Atom id => put_block fn indent id
  | Block l =>
      (fix go l := match l with [] => done | cfc :: l => try_ (put_function fn cfc indent) (go l) end) l
  | Selection id lhs rhs hint weights =>
      try_ (put_block fn indent id)
      (try_ (put_hint_sel hint)
      (try_ (put_weights weights)
      (try_ (put_indent indent)
      (try_ (write_fmt [lit ("{" ++ nl)])
      (try_ (put_function fn lhs (S indent))
      (try_ (if is_empty_block rhs then done
             else try_ (put_indent indent) (try_ (write_fmt [lit ("} else {" ++ nl)]) (put_function fn rhs (S indent))))
      (try_ (put_indent indent)
      (write_fmt [lit ("}" ++ nl)]))))))))
  | Loop id inner hint weights =>
      try_ (put_block fn indent id)
      (try_ (put_hint_loop hint)
      (try_ (put_weights weights)
      (try_ (put_indent indent)
      (try_ (write_fmt [lit ("{" ++ nl)])
      (try_ (put_function fn inner (S indent))
      (try_ (put_indent indent)
      (write_fmt [lit ("}" ++ nl)])))))))
  | Break => try_ (put_indent indent) (write_fmt [lit ("break;" ++ nl)])
  | Continue => try_ (put_indent indent) (write_fmt [lit ("continue;" ++ nl)])
  end.

(* src/spv/logical/control_flow.rs:418-422 *)
Definition fmt_ControlFlowFunctionPrinter (fn : FunctionDefinition E) : Display ControlFlowChain := fun c f => put_function fn c 0.

End Printer.
