(** Display for ControlFlowChain and ControlFlowFunctionPrinter,
    src/spv/logical/control_flow.rs:33-37, 73-133, 416-513. *)
From Verif Require Import Base Types Ops Groups DisplayBase DisplayTypes DisplayOps DisplayModule ControlFlow.
Local Open Scope string_scope.

(* src/spv/logical/control_flow.rs:13-17 *)
Definition disp_BlockId (id : BlockId) : string := disp_OpId id.

(* src/spv/logical/control_flow.rs:74-79 (and the copies at 427-432, 454-459) *)
Fixpoint write_indent (indent : nat) : string :=
  match indent with O => "" | S n => "    " ++ write_indent n end.

(* derive(PartialEq): SelectionControl::default() != *hint, src/spv/logical/control_flow.rs:94 *)
Definition selection_is_default (h : SelectionControl) : bool :=
  negb (SelectionControl_flatten h) && negb (SelectionControl_dont_flatten h).

(* derive(PartialEq): LoopControl::default() != *hint, src/spv/logical/control_flow.rs:113 *)
Definition loop_is_default (h : LoopControl) : bool :=
  negb (LoopControl_unroll h) && negb (LoopControl_dont_unroll h)
  && negb (LoopControl_dependency_infinite h)
  && match LoopControl_dependency_length h with None => true | Some _ => false end.

(* derive(PartialEq): **right != ControlFlowChain::Block(vec![]), src/spv/logical/control_flow.rs:102 *)
Definition is_empty_block (c : ControlFlowChain) : bool :=
  match c with Block [] => true | _ => false end.

(* src/spv/logical/control_flow.rs:94-96, 472-474 *)
Definition hint_text_sel (hint : SelectionControl) : string :=
  if selection_is_default hint then "" else " [" ++ disp_SelectionControl hint ++ "]".
(* src/spv/logical/control_flow.rs:113-115, 491-493 *)
Definition hint_text_loop (hint : LoopControl) : string :=
  if loop_is_default hint then "" else " [" ++ disp_LoopControl hint ++ "]".
(* src/spv/logical/control_flow.rs:97-99, 116-118, 475-477, 494-496 *)
Definition weights_text (w : option BranchWeights) : string :=
  match w with Some w => " [" ++ disp_BranchWeights w ++ "]" | None => "" end.

(* src/spv/logical/control_flow.rs:73-133 *)
Fixpoint chain_fmt_indent (c : ControlFlowChain) (indent : nat) : string :=
  match c with
  | Atom id => write_indent indent ++ disp_BlockId id ++ nl
  | Block l =>
      (fix go l := match l with [] => "" | cfc :: l => chain_fmt_indent cfc indent ++ go l end) l
  | Selection id lhs rhs hint weights =>
      write_indent indent ++ "selection " ++ disp_BlockId id ++ hint_text_sel hint ++ weights_text weights
      ++ " {" ++ nl
      ++ chain_fmt_indent lhs (S indent)
      ++ (if is_empty_block rhs then ""
          else write_indent indent ++ "} else {" ++ nl ++ chain_fmt_indent rhs (S indent))
      ++ write_indent indent ++ "}" ++ nl
  | Loop id inner hint weights =>
      write_indent indent ++ "loop " ++ disp_BlockId id ++ hint_text_loop hint ++ weights_text weights
      ++ " {" ++ nl
      ++ chain_fmt_indent inner (S indent)
      ++ write_indent indent ++ "}" ++ nl
  | Break => write_indent indent ++ "break;" ++ nl
  | Continue => write_indent indent ++ "continue;" ++ nl
  end.

(* src/spv/logical/control_flow.rs:33-37 *)
Definition disp_ControlFlowChain (c : ControlFlowChain) : string := chain_fmt_indent c 0.

Section Printer.
Context {E : Type} (disp_ext : E -> string).

(* src/spv/logical/control_flow.rs:433-439: the loop over blocks; the assert! is a panic *)
Fixpoint find_block (blocks : list (BasicBlock E)) (id : BlockId) (found : option (BasicBlock E))
  : outcome unit (option (BasicBlock E)) :=
  match blocks with
  | [] => Ok found
  | search :: blocks =>
      if N.eqb (OpLabel_result_id (BasicBlock_label search)) id then
        match found with
        | Some _ => Panic
        | None => find_block blocks id (Some search)
        end
      else find_block blocks id found
  end.

(* src/spv/logical/control_flow.rs:443-446 *)
Fixpoint code_lines (indent : nat) (code : list (GroupCode E)) : string :=
  match code with
  | [] => ""
  | op :: code => write_indent indent ++ ">>> " ++ disp_GroupCode disp_ext op ++ nl ++ code_lines indent code
  end.

(* src/spv/logical/control_flow.rs:426-451; expect on a missing block is a panic *)
Definition fmt_block_indent (f : FunctionDefinition E) (indent : nat) (id : BlockId) : outcome unit string :=
  let! found := find_block (FunctionDefinition_blocks f) id None in
  match found with
  | None => Panic
  | Some blk =>
      Ok (write_indent indent ++ "> Begin " ++ disp_u32 id ++ nl
          ++ code_lines indent (BasicBlock_code blk)
          ++ write_indent indent ++ ">>> " ++ disp_GroupBranch (BasicBlock_branch blk) ++ nl
          ++ write_indent indent ++ "> End " ++ disp_u32 id ++ nl)
  end.

(* src/spv/logical/control_flow.rs:453-512 *)
Fixpoint printer_fmt_indent (f : FunctionDefinition E) (c : ControlFlowChain) (indent : nat)
  : outcome unit string :=
  match c with
  | Atom id => fmt_block_indent f indent id
  | Block l =>
      (fix go l :=
         match l with
         | [] => Ok ""
         | cfc :: l =>
             let! a := printer_fmt_indent f cfc indent in
             let! b := go l in Ok (a ++ b)
         end) l
  | Selection id lhs rhs hint weights =>
      let! b := fmt_block_indent f indent id in
      let! l := printer_fmt_indent f lhs (S indent) in
      let! r := (if is_empty_block rhs then Ok ""
                 else let! r := printer_fmt_indent f rhs (S indent) in
                      Ok (write_indent indent ++ "} else {" ++ nl ++ r)) in
      Ok (b ++ hint_text_sel hint ++ weights_text weights ++ write_indent indent ++ "{" ++ nl
          ++ l ++ r ++ write_indent indent ++ "}" ++ nl)
  | Loop id inner hint weights =>
      let! b := fmt_block_indent f indent id in
      let! i := printer_fmt_indent f inner (S indent) in
      Ok (b ++ hint_text_loop hint ++ weights_text weights ++ write_indent indent ++ "{" ++ nl
          ++ i ++ write_indent indent ++ "}" ++ nl)
  | Break => Ok (write_indent indent ++ "break;" ++ nl)
  | Continue => Ok (write_indent indent ++ "continue;" ++ nl)
  end.

(* src/spv/logical/control_flow.rs:418-422 *)
Definition disp_ControlFlowFunctionPrinter (f : FunctionDefinition E) (c : ControlFlowChain)
  : outcome unit string := printer_fmt_indent f c 0.

End Printer.
