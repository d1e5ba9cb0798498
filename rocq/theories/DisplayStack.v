(** The chain printers of DisplayFlow once more, with the depth of their recursion and the u32 that counts the
    indentation, src/spv/logical/control_flow.rs:33-37, 73-133, 416-513. *)
From Verif Require Import Base Types Ops Groups DisplayBase DisplayTypes DisplayOps DisplayModule ControlFlow DisplayFlow.
Local Open Scope string_scope.

(* src/spv/logical/control_flow.rs:101, 105, 120, 480, 484, 499: indent + 1 in u32.  Modelled with overflow checks, as in
   a debug build: too large a sum panics. *)
Definition next_indent (indent : nat) : outcome unit nat :=
  if N.ltb (N.of_nat (S indent)) (2 ^ 32) then Ok (S indent) else Panic.

(* src/spv/logical/control_flow.rs:86-89, 465-468.  [print] is the recursive call. *)
Fixpoint print_items (print : ControlFlowChain -> outcome unit string) (l : list ControlFlowChain) : outcome unit string :=
  match l with
  | [] => Ok ""
  | cfc :: l =>
      let! a := print cfc in
      let! b := print_items print l in Ok (a ++ b)
  end.

(* src/spv/logical/control_flow.rs:73-133.  [calls] is how many calls may be active at the same time. *)
Fixpoint chain_within (calls : nat) (c : ControlFlowChain) (indent : nat) : outcome unit string :=
  match calls with
  | O => OutOfFuel
  | S calls =>
      match c with
      | Atom id => Ok (write_indent indent ++ disp_BlockId id ++ nl)
      | Block l => print_items (fun cfc => chain_within calls cfc indent) l
      | Selection id lhs rhs hint weights =>
          let! inner := next_indent indent in
          let! l := chain_within calls lhs inner in
          let! r := (if is_empty_block rhs then Ok ""
                     else let! inner := next_indent indent in
                          let! r := chain_within calls rhs inner in
                          Ok (write_indent indent ++ "} else {" ++ nl ++ r)) in
          Ok (write_indent indent ++ "selection " ++ disp_BlockId id ++ hint_text_sel hint ++ weights_text weights
              ++ " {" ++ nl ++ l ++ r ++ write_indent indent ++ "}" ++ nl)
      | Loop id inner_chain hint weights =>
          let! inner := next_indent indent in
          let! i := chain_within calls inner_chain inner in
          Ok (write_indent indent ++ "loop " ++ disp_BlockId id ++ hint_text_loop hint ++ weights_text weights
              ++ " {" ++ nl ++ i ++ write_indent indent ++ "}" ++ nl)
      | Break => Ok (write_indent indent ++ "break;" ++ nl)
      | Continue => Ok (write_indent indent ++ "continue;" ++ nl)
      end
  end.

(* src/spv/logical/control_flow.rs:33-37.  The calls counted are those of fmt_indent. *)
Definition disp_ControlFlowChain_within (calls : nat) (c : ControlFlowChain) : outcome unit string := chain_within calls c 0.

Section Printer.
Context {E : Type} (disp_ext : E -> string).

(* src/spv/logical/control_flow.rs:453-512.  [calls] is how many calls may be active at the same time. *)
Fixpoint printer_within (calls : nat) (f : FunctionDefinition E) (c : ControlFlowChain) (indent : nat) : outcome unit string :=
  match calls with
  | O => OutOfFuel
  | S calls =>
      match c with
      | Atom id => fmt_block_indent disp_ext f indent id
      | Block l => print_items (fun cfc => printer_within calls f cfc indent) l
      | Selection id lhs rhs hint weights =>
          let! b := fmt_block_indent disp_ext f indent id in
          let! inner := next_indent indent in
          let! l := printer_within calls f lhs inner in
          let! r := (if is_empty_block rhs then Ok ""
                     else let! inner := next_indent indent in
                          let! r := printer_within calls f rhs inner in
                          Ok (write_indent indent ++ "} else {" ++ nl ++ r)) in
          Ok (b ++ hint_text_sel hint ++ weights_text weights ++ write_indent indent ++ "{" ++ nl
              ++ l ++ r ++ write_indent indent ++ "}" ++ nl)
      | Loop id inner_chain hint weights =>
          let! b := fmt_block_indent disp_ext f indent id in
          let! inner := next_indent indent in
          let! i := printer_within calls f inner_chain inner in
          Ok (b ++ hint_text_loop hint ++ weights_text weights ++ write_indent indent ++ "{" ++ nl
              ++ i ++ write_indent indent ++ "}" ++ nl)
      | Break => Ok (write_indent indent ++ "break;" ++ nl)
      | Continue => Ok (write_indent indent ++ "continue;" ++ nl)
      end
  end.

(* src/spv/logical/control_flow.rs:418-422.  The calls counted are those of fmt_indent. *)
Definition disp_ControlFlowFunctionPrinter_within (calls : nat) (f : FunctionDefinition E) (c : ControlFlowChain)
  : outcome unit string := printer_within calls f c 0.

End Printer.
