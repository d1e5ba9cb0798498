(** Property theorems about the length of the text of control flow, C107.  [chain_ids] (Spec_Flow) lists the blocks a
    chain names, [indentation] (Spec_DisplayStack) is its depth, [parts] and [u32_only] are in Spec_TextLength,
    [block_lines] (Spec_Text) are the lines of one block. *)
From Verif Require Import Base Types Ops Groups Glsl450 DisplayOps DisplayModule ControlFlow DisplayFlow.
From Verif Require Import Spec_Wire Spec_Text Spec_Page Spec_Flow Spec_DisplayStack Spec_TextLength Samples Samples_Flow Proofs_TextLength Proofs_TextLength2.
Notation len := String.length.
Notation blocks chain := (length (chain_ids chain)).

(** ** C107 *)
(** The lines of a chain that was found: four for every block it names, less five, or the only one. *)
Theorem C107_lines : forall E (f : FunctionDefinition E) chain, returns f (Ok chain) ->
  1 <= blocks chain /\ length (lines (disp_ControlFlowChain chain)) <= Nat.max 1 (4 * blocks chain - 5).
Proof. exact found_rows. Qed.
Print Assumptions C107_lines.

(** Its text grows with the square of the blocks it names. *)
Theorem C107_length : forall E (f : FunctionDefinition E) chain, returns f (Ok chain) -> u32_only chain ->
  len (disp_ControlFlowChain chain) <= 8 * (blocks chain * blocks chain) + 95 * blocks chain.
Proof. exact found_length. Qed.
Print Assumptions C107_length.

(** There are functions of every size with that number of lines, and whose text grows just as fast. *)
Theorem C107_bounds_are_met : forall E k, exists (f : FunctionDefinition E) chain, returns f (Ok chain) /\ blocks chain = k + 2
  /\ ((N.of_nat k + 1 < 2 ^ 32)%N -> u32_only chain)
  /\ length (lines (disp_ControlFlowChain chain)) = 4 * blocks chain - 5
  /\ 8 * (blocks chain * blocks chain) <= len (disp_ControlFlowChain chain) + 20 * blocks chain.
Proof. exact found_sharp. Qed.
Print Assumptions C107_bounds_are_met.

(** Any chain, also one the user built. *)
Theorem C107_any_chain : forall chain, u32_only chain ->
  len (disp_ControlFlowChain chain) <= 6 * (parts chain * parts chain) + 113 * parts chain.
Proof. exact any_length. Qed.
Print Assumptions C107_any_chain.

Theorem C107_any_chain_met : forall k, exists chain, u32_only chain /\ parts chain = k
  /\ 6 * (k * k) <= len (disp_ControlFlowChain chain) + 6 * k.
Proof. exact any_sharp. Qed.
Print Assumptions C107_any_chain_met.

(** A chain that was found has fewer than two parts for every block it names. *)
Theorem C107_parts : forall E (f : FunctionDefinition E) chain, returns f (Ok chain) -> parts chain + 1 <= 2 * blocks chain.
Proof. exact found_parts. Qed.
Print Assumptions C107_parts.

(** With its instructions: what the blocks print on their own, the indentation of those lines, and the structure. *)
Theorem C107_function : forall E (ext_text : E -> string) f chain text,
  disp_ControlFlowFunctionPrinter ext_text f chain = Ok text -> u32_only chain ->
  len text <= list_sum (map (fun id => len (page (block_lines (disp_Core ext_text) f 0 id))
                                       + 4 * indentation chain * length (block_lines (disp_Core ext_text) f 0 id)) (chain_ids chain))
              + 6 * (parts chain * parts chain) + 96 * parts chain.
Proof. exact @function_length. Qed.
Print Assumptions C107_function.

(** The function with a loop meets the hypotheses: 8 blocks, 14 lines, and its parts include a break. *)
Example C107_example : returns loop_function (Ok loop_chain) /\ u32_only loop_chain
  /\ blocks loop_chain = 8 /\ parts loop_chain = 9 /\ length (lines (disp_ControlFlowChain loop_chain)) = 14
  /\ (exists text, disp_ControlFlowFunctionPrinter disp_Inst loop_function loop_chain = Ok text).
Proof.
  split; [split; [discriminate|]; exists 8; vm_compute; reflexivity|].
  split; [unfold u32_only; let l := eval vm_compute in (numbers_of loop_chain) in change (Forall word l); repeat constructor|].
  split; [reflexivity|]. split; [reflexivity|]. split; [vm_compute; reflexivity|]. eexists. vm_compute. reflexivity.
Qed.
