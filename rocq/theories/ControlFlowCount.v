(** find_control_flow, src/spv/logical/control_flow.rs, once more, counting the calls of search_block.  Otherwise the
    same functions as in ControlFlow.v; C82 relates the two. *)
From Verif Require Import Base Types Ops Groups ExtSet ControlFlow.

(** A result and the number of calls made. *)
(* the Result of src/spv/logical/control_flow.rs:152, with a count *)
Definition counted (A : Type) : Type := outcome ControlFlowError A * nat.
(* the Result of src/spv/logical/control_flow.rs:152, with a count *)
Definition answer {A} (r : outcome ControlFlowError A) : counted A := (r, 0).
(* a call of search_block, src/spv/logical/control_flow.rs:272 *)
Definition one_more {A} (x : counted A) : counted A := let (r, n) := x in (r, S n).
(* try!, e.g. src/spv/logical/control_flow.rs:305 *)
Definition count_bind {A B} (x : counted A) (f : A -> counted B) : counted B :=
  match x with
  | (Ok v, n) => let (r, n') := f v in (r, n + n')
  | (Err e, n) => (Err e, n)
  | (Panic, n) => (Panic, n)
  | (OutOfFuel, n) => (OutOfFuel, n)
  end.
Local Notation "'let+' x := e1 'in' e2" := (count_bind e1 (fun x => e2)) (at level 200, x pattern, e1 at level 200, e2 at level 200).

Section Count.
Context {E : Type}.

(* src/spv/logical/control_flow.rs:272-414.  [fuel] is the recursion depth allowed. *)
Fixpoint search_block_counted (fuel : nat) (id : BlockId) (flow_list : FlowList) (block_map : BlockMap (E := E))
  : counted (ControlFlowChain * Cont) :=
  match fuel with
  | O => answer OutOfFuel
  | S fuel => one_more (
    if merges flow_list id then answer (Ok (block [], Cont_Next id)) else
    match map_get id block_map with
    | None => answer (Err (UnknownBlockId id))
    | Some blk =>
      match BasicBlock_branch blk with
      | GroupBranch_OpBranch op =>
          let current := Atom id in
          let next_id : BlockId := OpBranch_target_label op in
          match BasicBlock_merge blk with
          | Some (GroupMerge_OpLoopMerge loop_merge) =>
              let head := id in
              let after : BlockId := OpLoopMerge_merge_block loop_merge in
              let hints := OpLoopMerge_loop_control loop_merge in
              let converge := Converge_Loop head after hints in
              let inner_fl := converge :: flow_list in
              let+ (inner_chain, inner_next) := search_block_counted fuel next_id inner_fl block_map in
              if cont_eqb inner_next (Cont_Next head) then
                let ctc := Loop id inner_chain hints None in
                let+ (after_chain, after_next) := search_block_counted fuel after flow_list block_map in
                answer (Ok (block [ctc; after_chain], after_next))
              else answer (Err (InvalidConvergePrediction ControlType_Loop id))
          | None =>
              let+ (next_chain, next_next) := search_block_counted fuel next_id flow_list block_map in
              answer (Ok (block [current; next_chain], next_next))
          | Some (GroupMerge_OpSelectionMerge _) => answer Panic
          end
      | GroupBranch_OpBranchConditional op =>
          let true_block : BlockId := OpBranchConditional_true_label op in
          let false_block : BlockId := OpBranchConditional_false_label op in
          match BasicBlock_merge blk with
          | Some (GroupMerge_OpSelectionMerge selection) =>
              let merge : BlockId := OpSelectionMerge_merge_block selection in
              let hints := OpSelectionMerge_selection_control selection in
              let converge := Converge_If merge hints in
              let inner_fl := converge :: flow_list in
              let+ (true_chain, true_next) := search_block_counted fuel true_block inner_fl block_map in
              let+ (false_chain, false_next) := search_block_counted fuel false_block inner_fl block_map in
              if cont_eqb true_next false_next && cont_eqb true_next (Cont_Next merge) then
                let weights := OpBranchConditional_weights op in
                let ctc := Selection id true_chain false_chain hints weights in
                let+ (next_chain, next_next) := search_block_counted fuel merge flow_list block_map in
                answer (Ok (block [ctc; next_chain], next_next))
              else answer (Err (InvalidConvergePrediction ControlType_Selection id))
          | Some (GroupMerge_OpLoopMerge _) => answer Panic
          | None =>
              match innermost_loop flow_list with
              | None => answer (Err (CouldNotPredictConverge id))
              | Some (head, merge) =>
                  let is_break := N.eqb false_block merge in
                  let is_continue := N.eqb false_block head in
                  if is_break || is_continue then
                    let+ (inner_chain, inner_next) := search_block_counted fuel true_block flow_list block_map in
                    if cont_eqb inner_next (Cont_Next head) then
                      let break_box := if is_break then Break else Continue in
                      let weights := OpBranchConditional_weights op in
                      answer (Ok (Selection id inner_chain break_box SelectionControl_default weights, inner_next))
                    else answer (Err (InvalidConvergePrediction ControlType_Loop id))
                  else answer (Err (CouldNotPredictConverge id))
              end
          end
      | GroupBranch_OpReturn _ => answer (Ok (Atom id, Cont_Return))
      end
    end)
  end.

(* src/spv/logical/control_flow.rs:156-185.  [fuel] is the recursion depth allowed to
   search_block. *)
Definition find_control_flow_counted (fuel : nat) (decl : FunctionDefinition E) : counted ControlFlowChain :=
  let+ (start_opt, block_map) := answer (build_map (FunctionDefinition_blocks decl) None []) in
  match start_opt with
  | None => answer (Err NoBlocks)
  | Some start =>
      let+ (chain, next) := search_block_counted fuel start [] block_map in
      match next with
      | Cont_Return => answer (Ok chain)
      | _ => answer (Err Failed)
      end
  end.
End Count.
