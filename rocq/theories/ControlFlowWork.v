(** find_control_flow, src/spv/logical/control_flow.rs, once more, counting the calls of search_block and the work done
    between them: the nodes of the flow list looked at and the chains moved into a longer list.  Otherwise the same
    functions as in ControlFlow.v; C103 relates them.  The block map is not counted: it takes one insertion for
    each block and one look for each call. *)
From Verif Require Import Base Types Ops Groups ExtSet ControlFlow.

(* what search_block, src/spv/logical/control_flow.rs:272, does: its calls, the nodes of flow lists looked at
   (208-231), the chains moved (54-67) *)
Record Work : Type := Build_Work { Work_calls : nat; Work_looks : nat; Work_moves : nat }.
(* nothing, src/spv/logical/control_flow.rs:272 *)
Definition no_work : Work := Build_Work 0 0 0.
(* one thing after another, src/spv/logical/control_flow.rs:272-414 *)
Definition work_add (a b : Work) : Work :=
  Build_Work (Work_calls a + Work_calls b) (Work_looks a + Work_looks b) (Work_moves a + Work_moves b).

(** A result and the work done. *)
(* the Result of src/spv/logical/control_flow.rs:152, with the work *)
Definition worked (A : Type) : Type := outcome ControlFlowError A * Work.
(* the Result of src/spv/logical/control_flow.rs:152, with the work *)
Definition answer {A} (r : outcome ControlFlowError A) : worked A := (r, no_work).
(* work before a result, src/spv/logical/control_flow.rs:272-414 *)
Definition after {A} (a : Work) (x : worked A) : worked A := let (r, b) := x in (r, work_add a b).
(* a call of search_block, src/spv/logical/control_flow.rs:272 *)
Definition called {A} (x : worked A) : worked A := after (Build_Work 1 0 0) x.
(* looks at nodes, src/spv/logical/control_flow.rs:208-231 *)
Definition looking {A} (n : nat) (x : worked A) : worked A := after (Build_Work 0 n 0) x.
(* try!, e.g. src/spv/logical/control_flow.rs:305 *)
Definition work_bind {A B} (x : worked A) (f : A -> worked B) : worked B :=
  match x with
  | (Ok v, a) => after a (f v)
  | (Err e, a) => (Err e, a)
  | (Panic, a) => (Panic, a)
  | (OutOfFuel, a) => (OutOfFuel, a)
  end.
Local Notation "'let+' x := e1 'in' e2" := (work_bind e1 (fun x => e2)) (at level 200, x pattern, e1 at level 200, e2 at level 200).

(* src/spv/logical/control_flow.rs:208-221, 256-261: the nodes that merges looks at *)
Fixpoint merges_looks (fl : FlowList) (id : BlockId) : nat :=
  match fl with
  | [] => 0
  | Converge_If join _ :: ptr => S (if N.eqb join id then 0 else merges_looks ptr id)
  | Converge_Loop join _ _ :: ptr => S (if N.eqb join id then 0 else merges_looks ptr id)
  end.
(* src/spv/logical/control_flow.rs:223-231, 264-269: the nodes that innermost_loop looks at *)
Fixpoint innermost_looks (fl : FlowList) : nat :=
  match fl with
  | [] => 0
  | Converge_Loop _ _ _ :: _ => 1
  | Converge_If _ _ :: ptr => S (innermost_looks ptr)
  end.
(* src/spv/logical/control_flow.rs:54-67: append moves every member, push moves one chain *)
Fixpoint merge_moves (chains : list ControlFlowChain) : nat :=
  match chains with
  | [] => 0
  | Block more :: chains => List.length more + merge_moves chains
  | _ :: chains => 1 + merge_moves chains
  end.
(* src/spv/logical/control_flow.rs:41-71: with no chain or one there is nothing to merge *)
Definition block_moves (chains : list ControlFlowChain) : nat :=
  match chains with [] | [_] => 0 | _ => merge_moves chains end.
(* ControlFlowChain::block, src/spv/logical/control_flow.rs:41-71, e.g. at 315 *)
Definition moving {A} (chains : list ControlFlowChain) (x : worked A) : worked A := after (Build_Work 0 0 (block_moves chains)) x.

Section Work.
Context {E : Type}.

(* src/spv/logical/control_flow.rs:272-414.  [fuel] is the recursion depth allowed. *)
Fixpoint search_block_worked (fuel : nat) (id : BlockId) (flow_list : FlowList) (block_map : BlockMap (E := E))
  : worked (ControlFlowChain * Cont) :=
  match fuel with
  | O => answer OutOfFuel
  | S fuel => called (looking (merges_looks flow_list id) (
    if merges flow_list id then answer (Ok (block [], Cont_Next id)) else
    match map_get id block_map with
    | None => answer (Err (UnknownBlockId id))
    | Some blk =>
      match BasicBlock_branch blk with
      | GroupBranch_OpBranch op =>
          let current := Atom id in
          let next_id : BlockId := OpBranch_target_label op in
          match BasicBlock_merge blk with
          | Some (GroupMerge_OpLoopMerge loop_merge) =>
              let head := id in
              let after : BlockId := OpLoopMerge_merge_block loop_merge in
              let hints := OpLoopMerge_loop_control loop_merge in
              let converge := Converge_Loop head after hints in
              let inner_fl := converge :: flow_list in
              let+ (inner_chain, inner_next) := search_block_worked fuel next_id inner_fl block_map in
              if cont_eqb inner_next (Cont_Next head) then
                let ctc := Loop id inner_chain hints None in
                let+ (after_chain, after_next) := search_block_worked fuel after flow_list block_map in
                moving [ctc; after_chain] (answer (Ok (block [ctc; after_chain], after_next)))
              else answer (Err (InvalidConvergePrediction ControlType_Loop id))
          | None =>
              let+ (next_chain, next_next) := search_block_worked fuel next_id flow_list block_map in
              moving [current; next_chain] (answer (Ok (block [current; next_chain], next_next)))
          | Some (GroupMerge_OpSelectionMerge _) => answer Panic
          end
      | GroupBranch_OpBranchConditional op =>
          let true_block : BlockId := OpBranchConditional_true_label op in
          let false_block : BlockId := OpBranchConditional_false_label op in
          match BasicBlock_merge blk with
          | Some (GroupMerge_OpSelectionMerge selection) =>
              let merge : BlockId := OpSelectionMerge_merge_block selection in
              let hints := OpSelectionMerge_selection_control selection in
              let converge := Converge_If merge hints in
              let inner_fl := converge :: flow_list in
              let+ (true_chain, true_next) := search_block_worked fuel true_block inner_fl block_map in
              let+ (false_chain, false_next) := search_block_worked fuel false_block inner_fl block_map in
              if cont_eqb true_next false_next && cont_eqb true_next (Cont_Next merge) then
                let weights := OpBranchConditional_weights op in
                let ctc := Selection id true_chain false_chain hints weights in
                let+ (next_chain, next_next) := search_block_worked fuel merge flow_list block_map in
                moving [ctc; next_chain] (answer (Ok (block [ctc; next_chain], next_next)))
              else answer (Err (InvalidConvergePrediction ControlType_Selection id))
          | Some (GroupMerge_OpLoopMerge _) => answer Panic
          | None =>
              looking (innermost_looks flow_list) (match innermost_loop flow_list with
              | None => answer (Err (CouldNotPredictConverge id))
              | Some (head, merge) =>
                  let is_break := N.eqb false_block merge in
                  let is_continue := N.eqb false_block head in
                  if is_break || is_continue then
                    let+ (inner_chain, inner_next) := search_block_worked fuel true_block flow_list block_map in
                    if cont_eqb inner_next (Cont_Next head) then
                      let break_box := if is_break then Break else Continue in
                      let weights := OpBranchConditional_weights op in
                      answer (Ok (Selection id inner_chain break_box SelectionControl_default weights, inner_next))
                    else answer (Err (InvalidConvergePrediction ControlType_Loop id))
                  else answer (Err (CouldNotPredictConverge id))
              end)
          end
      | GroupBranch_OpReturn _ => answer (Ok (Atom id, Cont_Return))
      end
    end))
  end.

(* src/spv/logical/control_flow.rs:156-185.  [fuel] is the recursion depth allowed to
   search_block. *)
Definition find_control_flow_worked (fuel : nat) (decl : FunctionDefinition E) : worked ControlFlowChain :=
  let+ (start_opt, block_map) := answer (build_map (FunctionDefinition_blocks decl) None []) in
  match start_opt with
  | None => answer (Err NoBlocks)
  | Some start =>
      let+ (chain, next) := search_block_worked fuel start [] block_map in
      match next with
      | Cont_Return => answer (Ok chain)
      | _ => answer (Err Failed)
      end
  end.
End Work.
