(** find_control_flow with the hash table of HashTable.v for its map of blocks,
    src/spv/logical/control_flow.rs:154-185, 272-414.  Everything else is as in ControlFlow.v. *)
From Verif Require Import Base Types Ops Groups ExtSet ControlFlow HashTable.
Local Open Scope N_scope.

Section ControlFlowHash.
Context {E : Type} (hashing : Hashing).

(* src/spv/logical/control_flow.rs:154: HashMap<BlockId, &BasicBlock> *)
Definition BlockTable := Table (A := BasicBlock E).

(* BlockMap::get, src/spv/logical/control_flow.rs:281 *)
Definition block_get (id : BlockId) (map : BlockTable) : option (BasicBlock E) :=
  table_get hashing (hash_BlockId (hasher hashing)) id map.

(* src/spv/logical/control_flow.rs:160-173 *)
Fixpoint build_table (blocks : list (BasicBlock E)) (start_opt : option BlockId) (map : BlockTable)
  : outcome ControlFlowError (option BlockId * BlockTable) :=
  match blocks with
  | [] => Ok (start_opt, map)
  | block :: blocks =>
      let id : BlockId := OpLabel_result_id (BasicBlock_label block) in
      let start_opt := match start_opt with None => Some id | Some s => Some s end in
      let (old, map) := table_insert hashing (hash_BlockId (hasher hashing)) id block map in
      match old with
      | Some _ => Err (DuplicateBlockId id)
      | None => build_table blocks start_opt map
      end
  end.

(* src/spv/logical/control_flow.rs:272-414.  [fuel] is the recursion depth allowed. *)
Fixpoint search_hashed (fuel : nat) (id : BlockId) (flow_list : FlowList) (block_map : BlockTable)
  : outcome ControlFlowError (ControlFlowChain * Cont) :=
  match fuel with
  | O => OutOfFuel
  | S fuel =>
    if merges flow_list id then Ok (block [], Cont_Next id) else
    match block_get id block_map with
    | None => Err (UnknownBlockId id)
    | Some blk =>
      match BasicBlock_branch blk with
      | GroupBranch_OpBranch op =>
          let current := Atom id in
          let next_id : BlockId := OpBranch_target_label op in
          match BasicBlock_merge blk with
          | Some (GroupMerge_OpLoopMerge loop_merge) =>
              let head := id in
              let after : BlockId := OpLoopMerge_merge_block loop_merge in
              let hints := OpLoopMerge_loop_control loop_merge in
              let converge := Converge_Loop head after hints in
              let inner_fl := converge :: flow_list in
              let! (inner_chain, inner_next) := search_hashed fuel next_id inner_fl block_map in
              if cont_eqb inner_next (Cont_Next head) then
                let ctc := Loop id inner_chain hints None in
                let! (after_chain, after_next) := search_hashed fuel after flow_list block_map in
                Ok (block [ctc; after_chain], after_next)
              else Err (InvalidConvergePrediction ControlType_Loop id)
          | None =>
              let! (next_chain, next_next) := search_hashed fuel next_id flow_list block_map in
              Ok (block [current; next_chain], next_next)
          | Some (GroupMerge_OpSelectionMerge _) => Panic
          end
      | GroupBranch_OpBranchConditional op =>
          let true_block : BlockId := OpBranchConditional_true_label op in
          let false_block : BlockId := OpBranchConditional_false_label op in
          match BasicBlock_merge blk with
          | Some (GroupMerge_OpSelectionMerge selection) =>
              let merge : BlockId := OpSelectionMerge_merge_block selection in
              let hints := OpSelectionMerge_selection_control selection in
              let converge := Converge_If merge hints in
              let inner_fl := converge :: flow_list in
              let! (true_chain, true_next) := search_hashed fuel true_block inner_fl block_map in
              let! (false_chain, false_next) := search_hashed fuel false_block inner_fl block_map in
              if cont_eqb true_next false_next && cont_eqb true_next (Cont_Next merge) then
                let weights := OpBranchConditional_weights op in
                let ctc := Selection id true_chain false_chain hints weights in
                let! (next_chain, next_next) := search_hashed fuel merge flow_list block_map in
                Ok (block [ctc; next_chain], next_next)
              else Err (InvalidConvergePrediction ControlType_Selection id)
          | Some (GroupMerge_OpLoopMerge _) => Panic
          | None =>
              match innermost_loop flow_list with
              | None => Err (CouldNotPredictConverge id)
              | Some (head, merge) =>
                  let is_break := N.eqb false_block merge in
                  let is_continue := N.eqb false_block head in
                  if is_break || is_continue then
                    let! (inner_chain, inner_next) := search_hashed fuel true_block flow_list block_map in
                    if cont_eqb inner_next (Cont_Next head) then
                      let break_box := if is_break then Break else Continue in
                      let weights := OpBranchConditional_weights op in
                      Ok (Selection id inner_chain break_box SelectionControl_default weights, inner_next)
                    else Err (InvalidConvergePrediction ControlType_Loop id)
                  else Err (CouldNotPredictConverge id)
              end
          end
      | GroupBranch_OpReturn _ => Ok (Atom id, Cont_Return)
      end
    end
  end.

(* src/spv/logical/control_flow.rs:156-185.  [fuel] is the recursion depth allowed to
   search_hashed. *)
Definition find_control_flow_hashed (fuel : nat) (decl : FunctionDefinition E)
  : outcome ControlFlowError ControlFlowChain :=
  let! (start_opt, block_map) := build_table (FunctionDefinition_blocks decl) None table_new in
  match start_opt with
  | None => Err NoBlocks
  | Some start =>
      let! (chain, next) := search_hashed fuel start [] block_map in
      match next with
      | Cont_Return => Ok chain
      | _ => Err Failed
      end
  end.

End ControlFlowHash.
