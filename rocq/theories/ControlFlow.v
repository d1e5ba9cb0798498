(** Structured control flow, src/spv/logical/control_flow.rs:1-414. *)
From Verif Require Import Base Types Ops Groups ExtSet.
Local Open Scope N_scope.

(* src/spv/logical/control_flow.rs:10-11.  Newtype of u32. *)
Definition BlockId := N.

(* src/spv/logical/control_flow.rs:19-31 *)
Inductive ControlFlowChain : Type :=
| Atom (id : BlockId)
| Block (l : list ControlFlowChain)
| Selection (id : BlockId) (lhs rhs : ControlFlowChain) (hint : SelectionControl) (weights : option BranchWeights)
| Loop (id : BlockId) (inner : ControlFlowChain) (hint : LoopControl) (weights : option BranchWeights)
| Break
| Continue.

(* src/spv/logical/control_flow.rs:54-67: the for loop that pulls nested blocks up *)
Fixpoint merge_chains (chains : list ControlFlowChain) (merged : list ControlFlowChain) : list ControlFlowChain :=
  match chains with
  | [] => merged
  | Block more :: chains => merge_chains chains (merged ++ more)
  | chain :: chains => merge_chains chains (merged ++ [chain])
  end.

(* src/spv/logical/control_flow.rs:41-71 *)
Definition block (chains : list ControlFlowChain) : ControlFlowChain :=
  match chains with
  | [] => Block []
  | [c] => c
  | _ => Block (merge_chains chains [])
  end.

(* src/spv/logical/control_flow.rs:136-140 *)
Inductive ControlType : Type := ControlType_Selection | ControlType_Loop.

(* src/spv/logical/control_flow.rs:142-150 *)
Inductive ControlFlowError : Type :=
| DuplicateBlockId (_ : BlockId)
| NoBlocks
| UnknownBlockId (_ : BlockId)
| CouldNotPredictConverge (_ : BlockId)
| InvalidConvergePrediction (_ : ControlType) (_ : BlockId)
| Failed.

(* src/spv/logical/control_flow.rs:187-192.  Named Cont_* to avoid the chain's Continue. *)
Inductive Cont : Type :=
| Cont_Next (_ : BlockId)
| Cont_Return.

(* derive(PartialEq) on src/spv/logical/control_flow.rs:188-192 *)
Definition cont_eqb (a b : Cont) : bool :=
  match a, b with
  | Cont_Next x, Cont_Next y => N.eqb x y
  | Cont_Return, Cont_Return => true
  | _, _ => false
  end.

(* src/spv/logical/control_flow.rs:194-199 *)
Inductive Converge : Type :=
| Converge_If (join : BlockId) (_ : SelectionControl)
| Converge_Loop (head merge : BlockId) (_ : LoopControl).

(* src/spv/logical/control_flow.rs:201-205, 234-237: a shared linked list of Converge,
   modelled as a list with the innermost construct first; extend (246-253) is cons. *)
Definition FlowList := list Converge.

(* src/spv/logical/control_flow.rs:208-221, 256-261 *)
Fixpoint merges (fl : FlowList) (id : BlockId) : bool :=
  match fl with
  | [] => false
  | Converge_If join _ :: ptr => if N.eqb join id then true else merges ptr id
  | Converge_Loop join _ _ :: ptr => if N.eqb join id then true else merges ptr id
  end.

(* src/spv/logical/control_flow.rs:223-231, 264-269 *)
Fixpoint innermost_loop (fl : FlowList) : option (BlockId * BlockId) :=
  match fl with
  | [] => None
  | Converge_Loop head merge _ :: _ => Some (head, merge)
  | Converge_If _ _ :: ptr => innermost_loop ptr
  end.

Section ControlFlow.
Context {E : Type}.

(* src/spv/logical/control_flow.rs:154: HashMap<BlockId, &BasicBlock> *)
Definition BlockMap := list (BlockId * BasicBlock E).

(* src/spv/logical/control_flow.rs:160-173 *)
Fixpoint build_map (blocks : list (BasicBlock E)) (start_opt : option BlockId) (map : BlockMap)
  : outcome ControlFlowError (option BlockId * BlockMap) :=
  match blocks with
  | [] => Ok (start_opt, map)
  | block :: blocks =>
      let id : BlockId := OpLabel_result_id (BasicBlock_label block) in
      let start_opt := match start_opt with None => Some id | Some s => Some s end in
      let (old, map) := map_insert id block map in
      match old with
      | Some _ => Err (DuplicateBlockId id)
      | None => build_map blocks start_opt map
      end
  end.

(* src/spv/logical/control_flow.rs:272-414.  [fuel] is the recursion depth allowed. *)
Fixpoint search_block (fuel : nat) (id : BlockId) (flow_list : FlowList) (block_map : BlockMap)
  : outcome ControlFlowError (ControlFlowChain * Cont) :=
  match fuel with
  | O => OutOfFuel
  | S fuel =>
    if merges flow_list id then Ok (block [], Cont_Next id) else
    match map_get id block_map with
    | None => Err (UnknownBlockId id)
    | Some blk =>
      match BasicBlock_branch blk with
      | GroupBranch_OpBranch op =>
          let current := Atom id in
          let next_id : BlockId := OpBranch_target_label op in
          match BasicBlock_merge blk with
          | Some (GroupMerge_OpLoopMerge loop_merge) =>
              let head := id in
              let after : BlockId := OpLoopMerge_merge_block loop_merge in
              let hints := OpLoopMerge_loop_control loop_merge in
              let converge := Converge_Loop head after hints in
              let inner_fl := converge :: flow_list in
              let! (inner_chain, inner_next) := search_block fuel next_id inner_fl block_map in
              if cont_eqb inner_next (Cont_Next head) then
                let ctc := Loop id inner_chain hints None in
                let! (after_chain, after_next) := search_block fuel after flow_list block_map in
                Ok (block [ctc; after_chain], after_next)
              else Err (InvalidConvergePrediction ControlType_Loop id)
          | None =>
              let! (next_chain, next_next) := search_block fuel next_id flow_list block_map in
              Ok (block [current; next_chain], next_next)
          | Some (GroupMerge_OpSelectionMerge _) => Panic
          end
      | GroupBranch_OpBranchConditional op =>
          let true_block : BlockId := OpBranchConditional_true_label op in
          let false_block : BlockId := OpBranchConditional_false_label op in
          match BasicBlock_merge blk with
          | Some (GroupMerge_OpSelectionMerge selection) =>
              let merge : BlockId := OpSelectionMerge_merge_block selection in
              let hints := OpSelectionMerge_selection_control selection in
              let converge := Converge_If merge hints in
              let inner_fl := converge :: flow_list in
              let! (true_chain, true_next) := search_block fuel true_block inner_fl block_map in
              let! (false_chain, false_next) := search_block fuel false_block inner_fl block_map in
              if cont_eqb true_next false_next && cont_eqb true_next (Cont_Next merge) then
                let weights := OpBranchConditional_weights op in
                let ctc := Selection id true_chain false_chain hints weights in
                let! (next_chain, next_next) := search_block fuel merge flow_list block_map in
                Ok (block [ctc; next_chain], next_next)
              else Err (InvalidConvergePrediction ControlType_Selection id)
          | Some (GroupMerge_OpLoopMerge _) => Panic
          | None =>
              match innermost_loop flow_list with
              | None => Err (CouldNotPredictConverge id)
              | Some (head, merge) =>
                  let is_break := N.eqb false_block merge in
                  let is_continue := N.eqb false_block head in
                  if is_break || is_continue then
                    let! (inner_chain, inner_next) := search_block fuel true_block flow_list block_map in
                    if cont_eqb inner_next (Cont_Next head) then
                      let break_box := if is_break then Break else Continue in
                      let weights := OpBranchConditional_weights op in
                      Ok (Selection id inner_chain break_box SelectionControl_default weights, inner_next)
                    else Err (InvalidConvergePrediction ControlType_Loop id)
                  else Err (CouldNotPredictConverge id)
              end
          end
      | GroupBranch_OpReturn _ => Ok (Atom id, Cont_Return)
      end
    end
  end.

(* src/spv/logical/control_flow.rs:156-185.  [fuel] is the recursion depth allowed to
   search_block. *)
Definition find_control_flow (fuel : nat) (decl : FunctionDefinition E)
  : outcome ControlFlowError ControlFlowChain :=
  let! (start_opt, block_map) := build_map (FunctionDefinition_blocks decl) None [] in
  match start_opt with
  | None => Err NoBlocks
  | Some start =>
      let! (chain, next) := search_block fuel start [] block_map in
      match next with
      | Cont_Return => Ok chain
      | _ => Err Failed
      end
  end.

End ControlFlow.
