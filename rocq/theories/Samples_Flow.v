(** Functions used by the examples beside the theorems about control flow. *)
From Verif Require Import Base Types Ops ReadErr ReadBase ExtSet ReadOps Reader Glsl450 Groups ControlFlow Samples.
Local Open Scope N_scope.

(** A function with a loop that is left from its first block, and a selection in the loop. *)
Definition simple_block (id : N) (merge : option GroupMerge) (branch : GroupBranch) : BasicBlock Inst :=
  Build_BasicBlock (Build_OpLabel id) [] merge branch.
Definition branch_to (id : N) : GroupBranch := GroupBranch_OpBranch (Build_OpBranch id).
Definition branch_on (t e : N) (w : option BranchWeights) : GroupBranch := GroupBranch_OpBranchConditional (Build_OpBranchConditional 1 t e w).
Definition unroll : LoopControl := Build_LoopControl true false false None.
Definition flatten : SelectionControl := Build_SelectionControl true false.
Definition function_of (blocks : list (BasicBlock Inst)) : FunctionDefinition Inst :=
  Build_FunctionDefinition (Build_OpFunction 1 4 control0 5) [] blocks.
Definition loop_blocks : list (BasicBlock Inst) :=
  [ simple_block 9 None (branch_to 10);
    simple_block 10 (Some (GroupMerge_OpLoopMerge (Build_OpLoopMerge 14 13 unroll))) (branch_to 11);
    simple_block 11 None (branch_on 12 14 (Some (Build_BranchWeights 7 1)));
    simple_block 12 (Some (GroupMerge_OpSelectionMerge (Build_OpSelectionMerge 13 flatten))) (branch_on 15 16 None);
    simple_block 15 None (branch_to 13);
    simple_block 16 None (branch_to 13);
    simple_block 13 None (branch_to 10);
    simple_block 14 None (GroupBranch_OpReturn Build_OpReturn) ].
Definition loop_function : FunctionDefinition Inst := function_of loop_blocks.
Definition loop_chain : ControlFlowChain :=
  Block [ Atom 9;
          Loop 10
            (Selection 11
               (Block [Selection 12 (Block [Atom 15]) (Block [Atom 16]) flatten None; Atom 13])
               Break (Build_SelectionControl false false) (Some (Build_BranchWeights 7 1)))
            unroll None;
          Atom 14 ].

(** A loop that is never left. *)
Definition endless_function : FunctionDefinition Inst := function_of
  [ simple_block 1 (Some (GroupMerge_OpLoopMerge (Build_OpLoopMerge 2 1 unroll))) (branch_to 1);
    simple_block 2 None (GroupBranch_OpReturn Build_OpReturn) ].

