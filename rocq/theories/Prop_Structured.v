(** Property theorems about the functions find_control_flow understands, C65 and C66.  The vocabulary of the
    statements is in Spec_Flow and Spec_Structured. *)
From Coq Require Import Permutation.
From Verif Require Import Base Types Ops Groups Glsl450 ControlFlow Spec_Flow Spec_Structured Samples Samples_Flow Proofs_Structured.

(** ** C65 *)
Theorem C65_exact_success : forall E (f : FunctionDefinition E) chain, returns f (Ok chain) <->
  NoDup (labels f) /\ exists program last merge, placed_program program last
    /\ incl (lower_program program last merge) (map skeleton (FunctionDefinition_blocks f))
    /\ entry f (first_of program last) /\ chain = program_chain program last.
Proof. intros E f chain. exact (structured_iff f chain). Qed.
Print Assumptions C65_exact_success.

(** loop_function as a program. *)
Definition loop_program : list statement :=
  [ Step 9; Repeat 10 13
      [ LeaveUnless 11 1 [ Choose 12 1 [Step 15] [Step 16] flatten None; Step 13 ] (Some (Build_BranchWeights 7 1)) ] unroll ]%N.
Example C65_example : placed_program loop_program 14%N /\ lower_program loop_program 14%N None = map skeleton loop_blocks
  /\ program_chain loop_program 14%N = loop_chain.
Proof.
  split; [|split; reflexivity]. cbv [placed_program loop_program each placed start first_of In].
  repeat split; try (intros H; repeat destruct H as [H|H]; first [discriminate H|exact H]); exists 14%N; reflexivity.
Qed.

(** ** C66 *)
Theorem C66_round_trip : forall E (f : FunctionDefinition E) program last merge,
  tail_last exits_last false program -> NoDup (flat_map blocks_of program ++ [last]) ->
  Permutation (map skeleton (FunctionDefinition_blocks f)) (lower_program program last merge) ->
  entry f (first_of program last) ->
  returns f (Ok (program_chain program last)).
Proof. intros E f program last merge. exact (structured_round_trip f program last merge). Qed.
Print Assumptions C66_round_trip.

Example C66_example : tail_last exits_last false loop_program /\ NoDup (flat_map blocks_of loop_program ++ [14%N])
  /\ Permutation (map skeleton (FunctionDefinition_blocks loop_function)) (lower_program loop_program 14%N None)
  /\ entry loop_function (first_of loop_program 14%N).
Proof.
  split; [cbn; tauto|]. split; [|split; [reflexivity|eexists _, _; split; reflexivity]].
  cbn. repeat constructor; cbn; intros H; repeat destruct H as [H|H]; first [discriminate H|exact H].
Qed.
