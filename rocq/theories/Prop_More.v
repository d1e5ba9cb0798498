(** Property theorems about the instructions that the crate can build, print and compare but does not decode, C76 and
    C77.  The vocabulary of the statements is in Spec_More, Spec_Text and Spec_Writer. *)
From Coq Require Import ZArith.
From Verif Require Import Base Types Ops MoreOps FmtBase DisplayBase DisplayOps Spec_Wire Spec_Names Spec_Text Spec_More Spec_Writer Proofs_More.
Local Open Scope string_scope.

(** ** C76 *)
Theorem C76_line : forall i, ~ composite_construct i -> more_result_fits i -> more_line i (disp_MoreOp i).
Proof. exact more_line_exact. Qed.
Print Assumptions C76_line.
(** The constituents of OpCompositeConstruct are ids, but they are printed as numbers. *)
Theorem C76_composite_construct : forall i, composite_construct i -> more_result_fits i ->
  more_line_with i (render [Id] (Some Number) (more_other_operands i)) (disp_MoreOp i).
Proof. exact composite_line. Qed.
Print Assumptions C76_composite_construct.
Theorem C76_composite_construct_refuted : exists i, more_result_fits i /\ ~ more_line i (disp_MoreOp i).
Proof. exact (ex_intro _ construct_sample construct_not_ids). Qed.
Print Assumptions C76_composite_construct_refuted.

Example C76_example : forall r, word r ->
  let i := More_OpConstantSampler (Build_OpConstantSampler 4 r SamplerAddressingMode_Repeat SamplerParam_Normalized SamplerFilterMode_Linear)%N in
  ~ composite_construct i /\ more_result_fits i
  /\ more_line i (disp_Result r ++ "OpConstantSampler %4 Repeat 1 Linear").
Proof.
  intros r W i. assert (C : ~ composite_construct i) by discriminate.
  assert (F : more_result_fits i) by (intros r' [= <-]; exact W).
  split; [exact C|]. split; [exact F|]. exact (C76_line i C F).
Qed.

(** ** C77 *)
Theorem C77_faithful : forall i j, more_result_fits i -> more_result_fits j -> disp_MoreOp i = disp_MoreOp j -> i = j.
Proof. exact more_inj. Qed.
Print Assumptions C77_faithful.
Theorem C77_distinct_from_decoded : forall E (ext_text : E -> string) (i : Core E) j,
  result_fits i -> more_result_fits j -> disp_Core ext_text i <> disp_MoreOp j.
Proof. exact more_not_core. Qed.
Print Assumptions C77_distinct_from_decoded.
Theorem C77_writer : forall i options, quiet options -> prints (fmt_MoreOp i options) (disp_MoreOp i).
Proof. exact prints_MoreOp. Qed.
Print Assumptions C77_writer.
Theorem C77_equality : forall i j, eq_MoreOp i j = true <-> i = j.
Proof. exact more_eq. Qed.
Print Assumptions C77_equality.

Example C77_example :
  let i := More_OpVectorShuffle (Build_OpVectorShuffle 3 12 5 6 [0; 1; 4])%N in
  let j := More_OpVectorShuffle (Build_OpVectorShuffle 3 12 6 5 [0; 1; 4])%N in
  more_result_fits i /\ more_result_fits j /\ eq_MoreOp i j = false /\ eq_MoreOp i i = true
  /\ disp_MoreOp i = "         %12 = OpVectorShuffle %3 %5 %6 0 1 4"
  /\ fmt_MoreOp i plain _ (bounded 20) "" = ("         %12 = OpVec", Fmt_Err)
  /\ result_fits (Core_OpLabel (E := unit) (Build_OpLabel 12%N)).
Proof. repeat split; try (intros r [= <-]; reflexivity). Qed.
