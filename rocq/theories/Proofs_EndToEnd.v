(** Lemmas for C79: from a structured program to bytes and back. *)
From Coq Require Import Permutation.
From Verif Require Import Base Types Ops ReadErr ReadBase ExtSet ReadOps Reader Groups Validate ControlFlow
  Spec_Tables Spec_Wire Spec_Layout Spec_Flow Spec_Structured Spec_Machine Proofs_Encode Proofs_Layout Proofs_Layout2 Proofs_Structured Proofs_Machine.

Lemma written_found : forall E (f : FunctionDefinition E) program last, written_from f program last -> returns f (Ok (program_chain program last)).
Proof. intros E f program last (T & N & (merge & P) & EN). exact (structured_round_trip f program last merge T N P EN). Qed.

Theorem end_to_end : forall E (known : list (ExtInstSet E)) o m payload lm programs,
  encodable known m payload -> RawModule_instructions m = write_module lm -> canonical lm ->
  Forall2 (fun f '(program, last) => written_from f program last) (LogicalModule_function_definitions lm) programs ->
  read_module (encode_module o m payload) known = Ok m
  /\ validate m = Ok lm
  /\ Forall2 (fun f '(program, last) => returns f (Ok (program_chain program last))) (LogicalModule_function_definitions lm) programs.
Proof.
  intros E known o m payload lm programs EN W C F. split; [apply read_encoded; exact EN|]. split; [apply validate_iff; auto|].
  clear W C. induction F as [|f [program last] fs ps H F IH]; constructor; [exact (written_found E f program last H)|exact IH].
Qed.

Theorem program_executes : forall E (m : RawModule E) pre f post program last, RawModule_instructions m = pre ++ write_definition f ++ post ->
  written_from f program last ->
  forall a, run (RawModule_instructions m) (length pre) a None <-> exists t, exec (program_chain program last) t Normal /\ performs f t a.
Proof.
  intros E m pre f post program last Q W a. destruct (written_found E f program last W) as (_ & depth & H). rewrite Q. exact (chain_complete E f depth _ H pre post a).
Qed.
