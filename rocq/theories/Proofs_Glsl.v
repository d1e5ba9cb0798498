(** The built-in instruction set, read through [read_module] (C59). *)
From Coq Require Import ZArith ZifyBool ZifyNat ZifyN.
From Verif Require Import Base Types Ops ReadErr Utf8 ReadBase ReadOperands ExtSet ReadOps Reader Glsl450 Spec_Wire Spec_Opcodes
  Proofs_Utf8 Proofs_Operands Proofs_Composite Proofs_Ops Proofs_Instr Proofs_Stream Proofs_Errors Proofs_Reader Proofs_Encode Proofs_Next.
Local Open Scope N_scope.

(** Any set: the outcome is that of the set's reader. *)
Lemma next_ext : forall E o data known (m : RawModule E) (t r set number : N) (words : list N) rd, in_order o data -> read_module data known = Ok m ->
  imported known (RawModule_instructions m) set rd ->
  Forall word (t :: r :: set :: number :: words) -> 5 + N.of_nat (List.length words) < 65536 ->
  read_module (data ++ bytes_of_words o (instruction_words 12 (t :: r :: set :: number :: words))) known
    = match rd number words with
      | Ok ([], x) => Ok (with_instructions m (RawModule_instructions m ++ [Core_OpExtInst (Build_OpExtInst t r set x)]))
      | Ok (_ :: _, _) => Err InstructionHadExcessData
      | Err e => Err e
      | Panic => Panic
      | OutOfFuel => OutOfFuel
      end.
Proof.
  intros E o data known m t r set number words rd Ho H Hi Hw Hl.
  destruct (read_next_words _ _ _ _ Ho H) as (bound & Hb & Hx).
  specialize (Hx 12 (t :: r :: set :: number :: words) []). rewrite app_nil_r in Hx.
  rewrite Hx; [|reflexivity|exact Hw|cbn [List.length]; lia].
  unfold decode. change (dispatch 12 _) with (@Ok ReadError _ (@read_core_OpExtInst E)). cbn [bind].
  unfold read_core_OpExtInst. cbn [read_OpId read_ResultId read_u32 read_word bind].
  rewrite (bound_inv_get _ _ _ _ _ Hb Hi). destruct (rd number words) as [[[|w left] x]|e| |]; cbn [bind]; try reflexivity.
Qed.

Lemma glsl_reader : forall n words, duplicate InstSet n words =
  match n with
  | 13 => match words with x :: rest => Ok (rest, Inst_Sin (Build_Sin x)) | [] => Err UnexpectedEndOfInstruction end
  | 14 => match words with x :: rest => Ok (rest, Inst_Cos (Build_Cos x)) | [] => Err UnexpectedEndOfInstruction end
  | _ => Err (UnknownExtInstOp "GLSL.std.450" n)
  end.
Proof.
  intros n words. cbn [duplicate InstSet]. unfold glsl450_read_instruction.
  assert (D : n = 13 \/ n = 14 \/ (n <> 13 /\ n <> 14)) by lia. destruct D as [->|[->|[A B]]].
  - destruct words; reflexivity.
  - destruct words; reflexivity.
  - destruct n as [|p]; [reflexivity|]. do 4 (destruct p as [p|p|]; try reflexivity); try (exfalso; lia).
Qed.

Theorem glsl_exact : forall o data known m (t r set number : N) (words : list N), in_order o data -> read_module data known = Ok m ->
  set_named known "GLSL.std.450" (duplicate InstSet) ->
  In (Core_OpExtInstImport (Build_OpExtInstImport set "GLSL.std.450"%string)) (RawModule_instructions m) ->
  Forall word (t :: r :: set :: number :: words) -> 5 + N.of_nat (List.length words) < 65536 ->
  read_module (data ++ bytes_of_words o (instruction_words 12 (t :: r :: set :: number :: words))) known
    = if (number =? 13) || (number =? 14) then
        match words with
        | [] => Err UnexpectedEndOfInstruction
        | [x] => Ok (Build_RawModule (RawModule_version m) (RawModule_generator m) (RawModule_bound m)
                  (RawModule_instructions m
                   ++ [Core_OpExtInst (Build_OpExtInst t r set (if number =? 13 then Inst_Sin (Build_Sin x) else Inst_Cos (Build_Cos x)))]))
        | _ => Err InstructionHadExcessData
        end
      else Err (UnknownExtInstOp "GLSL.std.450" number).
Proof.
  intros o data known m t r set number words Ho H S I Hw Hl.
  rewrite (next_ext _ o data known m t r set number words _ Ho H (ex_intro _ _ (conj I S)) Hw Hl), glsl_reader.
  assert (D : number = 13 \/ number = 14 \/ (number <> 13 /\ number <> 14)) by lia. destruct D as [->|[->|[A B]]].
  - destruct words as [|x [|y words]]; reflexivity.
  - destruct words as [|x [|y words]]; reflexivity.
  - apply N.eqb_neq in A, B. rewrite A, B. cbn [orb]. apply N.eqb_neq in A, B.
    destruct number as [|p]; [reflexivity|]. do 4 (destruct p as [p|p|]; try reflexivity); try (exfalso; lia).
Qed.
