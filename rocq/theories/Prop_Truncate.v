(** C135: The first bytes of an accepted file. *)
From Verif Require Import Base Types Ops Groups ReadErr Reader ExtSet Validate Glsl450 Spec_Tables Spec_Wire Spec_Layout Spec_Cut Spec_Neighbours Spec_Truncate Samples Proofs_Truncate.

(** Cut anywhere, a file that is read and accepted is not read, with the error for the end of the file or for a cut within a word; or it is read as the start of its instructions. Then its
    last instruction says whether it is accepted or what the error is, and what it is accepted as is the start of each part. *)
Theorem C135_cut : forall E (known : list (ExtInstSet E)) data m lm k, read_module data known = Ok m -> validate m = Ok lm -> k < length data ->
  match read_module (firstn k data) known with
  | Err e => if Nat.eqb (k mod 4) 0 then e = UnexpectedEndOfStream else e = UnexpectedStreamAlignment
  | Ok m' => (exists rest, rest <> [] /\ RawModule_instructions m = RawModule_instructions m' ++ rest)
      /\ match verdict_at_end (RawModule_instructions m') with
         | Some e => validate m' = Err e
         | None => exists small, validate m' = Ok small /\ begins lm small
         end
  | _ => False
  end.
Proof. intros E. exact cut_file. Qed.
Print Assumptions C135_cut.

(** The same for the instructions. *)
Theorem C135_instructions : forall E (m : RawModule E) lm, validate m = Ok lm -> forall start rest, RawModule_instructions m = start ++ rest ->
  match verdict_at_end start with
  | Some e => validate (with_instructions m start) = Err e
  | None => exists small, validate (with_instructions m start) = Ok small /\ begins lm small
  end.
Proof. intros E. exact start_verdict. Qed.
Print Assumptions C135_instructions.

(** The number of places where the file can be cut such that it is still accepted, the end included, is one more than the number of entry points, execution modes, debug instructions,
    annotations, globals and functions. *)
Theorem C135_number : forall E (known : list (ExtInstSet E)) data m lm, read_module data known = Ok m -> validate m = Ok lm ->
  exists ks, NoDup ks /\ length ks = 1 + things_after_memory_model lm /\ forall k, In k ks <-> k <= length data /\ accepted_cut known data k.
Proof. intros E. exact count_cuts. Qed.
Print Assumptions C135_number.

(** The sample has 220 bytes; there are seven places where it can be cut. *)
Example C135_example : exists lm, read_module (sample_bytes BigEndian) [InstSet] = Ok sample /\ validate sample = Ok lm /\ things_after_memory_model lm = 6
  /\ map (fun n => verdict_at_end (firstn n (RawModule_instructions sample))) [2; 3; 9; 10; 12; 13; 14]
     = [Some MemoryModelMissing; None; Some (UnexpectedInstruction 8); Some (ExpectedBranch 10); Some (ExpectedBranch 12); Some (ExpectedOpFunctionEnd 13); None].
Proof. eexists. split; [apply sample_read|]. split; [vm_compute; reflexivity|]. split; vm_compute; reflexivity. Qed.
