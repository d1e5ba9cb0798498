(** Property theorems about the memory the reader reserves before it has read what it is for, C101.
    The vocabulary of the statements is in Spec_Alloc. *)
From Verif Require Import Base Types Ops ReadErr ExtSet Reader ReadAlloc Spec_Wire Spec_Size Spec_Alloc Samples Glsl450 Proofs_Alloc.
Local Open Scope N_scope.

(** ** C101 *)
(** Whatever the bytes, accepted or not, all the reservations together are at most three times the input
    and the room of one instruction of 65535 words; an input with no word after the header has none. *)
Theorem C101_bound : forall E (known : list (ExtInstSet E)) data,
  total (module_requests data known) <= 3 * N.of_nat (List.length data) + 262068
  /\ (N.of_nat (List.length data) < 24 -> module_requests data known = []).
Proof. exact @module_bound. Qed.
Print Assumptions C101_bound.

(** For arbitrarily long inputs it is no less: 24 bytes can make the reader reserve 262140. *)
Theorem C101_bound_met : forall E (known : list (ExtInstSet E)) n, exists data,
  N.of_nat (List.length data) = 24 + 8 * N.of_nat n
  /\ total (module_requests data known) = 3 * N.of_nat (List.length data) + 262068.
Proof. exact @bound_met. Qed.
Print Assumptions C101_bound_met.

(** For an accepted input the reservations are, instruction by instruction, four bytes for each word it says it has,
    sixteen for each of its strings, and the room of the list it ends with; at most three times the input. *)
Theorem C101_exact : forall E (known : list (ExtInstSet E)) data m, read_module data known = Ok m ->
  exists wcs, List.length wcs = List.length (RawModule_instructions m)
    /\ N.of_nat (List.length data) = 20 + 4 * total (map (N.max 1) wcs)
    /\ Forall (fun p => counts (fst p) (snd p)) (combine (RawModule_instructions m) wcs)
    /\ module_requests data known = flat_map (fun p => reserved (fst p) (snd p)) (combine (RawModule_instructions m) wcs)
    /\ total (module_requests data known) <= 3 * (N.of_nat (List.length data) - 20).
Proof. exact @module_exact. Qed.
Print Assumptions C101_exact.

(** Three times is reached by accepted inputs of any number of instructions. *)
Theorem C101_exact_met : forall E (known : list (ExtInstSet E)) n, exists data m,
  read_module data known = Ok m /\ List.length (RawModule_instructions m) = n
  /\ N.of_nat (List.length data) = 20 + 8 * N.of_nat n
  /\ total (module_requests data known) = 3 * (N.of_nat (List.length data) - 20).
Proof. exact @accepted_met. Qed.
Print Assumptions C101_exact_met.

(** The sample of 220 bytes has strings, lists and an extended instruction. *)
Example C101_example : forall o, read_module (sample_bytes o) [InstSet] = Ok sample
  /\ N.of_nat (List.length (sample_bytes o)) = 220
  /\ module_requests (sample_bytes o) [InstSet] = [8; 24; 16; 12; 28; 16; 8; 16; 8; 12; 0; 12; 20; 8; 20; 24; 4; 4]
  /\ total (module_requests (sample_bytes o) [InstSet]) = 240.
Proof. intro o. split; [apply sample_read|]. repeat split; destruct o; vm_compute; reflexivity. Qed.
(** An entry point has room for its words, its name and its interface; a phi with two arguments for four. *)
Example C101_example_rooms :
  @reserved Inst (Core_OpEntryPoint (Build_OpEntryPoint ExecutionModel_Fragment 5 "main"%string [9; 10])) 7 = [28; 16; 8]
  /\ @reserved Inst (Core_OpPhi (Build_OpPhi 1 2 [Build_PhiArg 3 4; Build_PhiArg 5 6])) 7 = [28; 32]
  /\ @reserved Inst (Core_OpDecorate (Build_OpDecorate 1 (Decoration_LinkageAttributes "f"%string LinkageType_Export))) 5 = [20; 16].
Proof. repeat split. Qed.
