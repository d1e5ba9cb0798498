(** Property theorems about the extended instructions that validation owns, C120.  The vocabulary of the statements is in
    Spec_Layout, Spec_Copies, Spec_Calls ([extended_of]) and Spec_Owned; ValidateOwned models validation with the drops. *)
From Coq Require Import Permutation.
From Verif Require Import Base Types Ops Groups Validate ValidateState ValidateOwned Glsl450 Spec_Layout Spec_Copies Spec_Calls Spec_Owned
  Samples Proofs_Owned.

(** ** C120 *)
(** First the copies of C90 are made.  After that those that are not returned go, each once, and then the extended
    instructions of the module, each once and in order. *)
Theorem C120_each_once : forall E W (clone : E -> W -> option E * W) (drop : E -> W -> W) m w r w',
  validate_owned clone drop m w = (r, w') ->
  exists js w1 ds, w' = gone drop (ds ++ extended_of (RawModule_instructions m)) w1 /\
  match r with
  | Ok lm => copied clone w (RawModule_instructions m) js w1 /\ js = write_module lm /\ ds = []
  | Err e => copied clone w (examined m (Err e)) js w1 /\ Permutation ds (extended_of js)
  | Panic => exists before type result set x after w0, RawModule_instructions m = before ++ extended type result set x :: after
      /\ copied clone w before js w0 /\ clone x w0 = (None, w1) /\ Permutation ds (extended_of js)
  | OutOfFuel => False
  end.
Proof. exact @validation_drops. Qed.
Print Assumptions C120_each_once.

(** The drops have no influence on the result. *)
Theorem C120_result : forall E W (clone : E -> W -> option E * W) (drop : E -> W -> W) m w,
  fst (validate_owned clone drop m w) = fst (validate_in clone m w).
Proof. exact @owned_result. Qed.
Print Assumptions C120_result.

(* instructions are numbers; a copy has the next number, copies are marked true in the log and drops false; 13 cannot be copied *)
Definition copying (x : nat) (w : nat * list (bool * nat)) : option nat * (nat * list (bool * nat)) :=
  if x =? 13 then (None, w) else (Some (fst w), (S (fst w), snd w ++ [(true, fst w)])).
Definition dropping (x : nat) (w : nat * list (bool * nat)) : nat * list (bool * nat) := (fst w, snd w ++ [(false, x)]).
(* two functions, the first of two blocks *)
Definition four (last : nat) (tail : list (Core nat)) : RawModule nat := Build_RawModule (RawModule_version (module_of [])) (RawModule_generator (module_of [])) 15 (
  [ Core_OpMemoryModel (Build_OpMemoryModel AddressingModel_Logical MemoryModel_Glsl450);
    Core_OpFunction (Build_OpFunction 2 5 control0 3);
    Core_OpLabel (Build_OpLabel 6); extended 4 7 1 1%nat; Core_OpBranch (Build_OpBranch 8);
    Core_OpLabel (Build_OpLabel 8); extended 4 9 1 2%nat; Core_OpReturn Build_OpReturn;
    Core_OpFunctionEnd Build_OpFunctionEnd;
    Core_OpFunction (Build_OpFunction 2 10 control0 3);
    Core_OpLabel (Build_OpLabel 11); extended 4 12 1 3%nat; Core_OpBranch (Build_OpBranch 13);
    Core_OpLabel (Build_OpLabel 13); extended 4 14 1 last ] ++ tail)%N.
Definition run (last : nat) (tail : list (Core nat)) :=
  let (r, w) := validate_owned copying dropping (four last tail) (20, []) in
  (match r with Ok lm => Some (extended_of (write_module lm)) | _ => None end, snd w).

Example C120_example :
  (* the copies are returned *)
  run 4 [Core_OpReturn Build_OpReturn; Core_OpFunctionEnd Build_OpFunctionEnd]
  = (Some [20; 21; 22; 23], [(true, 20); (true, 21); (true, 22); (true, 23); (false, 1); (false, 2); (false, 3); (false, 4)])
  (* the last block has no branch: its copies go first, then those of its function, then the others *)
  /\ run 4 [Core_OpFunctionEnd Build_OpFunctionEnd]
  = (None, [(true, 20); (true, 21); (true, 22); (true, 23); (false, 23); (false, 22); (false, 20); (false, 21);
            (false, 1); (false, 2); (false, 3); (false, 4)])
  (* the end of the function is missing *)
  /\ run 4 [Core_OpReturn Build_OpReturn]
  = (None, [(true, 20); (true, 21); (true, 22); (true, 23); (false, 22); (false, 23); (false, 20); (false, 21);
            (false, 1); (false, 2); (false, 3); (false, 4)])
  (* the last instruction cannot be copied *)
  /\ run 13 [] = (None, [(true, 20); (true, 21); (true, 22); (false, 22); (false, 20); (false, 21);
            (false, 1); (false, 2); (false, 3); (false, 13)]).
Proof. repeat split; vm_compute; reflexivity. Qed.
