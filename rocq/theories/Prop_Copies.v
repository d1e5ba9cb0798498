(** Property theorems about the copies validation makes of the user's extended instructions, C90.  The vocabulary of the
    statements is in Spec_Copies and Spec_Layout. *)
From Verif Require Import Base Types Ops Groups Validate ValidateState Glsl450 Spec_Layout Spec_Copies Samples Proofs_Copies.

(** ** C90 *)
(** Validation copies each extended instruction it gets to once, in the order of the module, and nothing else of the user's
    code runs.  Its result is the one it has on the module with the copies in place; a copy that panics ends it. *)
Theorem C90_copied_once_in_order : forall E W (clone : E -> W -> option E * W) m w r w',
  validate_in clone m w = (r, w') <->
  (exists js, copied clone w (examined m (validate m)) js w'
     /\ r = validate (with_instructions m (js ++ skipn (length js) (RawModule_instructions m))))
  \/ (copying_panics clone w (examined m (validate m)) w' /\ r = Panic).
Proof. exact @validate_copies. Qed.
Print Assumptions C90_copied_once_in_order.

(** Neither the verdict nor the error depends on the copies. *)
Theorem C90_verdict : forall E W (clone : E -> W -> option E * W) m w r w', validate_in clone m w = (r, w') ->
  match r with
  | Ok _ => exists lm, validate m = Ok lm
  | Err e => validate m = Err e
  | Panic => copying_panics clone w (examined m (validate m)) w'
  | OutOfFuel => False
  end.
Proof. exact @verdict_without_copies. Qed.
Print Assumptions C90_verdict.

(** The accepted module written out again is the module with its extended instructions copied. *)
Theorem C90_accepted : forall E W (clone : E -> W -> option E * W) m w lm w', validate_in clone m w = (Ok lm, w') <->
  copied clone w (RawModule_instructions m) (write_module lm) w' /\ canonical lm.
Proof. exact @accepted_copies. Qed.
Print Assumptions C90_accepted.

(** With copies that are what they copy, all the other theorems about [validate] apply. *)
Theorem C90_faithful_copies : forall E W (clone : E -> W -> option E * W), (forall x w, fst (clone x w) = Some x) ->
  forall m w, fst (validate_in clone m w) = validate m.
Proof. exact @faithful_copies. Qed.
Print Assumptions C90_faithful_copies.

(** Two extended instructions in one block. *)
Definition twice (tail : list (Core Inst)) : RawModule Inst := module_of (
  [ Core_OpMemoryModel (Build_OpMemoryModel AddressingModel_Logical MemoryModel_Glsl450);
    Core_OpFunction (Build_OpFunction 2 5 control0 3);
    Core_OpLabel (Build_OpLabel 6);
    extended 4 7 1 (Inst_Sin (Build_Sin 20));
    Core_OpNop Build_OpNop;
    extended 4 8 1 (Inst_Cos (Build_Cos 7)) ] ++ tail)%N.
Definition ending : list (Core Inst) := [ Core_OpReturn Build_OpReturn; Core_OpFunctionEnd Build_OpFunctionEnd ].
(* a copy that writes down what it copies, one that panics on a cosine and one that turns every instruction into a sine of 9 *)
Definition noting (x : Inst) (w : list Inst) : option Inst * list Inst := (Some x, w ++ [x]).
Definition fragile (x : Inst) (w : list Inst) : option Inst * list Inst :=
  match x with Inst_Sin _ => (Some x, w ++ [x]) | Inst_Cos _ => (None, w) end.
Definition forger (x : Inst) (w : list Inst) : option Inst * list Inst := (Some (Inst_Sin (Build_Sin 9%N)), w ++ [x]).

Example C90_example :
  (exists lm, validate_in noting (twice ending) [] = (Ok lm, [Inst_Sin (Build_Sin 20%N); Inst_Cos (Build_Cos 7%N)])
     /\ validate (twice ending) = Ok lm)
  (* a wrong instruction after the second one: both were copied *)
  /\ (exists e, validate_in noting (twice [Core_OpFunctionEnd Build_OpFunctionEnd]) []
        = (Err e, [Inst_Sin (Build_Sin 20%N); Inst_Cos (Build_Cos 7%N)]) /\ error_index e = Some 6)
  (* a panic after the first copy *)
  /\ validate_in fragile (twice ending) [] = (Panic, [Inst_Sin (Build_Sin 20%N)])
  /\ copying_panics fragile [] (examined (twice ending) (validate (twice ending))) [Inst_Sin (Build_Sin 20%N)]
  (* copies that differ from the original end up in the result *)
  /\ (exists lm w, validate_in forger (twice ending) [] = (Ok lm, w) /\ validate (twice ending) <> Ok lm)
  /\ (forall x w, fst (noting x w) = Some x).
Proof.
  split; [eexists; split; vm_compute; reflexivity|].
  split; [eexists; split; vm_compute; reflexivity|].
  split; [vm_compute; reflexivity|].
  split; [|split; [do 2 eexists; split; [vm_compute; reflexivity|vm_compute; discriminate]|reflexivity]].
  assert (validate_in fragile (twice ending) [] = (Panic, [Inst_Sin (Build_Sin 20%N)])) as V by (vm_compute; reflexivity).
  exact (C90_verdict _ _ _ _ _ _ _ V).
Qed.
