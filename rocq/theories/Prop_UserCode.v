(** Property theorems about the user's code that runs when modules are copied and compared, C105 and C106.  The vocabulary of
    the statements is in Spec_Copies, Spec_Equality and Spec_UserCode. *)
From Verif Require Import Base Types Ops Groups Equality EqMore ModuleState Validate Glsl450 Spec_Layout Spec_Copies Spec_Equality Spec_UserCode Samples
  Proofs_UserCode Proofs_Compare.

(** ** C105 *)
(** Copying an instruction, a module or a function copies its extended instructions once each and in order; the rest is the
    same.  It panics exactly if one of these copies does, and makes none after that. *)
Theorem C105_instruction : forall E W (clone : E -> W -> option E * W) i w,
  (forall j w', clone_Core_in clone i w = (Some j, w') <-> copied clone w [i] [j] w')
  /\ (forall w', clone_Core_in clone i w = (None, w') <-> copying_panics clone w [i] w').
Proof. exact @clone_instruction. Qed.
Print Assumptions C105_instruction.

Theorem C105_raw_module : forall E W (clone : E -> W -> option E * W) m w,
  (forall m' w', clone_RawModule_in clone m w = (Some m', w')
     <-> same_header m m' /\ copied clone w (RawModule_instructions m) (RawModule_instructions m') w')
  /\ (forall w', clone_RawModule_in clone m w = (None, w') <-> copying_panics clone w (RawModule_instructions m) w').
Proof. exact @clone_raw_module. Qed.
Print Assumptions C105_raw_module.

Theorem C105_function : forall E W (clone : E -> W -> option E * W) f w,
  (forall f' w', clone_FunctionDefinition_in clone f w = (Some f', w')
     <-> same_function f f' /\ copied clone w (function_code f) (function_code f') w')
  /\ (forall w', clone_FunctionDefinition_in clone f w = (None, w') <-> copying_panics clone w (function_code f) w').
Proof. exact @clone_function. Qed.
Print Assumptions C105_function.

Theorem C105_logical_module : forall E W (clone : E -> W -> option E * W) lm w,
  (forall lm' w', clone_LogicalModule_in clone lm w = (Some lm', w')
     <-> same_module lm lm' /\ copied clone w (module_code lm) (module_code lm') w')
  /\ (forall w', clone_LogicalModule_in clone lm w = (None, w') <-> copying_panics clone w (module_code lm) w').
Proof. exact @clone_logical_module. Qed.
Print Assumptions C105_logical_module.

(** If copies of extended instructions are what they copy, so are copies of everything else. *)
Theorem C105_faithful_copies : forall E W (clone : E -> W -> option E * W), (forall x w, fst (clone x w) = Some x) ->
  (forall i w, fst (clone_Core_in clone i w) = Some i) /\ (forall m w, fst (clone_RawModule_in clone m w) = Some m)
  /\ (forall f w, fst (clone_FunctionDefinition_in clone f w) = Some f) /\ (forall lm w, fst (clone_LogicalModule_in clone lm w) = Some lm).
Proof. exact @clone_faithful. Qed.
Print Assumptions C105_faithful_copies.

(** Two extended instructions in one block, one in another. *)
Definition trig (angle : N) : RawModule Inst := module_of
  [ Core_OpMemoryModel (Build_OpMemoryModel AddressingModel_Logical MemoryModel_Glsl450);
    Core_OpFunction (Build_OpFunction 2 5 control0 3);
    Core_OpLabel (Build_OpLabel 6);
    extended 4 7 1 (Inst_Sin (Build_Sin 20));
    Core_OpNop Build_OpNop;
    extended 4 8 1 (Inst_Cos (Build_Cos angle));
    Core_OpBranch (Build_OpBranch 9);
    Core_OpLabel (Build_OpLabel 9);
    extended 4 10 1 (Inst_Sin (Build_Sin 8));
    Core_OpReturn Build_OpReturn; Core_OpFunctionEnd Build_OpFunctionEnd ]%N.
Definition trig_logical (angle : N) : LogicalModule Inst :=
  match validate (trig angle) with Ok lm => lm | _ => Build_LogicalModule [] [] [] (Build_OpMemoryModel AddressingModel_Logical MemoryModel_Glsl450) [] [] [] [] [] [] [] end.
(* a clone that writes down what it copies; one that panics on a cosine; one that turns every instruction into a sine of 9 *)
Definition noting (x : Inst) (w : list Inst) : option Inst * list Inst := (Some x, w ++ [x]).
Definition fragile (x : Inst) (w : list Inst) : option Inst * list Inst :=
  match x with Inst_Sin _ => (Some x, w ++ [x]) | Inst_Cos _ => (None, w) end.
Definition forger (x : Inst) (w : list Inst) : option Inst * list Inst := (Some (Inst_Sin (Build_Sin 9%N)), w ++ [x]).

Example C105_example :
  clone_RawModule_in noting (trig 7) [] = (Some (trig 7), [Inst_Sin (Build_Sin 20%N); Inst_Cos (Build_Cos 7%N); Inst_Sin (Build_Sin 8%N)])
  /\ clone_LogicalModule_in noting (trig_logical 7) []
     = (Some (trig_logical 7), [Inst_Sin (Build_Sin 20%N); Inst_Cos (Build_Cos 7%N); Inst_Sin (Build_Sin 8%N)])
  (* the second copy panics, there is no third one *)
  /\ clone_RawModule_in fragile (trig 7) [] = (None, [Inst_Sin (Build_Sin 20%N)])
  /\ copying_panics fragile [] (module_code (trig_logical 7)) [Inst_Sin (Build_Sin 20%N)]
  (* copies that differ from the original end up in the result *)
  /\ (exists m w, clone_RawModule_in forger (trig 7) [] = (Some m, w) /\ m <> trig 7 /\ same_header (trig 7) m
        /\ copied forger [] (RawModule_instructions (trig 7)) (RawModule_instructions m) w)
  /\ (forall x w, fst (noting x w) = Some x).
Proof.
  split; [vm_compute; reflexivity|]. split; [vm_compute; reflexivity|]. split; [vm_compute; reflexivity|]. split; [|split; [|reflexivity]].
  - apply (proj2 (C105_logical_module _ _ fragile (trig_logical 7) [])). vm_compute. reflexivity.
  - assert (exists m w, clone_RawModule_in forger (trig 7) [] = (Some m, w) /\ m <> trig 7) as (m & w & C & D)
      by (do 2 eexists; split; [vm_compute; reflexivity|vm_compute; discriminate]).
    exists m, w. split; [exact C|]. split; [exact D|]. apply (proj1 (C105_raw_module _ _ forger (trig 7) [])). exact C.
Qed.

(** ** C106 *)
(** Comparing asks the questions of [about_...] in order until one is answered with no: parts of the data are compared, and the
    user's eq is called for pairs of extended instructions that are reached and have the same type and ids. *)
Theorem C106_exact : forall E W (eq : E -> E -> W -> option bool * W),
  (forall a b w r w', eq_Core_in eq a b w = (r, w') <-> answers eq w (about_instructions a b) r w')
  /\ (forall a b w r w', eq_RawModule_in eq a b w = (r, w') <-> answers eq w (about_raw_modules a b) r w')
  /\ (forall a b w r w', eq_FunctionDefinition_in eq a b w = (r, w') <-> answers eq w (about_functions a b) r w')
  /\ (forall a b w r w', eq_LogicalModule_in eq a b w = (r, w') <-> answers eq w (about_modules a b) r w').
Proof. exact @compare_exact. Qed.
Print Assumptions C106_exact.

(** Whatever happens, the first extended instructions of both sides were compared, then the second ones, and so on: each at most
    once, and none after the user's eq said no or panicked. *)
Theorem C106_calls : forall E W (eq : E -> E -> W -> option bool * W),
  (forall a b w r w', eq_RawModule_in eq a b w = (r, w') -> exists ps rest last,
     combine (payloads (RawModule_instructions a)) (payloads (RawModule_instructions b)) = ps ++ rest
     /\ called eq w ps last w' /\ (r = last \/ last = Some true /\ r = Some false) /\ (r = Some true -> rest = []))
  /\ (forall f g w r w', eq_FunctionDefinition_in eq f g w = (r, w') -> exists ps rest last,
     combine (payloads (function_code f)) (payloads (function_code g)) = ps ++ rest
     /\ called eq w ps last w' /\ (r = last \/ last = Some true /\ r = Some false) /\ (r = Some true -> rest = []))
  /\ (forall a b w r w', eq_LogicalModule_in eq a b w = (r, w') -> exists ps rest last,
     combine (payloads (module_code a)) (payloads (module_code b)) = ps ++ rest
     /\ called eq w ps last w' /\ (r = last \/ last = Some true /\ r = Some false) /\ (r = Some true -> rest = [])).
Proof. exact @compare_calls. Qed.
Print Assumptions C106_calls.

(** Two values are equal exactly if they differ only in the payloads of extended instructions and the user's eq, called for all of
    these in order, says yes each time. *)
Theorem C106_equal : forall E W (eq : E -> E -> W -> option bool * W),
  (forall a b w w', eq_RawModule_in eq a b w = (Some true, w') <-> same_header a b /\ same_instructions (fun _ _ => True) a b
     /\ called eq w (combine (payloads (RawModule_instructions a)) (payloads (RawModule_instructions b))) (Some true) w')
  /\ (forall f g w w', eq_FunctionDefinition_in eq f g w = (Some true, w') <->
     same_function f g /\ Forall2 (alike (fun _ _ => True)) (function_code f) (function_code g)
     /\ called eq w (combine (payloads (function_code f)) (payloads (function_code g))) (Some true) w')
  /\ (forall a b w w', eq_LogicalModule_in eq a b w = (Some true, w') <->
     same_module a b /\ Forall2 (alike (fun _ _ => True)) (module_code a) (module_code b)
     /\ called eq w (combine (payloads (module_code a)) (payloads (module_code b))) (Some true) w').
Proof. exact @compare_equal. Qed.
Print Assumptions C106_equal.

(** With an eq that has no side effects, all the other theorems about equality apply. *)
Theorem C106_without_side_effects : forall E W (f : E -> E -> bool),
  let eq := fun x y (w : W) => (Some (f x y), w) in
  (forall a b w, eq_RawModule_in eq a b w = (Some (eq_RawModule f a b), w))
  /\ (forall a b w, eq_FunctionDefinition_in eq a b w = (Some (eq_FunctionDefinition f a b), w))
  /\ (forall a b w, eq_LogicalModule_in eq a b w = (Some (eq_LogicalModule f a b), w))
  /\ (forall a b w, eq_Core_in eq a b w = (Some (eq_Core f a b), w)).
Proof. exact @compare_pure. Qed.
Print Assumptions C106_without_side_effects.

(* an eq that writes down what it compares; one that panics on cosines *)
Definition witness (x y : Inst) (w : list (Inst * Inst)) : option bool * list (Inst * Inst) := (Some (eq_Inst x y), w ++ [(x, y)]).
Definition nervous (x y : Inst) (w : list (Inst * Inst)) : option bool * list (Inst * Inst) :=
  match x with Inst_Cos _ => (None, w) | _ => witness x y w end.
(* the same module with another bound, and without its last instruction *)
Definition other_bound : RawModule Inst := Build_RawModule (RawModule_version (trig 7)) (RawModule_generator (trig 7)) 77%N (RawModule_instructions (trig 7)).
Definition shorter : RawModule Inst := Build_RawModule (RawModule_version (trig 7)) (RawModule_generator (trig 7)) (RawModule_bound (trig 7)) (removelast (RawModule_instructions (trig 7))).

Example C106_example :
  let sin20 := Inst_Sin (Build_Sin 20%N) in let sin8 := Inst_Sin (Build_Sin 8%N) in let cos n := Inst_Cos (Build_Cos n) in
  eq_RawModule_in witness (trig 7) (trig 7) [] = (Some true, [(sin20, sin20); (cos 7%N, cos 7%N); (sin8, sin8)])
  /\ called witness [] (combine (payloads (module_code (trig_logical 7))) (payloads (module_code (trig_logical 7)))) (Some true)
       [(sin20, sin20); (cos 7%N, cos 7%N); (sin8, sin8)]
  (* the first difference ends the comparison *)
  /\ eq_LogicalModule_in witness (trig_logical 7) (trig_logical 5) [] = (Some false, [(sin20, sin20); (cos 7%N, cos 5%N)])
  /\ answers witness [] (about_modules (trig_logical 7) (trig_logical 5)) (Some false) [(sin20, sin20); (cos 7%N, cos 5%N)]
  (* so does a panic *)
  /\ eq_RawModule_in nervous (trig 7) (trig 7) [] = (None, [(sin20, sin20)])
  (* different headers or lengths: the user is not asked at all *)
  /\ eq_RawModule_in witness (trig 7) other_bound [] = (Some false, [])
  /\ eq_RawModule_in witness (trig 7) shorter [] = (Some false, []).
Proof.
  cbv zeta. split; [vm_compute; reflexivity|]. split; [|split; [vm_compute; reflexivity|split; [|split; [vm_compute; reflexivity|split; vm_compute; reflexivity]]]].
  - assert (eq_LogicalModule_in witness (trig_logical 7) (trig_logical 7) []
      = (Some true, [(Inst_Sin (Build_Sin 20%N), Inst_Sin (Build_Sin 20%N)); (Inst_Cos (Build_Cos 7%N), Inst_Cos (Build_Cos 7%N));
                     (Inst_Sin (Build_Sin 8%N), Inst_Sin (Build_Sin 8%N))])) as C by (vm_compute; reflexivity).
    apply (proj2 (proj2 (C106_equal _ _ witness))) in C. apply C.
  - apply (proj2 (proj2 (proj2 (C106_exact _ _ witness)))). vm_compute. reflexivity.
Qed.
