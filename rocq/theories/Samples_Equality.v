(** Samples for the equality theorems: modules whose extended instructions are numbers, compared up to parity. *)
From Verif Require Import Base Types Ops Groups Glsl450 EqBase EqMore Samples.

Local Open Scope N_scope.

Definition same_parity (x y : N) : bool := Bool.eqb (N.odd x) (N.odd y).
Definition parity_text (x : N) : string := if N.odd x then "odd"%string else "even"%string.

Definition calling {E} (x : E) : BasicBlock E :=
  Build_BasicBlock (Build_OpLabel 10) [GroupCode_OpExtInst (Build_OpExtInst 1 11 2 x)] None (GroupBranch_OpReturn Build_OpReturn).
Definition caller {E} (x : E) : FunctionDefinition E := Build_FunctionDefinition (Build_OpFunction 1 4 control0 5) [] [calling x].

Definition called {E} (version : N) (x : E) : RawModule E :=
  Build_RawModule (Build_Version 1 version) (Build_Generator Tool_Valve 1) 21
    [ Core_OpMemoryModel (Build_OpMemoryModel AddressingModel_Logical MemoryModel_Glsl450);
      Core_OpFunction (Build_OpFunction 1 4 control0 5);
      Core_OpLabel (Build_OpLabel 10);
      Core_OpExtInst (Build_OpExtInst 1 11 2 x);
      Core_OpReturn Build_OpReturn;
      Core_OpFunctionEnd Build_OpFunctionEnd ].

(** A user's instruction type whose equality claims everything, and one compared properly. *)
Definition claims_all : bool -> AnyInst (F := bool) -> bool := fun _ _ => true.
Definition compares : bool -> AnyInst (F := bool) -> bool := fun u x => match x with inl _ => false | inr v => Bool.eqb u v end.
Definition not_glsl : bool -> option Inst := fun _ => None.
