(** How much memory an instruction should make the reader reserve in advance. *)
From Verif Require Import Base Types Ops Spec_Wire Spec_Size.
Local Open Scope N_scope.

Definition total (l : list N) : N := fold_right N.add 0 l.

(** Sixteen bytes for each string. *)
Definition strings (os : list operand) : list N := flat_map (fun o => match o with OStr _ => [16] | _ => [] end) os.

(** Four bytes for each member of the list an instruction ends with; sixteen for each pair of a
    phi, of which eight are used. *)
Definition rooms {A} (size : N) (l : list A) : list N := [size * N.of_nat (List.length l)].
Definition list_room {E} (i : Core E) : list N :=
  match i with
  | Core_OpEntryPoint op => rooms 4 (OpEntryPoint_interface op)
  | Core_OpTypeStruct op => rooms 4 (OpTypeStruct_member_types op)
  | Core_OpTypeFunction op => rooms 4 (OpTypeFunction_parameter_types op)
  | Core_OpConstant op => rooms 4 (OpConstant_value op)
  | Core_OpConstantComposite op => rooms 4 (OpConstantComposite_constituents op)
  | Core_OpAccessChain op => rooms 4 (OpAccessChain_indexes op)
  | Core_OpPhi op => rooms 16 (OpPhi_variables op)
  | _ => []
  end.

(** Room for the [wc] words the instruction says it has, then for its strings and its list. *)
Definition reserved {E} (i : Core E) (wc : N) : list N := 4 * wc :: strings (operands i) ++ list_room i.

(** The word count that goes with an instruction: the words it has; an instruction of one word may
    also say zero.  How many operands an extended instruction has is for its set to say. *)
Definition counts {E} (i : Core E) (wc : N) : Prop :=
  is_extended i /\ 5 <= wc
  \/ ~ is_extended i /\ (wc = N.of_nat (words_of i 0) \/ wc = 0 /\ words_of i 0 = 1%nat).
