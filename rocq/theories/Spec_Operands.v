(** SPECIFICATION: what it means for an operand reader to decode an enumeration or a mask.
    A reader takes the remaining operand words of an instruction and returns the words it
    left over together with the decoded value, or an error. *)
From Verif Require Import Base Types Ops ReadErr Spec_Tables Spec_Wire.
Local Open Scope N_scope.

(** Exactly the numbered variants are decoded, from exactly one word; every other word is
    reported by [unknown], which carries that word; no word at all is the end of the
    instruction. *)
Definition decodes {A} (read : list N -> outcome ReadError (list N * A)) (number : A -> N) (unknown : N -> ReadError) : Prop :=
  (forall a rest, read (number a :: rest) = Ok (rest, a))
  /\ (forall w rest, (forall a, number a <> w) -> read (w :: rest) = Err (unknown w))
  /\ (forall a b, number a = number b -> a = b)
  /\ read [] = Err UnexpectedEndOfInstruction.

(** The same for variants that carry operands of their own. *)
Definition decodes_with {A} (read : list N -> outcome ReadError (list N * A)) (number : A -> N)
    (operands : A -> list operand) (unknown : N -> ReadError) : Prop :=
  (forall ws rest a, Forall word ws ->
     (read ws = Ok (rest, a) <-> exists pre, ws = pre ++ rest /\ wire_operands (operands a) pre))
  /\ (forall a, exists more, operands a = OWord (number a) :: more)
  /\ (forall w rest, (forall a, number a <> w) -> read (w :: rest) = Err (unknown w))
  /\ read [] = Err UnexpectedEndOfInstruction.

(** A single mask word of which the bits in [reserved] must be zero. *)
Definition decodes_mask {A} (read : list N -> outcome ReadError (list N * A)) (reserved : N) (flags : N -> A)
    (unknown : N -> ReadError) : Prop :=
  (forall w rest, N.land w reserved = 0 -> read (w :: rest) = Ok (rest, flags w))
  /\ (forall w rest, N.land w reserved <> 0 -> read (w :: rest) = Err (unknown w))
  /\ read [] = Err UnexpectedEndOfInstruction.

(** The documented bits of the masks (SPIR-V 3.24, 3.26, 3.15, 3.23, 3.22). *)
Definition memory_access_of (w : N) : MemoryAccess :=
  {| MemoryAccess_volatile := N.testbit w 0; MemoryAccess_aligned := N.testbit w 1; MemoryAccess_non_temporal := N.testbit w 2 |}.
Definition function_control_of (w : N) : FunctionControl :=
  {| FunctionControl_inline := N.testbit w 0; FunctionControl_dont_inline := N.testbit w 1;
     FunctionControl_pure_function := N.testbit w 2; FunctionControl_const_function := N.testbit w 3 |}.
Definition fp_fast_math_of (w : N) : FpFastMathMode :=
  {| FpFastMathMode_not_nan := N.testbit w 0; FpFastMathMode_not_inf := N.testbit w 1; FpFastMathMode_nsz := N.testbit w 2;
     FpFastMathMode_allow_recip := N.testbit w 3; FpFastMathMode_fast := N.testbit w 4 |}.
Definition selection_control_of (w : N) : SelectionControl :=
  {| SelectionControl_flatten := N.testbit w 0; SelectionControl_dont_flatten := N.testbit w 1 |}.
Definition loop_control_of (w : N) (length : option N) : LoopControl :=
  {| LoopControl_unroll := N.testbit w 0; LoopControl_dont_unroll := N.testbit w 1;
     LoopControl_dependency_infinite := N.testbit w 2; LoopControl_dependency_length := length |}.

(** The imports of an instruction list, in order. *)
Definition imports_of {E} (is : list (Core E)) : list OpExtInstImport :=
  flat_map (fun i => match i with Core_OpExtInstImport op => [op] | _ => [] end) is.

(** Operand words that SPIR-V does not assign, and masks with a checked reserved bit, where
    they occur: [bad_operand opcode operands error] says that the instruction with that opcode
    and those operand words must be rejected with that error. *)
Inductive bad_operand : N -> list N -> ReadError -> Prop :=
| bad_addressing : forall w ws, (forall a, addressing_model_number a <> w) ->
    bad_operand 14 (w :: ws) (UnknownAddressingModel w)
| bad_memory_model : forall a w ws, (forall x, memory_model_number x <> w) ->
    bad_operand 14 (addressing_model_number a :: w :: ws) (UnknownMemoryModel w)
| bad_execution_model : forall w ws, (forall x, execution_model_number x <> w) ->
    bad_operand 15 (w :: ws) (UnknownExecutionModel w)
| bad_execution_mode : forall entry w ws, (forall x, execution_mode_number x <> w) ->
    bad_operand 16 (entry :: w :: ws) (UnknownExecutionMode w)
| bad_capability : forall w ws, (forall x, capability_number x <> w) ->
    bad_operand 17 (w :: ws) (UnknownCapability w)
| bad_signedness : forall r width w ws, (forall x, signedness_number x <> w) ->
    bad_operand 21 (r :: width :: w :: ws) (UnknownSignedness w)
| bad_dim : forall r t w ws, (forall x, dim_number x <> w) ->
    bad_operand 25 (r :: t :: w :: ws) (UnknownDim w)
| bad_depth : forall r t d w ws, (forall x, depth_number x <> w) ->
    bad_operand 25 (r :: t :: dim_number d :: w :: ws) (UnknownDepthStatus w)
| bad_arrayed : forall r t d dp w ws, (forall x, arrayed_number x <> w) ->
    bad_operand 25 (r :: t :: dim_number d :: depth_number dp :: w :: ws) (UnknownArrayed w)
| bad_ms : forall r t d dp a w ws, (forall x, ms_number x <> w) ->
    bad_operand 25 (r :: t :: dim_number d :: depth_number dp :: arrayed_number a :: w :: ws) (UnknownMS w)
| bad_sampled : forall r t d dp a m w ws, (forall x, sampled_number x <> w) ->
    bad_operand 25 (r :: t :: dim_number d :: depth_number dp :: arrayed_number a :: ms_number m :: w :: ws) (UnknownSampledStatus w)
| bad_format : forall r t d dp a m s w ws, (forall x, image_format_number x <> w) ->
    bad_operand 25 (r :: t :: dim_number d :: depth_number dp :: arrayed_number a :: ms_number m :: sampled_number s :: w :: ws)
      (UnknownImageFormat w)
| bad_access : forall r t d dp a m s f w ws, (forall x, access_qualifier_number x <> w) ->
    bad_operand 25 (r :: t :: dim_number d :: depth_number dp :: arrayed_number a :: ms_number m :: sampled_number s
      :: image_format_number f :: w :: ws) (UnknownAccessQualifier w)
| bad_pointer_class : forall r w ws, (forall x, storage_class_number x <> w) ->
    bad_operand 32 (r :: w :: ws) (UnknownStorageClass w)
| bad_variable_class : forall t r w ws, (forall x, storage_class_number x <> w) ->
    bad_operand 59 (t :: r :: w :: ws) (UnknownStorageClass w)
| bad_load_access : forall t r p w ws, N.land w 0xFFF8 <> 0 ->
    bad_operand 61 (t :: r :: p :: w :: ws) (UnknownMemoryAccess w)
| bad_store_access : forall p v w ws, N.land w 0xFFF8 <> 0 ->
    bad_operand 62 (p :: v :: w :: ws) (UnknownMemoryAccess w)
| bad_decorate : forall target w ws e, bad_decoration (w :: ws) e ->
    bad_operand 71 (target :: w :: ws) e
| bad_member_decorate : forall target member w ws e, bad_decoration (w :: ws) e ->
    bad_operand 72 (target :: member :: w :: ws) e
| bad_loop_control : forall m c w ws, N.land w 0xFFF0 <> 0 ->
    bad_operand 246 (m :: c :: w :: ws) (UnknownLoopControl w)
| bad_selection_control : forall m w ws, N.land w 0xFFFC <> 0 ->
    bad_operand 247 (m :: w :: ws) (UnknownSelectionControl w)
with bad_decoration : list N -> ReadError -> Prop :=
| bad_dec_number : forall w ws, (forall x, decoration_number x <> w) -> bad_decoration (w :: ws) (UnknownDecoration w)
| bad_dec_built_in : forall w ws, (forall x, built_in_number x <> w) -> bad_decoration (11 :: w :: ws) (UnknownBuiltIn w)
| bad_dec_attribute : forall w ws, (forall x, function_parameter_attribute_number x <> w) ->
    bad_decoration (38 :: w :: ws) (UnknownFunctionParameterAttribute w)
| bad_dec_rounding : forall w ws, (forall x, fp_rounding_mode_number x <> w) -> bad_decoration (39 :: w :: ws) (UnknownFpRoundingMode w)
| bad_dec_fast_math : forall w ws, N.land w 0xFFC0 <> 0 -> bad_decoration (40 :: w :: ws) (UnknownFpFastMathMode w)
| bad_dec_linkage : forall name chars w ws, wire_string name chars -> text name -> (forall x, linkage_type_number x <> w) ->
    bad_decoration (41 :: chars ++ w :: ws) (UnknownLinkageType w).
