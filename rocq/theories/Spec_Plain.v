(** SPECIFICATION of C91: the instructions of SPIR-V that the crate only has structs for, which can be compared and shown with
    Debug but neither decoded nor printed; and the Debug format of the structs of Spec_More.  Written by hand from section
    3.32 of the standard; of the model only the data types and the trees of the Debug format are used. *)
From Verif Require Import Base Types Ops MoreOps DebugBase PlainOps Spec_Tables Spec_Wire Spec_Names Spec_Opcodes Spec_Text Spec_Debug Spec_Shown Spec_More.
Local Open Scope string_scope.

(** The names of opcodes of version 1.1 that the crate knows. *)
Definition opcode_names_1_1 : names :=
  [(323, "OpConstantPipeStorage"); (324, "OpCreatePipeFromPipeStorage"); (325, "OpGetKernelLocalSizeForSubgroupCount");
   (326, "OpGetKernelMaxNumSubgroups"); (328, "OpNamedBarrierInitialize"); (329, "OpMemoryNamedBarrier")]%N.

(** ** Operands *)
Inductive class : Type :=
| AnId                    (* an <id> *)
| TheResult               (* the result <id> *)
| AScope | SomeSemantics  (* an <id> of a scope, an <id> of memory semantics *)
| ALiteral                (* one word *)
| AGroupOperation         (* 3.28 *)
| ImageBits               (* 3.14: a mask, and the operands its bits ask for *)
| ImageBitsOrNone         (* the same, optional *)
| Cases                   (* literal, label <id>, literal, label <id>, ... *)
| IdPairs                 (* <id>, <id>, <id>, <id>, ... *)
| Ids                     (* <id>, <id>, ... *)
| Members.                (* structure type <id>, literal member, ... *)

(** The operands of the instructions, in the order of the standard. *)
Definition ids (n : nat) : list class := repeat AnId n.
Definition value (operands : list class) : list class := AnId :: TheResult :: operands.
Definition plain_grammar : list (N * list class) :=
  ([ (75, [AnId; Members]);
     (* images *)
     (87, value (ids 2 ++ [ImageBitsOrNone])); (88, value (ids 2 ++ [ImageBits]));
     (89, value (ids 3 ++ [ImageBitsOrNone])); (90, value (ids 3 ++ [ImageBits]));
     (91, value (ids 2 ++ [ImageBitsOrNone])); (92, value (ids 2 ++ [ImageBits]));
     (93, value (ids 3 ++ [ImageBitsOrNone])); (94, value (ids 3 ++ [ImageBits]));
     (95, value (ids 2 ++ [ImageBitsOrNone])); (96, value (ids 3 ++ [ImageBitsOrNone]));
     (97, value (ids 3 ++ [ImageBitsOrNone])); (98, value (ids 2 ++ [ImageBitsOrNone]));
     (99, ids 3 ++ [ImageBitsOrNone]);
     (100, value (ids 1)); (101, value (ids 1)); (102, value (ids 1)); (103, value (ids 2)); (104, value (ids 1));
     (105, value (ids 2)); (106, value (ids 1)); (107, value (ids 1));
     (305, value (ids 2 ++ [ImageBitsOrNone])); (306, value (ids 2 ++ [ImageBits]));
     (307, value (ids 3 ++ [ImageBitsOrNone])); (308, value (ids 3 ++ [ImageBits]));
     (309, value (ids 2 ++ [ImageBitsOrNone])); (310, value (ids 2 ++ [ImageBits]));
     (311, value (ids 3 ++ [ImageBitsOrNone])); (312, value (ids 3 ++ [ImageBits]));
     (313, value (ids 2 ++ [ImageBitsOrNone])); (314, value (ids 3 ++ [ImageBitsOrNone]));
     (315, value (ids 3 ++ [ImageBitsOrNone])); (316, value (ids 1)); (320, value (ids 2 ++ [ImageBitsOrNone]));
     (* bits *)
     (201, value (ids 4)); (202, value (ids 3)); (203, value (ids 3)); (204, value (ids 1)); (205, value (ids 1));
     (* relations and logic *)
     (154, value (ids 1)); (155, value (ids 1)); (156, value (ids 1)); (157, value (ids 1)); (158, value (ids 1));
     (159, value (ids 1)); (160, value (ids 1)); (161, value (ids 2)); (162, value (ids 2)); (163, value (ids 2));
     (164, value (ids 2)); (165, value (ids 2)); (166, value (ids 2)); (167, value (ids 2)); (168, value (ids 1)); (169, value (ids 3));
     (* derivatives *)
     (207, value (ids 1)); (208, value (ids 1)); (209, value (ids 1)); (210, value (ids 1)); (211, value (ids 1));
     (212, value (ids 1)); (213, value (ids 1)); (214, value (ids 1)); (215, value (ids 1));
     (* control flow *)
     (251, ids 2 ++ [Cases]); (252, []); (254, ids 1); (255, []); (256, [AnId; ALiteral]); (257, [AnId; ALiteral]);
     (* atomics *)
     (227, value [AnId; AScope; SomeSemantics]); (228, [AnId; AScope; SomeSemantics; AnId]);
     (229, value [AnId; AScope; SomeSemantics; AnId]);
     (230, value [AnId; AScope; SomeSemantics; SomeSemantics; AnId; AnId]);
     (231, value [AnId; AScope; SomeSemantics; SomeSemantics; AnId; AnId]);
     (232, value [AnId; AScope; SomeSemantics]); (233, value [AnId; AScope; SomeSemantics]);
     (234, value [AnId; AScope; SomeSemantics; AnId]); (235, value [AnId; AScope; SomeSemantics; AnId]);
     (236, value [AnId; AScope; SomeSemantics; AnId]); (237, value [AnId; AScope; SomeSemantics; AnId]);
     (238, value [AnId; AScope; SomeSemantics; AnId]); (239, value [AnId; AScope; SomeSemantics; AnId]);
     (240, value [AnId; AScope; SomeSemantics; AnId]); (241, value [AnId; AScope; SomeSemantics; AnId]);
     (242, value [AnId; AScope; SomeSemantics; AnId]);
     (318, value [AnId; AScope; SomeSemantics]); (319, [AnId; AScope; SomeSemantics]);
     (* primitives *)
     (218, []); (219, []); (220, ids 1); (221, ids 1);
     (* barriers *)
     (224, [AScope; AScope; SomeSemantics]); (225, [AScope; SomeSemantics]); (328, value (ids 1)); (329, [AnId; AScope; SomeSemantics]);
     (* groups *)
     (259, value (AScope :: ids 5)); (260, AScope :: ids 2); (261, value (AScope :: ids 1)); (262, value (AScope :: ids 1));
     (263, value (AScope :: ids 2));
     (264, value [AScope; AGroupOperation; AnId]); (265, value [AScope; AGroupOperation; AnId]); (266, value [AScope; AGroupOperation; AnId]);
     (267, value [AScope; AGroupOperation; AnId]); (268, value [AScope; AGroupOperation; AnId]); (269, value [AScope; AGroupOperation; AnId]);
     (270, value [AScope; AGroupOperation; AnId]); (271, value [AScope; AGroupOperation; AnId]);
     (* device-side enqueue *)
     (291, value (ids 4)); (292, value (ids 10 ++ [Ids])); (293, value (ids 5)); (294, value (ids 5)); (295, value (ids 4));
     (296, value (ids 4)); (297, ids 1); (298, ids 1); (299, value []); (300, value (ids 1)); (301, ids 2); (302, ids 3);
     (303, value []); (304, value (ids 3)); (325, value (ids 5)); (326, value (ids 4));
     (* pipes *)
     (274, value (ids 4)); (275, value (ids 4)); (276, value (ids 6)); (277, value (ids 6)); (278, value (ids 4)); (279, value (ids 4));
     (280, ids 4); (281, ids 4); (282, value (ids 1)); (283, value (ids 3)); (284, value (ids 3)); (285, value (AScope :: ids 4));
     (286, value (AScope :: ids 4)); (287, AScope :: ids 4); (288, AScope :: ids 4); (323, value [ALiteral; ALiteral; ALiteral]);
     (324, value (ids 1)) ])%N%list.

Definition standard_name (opcode : N) : option string :=
  match opcode_name opcode with
  | Some name => Some name
  | None => match find (fun p => N.eqb (fst p) opcode) opcode_names_1_1 with Some (_, name) => Some name | None => None end
  end.
(** Where the crate departs from the standard: the names of two instructions ... *)
Definition plain_name (opcode : N) : option string :=
  match opcode with
  | 87 => Some "OpImageSampledImplicitLod"
  | 88 => Some "OpImageSampledExplicitLod"
  | _ => standard_name opcode
  end%N.
(** ... an operand "Value" that OpAtomicIIncrement and OpAtomicIDecrement do not have, and the local sizes of
    OpEnqueueKernel, which come in pairs. *)
Definition plain_classes (opcode : N) (classes : list class) : list class :=
  match opcode with
  | 232 | 233 => classes ++ [AnId]
  | 292 => removelast classes ++ [IdPairs]
  | _ => classes
  end%N%list.
Definition departs (opcode : N) : Prop := In opcode [87; 88; 232; 233; 292]%N.

(** ** What operands show *)
Definition group_operations : names := [(0, "Reduce"); (1, "InclusiveScan"); (2, "ExclusiveScan")]%N.
Section Trees.
Context {E : Type}.
Local Notation dtree := (dtree E).
Definition in_wrapper (wrapper : string) (n : N) : dtree := DTuple wrapper [DNumber n].
Definition an_id : N -> dtree := in_wrapper "OpId".
Definition or_none {A} (show : A -> dtree) (x : option A) : dtree :=
  match x with None => DName "None" | Some x => DTuple "Some" [show x] end.
(** A pair has no name. *)
Definition two (s t : dtree) : dtree := DTuple "" [s; t].
Definition image_bits (bias lod : option N) (grad : option (N * N)) (const_offset offset const_offsets min_lod : option N) : dtree :=
  DStruct "ImageOperands"
    [("bias", or_none an_id bias); ("lod", or_none an_id lod); ("grad", or_none (fun g => two (an_id (fst g)) (an_id (snd g))) grad);
     ("const_offset", or_none an_id const_offset); ("offset", or_none an_id offset);
     ("const_offsets", or_none an_id const_offsets); ("min_lod", or_none an_id min_lod)].

Inductive shows : class -> dtree -> Prop :=
| shows_id : forall n, shows AnId (an_id n)
| shows_result : forall n, shows TheResult (in_wrapper "ResultId" n)
| shows_scope : forall n, shows AScope (in_wrapper "ScopeId" n)
| shows_semantics : forall n, shows SomeSemantics (in_wrapper "MemorySemanticsId" n)
| shows_literal : forall n, shows ALiteral (DNumber n)
| shows_group_operation : forall n name, In (n, name) group_operations -> shows AGroupOperation (DName name)
| shows_image_bits : forall bias lod grad const_offset offset const_offsets min_lod,
    shows ImageBits (image_bits bias lod grad const_offset offset const_offsets min_lod)
| shows_no_image_bits : shows ImageBitsOrNone (DName "None")
| shows_some_image_bits : forall t, shows ImageBits t -> shows ImageBitsOrNone (DTuple "Some" [t])
| shows_cases : forall l : list (list N * N), shows Cases (DList (map (fun c => two (DList (map DNumber (fst c))) (an_id (snd c))) l))
| shows_pairs : forall l : list (N * N), shows IdPairs (DList (map (fun p => two (an_id (fst p)) (an_id (snd p))) l))
| shows_ids : forall l, shows Ids (DList (map an_id l))
| shows_members : forall l : list (N * N), shows Members (DList (map (fun m => two (an_id (fst m)) (in_wrapper "MemberIndex" (snd m))) l)).

(** The structs are tuples, except the first. *)
Definition plain_tree (opcode : N) (name : string) (values : list dtree) : dtree :=
  match opcode, values with
  | 75%N, _ => DStruct name (combine ["decoration_group"; "targets"] values)
  | _, [] => DName name
  | _, _ => DTuple name values
  end.
(** [t] shows an instruction with this opcode. *)
Definition shows_plain (opcode : N) (t : dtree) : Prop :=
  exists name classes values, plain_name opcode = Some name /\ In (opcode, classes) plain_grammar
    /\ Forall2 shows (plain_classes opcode classes) values /\ t = plain_tree opcode name values.
(** The same according to the standard. *)
Definition shows_standard (opcode : N) (t : dtree) : Prop :=
  exists name classes values, standard_name opcode = Some name /\ In (opcode, classes) plain_grammar
    /\ Forall2 shows classes values /\ t = plain_tree opcode name values.

(** ** The structs of Spec_More *)
(** Their fields, in the order of the operands, and what the fields show. *)
Definition sampler_params : names := [(0, "NonNormalized"); (1, "Normalized")]%N.
Definition with_result (fields : list (string * shape)) : list (string * shape) :=
  ("result_type", Wrapped "OpId") :: ("result_id", Wrapped "ResultId") :: fields.
Definition id_fields (l : list string) : list (string * shape) := map (fun f => (f, Wrapped "OpId")) l.
Definition access : string * shape := ("memory_access", Optional (Flags "MemoryAccess" ["volatile"; "aligned"; "non_temporal"])).
Definition list_of (f wrapper : string) : list (string * shape) := [(f, Listed (Wrapped wrapper))].
Definition more_fields (opcode : N) : list (string * shape) :=
  (match opcode with
   | 8 => [("file", Wrapped "OpId"); ("line", Wrapped "Line"); ("column", Wrapped "Column")]
   | 36 | 73 => [("result_id", Wrapped "ResultId")]
   | 41 | 42 | 46 | 48 | 49 => with_result []
   | 45 => with_result [("addressing_mode", Named sampler_addressing_modes); ("param", Named sampler_params); ("filter_mode", Named sampler_filter_modes)]
   | 50 => with_result [("value", Listed Plain)]
   | 51 => with_result (list_of "constituents" "OpId")
   | 57 => with_result (id_fields ["function"] ++ list_of "arguments" "OpId")
   | 60 => with_result (id_fields ["image"; "coordinate"; "sample"])
   | 63 => id_fields ["target"; "source"] ++ [access]
   | 64 => id_fields ["target"; "source"; "size"] ++ [access]
   | 66 => with_result (id_fields ["base"] ++ list_of "indexes" "OpId")
   | 67 | 70 => with_result (id_fields ["base"; "element"] ++ list_of "indexes" "OpId")
   | 68 => with_result (id_fields ["structure"] ++ [("array_member", Wrapped "MemberIndex")])
   | 74 => id_fields ["decoration_group"] ++ list_of "targets" "OpId"
   | 77 => with_result (id_fields ["vector"; "index"])
   | 78 => with_result (id_fields ["vector"; "component"; "index"])
   | 79 => with_result (id_fields ["operand1"; "operand2"] ++ list_of "components" "MemberIndex")
   | 80 => with_result (list_of "constituents" "MemberIndex")
   | 81 => with_result (id_fields ["composite"] ++ list_of "indexes" "MemberIndex")
   | 82 => with_result (id_fields ["object"; "composite"] ++ list_of "indexes" "MemberIndex")
   | 84 => with_result (id_fields ["matrix"])
   | 86 => with_result (id_fields ["image"; "sampler"])
   | 109 | 110 | 115 => with_result (id_fields ["float_value"])
   | 111 | 114 | 118 => with_result (id_fields ["signed_value"])
   | 113 | 119 => with_result (id_fields ["unsigned_value"])
   | 116 => with_result (id_fields ["value"])
   | 120 => with_result (id_fields ["integer_value"])
   | 69 | 117 | 121 | 122 => with_result (id_fields ["pointer"])
   | 123 => with_result (id_fields ["pointer"] ++ [("storage_class", Named storage_classes)])
   | 83 | 126 | 127 | 200 => with_result (id_fields ["operand"])
   | 142 => with_result (id_fields ["vector"; "scalar"])
   | 143 => with_result (id_fields ["matrix"; "scalar"])
   | 144 => with_result (id_fields ["vector"; "matrix"])
   | 145 => with_result (id_fields ["matrix"; "vector"])
   | 146 => with_result (id_fields ["left_matrix"; "right_matrix"])
   | 147 | 148 => with_result (id_fields ["vector1"; "vector2"])
   | 194 | 195 | 196 => with_result (id_fields ["base"; "shift"])
   | _ => []
   end)%N%list.
Fixpoint show_more_fields (fields : list (string * shape)) (os : list operand) : list (string * dtree) :=
  match fields with
  | [] => []
  | (f, s) :: fields => let (t, os) := show_field s None os in (f, t) :: show_more_fields fields os
  end.
(** A structure named after the instruction. *)
Definition show_more (i : MoreOp) : dtree :=
  match opcode_name (more_opcode i) with
  | None => DName ""
  | Some name => match show_more_fields (more_fields (more_opcode i)) (more_operands i) with [] => DName name | fields => DStruct name fields end
  end.
End Trees.
