(** SPECIFICATION of the Debug format, continued, C89: the whole output for an instruction, computed from the tables of the
    standard and the names of the crate's fields; and what the output for modules consists of. *)
From Verif Require Import Base Types Ops DebugBase Spec_Wire Spec_Names Spec_Opcodes Spec_Debug.
Local Open Scope string_scope.

(** The whole Debug output of an instruction.  What the fields show: *)
Inductive shape : Type :=
| Wrapped (wrapper : string)             (* a number in a tuple of one field *)
| Plain                                  (* a number *)
| Text
| Named (table : names)
| OtherNamed (table : names)             (* a name, or Other and a number *)
| Carrying (table : names) (operands : N -> list kind) (* an enumerant with operands *)
| Flags (struct : string) (fields : list string)       (* a structure of booleans, lowest bit first *)
| Optional (s : shape)                   (* the operand may be missing *)
| Listed (s : shape)                     (* all remaining operands *)
| Pairs (struct f g : string) (s : shape)              (* all remaining operands, in pairs *)
| Both (struct f g : string) (s : shape) (* two operands *)
| LoopFlags
| Instruction.                           (* an extended instruction *)

(** Names that are spelled differently in Debug output, in addition to [respelled]: the standard's and the crate's. *)
Definition debug_respelled : list (string * string) :=
  [("ESSL", "Essl"); ("GLSL", "Glsl"); ("OpenCL_CPP", "OpenCL_Cpp"); ("GLCompute", "GlCompute"); ("GLSL450", "Glsl450");
   ("RTE", "Rte"); ("RTZ", "Rtz"); ("RTP", "Rtp"); ("RTN", "Rtn"); ("GLSLShared", "GlslShared"); ("GLSLPacked", "GlslPacked");
   ("1D", "Tex1D"); ("2D", "Tex2D"); ("3D", "Tex3D")] ++ respelled.
Fixpoint respell (l : list (string * string)) (s : string) : string :=
  match l with
  | [] => s
  | (standard, crate) :: l => if String.eqb s standard then crate else respell l s
  end.
Fixpoint name_in (table : names) (n : N) : option string :=
  match table with
  | [] => None
  | (k, s) :: table => if N.eqb n k then Some (respell debug_respelled s) else name_in table n
  end.
(** Numbers of the standard that the crate gives names of its own. *)
Definition signednesses : names := [(0, "UnsignedOrNone"); (1, "Signed")]%N.
Definition depths : names := [(0, "NotDepth"); (1, "Depth"); (2, "NoIndication")]%N.
Definition arrayednesses : names := [(0, "False"); (1, "True")]%N.
Definition multisamplings : names := [(0, "Single"); (1, "Multi")]%N.
Definition samplings : names := [(0, "RuntimeChoice"); (1, "WithSampler"); (2, "WithoutSampler")]%N.

(** The fields of each name show the same in all instructions, except that the access qualifier of an image type may be missing. *)
Definition field_shape (opcode : N) (field : string) : shape :=
  let is := fun l => existsb (String.eqb field) l in
  if is ["result_id"] then Wrapped "ResultId"
  else if is ["member"] then Wrapped "MemberIndex"
  else if is ["version"] then Wrapped "SourceVersion"
  else if is ["width"; "component_count"; "column_count"] then Plain
  else if is ["value"] then Listed Plain
  else if is ["name"; "string"; "extension"; "continued_source"] then Text
  else if is ["source"] then Optional Text
  else if is ["file"; "initializer"] then Optional (Wrapped "OpId")
  else if is ["interface"; "member_types"; "parameter_types"; "constituents"; "indexes"] then Listed (Wrapped "OpId")
  else if is ["variables"] then Pairs "PhiArg" "variable" "parent" (Wrapped "OpId")
  else if is ["weights"] then Optional (Both "BranchWeights" "true_weight" "false_weight" Plain)
  else if is ["language"] then OtherNamed source_languages
  else if is ["addressing_model"] then Named addressing_models
  else if is ["memory_model"] then Named memory_models
  else if is ["execution_model"] then Named execution_models
  else if is ["capability"] then Named capabilities
  else if is ["storage_class"] then Named storage_classes
  else if is ["signedness"] then Named signednesses
  else if is ["dim"] then Named dims
  else if is ["depth"] then Named depths
  else if is ["arrayed"] then Named arrayednesses
  else if is ["ms"] then Named multisamplings
  else if is ["sampled"] then Named samplings
  else if is ["format"] then Named image_formats
  else if is ["access_qualifier"] then if N.eqb opcode 25 then Optional (Named access_qualifiers) else Named access_qualifiers
  else if is ["mode"] then Carrying execution_modes mode_operands
  else if is ["decoration"] then Carrying decorations decoration_operands_kinds
  else if is ["memory_access"] then Optional (Flags "MemoryAccess" ["volatile"; "aligned"; "non_temporal"])
  else if is ["function_control"] then Flags "FunctionControl" ["inline"; "dont_inline"; "pure_function"; "const_function"]
  else if is ["selection_control"] then Flags "SelectionControl" ["flatten"; "dont_flatten"]
  else if is ["loop_control"] then LoopFlags
  else if is ["instruction"] then Instruction
  else Wrapped "OpId".

Section Shown.
Context {E : Type}.
Local Notation dtree := (dtree E).

Fixpoint bits_from (k : N) (fields : list string) (value : N) : list (string * dtree) :=
  match fields with
  | [] => []
  | f :: fields => (f, DBool (N.testbit value k)) :: bits_from (k + 1) fields value
  end.
Definition named (table : names) (n : N) : dtree := match name_in table n with Some s => DName s | None => DName "" end.
(** The operand of an enumerant. *)
Definition show_carried (k : kind) (o : operand) : dtree :=
  match k, o with
  | Id, OWord n => DTuple "OpId" [DNumber n]
  | Number, OWord n => DNumber n
  | (Quoted | Bare), OStr s => DString s
  | Enum table, OWord n => named table n
  | Mask _, OFlags v _ => DStruct "FpFastMathMode" (bits_from 0 ["not_nan"; "not_inf"; "nsz"; "allow_recip"; "fast"] v)
  | _, _ => DName ""
  end.
Fixpoint show_all_carried (ks : list kind) (os : list operand) : list dtree :=
  match ks, os with
  | k :: ks, o :: os => show_carried k o :: show_all_carried ks os
  | _, _ => []
  end.
(** One operand. *)
Definition show_one (s : shape) (o : operand) : dtree :=
  match s, o with
  | Wrapped w, OWord n => DTuple w [DNumber n]
  | Plain, OWord n => DNumber n
  | Text, OStr s => DString s
  | Named table, OWord n => named table n
  | OtherNamed table, OWord n => match name_in table n with Some s => DName s | None => DTuple "Other" [DNumber n] end
  | Flags struct fields, OFlags v _ => DStruct struct (bits_from 0 fields v)
  | _, _ => DName ""
  end.
Fixpoint show_pairs (struct f g : string) (s : shape) (os : list operand) : list dtree :=
  match os with
  | a :: b :: os => DStruct struct [(f, show_one s a); (g, show_one s b)] :: show_pairs struct f g s os
  | _ => []
  end.
(** A field takes its operands from [os]. *)
Definition show_field (s : shape) (x : option E) (os : list operand) : dtree * list operand :=
  match s, os with
  | Instruction, _ => (match x with Some x => DExtInstBox x | None => DName "" end, os)
  | Listed s, _ => (DList (map (show_one s) os), [])
  | Pairs struct f g s, _ => (DList (show_pairs struct f g s os), [])
  | Optional _, [] => (DName "None", [])
  | Optional (Both struct f g s), a :: b :: os => (DTuple "Some" [DStruct struct [(f, show_one s a); (g, show_one s b)]], os)
  | Optional s, o :: os => (DTuple "Some" [show_one s o], os)
  | Carrying table operands, OWord n :: os =>
      let args := show_all_carried (operands n) os in
      (match name_in table n, args with Some s, [] => DName s | Some s, _ => DTuple s args | None, _ => DName "" end, skipn (length args) os)
  | LoopFlags, OFlags v _ :: os =>
      (DStruct "LoopControl" (bits_from 0 ["unroll"; "dont_unroll"; "dependency_infinite"] v
         ++ [("dependency_length", match os with OWord n :: _ => DTuple "Some" [DNumber n] | _ => DName "None" end)])%list, [])
  | _, o :: os => (show_one s o, os)
  | _, [] => (DName "", [])
  end.
Fixpoint show_fields (opcode : N) (fields : list string) (x : option E) (os : list operand) : list (string * dtree) :=
  match fields with
  | [] => []
  | f :: fields => let (t, os) := show_field (field_shape opcode f) x os in (f, t) :: show_fields opcode fields x os
  end.
(** A tuple named after the instruction around a structure of the same name. *)
Definition show_instruction (i : Core E) : dtree :=
  match opcode_name (opcode i) with
  | None => DName ""
  | Some name =>
      let x := match i with Core_OpExtInst op => Some (OpExtInst_instruction op) | _ => None end in
      DTuple name [match show_fields (opcode i) (field_names (opcode i)) x (operands i) with [] => DName name | fields => DStruct name fields end]
  end.
End Shown.

(** ** Modules *)
(** The structures of instructions in a Debug output, from left to right. *)
Definition instruction_name (s : string) : bool := existsb (String.eqb s) (map snd opcode_names).
Fixpoint structures {E} (t : dtree E) : list (dtree E) :=
  match t with
  | DName name => if instruction_name name then [t] else []
  | DStruct name fields => if instruction_name name then [t] else flat_map (fun f => structures (snd f)) fields
  | DTuple _ fields | DList fields => flat_map structures fields
  | DNumber _ | DBool _ | DString _ | DExtInstBox _ => []
  end.
(** Of OpCapability and OpExtension a logical module holds only the operand, of OpFunctionEnd nothing. *)
Definition whole {E} (i : Core E) : bool :=
  match i with Core_OpCapability _ | Core_OpExtension _ | Core_OpFunctionEnd _ => false | _ => true end.
(** The tools of the registry, as the crate names them. *)
Definition tools : names :=
  [(0, "KhronosReserved"); (1, "LunarG"); (2, "Valve"); (3, "Codeplay"); (4, "Nvidia"); (5, "Arm"); (6, "KhronosLLvmTranslator");
   (7, "KhronosAssembler"); (8, "KhronosGlslang"); (9, "Qualcomm"); (10, "Amd"); (11, "Intel")]%N.
