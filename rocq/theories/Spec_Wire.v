(** SPECIFICATION: the SPIR-V wire format of the instructions the crate supports, and when
    some bytes are a wire form of a module.  Written by hand from the SPIR-V 1.0 standard;
    mentions the model's data types, none of its functions. *)
From Verif Require Import Base Types Ops ReadErr ExtSet.
From Verif Require Export Spec_Unicode Spec_Tables.
Local Open Scope N_scope.

(** A word is a 32-bit number. *)
Definition word (n : N) : Prop := n < 4294967296.

(** ** Operands *)

(** [OWord n]: the single word n.
    [OStr s]: a literal string.
    [OFlags v ignored]: a mask word with value v, where the bits set in [ignored] are
    not looked at by the reader (they should be zero, but are not checked). *)
Inductive operand : Type :=
| OWord (n : N)
| OStr (s : string)
| OFlags (value ignored : N).

(** Bytes of a word sequence, least significant byte of each word first. *)
Fixpoint word_bytes (ws : list N) : list N :=
  match ws with
  | [] => []
  | w :: ws => w mod 256 :: w / 256 mod 256 :: w / 65536 mod 256 :: w / 16777216 :: word_bytes ws
  end.

(** Literal string: the UTF-8 bytes, a NUL, and up to three padding bytes to fill the
    last word.  The standard asks for zero padding; [wire_string] allows any. *)
Definition wire_string (s : string) (ws : list N) : Prop :=
  exists padding, (List.length padding < 4)%nat /\ word_bytes ws = bytes_of_string s ++ 0 :: padding.

(** Text that can be a literal string: UTF-8 without NUL. *)
Definition text (s : string) : Prop :=
  is_utf8 (bytes_of_string s) /\ ~ In 0 (bytes_of_string s).

Definition wire_operand (o : operand) (ws : list N) : Prop :=
  match o with
  | OWord n => ws = [n]
  | OStr s => wire_string s ws /\ text s
  | OFlags v ignored => exists w, ws = [w] /\ N.ldiff w ignored = v
  end.

Fixpoint wire_operands (os : list operand) (ws : list N) : Prop :=
  match os with
  | [] => ws = []
  | o :: os => exists ws1 ws2, ws = ws1 ++ ws2 /\ wire_operand o ws1 /\ wire_operands os ws2
  end.

(** Mask bits the reader does not look at. *)
Definition ignored_high : N := 0xFFFF0000.
Definition ignored_fast_math : N := 0xFFFF0020.
Definition ignored_function_control : N := 0xFFFFFFF0.

(** Optional operands and lists of operands *)
Definition opt {A} (f : A -> list operand) (x : option A) : list operand :=
  match x with Some a => f a | None => [] end.
Definition many {A} (f : A -> list operand) (l : list A) : list operand := flat_map f l.
Definition num (n : N) : list operand := [OWord n].

Definition execution_mode_operands (x : ExecutionMode) : list operand :=
  OWord (execution_mode_number x) ::
  match x with
  | ExecutionMode_Invocations n => num n
  | ExecutionMode_LocalSize x y z => num x ++ num y ++ num z
  | ExecutionMode_LocalSizeHint x y z => num x ++ num y ++ num z
  | ExecutionMode_OutputVerticies n => num n
  | ExecutionMode_VecTypeHint id => num id
  | _ => []
  end.

Definition decoration_operands (x : Decoration) : list operand :=
  OWord (decoration_number x) ::
  match x with
  | Decoration_SpecId n | Decoration_ArrayStride n | Decoration_MatrixStride n | Decoration_Stream n
  | Decoration_Location n | Decoration_Component n | Decoration_Index n | Decoration_Binding n
  | Decoration_DescriptorSet n | Decoration_Offset n | Decoration_XfbBuffer n | Decoration_XfbStride n
  | Decoration_InputAttachmentIndex n | Decoration_Alignment n => num n
  | Decoration_BuiltIn b => num (built_in_number b)
  | Decoration_FuncParamAttr a => num (function_parameter_attribute_number a)
  | Decoration_FpRoundingMode m => num (fp_rounding_mode_number m)
  | Decoration_FpFastMathMode m => [OFlags (fp_fast_math_bits m) ignored_fast_math]
  | Decoration_LinkageAttributes name lt => OStr name :: num (linkage_type_number lt)
  | _ => []
  end.

Definition memory_access_operand (x : MemoryAccess) : list operand :=
  [OFlags (memory_access_bits x) ignored_high].
Definition function_control_operand (x : FunctionControl) : list operand :=
  [OFlags (function_control_bits x) ignored_function_control].
Definition selection_control_operand (x : SelectionControl) : list operand :=
  [OFlags (selection_control_bits x) ignored_high].
Definition loop_control_operands (x : LoopControl) : list operand :=
  OFlags (loop_control_bits x) ignored_high :: opt num (LoopControl_dependency_length x).

(** Shape of the standard arithmetic instructions: result type, result id, operands *)
Definition unary (t r a : N) : list operand := [OWord t; OWord r; OWord a].
Definition binary (t r a b : N) : list operand := [OWord t; OWord r; OWord a; OWord b].

(** The operands of each instruction, in the order of SPIR-V 3.32.  For OpExtInst only the
    fixed part (the rest belongs to the extended set). *)
Definition operands {E} (i : Core E) : list operand :=
  match i with
  | Core_OpNop _ => []
  | Core_OpUndef (Build_OpUndef t r) => num t ++ num r
  | Core_OpSourceContinued (Build_OpSourceContinued s) => [OStr s]
  | Core_OpSource (Build_OpSource language version file source) =>
      num (source_language_number language) ++ num version ++ opt num file ++ opt (fun s => [OStr s]) source
  | Core_OpSourceExtension (Build_OpSourceExtension s) => [OStr s]
  | Core_OpName (Build_OpName target name) => num target ++ [OStr name]
  | Core_OpMemberName (Build_OpMemberName ty member name) => num ty ++ num member ++ [OStr name]
  | Core_OpString (Build_OpString r s) => num r ++ [OStr s]
  | Core_OpExtension (Build_OpExtension name) => [OStr name]
  | Core_OpExtInstImport (Build_OpExtInstImport r name) => num r ++ [OStr name]
  | Core_OpExtInst op => num (OpExtInst_result_type op) ++ num (OpExtInst_result_id op) ++ num (OpExtInst_set op)
  | Core_OpMemoryModel (Build_OpMemoryModel a m) => num (addressing_model_number a) ++ num (memory_model_number m)
  | Core_OpEntryPoint (Build_OpEntryPoint model entry name interface) =>
      num (execution_model_number model) ++ num entry ++ [OStr name] ++ many num interface
  | Core_OpExecutionMode (Build_OpExecutionMode entry mode) => num entry ++ execution_mode_operands mode
  | Core_OpCapability (Build_OpCapability c) => num (capability_number c)
  | Core_OpTypeVoid (Build_OpTypeVoid r) => num r
  | Core_OpTypeBool (Build_OpTypeBool r) => num r
  | Core_OpTypeInt (Build_OpTypeInt r width signedness) => num r ++ num width ++ num (signedness_number signedness)
  | Core_OpTypeFloat (Build_OpTypeFloat r width) => num r ++ num width
  | Core_OpTypeVector (Build_OpTypeVector r ty count) => num r ++ num ty ++ num count
  | Core_OpTypeMatrix (Build_OpTypeMatrix r ty count) => num r ++ num ty ++ num count
  | Core_OpTypeImage (Build_OpTypeImage r ty dim depth arrayed ms sampled format access) =>
      num r ++ num ty ++ num (dim_number dim) ++ num (depth_number depth) ++ num (arrayed_number arrayed)
      ++ num (ms_number ms) ++ num (sampled_number sampled) ++ num (image_format_number format)
      ++ opt (fun a => num (access_qualifier_number a)) access
  | Core_OpTypeSampler (Build_OpTypeSampler r) => num r
  | Core_OpTypeSampledImage (Build_OpTypeSampledImage r image) => num r ++ num image
  | Core_OpTypeArray (Build_OpTypeArray r ty length) => num r ++ num ty ++ num length
  | Core_OpTypeRuntimeArray (Build_OpTypeRuntimeArray r ty) => num r ++ num ty
  | Core_OpTypeStruct (Build_OpTypeStruct r members) => num r ++ many num members
  | Core_OpTypeOpaque (Build_OpTypeOpaque r name) => num r ++ [OStr name]
  | Core_OpTypePointer (Build_OpTypePointer r class ty) => num r ++ num (storage_class_number class) ++ num ty
  | Core_OpTypeFunction (Build_OpTypeFunction r ret params) => num r ++ num ret ++ many num params
  | Core_OpTypeEvent (Build_OpTypeEvent r) => num r
  | Core_OpTypeDeviceEvent (Build_OpTypeDeviceEvent r) => num r
  | Core_OpTypeQueue (Build_OpTypeQueue r) => num r
  | Core_OpTypePipe (Build_OpTypePipe r a) => num r ++ num (access_qualifier_number a)
  | Core_OpTypeForwardPointer (Build_OpTypeForwardPointer ty class) => num ty ++ num (storage_class_number class)
  | Core_OpConstant (Build_OpConstant t r value) => num t ++ num r ++ many num value
  | Core_OpConstantComposite (Build_OpConstantComposite t r parts) => num t ++ num r ++ many num parts
  | Core_OpFunction (Build_OpFunction t r control ty) => num t ++ num r ++ function_control_operand control ++ num ty
  | Core_OpFunctionParameter (Build_OpFunctionParameter t r) => num t ++ num r
  | Core_OpFunctionEnd _ => []
  | Core_OpVariable (Build_OpVariable t r class init) =>
      num t ++ num r ++ num (storage_class_number class) ++ opt num init
  | Core_OpLoad (Build_OpLoad t r pointer access) => num t ++ num r ++ num pointer ++ opt memory_access_operand access
  | Core_OpStore (Build_OpStore pointer object access) => num pointer ++ num object ++ opt memory_access_operand access
  | Core_OpAccessChain (Build_OpAccessChain t r base indexes) => num t ++ num r ++ num base ++ many num indexes
  | Core_OpDecorate (Build_OpDecorate target decoration) => num target ++ decoration_operands decoration
  | Core_OpMemberDecorate (Build_OpMemberDecorate ty member decoration) =>
      num ty ++ num member ++ decoration_operands decoration
  | Core_OpConvertUToF (Build_OpConvertUToF t r a) => unary t r a
  | Core_OpBitcast (Build_OpBitcast t r a) => unary t r a
  | Core_OpIAdd (Build_OpIAdd t r a b) => binary t r a b
  | Core_OpFAdd (Build_OpFAdd t r a b) => binary t r a b
  | Core_OpISub (Build_OpISub t r a b) => binary t r a b
  | Core_OpFSub (Build_OpFSub t r a b) => binary t r a b
  | Core_OpIMul (Build_OpIMul t r a b) => binary t r a b
  | Core_OpFMul (Build_OpFMul t r a b) => binary t r a b
  | Core_OpUDiv (Build_OpUDiv t r a b) => binary t r a b
  | Core_OpSDiv (Build_OpSDiv t r a b) => binary t r a b
  | Core_OpFDiv (Build_OpFDiv t r a b) => binary t r a b
  | Core_OpUMod (Build_OpUMod t r a b) => binary t r a b
  | Core_OpSRem (Build_OpSRem t r a b) => binary t r a b
  | Core_OpSMod (Build_OpSMod t r a b) => binary t r a b
  | Core_OpFRem (Build_OpFRem t r a b) => binary t r a b
  | Core_OpFMod (Build_OpFMod t r a b) => binary t r a b
  | Core_OpIAddCarry (Build_OpIAddCarry t r a b) => binary t r a b
  | Core_OpISubBorrow (Build_OpISubBorrow t r a b) => binary t r a b
  | Core_OpUMulExtended (Build_OpUMulExtended t r a b) => binary t r a b
  | Core_OpSMulExtended (Build_OpSMulExtended t r a b) => binary t r a b
  | Core_OpBitwiseOr (Build_OpBitwiseOr t r a b) => binary t r a b
  | Core_OpBitwiseXor (Build_OpBitwiseXor t r a b) => binary t r a b
  | Core_OpBitwiseAnd (Build_OpBitwiseAnd t r a b) => binary t r a b
  | Core_OpIEqual (Build_OpIEqual t r a b) => binary t r a b
  | Core_OpINotEqual (Build_OpINotEqual t r a b) => binary t r a b
  | Core_OpUGreaterThan (Build_OpUGreaterThan t r a b) => binary t r a b
  | Core_OpSGreaterThan (Build_OpSGreaterThan t r a b) => binary t r a b
  | Core_OpUGreaterThanEqual (Build_OpUGreaterThanEqual t r a b) => binary t r a b
  | Core_OpSGreaterThanEqual (Build_OpSGreaterThanEqual t r a b) => binary t r a b
  | Core_OpULessThan (Build_OpULessThan t r a b) => binary t r a b
  | Core_OpSLessThan (Build_OpSLessThan t r a b) => binary t r a b
  | Core_OpULessThanEqual (Build_OpULessThanEqual t r a b) => binary t r a b
  | Core_OpSLessThanEqual (Build_OpSLessThanEqual t r a b) => binary t r a b
  | Core_OpFOrdEqual (Build_OpFOrdEqual t r a b) => binary t r a b
  | Core_OpFUnordEqual (Build_OpFUnordEqual t r a b) => binary t r a b
  | Core_OpFOrdNotEqual (Build_OpFOrdNotEqual t r a b) => binary t r a b
  | Core_OpFUnordNotEqual (Build_OpFUnordNotEqual t r a b) => binary t r a b
  | Core_OpFOrdLessThan (Build_OpFOrdLessThan t r a b) => binary t r a b
  | Core_OpFUnordLessThan (Build_OpFUnordLessThan t r a b) => binary t r a b
  | Core_OpFOrdGreaterThan (Build_OpFOrdGreaterThan t r a b) => binary t r a b
  | Core_OpFUnordGreaterThan (Build_OpFUnordGreaterThan t r a b) => binary t r a b
  | Core_OpFOrdLessThanEqual (Build_OpFOrdLessThanEqual t r a b) => binary t r a b
  | Core_OpFUnordLessThanEqual (Build_OpFUnordLessThanEqual t r a b) => binary t r a b
  | Core_OpFOrdGreaterThanEqual (Build_OpFOrdGreaterThanEqual t r a b) => binary t r a b
  | Core_OpFUnordGreaterThanEqual (Build_OpFUnordGreaterThanEqual t r a b) => binary t r a b
  | Core_OpPhi (Build_OpPhi t r args) =>
      num t ++ num r ++ many (fun a => num (PhiArg_variable a) ++ num (PhiArg_parent a)) args
  | Core_OpLoopMerge (Build_OpLoopMerge merge continue control) =>
      num merge ++ num continue ++ loop_control_operands control
  | Core_OpSelectionMerge (Build_OpSelectionMerge merge control) => num merge ++ selection_control_operand control
  | Core_OpLabel (Build_OpLabel r) => num r
  | Core_OpBranch (Build_OpBranch target) => num target
  | Core_OpBranchConditional (Build_OpBranchConditional cond t f weights) =>
      num cond ++ num t ++ num f
      ++ opt (fun w => num (BranchWeights_true_weight w) ++ num (BranchWeights_false_weight w)) weights
  | Core_OpReturn _ => []
  end.

(** The operands that must be present: all of them except a trailing optional operand or
    list. *)
Definition required {E} (i : Core E) : list operand :=
  match i with
  | Core_OpSource (Build_OpSource language version _ _) => num (source_language_number language) ++ num version
  | Core_OpEntryPoint (Build_OpEntryPoint model entry name _) =>
      num (execution_model_number model) ++ num entry ++ [OStr name]
  | Core_OpTypeImage (Build_OpTypeImage r ty dim depth arrayed ms sampled format _) =>
      num r ++ num ty ++ num (dim_number dim) ++ num (depth_number depth) ++ num (arrayed_number arrayed)
      ++ num (ms_number ms) ++ num (sampled_number sampled) ++ num (image_format_number format)
  | Core_OpTypeStruct (Build_OpTypeStruct r _) => num r
  | Core_OpTypeFunction (Build_OpTypeFunction r ret _) => num r ++ num ret
  | Core_OpConstant (Build_OpConstant t r _) => num t ++ num r
  | Core_OpConstantComposite (Build_OpConstantComposite t r _) => num t ++ num r
  | Core_OpVariable (Build_OpVariable t r class _) => num t ++ num r ++ num (storage_class_number class)
  | Core_OpLoad (Build_OpLoad t r pointer _) => num t ++ num r ++ num pointer
  | Core_OpStore (Build_OpStore pointer object _) => num pointer ++ num object
  | Core_OpAccessChain (Build_OpAccessChain t r base _) => num t ++ num r ++ num base
  | Core_OpPhi (Build_OpPhi t r _) => num t ++ num r
  | Core_OpBranchConditional (Build_OpBranchConditional cond t f _) => num cond ++ num t ++ num f
  | _ => operands i
  end.

(** Instructions whose last operand is optional or a list. *)
Definition open_ended {E} (i : Core E) : Prop :=
  match i with
  | Core_OpSource _ | Core_OpEntryPoint _ | Core_OpTypeImage _ | Core_OpTypeStruct _ | Core_OpTypeFunction _
  | Core_OpConstant _ | Core_OpConstantComposite _ | Core_OpVariable _ | Core_OpLoad _ | Core_OpStore _
  | Core_OpAccessChain _ | Core_OpPhi _ | Core_OpBranchConditional _ | Core_OpExtInst _ => True
  | _ => False
  end.

(** The optional operand is present, so that nothing can follow. *)
Definition complete {E} (i : Core E) : Prop :=
  match i with
  | Core_OpSource op => OpSource_source op <> None
  | Core_OpTypeImage op => OpTypeImage_access_qualifier op <> None
  | Core_OpVariable op => OpVariable_initializer op <> None
  | Core_OpLoad op => OpLoad_memory_access op <> None
  | Core_OpStore op => OpStore_memory_access op <> None
  | Core_OpBranchConditional op => OpBranchConditional_weights op <> None
  | _ => ~ open_ended i
  end.

(** Combinations of optional operands that have a wire form: the source text of OpSource
    can only be present together with the file; the raw number of a source language is
    not one of the named languages. *)
Definition representable {E} (i : Core E) : Prop :=
  readable i /\
  match i with
  | Core_OpSource op =>
      (OpSource_file op = None -> OpSource_source op = None)
      /\ match OpSource_language op with SourceLanguage_Other n => 5 <= n | _ => True end
  | _ => True
  end.

(** ** Extended instruction sets *)

(** [r] reads the instructions of the first set called [name] among the known sets. *)
Definition set_named {E} (known : list (ExtInstSet E)) (name : string) (r : ExtReader E) : Prop :=
  exists before s after,
    known = before ++ s :: after /\ get_name s = name
    /\ Forall (fun s' => get_name s' <> name) before /\ r = duplicate s.

(** [id] was imported by one of the earlier instructions, with reader [r]. *)
Definition imported {E} (known : list (ExtInstSet E)) (earlier : list (Core E)) (id : N) (r : ExtReader E) : Prop :=
  exists name, In (Core_OpExtInstImport (Build_OpExtInstImport id name)) earlier /\ set_named known name r.

(** ** Instructions *)

(** [body] are operand words of [i] when it follows the instructions [earlier]. *)
Definition wire_instruction {E} (known : list (ExtInstSet E)) (earlier : list (Core E)) (i : Core E) (body : list N) : Prop :=
  match i with
  | Core_OpExtInst op =>
      exists number rest r,
        body = [OpExtInst_result_type op; OpExtInst_result_id op; OpExtInst_set op; number] ++ rest
        /\ imported known earlier (OpExtInst_set op) r
        /\ r number rest = Ok ([], OpExtInst_instruction op)
  | Core_OpExtInstImport op =>
      wire_operands (operands i) body
      /\ (exists r, set_named known (OpExtInstImport_name op) r)
      /\ (forall name, ~ In (Core_OpExtInstImport (Build_OpExtInstImport (OpExtInstImport_result_id op) name)) earlier)
  | _ => representable i /\ wire_operands (operands i) body
  end.

(** Sequence of instructions: each is a head word (opcode in the low half, word count in
    the high half) and its operand words.  A word count of 0 is accepted for 1. *)
Inductive wire_instructions {E} (known : list (ExtInstSet E)) : list (Core E) -> list (Core E) -> list N -> Prop :=
| wire_nil earlier : wire_instructions known earlier [] []
| wire_cons earlier i is wc body ws :
    wire_instruction known earlier i body ->
    wc = 1 + N.of_nat (List.length body) \/ (wc = 0 /\ body = []) ->
    wc < 65536 ->
    wire_instructions known (earlier ++ [i]) is ws ->
    wire_instructions known earlier (i :: is) ((opcode i + 65536 * wc) :: body ++ ws).

(** ** Modules *)

Inductive byte_order := LittleEndian | BigEndian.

(** The four bytes of a word. *)
Definition bytes_of_word (o : byte_order) (w : N) : list ascii :=
  let le := map ascii_of_N [w mod 256; w / 256 mod 256; w / 65536 mod 256; w / 16777216 mod 256] in
  match o with LittleEndian => le | BigEndian => rev le end.
Definition bytes_of_words (o : byte_order) (ws : list N) : list ascii := flat_map (bytes_of_word o) ws.

Definition magic_number : N := 0x07230203.

(** The version words the reader takes for SPIR-V 1.0: 0x00010000 up to the ignored high
    nibbles of the three lower bytes. *)
Definition version_word_accepted (w : N) : Prop :=
  w / 16777216 = 0 /\ w / 65536 mod 16 = 1 /\ w / 256 mod 16 = 0 /\ w mod 16 = 0.

(** The generator word: tool in the high half, tool version in the low half. *)
Definition generator_word (g : Generator) (w : N) : Prop :=
  w = Generator_version g + 65536 * tool_number (Generator_tool g)
  /\ Generator_version g < 65536 /\ tool_number (Generator_tool g) < 65536
  /\ match Generator_tool g with Tool_Other n => 12 <= n | _ => True end.

(** [data] is a wire form of [m]. *)
Definition wire_module {E} (known : list (ExtInstSet E)) (data : list ascii) (m : RawModule E) : Prop :=
  exists order version_word gen_word ws,
    data = bytes_of_words order ([magic_number; version_word; gen_word; RawModule_bound m; 0] ++ ws)
    /\ Forall word (version_word :: RawModule_bound m :: ws)
    /\ version_word_accepted version_word /\ RawModule_version m = Build_Version 1 0
    /\ generator_word (RawModule_generator m) gen_word
    /\ wire_instructions known [] (RawModule_instructions m) ws.

(** The byte order a file announces by its first word. *)
Definition in_order (o : byte_order) (data : list ascii) : Prop :=
  exists rest, data = bytes_of_word o magic_number ++ rest.

(** Every 4-byte group reversed; an incomplete last group is left alone. *)
Fixpoint swap_words (data : list ascii) : list ascii :=
  match data with
  | a :: b :: c :: d :: rest => d :: c :: b :: a :: swap_words rest
  | rest => rest
  end.

(** The words of an instruction with the given opcode and operand words. *)
Definition instruction_words (op : N) (body : list N) : list N :=
  (op + 65536 * (1 + N.of_nat (List.length body))) :: body.

(** Modules that differ at most in their instructions. *)
Definition same_header {E} (m m' : RawModule E) : Prop :=
  RawModule_version m' = RawModule_version m /\ RawModule_generator m' = RawModule_generator m
  /\ RawModule_bound m' = RawModule_bound m.

(** ** Canonical encoding *)

(** Zero padded packing of a NUL terminated string into words. *)
Fixpoint pack (bytes : list N) : list N :=
  match bytes with
  | [] => []
  | [a] => [a]
  | [a; b] => [a + 256 * b]
  | [a; b; c] => [a + 256 * b + 65536 * c]
  | a :: b :: c :: d :: bytes => (a + 256 * b + 65536 * c + 16777216 * d) :: pack bytes
  end.
Definition encode_string (s : string) : list N := pack (bytes_of_string s ++ [0]).

Definition encode_operand (o : operand) : list N :=
  match o with
  | OWord n => [n]
  | OStr s => encode_string s
  | OFlags v _ => [v]
  end.
Definition encode_operands (os : list operand) : list N := flat_map encode_operand os.

(** Payloads of extended instructions (number and operand words), one per OpExtInst. *)
Definition payloads := list (N * list N).

Definition encode_body {E} (i : Core E) (p : payloads) : list N :=
  match i, p with
  | Core_OpExtInst _, (number, rest) :: _ => encode_operands (operands i) ++ number :: rest
  | _, _ => encode_operands (operands i)
  end.
Definition next_payloads {E} (i : Core E) (p : payloads) : payloads :=
  match i with Core_OpExtInst _ => tl p | _ => p end.

Definition encode_instruction {E} (i : Core E) (p : payloads) : list N :=
  let body := encode_body i p in
  (opcode i + 65536 * (1 + N.of_nat (List.length body))) :: body.

Fixpoint encode_instructions {E} (is : list (Core E)) (p : payloads) : list N :=
  match is with
  | [] => []
  | i :: is => encode_instruction i p ++ encode_instructions is (next_payloads i p)
  end.

Definition encode_header {E} (m : RawModule E) : list N :=
  [magic_number; 0x00010000;
   Generator_version (RawModule_generator m) + 65536 * tool_number (Generator_tool (RawModule_generator m));
   RawModule_bound m; 0].

Definition encode_module {E} (o : byte_order) (m : RawModule E) (p : payloads) : list ascii :=
  bytes_of_words o (encode_header m ++ encode_instructions (RawModule_instructions m) p).

(** ** Encodable modules *)

(** Operands that fit: numbers below 2^32, strings that are text. *)
Definition operand_ok (o : operand) : Prop :=
  match o with OWord n => word n | OStr s => text s | OFlags v _ => True end.

(** [i] has an encoding after the instructions [earlier], using the first payload when it
    is an extended instruction. *)
Definition encodable_instruction {E} (known : list (ExtInstSet E)) (earlier : list (Core E)) (i : Core E) (p : payloads) : Prop :=
  representable i
  /\ Forall operand_ok (operands i)
  /\ N.of_nat (List.length (encode_body i p)) < 65535
  /\ match i with
     | Core_OpExtInst op =>
         exists number rest p' r,
           p = (number, rest) :: p' /\ word number /\ Forall word rest
           /\ imported known earlier (OpExtInst_set op) r
           /\ r number rest = Ok ([], OpExtInst_instruction op)
     | Core_OpExtInstImport op =>
         (exists r, set_named known (OpExtInstImport_name op) r)
         /\ (forall name, ~ In (Core_OpExtInstImport (Build_OpExtInstImport (OpExtInstImport_result_id op) name)) earlier)
     | _ => True
     end.

Fixpoint encodable_instructions {E} (known : list (ExtInstSet E)) (earlier is : list (Core E)) (p : payloads) : Prop :=
  match is with
  | [] => True
  | i :: is =>
      encodable_instruction known earlier i p
      /\ encodable_instructions known (earlier ++ [i]) is (next_payloads i p)
  end.

Definition encodable {E} (known : list (ExtInstSet E)) (m : RawModule E) (p : payloads) : Prop :=
  RawModule_version m = Build_Version 1 0
  /\ Generator_version (RawModule_generator m) < 65536
  /\ tool_number (Generator_tool (RawModule_generator m)) < 65536
  /\ match Generator_tool (RawModule_generator m) with Tool_Other n => 12 <= n | _ => True end
  /\ word (RawModule_bound m)
  /\ encodable_instructions known [] (RawModule_instructions m) p.
