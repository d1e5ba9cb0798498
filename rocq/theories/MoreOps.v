(* GENERATED by tools/gen.py from /repo; do not edit by hand. *)
From Verif Require Import Base Types EqBase Equality DisplayBase DisplayTypes FmtBase FmtTypes.
Local Open Scope string_scope.

(** Op structs that can be printed but that no opcode is read into: data, Display, Display into a writer, and
    derived equality. *)

(* src/spv/types.rs:126-128.  Newtype of u32. *)
Definition Line := N.
(* src/spv/types.rs:138-140.  Newtype of u32. *)
Definition Column := N.
(* src/spv/types.rs:130-134 *)
Definition disp_Line (l : Line) : string := disp_u32 l.
(* src/spv/types.rs:130-134 *)
Definition fmt_Line : Display Line := fun l f => write_fmt [fmt_u32 l plain].
(* src/spv/types.rs:142-146 *)
Definition disp_Column (c : Column) : string := disp_u32 c.
(* src/spv/types.rs:142-146 *)
Definition fmt_Column : Display Column := fun c f => write_fmt [fmt_u32 c plain].

(* src/spv/types.rs:1036-1042 *)
Inductive SamplerAddressingMode : Type :=
| SamplerAddressingMode_None
| SamplerAddressingMode_ClampToEdge
| SamplerAddressingMode_Clamp
| SamplerAddressingMode_Repeat
| SamplerAddressingMode_RepeatMirrored.

(* src/spv/types.rs:1044-1055 *)
Definition disp_SamplerAddressingMode (x : SamplerAddressingMode) : string :=
  match x with
  | SamplerAddressingMode_None => "None"
  | SamplerAddressingMode_ClampToEdge => "ClampToEdge"
  | SamplerAddressingMode_Clamp => "Clamp"
  | SamplerAddressingMode_Repeat => "Repeat"
  | SamplerAddressingMode_RepeatMirrored => "RepeatMirrored"
  end.

(* src/spv/types.rs:1044-1055 *)
Definition fmt_SamplerAddressingMode : Display SamplerAddressingMode := fun x f =>
  match x with
  | SamplerAddressingMode_None => write_fmt [lit "None"]
  | SamplerAddressingMode_ClampToEdge => write_fmt [lit "ClampToEdge"]
  | SamplerAddressingMode_Clamp => write_fmt [lit "Clamp"]
  | SamplerAddressingMode_Repeat => write_fmt [lit "Repeat"]
  | SamplerAddressingMode_RepeatMirrored => write_fmt [lit "RepeatMirrored"]
  end.

(* src/spv/types.rs:1035-1042 *)
Definition eq_SamplerAddressingMode (a b : SamplerAddressingMode) : bool :=
  match a, b with
  | SamplerAddressingMode_None, SamplerAddressingMode_None => true
  | SamplerAddressingMode_ClampToEdge, SamplerAddressingMode_ClampToEdge => true
  | SamplerAddressingMode_Clamp, SamplerAddressingMode_Clamp => true
  | SamplerAddressingMode_Repeat, SamplerAddressingMode_Repeat => true
  | SamplerAddressingMode_RepeatMirrored, SamplerAddressingMode_RepeatMirrored => true
  | _, _ => false
  end.

(* src/spv/types.rs:1060-1063 *)
Inductive SamplerParam : Type :=
| SamplerParam_NonNormalized
| SamplerParam_Normalized.

(* src/spv/types.rs:1065-1073 *)
Definition disp_SamplerParam (x : SamplerParam) : string :=
  match x with
  | SamplerParam_NonNormalized => disp_u32 0
  | SamplerParam_Normalized => disp_u32 1
  end.

(* src/spv/types.rs:1065-1073 *)
Definition fmt_SamplerParam : Display SamplerParam := fun x f =>
  match x with
  | SamplerParam_NonNormalized => write_fmt [fmt_u32 0%N plain]
  | SamplerParam_Normalized => write_fmt [fmt_u32 1%N plain]
  end.

(* src/spv/types.rs:1059-1063 *)
Definition eq_SamplerParam (a b : SamplerParam) : bool :=
  match a, b with
  | SamplerParam_NonNormalized, SamplerParam_NonNormalized => true
  | SamplerParam_Normalized, SamplerParam_Normalized => true
  | _, _ => false
  end.

(* src/spv/types.rs:1078-1081 *)
Inductive SamplerFilterMode : Type :=
| SamplerFilterMode_Nearest
| SamplerFilterMode_Linear.

(* src/spv/types.rs:1083-1091 *)
Definition disp_SamplerFilterMode (x : SamplerFilterMode) : string :=
  match x with
  | SamplerFilterMode_Nearest => "Nearest"
  | SamplerFilterMode_Linear => "Linear"
  end.

(* src/spv/types.rs:1083-1091 *)
Definition fmt_SamplerFilterMode : Display SamplerFilterMode := fun x f =>
  match x with
  | SamplerFilterMode_Nearest => write_fmt [lit "Nearest"]
  | SamplerFilterMode_Linear => write_fmt [lit "Linear"]
  end.

(* src/spv/types.rs:1077-1081 *)
Definition eq_SamplerFilterMode (a b : SamplerFilterMode) : bool :=
  match a, b with
  | SamplerFilterMode_Nearest, SamplerFilterMode_Nearest => true
  | SamplerFilterMode_Linear, SamplerFilterMode_Linear => true
  | _, _ => false
  end.

(* src/spv/op.rs:76-80 *)
Record OpLine : Type := Build_OpLine {
  OpLine_file : OpId;
  OpLine_line : Line;
  OpLine_column : Column
}.

(* src/spv/op.rs:82 *)
Definition disp_OpLine (op : OpLine) : string :=
  disp_NoResult ++ "OpLine" ++ format_arg disp_OpId (OpLine_file op) ++ format_arg disp_Line (OpLine_line op) ++ format_arg disp_Column (OpLine_column op).
(* src/spv/op.rs:82 *)
Definition fmt_OpLine : Display OpLine := fun op f =>
  try_ (write_fmt [fmt_NoResult plain; lit "OpLine"]) (try_ (fmt_arg fmt_OpId (OpLine_file op) f) (try_ (fmt_arg fmt_Line (OpLine_line op) f) (try_ (fmt_arg fmt_Column (OpLine_column op) f) (done)))).
(* src/spv/op.rs:75-80 *)
Definition eq_OpLine (a b : OpLine) : bool :=
  N.eqb (OpLine_file a) (OpLine_file b) && N.eqb (OpLine_line a) (OpLine_line b) && N.eqb (OpLine_column a) (OpLine_column b).

(* src/spv/op.rs:85 *)
Record OpNoLine : Type := Build_OpNoLine {

}.

(* src/spv/op.rs:87 *)
Definition disp_OpNoLine (op : OpNoLine) : string :=
  disp_NoResult ++ "OpNoLine".
(* src/spv/op.rs:87 *)
Definition fmt_OpNoLine : Display OpNoLine := fun op f =>
  try_ (write_fmt [fmt_NoResult plain; lit "OpNoLine"]) (done).
(* src/spv/op.rs:84-85 *)
Definition eq_OpNoLine (a b : OpNoLine) : bool :=
  true.

(* src/spv/op.rs:109-111 *)
Record OpDecorationGroup : Type := Build_OpDecorationGroup {
  OpDecorationGroup_result_id : ResultId
}.

(* src/spv/op.rs:113 *)
Definition disp_OpDecorationGroup (op : OpDecorationGroup) : string :=
  disp_Result (OpDecorationGroup_result_id op) ++ "OpDecorationGroup".
(* src/spv/op.rs:113 *)
Definition fmt_OpDecorationGroup : Display OpDecorationGroup := fun op f =>
  try_ (write_fmt [fmt_Result (OpDecorationGroup_result_id op) plain; lit "OpDecorationGroup"]) (done).
(* src/spv/op.rs:108-111 *)
Definition eq_OpDecorationGroup (a b : OpDecorationGroup) : bool :=
  N.eqb (OpDecorationGroup_result_id a) (OpDecorationGroup_result_id b).

(* src/spv/op.rs:116-119 *)
Record OpGroupDecorate : Type := Build_OpGroupDecorate {
  OpGroupDecorate_decoration_group : OpId;
  OpGroupDecorate_targets : (list OpId)
}.

(* src/spv/op.rs:121 *)
Definition disp_OpGroupDecorate (op : OpGroupDecorate) : string :=
  disp_NoResult ++ "OpGroupDecorate" ++ format_arg disp_OpId (OpGroupDecorate_decoration_group op) ++ format_arg_Vec disp_OpId (OpGroupDecorate_targets op).
(* src/spv/op.rs:121 *)
Definition fmt_OpGroupDecorate : Display OpGroupDecorate := fun op f =>
  try_ (write_fmt [fmt_NoResult plain; lit "OpGroupDecorate"]) (try_ (fmt_arg fmt_OpId (OpGroupDecorate_decoration_group op) f) (try_ (fmt_arg_Vec fmt_OpId (OpGroupDecorate_targets op) f) (done))).
(* src/spv/op.rs:115-119 *)
Definition eq_OpGroupDecorate (a b : OpGroupDecorate) : bool :=
  N.eqb (OpGroupDecorate_decoration_group a) (OpGroupDecorate_decoration_group b) && (eq_Vec N.eqb) (OpGroupDecorate_targets a) (OpGroupDecorate_targets b).

(* src/spv/op.rs:347-349 *)
Record OpTypeReserveId : Type := Build_OpTypeReserveId {
  OpTypeReserveId_result_id : ResultId
}.

(* src/spv/op.rs:351 *)
Definition disp_OpTypeReserveId (op : OpTypeReserveId) : string :=
  disp_Result (OpTypeReserveId_result_id op) ++ "OpTypeReserveId".
(* src/spv/op.rs:351 *)
Definition fmt_OpTypeReserveId : Display OpTypeReserveId := fun op f =>
  try_ (write_fmt [fmt_Result (OpTypeReserveId_result_id op) plain; lit "OpTypeReserveId"]) (done).
(* src/spv/op.rs:346-349 *)
Definition eq_OpTypeReserveId (a b : OpTypeReserveId) : bool :=
  N.eqb (OpTypeReserveId_result_id a) (OpTypeReserveId_result_id b).

(* src/spv/op.rs:379-382 *)
Record OpConstantTrue : Type := Build_OpConstantTrue {
  OpConstantTrue_result_type : OpId;
  OpConstantTrue_result_id : ResultId
}.

(* src/spv/op.rs:384 *)
Definition disp_OpConstantTrue (op : OpConstantTrue) : string :=
  disp_Result (OpConstantTrue_result_id op) ++ "OpConstantTrue" ++ format_arg disp_OpId (OpConstantTrue_result_type op).
(* src/spv/op.rs:384 *)
Definition fmt_OpConstantTrue : Display OpConstantTrue := fun op f =>
  try_ (write_fmt [fmt_Result (OpConstantTrue_result_id op) plain; lit "OpConstantTrue"]) (try_ (fmt_arg fmt_OpId (OpConstantTrue_result_type op) f) (done)).
(* src/spv/op.rs:378-382 *)
Definition eq_OpConstantTrue (a b : OpConstantTrue) : bool :=
  N.eqb (OpConstantTrue_result_type a) (OpConstantTrue_result_type b) && N.eqb (OpConstantTrue_result_id a) (OpConstantTrue_result_id b).

(* src/spv/op.rs:387-390 *)
Record OpConstantFalse : Type := Build_OpConstantFalse {
  OpConstantFalse_result_type : OpId;
  OpConstantFalse_result_id : ResultId
}.

(* src/spv/op.rs:392 *)
Definition disp_OpConstantFalse (op : OpConstantFalse) : string :=
  disp_Result (OpConstantFalse_result_id op) ++ "OpConstantFalse" ++ format_arg disp_OpId (OpConstantFalse_result_type op).
(* src/spv/op.rs:392 *)
Definition fmt_OpConstantFalse : Display OpConstantFalse := fun op f =>
  try_ (write_fmt [fmt_Result (OpConstantFalse_result_id op) plain; lit "OpConstantFalse"]) (try_ (fmt_arg fmt_OpId (OpConstantFalse_result_type op) f) (done)).
(* src/spv/op.rs:386-390 *)
Definition eq_OpConstantFalse (a b : OpConstantFalse) : bool :=
  N.eqb (OpConstantFalse_result_type a) (OpConstantFalse_result_type b) && N.eqb (OpConstantFalse_result_id a) (OpConstantFalse_result_id b).

(* src/spv/op.rs:413-419 *)
Record OpConstantSampler : Type := Build_OpConstantSampler {
  OpConstantSampler_result_type : OpId;
  OpConstantSampler_result_id : ResultId;
  OpConstantSampler_addressing_mode : SamplerAddressingMode;
  OpConstantSampler_param : SamplerParam;
  OpConstantSampler_filter_mode : SamplerFilterMode
}.

(* src/spv/op.rs:421 *)
Definition disp_OpConstantSampler (op : OpConstantSampler) : string :=
  disp_Result (OpConstantSampler_result_id op) ++ "OpConstantSampler" ++ format_arg disp_OpId (OpConstantSampler_result_type op) ++ format_arg disp_SamplerAddressingMode (OpConstantSampler_addressing_mode op) ++ format_arg disp_SamplerParam (OpConstantSampler_param op) ++ format_arg disp_SamplerFilterMode (OpConstantSampler_filter_mode op).
(* src/spv/op.rs:421 *)
Definition fmt_OpConstantSampler : Display OpConstantSampler := fun op f =>
  try_ (write_fmt [fmt_Result (OpConstantSampler_result_id op) plain; lit "OpConstantSampler"]) (try_ (fmt_arg fmt_OpId (OpConstantSampler_result_type op) f) (try_ (fmt_arg fmt_SamplerAddressingMode (OpConstantSampler_addressing_mode op) f) (try_ (fmt_arg fmt_SamplerParam (OpConstantSampler_param op) f) (try_ (fmt_arg fmt_SamplerFilterMode (OpConstantSampler_filter_mode op) f) (done))))).
(* src/spv/op.rs:412-419 *)
Definition eq_OpConstantSampler (a b : OpConstantSampler) : bool :=
  N.eqb (OpConstantSampler_result_type a) (OpConstantSampler_result_type b) && N.eqb (OpConstantSampler_result_id a) (OpConstantSampler_result_id b) && eq_SamplerAddressingMode (OpConstantSampler_addressing_mode a) (OpConstantSampler_addressing_mode b) && eq_SamplerParam (OpConstantSampler_param a) (OpConstantSampler_param b) && eq_SamplerFilterMode (OpConstantSampler_filter_mode a) (OpConstantSampler_filter_mode b).

(* src/spv/op.rs:424-427 *)
Record OpConstantNull : Type := Build_OpConstantNull {
  OpConstantNull_result_type : OpId;
  OpConstantNull_result_id : ResultId
}.

(* src/spv/op.rs:429 *)
Definition disp_OpConstantNull (op : OpConstantNull) : string :=
  disp_Result (OpConstantNull_result_id op) ++ "OpConstantNull" ++ format_arg disp_OpId (OpConstantNull_result_type op).
(* src/spv/op.rs:429 *)
Definition fmt_OpConstantNull : Display OpConstantNull := fun op f =>
  try_ (write_fmt [fmt_Result (OpConstantNull_result_id op) plain; lit "OpConstantNull"]) (try_ (fmt_arg fmt_OpId (OpConstantNull_result_type op) f) (done)).
(* src/spv/op.rs:423-427 *)
Definition eq_OpConstantNull (a b : OpConstantNull) : bool :=
  N.eqb (OpConstantNull_result_type a) (OpConstantNull_result_type b) && N.eqb (OpConstantNull_result_id a) (OpConstantNull_result_id b).

(* src/spv/op.rs:432-435 *)
Record OpSpecConstantTrue : Type := Build_OpSpecConstantTrue {
  OpSpecConstantTrue_result_type : OpId;
  OpSpecConstantTrue_result_id : ResultId
}.

(* src/spv/op.rs:437 *)
Definition disp_OpSpecConstantTrue (op : OpSpecConstantTrue) : string :=
  disp_Result (OpSpecConstantTrue_result_id op) ++ "OpSpecConstantTrue" ++ format_arg disp_OpId (OpSpecConstantTrue_result_type op).
(* src/spv/op.rs:437 *)
Definition fmt_OpSpecConstantTrue : Display OpSpecConstantTrue := fun op f =>
  try_ (write_fmt [fmt_Result (OpSpecConstantTrue_result_id op) plain; lit "OpSpecConstantTrue"]) (try_ (fmt_arg fmt_OpId (OpSpecConstantTrue_result_type op) f) (done)).
(* src/spv/op.rs:431-435 *)
Definition eq_OpSpecConstantTrue (a b : OpSpecConstantTrue) : bool :=
  N.eqb (OpSpecConstantTrue_result_type a) (OpSpecConstantTrue_result_type b) && N.eqb (OpSpecConstantTrue_result_id a) (OpSpecConstantTrue_result_id b).

(* src/spv/op.rs:440-443 *)
Record OpSpecConstantFalse : Type := Build_OpSpecConstantFalse {
  OpSpecConstantFalse_result_type : OpId;
  OpSpecConstantFalse_result_id : ResultId
}.

(* src/spv/op.rs:445 *)
Definition disp_OpSpecConstantFalse (op : OpSpecConstantFalse) : string :=
  disp_Result (OpSpecConstantFalse_result_id op) ++ "OpSpecConstantFalse" ++ format_arg disp_OpId (OpSpecConstantFalse_result_type op).
(* src/spv/op.rs:445 *)
Definition fmt_OpSpecConstantFalse : Display OpSpecConstantFalse := fun op f =>
  try_ (write_fmt [fmt_Result (OpSpecConstantFalse_result_id op) plain; lit "OpSpecConstantFalse"]) (try_ (fmt_arg fmt_OpId (OpSpecConstantFalse_result_type op) f) (done)).
(* src/spv/op.rs:439-443 *)
Definition eq_OpSpecConstantFalse (a b : OpSpecConstantFalse) : bool :=
  N.eqb (OpSpecConstantFalse_result_type a) (OpSpecConstantFalse_result_type b) && N.eqb (OpSpecConstantFalse_result_id a) (OpSpecConstantFalse_result_id b).

(* src/spv/op.rs:448-452 *)
Record OpSpecConstant : Type := Build_OpSpecConstant {
  OpSpecConstant_result_type : OpId;
  OpSpecConstant_result_id : ResultId;
  OpSpecConstant_value : LitBytes
}.

(* src/spv/op.rs:454 *)
Definition disp_OpSpecConstant (op : OpSpecConstant) : string :=
  disp_Result (OpSpecConstant_result_id op) ++ "OpSpecConstant" ++ format_arg disp_OpId (OpSpecConstant_result_type op) ++ format_arg_Vec disp_u32 (OpSpecConstant_value op).
(* src/spv/op.rs:454 *)
Definition fmt_OpSpecConstant : Display OpSpecConstant := fun op f =>
  try_ (write_fmt [fmt_Result (OpSpecConstant_result_id op) plain; lit "OpSpecConstant"]) (try_ (fmt_arg fmt_OpId (OpSpecConstant_result_type op) f) (try_ (fmt_arg_Vec fmt_u32 (OpSpecConstant_value op) f) (done))).
(* src/spv/op.rs:447-452 *)
Definition eq_OpSpecConstant (a b : OpSpecConstant) : bool :=
  N.eqb (OpSpecConstant_result_type a) (OpSpecConstant_result_type b) && N.eqb (OpSpecConstant_result_id a) (OpSpecConstant_result_id b) && (eq_Vec N.eqb) (OpSpecConstant_value a) (OpSpecConstant_value b).

(* src/spv/op.rs:457-461 *)
Record OpSpecConstantComposite : Type := Build_OpSpecConstantComposite {
  OpSpecConstantComposite_result_type : OpId;
  OpSpecConstantComposite_result_id : ResultId;
  OpSpecConstantComposite_constituents : (list OpId)
}.

(* src/spv/op.rs:463 *)
Definition disp_OpSpecConstantComposite (op : OpSpecConstantComposite) : string :=
  disp_Result (OpSpecConstantComposite_result_id op) ++ "OpSpecConstantComposite" ++ format_arg disp_OpId (OpSpecConstantComposite_result_type op) ++ format_arg_Vec disp_OpId (OpSpecConstantComposite_constituents op).
(* src/spv/op.rs:463 *)
Definition fmt_OpSpecConstantComposite : Display OpSpecConstantComposite := fun op f =>
  try_ (write_fmt [fmt_Result (OpSpecConstantComposite_result_id op) plain; lit "OpSpecConstantComposite"]) (try_ (fmt_arg fmt_OpId (OpSpecConstantComposite_result_type op) f) (try_ (fmt_arg_Vec fmt_OpId (OpSpecConstantComposite_constituents op) f) (done))).
(* src/spv/op.rs:456-461 *)
Definition eq_OpSpecConstantComposite (a b : OpSpecConstantComposite) : bool :=
  N.eqb (OpSpecConstantComposite_result_type a) (OpSpecConstantComposite_result_type b) && N.eqb (OpSpecConstantComposite_result_id a) (OpSpecConstantComposite_result_id b) && (eq_Vec N.eqb) (OpSpecConstantComposite_constituents a) (OpSpecConstantComposite_constituents b).

(* src/spv/op.rs:478-484 *)
Record OpImageTexelPointer : Type := Build_OpImageTexelPointer {
  OpImageTexelPointer_result_type : OpId;
  OpImageTexelPointer_result_id : ResultId;
  OpImageTexelPointer_image : OpId;
  OpImageTexelPointer_coordinate : OpId;
  OpImageTexelPointer_sample : OpId
}.

(* src/spv/op.rs:486 *)
Definition disp_OpImageTexelPointer (op : OpImageTexelPointer) : string :=
  disp_Result (OpImageTexelPointer_result_id op) ++ "OpImageTexelPointer" ++ format_arg disp_OpId (OpImageTexelPointer_result_type op) ++ format_arg disp_OpId (OpImageTexelPointer_image op) ++ format_arg disp_OpId (OpImageTexelPointer_coordinate op) ++ format_arg disp_OpId (OpImageTexelPointer_sample op).
(* src/spv/op.rs:486 *)
Definition fmt_OpImageTexelPointer : Display OpImageTexelPointer := fun op f =>
  try_ (write_fmt [fmt_Result (OpImageTexelPointer_result_id op) plain; lit "OpImageTexelPointer"]) (try_ (fmt_arg fmt_OpId (OpImageTexelPointer_result_type op) f) (try_ (fmt_arg fmt_OpId (OpImageTexelPointer_image op) f) (try_ (fmt_arg fmt_OpId (OpImageTexelPointer_coordinate op) f) (try_ (fmt_arg fmt_OpId (OpImageTexelPointer_sample op) f) (done))))).
(* src/spv/op.rs:477-484 *)
Definition eq_OpImageTexelPointer (a b : OpImageTexelPointer) : bool :=
  N.eqb (OpImageTexelPointer_result_type a) (OpImageTexelPointer_result_type b) && N.eqb (OpImageTexelPointer_result_id a) (OpImageTexelPointer_result_id b) && N.eqb (OpImageTexelPointer_image a) (OpImageTexelPointer_image b) && N.eqb (OpImageTexelPointer_coordinate a) (OpImageTexelPointer_coordinate b) && N.eqb (OpImageTexelPointer_sample a) (OpImageTexelPointer_sample b).

(* src/spv/op.rs:508-512 *)
Record OpCopyMemory : Type := Build_OpCopyMemory {
  OpCopyMemory_target : OpId;
  OpCopyMemory_source : OpId;
  OpCopyMemory_memory_access : (option MemoryAccess)
}.

(* src/spv/op.rs:514 *)
Definition disp_OpCopyMemory (op : OpCopyMemory) : string :=
  disp_NoResult ++ "OpCopyMemory" ++ format_arg disp_OpId (OpCopyMemory_target op) ++ format_arg disp_OpId (OpCopyMemory_source op) ++ format_arg_Option disp_MemoryAccess (OpCopyMemory_memory_access op).
(* src/spv/op.rs:514 *)
Definition fmt_OpCopyMemory : Display OpCopyMemory := fun op f =>
  try_ (write_fmt [fmt_NoResult plain; lit "OpCopyMemory"]) (try_ (fmt_arg fmt_OpId (OpCopyMemory_target op) f) (try_ (fmt_arg fmt_OpId (OpCopyMemory_source op) f) (try_ (fmt_arg_Option fmt_MemoryAccess (OpCopyMemory_memory_access op) f) (done)))).
(* src/spv/op.rs:507-512 *)
Definition eq_OpCopyMemory (a b : OpCopyMemory) : bool :=
  N.eqb (OpCopyMemory_target a) (OpCopyMemory_target b) && N.eqb (OpCopyMemory_source a) (OpCopyMemory_source b) && (eq_Option eq_MemoryAccess) (OpCopyMemory_memory_access a) (OpCopyMemory_memory_access b).

(* src/spv/op.rs:517-522 *)
Record OpCopyMemorySized : Type := Build_OpCopyMemorySized {
  OpCopyMemorySized_target : OpId;
  OpCopyMemorySized_source : OpId;
  OpCopyMemorySized_size : OpId;
  OpCopyMemorySized_memory_access : (option MemoryAccess)
}.

(* src/spv/op.rs:524 *)
Definition disp_OpCopyMemorySized (op : OpCopyMemorySized) : string :=
  disp_NoResult ++ "OpCopyMemorySized" ++ format_arg disp_OpId (OpCopyMemorySized_target op) ++ format_arg disp_OpId (OpCopyMemorySized_source op) ++ format_arg disp_OpId (OpCopyMemorySized_size op) ++ format_arg_Option disp_MemoryAccess (OpCopyMemorySized_memory_access op).
(* src/spv/op.rs:524 *)
Definition fmt_OpCopyMemorySized : Display OpCopyMemorySized := fun op f =>
  try_ (write_fmt [fmt_NoResult plain; lit "OpCopyMemorySized"]) (try_ (fmt_arg fmt_OpId (OpCopyMemorySized_target op) f) (try_ (fmt_arg fmt_OpId (OpCopyMemorySized_source op) f) (try_ (fmt_arg fmt_OpId (OpCopyMemorySized_size op) f) (try_ (fmt_arg_Option fmt_MemoryAccess (OpCopyMemorySized_memory_access op) f) (done))))).
(* src/spv/op.rs:516-522 *)
Definition eq_OpCopyMemorySized (a b : OpCopyMemorySized) : bool :=
  N.eqb (OpCopyMemorySized_target a) (OpCopyMemorySized_target b) && N.eqb (OpCopyMemorySized_source a) (OpCopyMemorySized_source b) && N.eqb (OpCopyMemorySized_size a) (OpCopyMemorySized_size b) && (eq_Option eq_MemoryAccess) (OpCopyMemorySized_memory_access a) (OpCopyMemorySized_memory_access b).

(* src/spv/op.rs:537-542 *)
Record OpInBoundsAccessChain : Type := Build_OpInBoundsAccessChain {
  OpInBoundsAccessChain_result_type : OpId;
  OpInBoundsAccessChain_result_id : ResultId;
  OpInBoundsAccessChain_base : OpId;
  OpInBoundsAccessChain_indexes : (list OpId)
}.

(* src/spv/op.rs:544 *)
Definition disp_OpInBoundsAccessChain (op : OpInBoundsAccessChain) : string :=
  disp_Result (OpInBoundsAccessChain_result_id op) ++ "OpInBoundsAccessChain" ++ format_arg disp_OpId (OpInBoundsAccessChain_result_type op) ++ format_arg disp_OpId (OpInBoundsAccessChain_base op) ++ format_arg_Vec disp_OpId (OpInBoundsAccessChain_indexes op).
(* src/spv/op.rs:544 *)
Definition fmt_OpInBoundsAccessChain : Display OpInBoundsAccessChain := fun op f =>
  try_ (write_fmt [fmt_Result (OpInBoundsAccessChain_result_id op) plain; lit "OpInBoundsAccessChain"]) (try_ (fmt_arg fmt_OpId (OpInBoundsAccessChain_result_type op) f) (try_ (fmt_arg fmt_OpId (OpInBoundsAccessChain_base op) f) (try_ (fmt_arg_Vec fmt_OpId (OpInBoundsAccessChain_indexes op) f) (done)))).
(* src/spv/op.rs:536-542 *)
Definition eq_OpInBoundsAccessChain (a b : OpInBoundsAccessChain) : bool :=
  N.eqb (OpInBoundsAccessChain_result_type a) (OpInBoundsAccessChain_result_type b) && N.eqb (OpInBoundsAccessChain_result_id a) (OpInBoundsAccessChain_result_id b) && N.eqb (OpInBoundsAccessChain_base a) (OpInBoundsAccessChain_base b) && (eq_Vec N.eqb) (OpInBoundsAccessChain_indexes a) (OpInBoundsAccessChain_indexes b).

(* src/spv/op.rs:547-553 *)
Record OpPtrAccessChain : Type := Build_OpPtrAccessChain {
  OpPtrAccessChain_result_type : OpId;
  OpPtrAccessChain_result_id : ResultId;
  OpPtrAccessChain_base : OpId;
  OpPtrAccessChain_element : OpId;
  OpPtrAccessChain_indexes : (list OpId)
}.

(* src/spv/op.rs:555 *)
Definition disp_OpPtrAccessChain (op : OpPtrAccessChain) : string :=
  disp_Result (OpPtrAccessChain_result_id op) ++ "OpPtrAccessChain" ++ format_arg disp_OpId (OpPtrAccessChain_result_type op) ++ format_arg disp_OpId (OpPtrAccessChain_base op) ++ format_arg disp_OpId (OpPtrAccessChain_element op) ++ format_arg_Vec disp_OpId (OpPtrAccessChain_indexes op).
(* src/spv/op.rs:555 *)
Definition fmt_OpPtrAccessChain : Display OpPtrAccessChain := fun op f =>
  try_ (write_fmt [fmt_Result (OpPtrAccessChain_result_id op) plain; lit "OpPtrAccessChain"]) (try_ (fmt_arg fmt_OpId (OpPtrAccessChain_result_type op) f) (try_ (fmt_arg fmt_OpId (OpPtrAccessChain_base op) f) (try_ (fmt_arg fmt_OpId (OpPtrAccessChain_element op) f) (try_ (fmt_arg_Vec fmt_OpId (OpPtrAccessChain_indexes op) f) (done))))).
(* src/spv/op.rs:546-553 *)
Definition eq_OpPtrAccessChain (a b : OpPtrAccessChain) : bool :=
  N.eqb (OpPtrAccessChain_result_type a) (OpPtrAccessChain_result_type b) && N.eqb (OpPtrAccessChain_result_id a) (OpPtrAccessChain_result_id b) && N.eqb (OpPtrAccessChain_base a) (OpPtrAccessChain_base b) && N.eqb (OpPtrAccessChain_element a) (OpPtrAccessChain_element b) && (eq_Vec N.eqb) (OpPtrAccessChain_indexes a) (OpPtrAccessChain_indexes b).

(* src/spv/op.rs:558-563 *)
Record OpArrayLength : Type := Build_OpArrayLength {
  OpArrayLength_result_type : OpId;
  OpArrayLength_result_id : ResultId;
  OpArrayLength_structure : OpId;
  OpArrayLength_array_member : MemberIndex
}.

(* src/spv/op.rs:565 *)
Definition disp_OpArrayLength (op : OpArrayLength) : string :=
  disp_Result (OpArrayLength_result_id op) ++ "OpArrayLength" ++ format_arg disp_OpId (OpArrayLength_result_type op) ++ format_arg disp_OpId (OpArrayLength_structure op) ++ format_arg disp_MemberIndex (OpArrayLength_array_member op).
(* src/spv/op.rs:565 *)
Definition fmt_OpArrayLength : Display OpArrayLength := fun op f =>
  try_ (write_fmt [fmt_Result (OpArrayLength_result_id op) plain; lit "OpArrayLength"]) (try_ (fmt_arg fmt_OpId (OpArrayLength_result_type op) f) (try_ (fmt_arg fmt_OpId (OpArrayLength_structure op) f) (try_ (fmt_arg fmt_MemberIndex (OpArrayLength_array_member op) f) (done)))).
(* src/spv/op.rs:557-563 *)
Definition eq_OpArrayLength (a b : OpArrayLength) : bool :=
  N.eqb (OpArrayLength_result_type a) (OpArrayLength_result_type b) && N.eqb (OpArrayLength_result_id a) (OpArrayLength_result_id b) && N.eqb (OpArrayLength_structure a) (OpArrayLength_structure b) && N.eqb (OpArrayLength_array_member a) (OpArrayLength_array_member b).

(* src/spv/op.rs:568-572 *)
Record OpGenericPtrMemSemantics : Type := Build_OpGenericPtrMemSemantics {
  OpGenericPtrMemSemantics_result_type : OpId;
  OpGenericPtrMemSemantics_result_id : ResultId;
  OpGenericPtrMemSemantics_pointer : OpId
}.

(* src/spv/op.rs:574 *)
Definition disp_OpGenericPtrMemSemantics (op : OpGenericPtrMemSemantics) : string :=
  disp_Result (OpGenericPtrMemSemantics_result_id op) ++ "OpGenericPtrMemSemantics" ++ format_arg disp_OpId (OpGenericPtrMemSemantics_result_type op) ++ format_arg disp_OpId (OpGenericPtrMemSemantics_pointer op).
(* src/spv/op.rs:574 *)
Definition fmt_OpGenericPtrMemSemantics : Display OpGenericPtrMemSemantics := fun op f =>
  try_ (write_fmt [fmt_Result (OpGenericPtrMemSemantics_result_id op) plain; lit "OpGenericPtrMemSemantics"]) (try_ (fmt_arg fmt_OpId (OpGenericPtrMemSemantics_result_type op) f) (try_ (fmt_arg fmt_OpId (OpGenericPtrMemSemantics_pointer op) f) (done))).
(* src/spv/op.rs:567-572 *)
Definition eq_OpGenericPtrMemSemantics (a b : OpGenericPtrMemSemantics) : bool :=
  N.eqb (OpGenericPtrMemSemantics_result_type a) (OpGenericPtrMemSemantics_result_type b) && N.eqb (OpGenericPtrMemSemantics_result_id a) (OpGenericPtrMemSemantics_result_id b) && N.eqb (OpGenericPtrMemSemantics_pointer a) (OpGenericPtrMemSemantics_pointer b).

(* src/spv/op.rs:577-583 *)
Record OpInBoundsPtrAccessChain : Type := Build_OpInBoundsPtrAccessChain {
  OpInBoundsPtrAccessChain_result_type : OpId;
  OpInBoundsPtrAccessChain_result_id : ResultId;
  OpInBoundsPtrAccessChain_base : OpId;
  OpInBoundsPtrAccessChain_element : OpId;
  OpInBoundsPtrAccessChain_indexes : (list OpId)
}.

(* src/spv/op.rs:585 *)
Definition disp_OpInBoundsPtrAccessChain (op : OpInBoundsPtrAccessChain) : string :=
  disp_Result (OpInBoundsPtrAccessChain_result_id op) ++ "OpInBoundsPtrAccessChain" ++ format_arg disp_OpId (OpInBoundsPtrAccessChain_result_type op) ++ format_arg disp_OpId (OpInBoundsPtrAccessChain_base op) ++ format_arg disp_OpId (OpInBoundsPtrAccessChain_element op) ++ format_arg_Vec disp_OpId (OpInBoundsPtrAccessChain_indexes op).
(* src/spv/op.rs:585 *)
Definition fmt_OpInBoundsPtrAccessChain : Display OpInBoundsPtrAccessChain := fun op f =>
  try_ (write_fmt [fmt_Result (OpInBoundsPtrAccessChain_result_id op) plain; lit "OpInBoundsPtrAccessChain"]) (try_ (fmt_arg fmt_OpId (OpInBoundsPtrAccessChain_result_type op) f) (try_ (fmt_arg fmt_OpId (OpInBoundsPtrAccessChain_base op) f) (try_ (fmt_arg fmt_OpId (OpInBoundsPtrAccessChain_element op) f) (try_ (fmt_arg_Vec fmt_OpId (OpInBoundsPtrAccessChain_indexes op) f) (done))))).
(* src/spv/op.rs:576-583 *)
Definition eq_OpInBoundsPtrAccessChain (a b : OpInBoundsPtrAccessChain) : bool :=
  N.eqb (OpInBoundsPtrAccessChain_result_type a) (OpInBoundsPtrAccessChain_result_type b) && N.eqb (OpInBoundsPtrAccessChain_result_id a) (OpInBoundsPtrAccessChain_result_id b) && N.eqb (OpInBoundsPtrAccessChain_base a) (OpInBoundsPtrAccessChain_base b) && N.eqb (OpInBoundsPtrAccessChain_element a) (OpInBoundsPtrAccessChain_element b) && (eq_Vec N.eqb) (OpInBoundsPtrAccessChain_indexes a) (OpInBoundsPtrAccessChain_indexes b).

(* src/spv/op.rs:613-618 *)
Record OpFunctionCall : Type := Build_OpFunctionCall {
  OpFunctionCall_result_type : OpId;
  OpFunctionCall_result_id : ResultId;
  OpFunctionCall_function : OpId;
  OpFunctionCall_arguments : (list OpId)
}.

(* src/spv/op.rs:620 *)
Definition disp_OpFunctionCall (op : OpFunctionCall) : string :=
  disp_Result (OpFunctionCall_result_id op) ++ "OpFunctionCall" ++ format_arg disp_OpId (OpFunctionCall_result_type op) ++ format_arg disp_OpId (OpFunctionCall_function op) ++ format_arg_Vec disp_OpId (OpFunctionCall_arguments op).
(* src/spv/op.rs:620 *)
Definition fmt_OpFunctionCall : Display OpFunctionCall := fun op f =>
  try_ (write_fmt [fmt_Result (OpFunctionCall_result_id op) plain; lit "OpFunctionCall"]) (try_ (fmt_arg fmt_OpId (OpFunctionCall_result_type op) f) (try_ (fmt_arg fmt_OpId (OpFunctionCall_function op) f) (try_ (fmt_arg_Vec fmt_OpId (OpFunctionCall_arguments op) f) (done)))).
(* src/spv/op.rs:612-618 *)
Definition eq_OpFunctionCall (a b : OpFunctionCall) : bool :=
  N.eqb (OpFunctionCall_result_type a) (OpFunctionCall_result_type b) && N.eqb (OpFunctionCall_result_id a) (OpFunctionCall_result_id b) && N.eqb (OpFunctionCall_function a) (OpFunctionCall_function b) && (eq_Vec N.eqb) (OpFunctionCall_arguments a) (OpFunctionCall_arguments b).

(* src/spv/op.rs:625-630 *)
Record OpSampledImage : Type := Build_OpSampledImage {
  OpSampledImage_result_type : OpId;
  OpSampledImage_result_id : ResultId;
  OpSampledImage_image : OpId;
  OpSampledImage_sampler : OpId
}.

(* src/spv/op.rs:632 *)
Definition disp_OpSampledImage (op : OpSampledImage) : string :=
  disp_Result (OpSampledImage_result_id op) ++ "OpSampledImage" ++ format_arg disp_OpId (OpSampledImage_result_type op) ++ format_arg disp_OpId (OpSampledImage_image op) ++ format_arg disp_OpId (OpSampledImage_sampler op).
(* src/spv/op.rs:632 *)
Definition fmt_OpSampledImage : Display OpSampledImage := fun op f =>
  try_ (write_fmt [fmt_Result (OpSampledImage_result_id op) plain; lit "OpSampledImage"]) (try_ (fmt_arg fmt_OpId (OpSampledImage_result_type op) f) (try_ (fmt_arg fmt_OpId (OpSampledImage_image op) f) (try_ (fmt_arg fmt_OpId (OpSampledImage_sampler op) f) (done)))).
(* src/spv/op.rs:624-630 *)
Definition eq_OpSampledImage (a b : OpSampledImage) : bool :=
  N.eqb (OpSampledImage_result_type a) (OpSampledImage_result_type b) && N.eqb (OpSampledImage_result_id a) (OpSampledImage_result_id b) && N.eqb (OpSampledImage_image a) (OpSampledImage_image b) && N.eqb (OpSampledImage_sampler a) (OpSampledImage_sampler b).

(* src/spv/op.rs:832-836 *)
Record OpConvertFToU : Type := Build_OpConvertFToU {
  OpConvertFToU_result_type : OpId;
  OpConvertFToU_result_id : ResultId;
  OpConvertFToU_float_value : OpId
}.

(* src/spv/op.rs:838 *)
Definition disp_OpConvertFToU (op : OpConvertFToU) : string :=
  disp_Result (OpConvertFToU_result_id op) ++ "OpConvertFToU" ++ format_arg disp_OpId (OpConvertFToU_result_type op) ++ format_arg disp_OpId (OpConvertFToU_float_value op).
(* src/spv/op.rs:838 *)
Definition fmt_OpConvertFToU : Display OpConvertFToU := fun op f =>
  try_ (write_fmt [fmt_Result (OpConvertFToU_result_id op) plain; lit "OpConvertFToU"]) (try_ (fmt_arg fmt_OpId (OpConvertFToU_result_type op) f) (try_ (fmt_arg fmt_OpId (OpConvertFToU_float_value op) f) (done))).
(* src/spv/op.rs:831-836 *)
Definition eq_OpConvertFToU (a b : OpConvertFToU) : bool :=
  N.eqb (OpConvertFToU_result_type a) (OpConvertFToU_result_type b) && N.eqb (OpConvertFToU_result_id a) (OpConvertFToU_result_id b) && N.eqb (OpConvertFToU_float_value a) (OpConvertFToU_float_value b).

(* src/spv/op.rs:841-845 *)
Record OpConvertFToS : Type := Build_OpConvertFToS {
  OpConvertFToS_result_type : OpId;
  OpConvertFToS_result_id : ResultId;
  OpConvertFToS_float_value : OpId
}.

(* src/spv/op.rs:847 *)
Definition disp_OpConvertFToS (op : OpConvertFToS) : string :=
  disp_Result (OpConvertFToS_result_id op) ++ "OpConvertFToS" ++ format_arg disp_OpId (OpConvertFToS_result_type op) ++ format_arg disp_OpId (OpConvertFToS_float_value op).
(* src/spv/op.rs:847 *)
Definition fmt_OpConvertFToS : Display OpConvertFToS := fun op f =>
  try_ (write_fmt [fmt_Result (OpConvertFToS_result_id op) plain; lit "OpConvertFToS"]) (try_ (fmt_arg fmt_OpId (OpConvertFToS_result_type op) f) (try_ (fmt_arg fmt_OpId (OpConvertFToS_float_value op) f) (done))).
(* src/spv/op.rs:840-845 *)
Definition eq_OpConvertFToS (a b : OpConvertFToS) : bool :=
  N.eqb (OpConvertFToS_result_type a) (OpConvertFToS_result_type b) && N.eqb (OpConvertFToS_result_id a) (OpConvertFToS_result_id b) && N.eqb (OpConvertFToS_float_value a) (OpConvertFToS_float_value b).

(* src/spv/op.rs:850-854 *)
Record OpConvertSToF : Type := Build_OpConvertSToF {
  OpConvertSToF_result_type : OpId;
  OpConvertSToF_result_id : ResultId;
  OpConvertSToF_signed_value : OpId
}.

(* src/spv/op.rs:856 *)
Definition disp_OpConvertSToF (op : OpConvertSToF) : string :=
  disp_Result (OpConvertSToF_result_id op) ++ "OpConvertSToF" ++ format_arg disp_OpId (OpConvertSToF_result_type op) ++ format_arg disp_OpId (OpConvertSToF_signed_value op).
(* src/spv/op.rs:856 *)
Definition fmt_OpConvertSToF : Display OpConvertSToF := fun op f =>
  try_ (write_fmt [fmt_Result (OpConvertSToF_result_id op) plain; lit "OpConvertSToF"]) (try_ (fmt_arg fmt_OpId (OpConvertSToF_result_type op) f) (try_ (fmt_arg fmt_OpId (OpConvertSToF_signed_value op) f) (done))).
(* src/spv/op.rs:849-854 *)
Definition eq_OpConvertSToF (a b : OpConvertSToF) : bool :=
  N.eqb (OpConvertSToF_result_type a) (OpConvertSToF_result_type b) && N.eqb (OpConvertSToF_result_id a) (OpConvertSToF_result_id b) && N.eqb (OpConvertSToF_signed_value a) (OpConvertSToF_signed_value b).

(* src/spv/op.rs:868-872 *)
Record OpUConvert : Type := Build_OpUConvert {
  OpUConvert_result_type : OpId;
  OpUConvert_result_id : ResultId;
  OpUConvert_unsigned_value : OpId
}.

(* src/spv/op.rs:874 *)
Definition disp_OpUConvert (op : OpUConvert) : string :=
  disp_Result (OpUConvert_result_id op) ++ "OpUConvert" ++ format_arg disp_OpId (OpUConvert_result_type op) ++ format_arg disp_OpId (OpUConvert_unsigned_value op).
(* src/spv/op.rs:874 *)
Definition fmt_OpUConvert : Display OpUConvert := fun op f =>
  try_ (write_fmt [fmt_Result (OpUConvert_result_id op) plain; lit "OpUConvert"]) (try_ (fmt_arg fmt_OpId (OpUConvert_result_type op) f) (try_ (fmt_arg fmt_OpId (OpUConvert_unsigned_value op) f) (done))).
(* src/spv/op.rs:867-872 *)
Definition eq_OpUConvert (a b : OpUConvert) : bool :=
  N.eqb (OpUConvert_result_type a) (OpUConvert_result_type b) && N.eqb (OpUConvert_result_id a) (OpUConvert_result_id b) && N.eqb (OpUConvert_unsigned_value a) (OpUConvert_unsigned_value b).

(* src/spv/op.rs:877-881 *)
Record OpSConvert : Type := Build_OpSConvert {
  OpSConvert_result_type : OpId;
  OpSConvert_result_id : ResultId;
  OpSConvert_signed_value : OpId
}.

(* src/spv/op.rs:883 *)
Definition disp_OpSConvert (op : OpSConvert) : string :=
  disp_Result (OpSConvert_result_id op) ++ "OpSConvert" ++ format_arg disp_OpId (OpSConvert_result_type op) ++ format_arg disp_OpId (OpSConvert_signed_value op).
(* src/spv/op.rs:883 *)
Definition fmt_OpSConvert : Display OpSConvert := fun op f =>
  try_ (write_fmt [fmt_Result (OpSConvert_result_id op) plain; lit "OpSConvert"]) (try_ (fmt_arg fmt_OpId (OpSConvert_result_type op) f) (try_ (fmt_arg fmt_OpId (OpSConvert_signed_value op) f) (done))).
(* src/spv/op.rs:876-881 *)
Definition eq_OpSConvert (a b : OpSConvert) : bool :=
  N.eqb (OpSConvert_result_type a) (OpSConvert_result_type b) && N.eqb (OpSConvert_result_id a) (OpSConvert_result_id b) && N.eqb (OpSConvert_signed_value a) (OpSConvert_signed_value b).

(* src/spv/op.rs:886-890 *)
Record OpFConvert : Type := Build_OpFConvert {
  OpFConvert_result_type : OpId;
  OpFConvert_result_id : ResultId;
  OpFConvert_float_value : OpId
}.

(* src/spv/op.rs:892 *)
Definition disp_OpFConvert (op : OpFConvert) : string :=
  disp_Result (OpFConvert_result_id op) ++ "OpFConvert" ++ format_arg disp_OpId (OpFConvert_result_type op) ++ format_arg disp_OpId (OpFConvert_float_value op).
(* src/spv/op.rs:892 *)
Definition fmt_OpFConvert : Display OpFConvert := fun op f =>
  try_ (write_fmt [fmt_Result (OpFConvert_result_id op) plain; lit "OpFConvert"]) (try_ (fmt_arg fmt_OpId (OpFConvert_result_type op) f) (try_ (fmt_arg fmt_OpId (OpFConvert_float_value op) f) (done))).
(* src/spv/op.rs:885-890 *)
Definition eq_OpFConvert (a b : OpFConvert) : bool :=
  N.eqb (OpFConvert_result_type a) (OpFConvert_result_type b) && N.eqb (OpFConvert_result_id a) (OpFConvert_result_id b) && N.eqb (OpFConvert_float_value a) (OpFConvert_float_value b).

(* src/spv/op.rs:895-899 *)
Record OpQuantizeToF16 : Type := Build_OpQuantizeToF16 {
  OpQuantizeToF16_result_type : OpId;
  OpQuantizeToF16_result_id : ResultId;
  OpQuantizeToF16_value : OpId
}.

(* src/spv/op.rs:901 *)
Definition disp_OpQuantizeToF16 (op : OpQuantizeToF16) : string :=
  disp_Result (OpQuantizeToF16_result_id op) ++ "OpQuantizeToF16" ++ format_arg disp_OpId (OpQuantizeToF16_result_type op) ++ format_arg disp_OpId (OpQuantizeToF16_value op).
(* src/spv/op.rs:901 *)
Definition fmt_OpQuantizeToF16 : Display OpQuantizeToF16 := fun op f =>
  try_ (write_fmt [fmt_Result (OpQuantizeToF16_result_id op) plain; lit "OpQuantizeToF16"]) (try_ (fmt_arg fmt_OpId (OpQuantizeToF16_result_type op) f) (try_ (fmt_arg fmt_OpId (OpQuantizeToF16_value op) f) (done))).
(* src/spv/op.rs:894-899 *)
Definition eq_OpQuantizeToF16 (a b : OpQuantizeToF16) : bool :=
  N.eqb (OpQuantizeToF16_result_type a) (OpQuantizeToF16_result_type b) && N.eqb (OpQuantizeToF16_result_id a) (OpQuantizeToF16_result_id b) && N.eqb (OpQuantizeToF16_value a) (OpQuantizeToF16_value b).

(* src/spv/op.rs:904-908 *)
Record OpConvertPtrToU : Type := Build_OpConvertPtrToU {
  OpConvertPtrToU_result_type : OpId;
  OpConvertPtrToU_result_id : ResultId;
  OpConvertPtrToU_pointer : OpId
}.

(* src/spv/op.rs:910 *)
Definition disp_OpConvertPtrToU (op : OpConvertPtrToU) : string :=
  disp_Result (OpConvertPtrToU_result_id op) ++ "OpConvertPtrToU" ++ format_arg disp_OpId (OpConvertPtrToU_result_type op) ++ format_arg disp_OpId (OpConvertPtrToU_pointer op).
(* src/spv/op.rs:910 *)
Definition fmt_OpConvertPtrToU : Display OpConvertPtrToU := fun op f =>
  try_ (write_fmt [fmt_Result (OpConvertPtrToU_result_id op) plain; lit "OpConvertPtrToU"]) (try_ (fmt_arg fmt_OpId (OpConvertPtrToU_result_type op) f) (try_ (fmt_arg fmt_OpId (OpConvertPtrToU_pointer op) f) (done))).
(* src/spv/op.rs:903-908 *)
Definition eq_OpConvertPtrToU (a b : OpConvertPtrToU) : bool :=
  N.eqb (OpConvertPtrToU_result_type a) (OpConvertPtrToU_result_type b) && N.eqb (OpConvertPtrToU_result_id a) (OpConvertPtrToU_result_id b) && N.eqb (OpConvertPtrToU_pointer a) (OpConvertPtrToU_pointer b).

(* src/spv/op.rs:913-917 *)
Record OpSatConvertSToU : Type := Build_OpSatConvertSToU {
  OpSatConvertSToU_result_type : OpId;
  OpSatConvertSToU_result_id : ResultId;
  OpSatConvertSToU_signed_value : OpId
}.

(* src/spv/op.rs:919 *)
Definition disp_OpSatConvertSToU (op : OpSatConvertSToU) : string :=
  disp_Result (OpSatConvertSToU_result_id op) ++ "OpSatConvertSToU" ++ format_arg disp_OpId (OpSatConvertSToU_result_type op) ++ format_arg disp_OpId (OpSatConvertSToU_signed_value op).
(* src/spv/op.rs:919 *)
Definition fmt_OpSatConvertSToU : Display OpSatConvertSToU := fun op f =>
  try_ (write_fmt [fmt_Result (OpSatConvertSToU_result_id op) plain; lit "OpSatConvertSToU"]) (try_ (fmt_arg fmt_OpId (OpSatConvertSToU_result_type op) f) (try_ (fmt_arg fmt_OpId (OpSatConvertSToU_signed_value op) f) (done))).
(* src/spv/op.rs:912-917 *)
Definition eq_OpSatConvertSToU (a b : OpSatConvertSToU) : bool :=
  N.eqb (OpSatConvertSToU_result_type a) (OpSatConvertSToU_result_type b) && N.eqb (OpSatConvertSToU_result_id a) (OpSatConvertSToU_result_id b) && N.eqb (OpSatConvertSToU_signed_value a) (OpSatConvertSToU_signed_value b).

(* src/spv/op.rs:922-926 *)
Record OpSatConvertUToS : Type := Build_OpSatConvertUToS {
  OpSatConvertUToS_result_type : OpId;
  OpSatConvertUToS_result_id : ResultId;
  OpSatConvertUToS_unsigned_value : OpId
}.

(* src/spv/op.rs:928 *)
Definition disp_OpSatConvertUToS (op : OpSatConvertUToS) : string :=
  disp_Result (OpSatConvertUToS_result_id op) ++ "OpSatConvertUToS" ++ format_arg disp_OpId (OpSatConvertUToS_result_type op) ++ format_arg disp_OpId (OpSatConvertUToS_unsigned_value op).
(* src/spv/op.rs:928 *)
Definition fmt_OpSatConvertUToS : Display OpSatConvertUToS := fun op f =>
  try_ (write_fmt [fmt_Result (OpSatConvertUToS_result_id op) plain; lit "OpSatConvertUToS"]) (try_ (fmt_arg fmt_OpId (OpSatConvertUToS_result_type op) f) (try_ (fmt_arg fmt_OpId (OpSatConvertUToS_unsigned_value op) f) (done))).
(* src/spv/op.rs:921-926 *)
Definition eq_OpSatConvertUToS (a b : OpSatConvertUToS) : bool :=
  N.eqb (OpSatConvertUToS_result_type a) (OpSatConvertUToS_result_type b) && N.eqb (OpSatConvertUToS_result_id a) (OpSatConvertUToS_result_id b) && N.eqb (OpSatConvertUToS_unsigned_value a) (OpSatConvertUToS_unsigned_value b).

(* src/spv/op.rs:931-935 *)
Record OpConvertUToPtr : Type := Build_OpConvertUToPtr {
  OpConvertUToPtr_result_type : OpId;
  OpConvertUToPtr_result_id : ResultId;
  OpConvertUToPtr_integer_value : OpId
}.

(* src/spv/op.rs:937 *)
Definition disp_OpConvertUToPtr (op : OpConvertUToPtr) : string :=
  disp_Result (OpConvertUToPtr_result_id op) ++ "OpConvertUToPtr" ++ format_arg disp_OpId (OpConvertUToPtr_result_type op) ++ format_arg disp_OpId (OpConvertUToPtr_integer_value op).
(* src/spv/op.rs:937 *)
Definition fmt_OpConvertUToPtr : Display OpConvertUToPtr := fun op f =>
  try_ (write_fmt [fmt_Result (OpConvertUToPtr_result_id op) plain; lit "OpConvertUToPtr"]) (try_ (fmt_arg fmt_OpId (OpConvertUToPtr_result_type op) f) (try_ (fmt_arg fmt_OpId (OpConvertUToPtr_integer_value op) f) (done))).
(* src/spv/op.rs:930-935 *)
Definition eq_OpConvertUToPtr (a b : OpConvertUToPtr) : bool :=
  N.eqb (OpConvertUToPtr_result_type a) (OpConvertUToPtr_result_type b) && N.eqb (OpConvertUToPtr_result_id a) (OpConvertUToPtr_result_id b) && N.eqb (OpConvertUToPtr_integer_value a) (OpConvertUToPtr_integer_value b).

(* src/spv/op.rs:940-944 *)
Record OpPtrCastToGeneric : Type := Build_OpPtrCastToGeneric {
  OpPtrCastToGeneric_result_type : OpId;
  OpPtrCastToGeneric_result_id : ResultId;
  OpPtrCastToGeneric_pointer : OpId
}.

(* src/spv/op.rs:946 *)
Definition disp_OpPtrCastToGeneric (op : OpPtrCastToGeneric) : string :=
  disp_Result (OpPtrCastToGeneric_result_id op) ++ "OpPtrCastToGeneric" ++ format_arg disp_OpId (OpPtrCastToGeneric_result_type op) ++ format_arg disp_OpId (OpPtrCastToGeneric_pointer op).
(* src/spv/op.rs:946 *)
Definition fmt_OpPtrCastToGeneric : Display OpPtrCastToGeneric := fun op f =>
  try_ (write_fmt [fmt_Result (OpPtrCastToGeneric_result_id op) plain; lit "OpPtrCastToGeneric"]) (try_ (fmt_arg fmt_OpId (OpPtrCastToGeneric_result_type op) f) (try_ (fmt_arg fmt_OpId (OpPtrCastToGeneric_pointer op) f) (done))).
(* src/spv/op.rs:939-944 *)
Definition eq_OpPtrCastToGeneric (a b : OpPtrCastToGeneric) : bool :=
  N.eqb (OpPtrCastToGeneric_result_type a) (OpPtrCastToGeneric_result_type b) && N.eqb (OpPtrCastToGeneric_result_id a) (OpPtrCastToGeneric_result_id b) && N.eqb (OpPtrCastToGeneric_pointer a) (OpPtrCastToGeneric_pointer b).

(* src/spv/op.rs:949-953 *)
Record OpGenericCastToPtr : Type := Build_OpGenericCastToPtr {
  OpGenericCastToPtr_result_type : OpId;
  OpGenericCastToPtr_result_id : ResultId;
  OpGenericCastToPtr_pointer : OpId
}.

(* src/spv/op.rs:955 *)
Definition disp_OpGenericCastToPtr (op : OpGenericCastToPtr) : string :=
  disp_Result (OpGenericCastToPtr_result_id op) ++ "OpGenericCastToPtr" ++ format_arg disp_OpId (OpGenericCastToPtr_result_type op) ++ format_arg disp_OpId (OpGenericCastToPtr_pointer op).
(* src/spv/op.rs:955 *)
Definition fmt_OpGenericCastToPtr : Display OpGenericCastToPtr := fun op f =>
  try_ (write_fmt [fmt_Result (OpGenericCastToPtr_result_id op) plain; lit "OpGenericCastToPtr"]) (try_ (fmt_arg fmt_OpId (OpGenericCastToPtr_result_type op) f) (try_ (fmt_arg fmt_OpId (OpGenericCastToPtr_pointer op) f) (done))).
(* src/spv/op.rs:948-953 *)
Definition eq_OpGenericCastToPtr (a b : OpGenericCastToPtr) : bool :=
  N.eqb (OpGenericCastToPtr_result_type a) (OpGenericCastToPtr_result_type b) && N.eqb (OpGenericCastToPtr_result_id a) (OpGenericCastToPtr_result_id b) && N.eqb (OpGenericCastToPtr_pointer a) (OpGenericCastToPtr_pointer b).

(* src/spv/op.rs:958-963 *)
Record OpGenericCastToPtrExplicit : Type := Build_OpGenericCastToPtrExplicit {
  OpGenericCastToPtrExplicit_result_type : OpId;
  OpGenericCastToPtrExplicit_result_id : ResultId;
  OpGenericCastToPtrExplicit_pointer : OpId;
  OpGenericCastToPtrExplicit_storage_class : StorageClass
}.

(* src/spv/op.rs:965 *)
Definition disp_OpGenericCastToPtrExplicit (op : OpGenericCastToPtrExplicit) : string :=
  disp_Result (OpGenericCastToPtrExplicit_result_id op) ++ "OpGenericCastToPtrExplicit" ++ format_arg disp_OpId (OpGenericCastToPtrExplicit_result_type op) ++ format_arg disp_OpId (OpGenericCastToPtrExplicit_pointer op) ++ format_arg disp_StorageClass (OpGenericCastToPtrExplicit_storage_class op).
(* src/spv/op.rs:965 *)
Definition fmt_OpGenericCastToPtrExplicit : Display OpGenericCastToPtrExplicit := fun op f =>
  try_ (write_fmt [fmt_Result (OpGenericCastToPtrExplicit_result_id op) plain; lit "OpGenericCastToPtrExplicit"]) (try_ (fmt_arg fmt_OpId (OpGenericCastToPtrExplicit_result_type op) f) (try_ (fmt_arg fmt_OpId (OpGenericCastToPtrExplicit_pointer op) f) (try_ (fmt_arg fmt_StorageClass (OpGenericCastToPtrExplicit_storage_class op) f) (done)))).
(* src/spv/op.rs:957-963 *)
Definition eq_OpGenericCastToPtrExplicit (a b : OpGenericCastToPtrExplicit) : bool :=
  N.eqb (OpGenericCastToPtrExplicit_result_type a) (OpGenericCastToPtrExplicit_result_type b) && N.eqb (OpGenericCastToPtrExplicit_result_id a) (OpGenericCastToPtrExplicit_result_id b) && N.eqb (OpGenericCastToPtrExplicit_pointer a) (OpGenericCastToPtrExplicit_pointer b) && eq_StorageClass (OpGenericCastToPtrExplicit_storage_class a) (OpGenericCastToPtrExplicit_storage_class b).

(* src/spv/op.rs:979-984 *)
Record OpVectorExtractDynamic : Type := Build_OpVectorExtractDynamic {
  OpVectorExtractDynamic_result_type : OpId;
  OpVectorExtractDynamic_result_id : ResultId;
  OpVectorExtractDynamic_vector : OpId;
  OpVectorExtractDynamic_index : OpId
}.

(* src/spv/op.rs:986 *)
Definition disp_OpVectorExtractDynamic (op : OpVectorExtractDynamic) : string :=
  disp_Result (OpVectorExtractDynamic_result_id op) ++ "OpVectorExtractDynamic" ++ format_arg disp_OpId (OpVectorExtractDynamic_result_type op) ++ format_arg disp_OpId (OpVectorExtractDynamic_vector op) ++ format_arg disp_OpId (OpVectorExtractDynamic_index op).
(* src/spv/op.rs:986 *)
Definition fmt_OpVectorExtractDynamic : Display OpVectorExtractDynamic := fun op f =>
  try_ (write_fmt [fmt_Result (OpVectorExtractDynamic_result_id op) plain; lit "OpVectorExtractDynamic"]) (try_ (fmt_arg fmt_OpId (OpVectorExtractDynamic_result_type op) f) (try_ (fmt_arg fmt_OpId (OpVectorExtractDynamic_vector op) f) (try_ (fmt_arg fmt_OpId (OpVectorExtractDynamic_index op) f) (done)))).
(* src/spv/op.rs:978-984 *)
Definition eq_OpVectorExtractDynamic (a b : OpVectorExtractDynamic) : bool :=
  N.eqb (OpVectorExtractDynamic_result_type a) (OpVectorExtractDynamic_result_type b) && N.eqb (OpVectorExtractDynamic_result_id a) (OpVectorExtractDynamic_result_id b) && N.eqb (OpVectorExtractDynamic_vector a) (OpVectorExtractDynamic_vector b) && N.eqb (OpVectorExtractDynamic_index a) (OpVectorExtractDynamic_index b).

(* src/spv/op.rs:989-995 *)
Record OpVectorInsertDynamic : Type := Build_OpVectorInsertDynamic {
  OpVectorInsertDynamic_result_type : OpId;
  OpVectorInsertDynamic_result_id : ResultId;
  OpVectorInsertDynamic_vector : OpId;
  OpVectorInsertDynamic_component : OpId;
  OpVectorInsertDynamic_index : OpId
}.

(* src/spv/op.rs:997 *)
Definition disp_OpVectorInsertDynamic (op : OpVectorInsertDynamic) : string :=
  disp_Result (OpVectorInsertDynamic_result_id op) ++ "OpVectorInsertDynamic" ++ format_arg disp_OpId (OpVectorInsertDynamic_result_type op) ++ format_arg disp_OpId (OpVectorInsertDynamic_vector op) ++ format_arg disp_OpId (OpVectorInsertDynamic_component op) ++ format_arg disp_OpId (OpVectorInsertDynamic_index op).
(* src/spv/op.rs:997 *)
Definition fmt_OpVectorInsertDynamic : Display OpVectorInsertDynamic := fun op f =>
  try_ (write_fmt [fmt_Result (OpVectorInsertDynamic_result_id op) plain; lit "OpVectorInsertDynamic"]) (try_ (fmt_arg fmt_OpId (OpVectorInsertDynamic_result_type op) f) (try_ (fmt_arg fmt_OpId (OpVectorInsertDynamic_vector op) f) (try_ (fmt_arg fmt_OpId (OpVectorInsertDynamic_component op) f) (try_ (fmt_arg fmt_OpId (OpVectorInsertDynamic_index op) f) (done))))).
(* src/spv/op.rs:988-995 *)
Definition eq_OpVectorInsertDynamic (a b : OpVectorInsertDynamic) : bool :=
  N.eqb (OpVectorInsertDynamic_result_type a) (OpVectorInsertDynamic_result_type b) && N.eqb (OpVectorInsertDynamic_result_id a) (OpVectorInsertDynamic_result_id b) && N.eqb (OpVectorInsertDynamic_vector a) (OpVectorInsertDynamic_vector b) && N.eqb (OpVectorInsertDynamic_component a) (OpVectorInsertDynamic_component b) && N.eqb (OpVectorInsertDynamic_index a) (OpVectorInsertDynamic_index b).

(* src/spv/op.rs:1000-1006 *)
Record OpVectorShuffle : Type := Build_OpVectorShuffle {
  OpVectorShuffle_result_type : OpId;
  OpVectorShuffle_result_id : ResultId;
  OpVectorShuffle_operand1 : OpId;
  OpVectorShuffle_operand2 : OpId;
  OpVectorShuffle_components : (list MemberIndex)
}.

(* src/spv/op.rs:1008 *)
Definition disp_OpVectorShuffle (op : OpVectorShuffle) : string :=
  disp_Result (OpVectorShuffle_result_id op) ++ "OpVectorShuffle" ++ format_arg disp_OpId (OpVectorShuffle_result_type op) ++ format_arg disp_OpId (OpVectorShuffle_operand1 op) ++ format_arg disp_OpId (OpVectorShuffle_operand2 op) ++ format_arg_Vec disp_MemberIndex (OpVectorShuffle_components op).
(* src/spv/op.rs:1008 *)
Definition fmt_OpVectorShuffle : Display OpVectorShuffle := fun op f =>
  try_ (write_fmt [fmt_Result (OpVectorShuffle_result_id op) plain; lit "OpVectorShuffle"]) (try_ (fmt_arg fmt_OpId (OpVectorShuffle_result_type op) f) (try_ (fmt_arg fmt_OpId (OpVectorShuffle_operand1 op) f) (try_ (fmt_arg fmt_OpId (OpVectorShuffle_operand2 op) f) (try_ (fmt_arg_Vec fmt_MemberIndex (OpVectorShuffle_components op) f) (done))))).
(* src/spv/op.rs:999-1006 *)
Definition eq_OpVectorShuffle (a b : OpVectorShuffle) : bool :=
  N.eqb (OpVectorShuffle_result_type a) (OpVectorShuffle_result_type b) && N.eqb (OpVectorShuffle_result_id a) (OpVectorShuffle_result_id b) && N.eqb (OpVectorShuffle_operand1 a) (OpVectorShuffle_operand1 b) && N.eqb (OpVectorShuffle_operand2 a) (OpVectorShuffle_operand2 b) && (eq_Vec N.eqb) (OpVectorShuffle_components a) (OpVectorShuffle_components b).

(* src/spv/op.rs:1011-1015 *)
Record OpCompositeConstruct : Type := Build_OpCompositeConstruct {
  OpCompositeConstruct_result_type : OpId;
  OpCompositeConstruct_result_id : ResultId;
  OpCompositeConstruct_constituents : (list MemberIndex)
}.

(* src/spv/op.rs:1017 *)
Definition disp_OpCompositeConstruct (op : OpCompositeConstruct) : string :=
  disp_Result (OpCompositeConstruct_result_id op) ++ "OpCompositeConstruct" ++ format_arg disp_OpId (OpCompositeConstruct_result_type op) ++ format_arg_Vec disp_MemberIndex (OpCompositeConstruct_constituents op).
(* src/spv/op.rs:1017 *)
Definition fmt_OpCompositeConstruct : Display OpCompositeConstruct := fun op f =>
  try_ (write_fmt [fmt_Result (OpCompositeConstruct_result_id op) plain; lit "OpCompositeConstruct"]) (try_ (fmt_arg fmt_OpId (OpCompositeConstruct_result_type op) f) (try_ (fmt_arg_Vec fmt_MemberIndex (OpCompositeConstruct_constituents op) f) (done))).
(* src/spv/op.rs:1010-1015 *)
Definition eq_OpCompositeConstruct (a b : OpCompositeConstruct) : bool :=
  N.eqb (OpCompositeConstruct_result_type a) (OpCompositeConstruct_result_type b) && N.eqb (OpCompositeConstruct_result_id a) (OpCompositeConstruct_result_id b) && (eq_Vec N.eqb) (OpCompositeConstruct_constituents a) (OpCompositeConstruct_constituents b).

(* src/spv/op.rs:1020-1025 *)
Record OpCompositeExtract : Type := Build_OpCompositeExtract {
  OpCompositeExtract_result_type : OpId;
  OpCompositeExtract_result_id : ResultId;
  OpCompositeExtract_composite : OpId;
  OpCompositeExtract_indexes : (list MemberIndex)
}.

(* src/spv/op.rs:1027 *)
Definition disp_OpCompositeExtract (op : OpCompositeExtract) : string :=
  disp_Result (OpCompositeExtract_result_id op) ++ "OpCompositeExtract" ++ format_arg disp_OpId (OpCompositeExtract_result_type op) ++ format_arg disp_OpId (OpCompositeExtract_composite op) ++ format_arg_Vec disp_MemberIndex (OpCompositeExtract_indexes op).
(* src/spv/op.rs:1027 *)
Definition fmt_OpCompositeExtract : Display OpCompositeExtract := fun op f =>
  try_ (write_fmt [fmt_Result (OpCompositeExtract_result_id op) plain; lit "OpCompositeExtract"]) (try_ (fmt_arg fmt_OpId (OpCompositeExtract_result_type op) f) (try_ (fmt_arg fmt_OpId (OpCompositeExtract_composite op) f) (try_ (fmt_arg_Vec fmt_MemberIndex (OpCompositeExtract_indexes op) f) (done)))).
(* src/spv/op.rs:1019-1025 *)
Definition eq_OpCompositeExtract (a b : OpCompositeExtract) : bool :=
  N.eqb (OpCompositeExtract_result_type a) (OpCompositeExtract_result_type b) && N.eqb (OpCompositeExtract_result_id a) (OpCompositeExtract_result_id b) && N.eqb (OpCompositeExtract_composite a) (OpCompositeExtract_composite b) && (eq_Vec N.eqb) (OpCompositeExtract_indexes a) (OpCompositeExtract_indexes b).

(* src/spv/op.rs:1030-1036 *)
Record OpCompositeInsert : Type := Build_OpCompositeInsert {
  OpCompositeInsert_result_type : OpId;
  OpCompositeInsert_result_id : ResultId;
  OpCompositeInsert_object : OpId;
  OpCompositeInsert_composite : OpId;
  OpCompositeInsert_indexes : (list MemberIndex)
}.

(* src/spv/op.rs:1038 *)
Definition disp_OpCompositeInsert (op : OpCompositeInsert) : string :=
  disp_Result (OpCompositeInsert_result_id op) ++ "OpCompositeInsert" ++ format_arg disp_OpId (OpCompositeInsert_result_type op) ++ format_arg disp_OpId (OpCompositeInsert_object op) ++ format_arg disp_OpId (OpCompositeInsert_composite op) ++ format_arg_Vec disp_MemberIndex (OpCompositeInsert_indexes op).
(* src/spv/op.rs:1038 *)
Definition fmt_OpCompositeInsert : Display OpCompositeInsert := fun op f =>
  try_ (write_fmt [fmt_Result (OpCompositeInsert_result_id op) plain; lit "OpCompositeInsert"]) (try_ (fmt_arg fmt_OpId (OpCompositeInsert_result_type op) f) (try_ (fmt_arg fmt_OpId (OpCompositeInsert_object op) f) (try_ (fmt_arg fmt_OpId (OpCompositeInsert_composite op) f) (try_ (fmt_arg_Vec fmt_MemberIndex (OpCompositeInsert_indexes op) f) (done))))).
(* src/spv/op.rs:1029-1036 *)
Definition eq_OpCompositeInsert (a b : OpCompositeInsert) : bool :=
  N.eqb (OpCompositeInsert_result_type a) (OpCompositeInsert_result_type b) && N.eqb (OpCompositeInsert_result_id a) (OpCompositeInsert_result_id b) && N.eqb (OpCompositeInsert_object a) (OpCompositeInsert_object b) && N.eqb (OpCompositeInsert_composite a) (OpCompositeInsert_composite b) && (eq_Vec N.eqb) (OpCompositeInsert_indexes a) (OpCompositeInsert_indexes b).

(* src/spv/op.rs:1041-1045 *)
Record OpCopyObject : Type := Build_OpCopyObject {
  OpCopyObject_result_type : OpId;
  OpCopyObject_result_id : ResultId;
  OpCopyObject_operand : OpId
}.

(* src/spv/op.rs:1047 *)
Definition disp_OpCopyObject (op : OpCopyObject) : string :=
  disp_Result (OpCopyObject_result_id op) ++ "OpCopyObject" ++ format_arg disp_OpId (OpCopyObject_result_type op) ++ format_arg disp_OpId (OpCopyObject_operand op).
(* src/spv/op.rs:1047 *)
Definition fmt_OpCopyObject : Display OpCopyObject := fun op f =>
  try_ (write_fmt [fmt_Result (OpCopyObject_result_id op) plain; lit "OpCopyObject"]) (try_ (fmt_arg fmt_OpId (OpCopyObject_result_type op) f) (try_ (fmt_arg fmt_OpId (OpCopyObject_operand op) f) (done))).
(* src/spv/op.rs:1040-1045 *)
Definition eq_OpCopyObject (a b : OpCopyObject) : bool :=
  N.eqb (OpCopyObject_result_type a) (OpCopyObject_result_type b) && N.eqb (OpCopyObject_result_id a) (OpCopyObject_result_id b) && N.eqb (OpCopyObject_operand a) (OpCopyObject_operand b).

(* src/spv/op.rs:1050-1054 *)
Record OpTranspose : Type := Build_OpTranspose {
  OpTranspose_result_type : OpId;
  OpTranspose_result_id : ResultId;
  OpTranspose_matrix : OpId
}.

(* src/spv/op.rs:1056 *)
Definition disp_OpTranspose (op : OpTranspose) : string :=
  disp_Result (OpTranspose_result_id op) ++ "OpTranspose" ++ format_arg disp_OpId (OpTranspose_result_type op) ++ format_arg disp_OpId (OpTranspose_matrix op).
(* src/spv/op.rs:1056 *)
Definition fmt_OpTranspose : Display OpTranspose := fun op f =>
  try_ (write_fmt [fmt_Result (OpTranspose_result_id op) plain; lit "OpTranspose"]) (try_ (fmt_arg fmt_OpId (OpTranspose_result_type op) f) (try_ (fmt_arg fmt_OpId (OpTranspose_matrix op) f) (done))).
(* src/spv/op.rs:1049-1054 *)
Definition eq_OpTranspose (a b : OpTranspose) : bool :=
  N.eqb (OpTranspose_result_type a) (OpTranspose_result_type b) && N.eqb (OpTranspose_result_id a) (OpTranspose_result_id b) && N.eqb (OpTranspose_matrix a) (OpTranspose_matrix b).

(* src/spv/op.rs:1061-1065 *)
Record OpSNegate : Type := Build_OpSNegate {
  OpSNegate_result_type : OpId;
  OpSNegate_result_id : ResultId;
  OpSNegate_operand : OpId
}.

(* src/spv/op.rs:1067 *)
Definition disp_OpSNegate (op : OpSNegate) : string :=
  disp_Result (OpSNegate_result_id op) ++ "OpSNegate" ++ format_arg disp_OpId (OpSNegate_result_type op) ++ format_arg disp_OpId (OpSNegate_operand op).
(* src/spv/op.rs:1067 *)
Definition fmt_OpSNegate : Display OpSNegate := fun op f =>
  try_ (write_fmt [fmt_Result (OpSNegate_result_id op) plain; lit "OpSNegate"]) (try_ (fmt_arg fmt_OpId (OpSNegate_result_type op) f) (try_ (fmt_arg fmt_OpId (OpSNegate_operand op) f) (done))).
(* src/spv/op.rs:1060-1065 *)
Definition eq_OpSNegate (a b : OpSNegate) : bool :=
  N.eqb (OpSNegate_result_type a) (OpSNegate_result_type b) && N.eqb (OpSNegate_result_id a) (OpSNegate_result_id b) && N.eqb (OpSNegate_operand a) (OpSNegate_operand b).

(* src/spv/op.rs:1070-1074 *)
Record OpFNegate : Type := Build_OpFNegate {
  OpFNegate_result_type : OpId;
  OpFNegate_result_id : ResultId;
  OpFNegate_operand : OpId
}.

(* src/spv/op.rs:1076 *)
Definition disp_OpFNegate (op : OpFNegate) : string :=
  disp_Result (OpFNegate_result_id op) ++ "OpFNegate" ++ format_arg disp_OpId (OpFNegate_result_type op) ++ format_arg disp_OpId (OpFNegate_operand op).
(* src/spv/op.rs:1076 *)
Definition fmt_OpFNegate : Display OpFNegate := fun op f =>
  try_ (write_fmt [fmt_Result (OpFNegate_result_id op) plain; lit "OpFNegate"]) (try_ (fmt_arg fmt_OpId (OpFNegate_result_type op) f) (try_ (fmt_arg fmt_OpId (OpFNegate_operand op) f) (done))).
(* src/spv/op.rs:1069-1074 *)
Definition eq_OpFNegate (a b : OpFNegate) : bool :=
  N.eqb (OpFNegate_result_type a) (OpFNegate_result_type b) && N.eqb (OpFNegate_result_id a) (OpFNegate_result_id b) && N.eqb (OpFNegate_operand a) (OpFNegate_operand b).

(* src/spv/op.rs:1219-1224 *)
Record OpVectorTimesScalar : Type := Build_OpVectorTimesScalar {
  OpVectorTimesScalar_result_type : OpId;
  OpVectorTimesScalar_result_id : ResultId;
  OpVectorTimesScalar_vector : OpId;
  OpVectorTimesScalar_scalar : OpId
}.

(* src/spv/op.rs:1226 *)
Definition disp_OpVectorTimesScalar (op : OpVectorTimesScalar) : string :=
  disp_Result (OpVectorTimesScalar_result_id op) ++ "OpVectorTimesScalar" ++ format_arg disp_OpId (OpVectorTimesScalar_result_type op) ++ format_arg disp_OpId (OpVectorTimesScalar_vector op) ++ format_arg disp_OpId (OpVectorTimesScalar_scalar op).
(* src/spv/op.rs:1226 *)
Definition fmt_OpVectorTimesScalar : Display OpVectorTimesScalar := fun op f =>
  try_ (write_fmt [fmt_Result (OpVectorTimesScalar_result_id op) plain; lit "OpVectorTimesScalar"]) (try_ (fmt_arg fmt_OpId (OpVectorTimesScalar_result_type op) f) (try_ (fmt_arg fmt_OpId (OpVectorTimesScalar_vector op) f) (try_ (fmt_arg fmt_OpId (OpVectorTimesScalar_scalar op) f) (done)))).
(* src/spv/op.rs:1218-1224 *)
Definition eq_OpVectorTimesScalar (a b : OpVectorTimesScalar) : bool :=
  N.eqb (OpVectorTimesScalar_result_type a) (OpVectorTimesScalar_result_type b) && N.eqb (OpVectorTimesScalar_result_id a) (OpVectorTimesScalar_result_id b) && N.eqb (OpVectorTimesScalar_vector a) (OpVectorTimesScalar_vector b) && N.eqb (OpVectorTimesScalar_scalar a) (OpVectorTimesScalar_scalar b).

(* src/spv/op.rs:1229-1234 *)
Record OpMatrixTimesScalar : Type := Build_OpMatrixTimesScalar {
  OpMatrixTimesScalar_result_type : OpId;
  OpMatrixTimesScalar_result_id : ResultId;
  OpMatrixTimesScalar_matrix : OpId;
  OpMatrixTimesScalar_scalar : OpId
}.

(* src/spv/op.rs:1236 *)
Definition disp_OpMatrixTimesScalar (op : OpMatrixTimesScalar) : string :=
  disp_Result (OpMatrixTimesScalar_result_id op) ++ "OpMatrixTimesScalar" ++ format_arg disp_OpId (OpMatrixTimesScalar_result_type op) ++ format_arg disp_OpId (OpMatrixTimesScalar_matrix op) ++ format_arg disp_OpId (OpMatrixTimesScalar_scalar op).
(* src/spv/op.rs:1236 *)
Definition fmt_OpMatrixTimesScalar : Display OpMatrixTimesScalar := fun op f =>
  try_ (write_fmt [fmt_Result (OpMatrixTimesScalar_result_id op) plain; lit "OpMatrixTimesScalar"]) (try_ (fmt_arg fmt_OpId (OpMatrixTimesScalar_result_type op) f) (try_ (fmt_arg fmt_OpId (OpMatrixTimesScalar_matrix op) f) (try_ (fmt_arg fmt_OpId (OpMatrixTimesScalar_scalar op) f) (done)))).
(* src/spv/op.rs:1228-1234 *)
Definition eq_OpMatrixTimesScalar (a b : OpMatrixTimesScalar) : bool :=
  N.eqb (OpMatrixTimesScalar_result_type a) (OpMatrixTimesScalar_result_type b) && N.eqb (OpMatrixTimesScalar_result_id a) (OpMatrixTimesScalar_result_id b) && N.eqb (OpMatrixTimesScalar_matrix a) (OpMatrixTimesScalar_matrix b) && N.eqb (OpMatrixTimesScalar_scalar a) (OpMatrixTimesScalar_scalar b).

(* src/spv/op.rs:1239-1244 *)
Record OpVectorTimesMatrix : Type := Build_OpVectorTimesMatrix {
  OpVectorTimesMatrix_result_type : OpId;
  OpVectorTimesMatrix_result_id : ResultId;
  OpVectorTimesMatrix_vector : OpId;
  OpVectorTimesMatrix_matrix : OpId
}.

(* src/spv/op.rs:1246 *)
Definition disp_OpVectorTimesMatrix (op : OpVectorTimesMatrix) : string :=
  disp_Result (OpVectorTimesMatrix_result_id op) ++ "OpVectorTimesMatrix" ++ format_arg disp_OpId (OpVectorTimesMatrix_result_type op) ++ format_arg disp_OpId (OpVectorTimesMatrix_vector op) ++ format_arg disp_OpId (OpVectorTimesMatrix_matrix op).
(* src/spv/op.rs:1246 *)
Definition fmt_OpVectorTimesMatrix : Display OpVectorTimesMatrix := fun op f =>
  try_ (write_fmt [fmt_Result (OpVectorTimesMatrix_result_id op) plain; lit "OpVectorTimesMatrix"]) (try_ (fmt_arg fmt_OpId (OpVectorTimesMatrix_result_type op) f) (try_ (fmt_arg fmt_OpId (OpVectorTimesMatrix_vector op) f) (try_ (fmt_arg fmt_OpId (OpVectorTimesMatrix_matrix op) f) (done)))).
(* src/spv/op.rs:1238-1244 *)
Definition eq_OpVectorTimesMatrix (a b : OpVectorTimesMatrix) : bool :=
  N.eqb (OpVectorTimesMatrix_result_type a) (OpVectorTimesMatrix_result_type b) && N.eqb (OpVectorTimesMatrix_result_id a) (OpVectorTimesMatrix_result_id b) && N.eqb (OpVectorTimesMatrix_vector a) (OpVectorTimesMatrix_vector b) && N.eqb (OpVectorTimesMatrix_matrix a) (OpVectorTimesMatrix_matrix b).

(* src/spv/op.rs:1249-1254 *)
Record OpMatrixTimesVector : Type := Build_OpMatrixTimesVector {
  OpMatrixTimesVector_result_type : OpId;
  OpMatrixTimesVector_result_id : ResultId;
  OpMatrixTimesVector_matrix : OpId;
  OpMatrixTimesVector_vector : OpId
}.

(* src/spv/op.rs:1256 *)
Definition disp_OpMatrixTimesVector (op : OpMatrixTimesVector) : string :=
  disp_Result (OpMatrixTimesVector_result_id op) ++ "OpMatrixTimesVector" ++ format_arg disp_OpId (OpMatrixTimesVector_result_type op) ++ format_arg disp_OpId (OpMatrixTimesVector_matrix op) ++ format_arg disp_OpId (OpMatrixTimesVector_vector op).
(* src/spv/op.rs:1256 *)
Definition fmt_OpMatrixTimesVector : Display OpMatrixTimesVector := fun op f =>
  try_ (write_fmt [fmt_Result (OpMatrixTimesVector_result_id op) plain; lit "OpMatrixTimesVector"]) (try_ (fmt_arg fmt_OpId (OpMatrixTimesVector_result_type op) f) (try_ (fmt_arg fmt_OpId (OpMatrixTimesVector_matrix op) f) (try_ (fmt_arg fmt_OpId (OpMatrixTimesVector_vector op) f) (done)))).
(* src/spv/op.rs:1248-1254 *)
Definition eq_OpMatrixTimesVector (a b : OpMatrixTimesVector) : bool :=
  N.eqb (OpMatrixTimesVector_result_type a) (OpMatrixTimesVector_result_type b) && N.eqb (OpMatrixTimesVector_result_id a) (OpMatrixTimesVector_result_id b) && N.eqb (OpMatrixTimesVector_matrix a) (OpMatrixTimesVector_matrix b) && N.eqb (OpMatrixTimesVector_vector a) (OpMatrixTimesVector_vector b).

(* src/spv/op.rs:1259-1264 *)
Record OpMatrixTimesMatrix : Type := Build_OpMatrixTimesMatrix {
  OpMatrixTimesMatrix_result_type : OpId;
  OpMatrixTimesMatrix_result_id : ResultId;
  OpMatrixTimesMatrix_left_matrix : OpId;
  OpMatrixTimesMatrix_right_matrix : OpId
}.

(* src/spv/op.rs:1266 *)
Definition disp_OpMatrixTimesMatrix (op : OpMatrixTimesMatrix) : string :=
  disp_Result (OpMatrixTimesMatrix_result_id op) ++ "OpMatrixTimesMatrix" ++ format_arg disp_OpId (OpMatrixTimesMatrix_result_type op) ++ format_arg disp_OpId (OpMatrixTimesMatrix_left_matrix op) ++ format_arg disp_OpId (OpMatrixTimesMatrix_right_matrix op).
(* src/spv/op.rs:1266 *)
Definition fmt_OpMatrixTimesMatrix : Display OpMatrixTimesMatrix := fun op f =>
  try_ (write_fmt [fmt_Result (OpMatrixTimesMatrix_result_id op) plain; lit "OpMatrixTimesMatrix"]) (try_ (fmt_arg fmt_OpId (OpMatrixTimesMatrix_result_type op) f) (try_ (fmt_arg fmt_OpId (OpMatrixTimesMatrix_left_matrix op) f) (try_ (fmt_arg fmt_OpId (OpMatrixTimesMatrix_right_matrix op) f) (done)))).
(* src/spv/op.rs:1258-1264 *)
Definition eq_OpMatrixTimesMatrix (a b : OpMatrixTimesMatrix) : bool :=
  N.eqb (OpMatrixTimesMatrix_result_type a) (OpMatrixTimesMatrix_result_type b) && N.eqb (OpMatrixTimesMatrix_result_id a) (OpMatrixTimesMatrix_result_id b) && N.eqb (OpMatrixTimesMatrix_left_matrix a) (OpMatrixTimesMatrix_left_matrix b) && N.eqb (OpMatrixTimesMatrix_right_matrix a) (OpMatrixTimesMatrix_right_matrix b).

(* src/spv/op.rs:1269-1274 *)
Record OpOuterProduct : Type := Build_OpOuterProduct {
  OpOuterProduct_result_type : OpId;
  OpOuterProduct_result_id : ResultId;
  OpOuterProduct_vector1 : OpId;
  OpOuterProduct_vector2 : OpId
}.

(* src/spv/op.rs:1276 *)
Definition disp_OpOuterProduct (op : OpOuterProduct) : string :=
  disp_Result (OpOuterProduct_result_id op) ++ "OpOuterProduct" ++ format_arg disp_OpId (OpOuterProduct_result_type op) ++ format_arg disp_OpId (OpOuterProduct_vector1 op) ++ format_arg disp_OpId (OpOuterProduct_vector2 op).
(* src/spv/op.rs:1276 *)
Definition fmt_OpOuterProduct : Display OpOuterProduct := fun op f =>
  try_ (write_fmt [fmt_Result (OpOuterProduct_result_id op) plain; lit "OpOuterProduct"]) (try_ (fmt_arg fmt_OpId (OpOuterProduct_result_type op) f) (try_ (fmt_arg fmt_OpId (OpOuterProduct_vector1 op) f) (try_ (fmt_arg fmt_OpId (OpOuterProduct_vector2 op) f) (done)))).
(* src/spv/op.rs:1268-1274 *)
Definition eq_OpOuterProduct (a b : OpOuterProduct) : bool :=
  N.eqb (OpOuterProduct_result_type a) (OpOuterProduct_result_type b) && N.eqb (OpOuterProduct_result_id a) (OpOuterProduct_result_id b) && N.eqb (OpOuterProduct_vector1 a) (OpOuterProduct_vector1 b) && N.eqb (OpOuterProduct_vector2 a) (OpOuterProduct_vector2 b).

(* src/spv/op.rs:1279-1284 *)
Record OpDot : Type := Build_OpDot {
  OpDot_result_type : OpId;
  OpDot_result_id : ResultId;
  OpDot_vector1 : OpId;
  OpDot_vector2 : OpId
}.

(* src/spv/op.rs:1286 *)
Definition disp_OpDot (op : OpDot) : string :=
  disp_Result (OpDot_result_id op) ++ "OpDot" ++ format_arg disp_OpId (OpDot_result_type op) ++ format_arg disp_OpId (OpDot_vector1 op) ++ format_arg disp_OpId (OpDot_vector2 op).
(* src/spv/op.rs:1286 *)
Definition fmt_OpDot : Display OpDot := fun op f =>
  try_ (write_fmt [fmt_Result (OpDot_result_id op) plain; lit "OpDot"]) (try_ (fmt_arg fmt_OpId (OpDot_result_type op) f) (try_ (fmt_arg fmt_OpId (OpDot_vector1 op) f) (try_ (fmt_arg fmt_OpId (OpDot_vector2 op) f) (done)))).
(* src/spv/op.rs:1278-1284 *)
Definition eq_OpDot (a b : OpDot) : bool :=
  N.eqb (OpDot_result_type a) (OpDot_result_type b) && N.eqb (OpDot_result_id a) (OpDot_result_id b) && N.eqb (OpDot_vector1 a) (OpDot_vector1 b) && N.eqb (OpDot_vector2 a) (OpDot_vector2 b).

(* src/spv/op.rs:1331-1336 *)
Record OpShiftRightLogical : Type := Build_OpShiftRightLogical {
  OpShiftRightLogical_result_type : OpId;
  OpShiftRightLogical_result_id : ResultId;
  OpShiftRightLogical_base : OpId;
  OpShiftRightLogical_shift : OpId
}.

(* src/spv/op.rs:1338 *)
Definition disp_OpShiftRightLogical (op : OpShiftRightLogical) : string :=
  disp_Result (OpShiftRightLogical_result_id op) ++ "OpShiftRightLogical" ++ format_arg disp_OpId (OpShiftRightLogical_result_type op) ++ format_arg disp_OpId (OpShiftRightLogical_base op) ++ format_arg disp_OpId (OpShiftRightLogical_shift op).
(* src/spv/op.rs:1338 *)
Definition fmt_OpShiftRightLogical : Display OpShiftRightLogical := fun op f =>
  try_ (write_fmt [fmt_Result (OpShiftRightLogical_result_id op) plain; lit "OpShiftRightLogical"]) (try_ (fmt_arg fmt_OpId (OpShiftRightLogical_result_type op) f) (try_ (fmt_arg fmt_OpId (OpShiftRightLogical_base op) f) (try_ (fmt_arg fmt_OpId (OpShiftRightLogical_shift op) f) (done)))).
(* src/spv/op.rs:1330-1336 *)
Definition eq_OpShiftRightLogical (a b : OpShiftRightLogical) : bool :=
  N.eqb (OpShiftRightLogical_result_type a) (OpShiftRightLogical_result_type b) && N.eqb (OpShiftRightLogical_result_id a) (OpShiftRightLogical_result_id b) && N.eqb (OpShiftRightLogical_base a) (OpShiftRightLogical_base b) && N.eqb (OpShiftRightLogical_shift a) (OpShiftRightLogical_shift b).

(* src/spv/op.rs:1341-1346 *)
Record OpShiftRightArithmetic : Type := Build_OpShiftRightArithmetic {
  OpShiftRightArithmetic_result_type : OpId;
  OpShiftRightArithmetic_result_id : ResultId;
  OpShiftRightArithmetic_base : OpId;
  OpShiftRightArithmetic_shift : OpId
}.

(* src/spv/op.rs:1348 *)
Definition disp_OpShiftRightArithmetic (op : OpShiftRightArithmetic) : string :=
  disp_Result (OpShiftRightArithmetic_result_id op) ++ "OpShiftRightArithmetic" ++ format_arg disp_OpId (OpShiftRightArithmetic_result_type op) ++ format_arg disp_OpId (OpShiftRightArithmetic_base op) ++ format_arg disp_OpId (OpShiftRightArithmetic_shift op).
(* src/spv/op.rs:1348 *)
Definition fmt_OpShiftRightArithmetic : Display OpShiftRightArithmetic := fun op f =>
  try_ (write_fmt [fmt_Result (OpShiftRightArithmetic_result_id op) plain; lit "OpShiftRightArithmetic"]) (try_ (fmt_arg fmt_OpId (OpShiftRightArithmetic_result_type op) f) (try_ (fmt_arg fmt_OpId (OpShiftRightArithmetic_base op) f) (try_ (fmt_arg fmt_OpId (OpShiftRightArithmetic_shift op) f) (done)))).
(* src/spv/op.rs:1340-1346 *)
Definition eq_OpShiftRightArithmetic (a b : OpShiftRightArithmetic) : bool :=
  N.eqb (OpShiftRightArithmetic_result_type a) (OpShiftRightArithmetic_result_type b) && N.eqb (OpShiftRightArithmetic_result_id a) (OpShiftRightArithmetic_result_id b) && N.eqb (OpShiftRightArithmetic_base a) (OpShiftRightArithmetic_base b) && N.eqb (OpShiftRightArithmetic_shift a) (OpShiftRightArithmetic_shift b).

(* src/spv/op.rs:1351-1356 *)
Record OpShiftLeftLogical : Type := Build_OpShiftLeftLogical {
  OpShiftLeftLogical_result_type : OpId;
  OpShiftLeftLogical_result_id : ResultId;
  OpShiftLeftLogical_base : OpId;
  OpShiftLeftLogical_shift : OpId
}.

(* src/spv/op.rs:1358 *)
Definition disp_OpShiftLeftLogical (op : OpShiftLeftLogical) : string :=
  disp_Result (OpShiftLeftLogical_result_id op) ++ "OpShiftLeftLogical" ++ format_arg disp_OpId (OpShiftLeftLogical_result_type op) ++ format_arg disp_OpId (OpShiftLeftLogical_base op) ++ format_arg disp_OpId (OpShiftLeftLogical_shift op).
(* src/spv/op.rs:1358 *)
Definition fmt_OpShiftLeftLogical : Display OpShiftLeftLogical := fun op f =>
  try_ (write_fmt [fmt_Result (OpShiftLeftLogical_result_id op) plain; lit "OpShiftLeftLogical"]) (try_ (fmt_arg fmt_OpId (OpShiftLeftLogical_result_type op) f) (try_ (fmt_arg fmt_OpId (OpShiftLeftLogical_base op) f) (try_ (fmt_arg fmt_OpId (OpShiftLeftLogical_shift op) f) (done)))).
(* src/spv/op.rs:1350-1356 *)
Definition eq_OpShiftLeftLogical (a b : OpShiftLeftLogical) : bool :=
  N.eqb (OpShiftLeftLogical_result_type a) (OpShiftLeftLogical_result_type b) && N.eqb (OpShiftLeftLogical_result_id a) (OpShiftLeftLogical_result_id b) && N.eqb (OpShiftLeftLogical_base a) (OpShiftLeftLogical_base b) && N.eqb (OpShiftLeftLogical_shift a) (OpShiftLeftLogical_shift b).

(* src/spv/op.rs:1391-1395 *)
Record OpNot : Type := Build_OpNot {
  OpNot_result_type : OpId;
  OpNot_result_id : ResultId;
  OpNot_operand : OpId
}.

(* src/spv/op.rs:1397 *)
Definition disp_OpNot (op : OpNot) : string :=
  disp_Result (OpNot_result_id op) ++ "OpNot" ++ format_arg disp_OpId (OpNot_result_type op) ++ format_arg disp_OpId (OpNot_operand op).
(* src/spv/op.rs:1397 *)
Definition fmt_OpNot : Display OpNot := fun op f =>
  try_ (write_fmt [fmt_Result (OpNot_result_id op) plain; lit "OpNot"]) (try_ (fmt_arg fmt_OpId (OpNot_result_type op) f) (try_ (fmt_arg fmt_OpId (OpNot_operand op) f) (done))).
(* src/spv/op.rs:1390-1395 *)
Definition eq_OpNot (a b : OpNot) : bool :=
  N.eqb (OpNot_result_type a) (OpNot_result_type b) && N.eqb (OpNot_result_id a) (OpNot_result_id b) && N.eqb (OpNot_operand a) (OpNot_operand b).

(** One of the structs of src/spv/op.rs: not a type of the crate, a way to speak about them all. *)
Inductive MoreOp : Type :=
| More_OpLine (_ : OpLine)
| More_OpNoLine (_ : OpNoLine)
| More_OpDecorationGroup (_ : OpDecorationGroup)
| More_OpGroupDecorate (_ : OpGroupDecorate)
| More_OpTypeReserveId (_ : OpTypeReserveId)
| More_OpConstantTrue (_ : OpConstantTrue)
| More_OpConstantFalse (_ : OpConstantFalse)
| More_OpConstantSampler (_ : OpConstantSampler)
| More_OpConstantNull (_ : OpConstantNull)
| More_OpSpecConstantTrue (_ : OpSpecConstantTrue)
| More_OpSpecConstantFalse (_ : OpSpecConstantFalse)
| More_OpSpecConstant (_ : OpSpecConstant)
| More_OpSpecConstantComposite (_ : OpSpecConstantComposite)
| More_OpImageTexelPointer (_ : OpImageTexelPointer)
| More_OpCopyMemory (_ : OpCopyMemory)
| More_OpCopyMemorySized (_ : OpCopyMemorySized)
| More_OpInBoundsAccessChain (_ : OpInBoundsAccessChain)
| More_OpPtrAccessChain (_ : OpPtrAccessChain)
| More_OpArrayLength (_ : OpArrayLength)
| More_OpGenericPtrMemSemantics (_ : OpGenericPtrMemSemantics)
| More_OpInBoundsPtrAccessChain (_ : OpInBoundsPtrAccessChain)
| More_OpFunctionCall (_ : OpFunctionCall)
| More_OpSampledImage (_ : OpSampledImage)
| More_OpConvertFToU (_ : OpConvertFToU)
| More_OpConvertFToS (_ : OpConvertFToS)
| More_OpConvertSToF (_ : OpConvertSToF)
| More_OpUConvert (_ : OpUConvert)
| More_OpSConvert (_ : OpSConvert)
| More_OpFConvert (_ : OpFConvert)
| More_OpQuantizeToF16 (_ : OpQuantizeToF16)
| More_OpConvertPtrToU (_ : OpConvertPtrToU)
| More_OpSatConvertSToU (_ : OpSatConvertSToU)
| More_OpSatConvertUToS (_ : OpSatConvertUToS)
| More_OpConvertUToPtr (_ : OpConvertUToPtr)
| More_OpPtrCastToGeneric (_ : OpPtrCastToGeneric)
| More_OpGenericCastToPtr (_ : OpGenericCastToPtr)
| More_OpGenericCastToPtrExplicit (_ : OpGenericCastToPtrExplicit)
| More_OpVectorExtractDynamic (_ : OpVectorExtractDynamic)
| More_OpVectorInsertDynamic (_ : OpVectorInsertDynamic)
| More_OpVectorShuffle (_ : OpVectorShuffle)
| More_OpCompositeConstruct (_ : OpCompositeConstruct)
| More_OpCompositeExtract (_ : OpCompositeExtract)
| More_OpCompositeInsert (_ : OpCompositeInsert)
| More_OpCopyObject (_ : OpCopyObject)
| More_OpTranspose (_ : OpTranspose)
| More_OpSNegate (_ : OpSNegate)
| More_OpFNegate (_ : OpFNegate)
| More_OpVectorTimesScalar (_ : OpVectorTimesScalar)
| More_OpMatrixTimesScalar (_ : OpMatrixTimesScalar)
| More_OpVectorTimesMatrix (_ : OpVectorTimesMatrix)
| More_OpMatrixTimesVector (_ : OpMatrixTimesVector)
| More_OpMatrixTimesMatrix (_ : OpMatrixTimesMatrix)
| More_OpOuterProduct (_ : OpOuterProduct)
| More_OpDot (_ : OpDot)
| More_OpShiftRightLogical (_ : OpShiftRightLogical)
| More_OpShiftRightArithmetic (_ : OpShiftRightArithmetic)
| More_OpShiftLeftLogical (_ : OpShiftLeftLogical)
| More_OpNot (_ : OpNot).

(* src/spv/op.rs: which struct decides *)
Definition disp_MoreOp (x : MoreOp) : string :=
  match x with
  | More_OpLine op => disp_OpLine op
  | More_OpNoLine op => disp_OpNoLine op
  | More_OpDecorationGroup op => disp_OpDecorationGroup op
  | More_OpGroupDecorate op => disp_OpGroupDecorate op
  | More_OpTypeReserveId op => disp_OpTypeReserveId op
  | More_OpConstantTrue op => disp_OpConstantTrue op
  | More_OpConstantFalse op => disp_OpConstantFalse op
  | More_OpConstantSampler op => disp_OpConstantSampler op
  | More_OpConstantNull op => disp_OpConstantNull op
  | More_OpSpecConstantTrue op => disp_OpSpecConstantTrue op
  | More_OpSpecConstantFalse op => disp_OpSpecConstantFalse op
  | More_OpSpecConstant op => disp_OpSpecConstant op
  | More_OpSpecConstantComposite op => disp_OpSpecConstantComposite op
  | More_OpImageTexelPointer op => disp_OpImageTexelPointer op
  | More_OpCopyMemory op => disp_OpCopyMemory op
  | More_OpCopyMemorySized op => disp_OpCopyMemorySized op
  | More_OpInBoundsAccessChain op => disp_OpInBoundsAccessChain op
  | More_OpPtrAccessChain op => disp_OpPtrAccessChain op
  | More_OpArrayLength op => disp_OpArrayLength op
  | More_OpGenericPtrMemSemantics op => disp_OpGenericPtrMemSemantics op
  | More_OpInBoundsPtrAccessChain op => disp_OpInBoundsPtrAccessChain op
  | More_OpFunctionCall op => disp_OpFunctionCall op
  | More_OpSampledImage op => disp_OpSampledImage op
  | More_OpConvertFToU op => disp_OpConvertFToU op
  | More_OpConvertFToS op => disp_OpConvertFToS op
  | More_OpConvertSToF op => disp_OpConvertSToF op
  | More_OpUConvert op => disp_OpUConvert op
  | More_OpSConvert op => disp_OpSConvert op
  | More_OpFConvert op => disp_OpFConvert op
  | More_OpQuantizeToF16 op => disp_OpQuantizeToF16 op
  | More_OpConvertPtrToU op => disp_OpConvertPtrToU op
  | More_OpSatConvertSToU op => disp_OpSatConvertSToU op
  | More_OpSatConvertUToS op => disp_OpSatConvertUToS op
  | More_OpConvertUToPtr op => disp_OpConvertUToPtr op
  | More_OpPtrCastToGeneric op => disp_OpPtrCastToGeneric op
  | More_OpGenericCastToPtr op => disp_OpGenericCastToPtr op
  | More_OpGenericCastToPtrExplicit op => disp_OpGenericCastToPtrExplicit op
  | More_OpVectorExtractDynamic op => disp_OpVectorExtractDynamic op
  | More_OpVectorInsertDynamic op => disp_OpVectorInsertDynamic op
  | More_OpVectorShuffle op => disp_OpVectorShuffle op
  | More_OpCompositeConstruct op => disp_OpCompositeConstruct op
  | More_OpCompositeExtract op => disp_OpCompositeExtract op
  | More_OpCompositeInsert op => disp_OpCompositeInsert op
  | More_OpCopyObject op => disp_OpCopyObject op
  | More_OpTranspose op => disp_OpTranspose op
  | More_OpSNegate op => disp_OpSNegate op
  | More_OpFNegate op => disp_OpFNegate op
  | More_OpVectorTimesScalar op => disp_OpVectorTimesScalar op
  | More_OpMatrixTimesScalar op => disp_OpMatrixTimesScalar op
  | More_OpVectorTimesMatrix op => disp_OpVectorTimesMatrix op
  | More_OpMatrixTimesVector op => disp_OpMatrixTimesVector op
  | More_OpMatrixTimesMatrix op => disp_OpMatrixTimesMatrix op
  | More_OpOuterProduct op => disp_OpOuterProduct op
  | More_OpDot op => disp_OpDot op
  | More_OpShiftRightLogical op => disp_OpShiftRightLogical op
  | More_OpShiftRightArithmetic op => disp_OpShiftRightArithmetic op
  | More_OpShiftLeftLogical op => disp_OpShiftLeftLogical op
  | More_OpNot op => disp_OpNot op
  end.

(* src/spv/op.rs: which struct decides *)
Definition fmt_MoreOp : Display MoreOp := fun x f =>
  match x with
  | More_OpLine op => fmt_OpLine op f
  | More_OpNoLine op => fmt_OpNoLine op f
  | More_OpDecorationGroup op => fmt_OpDecorationGroup op f
  | More_OpGroupDecorate op => fmt_OpGroupDecorate op f
  | More_OpTypeReserveId op => fmt_OpTypeReserveId op f
  | More_OpConstantTrue op => fmt_OpConstantTrue op f
  | More_OpConstantFalse op => fmt_OpConstantFalse op f
  | More_OpConstantSampler op => fmt_OpConstantSampler op f
  | More_OpConstantNull op => fmt_OpConstantNull op f
  | More_OpSpecConstantTrue op => fmt_OpSpecConstantTrue op f
  | More_OpSpecConstantFalse op => fmt_OpSpecConstantFalse op f
  | More_OpSpecConstant op => fmt_OpSpecConstant op f
  | More_OpSpecConstantComposite op => fmt_OpSpecConstantComposite op f
  | More_OpImageTexelPointer op => fmt_OpImageTexelPointer op f
  | More_OpCopyMemory op => fmt_OpCopyMemory op f
  | More_OpCopyMemorySized op => fmt_OpCopyMemorySized op f
  | More_OpInBoundsAccessChain op => fmt_OpInBoundsAccessChain op f
  | More_OpPtrAccessChain op => fmt_OpPtrAccessChain op f
  | More_OpArrayLength op => fmt_OpArrayLength op f
  | More_OpGenericPtrMemSemantics op => fmt_OpGenericPtrMemSemantics op f
  | More_OpInBoundsPtrAccessChain op => fmt_OpInBoundsPtrAccessChain op f
  | More_OpFunctionCall op => fmt_OpFunctionCall op f
  | More_OpSampledImage op => fmt_OpSampledImage op f
  | More_OpConvertFToU op => fmt_OpConvertFToU op f
  | More_OpConvertFToS op => fmt_OpConvertFToS op f
  | More_OpConvertSToF op => fmt_OpConvertSToF op f
  | More_OpUConvert op => fmt_OpUConvert op f
  | More_OpSConvert op => fmt_OpSConvert op f
  | More_OpFConvert op => fmt_OpFConvert op f
  | More_OpQuantizeToF16 op => fmt_OpQuantizeToF16 op f
  | More_OpConvertPtrToU op => fmt_OpConvertPtrToU op f
  | More_OpSatConvertSToU op => fmt_OpSatConvertSToU op f
  | More_OpSatConvertUToS op => fmt_OpSatConvertUToS op f
  | More_OpConvertUToPtr op => fmt_OpConvertUToPtr op f
  | More_OpPtrCastToGeneric op => fmt_OpPtrCastToGeneric op f
  | More_OpGenericCastToPtr op => fmt_OpGenericCastToPtr op f
  | More_OpGenericCastToPtrExplicit op => fmt_OpGenericCastToPtrExplicit op f
  | More_OpVectorExtractDynamic op => fmt_OpVectorExtractDynamic op f
  | More_OpVectorInsertDynamic op => fmt_OpVectorInsertDynamic op f
  | More_OpVectorShuffle op => fmt_OpVectorShuffle op f
  | More_OpCompositeConstruct op => fmt_OpCompositeConstruct op f
  | More_OpCompositeExtract op => fmt_OpCompositeExtract op f
  | More_OpCompositeInsert op => fmt_OpCompositeInsert op f
  | More_OpCopyObject op => fmt_OpCopyObject op f
  | More_OpTranspose op => fmt_OpTranspose op f
  | More_OpSNegate op => fmt_OpSNegate op f
  | More_OpFNegate op => fmt_OpFNegate op f
  | More_OpVectorTimesScalar op => fmt_OpVectorTimesScalar op f
  | More_OpMatrixTimesScalar op => fmt_OpMatrixTimesScalar op f
  | More_OpVectorTimesMatrix op => fmt_OpVectorTimesMatrix op f
  | More_OpMatrixTimesVector op => fmt_OpMatrixTimesVector op f
  | More_OpMatrixTimesMatrix op => fmt_OpMatrixTimesMatrix op f
  | More_OpOuterProduct op => fmt_OpOuterProduct op f
  | More_OpDot op => fmt_OpDot op f
  | More_OpShiftRightLogical op => fmt_OpShiftRightLogical op f
  | More_OpShiftRightArithmetic op => fmt_OpShiftRightArithmetic op f
  | More_OpShiftLeftLogical op => fmt_OpShiftLeftLogical op f
  | More_OpNot op => fmt_OpNot op f
  end.

(* src/spv/op.rs: which struct decides *)
Definition eq_MoreOp (a b : MoreOp) : bool :=
  match a, b with
  | More_OpLine x, More_OpLine y => eq_OpLine x y
  | More_OpNoLine x, More_OpNoLine y => eq_OpNoLine x y
  | More_OpDecorationGroup x, More_OpDecorationGroup y => eq_OpDecorationGroup x y
  | More_OpGroupDecorate x, More_OpGroupDecorate y => eq_OpGroupDecorate x y
  | More_OpTypeReserveId x, More_OpTypeReserveId y => eq_OpTypeReserveId x y
  | More_OpConstantTrue x, More_OpConstantTrue y => eq_OpConstantTrue x y
  | More_OpConstantFalse x, More_OpConstantFalse y => eq_OpConstantFalse x y
  | More_OpConstantSampler x, More_OpConstantSampler y => eq_OpConstantSampler x y
  | More_OpConstantNull x, More_OpConstantNull y => eq_OpConstantNull x y
  | More_OpSpecConstantTrue x, More_OpSpecConstantTrue y => eq_OpSpecConstantTrue x y
  | More_OpSpecConstantFalse x, More_OpSpecConstantFalse y => eq_OpSpecConstantFalse x y
  | More_OpSpecConstant x, More_OpSpecConstant y => eq_OpSpecConstant x y
  | More_OpSpecConstantComposite x, More_OpSpecConstantComposite y => eq_OpSpecConstantComposite x y
  | More_OpImageTexelPointer x, More_OpImageTexelPointer y => eq_OpImageTexelPointer x y
  | More_OpCopyMemory x, More_OpCopyMemory y => eq_OpCopyMemory x y
  | More_OpCopyMemorySized x, More_OpCopyMemorySized y => eq_OpCopyMemorySized x y
  | More_OpInBoundsAccessChain x, More_OpInBoundsAccessChain y => eq_OpInBoundsAccessChain x y
  | More_OpPtrAccessChain x, More_OpPtrAccessChain y => eq_OpPtrAccessChain x y
  | More_OpArrayLength x, More_OpArrayLength y => eq_OpArrayLength x y
  | More_OpGenericPtrMemSemantics x, More_OpGenericPtrMemSemantics y => eq_OpGenericPtrMemSemantics x y
  | More_OpInBoundsPtrAccessChain x, More_OpInBoundsPtrAccessChain y => eq_OpInBoundsPtrAccessChain x y
  | More_OpFunctionCall x, More_OpFunctionCall y => eq_OpFunctionCall x y
  | More_OpSampledImage x, More_OpSampledImage y => eq_OpSampledImage x y
  | More_OpConvertFToU x, More_OpConvertFToU y => eq_OpConvertFToU x y
  | More_OpConvertFToS x, More_OpConvertFToS y => eq_OpConvertFToS x y
  | More_OpConvertSToF x, More_OpConvertSToF y => eq_OpConvertSToF x y
  | More_OpUConvert x, More_OpUConvert y => eq_OpUConvert x y
  | More_OpSConvert x, More_OpSConvert y => eq_OpSConvert x y
  | More_OpFConvert x, More_OpFConvert y => eq_OpFConvert x y
  | More_OpQuantizeToF16 x, More_OpQuantizeToF16 y => eq_OpQuantizeToF16 x y
  | More_OpConvertPtrToU x, More_OpConvertPtrToU y => eq_OpConvertPtrToU x y
  | More_OpSatConvertSToU x, More_OpSatConvertSToU y => eq_OpSatConvertSToU x y
  | More_OpSatConvertUToS x, More_OpSatConvertUToS y => eq_OpSatConvertUToS x y
  | More_OpConvertUToPtr x, More_OpConvertUToPtr y => eq_OpConvertUToPtr x y
  | More_OpPtrCastToGeneric x, More_OpPtrCastToGeneric y => eq_OpPtrCastToGeneric x y
  | More_OpGenericCastToPtr x, More_OpGenericCastToPtr y => eq_OpGenericCastToPtr x y
  | More_OpGenericCastToPtrExplicit x, More_OpGenericCastToPtrExplicit y => eq_OpGenericCastToPtrExplicit x y
  | More_OpVectorExtractDynamic x, More_OpVectorExtractDynamic y => eq_OpVectorExtractDynamic x y
  | More_OpVectorInsertDynamic x, More_OpVectorInsertDynamic y => eq_OpVectorInsertDynamic x y
  | More_OpVectorShuffle x, More_OpVectorShuffle y => eq_OpVectorShuffle x y
  | More_OpCompositeConstruct x, More_OpCompositeConstruct y => eq_OpCompositeConstruct x y
  | More_OpCompositeExtract x, More_OpCompositeExtract y => eq_OpCompositeExtract x y
  | More_OpCompositeInsert x, More_OpCompositeInsert y => eq_OpCompositeInsert x y
  | More_OpCopyObject x, More_OpCopyObject y => eq_OpCopyObject x y
  | More_OpTranspose x, More_OpTranspose y => eq_OpTranspose x y
  | More_OpSNegate x, More_OpSNegate y => eq_OpSNegate x y
  | More_OpFNegate x, More_OpFNegate y => eq_OpFNegate x y
  | More_OpVectorTimesScalar x, More_OpVectorTimesScalar y => eq_OpVectorTimesScalar x y
  | More_OpMatrixTimesScalar x, More_OpMatrixTimesScalar y => eq_OpMatrixTimesScalar x y
  | More_OpVectorTimesMatrix x, More_OpVectorTimesMatrix y => eq_OpVectorTimesMatrix x y
  | More_OpMatrixTimesVector x, More_OpMatrixTimesVector y => eq_OpMatrixTimesVector x y
  | More_OpMatrixTimesMatrix x, More_OpMatrixTimesMatrix y => eq_OpMatrixTimesMatrix x y
  | More_OpOuterProduct x, More_OpOuterProduct y => eq_OpOuterProduct x y
  | More_OpDot x, More_OpDot y => eq_OpDot x y
  | More_OpShiftRightLogical x, More_OpShiftRightLogical y => eq_OpShiftRightLogical x y
  | More_OpShiftRightArithmetic x, More_OpShiftRightArithmetic y => eq_OpShiftRightArithmetic x y
  | More_OpShiftLeftLogical x, More_OpShiftLeftLogical y => eq_OpShiftLeftLogical x y
  | More_OpNot x, More_OpNot y => eq_OpNot x y
  | _, _ => false
  end.
