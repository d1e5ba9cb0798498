(* GENERATED by tools/gen.py from /repo; do not edit by hand. *)
From Verif Require Import Base Types EqBase Equality DebugBase Debug.
Local Open Scope string_scope.

(** Op structs that can neither be read nor printed with Display: data, derived equality and derived Debug. *)

(* PartialEq and Debug of (A, B), for src/spv/op.rs and src/spv/types.rs *)
Definition eq_Pair {A B} (eqA : A -> A -> bool) (eqB : B -> B -> bool) (a b : A * B) : bool := eqA (fst a) (fst b) && eqB (snd a) (snd b).
Definition dbg_Pair {E A B} (dbgA : A -> dtree E) (dbgB : B -> dtree E) (x : A * B) : dtree E := DTuple "" [dbgA (fst x); dbgB (snd x)].

(* src/spv/types.rs:1257-1258.  Newtype of u32, modelled by its number. *)
Definition ScopeId := N.
(* src/spv/types.rs:1257-1258.  Newtype of u32, modelled by its number. *)
Definition dbg_ScopeId {E} (x : ScopeId) : dtree E := DTuple "ScopeId" [DNumber x].

(* src/spv/types.rs:1261-1262.  Newtype of u32, modelled by its number. *)
Definition MemorySemanticsId := N.
(* src/spv/types.rs:1261-1262.  Newtype of u32, modelled by its number. *)
Definition dbg_MemorySemanticsId {E} (x : MemorySemanticsId) : dtree E := DTuple "MemorySemanticsId" [DNumber x].

(* src/spv/types.rs:1265-1269 *)
Inductive GroupOperation : Type :=
| GroupOperation_Reduce
| GroupOperation_InclusiveScan
| GroupOperation_ExclusiveScan.

(* src/spv/types.rs:1264-1269 *)
Definition eq_GroupOperation (a b : GroupOperation) : bool :=
  match a, b with
  | GroupOperation_Reduce, GroupOperation_Reduce => true
  | GroupOperation_InclusiveScan, GroupOperation_InclusiveScan => true
  | GroupOperation_ExclusiveScan, GroupOperation_ExclusiveScan => true
  | _, _ => false
  end.

(* src/spv/types.rs:1264-1269 *)
Definition dbg_GroupOperation {E} (x : GroupOperation) : dtree E :=
  match x with
  | GroupOperation_Reduce => DName "Reduce"
  | GroupOperation_InclusiveScan => DName "InclusiveScan"
  | GroupOperation_ExclusiveScan => DName "ExclusiveScan"
  end.

(* src/spv/types.rs:1096-1104 *)
Record ImageOperands : Type := Build_ImageOperands { ImageOperands_bias : (option OpId); ImageOperands_lod : (option OpId); ImageOperands_grad : (option (OpId * OpId)); ImageOperands_const_offset : (option OpId); ImageOperands_offset : (option OpId); ImageOperands_const_offsets : (option OpId); ImageOperands_min_lod : (option OpId) }.
(* src/spv/types.rs:1096-1104 *)
Definition eq_ImageOperands (a b : ImageOperands) : bool := (eq_Option N.eqb) (ImageOperands_bias a) (ImageOperands_bias b) && (eq_Option N.eqb) (ImageOperands_lod a) (ImageOperands_lod b) && (eq_Option (eq_Pair N.eqb N.eqb)) (ImageOperands_grad a) (ImageOperands_grad b) && (eq_Option N.eqb) (ImageOperands_const_offset a) (ImageOperands_const_offset b) && (eq_Option N.eqb) (ImageOperands_offset a) (ImageOperands_offset b) && (eq_Option N.eqb) (ImageOperands_const_offsets a) (ImageOperands_const_offsets b) && (eq_Option N.eqb) (ImageOperands_min_lod a) (ImageOperands_min_lod b).
(* src/spv/types.rs:1096-1104 *)
Definition dbg_ImageOperands {E} (x : ImageOperands) : dtree E := DStruct "ImageOperands" [("bias", (dbg_Option dbg_OpId) (ImageOperands_bias x)); ("lod", (dbg_Option dbg_OpId) (ImageOperands_lod x)); ("grad", (dbg_Option (dbg_Pair dbg_OpId dbg_OpId)) (ImageOperands_grad x)); ("const_offset", (dbg_Option dbg_OpId) (ImageOperands_const_offset x)); ("offset", (dbg_Option dbg_OpId) (ImageOperands_offset x)); ("const_offsets", (dbg_Option dbg_OpId) (ImageOperands_const_offsets x)); ("min_lod", (dbg_Option dbg_OpId) (ImageOperands_min_lod x))].

(* src/spv/op.rs:124-127 *)
Record OpGroupMemberDecorate : Type := Build_OpGroupMemberDecorate { OpGroupMemberDecorate_decoration_group : OpId; OpGroupMemberDecorate_targets : (list (OpId * MemberIndex)) }.
(* src/spv/op.rs:124-127 *)
Definition eq_OpGroupMemberDecorate (a b : OpGroupMemberDecorate) : bool := N.eqb (OpGroupMemberDecorate_decoration_group a) (OpGroupMemberDecorate_decoration_group b) && (eq_Vec (eq_Pair N.eqb N.eqb)) (OpGroupMemberDecorate_targets a) (OpGroupMemberDecorate_targets b).
(* src/spv/op.rs:124-127 *)
Definition dbg_OpGroupMemberDecorate {E} (x : OpGroupMemberDecorate) : dtree E := DStruct "OpGroupMemberDecorate" [("decoration_group", dbg_OpId (OpGroupMemberDecorate_decoration_group x)); ("targets", (dbg_Vec (dbg_Pair dbg_OpId dbg_MemberIndex)) (OpGroupMemberDecorate_targets x))].

(* src/spv/op.rs:635-639 *)
Record OpImageSampledImplicitLod : Type := Build_OpImageSampledImplicitLod { OpImageSampledImplicitLod_0 : OpId; OpImageSampledImplicitLod_1 : ResultId; OpImageSampledImplicitLod_2 : OpId; OpImageSampledImplicitLod_3 : OpId; OpImageSampledImplicitLod_4 : (option ImageOperands) }.
(* src/spv/op.rs:635-639 *)
Definition eq_OpImageSampledImplicitLod (a b : OpImageSampledImplicitLod) : bool := N.eqb (OpImageSampledImplicitLod_0 a) (OpImageSampledImplicitLod_0 b) && N.eqb (OpImageSampledImplicitLod_1 a) (OpImageSampledImplicitLod_1 b) && N.eqb (OpImageSampledImplicitLod_2 a) (OpImageSampledImplicitLod_2 b) && N.eqb (OpImageSampledImplicitLod_3 a) (OpImageSampledImplicitLod_3 b) && (eq_Option eq_ImageOperands) (OpImageSampledImplicitLod_4 a) (OpImageSampledImplicitLod_4 b).
(* src/spv/op.rs:635-639 *)
Definition dbg_OpImageSampledImplicitLod {E} (x : OpImageSampledImplicitLod) : dtree E := DTuple "OpImageSampledImplicitLod" [dbg_OpId (OpImageSampledImplicitLod_0 x); dbg_ResultId (OpImageSampledImplicitLod_1 x); dbg_OpId (OpImageSampledImplicitLod_2 x); dbg_OpId (OpImageSampledImplicitLod_3 x); (dbg_Option dbg_ImageOperands) (OpImageSampledImplicitLod_4 x)].

(* src/spv/op.rs:642 *)
Record OpImageSampledExplicitLod : Type := Build_OpImageSampledExplicitLod { OpImageSampledExplicitLod_0 : OpId; OpImageSampledExplicitLod_1 : ResultId; OpImageSampledExplicitLod_2 : OpId; OpImageSampledExplicitLod_3 : OpId; OpImageSampledExplicitLod_4 : ImageOperands }.
(* src/spv/op.rs:642 *)
Definition eq_OpImageSampledExplicitLod (a b : OpImageSampledExplicitLod) : bool := N.eqb (OpImageSampledExplicitLod_0 a) (OpImageSampledExplicitLod_0 b) && N.eqb (OpImageSampledExplicitLod_1 a) (OpImageSampledExplicitLod_1 b) && N.eqb (OpImageSampledExplicitLod_2 a) (OpImageSampledExplicitLod_2 b) && N.eqb (OpImageSampledExplicitLod_3 a) (OpImageSampledExplicitLod_3 b) && eq_ImageOperands (OpImageSampledExplicitLod_4 a) (OpImageSampledExplicitLod_4 b).
(* src/spv/op.rs:642 *)
Definition dbg_OpImageSampledExplicitLod {E} (x : OpImageSampledExplicitLod) : dtree E := DTuple "OpImageSampledExplicitLod" [dbg_OpId (OpImageSampledExplicitLod_0 x); dbg_ResultId (OpImageSampledExplicitLod_1 x); dbg_OpId (OpImageSampledExplicitLod_2 x); dbg_OpId (OpImageSampledExplicitLod_3 x); dbg_ImageOperands (OpImageSampledExplicitLod_4 x)].

(* src/spv/op.rs:645-650 *)
Record OpImageSampleDrefImplicitLod : Type := Build_OpImageSampleDrefImplicitLod { OpImageSampleDrefImplicitLod_0 : OpId; OpImageSampleDrefImplicitLod_1 : ResultId; OpImageSampleDrefImplicitLod_2 : OpId; OpImageSampleDrefImplicitLod_3 : OpId; OpImageSampleDrefImplicitLod_4 : OpId; OpImageSampleDrefImplicitLod_5 : (option ImageOperands) }.
(* src/spv/op.rs:645-650 *)
Definition eq_OpImageSampleDrefImplicitLod (a b : OpImageSampleDrefImplicitLod) : bool := N.eqb (OpImageSampleDrefImplicitLod_0 a) (OpImageSampleDrefImplicitLod_0 b) && N.eqb (OpImageSampleDrefImplicitLod_1 a) (OpImageSampleDrefImplicitLod_1 b) && N.eqb (OpImageSampleDrefImplicitLod_2 a) (OpImageSampleDrefImplicitLod_2 b) && N.eqb (OpImageSampleDrefImplicitLod_3 a) (OpImageSampleDrefImplicitLod_3 b) && N.eqb (OpImageSampleDrefImplicitLod_4 a) (OpImageSampleDrefImplicitLod_4 b) && (eq_Option eq_ImageOperands) (OpImageSampleDrefImplicitLod_5 a) (OpImageSampleDrefImplicitLod_5 b).
(* src/spv/op.rs:645-650 *)
Definition dbg_OpImageSampleDrefImplicitLod {E} (x : OpImageSampleDrefImplicitLod) : dtree E := DTuple "OpImageSampleDrefImplicitLod" [dbg_OpId (OpImageSampleDrefImplicitLod_0 x); dbg_ResultId (OpImageSampleDrefImplicitLod_1 x); dbg_OpId (OpImageSampleDrefImplicitLod_2 x); dbg_OpId (OpImageSampleDrefImplicitLod_3 x); dbg_OpId (OpImageSampleDrefImplicitLod_4 x); (dbg_Option dbg_ImageOperands) (OpImageSampleDrefImplicitLod_5 x)].

(* src/spv/op.rs:653-658 *)
Record OpImageSampleDrefExplicitLod : Type := Build_OpImageSampleDrefExplicitLod { OpImageSampleDrefExplicitLod_0 : OpId; OpImageSampleDrefExplicitLod_1 : ResultId; OpImageSampleDrefExplicitLod_2 : OpId; OpImageSampleDrefExplicitLod_3 : OpId; OpImageSampleDrefExplicitLod_4 : OpId; OpImageSampleDrefExplicitLod_5 : ImageOperands }.
(* src/spv/op.rs:653-658 *)
Definition eq_OpImageSampleDrefExplicitLod (a b : OpImageSampleDrefExplicitLod) : bool := N.eqb (OpImageSampleDrefExplicitLod_0 a) (OpImageSampleDrefExplicitLod_0 b) && N.eqb (OpImageSampleDrefExplicitLod_1 a) (OpImageSampleDrefExplicitLod_1 b) && N.eqb (OpImageSampleDrefExplicitLod_2 a) (OpImageSampleDrefExplicitLod_2 b) && N.eqb (OpImageSampleDrefExplicitLod_3 a) (OpImageSampleDrefExplicitLod_3 b) && N.eqb (OpImageSampleDrefExplicitLod_4 a) (OpImageSampleDrefExplicitLod_4 b) && eq_ImageOperands (OpImageSampleDrefExplicitLod_5 a) (OpImageSampleDrefExplicitLod_5 b).
(* src/spv/op.rs:653-658 *)
Definition dbg_OpImageSampleDrefExplicitLod {E} (x : OpImageSampleDrefExplicitLod) : dtree E := DTuple "OpImageSampleDrefExplicitLod" [dbg_OpId (OpImageSampleDrefExplicitLod_0 x); dbg_ResultId (OpImageSampleDrefExplicitLod_1 x); dbg_OpId (OpImageSampleDrefExplicitLod_2 x); dbg_OpId (OpImageSampleDrefExplicitLod_3 x); dbg_OpId (OpImageSampleDrefExplicitLod_4 x); dbg_ImageOperands (OpImageSampleDrefExplicitLod_5 x)].

(* src/spv/op.rs:661-665 *)
Record OpImageSampleProjImplicitLod : Type := Build_OpImageSampleProjImplicitLod { OpImageSampleProjImplicitLod_0 : OpId; OpImageSampleProjImplicitLod_1 : ResultId; OpImageSampleProjImplicitLod_2 : OpId; OpImageSampleProjImplicitLod_3 : OpId; OpImageSampleProjImplicitLod_4 : (option ImageOperands) }.
(* src/spv/op.rs:661-665 *)
Definition eq_OpImageSampleProjImplicitLod (a b : OpImageSampleProjImplicitLod) : bool := N.eqb (OpImageSampleProjImplicitLod_0 a) (OpImageSampleProjImplicitLod_0 b) && N.eqb (OpImageSampleProjImplicitLod_1 a) (OpImageSampleProjImplicitLod_1 b) && N.eqb (OpImageSampleProjImplicitLod_2 a) (OpImageSampleProjImplicitLod_2 b) && N.eqb (OpImageSampleProjImplicitLod_3 a) (OpImageSampleProjImplicitLod_3 b) && (eq_Option eq_ImageOperands) (OpImageSampleProjImplicitLod_4 a) (OpImageSampleProjImplicitLod_4 b).
(* src/spv/op.rs:661-665 *)
Definition dbg_OpImageSampleProjImplicitLod {E} (x : OpImageSampleProjImplicitLod) : dtree E := DTuple "OpImageSampleProjImplicitLod" [dbg_OpId (OpImageSampleProjImplicitLod_0 x); dbg_ResultId (OpImageSampleProjImplicitLod_1 x); dbg_OpId (OpImageSampleProjImplicitLod_2 x); dbg_OpId (OpImageSampleProjImplicitLod_3 x); (dbg_Option dbg_ImageOperands) (OpImageSampleProjImplicitLod_4 x)].

(* src/spv/op.rs:668-672 *)
Record OpImageSampleProjExplicitLod : Type := Build_OpImageSampleProjExplicitLod { OpImageSampleProjExplicitLod_0 : OpId; OpImageSampleProjExplicitLod_1 : ResultId; OpImageSampleProjExplicitLod_2 : OpId; OpImageSampleProjExplicitLod_3 : OpId; OpImageSampleProjExplicitLod_4 : ImageOperands }.
(* src/spv/op.rs:668-672 *)
Definition eq_OpImageSampleProjExplicitLod (a b : OpImageSampleProjExplicitLod) : bool := N.eqb (OpImageSampleProjExplicitLod_0 a) (OpImageSampleProjExplicitLod_0 b) && N.eqb (OpImageSampleProjExplicitLod_1 a) (OpImageSampleProjExplicitLod_1 b) && N.eqb (OpImageSampleProjExplicitLod_2 a) (OpImageSampleProjExplicitLod_2 b) && N.eqb (OpImageSampleProjExplicitLod_3 a) (OpImageSampleProjExplicitLod_3 b) && eq_ImageOperands (OpImageSampleProjExplicitLod_4 a) (OpImageSampleProjExplicitLod_4 b).
(* src/spv/op.rs:668-672 *)
Definition dbg_OpImageSampleProjExplicitLod {E} (x : OpImageSampleProjExplicitLod) : dtree E := DTuple "OpImageSampleProjExplicitLod" [dbg_OpId (OpImageSampleProjExplicitLod_0 x); dbg_ResultId (OpImageSampleProjExplicitLod_1 x); dbg_OpId (OpImageSampleProjExplicitLod_2 x); dbg_OpId (OpImageSampleProjExplicitLod_3 x); dbg_ImageOperands (OpImageSampleProjExplicitLod_4 x)].

(* src/spv/op.rs:676-681 *)
Record OpImageSampleProjDrefImplicitLod : Type := Build_OpImageSampleProjDrefImplicitLod { OpImageSampleProjDrefImplicitLod_0 : OpId; OpImageSampleProjDrefImplicitLod_1 : ResultId; OpImageSampleProjDrefImplicitLod_2 : OpId; OpImageSampleProjDrefImplicitLod_3 : OpId; OpImageSampleProjDrefImplicitLod_4 : OpId; OpImageSampleProjDrefImplicitLod_5 : (option ImageOperands) }.
(* src/spv/op.rs:676-681 *)
Definition eq_OpImageSampleProjDrefImplicitLod (a b : OpImageSampleProjDrefImplicitLod) : bool := N.eqb (OpImageSampleProjDrefImplicitLod_0 a) (OpImageSampleProjDrefImplicitLod_0 b) && N.eqb (OpImageSampleProjDrefImplicitLod_1 a) (OpImageSampleProjDrefImplicitLod_1 b) && N.eqb (OpImageSampleProjDrefImplicitLod_2 a) (OpImageSampleProjDrefImplicitLod_2 b) && N.eqb (OpImageSampleProjDrefImplicitLod_3 a) (OpImageSampleProjDrefImplicitLod_3 b) && N.eqb (OpImageSampleProjDrefImplicitLod_4 a) (OpImageSampleProjDrefImplicitLod_4 b) && (eq_Option eq_ImageOperands) (OpImageSampleProjDrefImplicitLod_5 a) (OpImageSampleProjDrefImplicitLod_5 b).
(* src/spv/op.rs:676-681 *)
Definition dbg_OpImageSampleProjDrefImplicitLod {E} (x : OpImageSampleProjDrefImplicitLod) : dtree E := DTuple "OpImageSampleProjDrefImplicitLod" [dbg_OpId (OpImageSampleProjDrefImplicitLod_0 x); dbg_ResultId (OpImageSampleProjDrefImplicitLod_1 x); dbg_OpId (OpImageSampleProjDrefImplicitLod_2 x); dbg_OpId (OpImageSampleProjDrefImplicitLod_3 x); dbg_OpId (OpImageSampleProjDrefImplicitLod_4 x); (dbg_Option dbg_ImageOperands) (OpImageSampleProjDrefImplicitLod_5 x)].

(* src/spv/op.rs:684-689 *)
Record OpImageSampleProjDrefExplicitLod : Type := Build_OpImageSampleProjDrefExplicitLod { OpImageSampleProjDrefExplicitLod_0 : OpId; OpImageSampleProjDrefExplicitLod_1 : ResultId; OpImageSampleProjDrefExplicitLod_2 : OpId; OpImageSampleProjDrefExplicitLod_3 : OpId; OpImageSampleProjDrefExplicitLod_4 : OpId; OpImageSampleProjDrefExplicitLod_5 : ImageOperands }.
(* src/spv/op.rs:684-689 *)
Definition eq_OpImageSampleProjDrefExplicitLod (a b : OpImageSampleProjDrefExplicitLod) : bool := N.eqb (OpImageSampleProjDrefExplicitLod_0 a) (OpImageSampleProjDrefExplicitLod_0 b) && N.eqb (OpImageSampleProjDrefExplicitLod_1 a) (OpImageSampleProjDrefExplicitLod_1 b) && N.eqb (OpImageSampleProjDrefExplicitLod_2 a) (OpImageSampleProjDrefExplicitLod_2 b) && N.eqb (OpImageSampleProjDrefExplicitLod_3 a) (OpImageSampleProjDrefExplicitLod_3 b) && N.eqb (OpImageSampleProjDrefExplicitLod_4 a) (OpImageSampleProjDrefExplicitLod_4 b) && eq_ImageOperands (OpImageSampleProjDrefExplicitLod_5 a) (OpImageSampleProjDrefExplicitLod_5 b).
(* src/spv/op.rs:684-689 *)
Definition dbg_OpImageSampleProjDrefExplicitLod {E} (x : OpImageSampleProjDrefExplicitLod) : dtree E := DTuple "OpImageSampleProjDrefExplicitLod" [dbg_OpId (OpImageSampleProjDrefExplicitLod_0 x); dbg_ResultId (OpImageSampleProjDrefExplicitLod_1 x); dbg_OpId (OpImageSampleProjDrefExplicitLod_2 x); dbg_OpId (OpImageSampleProjDrefExplicitLod_3 x); dbg_OpId (OpImageSampleProjDrefExplicitLod_4 x); dbg_ImageOperands (OpImageSampleProjDrefExplicitLod_5 x)].

(* src/spv/op.rs:692 *)
Record OpImageFetch : Type := Build_OpImageFetch { OpImageFetch_0 : OpId; OpImageFetch_1 : ResultId; OpImageFetch_2 : OpId; OpImageFetch_3 : OpId; OpImageFetch_4 : (option ImageOperands) }.
(* src/spv/op.rs:692 *)
Definition eq_OpImageFetch (a b : OpImageFetch) : bool := N.eqb (OpImageFetch_0 a) (OpImageFetch_0 b) && N.eqb (OpImageFetch_1 a) (OpImageFetch_1 b) && N.eqb (OpImageFetch_2 a) (OpImageFetch_2 b) && N.eqb (OpImageFetch_3 a) (OpImageFetch_3 b) && (eq_Option eq_ImageOperands) (OpImageFetch_4 a) (OpImageFetch_4 b).
(* src/spv/op.rs:692 *)
Definition dbg_OpImageFetch {E} (x : OpImageFetch) : dtree E := DTuple "OpImageFetch" [dbg_OpId (OpImageFetch_0 x); dbg_ResultId (OpImageFetch_1 x); dbg_OpId (OpImageFetch_2 x); dbg_OpId (OpImageFetch_3 x); (dbg_Option dbg_ImageOperands) (OpImageFetch_4 x)].

(* src/spv/op.rs:695-700 *)
Record OpImageGather : Type := Build_OpImageGather { OpImageGather_0 : OpId; OpImageGather_1 : ResultId; OpImageGather_2 : OpId; OpImageGather_3 : OpId; OpImageGather_4 : OpId; OpImageGather_5 : (option ImageOperands) }.
(* src/spv/op.rs:695-700 *)
Definition eq_OpImageGather (a b : OpImageGather) : bool := N.eqb (OpImageGather_0 a) (OpImageGather_0 b) && N.eqb (OpImageGather_1 a) (OpImageGather_1 b) && N.eqb (OpImageGather_2 a) (OpImageGather_2 b) && N.eqb (OpImageGather_3 a) (OpImageGather_3 b) && N.eqb (OpImageGather_4 a) (OpImageGather_4 b) && (eq_Option eq_ImageOperands) (OpImageGather_5 a) (OpImageGather_5 b).
(* src/spv/op.rs:695-700 *)
Definition dbg_OpImageGather {E} (x : OpImageGather) : dtree E := DTuple "OpImageGather" [dbg_OpId (OpImageGather_0 x); dbg_ResultId (OpImageGather_1 x); dbg_OpId (OpImageGather_2 x); dbg_OpId (OpImageGather_3 x); dbg_OpId (OpImageGather_4 x); (dbg_Option dbg_ImageOperands) (OpImageGather_5 x)].

(* src/spv/op.rs:703-708 *)
Record OpImageDrefGather : Type := Build_OpImageDrefGather { OpImageDrefGather_0 : OpId; OpImageDrefGather_1 : ResultId; OpImageDrefGather_2 : OpId; OpImageDrefGather_3 : OpId; OpImageDrefGather_4 : OpId; OpImageDrefGather_5 : (option ImageOperands) }.
(* src/spv/op.rs:703-708 *)
Definition eq_OpImageDrefGather (a b : OpImageDrefGather) : bool := N.eqb (OpImageDrefGather_0 a) (OpImageDrefGather_0 b) && N.eqb (OpImageDrefGather_1 a) (OpImageDrefGather_1 b) && N.eqb (OpImageDrefGather_2 a) (OpImageDrefGather_2 b) && N.eqb (OpImageDrefGather_3 a) (OpImageDrefGather_3 b) && N.eqb (OpImageDrefGather_4 a) (OpImageDrefGather_4 b) && (eq_Option eq_ImageOperands) (OpImageDrefGather_5 a) (OpImageDrefGather_5 b).
(* src/spv/op.rs:703-708 *)
Definition dbg_OpImageDrefGather {E} (x : OpImageDrefGather) : dtree E := DTuple "OpImageDrefGather" [dbg_OpId (OpImageDrefGather_0 x); dbg_ResultId (OpImageDrefGather_1 x); dbg_OpId (OpImageDrefGather_2 x); dbg_OpId (OpImageDrefGather_3 x); dbg_OpId (OpImageDrefGather_4 x); (dbg_Option dbg_ImageOperands) (OpImageDrefGather_5 x)].

(* src/spv/op.rs:711 *)
Record OpImageRead : Type := Build_OpImageRead { OpImageRead_0 : OpId; OpImageRead_1 : ResultId; OpImageRead_2 : OpId; OpImageRead_3 : OpId; OpImageRead_4 : (option ImageOperands) }.
(* src/spv/op.rs:711 *)
Definition eq_OpImageRead (a b : OpImageRead) : bool := N.eqb (OpImageRead_0 a) (OpImageRead_0 b) && N.eqb (OpImageRead_1 a) (OpImageRead_1 b) && N.eqb (OpImageRead_2 a) (OpImageRead_2 b) && N.eqb (OpImageRead_3 a) (OpImageRead_3 b) && (eq_Option eq_ImageOperands) (OpImageRead_4 a) (OpImageRead_4 b).
(* src/spv/op.rs:711 *)
Definition dbg_OpImageRead {E} (x : OpImageRead) : dtree E := DTuple "OpImageRead" [dbg_OpId (OpImageRead_0 x); dbg_ResultId (OpImageRead_1 x); dbg_OpId (OpImageRead_2 x); dbg_OpId (OpImageRead_3 x); (dbg_Option dbg_ImageOperands) (OpImageRead_4 x)].

(* src/spv/op.rs:714 *)
Record OpImageWrite : Type := Build_OpImageWrite { OpImageWrite_0 : OpId; OpImageWrite_1 : OpId; OpImageWrite_2 : OpId; OpImageWrite_3 : (option ImageOperands) }.
(* src/spv/op.rs:714 *)
Definition eq_OpImageWrite (a b : OpImageWrite) : bool := N.eqb (OpImageWrite_0 a) (OpImageWrite_0 b) && N.eqb (OpImageWrite_1 a) (OpImageWrite_1 b) && N.eqb (OpImageWrite_2 a) (OpImageWrite_2 b) && (eq_Option eq_ImageOperands) (OpImageWrite_3 a) (OpImageWrite_3 b).
(* src/spv/op.rs:714 *)
Definition dbg_OpImageWrite {E} (x : OpImageWrite) : dtree E := DTuple "OpImageWrite" [dbg_OpId (OpImageWrite_0 x); dbg_OpId (OpImageWrite_1 x); dbg_OpId (OpImageWrite_2 x); (dbg_Option dbg_ImageOperands) (OpImageWrite_3 x)].

(* src/spv/op.rs:717 *)
Record OpImage : Type := Build_OpImage { OpImage_0 : OpId; OpImage_1 : ResultId; OpImage_2 : OpId }.
(* src/spv/op.rs:717 *)
Definition eq_OpImage (a b : OpImage) : bool := N.eqb (OpImage_0 a) (OpImage_0 b) && N.eqb (OpImage_1 a) (OpImage_1 b) && N.eqb (OpImage_2 a) (OpImage_2 b).
(* src/spv/op.rs:717 *)
Definition dbg_OpImage {E} (x : OpImage) : dtree E := DTuple "OpImage" [dbg_OpId (OpImage_0 x); dbg_ResultId (OpImage_1 x); dbg_OpId (OpImage_2 x)].

(* src/spv/op.rs:720 *)
Record OpImageQueryFormat : Type := Build_OpImageQueryFormat { OpImageQueryFormat_0 : OpId; OpImageQueryFormat_1 : ResultId; OpImageQueryFormat_2 : OpId }.
(* src/spv/op.rs:720 *)
Definition eq_OpImageQueryFormat (a b : OpImageQueryFormat) : bool := N.eqb (OpImageQueryFormat_0 a) (OpImageQueryFormat_0 b) && N.eqb (OpImageQueryFormat_1 a) (OpImageQueryFormat_1 b) && N.eqb (OpImageQueryFormat_2 a) (OpImageQueryFormat_2 b).
(* src/spv/op.rs:720 *)
Definition dbg_OpImageQueryFormat {E} (x : OpImageQueryFormat) : dtree E := DTuple "OpImageQueryFormat" [dbg_OpId (OpImageQueryFormat_0 x); dbg_ResultId (OpImageQueryFormat_1 x); dbg_OpId (OpImageQueryFormat_2 x)].

(* src/spv/op.rs:723 *)
Record OpImageQueryOrder : Type := Build_OpImageQueryOrder { OpImageQueryOrder_0 : OpId; OpImageQueryOrder_1 : ResultId; OpImageQueryOrder_2 : OpId }.
(* src/spv/op.rs:723 *)
Definition eq_OpImageQueryOrder (a b : OpImageQueryOrder) : bool := N.eqb (OpImageQueryOrder_0 a) (OpImageQueryOrder_0 b) && N.eqb (OpImageQueryOrder_1 a) (OpImageQueryOrder_1 b) && N.eqb (OpImageQueryOrder_2 a) (OpImageQueryOrder_2 b).
(* src/spv/op.rs:723 *)
Definition dbg_OpImageQueryOrder {E} (x : OpImageQueryOrder) : dtree E := DTuple "OpImageQueryOrder" [dbg_OpId (OpImageQueryOrder_0 x); dbg_ResultId (OpImageQueryOrder_1 x); dbg_OpId (OpImageQueryOrder_2 x)].

(* src/spv/op.rs:726 *)
Record OpImageQuerySizeLod : Type := Build_OpImageQuerySizeLod { OpImageQuerySizeLod_0 : OpId; OpImageQuerySizeLod_1 : ResultId; OpImageQuerySizeLod_2 : OpId; OpImageQuerySizeLod_3 : OpId }.
(* src/spv/op.rs:726 *)
Definition eq_OpImageQuerySizeLod (a b : OpImageQuerySizeLod) : bool := N.eqb (OpImageQuerySizeLod_0 a) (OpImageQuerySizeLod_0 b) && N.eqb (OpImageQuerySizeLod_1 a) (OpImageQuerySizeLod_1 b) && N.eqb (OpImageQuerySizeLod_2 a) (OpImageQuerySizeLod_2 b) && N.eqb (OpImageQuerySizeLod_3 a) (OpImageQuerySizeLod_3 b).
(* src/spv/op.rs:726 *)
Definition dbg_OpImageQuerySizeLod {E} (x : OpImageQuerySizeLod) : dtree E := DTuple "OpImageQuerySizeLod" [dbg_OpId (OpImageQuerySizeLod_0 x); dbg_ResultId (OpImageQuerySizeLod_1 x); dbg_OpId (OpImageQuerySizeLod_2 x); dbg_OpId (OpImageQuerySizeLod_3 x)].

(* src/spv/op.rs:729 *)
Record OpImageQuerySize : Type := Build_OpImageQuerySize { OpImageQuerySize_0 : OpId; OpImageQuerySize_1 : ResultId; OpImageQuerySize_2 : OpId }.
(* src/spv/op.rs:729 *)
Definition eq_OpImageQuerySize (a b : OpImageQuerySize) : bool := N.eqb (OpImageQuerySize_0 a) (OpImageQuerySize_0 b) && N.eqb (OpImageQuerySize_1 a) (OpImageQuerySize_1 b) && N.eqb (OpImageQuerySize_2 a) (OpImageQuerySize_2 b).
(* src/spv/op.rs:729 *)
Definition dbg_OpImageQuerySize {E} (x : OpImageQuerySize) : dtree E := DTuple "OpImageQuerySize" [dbg_OpId (OpImageQuerySize_0 x); dbg_ResultId (OpImageQuerySize_1 x); dbg_OpId (OpImageQuerySize_2 x)].

(* src/spv/op.rs:732 *)
Record OpImageQueryLod : Type := Build_OpImageQueryLod { OpImageQueryLod_0 : OpId; OpImageQueryLod_1 : ResultId; OpImageQueryLod_2 : OpId; OpImageQueryLod_3 : OpId }.
(* src/spv/op.rs:732 *)
Definition eq_OpImageQueryLod (a b : OpImageQueryLod) : bool := N.eqb (OpImageQueryLod_0 a) (OpImageQueryLod_0 b) && N.eqb (OpImageQueryLod_1 a) (OpImageQueryLod_1 b) && N.eqb (OpImageQueryLod_2 a) (OpImageQueryLod_2 b) && N.eqb (OpImageQueryLod_3 a) (OpImageQueryLod_3 b).
(* src/spv/op.rs:732 *)
Definition dbg_OpImageQueryLod {E} (x : OpImageQueryLod) : dtree E := DTuple "OpImageQueryLod" [dbg_OpId (OpImageQueryLod_0 x); dbg_ResultId (OpImageQueryLod_1 x); dbg_OpId (OpImageQueryLod_2 x); dbg_OpId (OpImageQueryLod_3 x)].

(* src/spv/op.rs:735 *)
Record OpImageQueryLevels : Type := Build_OpImageQueryLevels { OpImageQueryLevels_0 : OpId; OpImageQueryLevels_1 : ResultId; OpImageQueryLevels_2 : OpId }.
(* src/spv/op.rs:735 *)
Definition eq_OpImageQueryLevels (a b : OpImageQueryLevels) : bool := N.eqb (OpImageQueryLevels_0 a) (OpImageQueryLevels_0 b) && N.eqb (OpImageQueryLevels_1 a) (OpImageQueryLevels_1 b) && N.eqb (OpImageQueryLevels_2 a) (OpImageQueryLevels_2 b).
(* src/spv/op.rs:735 *)
Definition dbg_OpImageQueryLevels {E} (x : OpImageQueryLevels) : dtree E := DTuple "OpImageQueryLevels" [dbg_OpId (OpImageQueryLevels_0 x); dbg_ResultId (OpImageQueryLevels_1 x); dbg_OpId (OpImageQueryLevels_2 x)].

(* src/spv/op.rs:738 *)
Record OpImageQuerySamples : Type := Build_OpImageQuerySamples { OpImageQuerySamples_0 : OpId; OpImageQuerySamples_1 : ResultId; OpImageQuerySamples_2 : OpId }.
(* src/spv/op.rs:738 *)
Definition eq_OpImageQuerySamples (a b : OpImageQuerySamples) : bool := N.eqb (OpImageQuerySamples_0 a) (OpImageQuerySamples_0 b) && N.eqb (OpImageQuerySamples_1 a) (OpImageQuerySamples_1 b) && N.eqb (OpImageQuerySamples_2 a) (OpImageQuerySamples_2 b).
(* src/spv/op.rs:738 *)
Definition dbg_OpImageQuerySamples {E} (x : OpImageQuerySamples) : dtree E := DTuple "OpImageQuerySamples" [dbg_OpId (OpImageQuerySamples_0 x); dbg_ResultId (OpImageQuerySamples_1 x); dbg_OpId (OpImageQuerySamples_2 x)].

(* src/spv/op.rs:741-745 *)
Record OpImageSparseSampleImplicitLod : Type := Build_OpImageSparseSampleImplicitLod { OpImageSparseSampleImplicitLod_0 : OpId; OpImageSparseSampleImplicitLod_1 : ResultId; OpImageSparseSampleImplicitLod_2 : OpId; OpImageSparseSampleImplicitLod_3 : OpId; OpImageSparseSampleImplicitLod_4 : (option ImageOperands) }.
(* src/spv/op.rs:741-745 *)
Definition eq_OpImageSparseSampleImplicitLod (a b : OpImageSparseSampleImplicitLod) : bool := N.eqb (OpImageSparseSampleImplicitLod_0 a) (OpImageSparseSampleImplicitLod_0 b) && N.eqb (OpImageSparseSampleImplicitLod_1 a) (OpImageSparseSampleImplicitLod_1 b) && N.eqb (OpImageSparseSampleImplicitLod_2 a) (OpImageSparseSampleImplicitLod_2 b) && N.eqb (OpImageSparseSampleImplicitLod_3 a) (OpImageSparseSampleImplicitLod_3 b) && (eq_Option eq_ImageOperands) (OpImageSparseSampleImplicitLod_4 a) (OpImageSparseSampleImplicitLod_4 b).
(* src/spv/op.rs:741-745 *)
Definition dbg_OpImageSparseSampleImplicitLod {E} (x : OpImageSparseSampleImplicitLod) : dtree E := DTuple "OpImageSparseSampleImplicitLod" [dbg_OpId (OpImageSparseSampleImplicitLod_0 x); dbg_ResultId (OpImageSparseSampleImplicitLod_1 x); dbg_OpId (OpImageSparseSampleImplicitLod_2 x); dbg_OpId (OpImageSparseSampleImplicitLod_3 x); (dbg_Option dbg_ImageOperands) (OpImageSparseSampleImplicitLod_4 x)].

(* src/spv/op.rs:748-752 *)
Record OpImageSparseSampleExplicitLod : Type := Build_OpImageSparseSampleExplicitLod { OpImageSparseSampleExplicitLod_0 : OpId; OpImageSparseSampleExplicitLod_1 : ResultId; OpImageSparseSampleExplicitLod_2 : OpId; OpImageSparseSampleExplicitLod_3 : OpId; OpImageSparseSampleExplicitLod_4 : ImageOperands }.
(* src/spv/op.rs:748-752 *)
Definition eq_OpImageSparseSampleExplicitLod (a b : OpImageSparseSampleExplicitLod) : bool := N.eqb (OpImageSparseSampleExplicitLod_0 a) (OpImageSparseSampleExplicitLod_0 b) && N.eqb (OpImageSparseSampleExplicitLod_1 a) (OpImageSparseSampleExplicitLod_1 b) && N.eqb (OpImageSparseSampleExplicitLod_2 a) (OpImageSparseSampleExplicitLod_2 b) && N.eqb (OpImageSparseSampleExplicitLod_3 a) (OpImageSparseSampleExplicitLod_3 b) && eq_ImageOperands (OpImageSparseSampleExplicitLod_4 a) (OpImageSparseSampleExplicitLod_4 b).
(* src/spv/op.rs:748-752 *)
Definition dbg_OpImageSparseSampleExplicitLod {E} (x : OpImageSparseSampleExplicitLod) : dtree E := DTuple "OpImageSparseSampleExplicitLod" [dbg_OpId (OpImageSparseSampleExplicitLod_0 x); dbg_ResultId (OpImageSparseSampleExplicitLod_1 x); dbg_OpId (OpImageSparseSampleExplicitLod_2 x); dbg_OpId (OpImageSparseSampleExplicitLod_3 x); dbg_ImageOperands (OpImageSparseSampleExplicitLod_4 x)].

(* src/spv/op.rs:755-760 *)
Record OpImageSparseSampleDrefImplicitLod : Type := Build_OpImageSparseSampleDrefImplicitLod { OpImageSparseSampleDrefImplicitLod_0 : OpId; OpImageSparseSampleDrefImplicitLod_1 : ResultId; OpImageSparseSampleDrefImplicitLod_2 : OpId; OpImageSparseSampleDrefImplicitLod_3 : OpId; OpImageSparseSampleDrefImplicitLod_4 : OpId; OpImageSparseSampleDrefImplicitLod_5 : (option ImageOperands) }.
(* src/spv/op.rs:755-760 *)
Definition eq_OpImageSparseSampleDrefImplicitLod (a b : OpImageSparseSampleDrefImplicitLod) : bool := N.eqb (OpImageSparseSampleDrefImplicitLod_0 a) (OpImageSparseSampleDrefImplicitLod_0 b) && N.eqb (OpImageSparseSampleDrefImplicitLod_1 a) (OpImageSparseSampleDrefImplicitLod_1 b) && N.eqb (OpImageSparseSampleDrefImplicitLod_2 a) (OpImageSparseSampleDrefImplicitLod_2 b) && N.eqb (OpImageSparseSampleDrefImplicitLod_3 a) (OpImageSparseSampleDrefImplicitLod_3 b) && N.eqb (OpImageSparseSampleDrefImplicitLod_4 a) (OpImageSparseSampleDrefImplicitLod_4 b) && (eq_Option eq_ImageOperands) (OpImageSparseSampleDrefImplicitLod_5 a) (OpImageSparseSampleDrefImplicitLod_5 b).
(* src/spv/op.rs:755-760 *)
Definition dbg_OpImageSparseSampleDrefImplicitLod {E} (x : OpImageSparseSampleDrefImplicitLod) : dtree E := DTuple "OpImageSparseSampleDrefImplicitLod" [dbg_OpId (OpImageSparseSampleDrefImplicitLod_0 x); dbg_ResultId (OpImageSparseSampleDrefImplicitLod_1 x); dbg_OpId (OpImageSparseSampleDrefImplicitLod_2 x); dbg_OpId (OpImageSparseSampleDrefImplicitLod_3 x); dbg_OpId (OpImageSparseSampleDrefImplicitLod_4 x); (dbg_Option dbg_ImageOperands) (OpImageSparseSampleDrefImplicitLod_5 x)].

(* src/spv/op.rs:763-768 *)
Record OpImageSparseSampleDrefExplicitLod : Type := Build_OpImageSparseSampleDrefExplicitLod { OpImageSparseSampleDrefExplicitLod_0 : OpId; OpImageSparseSampleDrefExplicitLod_1 : ResultId; OpImageSparseSampleDrefExplicitLod_2 : OpId; OpImageSparseSampleDrefExplicitLod_3 : OpId; OpImageSparseSampleDrefExplicitLod_4 : OpId; OpImageSparseSampleDrefExplicitLod_5 : ImageOperands }.
(* src/spv/op.rs:763-768 *)
Definition eq_OpImageSparseSampleDrefExplicitLod (a b : OpImageSparseSampleDrefExplicitLod) : bool := N.eqb (OpImageSparseSampleDrefExplicitLod_0 a) (OpImageSparseSampleDrefExplicitLod_0 b) && N.eqb (OpImageSparseSampleDrefExplicitLod_1 a) (OpImageSparseSampleDrefExplicitLod_1 b) && N.eqb (OpImageSparseSampleDrefExplicitLod_2 a) (OpImageSparseSampleDrefExplicitLod_2 b) && N.eqb (OpImageSparseSampleDrefExplicitLod_3 a) (OpImageSparseSampleDrefExplicitLod_3 b) && N.eqb (OpImageSparseSampleDrefExplicitLod_4 a) (OpImageSparseSampleDrefExplicitLod_4 b) && eq_ImageOperands (OpImageSparseSampleDrefExplicitLod_5 a) (OpImageSparseSampleDrefExplicitLod_5 b).
(* src/spv/op.rs:763-768 *)
Definition dbg_OpImageSparseSampleDrefExplicitLod {E} (x : OpImageSparseSampleDrefExplicitLod) : dtree E := DTuple "OpImageSparseSampleDrefExplicitLod" [dbg_OpId (OpImageSparseSampleDrefExplicitLod_0 x); dbg_ResultId (OpImageSparseSampleDrefExplicitLod_1 x); dbg_OpId (OpImageSparseSampleDrefExplicitLod_2 x); dbg_OpId (OpImageSparseSampleDrefExplicitLod_3 x); dbg_OpId (OpImageSparseSampleDrefExplicitLod_4 x); dbg_ImageOperands (OpImageSparseSampleDrefExplicitLod_5 x)].

(* src/spv/op.rs:771-775 *)
Record OpImageSparseSampleProjImplicitLod : Type := Build_OpImageSparseSampleProjImplicitLod { OpImageSparseSampleProjImplicitLod_0 : OpId; OpImageSparseSampleProjImplicitLod_1 : ResultId; OpImageSparseSampleProjImplicitLod_2 : OpId; OpImageSparseSampleProjImplicitLod_3 : OpId; OpImageSparseSampleProjImplicitLod_4 : (option ImageOperands) }.
(* src/spv/op.rs:771-775 *)
Definition eq_OpImageSparseSampleProjImplicitLod (a b : OpImageSparseSampleProjImplicitLod) : bool := N.eqb (OpImageSparseSampleProjImplicitLod_0 a) (OpImageSparseSampleProjImplicitLod_0 b) && N.eqb (OpImageSparseSampleProjImplicitLod_1 a) (OpImageSparseSampleProjImplicitLod_1 b) && N.eqb (OpImageSparseSampleProjImplicitLod_2 a) (OpImageSparseSampleProjImplicitLod_2 b) && N.eqb (OpImageSparseSampleProjImplicitLod_3 a) (OpImageSparseSampleProjImplicitLod_3 b) && (eq_Option eq_ImageOperands) (OpImageSparseSampleProjImplicitLod_4 a) (OpImageSparseSampleProjImplicitLod_4 b).
(* src/spv/op.rs:771-775 *)
Definition dbg_OpImageSparseSampleProjImplicitLod {E} (x : OpImageSparseSampleProjImplicitLod) : dtree E := DTuple "OpImageSparseSampleProjImplicitLod" [dbg_OpId (OpImageSparseSampleProjImplicitLod_0 x); dbg_ResultId (OpImageSparseSampleProjImplicitLod_1 x); dbg_OpId (OpImageSparseSampleProjImplicitLod_2 x); dbg_OpId (OpImageSparseSampleProjImplicitLod_3 x); (dbg_Option dbg_ImageOperands) (OpImageSparseSampleProjImplicitLod_4 x)].

(* src/spv/op.rs:778-782 *)
Record OpImageSparseSampleProjExplicitLod : Type := Build_OpImageSparseSampleProjExplicitLod { OpImageSparseSampleProjExplicitLod_0 : OpId; OpImageSparseSampleProjExplicitLod_1 : ResultId; OpImageSparseSampleProjExplicitLod_2 : OpId; OpImageSparseSampleProjExplicitLod_3 : OpId; OpImageSparseSampleProjExplicitLod_4 : ImageOperands }.
(* src/spv/op.rs:778-782 *)
Definition eq_OpImageSparseSampleProjExplicitLod (a b : OpImageSparseSampleProjExplicitLod) : bool := N.eqb (OpImageSparseSampleProjExplicitLod_0 a) (OpImageSparseSampleProjExplicitLod_0 b) && N.eqb (OpImageSparseSampleProjExplicitLod_1 a) (OpImageSparseSampleProjExplicitLod_1 b) && N.eqb (OpImageSparseSampleProjExplicitLod_2 a) (OpImageSparseSampleProjExplicitLod_2 b) && N.eqb (OpImageSparseSampleProjExplicitLod_3 a) (OpImageSparseSampleProjExplicitLod_3 b) && eq_ImageOperands (OpImageSparseSampleProjExplicitLod_4 a) (OpImageSparseSampleProjExplicitLod_4 b).
(* src/spv/op.rs:778-782 *)
Definition dbg_OpImageSparseSampleProjExplicitLod {E} (x : OpImageSparseSampleProjExplicitLod) : dtree E := DTuple "OpImageSparseSampleProjExplicitLod" [dbg_OpId (OpImageSparseSampleProjExplicitLod_0 x); dbg_ResultId (OpImageSparseSampleProjExplicitLod_1 x); dbg_OpId (OpImageSparseSampleProjExplicitLod_2 x); dbg_OpId (OpImageSparseSampleProjExplicitLod_3 x); dbg_ImageOperands (OpImageSparseSampleProjExplicitLod_4 x)].

(* src/spv/op.rs:785-790 *)
Record OpImageSparseSampleProjDrefImplicitLod : Type := Build_OpImageSparseSampleProjDrefImplicitLod { OpImageSparseSampleProjDrefImplicitLod_0 : OpId; OpImageSparseSampleProjDrefImplicitLod_1 : ResultId; OpImageSparseSampleProjDrefImplicitLod_2 : OpId; OpImageSparseSampleProjDrefImplicitLod_3 : OpId; OpImageSparseSampleProjDrefImplicitLod_4 : OpId; OpImageSparseSampleProjDrefImplicitLod_5 : (option ImageOperands) }.
(* src/spv/op.rs:785-790 *)
Definition eq_OpImageSparseSampleProjDrefImplicitLod (a b : OpImageSparseSampleProjDrefImplicitLod) : bool := N.eqb (OpImageSparseSampleProjDrefImplicitLod_0 a) (OpImageSparseSampleProjDrefImplicitLod_0 b) && N.eqb (OpImageSparseSampleProjDrefImplicitLod_1 a) (OpImageSparseSampleProjDrefImplicitLod_1 b) && N.eqb (OpImageSparseSampleProjDrefImplicitLod_2 a) (OpImageSparseSampleProjDrefImplicitLod_2 b) && N.eqb (OpImageSparseSampleProjDrefImplicitLod_3 a) (OpImageSparseSampleProjDrefImplicitLod_3 b) && N.eqb (OpImageSparseSampleProjDrefImplicitLod_4 a) (OpImageSparseSampleProjDrefImplicitLod_4 b) && (eq_Option eq_ImageOperands) (OpImageSparseSampleProjDrefImplicitLod_5 a) (OpImageSparseSampleProjDrefImplicitLod_5 b).
(* src/spv/op.rs:785-790 *)
Definition dbg_OpImageSparseSampleProjDrefImplicitLod {E} (x : OpImageSparseSampleProjDrefImplicitLod) : dtree E := DTuple "OpImageSparseSampleProjDrefImplicitLod" [dbg_OpId (OpImageSparseSampleProjDrefImplicitLod_0 x); dbg_ResultId (OpImageSparseSampleProjDrefImplicitLod_1 x); dbg_OpId (OpImageSparseSampleProjDrefImplicitLod_2 x); dbg_OpId (OpImageSparseSampleProjDrefImplicitLod_3 x); dbg_OpId (OpImageSparseSampleProjDrefImplicitLod_4 x); (dbg_Option dbg_ImageOperands) (OpImageSparseSampleProjDrefImplicitLod_5 x)].

(* src/spv/op.rs:793-798 *)
Record OpImageSparseSampleProjDrefExplicitLod : Type := Build_OpImageSparseSampleProjDrefExplicitLod { OpImageSparseSampleProjDrefExplicitLod_0 : OpId; OpImageSparseSampleProjDrefExplicitLod_1 : ResultId; OpImageSparseSampleProjDrefExplicitLod_2 : OpId; OpImageSparseSampleProjDrefExplicitLod_3 : OpId; OpImageSparseSampleProjDrefExplicitLod_4 : OpId; OpImageSparseSampleProjDrefExplicitLod_5 : ImageOperands }.
(* src/spv/op.rs:793-798 *)
Definition eq_OpImageSparseSampleProjDrefExplicitLod (a b : OpImageSparseSampleProjDrefExplicitLod) : bool := N.eqb (OpImageSparseSampleProjDrefExplicitLod_0 a) (OpImageSparseSampleProjDrefExplicitLod_0 b) && N.eqb (OpImageSparseSampleProjDrefExplicitLod_1 a) (OpImageSparseSampleProjDrefExplicitLod_1 b) && N.eqb (OpImageSparseSampleProjDrefExplicitLod_2 a) (OpImageSparseSampleProjDrefExplicitLod_2 b) && N.eqb (OpImageSparseSampleProjDrefExplicitLod_3 a) (OpImageSparseSampleProjDrefExplicitLod_3 b) && N.eqb (OpImageSparseSampleProjDrefExplicitLod_4 a) (OpImageSparseSampleProjDrefExplicitLod_4 b) && eq_ImageOperands (OpImageSparseSampleProjDrefExplicitLod_5 a) (OpImageSparseSampleProjDrefExplicitLod_5 b).
(* src/spv/op.rs:793-798 *)
Definition dbg_OpImageSparseSampleProjDrefExplicitLod {E} (x : OpImageSparseSampleProjDrefExplicitLod) : dtree E := DTuple "OpImageSparseSampleProjDrefExplicitLod" [dbg_OpId (OpImageSparseSampleProjDrefExplicitLod_0 x); dbg_ResultId (OpImageSparseSampleProjDrefExplicitLod_1 x); dbg_OpId (OpImageSparseSampleProjDrefExplicitLod_2 x); dbg_OpId (OpImageSparseSampleProjDrefExplicitLod_3 x); dbg_OpId (OpImageSparseSampleProjDrefExplicitLod_4 x); dbg_ImageOperands (OpImageSparseSampleProjDrefExplicitLod_5 x)].

(* src/spv/op.rs:801-805 *)
Record OpImageSparseFetch : Type := Build_OpImageSparseFetch { OpImageSparseFetch_0 : OpId; OpImageSparseFetch_1 : ResultId; OpImageSparseFetch_2 : OpId; OpImageSparseFetch_3 : OpId; OpImageSparseFetch_4 : (option ImageOperands) }.
(* src/spv/op.rs:801-805 *)
Definition eq_OpImageSparseFetch (a b : OpImageSparseFetch) : bool := N.eqb (OpImageSparseFetch_0 a) (OpImageSparseFetch_0 b) && N.eqb (OpImageSparseFetch_1 a) (OpImageSparseFetch_1 b) && N.eqb (OpImageSparseFetch_2 a) (OpImageSparseFetch_2 b) && N.eqb (OpImageSparseFetch_3 a) (OpImageSparseFetch_3 b) && (eq_Option eq_ImageOperands) (OpImageSparseFetch_4 a) (OpImageSparseFetch_4 b).
(* src/spv/op.rs:801-805 *)
Definition dbg_OpImageSparseFetch {E} (x : OpImageSparseFetch) : dtree E := DTuple "OpImageSparseFetch" [dbg_OpId (OpImageSparseFetch_0 x); dbg_ResultId (OpImageSparseFetch_1 x); dbg_OpId (OpImageSparseFetch_2 x); dbg_OpId (OpImageSparseFetch_3 x); (dbg_Option dbg_ImageOperands) (OpImageSparseFetch_4 x)].

(* src/spv/op.rs:808-813 *)
Record OpImageSparseGather : Type := Build_OpImageSparseGather { OpImageSparseGather_0 : OpId; OpImageSparseGather_1 : ResultId; OpImageSparseGather_2 : OpId; OpImageSparseGather_3 : OpId; OpImageSparseGather_4 : OpId; OpImageSparseGather_5 : (option ImageOperands) }.
(* src/spv/op.rs:808-813 *)
Definition eq_OpImageSparseGather (a b : OpImageSparseGather) : bool := N.eqb (OpImageSparseGather_0 a) (OpImageSparseGather_0 b) && N.eqb (OpImageSparseGather_1 a) (OpImageSparseGather_1 b) && N.eqb (OpImageSparseGather_2 a) (OpImageSparseGather_2 b) && N.eqb (OpImageSparseGather_3 a) (OpImageSparseGather_3 b) && N.eqb (OpImageSparseGather_4 a) (OpImageSparseGather_4 b) && (eq_Option eq_ImageOperands) (OpImageSparseGather_5 a) (OpImageSparseGather_5 b).
(* src/spv/op.rs:808-813 *)
Definition dbg_OpImageSparseGather {E} (x : OpImageSparseGather) : dtree E := DTuple "OpImageSparseGather" [dbg_OpId (OpImageSparseGather_0 x); dbg_ResultId (OpImageSparseGather_1 x); dbg_OpId (OpImageSparseGather_2 x); dbg_OpId (OpImageSparseGather_3 x); dbg_OpId (OpImageSparseGather_4 x); (dbg_Option dbg_ImageOperands) (OpImageSparseGather_5 x)].

(* src/spv/op.rs:816-821 *)
Record OpImageSparseDrefGather : Type := Build_OpImageSparseDrefGather { OpImageSparseDrefGather_0 : OpId; OpImageSparseDrefGather_1 : ResultId; OpImageSparseDrefGather_2 : OpId; OpImageSparseDrefGather_3 : OpId; OpImageSparseDrefGather_4 : OpId; OpImageSparseDrefGather_5 : (option ImageOperands) }.
(* src/spv/op.rs:816-821 *)
Definition eq_OpImageSparseDrefGather (a b : OpImageSparseDrefGather) : bool := N.eqb (OpImageSparseDrefGather_0 a) (OpImageSparseDrefGather_0 b) && N.eqb (OpImageSparseDrefGather_1 a) (OpImageSparseDrefGather_1 b) && N.eqb (OpImageSparseDrefGather_2 a) (OpImageSparseDrefGather_2 b) && N.eqb (OpImageSparseDrefGather_3 a) (OpImageSparseDrefGather_3 b) && N.eqb (OpImageSparseDrefGather_4 a) (OpImageSparseDrefGather_4 b) && (eq_Option eq_ImageOperands) (OpImageSparseDrefGather_5 a) (OpImageSparseDrefGather_5 b).
(* src/spv/op.rs:816-821 *)
Definition dbg_OpImageSparseDrefGather {E} (x : OpImageSparseDrefGather) : dtree E := DTuple "OpImageSparseDrefGather" [dbg_OpId (OpImageSparseDrefGather_0 x); dbg_ResultId (OpImageSparseDrefGather_1 x); dbg_OpId (OpImageSparseDrefGather_2 x); dbg_OpId (OpImageSparseDrefGather_3 x); dbg_OpId (OpImageSparseDrefGather_4 x); (dbg_Option dbg_ImageOperands) (OpImageSparseDrefGather_5 x)].

(* src/spv/op.rs:824 *)
Record OpImageSparseTexelsResident : Type := Build_OpImageSparseTexelsResident { OpImageSparseTexelsResident_0 : OpId; OpImageSparseTexelsResident_1 : ResultId; OpImageSparseTexelsResident_2 : OpId }.
(* src/spv/op.rs:824 *)
Definition eq_OpImageSparseTexelsResident (a b : OpImageSparseTexelsResident) : bool := N.eqb (OpImageSparseTexelsResident_0 a) (OpImageSparseTexelsResident_0 b) && N.eqb (OpImageSparseTexelsResident_1 a) (OpImageSparseTexelsResident_1 b) && N.eqb (OpImageSparseTexelsResident_2 a) (OpImageSparseTexelsResident_2 b).
(* src/spv/op.rs:824 *)
Definition dbg_OpImageSparseTexelsResident {E} (x : OpImageSparseTexelsResident) : dtree E := DTuple "OpImageSparseTexelsResident" [dbg_OpId (OpImageSparseTexelsResident_0 x); dbg_ResultId (OpImageSparseTexelsResident_1 x); dbg_OpId (OpImageSparseTexelsResident_2 x)].

(* src/spv/op.rs:827 *)
Record OpImageSparseRead : Type := Build_OpImageSparseRead { OpImageSparseRead_0 : OpId; OpImageSparseRead_1 : ResultId; OpImageSparseRead_2 : OpId; OpImageSparseRead_3 : OpId; OpImageSparseRead_4 : (option ImageOperands) }.
(* src/spv/op.rs:827 *)
Definition eq_OpImageSparseRead (a b : OpImageSparseRead) : bool := N.eqb (OpImageSparseRead_0 a) (OpImageSparseRead_0 b) && N.eqb (OpImageSparseRead_1 a) (OpImageSparseRead_1 b) && N.eqb (OpImageSparseRead_2 a) (OpImageSparseRead_2 b) && N.eqb (OpImageSparseRead_3 a) (OpImageSparseRead_3 b) && (eq_Option eq_ImageOperands) (OpImageSparseRead_4 a) (OpImageSparseRead_4 b).
(* src/spv/op.rs:827 *)
Definition dbg_OpImageSparseRead {E} (x : OpImageSparseRead) : dtree E := DTuple "OpImageSparseRead" [dbg_OpId (OpImageSparseRead_0 x); dbg_ResultId (OpImageSparseRead_1 x); dbg_OpId (OpImageSparseRead_2 x); dbg_OpId (OpImageSparseRead_3 x); (dbg_Option dbg_ImageOperands) (OpImageSparseRead_4 x)].

(* src/spv/op.rs:1400 *)
Record OpBitFieldInsert : Type := Build_OpBitFieldInsert { OpBitFieldInsert_0 : OpId; OpBitFieldInsert_1 : ResultId; OpBitFieldInsert_2 : OpId; OpBitFieldInsert_3 : OpId; OpBitFieldInsert_4 : OpId; OpBitFieldInsert_5 : OpId }.
(* src/spv/op.rs:1400 *)
Definition eq_OpBitFieldInsert (a b : OpBitFieldInsert) : bool := N.eqb (OpBitFieldInsert_0 a) (OpBitFieldInsert_0 b) && N.eqb (OpBitFieldInsert_1 a) (OpBitFieldInsert_1 b) && N.eqb (OpBitFieldInsert_2 a) (OpBitFieldInsert_2 b) && N.eqb (OpBitFieldInsert_3 a) (OpBitFieldInsert_3 b) && N.eqb (OpBitFieldInsert_4 a) (OpBitFieldInsert_4 b) && N.eqb (OpBitFieldInsert_5 a) (OpBitFieldInsert_5 b).
(* src/spv/op.rs:1400 *)
Definition dbg_OpBitFieldInsert {E} (x : OpBitFieldInsert) : dtree E := DTuple "OpBitFieldInsert" [dbg_OpId (OpBitFieldInsert_0 x); dbg_ResultId (OpBitFieldInsert_1 x); dbg_OpId (OpBitFieldInsert_2 x); dbg_OpId (OpBitFieldInsert_3 x); dbg_OpId (OpBitFieldInsert_4 x); dbg_OpId (OpBitFieldInsert_5 x)].

(* src/spv/op.rs:1403 *)
Record OpBitFieldSExtract : Type := Build_OpBitFieldSExtract { OpBitFieldSExtract_0 : OpId; OpBitFieldSExtract_1 : ResultId; OpBitFieldSExtract_2 : OpId; OpBitFieldSExtract_3 : OpId; OpBitFieldSExtract_4 : OpId }.
(* src/spv/op.rs:1403 *)
Definition eq_OpBitFieldSExtract (a b : OpBitFieldSExtract) : bool := N.eqb (OpBitFieldSExtract_0 a) (OpBitFieldSExtract_0 b) && N.eqb (OpBitFieldSExtract_1 a) (OpBitFieldSExtract_1 b) && N.eqb (OpBitFieldSExtract_2 a) (OpBitFieldSExtract_2 b) && N.eqb (OpBitFieldSExtract_3 a) (OpBitFieldSExtract_3 b) && N.eqb (OpBitFieldSExtract_4 a) (OpBitFieldSExtract_4 b).
(* src/spv/op.rs:1403 *)
Definition dbg_OpBitFieldSExtract {E} (x : OpBitFieldSExtract) : dtree E := DTuple "OpBitFieldSExtract" [dbg_OpId (OpBitFieldSExtract_0 x); dbg_ResultId (OpBitFieldSExtract_1 x); dbg_OpId (OpBitFieldSExtract_2 x); dbg_OpId (OpBitFieldSExtract_3 x); dbg_OpId (OpBitFieldSExtract_4 x)].

(* src/spv/op.rs:1406 *)
Record OpBitFieldUExtract : Type := Build_OpBitFieldUExtract { OpBitFieldUExtract_0 : OpId; OpBitFieldUExtract_1 : ResultId; OpBitFieldUExtract_2 : OpId; OpBitFieldUExtract_3 : OpId; OpBitFieldUExtract_4 : OpId }.
(* src/spv/op.rs:1406 *)
Definition eq_OpBitFieldUExtract (a b : OpBitFieldUExtract) : bool := N.eqb (OpBitFieldUExtract_0 a) (OpBitFieldUExtract_0 b) && N.eqb (OpBitFieldUExtract_1 a) (OpBitFieldUExtract_1 b) && N.eqb (OpBitFieldUExtract_2 a) (OpBitFieldUExtract_2 b) && N.eqb (OpBitFieldUExtract_3 a) (OpBitFieldUExtract_3 b) && N.eqb (OpBitFieldUExtract_4 a) (OpBitFieldUExtract_4 b).
(* src/spv/op.rs:1406 *)
Definition dbg_OpBitFieldUExtract {E} (x : OpBitFieldUExtract) : dtree E := DTuple "OpBitFieldUExtract" [dbg_OpId (OpBitFieldUExtract_0 x); dbg_ResultId (OpBitFieldUExtract_1 x); dbg_OpId (OpBitFieldUExtract_2 x); dbg_OpId (OpBitFieldUExtract_3 x); dbg_OpId (OpBitFieldUExtract_4 x)].

(* src/spv/op.rs:1409 *)
Record OpBitReverse : Type := Build_OpBitReverse { OpBitReverse_0 : OpId; OpBitReverse_1 : ResultId; OpBitReverse_2 : OpId }.
(* src/spv/op.rs:1409 *)
Definition eq_OpBitReverse (a b : OpBitReverse) : bool := N.eqb (OpBitReverse_0 a) (OpBitReverse_0 b) && N.eqb (OpBitReverse_1 a) (OpBitReverse_1 b) && N.eqb (OpBitReverse_2 a) (OpBitReverse_2 b).
(* src/spv/op.rs:1409 *)
Definition dbg_OpBitReverse {E} (x : OpBitReverse) : dtree E := DTuple "OpBitReverse" [dbg_OpId (OpBitReverse_0 x); dbg_ResultId (OpBitReverse_1 x); dbg_OpId (OpBitReverse_2 x)].

(* src/spv/op.rs:1412 *)
Record OpBitCount : Type := Build_OpBitCount { OpBitCount_0 : OpId; OpBitCount_1 : ResultId; OpBitCount_2 : OpId }.
(* src/spv/op.rs:1412 *)
Definition eq_OpBitCount (a b : OpBitCount) : bool := N.eqb (OpBitCount_0 a) (OpBitCount_0 b) && N.eqb (OpBitCount_1 a) (OpBitCount_1 b) && N.eqb (OpBitCount_2 a) (OpBitCount_2 b).
(* src/spv/op.rs:1412 *)
Definition dbg_OpBitCount {E} (x : OpBitCount) : dtree E := DTuple "OpBitCount" [dbg_OpId (OpBitCount_0 x); dbg_ResultId (OpBitCount_1 x); dbg_OpId (OpBitCount_2 x)].

(* src/spv/op.rs:1417 *)
Record OpAny : Type := Build_OpAny { OpAny_0 : OpId; OpAny_1 : ResultId; OpAny_2 : OpId }.
(* src/spv/op.rs:1417 *)
Definition eq_OpAny (a b : OpAny) : bool := N.eqb (OpAny_0 a) (OpAny_0 b) && N.eqb (OpAny_1 a) (OpAny_1 b) && N.eqb (OpAny_2 a) (OpAny_2 b).
(* src/spv/op.rs:1417 *)
Definition dbg_OpAny {E} (x : OpAny) : dtree E := DTuple "OpAny" [dbg_OpId (OpAny_0 x); dbg_ResultId (OpAny_1 x); dbg_OpId (OpAny_2 x)].

(* src/spv/op.rs:1420 *)
Record OpAll : Type := Build_OpAll { OpAll_0 : OpId; OpAll_1 : ResultId; OpAll_2 : OpId }.
(* src/spv/op.rs:1420 *)
Definition eq_OpAll (a b : OpAll) : bool := N.eqb (OpAll_0 a) (OpAll_0 b) && N.eqb (OpAll_1 a) (OpAll_1 b) && N.eqb (OpAll_2 a) (OpAll_2 b).
(* src/spv/op.rs:1420 *)
Definition dbg_OpAll {E} (x : OpAll) : dtree E := DTuple "OpAll" [dbg_OpId (OpAll_0 x); dbg_ResultId (OpAll_1 x); dbg_OpId (OpAll_2 x)].

(* src/spv/op.rs:1423 *)
Record OpIsNan : Type := Build_OpIsNan { OpIsNan_0 : OpId; OpIsNan_1 : ResultId; OpIsNan_2 : OpId }.
(* src/spv/op.rs:1423 *)
Definition eq_OpIsNan (a b : OpIsNan) : bool := N.eqb (OpIsNan_0 a) (OpIsNan_0 b) && N.eqb (OpIsNan_1 a) (OpIsNan_1 b) && N.eqb (OpIsNan_2 a) (OpIsNan_2 b).
(* src/spv/op.rs:1423 *)
Definition dbg_OpIsNan {E} (x : OpIsNan) : dtree E := DTuple "OpIsNan" [dbg_OpId (OpIsNan_0 x); dbg_ResultId (OpIsNan_1 x); dbg_OpId (OpIsNan_2 x)].

(* src/spv/op.rs:1426 *)
Record OpIsInf : Type := Build_OpIsInf { OpIsInf_0 : OpId; OpIsInf_1 : ResultId; OpIsInf_2 : OpId }.
(* src/spv/op.rs:1426 *)
Definition eq_OpIsInf (a b : OpIsInf) : bool := N.eqb (OpIsInf_0 a) (OpIsInf_0 b) && N.eqb (OpIsInf_1 a) (OpIsInf_1 b) && N.eqb (OpIsInf_2 a) (OpIsInf_2 b).
(* src/spv/op.rs:1426 *)
Definition dbg_OpIsInf {E} (x : OpIsInf) : dtree E := DTuple "OpIsInf" [dbg_OpId (OpIsInf_0 x); dbg_ResultId (OpIsInf_1 x); dbg_OpId (OpIsInf_2 x)].

(* src/spv/op.rs:1429 *)
Record OpIsFinite : Type := Build_OpIsFinite { OpIsFinite_0 : OpId; OpIsFinite_1 : ResultId; OpIsFinite_2 : OpId }.
(* src/spv/op.rs:1429 *)
Definition eq_OpIsFinite (a b : OpIsFinite) : bool := N.eqb (OpIsFinite_0 a) (OpIsFinite_0 b) && N.eqb (OpIsFinite_1 a) (OpIsFinite_1 b) && N.eqb (OpIsFinite_2 a) (OpIsFinite_2 b).
(* src/spv/op.rs:1429 *)
Definition dbg_OpIsFinite {E} (x : OpIsFinite) : dtree E := DTuple "OpIsFinite" [dbg_OpId (OpIsFinite_0 x); dbg_ResultId (OpIsFinite_1 x); dbg_OpId (OpIsFinite_2 x)].

(* src/spv/op.rs:1432 *)
Record OpIsNormal : Type := Build_OpIsNormal { OpIsNormal_0 : OpId; OpIsNormal_1 : ResultId; OpIsNormal_2 : OpId }.
(* src/spv/op.rs:1432 *)
Definition eq_OpIsNormal (a b : OpIsNormal) : bool := N.eqb (OpIsNormal_0 a) (OpIsNormal_0 b) && N.eqb (OpIsNormal_1 a) (OpIsNormal_1 b) && N.eqb (OpIsNormal_2 a) (OpIsNormal_2 b).
(* src/spv/op.rs:1432 *)
Definition dbg_OpIsNormal {E} (x : OpIsNormal) : dtree E := DTuple "OpIsNormal" [dbg_OpId (OpIsNormal_0 x); dbg_ResultId (OpIsNormal_1 x); dbg_OpId (OpIsNormal_2 x)].

(* src/spv/op.rs:1435 *)
Record OpSignBitSet : Type := Build_OpSignBitSet { OpSignBitSet_0 : OpId; OpSignBitSet_1 : ResultId; OpSignBitSet_2 : OpId }.
(* src/spv/op.rs:1435 *)
Definition eq_OpSignBitSet (a b : OpSignBitSet) : bool := N.eqb (OpSignBitSet_0 a) (OpSignBitSet_0 b) && N.eqb (OpSignBitSet_1 a) (OpSignBitSet_1 b) && N.eqb (OpSignBitSet_2 a) (OpSignBitSet_2 b).
(* src/spv/op.rs:1435 *)
Definition dbg_OpSignBitSet {E} (x : OpSignBitSet) : dtree E := DTuple "OpSignBitSet" [dbg_OpId (OpSignBitSet_0 x); dbg_ResultId (OpSignBitSet_1 x); dbg_OpId (OpSignBitSet_2 x)].

(* src/spv/op.rs:1438 *)
Record OpLessOrGreater : Type := Build_OpLessOrGreater { OpLessOrGreater_0 : OpId; OpLessOrGreater_1 : ResultId; OpLessOrGreater_2 : OpId; OpLessOrGreater_3 : OpId }.
(* src/spv/op.rs:1438 *)
Definition eq_OpLessOrGreater (a b : OpLessOrGreater) : bool := N.eqb (OpLessOrGreater_0 a) (OpLessOrGreater_0 b) && N.eqb (OpLessOrGreater_1 a) (OpLessOrGreater_1 b) && N.eqb (OpLessOrGreater_2 a) (OpLessOrGreater_2 b) && N.eqb (OpLessOrGreater_3 a) (OpLessOrGreater_3 b).
(* src/spv/op.rs:1438 *)
Definition dbg_OpLessOrGreater {E} (x : OpLessOrGreater) : dtree E := DTuple "OpLessOrGreater" [dbg_OpId (OpLessOrGreater_0 x); dbg_ResultId (OpLessOrGreater_1 x); dbg_OpId (OpLessOrGreater_2 x); dbg_OpId (OpLessOrGreater_3 x)].

(* src/spv/op.rs:1441 *)
Record OpOrdered : Type := Build_OpOrdered { OpOrdered_0 : OpId; OpOrdered_1 : ResultId; OpOrdered_2 : OpId; OpOrdered_3 : OpId }.
(* src/spv/op.rs:1441 *)
Definition eq_OpOrdered (a b : OpOrdered) : bool := N.eqb (OpOrdered_0 a) (OpOrdered_0 b) && N.eqb (OpOrdered_1 a) (OpOrdered_1 b) && N.eqb (OpOrdered_2 a) (OpOrdered_2 b) && N.eqb (OpOrdered_3 a) (OpOrdered_3 b).
(* src/spv/op.rs:1441 *)
Definition dbg_OpOrdered {E} (x : OpOrdered) : dtree E := DTuple "OpOrdered" [dbg_OpId (OpOrdered_0 x); dbg_ResultId (OpOrdered_1 x); dbg_OpId (OpOrdered_2 x); dbg_OpId (OpOrdered_3 x)].

(* src/spv/op.rs:1444 *)
Record OpUnordered : Type := Build_OpUnordered { OpUnordered_0 : OpId; OpUnordered_1 : ResultId; OpUnordered_2 : OpId; OpUnordered_3 : OpId }.
(* src/spv/op.rs:1444 *)
Definition eq_OpUnordered (a b : OpUnordered) : bool := N.eqb (OpUnordered_0 a) (OpUnordered_0 b) && N.eqb (OpUnordered_1 a) (OpUnordered_1 b) && N.eqb (OpUnordered_2 a) (OpUnordered_2 b) && N.eqb (OpUnordered_3 a) (OpUnordered_3 b).
(* src/spv/op.rs:1444 *)
Definition dbg_OpUnordered {E} (x : OpUnordered) : dtree E := DTuple "OpUnordered" [dbg_OpId (OpUnordered_0 x); dbg_ResultId (OpUnordered_1 x); dbg_OpId (OpUnordered_2 x); dbg_OpId (OpUnordered_3 x)].

(* src/spv/op.rs:1447 *)
Record OpLogicalEqual : Type := Build_OpLogicalEqual { OpLogicalEqual_0 : OpId; OpLogicalEqual_1 : ResultId; OpLogicalEqual_2 : OpId; OpLogicalEqual_3 : OpId }.
(* src/spv/op.rs:1447 *)
Definition eq_OpLogicalEqual (a b : OpLogicalEqual) : bool := N.eqb (OpLogicalEqual_0 a) (OpLogicalEqual_0 b) && N.eqb (OpLogicalEqual_1 a) (OpLogicalEqual_1 b) && N.eqb (OpLogicalEqual_2 a) (OpLogicalEqual_2 b) && N.eqb (OpLogicalEqual_3 a) (OpLogicalEqual_3 b).
(* src/spv/op.rs:1447 *)
Definition dbg_OpLogicalEqual {E} (x : OpLogicalEqual) : dtree E := DTuple "OpLogicalEqual" [dbg_OpId (OpLogicalEqual_0 x); dbg_ResultId (OpLogicalEqual_1 x); dbg_OpId (OpLogicalEqual_2 x); dbg_OpId (OpLogicalEqual_3 x)].

(* src/spv/op.rs:1450 *)
Record OpLogicalNotEqual : Type := Build_OpLogicalNotEqual { OpLogicalNotEqual_0 : OpId; OpLogicalNotEqual_1 : ResultId; OpLogicalNotEqual_2 : OpId; OpLogicalNotEqual_3 : OpId }.
(* src/spv/op.rs:1450 *)
Definition eq_OpLogicalNotEqual (a b : OpLogicalNotEqual) : bool := N.eqb (OpLogicalNotEqual_0 a) (OpLogicalNotEqual_0 b) && N.eqb (OpLogicalNotEqual_1 a) (OpLogicalNotEqual_1 b) && N.eqb (OpLogicalNotEqual_2 a) (OpLogicalNotEqual_2 b) && N.eqb (OpLogicalNotEqual_3 a) (OpLogicalNotEqual_3 b).
(* src/spv/op.rs:1450 *)
Definition dbg_OpLogicalNotEqual {E} (x : OpLogicalNotEqual) : dtree E := DTuple "OpLogicalNotEqual" [dbg_OpId (OpLogicalNotEqual_0 x); dbg_ResultId (OpLogicalNotEqual_1 x); dbg_OpId (OpLogicalNotEqual_2 x); dbg_OpId (OpLogicalNotEqual_3 x)].

(* src/spv/op.rs:1453 *)
Record OpLogicalOr : Type := Build_OpLogicalOr { OpLogicalOr_0 : OpId; OpLogicalOr_1 : ResultId; OpLogicalOr_2 : OpId; OpLogicalOr_3 : OpId }.
(* src/spv/op.rs:1453 *)
Definition eq_OpLogicalOr (a b : OpLogicalOr) : bool := N.eqb (OpLogicalOr_0 a) (OpLogicalOr_0 b) && N.eqb (OpLogicalOr_1 a) (OpLogicalOr_1 b) && N.eqb (OpLogicalOr_2 a) (OpLogicalOr_2 b) && N.eqb (OpLogicalOr_3 a) (OpLogicalOr_3 b).
(* src/spv/op.rs:1453 *)
Definition dbg_OpLogicalOr {E} (x : OpLogicalOr) : dtree E := DTuple "OpLogicalOr" [dbg_OpId (OpLogicalOr_0 x); dbg_ResultId (OpLogicalOr_1 x); dbg_OpId (OpLogicalOr_2 x); dbg_OpId (OpLogicalOr_3 x)].

(* src/spv/op.rs:1456 *)
Record OpLogicalAnd : Type := Build_OpLogicalAnd { OpLogicalAnd_0 : OpId; OpLogicalAnd_1 : ResultId; OpLogicalAnd_2 : OpId; OpLogicalAnd_3 : OpId }.
(* src/spv/op.rs:1456 *)
Definition eq_OpLogicalAnd (a b : OpLogicalAnd) : bool := N.eqb (OpLogicalAnd_0 a) (OpLogicalAnd_0 b) && N.eqb (OpLogicalAnd_1 a) (OpLogicalAnd_1 b) && N.eqb (OpLogicalAnd_2 a) (OpLogicalAnd_2 b) && N.eqb (OpLogicalAnd_3 a) (OpLogicalAnd_3 b).
(* src/spv/op.rs:1456 *)
Definition dbg_OpLogicalAnd {E} (x : OpLogicalAnd) : dtree E := DTuple "OpLogicalAnd" [dbg_OpId (OpLogicalAnd_0 x); dbg_ResultId (OpLogicalAnd_1 x); dbg_OpId (OpLogicalAnd_2 x); dbg_OpId (OpLogicalAnd_3 x)].

(* src/spv/op.rs:1459 *)
Record OpLogicalNot : Type := Build_OpLogicalNot { OpLogicalNot_0 : OpId; OpLogicalNot_1 : ResultId; OpLogicalNot_2 : OpId }.
(* src/spv/op.rs:1459 *)
Definition eq_OpLogicalNot (a b : OpLogicalNot) : bool := N.eqb (OpLogicalNot_0 a) (OpLogicalNot_0 b) && N.eqb (OpLogicalNot_1 a) (OpLogicalNot_1 b) && N.eqb (OpLogicalNot_2 a) (OpLogicalNot_2 b).
(* src/spv/op.rs:1459 *)
Definition dbg_OpLogicalNot {E} (x : OpLogicalNot) : dtree E := DTuple "OpLogicalNot" [dbg_OpId (OpLogicalNot_0 x); dbg_ResultId (OpLogicalNot_1 x); dbg_OpId (OpLogicalNot_2 x)].

(* src/spv/op.rs:1462 *)
Record OpSelect : Type := Build_OpSelect { OpSelect_0 : OpId; OpSelect_1 : ResultId; OpSelect_2 : OpId; OpSelect_3 : OpId; OpSelect_4 : OpId }.
(* src/spv/op.rs:1462 *)
Definition eq_OpSelect (a b : OpSelect) : bool := N.eqb (OpSelect_0 a) (OpSelect_0 b) && N.eqb (OpSelect_1 a) (OpSelect_1 b) && N.eqb (OpSelect_2 a) (OpSelect_2 b) && N.eqb (OpSelect_3 a) (OpSelect_3 b) && N.eqb (OpSelect_4 a) (OpSelect_4 b).
(* src/spv/op.rs:1462 *)
Definition dbg_OpSelect {E} (x : OpSelect) : dtree E := DTuple "OpSelect" [dbg_OpId (OpSelect_0 x); dbg_ResultId (OpSelect_1 x); dbg_OpId (OpSelect_2 x); dbg_OpId (OpSelect_3 x); dbg_OpId (OpSelect_4 x)].

(* src/spv/op.rs:1687 *)
Record OpDPdx : Type := Build_OpDPdx { OpDPdx_0 : OpId; OpDPdx_1 : ResultId; OpDPdx_2 : OpId }.
(* src/spv/op.rs:1687 *)
Definition eq_OpDPdx (a b : OpDPdx) : bool := N.eqb (OpDPdx_0 a) (OpDPdx_0 b) && N.eqb (OpDPdx_1 a) (OpDPdx_1 b) && N.eqb (OpDPdx_2 a) (OpDPdx_2 b).
(* src/spv/op.rs:1687 *)
Definition dbg_OpDPdx {E} (x : OpDPdx) : dtree E := DTuple "OpDPdx" [dbg_OpId (OpDPdx_0 x); dbg_ResultId (OpDPdx_1 x); dbg_OpId (OpDPdx_2 x)].

(* src/spv/op.rs:1690 *)
Record OpDPdy : Type := Build_OpDPdy { OpDPdy_0 : OpId; OpDPdy_1 : ResultId; OpDPdy_2 : OpId }.
(* src/spv/op.rs:1690 *)
Definition eq_OpDPdy (a b : OpDPdy) : bool := N.eqb (OpDPdy_0 a) (OpDPdy_0 b) && N.eqb (OpDPdy_1 a) (OpDPdy_1 b) && N.eqb (OpDPdy_2 a) (OpDPdy_2 b).
(* src/spv/op.rs:1690 *)
Definition dbg_OpDPdy {E} (x : OpDPdy) : dtree E := DTuple "OpDPdy" [dbg_OpId (OpDPdy_0 x); dbg_ResultId (OpDPdy_1 x); dbg_OpId (OpDPdy_2 x)].

(* src/spv/op.rs:1693 *)
Record OpFwidth : Type := Build_OpFwidth { OpFwidth_0 : OpId; OpFwidth_1 : ResultId; OpFwidth_2 : OpId }.
(* src/spv/op.rs:1693 *)
Definition eq_OpFwidth (a b : OpFwidth) : bool := N.eqb (OpFwidth_0 a) (OpFwidth_0 b) && N.eqb (OpFwidth_1 a) (OpFwidth_1 b) && N.eqb (OpFwidth_2 a) (OpFwidth_2 b).
(* src/spv/op.rs:1693 *)
Definition dbg_OpFwidth {E} (x : OpFwidth) : dtree E := DTuple "OpFwidth" [dbg_OpId (OpFwidth_0 x); dbg_ResultId (OpFwidth_1 x); dbg_OpId (OpFwidth_2 x)].

(* src/spv/op.rs:1696 *)
Record OpDPdxFine : Type := Build_OpDPdxFine { OpDPdxFine_0 : OpId; OpDPdxFine_1 : ResultId; OpDPdxFine_2 : OpId }.
(* src/spv/op.rs:1696 *)
Definition eq_OpDPdxFine (a b : OpDPdxFine) : bool := N.eqb (OpDPdxFine_0 a) (OpDPdxFine_0 b) && N.eqb (OpDPdxFine_1 a) (OpDPdxFine_1 b) && N.eqb (OpDPdxFine_2 a) (OpDPdxFine_2 b).
(* src/spv/op.rs:1696 *)
Definition dbg_OpDPdxFine {E} (x : OpDPdxFine) : dtree E := DTuple "OpDPdxFine" [dbg_OpId (OpDPdxFine_0 x); dbg_ResultId (OpDPdxFine_1 x); dbg_OpId (OpDPdxFine_2 x)].

(* src/spv/op.rs:1699 *)
Record OpDPdyFine : Type := Build_OpDPdyFine { OpDPdyFine_0 : OpId; OpDPdyFine_1 : ResultId; OpDPdyFine_2 : OpId }.
(* src/spv/op.rs:1699 *)
Definition eq_OpDPdyFine (a b : OpDPdyFine) : bool := N.eqb (OpDPdyFine_0 a) (OpDPdyFine_0 b) && N.eqb (OpDPdyFine_1 a) (OpDPdyFine_1 b) && N.eqb (OpDPdyFine_2 a) (OpDPdyFine_2 b).
(* src/spv/op.rs:1699 *)
Definition dbg_OpDPdyFine {E} (x : OpDPdyFine) : dtree E := DTuple "OpDPdyFine" [dbg_OpId (OpDPdyFine_0 x); dbg_ResultId (OpDPdyFine_1 x); dbg_OpId (OpDPdyFine_2 x)].

(* src/spv/op.rs:1702 *)
Record OpFwidthFine : Type := Build_OpFwidthFine { OpFwidthFine_0 : OpId; OpFwidthFine_1 : ResultId; OpFwidthFine_2 : OpId }.
(* src/spv/op.rs:1702 *)
Definition eq_OpFwidthFine (a b : OpFwidthFine) : bool := N.eqb (OpFwidthFine_0 a) (OpFwidthFine_0 b) && N.eqb (OpFwidthFine_1 a) (OpFwidthFine_1 b) && N.eqb (OpFwidthFine_2 a) (OpFwidthFine_2 b).
(* src/spv/op.rs:1702 *)
Definition dbg_OpFwidthFine {E} (x : OpFwidthFine) : dtree E := DTuple "OpFwidthFine" [dbg_OpId (OpFwidthFine_0 x); dbg_ResultId (OpFwidthFine_1 x); dbg_OpId (OpFwidthFine_2 x)].

(* src/spv/op.rs:1705 *)
Record OpDPdxCoarse : Type := Build_OpDPdxCoarse { OpDPdxCoarse_0 : OpId; OpDPdxCoarse_1 : ResultId; OpDPdxCoarse_2 : OpId }.
(* src/spv/op.rs:1705 *)
Definition eq_OpDPdxCoarse (a b : OpDPdxCoarse) : bool := N.eqb (OpDPdxCoarse_0 a) (OpDPdxCoarse_0 b) && N.eqb (OpDPdxCoarse_1 a) (OpDPdxCoarse_1 b) && N.eqb (OpDPdxCoarse_2 a) (OpDPdxCoarse_2 b).
(* src/spv/op.rs:1705 *)
Definition dbg_OpDPdxCoarse {E} (x : OpDPdxCoarse) : dtree E := DTuple "OpDPdxCoarse" [dbg_OpId (OpDPdxCoarse_0 x); dbg_ResultId (OpDPdxCoarse_1 x); dbg_OpId (OpDPdxCoarse_2 x)].

(* src/spv/op.rs:1708 *)
Record OpDPdyCoarse : Type := Build_OpDPdyCoarse { OpDPdyCoarse_0 : OpId; OpDPdyCoarse_1 : ResultId; OpDPdyCoarse_2 : OpId }.
(* src/spv/op.rs:1708 *)
Definition eq_OpDPdyCoarse (a b : OpDPdyCoarse) : bool := N.eqb (OpDPdyCoarse_0 a) (OpDPdyCoarse_0 b) && N.eqb (OpDPdyCoarse_1 a) (OpDPdyCoarse_1 b) && N.eqb (OpDPdyCoarse_2 a) (OpDPdyCoarse_2 b).
(* src/spv/op.rs:1708 *)
Definition dbg_OpDPdyCoarse {E} (x : OpDPdyCoarse) : dtree E := DTuple "OpDPdyCoarse" [dbg_OpId (OpDPdyCoarse_0 x); dbg_ResultId (OpDPdyCoarse_1 x); dbg_OpId (OpDPdyCoarse_2 x)].

(* src/spv/op.rs:1711 *)
Record OpFwidthCoarse : Type := Build_OpFwidthCoarse { OpFwidthCoarse_0 : OpId; OpFwidthCoarse_1 : ResultId; OpFwidthCoarse_2 : OpId }.
(* src/spv/op.rs:1711 *)
Definition eq_OpFwidthCoarse (a b : OpFwidthCoarse) : bool := N.eqb (OpFwidthCoarse_0 a) (OpFwidthCoarse_0 b) && N.eqb (OpFwidthCoarse_1 a) (OpFwidthCoarse_1 b) && N.eqb (OpFwidthCoarse_2 a) (OpFwidthCoarse_2 b).
(* src/spv/op.rs:1711 *)
Definition dbg_OpFwidthCoarse {E} (x : OpFwidthCoarse) : dtree E := DTuple "OpFwidthCoarse" [dbg_OpId (OpFwidthCoarse_0 x); dbg_ResultId (OpFwidthCoarse_1 x); dbg_OpId (OpFwidthCoarse_2 x)].

(* src/spv/op.rs:1766 *)
Record OpSwitch : Type := Build_OpSwitch { OpSwitch_0 : OpId; OpSwitch_1 : OpId; OpSwitch_2 : (list (LitBytes * OpId)) }.
(* src/spv/op.rs:1766 *)
Definition eq_OpSwitch (a b : OpSwitch) : bool := N.eqb (OpSwitch_0 a) (OpSwitch_0 b) && N.eqb (OpSwitch_1 a) (OpSwitch_1 b) && (eq_Vec (eq_Pair (eq_Vec N.eqb) N.eqb)) (OpSwitch_2 a) (OpSwitch_2 b).
(* src/spv/op.rs:1766 *)
Definition dbg_OpSwitch {E} (x : OpSwitch) : dtree E := DTuple "OpSwitch" [dbg_OpId (OpSwitch_0 x); dbg_OpId (OpSwitch_1 x); (dbg_Vec (dbg_Pair (dbg_Vec DNumber) dbg_OpId)) (OpSwitch_2 x)].

(* src/spv/op.rs:1769 *)
Record OpKill : Type := Build_OpKill {}.
(* src/spv/op.rs:1769 *)
Definition eq_OpKill (a b : OpKill) : bool := true.
(* src/spv/op.rs:1769 *)
Definition dbg_OpKill {E} (x : OpKill) : dtree E := DName "OpKill".

(* src/spv/op.rs:1777 *)
Record OpReturnValue : Type := Build_OpReturnValue { OpReturnValue_0 : OpId }.
(* src/spv/op.rs:1777 *)
Definition eq_OpReturnValue (a b : OpReturnValue) : bool := N.eqb (OpReturnValue_0 a) (OpReturnValue_0 b).
(* src/spv/op.rs:1777 *)
Definition dbg_OpReturnValue {E} (x : OpReturnValue) : dtree E := DTuple "OpReturnValue" [dbg_OpId (OpReturnValue_0 x)].

(* src/spv/op.rs:1780 *)
Record OpUnreachable : Type := Build_OpUnreachable {}.
(* src/spv/op.rs:1780 *)
Definition eq_OpUnreachable (a b : OpUnreachable) : bool := true.
(* src/spv/op.rs:1780 *)
Definition dbg_OpUnreachable {E} (x : OpUnreachable) : dtree E := DName "OpUnreachable".

(* src/spv/op.rs:1783 *)
Record OpLifetimeStart : Type := Build_OpLifetimeStart { OpLifetimeStart_0 : OpId; OpLifetimeStart_1 : N }.
(* src/spv/op.rs:1783 *)
Definition eq_OpLifetimeStart (a b : OpLifetimeStart) : bool := N.eqb (OpLifetimeStart_0 a) (OpLifetimeStart_0 b) && N.eqb (OpLifetimeStart_1 a) (OpLifetimeStart_1 b).
(* src/spv/op.rs:1783 *)
Definition dbg_OpLifetimeStart {E} (x : OpLifetimeStart) : dtree E := DTuple "OpLifetimeStart" [dbg_OpId (OpLifetimeStart_0 x); DNumber (OpLifetimeStart_1 x)].

(* src/spv/op.rs:1786 *)
Record OpLifetimeStop : Type := Build_OpLifetimeStop { OpLifetimeStop_0 : OpId; OpLifetimeStop_1 : N }.
(* src/spv/op.rs:1786 *)
Definition eq_OpLifetimeStop (a b : OpLifetimeStop) : bool := N.eqb (OpLifetimeStop_0 a) (OpLifetimeStop_0 b) && N.eqb (OpLifetimeStop_1 a) (OpLifetimeStop_1 b).
(* src/spv/op.rs:1786 *)
Definition dbg_OpLifetimeStop {E} (x : OpLifetimeStop) : dtree E := DTuple "OpLifetimeStop" [dbg_OpId (OpLifetimeStop_0 x); DNumber (OpLifetimeStop_1 x)].

(* src/spv/op.rs:1791 *)
Record OpAtomicLoad : Type := Build_OpAtomicLoad { OpAtomicLoad_0 : OpId; OpAtomicLoad_1 : ResultId; OpAtomicLoad_2 : OpId; OpAtomicLoad_3 : ScopeId; OpAtomicLoad_4 : MemorySemanticsId }.
(* src/spv/op.rs:1791 *)
Definition eq_OpAtomicLoad (a b : OpAtomicLoad) : bool := N.eqb (OpAtomicLoad_0 a) (OpAtomicLoad_0 b) && N.eqb (OpAtomicLoad_1 a) (OpAtomicLoad_1 b) && N.eqb (OpAtomicLoad_2 a) (OpAtomicLoad_2 b) && N.eqb (OpAtomicLoad_3 a) (OpAtomicLoad_3 b) && N.eqb (OpAtomicLoad_4 a) (OpAtomicLoad_4 b).
(* src/spv/op.rs:1791 *)
Definition dbg_OpAtomicLoad {E} (x : OpAtomicLoad) : dtree E := DTuple "OpAtomicLoad" [dbg_OpId (OpAtomicLoad_0 x); dbg_ResultId (OpAtomicLoad_1 x); dbg_OpId (OpAtomicLoad_2 x); dbg_ScopeId (OpAtomicLoad_3 x); dbg_MemorySemanticsId (OpAtomicLoad_4 x)].

(* src/spv/op.rs:1794 *)
Record OpAtomicStore : Type := Build_OpAtomicStore { OpAtomicStore_0 : OpId; OpAtomicStore_1 : ScopeId; OpAtomicStore_2 : MemorySemanticsId; OpAtomicStore_3 : OpId }.
(* src/spv/op.rs:1794 *)
Definition eq_OpAtomicStore (a b : OpAtomicStore) : bool := N.eqb (OpAtomicStore_0 a) (OpAtomicStore_0 b) && N.eqb (OpAtomicStore_1 a) (OpAtomicStore_1 b) && N.eqb (OpAtomicStore_2 a) (OpAtomicStore_2 b) && N.eqb (OpAtomicStore_3 a) (OpAtomicStore_3 b).
(* src/spv/op.rs:1794 *)
Definition dbg_OpAtomicStore {E} (x : OpAtomicStore) : dtree E := DTuple "OpAtomicStore" [dbg_OpId (OpAtomicStore_0 x); dbg_ScopeId (OpAtomicStore_1 x); dbg_MemorySemanticsId (OpAtomicStore_2 x); dbg_OpId (OpAtomicStore_3 x)].

(* src/spv/op.rs:1797-1802 *)
Record OpAtomicExchange : Type := Build_OpAtomicExchange { OpAtomicExchange_0 : OpId; OpAtomicExchange_1 : ResultId; OpAtomicExchange_2 : OpId; OpAtomicExchange_3 : ScopeId; OpAtomicExchange_4 : MemorySemanticsId; OpAtomicExchange_5 : OpId }.
(* src/spv/op.rs:1797-1802 *)
Definition eq_OpAtomicExchange (a b : OpAtomicExchange) : bool := N.eqb (OpAtomicExchange_0 a) (OpAtomicExchange_0 b) && N.eqb (OpAtomicExchange_1 a) (OpAtomicExchange_1 b) && N.eqb (OpAtomicExchange_2 a) (OpAtomicExchange_2 b) && N.eqb (OpAtomicExchange_3 a) (OpAtomicExchange_3 b) && N.eqb (OpAtomicExchange_4 a) (OpAtomicExchange_4 b) && N.eqb (OpAtomicExchange_5 a) (OpAtomicExchange_5 b).
(* src/spv/op.rs:1797-1802 *)
Definition dbg_OpAtomicExchange {E} (x : OpAtomicExchange) : dtree E := DTuple "OpAtomicExchange" [dbg_OpId (OpAtomicExchange_0 x); dbg_ResultId (OpAtomicExchange_1 x); dbg_OpId (OpAtomicExchange_2 x); dbg_ScopeId (OpAtomicExchange_3 x); dbg_MemorySemanticsId (OpAtomicExchange_4 x); dbg_OpId (OpAtomicExchange_5 x)].

(* src/spv/op.rs:1805-1812 *)
Record OpAtomicCompareExchange : Type := Build_OpAtomicCompareExchange { OpAtomicCompareExchange_0 : OpId; OpAtomicCompareExchange_1 : ResultId; OpAtomicCompareExchange_2 : OpId; OpAtomicCompareExchange_3 : ScopeId; OpAtomicCompareExchange_4 : MemorySemanticsId; OpAtomicCompareExchange_5 : MemorySemanticsId; OpAtomicCompareExchange_6 : OpId; OpAtomicCompareExchange_7 : OpId }.
(* src/spv/op.rs:1805-1812 *)
Definition eq_OpAtomicCompareExchange (a b : OpAtomicCompareExchange) : bool := N.eqb (OpAtomicCompareExchange_0 a) (OpAtomicCompareExchange_0 b) && N.eqb (OpAtomicCompareExchange_1 a) (OpAtomicCompareExchange_1 b) && N.eqb (OpAtomicCompareExchange_2 a) (OpAtomicCompareExchange_2 b) && N.eqb (OpAtomicCompareExchange_3 a) (OpAtomicCompareExchange_3 b) && N.eqb (OpAtomicCompareExchange_4 a) (OpAtomicCompareExchange_4 b) && N.eqb (OpAtomicCompareExchange_5 a) (OpAtomicCompareExchange_5 b) && N.eqb (OpAtomicCompareExchange_6 a) (OpAtomicCompareExchange_6 b) && N.eqb (OpAtomicCompareExchange_7 a) (OpAtomicCompareExchange_7 b).
(* src/spv/op.rs:1805-1812 *)
Definition dbg_OpAtomicCompareExchange {E} (x : OpAtomicCompareExchange) : dtree E := DTuple "OpAtomicCompareExchange" [dbg_OpId (OpAtomicCompareExchange_0 x); dbg_ResultId (OpAtomicCompareExchange_1 x); dbg_OpId (OpAtomicCompareExchange_2 x); dbg_ScopeId (OpAtomicCompareExchange_3 x); dbg_MemorySemanticsId (OpAtomicCompareExchange_4 x); dbg_MemorySemanticsId (OpAtomicCompareExchange_5 x); dbg_OpId (OpAtomicCompareExchange_6 x); dbg_OpId (OpAtomicCompareExchange_7 x)].

(* src/spv/op.rs:1815-1822 *)
Record OpAtomicCompareExchangeWeak : Type := Build_OpAtomicCompareExchangeWeak { OpAtomicCompareExchangeWeak_0 : OpId; OpAtomicCompareExchangeWeak_1 : ResultId; OpAtomicCompareExchangeWeak_2 : OpId; OpAtomicCompareExchangeWeak_3 : ScopeId; OpAtomicCompareExchangeWeak_4 : MemorySemanticsId; OpAtomicCompareExchangeWeak_5 : MemorySemanticsId; OpAtomicCompareExchangeWeak_6 : OpId; OpAtomicCompareExchangeWeak_7 : OpId }.
(* src/spv/op.rs:1815-1822 *)
Definition eq_OpAtomicCompareExchangeWeak (a b : OpAtomicCompareExchangeWeak) : bool := N.eqb (OpAtomicCompareExchangeWeak_0 a) (OpAtomicCompareExchangeWeak_0 b) && N.eqb (OpAtomicCompareExchangeWeak_1 a) (OpAtomicCompareExchangeWeak_1 b) && N.eqb (OpAtomicCompareExchangeWeak_2 a) (OpAtomicCompareExchangeWeak_2 b) && N.eqb (OpAtomicCompareExchangeWeak_3 a) (OpAtomicCompareExchangeWeak_3 b) && N.eqb (OpAtomicCompareExchangeWeak_4 a) (OpAtomicCompareExchangeWeak_4 b) && N.eqb (OpAtomicCompareExchangeWeak_5 a) (OpAtomicCompareExchangeWeak_5 b) && N.eqb (OpAtomicCompareExchangeWeak_6 a) (OpAtomicCompareExchangeWeak_6 b) && N.eqb (OpAtomicCompareExchangeWeak_7 a) (OpAtomicCompareExchangeWeak_7 b).
(* src/spv/op.rs:1815-1822 *)
Definition dbg_OpAtomicCompareExchangeWeak {E} (x : OpAtomicCompareExchangeWeak) : dtree E := DTuple "OpAtomicCompareExchangeWeak" [dbg_OpId (OpAtomicCompareExchangeWeak_0 x); dbg_ResultId (OpAtomicCompareExchangeWeak_1 x); dbg_OpId (OpAtomicCompareExchangeWeak_2 x); dbg_ScopeId (OpAtomicCompareExchangeWeak_3 x); dbg_MemorySemanticsId (OpAtomicCompareExchangeWeak_4 x); dbg_MemorySemanticsId (OpAtomicCompareExchangeWeak_5 x); dbg_OpId (OpAtomicCompareExchangeWeak_6 x); dbg_OpId (OpAtomicCompareExchangeWeak_7 x)].

(* src/spv/op.rs:1825-1830 *)
Record OpAtomicIIncrement : Type := Build_OpAtomicIIncrement { OpAtomicIIncrement_0 : OpId; OpAtomicIIncrement_1 : ResultId; OpAtomicIIncrement_2 : OpId; OpAtomicIIncrement_3 : ScopeId; OpAtomicIIncrement_4 : MemorySemanticsId; OpAtomicIIncrement_5 : OpId }.
(* src/spv/op.rs:1825-1830 *)
Definition eq_OpAtomicIIncrement (a b : OpAtomicIIncrement) : bool := N.eqb (OpAtomicIIncrement_0 a) (OpAtomicIIncrement_0 b) && N.eqb (OpAtomicIIncrement_1 a) (OpAtomicIIncrement_1 b) && N.eqb (OpAtomicIIncrement_2 a) (OpAtomicIIncrement_2 b) && N.eqb (OpAtomicIIncrement_3 a) (OpAtomicIIncrement_3 b) && N.eqb (OpAtomicIIncrement_4 a) (OpAtomicIIncrement_4 b) && N.eqb (OpAtomicIIncrement_5 a) (OpAtomicIIncrement_5 b).
(* src/spv/op.rs:1825-1830 *)
Definition dbg_OpAtomicIIncrement {E} (x : OpAtomicIIncrement) : dtree E := DTuple "OpAtomicIIncrement" [dbg_OpId (OpAtomicIIncrement_0 x); dbg_ResultId (OpAtomicIIncrement_1 x); dbg_OpId (OpAtomicIIncrement_2 x); dbg_ScopeId (OpAtomicIIncrement_3 x); dbg_MemorySemanticsId (OpAtomicIIncrement_4 x); dbg_OpId (OpAtomicIIncrement_5 x)].

(* src/spv/op.rs:1833-1838 *)
Record OpAtomicIDecrement : Type := Build_OpAtomicIDecrement { OpAtomicIDecrement_0 : OpId; OpAtomicIDecrement_1 : ResultId; OpAtomicIDecrement_2 : OpId; OpAtomicIDecrement_3 : ScopeId; OpAtomicIDecrement_4 : MemorySemanticsId; OpAtomicIDecrement_5 : OpId }.
(* src/spv/op.rs:1833-1838 *)
Definition eq_OpAtomicIDecrement (a b : OpAtomicIDecrement) : bool := N.eqb (OpAtomicIDecrement_0 a) (OpAtomicIDecrement_0 b) && N.eqb (OpAtomicIDecrement_1 a) (OpAtomicIDecrement_1 b) && N.eqb (OpAtomicIDecrement_2 a) (OpAtomicIDecrement_2 b) && N.eqb (OpAtomicIDecrement_3 a) (OpAtomicIDecrement_3 b) && N.eqb (OpAtomicIDecrement_4 a) (OpAtomicIDecrement_4 b) && N.eqb (OpAtomicIDecrement_5 a) (OpAtomicIDecrement_5 b).
(* src/spv/op.rs:1833-1838 *)
Definition dbg_OpAtomicIDecrement {E} (x : OpAtomicIDecrement) : dtree E := DTuple "OpAtomicIDecrement" [dbg_OpId (OpAtomicIDecrement_0 x); dbg_ResultId (OpAtomicIDecrement_1 x); dbg_OpId (OpAtomicIDecrement_2 x); dbg_ScopeId (OpAtomicIDecrement_3 x); dbg_MemorySemanticsId (OpAtomicIDecrement_4 x); dbg_OpId (OpAtomicIDecrement_5 x)].

(* src/spv/op.rs:1841-1846 *)
Record OpAtomicIAdd : Type := Build_OpAtomicIAdd { OpAtomicIAdd_0 : OpId; OpAtomicIAdd_1 : ResultId; OpAtomicIAdd_2 : OpId; OpAtomicIAdd_3 : ScopeId; OpAtomicIAdd_4 : MemorySemanticsId; OpAtomicIAdd_5 : OpId }.
(* src/spv/op.rs:1841-1846 *)
Definition eq_OpAtomicIAdd (a b : OpAtomicIAdd) : bool := N.eqb (OpAtomicIAdd_0 a) (OpAtomicIAdd_0 b) && N.eqb (OpAtomicIAdd_1 a) (OpAtomicIAdd_1 b) && N.eqb (OpAtomicIAdd_2 a) (OpAtomicIAdd_2 b) && N.eqb (OpAtomicIAdd_3 a) (OpAtomicIAdd_3 b) && N.eqb (OpAtomicIAdd_4 a) (OpAtomicIAdd_4 b) && N.eqb (OpAtomicIAdd_5 a) (OpAtomicIAdd_5 b).
(* src/spv/op.rs:1841-1846 *)
Definition dbg_OpAtomicIAdd {E} (x : OpAtomicIAdd) : dtree E := DTuple "OpAtomicIAdd" [dbg_OpId (OpAtomicIAdd_0 x); dbg_ResultId (OpAtomicIAdd_1 x); dbg_OpId (OpAtomicIAdd_2 x); dbg_ScopeId (OpAtomicIAdd_3 x); dbg_MemorySemanticsId (OpAtomicIAdd_4 x); dbg_OpId (OpAtomicIAdd_5 x)].

(* src/spv/op.rs:1849-1854 *)
Record OpAtomicISub : Type := Build_OpAtomicISub { OpAtomicISub_0 : OpId; OpAtomicISub_1 : ResultId; OpAtomicISub_2 : OpId; OpAtomicISub_3 : ScopeId; OpAtomicISub_4 : MemorySemanticsId; OpAtomicISub_5 : OpId }.
(* src/spv/op.rs:1849-1854 *)
Definition eq_OpAtomicISub (a b : OpAtomicISub) : bool := N.eqb (OpAtomicISub_0 a) (OpAtomicISub_0 b) && N.eqb (OpAtomicISub_1 a) (OpAtomicISub_1 b) && N.eqb (OpAtomicISub_2 a) (OpAtomicISub_2 b) && N.eqb (OpAtomicISub_3 a) (OpAtomicISub_3 b) && N.eqb (OpAtomicISub_4 a) (OpAtomicISub_4 b) && N.eqb (OpAtomicISub_5 a) (OpAtomicISub_5 b).
(* src/spv/op.rs:1849-1854 *)
Definition dbg_OpAtomicISub {E} (x : OpAtomicISub) : dtree E := DTuple "OpAtomicISub" [dbg_OpId (OpAtomicISub_0 x); dbg_ResultId (OpAtomicISub_1 x); dbg_OpId (OpAtomicISub_2 x); dbg_ScopeId (OpAtomicISub_3 x); dbg_MemorySemanticsId (OpAtomicISub_4 x); dbg_OpId (OpAtomicISub_5 x)].

(* src/spv/op.rs:1857-1862 *)
Record OpAtomicSMin : Type := Build_OpAtomicSMin { OpAtomicSMin_0 : OpId; OpAtomicSMin_1 : ResultId; OpAtomicSMin_2 : OpId; OpAtomicSMin_3 : ScopeId; OpAtomicSMin_4 : MemorySemanticsId; OpAtomicSMin_5 : OpId }.
(* src/spv/op.rs:1857-1862 *)
Definition eq_OpAtomicSMin (a b : OpAtomicSMin) : bool := N.eqb (OpAtomicSMin_0 a) (OpAtomicSMin_0 b) && N.eqb (OpAtomicSMin_1 a) (OpAtomicSMin_1 b) && N.eqb (OpAtomicSMin_2 a) (OpAtomicSMin_2 b) && N.eqb (OpAtomicSMin_3 a) (OpAtomicSMin_3 b) && N.eqb (OpAtomicSMin_4 a) (OpAtomicSMin_4 b) && N.eqb (OpAtomicSMin_5 a) (OpAtomicSMin_5 b).
(* src/spv/op.rs:1857-1862 *)
Definition dbg_OpAtomicSMin {E} (x : OpAtomicSMin) : dtree E := DTuple "OpAtomicSMin" [dbg_OpId (OpAtomicSMin_0 x); dbg_ResultId (OpAtomicSMin_1 x); dbg_OpId (OpAtomicSMin_2 x); dbg_ScopeId (OpAtomicSMin_3 x); dbg_MemorySemanticsId (OpAtomicSMin_4 x); dbg_OpId (OpAtomicSMin_5 x)].

(* src/spv/op.rs:1865-1870 *)
Record OpAtomicUMin : Type := Build_OpAtomicUMin { OpAtomicUMin_0 : OpId; OpAtomicUMin_1 : ResultId; OpAtomicUMin_2 : OpId; OpAtomicUMin_3 : ScopeId; OpAtomicUMin_4 : MemorySemanticsId; OpAtomicUMin_5 : OpId }.
(* src/spv/op.rs:1865-1870 *)
Definition eq_OpAtomicUMin (a b : OpAtomicUMin) : bool := N.eqb (OpAtomicUMin_0 a) (OpAtomicUMin_0 b) && N.eqb (OpAtomicUMin_1 a) (OpAtomicUMin_1 b) && N.eqb (OpAtomicUMin_2 a) (OpAtomicUMin_2 b) && N.eqb (OpAtomicUMin_3 a) (OpAtomicUMin_3 b) && N.eqb (OpAtomicUMin_4 a) (OpAtomicUMin_4 b) && N.eqb (OpAtomicUMin_5 a) (OpAtomicUMin_5 b).
(* src/spv/op.rs:1865-1870 *)
Definition dbg_OpAtomicUMin {E} (x : OpAtomicUMin) : dtree E := DTuple "OpAtomicUMin" [dbg_OpId (OpAtomicUMin_0 x); dbg_ResultId (OpAtomicUMin_1 x); dbg_OpId (OpAtomicUMin_2 x); dbg_ScopeId (OpAtomicUMin_3 x); dbg_MemorySemanticsId (OpAtomicUMin_4 x); dbg_OpId (OpAtomicUMin_5 x)].

(* src/spv/op.rs:1873-1878 *)
Record OpAtomicSMax : Type := Build_OpAtomicSMax { OpAtomicSMax_0 : OpId; OpAtomicSMax_1 : ResultId; OpAtomicSMax_2 : OpId; OpAtomicSMax_3 : ScopeId; OpAtomicSMax_4 : MemorySemanticsId; OpAtomicSMax_5 : OpId }.
(* src/spv/op.rs:1873-1878 *)
Definition eq_OpAtomicSMax (a b : OpAtomicSMax) : bool := N.eqb (OpAtomicSMax_0 a) (OpAtomicSMax_0 b) && N.eqb (OpAtomicSMax_1 a) (OpAtomicSMax_1 b) && N.eqb (OpAtomicSMax_2 a) (OpAtomicSMax_2 b) && N.eqb (OpAtomicSMax_3 a) (OpAtomicSMax_3 b) && N.eqb (OpAtomicSMax_4 a) (OpAtomicSMax_4 b) && N.eqb (OpAtomicSMax_5 a) (OpAtomicSMax_5 b).
(* src/spv/op.rs:1873-1878 *)
Definition dbg_OpAtomicSMax {E} (x : OpAtomicSMax) : dtree E := DTuple "OpAtomicSMax" [dbg_OpId (OpAtomicSMax_0 x); dbg_ResultId (OpAtomicSMax_1 x); dbg_OpId (OpAtomicSMax_2 x); dbg_ScopeId (OpAtomicSMax_3 x); dbg_MemorySemanticsId (OpAtomicSMax_4 x); dbg_OpId (OpAtomicSMax_5 x)].

(* src/spv/op.rs:1881-1886 *)
Record OpAtomicUMax : Type := Build_OpAtomicUMax { OpAtomicUMax_0 : OpId; OpAtomicUMax_1 : ResultId; OpAtomicUMax_2 : OpId; OpAtomicUMax_3 : ScopeId; OpAtomicUMax_4 : MemorySemanticsId; OpAtomicUMax_5 : OpId }.
(* src/spv/op.rs:1881-1886 *)
Definition eq_OpAtomicUMax (a b : OpAtomicUMax) : bool := N.eqb (OpAtomicUMax_0 a) (OpAtomicUMax_0 b) && N.eqb (OpAtomicUMax_1 a) (OpAtomicUMax_1 b) && N.eqb (OpAtomicUMax_2 a) (OpAtomicUMax_2 b) && N.eqb (OpAtomicUMax_3 a) (OpAtomicUMax_3 b) && N.eqb (OpAtomicUMax_4 a) (OpAtomicUMax_4 b) && N.eqb (OpAtomicUMax_5 a) (OpAtomicUMax_5 b).
(* src/spv/op.rs:1881-1886 *)
Definition dbg_OpAtomicUMax {E} (x : OpAtomicUMax) : dtree E := DTuple "OpAtomicUMax" [dbg_OpId (OpAtomicUMax_0 x); dbg_ResultId (OpAtomicUMax_1 x); dbg_OpId (OpAtomicUMax_2 x); dbg_ScopeId (OpAtomicUMax_3 x); dbg_MemorySemanticsId (OpAtomicUMax_4 x); dbg_OpId (OpAtomicUMax_5 x)].

(* src/spv/op.rs:1889-1894 *)
Record OpAtomicAnd : Type := Build_OpAtomicAnd { OpAtomicAnd_0 : OpId; OpAtomicAnd_1 : ResultId; OpAtomicAnd_2 : OpId; OpAtomicAnd_3 : ScopeId; OpAtomicAnd_4 : MemorySemanticsId; OpAtomicAnd_5 : OpId }.
(* src/spv/op.rs:1889-1894 *)
Definition eq_OpAtomicAnd (a b : OpAtomicAnd) : bool := N.eqb (OpAtomicAnd_0 a) (OpAtomicAnd_0 b) && N.eqb (OpAtomicAnd_1 a) (OpAtomicAnd_1 b) && N.eqb (OpAtomicAnd_2 a) (OpAtomicAnd_2 b) && N.eqb (OpAtomicAnd_3 a) (OpAtomicAnd_3 b) && N.eqb (OpAtomicAnd_4 a) (OpAtomicAnd_4 b) && N.eqb (OpAtomicAnd_5 a) (OpAtomicAnd_5 b).
(* src/spv/op.rs:1889-1894 *)
Definition dbg_OpAtomicAnd {E} (x : OpAtomicAnd) : dtree E := DTuple "OpAtomicAnd" [dbg_OpId (OpAtomicAnd_0 x); dbg_ResultId (OpAtomicAnd_1 x); dbg_OpId (OpAtomicAnd_2 x); dbg_ScopeId (OpAtomicAnd_3 x); dbg_MemorySemanticsId (OpAtomicAnd_4 x); dbg_OpId (OpAtomicAnd_5 x)].

(* src/spv/op.rs:1897-1902 *)
Record OpAtomicOr : Type := Build_OpAtomicOr { OpAtomicOr_0 : OpId; OpAtomicOr_1 : ResultId; OpAtomicOr_2 : OpId; OpAtomicOr_3 : ScopeId; OpAtomicOr_4 : MemorySemanticsId; OpAtomicOr_5 : OpId }.
(* src/spv/op.rs:1897-1902 *)
Definition eq_OpAtomicOr (a b : OpAtomicOr) : bool := N.eqb (OpAtomicOr_0 a) (OpAtomicOr_0 b) && N.eqb (OpAtomicOr_1 a) (OpAtomicOr_1 b) && N.eqb (OpAtomicOr_2 a) (OpAtomicOr_2 b) && N.eqb (OpAtomicOr_3 a) (OpAtomicOr_3 b) && N.eqb (OpAtomicOr_4 a) (OpAtomicOr_4 b) && N.eqb (OpAtomicOr_5 a) (OpAtomicOr_5 b).
(* src/spv/op.rs:1897-1902 *)
Definition dbg_OpAtomicOr {E} (x : OpAtomicOr) : dtree E := DTuple "OpAtomicOr" [dbg_OpId (OpAtomicOr_0 x); dbg_ResultId (OpAtomicOr_1 x); dbg_OpId (OpAtomicOr_2 x); dbg_ScopeId (OpAtomicOr_3 x); dbg_MemorySemanticsId (OpAtomicOr_4 x); dbg_OpId (OpAtomicOr_5 x)].

(* src/spv/op.rs:1905-1910 *)
Record OpAtomicXor : Type := Build_OpAtomicXor { OpAtomicXor_0 : OpId; OpAtomicXor_1 : ResultId; OpAtomicXor_2 : OpId; OpAtomicXor_3 : ScopeId; OpAtomicXor_4 : MemorySemanticsId; OpAtomicXor_5 : OpId }.
(* src/spv/op.rs:1905-1910 *)
Definition eq_OpAtomicXor (a b : OpAtomicXor) : bool := N.eqb (OpAtomicXor_0 a) (OpAtomicXor_0 b) && N.eqb (OpAtomicXor_1 a) (OpAtomicXor_1 b) && N.eqb (OpAtomicXor_2 a) (OpAtomicXor_2 b) && N.eqb (OpAtomicXor_3 a) (OpAtomicXor_3 b) && N.eqb (OpAtomicXor_4 a) (OpAtomicXor_4 b) && N.eqb (OpAtomicXor_5 a) (OpAtomicXor_5 b).
(* src/spv/op.rs:1905-1910 *)
Definition dbg_OpAtomicXor {E} (x : OpAtomicXor) : dtree E := DTuple "OpAtomicXor" [dbg_OpId (OpAtomicXor_0 x); dbg_ResultId (OpAtomicXor_1 x); dbg_OpId (OpAtomicXor_2 x); dbg_ScopeId (OpAtomicXor_3 x); dbg_MemorySemanticsId (OpAtomicXor_4 x); dbg_OpId (OpAtomicXor_5 x)].

(* src/spv/op.rs:1913-1917 *)
Record OpAtomicFlagTestAndSet : Type := Build_OpAtomicFlagTestAndSet { OpAtomicFlagTestAndSet_0 : OpId; OpAtomicFlagTestAndSet_1 : ResultId; OpAtomicFlagTestAndSet_2 : OpId; OpAtomicFlagTestAndSet_3 : ScopeId; OpAtomicFlagTestAndSet_4 : MemorySemanticsId }.
(* src/spv/op.rs:1913-1917 *)
Definition eq_OpAtomicFlagTestAndSet (a b : OpAtomicFlagTestAndSet) : bool := N.eqb (OpAtomicFlagTestAndSet_0 a) (OpAtomicFlagTestAndSet_0 b) && N.eqb (OpAtomicFlagTestAndSet_1 a) (OpAtomicFlagTestAndSet_1 b) && N.eqb (OpAtomicFlagTestAndSet_2 a) (OpAtomicFlagTestAndSet_2 b) && N.eqb (OpAtomicFlagTestAndSet_3 a) (OpAtomicFlagTestAndSet_3 b) && N.eqb (OpAtomicFlagTestAndSet_4 a) (OpAtomicFlagTestAndSet_4 b).
(* src/spv/op.rs:1913-1917 *)
Definition dbg_OpAtomicFlagTestAndSet {E} (x : OpAtomicFlagTestAndSet) : dtree E := DTuple "OpAtomicFlagTestAndSet" [dbg_OpId (OpAtomicFlagTestAndSet_0 x); dbg_ResultId (OpAtomicFlagTestAndSet_1 x); dbg_OpId (OpAtomicFlagTestAndSet_2 x); dbg_ScopeId (OpAtomicFlagTestAndSet_3 x); dbg_MemorySemanticsId (OpAtomicFlagTestAndSet_4 x)].

(* src/spv/op.rs:1920 *)
Record OpAtomicFlagClear : Type := Build_OpAtomicFlagClear { OpAtomicFlagClear_0 : OpId; OpAtomicFlagClear_1 : ScopeId; OpAtomicFlagClear_2 : MemorySemanticsId }.
(* src/spv/op.rs:1920 *)
Definition eq_OpAtomicFlagClear (a b : OpAtomicFlagClear) : bool := N.eqb (OpAtomicFlagClear_0 a) (OpAtomicFlagClear_0 b) && N.eqb (OpAtomicFlagClear_1 a) (OpAtomicFlagClear_1 b) && N.eqb (OpAtomicFlagClear_2 a) (OpAtomicFlagClear_2 b).
(* src/spv/op.rs:1920 *)
Definition dbg_OpAtomicFlagClear {E} (x : OpAtomicFlagClear) : dtree E := DTuple "OpAtomicFlagClear" [dbg_OpId (OpAtomicFlagClear_0 x); dbg_ScopeId (OpAtomicFlagClear_1 x); dbg_MemorySemanticsId (OpAtomicFlagClear_2 x)].

(* src/spv/op.rs:1925 *)
Record OpEmitVertex : Type := Build_OpEmitVertex {}.
(* src/spv/op.rs:1925 *)
Definition eq_OpEmitVertex (a b : OpEmitVertex) : bool := true.
(* src/spv/op.rs:1925 *)
Definition dbg_OpEmitVertex {E} (x : OpEmitVertex) : dtree E := DName "OpEmitVertex".

(* src/spv/op.rs:1928 *)
Record OpEndPrimitive : Type := Build_OpEndPrimitive {}.
(* src/spv/op.rs:1928 *)
Definition eq_OpEndPrimitive (a b : OpEndPrimitive) : bool := true.
(* src/spv/op.rs:1928 *)
Definition dbg_OpEndPrimitive {E} (x : OpEndPrimitive) : dtree E := DName "OpEndPrimitive".

(* src/spv/op.rs:1931 *)
Record OpEmitStreamVertex : Type := Build_OpEmitStreamVertex { OpEmitStreamVertex_0 : OpId }.
(* src/spv/op.rs:1931 *)
Definition eq_OpEmitStreamVertex (a b : OpEmitStreamVertex) : bool := N.eqb (OpEmitStreamVertex_0 a) (OpEmitStreamVertex_0 b).
(* src/spv/op.rs:1931 *)
Definition dbg_OpEmitStreamVertex {E} (x : OpEmitStreamVertex) : dtree E := DTuple "OpEmitStreamVertex" [dbg_OpId (OpEmitStreamVertex_0 x)].

(* src/spv/op.rs:1934 *)
Record OpEndStreamPrimitive : Type := Build_OpEndStreamPrimitive { OpEndStreamPrimitive_0 : OpId }.
(* src/spv/op.rs:1934 *)
Definition eq_OpEndStreamPrimitive (a b : OpEndStreamPrimitive) : bool := N.eqb (OpEndStreamPrimitive_0 a) (OpEndStreamPrimitive_0 b).
(* src/spv/op.rs:1934 *)
Definition dbg_OpEndStreamPrimitive {E} (x : OpEndStreamPrimitive) : dtree E := DTuple "OpEndStreamPrimitive" [dbg_OpId (OpEndStreamPrimitive_0 x)].

(* src/spv/op.rs:1939 *)
Record OpControlBarrier : Type := Build_OpControlBarrier { OpControlBarrier_0 : ScopeId; OpControlBarrier_1 : ScopeId; OpControlBarrier_2 : MemorySemanticsId }.
(* src/spv/op.rs:1939 *)
Definition eq_OpControlBarrier (a b : OpControlBarrier) : bool := N.eqb (OpControlBarrier_0 a) (OpControlBarrier_0 b) && N.eqb (OpControlBarrier_1 a) (OpControlBarrier_1 b) && N.eqb (OpControlBarrier_2 a) (OpControlBarrier_2 b).
(* src/spv/op.rs:1939 *)
Definition dbg_OpControlBarrier {E} (x : OpControlBarrier) : dtree E := DTuple "OpControlBarrier" [dbg_ScopeId (OpControlBarrier_0 x); dbg_ScopeId (OpControlBarrier_1 x); dbg_MemorySemanticsId (OpControlBarrier_2 x)].

(* src/spv/op.rs:1942 *)
Record OpMemoryBarrier : Type := Build_OpMemoryBarrier { OpMemoryBarrier_0 : ScopeId; OpMemoryBarrier_1 : MemorySemanticsId }.
(* src/spv/op.rs:1942 *)
Definition eq_OpMemoryBarrier (a b : OpMemoryBarrier) : bool := N.eqb (OpMemoryBarrier_0 a) (OpMemoryBarrier_0 b) && N.eqb (OpMemoryBarrier_1 a) (OpMemoryBarrier_1 b).
(* src/spv/op.rs:1942 *)
Definition dbg_OpMemoryBarrier {E} (x : OpMemoryBarrier) : dtree E := DTuple "OpMemoryBarrier" [dbg_ScopeId (OpMemoryBarrier_0 x); dbg_MemorySemanticsId (OpMemoryBarrier_1 x)].

(* src/spv/op.rs:1945 *)
Record OpNamedBarrierInitialize : Type := Build_OpNamedBarrierInitialize { OpNamedBarrierInitialize_0 : OpId; OpNamedBarrierInitialize_1 : ResultId; OpNamedBarrierInitialize_2 : OpId }.
(* src/spv/op.rs:1945 *)
Definition eq_OpNamedBarrierInitialize (a b : OpNamedBarrierInitialize) : bool := N.eqb (OpNamedBarrierInitialize_0 a) (OpNamedBarrierInitialize_0 b) && N.eqb (OpNamedBarrierInitialize_1 a) (OpNamedBarrierInitialize_1 b) && N.eqb (OpNamedBarrierInitialize_2 a) (OpNamedBarrierInitialize_2 b).
(* src/spv/op.rs:1945 *)
Definition dbg_OpNamedBarrierInitialize {E} (x : OpNamedBarrierInitialize) : dtree E := DTuple "OpNamedBarrierInitialize" [dbg_OpId (OpNamedBarrierInitialize_0 x); dbg_ResultId (OpNamedBarrierInitialize_1 x); dbg_OpId (OpNamedBarrierInitialize_2 x)].

(* src/spv/op.rs:1948 *)
Record OpMemoryNamedBarrier : Type := Build_OpMemoryNamedBarrier { OpMemoryNamedBarrier_0 : OpId; OpMemoryNamedBarrier_1 : ScopeId; OpMemoryNamedBarrier_2 : MemorySemanticsId }.
(* src/spv/op.rs:1948 *)
Definition eq_OpMemoryNamedBarrier (a b : OpMemoryNamedBarrier) : bool := N.eqb (OpMemoryNamedBarrier_0 a) (OpMemoryNamedBarrier_0 b) && N.eqb (OpMemoryNamedBarrier_1 a) (OpMemoryNamedBarrier_1 b) && N.eqb (OpMemoryNamedBarrier_2 a) (OpMemoryNamedBarrier_2 b).
(* src/spv/op.rs:1948 *)
Definition dbg_OpMemoryNamedBarrier {E} (x : OpMemoryNamedBarrier) : dtree E := DTuple "OpMemoryNamedBarrier" [dbg_OpId (OpMemoryNamedBarrier_0 x); dbg_ScopeId (OpMemoryNamedBarrier_1 x); dbg_MemorySemanticsId (OpMemoryNamedBarrier_2 x)].

(* src/spv/op.rs:1953-1960 *)
Record OpGroupAsyncCopy : Type := Build_OpGroupAsyncCopy { OpGroupAsyncCopy_0 : OpId; OpGroupAsyncCopy_1 : ResultId; OpGroupAsyncCopy_2 : ScopeId; OpGroupAsyncCopy_3 : OpId; OpGroupAsyncCopy_4 : OpId; OpGroupAsyncCopy_5 : OpId; OpGroupAsyncCopy_6 : OpId; OpGroupAsyncCopy_7 : OpId }.
(* src/spv/op.rs:1953-1960 *)
Definition eq_OpGroupAsyncCopy (a b : OpGroupAsyncCopy) : bool := N.eqb (OpGroupAsyncCopy_0 a) (OpGroupAsyncCopy_0 b) && N.eqb (OpGroupAsyncCopy_1 a) (OpGroupAsyncCopy_1 b) && N.eqb (OpGroupAsyncCopy_2 a) (OpGroupAsyncCopy_2 b) && N.eqb (OpGroupAsyncCopy_3 a) (OpGroupAsyncCopy_3 b) && N.eqb (OpGroupAsyncCopy_4 a) (OpGroupAsyncCopy_4 b) && N.eqb (OpGroupAsyncCopy_5 a) (OpGroupAsyncCopy_5 b) && N.eqb (OpGroupAsyncCopy_6 a) (OpGroupAsyncCopy_6 b) && N.eqb (OpGroupAsyncCopy_7 a) (OpGroupAsyncCopy_7 b).
(* src/spv/op.rs:1953-1960 *)
Definition dbg_OpGroupAsyncCopy {E} (x : OpGroupAsyncCopy) : dtree E := DTuple "OpGroupAsyncCopy" [dbg_OpId (OpGroupAsyncCopy_0 x); dbg_ResultId (OpGroupAsyncCopy_1 x); dbg_ScopeId (OpGroupAsyncCopy_2 x); dbg_OpId (OpGroupAsyncCopy_3 x); dbg_OpId (OpGroupAsyncCopy_4 x); dbg_OpId (OpGroupAsyncCopy_5 x); dbg_OpId (OpGroupAsyncCopy_6 x); dbg_OpId (OpGroupAsyncCopy_7 x)].

(* src/spv/op.rs:1963 *)
Record OpGroupWaitEvents : Type := Build_OpGroupWaitEvents { OpGroupWaitEvents_0 : ScopeId; OpGroupWaitEvents_1 : OpId; OpGroupWaitEvents_2 : OpId }.
(* src/spv/op.rs:1963 *)
Definition eq_OpGroupWaitEvents (a b : OpGroupWaitEvents) : bool := N.eqb (OpGroupWaitEvents_0 a) (OpGroupWaitEvents_0 b) && N.eqb (OpGroupWaitEvents_1 a) (OpGroupWaitEvents_1 b) && N.eqb (OpGroupWaitEvents_2 a) (OpGroupWaitEvents_2 b).
(* src/spv/op.rs:1963 *)
Definition dbg_OpGroupWaitEvents {E} (x : OpGroupWaitEvents) : dtree E := DTuple "OpGroupWaitEvents" [dbg_ScopeId (OpGroupWaitEvents_0 x); dbg_OpId (OpGroupWaitEvents_1 x); dbg_OpId (OpGroupWaitEvents_2 x)].

(* src/spv/op.rs:1966 *)
Record OpGroupAll : Type := Build_OpGroupAll { OpGroupAll_0 : OpId; OpGroupAll_1 : ResultId; OpGroupAll_2 : ScopeId; OpGroupAll_3 : OpId }.
(* src/spv/op.rs:1966 *)
Definition eq_OpGroupAll (a b : OpGroupAll) : bool := N.eqb (OpGroupAll_0 a) (OpGroupAll_0 b) && N.eqb (OpGroupAll_1 a) (OpGroupAll_1 b) && N.eqb (OpGroupAll_2 a) (OpGroupAll_2 b) && N.eqb (OpGroupAll_3 a) (OpGroupAll_3 b).
(* src/spv/op.rs:1966 *)
Definition dbg_OpGroupAll {E} (x : OpGroupAll) : dtree E := DTuple "OpGroupAll" [dbg_OpId (OpGroupAll_0 x); dbg_ResultId (OpGroupAll_1 x); dbg_ScopeId (OpGroupAll_2 x); dbg_OpId (OpGroupAll_3 x)].

(* src/spv/op.rs:1969 *)
Record OpGroupAny : Type := Build_OpGroupAny { OpGroupAny_0 : OpId; OpGroupAny_1 : ResultId; OpGroupAny_2 : ScopeId; OpGroupAny_3 : OpId }.
(* src/spv/op.rs:1969 *)
Definition eq_OpGroupAny (a b : OpGroupAny) : bool := N.eqb (OpGroupAny_0 a) (OpGroupAny_0 b) && N.eqb (OpGroupAny_1 a) (OpGroupAny_1 b) && N.eqb (OpGroupAny_2 a) (OpGroupAny_2 b) && N.eqb (OpGroupAny_3 a) (OpGroupAny_3 b).
(* src/spv/op.rs:1969 *)
Definition dbg_OpGroupAny {E} (x : OpGroupAny) : dtree E := DTuple "OpGroupAny" [dbg_OpId (OpGroupAny_0 x); dbg_ResultId (OpGroupAny_1 x); dbg_ScopeId (OpGroupAny_2 x); dbg_OpId (OpGroupAny_3 x)].

(* src/spv/op.rs:1972 *)
Record OpGroupBroadcast : Type := Build_OpGroupBroadcast { OpGroupBroadcast_0 : OpId; OpGroupBroadcast_1 : ResultId; OpGroupBroadcast_2 : ScopeId; OpGroupBroadcast_3 : OpId; OpGroupBroadcast_4 : OpId }.
(* src/spv/op.rs:1972 *)
Definition eq_OpGroupBroadcast (a b : OpGroupBroadcast) : bool := N.eqb (OpGroupBroadcast_0 a) (OpGroupBroadcast_0 b) && N.eqb (OpGroupBroadcast_1 a) (OpGroupBroadcast_1 b) && N.eqb (OpGroupBroadcast_2 a) (OpGroupBroadcast_2 b) && N.eqb (OpGroupBroadcast_3 a) (OpGroupBroadcast_3 b) && N.eqb (OpGroupBroadcast_4 a) (OpGroupBroadcast_4 b).
(* src/spv/op.rs:1972 *)
Definition dbg_OpGroupBroadcast {E} (x : OpGroupBroadcast) : dtree E := DTuple "OpGroupBroadcast" [dbg_OpId (OpGroupBroadcast_0 x); dbg_ResultId (OpGroupBroadcast_1 x); dbg_ScopeId (OpGroupBroadcast_2 x); dbg_OpId (OpGroupBroadcast_3 x); dbg_OpId (OpGroupBroadcast_4 x)].

(* src/spv/op.rs:1975 *)
Record OpGroupIAdd : Type := Build_OpGroupIAdd { OpGroupIAdd_0 : OpId; OpGroupIAdd_1 : ResultId; OpGroupIAdd_2 : ScopeId; OpGroupIAdd_3 : GroupOperation; OpGroupIAdd_4 : OpId }.
(* src/spv/op.rs:1975 *)
Definition eq_OpGroupIAdd (a b : OpGroupIAdd) : bool := N.eqb (OpGroupIAdd_0 a) (OpGroupIAdd_0 b) && N.eqb (OpGroupIAdd_1 a) (OpGroupIAdd_1 b) && N.eqb (OpGroupIAdd_2 a) (OpGroupIAdd_2 b) && eq_GroupOperation (OpGroupIAdd_3 a) (OpGroupIAdd_3 b) && N.eqb (OpGroupIAdd_4 a) (OpGroupIAdd_4 b).
(* src/spv/op.rs:1975 *)
Definition dbg_OpGroupIAdd {E} (x : OpGroupIAdd) : dtree E := DTuple "OpGroupIAdd" [dbg_OpId (OpGroupIAdd_0 x); dbg_ResultId (OpGroupIAdd_1 x); dbg_ScopeId (OpGroupIAdd_2 x); dbg_GroupOperation (OpGroupIAdd_3 x); dbg_OpId (OpGroupIAdd_4 x)].

(* src/spv/op.rs:1978 *)
Record OpGroupFAdd : Type := Build_OpGroupFAdd { OpGroupFAdd_0 : OpId; OpGroupFAdd_1 : ResultId; OpGroupFAdd_2 : ScopeId; OpGroupFAdd_3 : GroupOperation; OpGroupFAdd_4 : OpId }.
(* src/spv/op.rs:1978 *)
Definition eq_OpGroupFAdd (a b : OpGroupFAdd) : bool := N.eqb (OpGroupFAdd_0 a) (OpGroupFAdd_0 b) && N.eqb (OpGroupFAdd_1 a) (OpGroupFAdd_1 b) && N.eqb (OpGroupFAdd_2 a) (OpGroupFAdd_2 b) && eq_GroupOperation (OpGroupFAdd_3 a) (OpGroupFAdd_3 b) && N.eqb (OpGroupFAdd_4 a) (OpGroupFAdd_4 b).
(* src/spv/op.rs:1978 *)
Definition dbg_OpGroupFAdd {E} (x : OpGroupFAdd) : dtree E := DTuple "OpGroupFAdd" [dbg_OpId (OpGroupFAdd_0 x); dbg_ResultId (OpGroupFAdd_1 x); dbg_ScopeId (OpGroupFAdd_2 x); dbg_GroupOperation (OpGroupFAdd_3 x); dbg_OpId (OpGroupFAdd_4 x)].

(* src/spv/op.rs:1981 *)
Record OpGroupFMin : Type := Build_OpGroupFMin { OpGroupFMin_0 : OpId; OpGroupFMin_1 : ResultId; OpGroupFMin_2 : ScopeId; OpGroupFMin_3 : GroupOperation; OpGroupFMin_4 : OpId }.
(* src/spv/op.rs:1981 *)
Definition eq_OpGroupFMin (a b : OpGroupFMin) : bool := N.eqb (OpGroupFMin_0 a) (OpGroupFMin_0 b) && N.eqb (OpGroupFMin_1 a) (OpGroupFMin_1 b) && N.eqb (OpGroupFMin_2 a) (OpGroupFMin_2 b) && eq_GroupOperation (OpGroupFMin_3 a) (OpGroupFMin_3 b) && N.eqb (OpGroupFMin_4 a) (OpGroupFMin_4 b).
(* src/spv/op.rs:1981 *)
Definition dbg_OpGroupFMin {E} (x : OpGroupFMin) : dtree E := DTuple "OpGroupFMin" [dbg_OpId (OpGroupFMin_0 x); dbg_ResultId (OpGroupFMin_1 x); dbg_ScopeId (OpGroupFMin_2 x); dbg_GroupOperation (OpGroupFMin_3 x); dbg_OpId (OpGroupFMin_4 x)].

(* src/spv/op.rs:1984 *)
Record OpGroupUMin : Type := Build_OpGroupUMin { OpGroupUMin_0 : OpId; OpGroupUMin_1 : ResultId; OpGroupUMin_2 : ScopeId; OpGroupUMin_3 : GroupOperation; OpGroupUMin_4 : OpId }.
(* src/spv/op.rs:1984 *)
Definition eq_OpGroupUMin (a b : OpGroupUMin) : bool := N.eqb (OpGroupUMin_0 a) (OpGroupUMin_0 b) && N.eqb (OpGroupUMin_1 a) (OpGroupUMin_1 b) && N.eqb (OpGroupUMin_2 a) (OpGroupUMin_2 b) && eq_GroupOperation (OpGroupUMin_3 a) (OpGroupUMin_3 b) && N.eqb (OpGroupUMin_4 a) (OpGroupUMin_4 b).
(* src/spv/op.rs:1984 *)
Definition dbg_OpGroupUMin {E} (x : OpGroupUMin) : dtree E := DTuple "OpGroupUMin" [dbg_OpId (OpGroupUMin_0 x); dbg_ResultId (OpGroupUMin_1 x); dbg_ScopeId (OpGroupUMin_2 x); dbg_GroupOperation (OpGroupUMin_3 x); dbg_OpId (OpGroupUMin_4 x)].

(* src/spv/op.rs:1987 *)
Record OpGroupSMin : Type := Build_OpGroupSMin { OpGroupSMin_0 : OpId; OpGroupSMin_1 : ResultId; OpGroupSMin_2 : ScopeId; OpGroupSMin_3 : GroupOperation; OpGroupSMin_4 : OpId }.
(* src/spv/op.rs:1987 *)
Definition eq_OpGroupSMin (a b : OpGroupSMin) : bool := N.eqb (OpGroupSMin_0 a) (OpGroupSMin_0 b) && N.eqb (OpGroupSMin_1 a) (OpGroupSMin_1 b) && N.eqb (OpGroupSMin_2 a) (OpGroupSMin_2 b) && eq_GroupOperation (OpGroupSMin_3 a) (OpGroupSMin_3 b) && N.eqb (OpGroupSMin_4 a) (OpGroupSMin_4 b).
(* src/spv/op.rs:1987 *)
Definition dbg_OpGroupSMin {E} (x : OpGroupSMin) : dtree E := DTuple "OpGroupSMin" [dbg_OpId (OpGroupSMin_0 x); dbg_ResultId (OpGroupSMin_1 x); dbg_ScopeId (OpGroupSMin_2 x); dbg_GroupOperation (OpGroupSMin_3 x); dbg_OpId (OpGroupSMin_4 x)].

(* src/spv/op.rs:1990 *)
Record OpGroupFMax : Type := Build_OpGroupFMax { OpGroupFMax_0 : OpId; OpGroupFMax_1 : ResultId; OpGroupFMax_2 : ScopeId; OpGroupFMax_3 : GroupOperation; OpGroupFMax_4 : OpId }.
(* src/spv/op.rs:1990 *)
Definition eq_OpGroupFMax (a b : OpGroupFMax) : bool := N.eqb (OpGroupFMax_0 a) (OpGroupFMax_0 b) && N.eqb (OpGroupFMax_1 a) (OpGroupFMax_1 b) && N.eqb (OpGroupFMax_2 a) (OpGroupFMax_2 b) && eq_GroupOperation (OpGroupFMax_3 a) (OpGroupFMax_3 b) && N.eqb (OpGroupFMax_4 a) (OpGroupFMax_4 b).
(* src/spv/op.rs:1990 *)
Definition dbg_OpGroupFMax {E} (x : OpGroupFMax) : dtree E := DTuple "OpGroupFMax" [dbg_OpId (OpGroupFMax_0 x); dbg_ResultId (OpGroupFMax_1 x); dbg_ScopeId (OpGroupFMax_2 x); dbg_GroupOperation (OpGroupFMax_3 x); dbg_OpId (OpGroupFMax_4 x)].

(* src/spv/op.rs:1993 *)
Record OpGroupUMax : Type := Build_OpGroupUMax { OpGroupUMax_0 : OpId; OpGroupUMax_1 : ResultId; OpGroupUMax_2 : ScopeId; OpGroupUMax_3 : GroupOperation; OpGroupUMax_4 : OpId }.
(* src/spv/op.rs:1993 *)
Definition eq_OpGroupUMax (a b : OpGroupUMax) : bool := N.eqb (OpGroupUMax_0 a) (OpGroupUMax_0 b) && N.eqb (OpGroupUMax_1 a) (OpGroupUMax_1 b) && N.eqb (OpGroupUMax_2 a) (OpGroupUMax_2 b) && eq_GroupOperation (OpGroupUMax_3 a) (OpGroupUMax_3 b) && N.eqb (OpGroupUMax_4 a) (OpGroupUMax_4 b).
(* src/spv/op.rs:1993 *)
Definition dbg_OpGroupUMax {E} (x : OpGroupUMax) : dtree E := DTuple "OpGroupUMax" [dbg_OpId (OpGroupUMax_0 x); dbg_ResultId (OpGroupUMax_1 x); dbg_ScopeId (OpGroupUMax_2 x); dbg_GroupOperation (OpGroupUMax_3 x); dbg_OpId (OpGroupUMax_4 x)].

(* src/spv/op.rs:1996 *)
Record OpGroupSMax : Type := Build_OpGroupSMax { OpGroupSMax_0 : OpId; OpGroupSMax_1 : ResultId; OpGroupSMax_2 : ScopeId; OpGroupSMax_3 : GroupOperation; OpGroupSMax_4 : OpId }.
(* src/spv/op.rs:1996 *)
Definition eq_OpGroupSMax (a b : OpGroupSMax) : bool := N.eqb (OpGroupSMax_0 a) (OpGroupSMax_0 b) && N.eqb (OpGroupSMax_1 a) (OpGroupSMax_1 b) && N.eqb (OpGroupSMax_2 a) (OpGroupSMax_2 b) && eq_GroupOperation (OpGroupSMax_3 a) (OpGroupSMax_3 b) && N.eqb (OpGroupSMax_4 a) (OpGroupSMax_4 b).
(* src/spv/op.rs:1996 *)
Definition dbg_OpGroupSMax {E} (x : OpGroupSMax) : dtree E := DTuple "OpGroupSMax" [dbg_OpId (OpGroupSMax_0 x); dbg_ResultId (OpGroupSMax_1 x); dbg_ScopeId (OpGroupSMax_2 x); dbg_GroupOperation (OpGroupSMax_3 x); dbg_OpId (OpGroupSMax_4 x)].

(* src/spv/op.rs:2001 *)
Record OpEnqueueMarker : Type := Build_OpEnqueueMarker { OpEnqueueMarker_0 : OpId; OpEnqueueMarker_1 : ResultId; OpEnqueueMarker_2 : OpId; OpEnqueueMarker_3 : OpId; OpEnqueueMarker_4 : OpId; OpEnqueueMarker_5 : OpId }.
(* src/spv/op.rs:2001 *)
Definition eq_OpEnqueueMarker (a b : OpEnqueueMarker) : bool := N.eqb (OpEnqueueMarker_0 a) (OpEnqueueMarker_0 b) && N.eqb (OpEnqueueMarker_1 a) (OpEnqueueMarker_1 b) && N.eqb (OpEnqueueMarker_2 a) (OpEnqueueMarker_2 b) && N.eqb (OpEnqueueMarker_3 a) (OpEnqueueMarker_3 b) && N.eqb (OpEnqueueMarker_4 a) (OpEnqueueMarker_4 b) && N.eqb (OpEnqueueMarker_5 a) (OpEnqueueMarker_5 b).
(* src/spv/op.rs:2001 *)
Definition dbg_OpEnqueueMarker {E} (x : OpEnqueueMarker) : dtree E := DTuple "OpEnqueueMarker" [dbg_OpId (OpEnqueueMarker_0 x); dbg_ResultId (OpEnqueueMarker_1 x); dbg_OpId (OpEnqueueMarker_2 x); dbg_OpId (OpEnqueueMarker_3 x); dbg_OpId (OpEnqueueMarker_4 x); dbg_OpId (OpEnqueueMarker_5 x)].

(* src/spv/op.rs:2004-2016 *)
Record OpEnqueueKernel : Type := Build_OpEnqueueKernel { OpEnqueueKernel_0 : OpId; OpEnqueueKernel_1 : ResultId; OpEnqueueKernel_2 : OpId; OpEnqueueKernel_3 : OpId; OpEnqueueKernel_4 : OpId; OpEnqueueKernel_5 : OpId; OpEnqueueKernel_6 : OpId; OpEnqueueKernel_7 : OpId; OpEnqueueKernel_8 : OpId; OpEnqueueKernel_9 : OpId; OpEnqueueKernel_10 : OpId; OpEnqueueKernel_11 : OpId; OpEnqueueKernel_12 : (list (OpId * OpId)) }.
(* src/spv/op.rs:2004-2016 *)
Definition eq_OpEnqueueKernel (a b : OpEnqueueKernel) : bool := N.eqb (OpEnqueueKernel_0 a) (OpEnqueueKernel_0 b) && N.eqb (OpEnqueueKernel_1 a) (OpEnqueueKernel_1 b) && N.eqb (OpEnqueueKernel_2 a) (OpEnqueueKernel_2 b) && N.eqb (OpEnqueueKernel_3 a) (OpEnqueueKernel_3 b) && N.eqb (OpEnqueueKernel_4 a) (OpEnqueueKernel_4 b) && N.eqb (OpEnqueueKernel_5 a) (OpEnqueueKernel_5 b) && N.eqb (OpEnqueueKernel_6 a) (OpEnqueueKernel_6 b) && N.eqb (OpEnqueueKernel_7 a) (OpEnqueueKernel_7 b) && N.eqb (OpEnqueueKernel_8 a) (OpEnqueueKernel_8 b) && N.eqb (OpEnqueueKernel_9 a) (OpEnqueueKernel_9 b) && N.eqb (OpEnqueueKernel_10 a) (OpEnqueueKernel_10 b) && N.eqb (OpEnqueueKernel_11 a) (OpEnqueueKernel_11 b) && (eq_Vec (eq_Pair N.eqb N.eqb)) (OpEnqueueKernel_12 a) (OpEnqueueKernel_12 b).
(* src/spv/op.rs:2004-2016 *)
Definition dbg_OpEnqueueKernel {E} (x : OpEnqueueKernel) : dtree E := DTuple "OpEnqueueKernel" [dbg_OpId (OpEnqueueKernel_0 x); dbg_ResultId (OpEnqueueKernel_1 x); dbg_OpId (OpEnqueueKernel_2 x); dbg_OpId (OpEnqueueKernel_3 x); dbg_OpId (OpEnqueueKernel_4 x); dbg_OpId (OpEnqueueKernel_5 x); dbg_OpId (OpEnqueueKernel_6 x); dbg_OpId (OpEnqueueKernel_7 x); dbg_OpId (OpEnqueueKernel_8 x); dbg_OpId (OpEnqueueKernel_9 x); dbg_OpId (OpEnqueueKernel_10 x); dbg_OpId (OpEnqueueKernel_11 x); (dbg_Vec (dbg_Pair dbg_OpId dbg_OpId)) (OpEnqueueKernel_12 x)].

(* src/spv/op.rs:2019-2025 *)
Record OpGetKernelNDrangeSubGroupCount : Type := Build_OpGetKernelNDrangeSubGroupCount { OpGetKernelNDrangeSubGroupCount_0 : OpId; OpGetKernelNDrangeSubGroupCount_1 : ResultId; OpGetKernelNDrangeSubGroupCount_2 : OpId; OpGetKernelNDrangeSubGroupCount_3 : OpId; OpGetKernelNDrangeSubGroupCount_4 : OpId; OpGetKernelNDrangeSubGroupCount_5 : OpId; OpGetKernelNDrangeSubGroupCount_6 : OpId }.
(* src/spv/op.rs:2019-2025 *)
Definition eq_OpGetKernelNDrangeSubGroupCount (a b : OpGetKernelNDrangeSubGroupCount) : bool := N.eqb (OpGetKernelNDrangeSubGroupCount_0 a) (OpGetKernelNDrangeSubGroupCount_0 b) && N.eqb (OpGetKernelNDrangeSubGroupCount_1 a) (OpGetKernelNDrangeSubGroupCount_1 b) && N.eqb (OpGetKernelNDrangeSubGroupCount_2 a) (OpGetKernelNDrangeSubGroupCount_2 b) && N.eqb (OpGetKernelNDrangeSubGroupCount_3 a) (OpGetKernelNDrangeSubGroupCount_3 b) && N.eqb (OpGetKernelNDrangeSubGroupCount_4 a) (OpGetKernelNDrangeSubGroupCount_4 b) && N.eqb (OpGetKernelNDrangeSubGroupCount_5 a) (OpGetKernelNDrangeSubGroupCount_5 b) && N.eqb (OpGetKernelNDrangeSubGroupCount_6 a) (OpGetKernelNDrangeSubGroupCount_6 b).
(* src/spv/op.rs:2019-2025 *)
Definition dbg_OpGetKernelNDrangeSubGroupCount {E} (x : OpGetKernelNDrangeSubGroupCount) : dtree E := DTuple "OpGetKernelNDrangeSubGroupCount" [dbg_OpId (OpGetKernelNDrangeSubGroupCount_0 x); dbg_ResultId (OpGetKernelNDrangeSubGroupCount_1 x); dbg_OpId (OpGetKernelNDrangeSubGroupCount_2 x); dbg_OpId (OpGetKernelNDrangeSubGroupCount_3 x); dbg_OpId (OpGetKernelNDrangeSubGroupCount_4 x); dbg_OpId (OpGetKernelNDrangeSubGroupCount_5 x); dbg_OpId (OpGetKernelNDrangeSubGroupCount_6 x)].

(* src/spv/op.rs:2028-2034 *)
Record OpGetKernelNDrangeMaxSubGroupSize : Type := Build_OpGetKernelNDrangeMaxSubGroupSize { OpGetKernelNDrangeMaxSubGroupSize_0 : OpId; OpGetKernelNDrangeMaxSubGroupSize_1 : ResultId; OpGetKernelNDrangeMaxSubGroupSize_2 : OpId; OpGetKernelNDrangeMaxSubGroupSize_3 : OpId; OpGetKernelNDrangeMaxSubGroupSize_4 : OpId; OpGetKernelNDrangeMaxSubGroupSize_5 : OpId; OpGetKernelNDrangeMaxSubGroupSize_6 : OpId }.
(* src/spv/op.rs:2028-2034 *)
Definition eq_OpGetKernelNDrangeMaxSubGroupSize (a b : OpGetKernelNDrangeMaxSubGroupSize) : bool := N.eqb (OpGetKernelNDrangeMaxSubGroupSize_0 a) (OpGetKernelNDrangeMaxSubGroupSize_0 b) && N.eqb (OpGetKernelNDrangeMaxSubGroupSize_1 a) (OpGetKernelNDrangeMaxSubGroupSize_1 b) && N.eqb (OpGetKernelNDrangeMaxSubGroupSize_2 a) (OpGetKernelNDrangeMaxSubGroupSize_2 b) && N.eqb (OpGetKernelNDrangeMaxSubGroupSize_3 a) (OpGetKernelNDrangeMaxSubGroupSize_3 b) && N.eqb (OpGetKernelNDrangeMaxSubGroupSize_4 a) (OpGetKernelNDrangeMaxSubGroupSize_4 b) && N.eqb (OpGetKernelNDrangeMaxSubGroupSize_5 a) (OpGetKernelNDrangeMaxSubGroupSize_5 b) && N.eqb (OpGetKernelNDrangeMaxSubGroupSize_6 a) (OpGetKernelNDrangeMaxSubGroupSize_6 b).
(* src/spv/op.rs:2028-2034 *)
Definition dbg_OpGetKernelNDrangeMaxSubGroupSize {E} (x : OpGetKernelNDrangeMaxSubGroupSize) : dtree E := DTuple "OpGetKernelNDrangeMaxSubGroupSize" [dbg_OpId (OpGetKernelNDrangeMaxSubGroupSize_0 x); dbg_ResultId (OpGetKernelNDrangeMaxSubGroupSize_1 x); dbg_OpId (OpGetKernelNDrangeMaxSubGroupSize_2 x); dbg_OpId (OpGetKernelNDrangeMaxSubGroupSize_3 x); dbg_OpId (OpGetKernelNDrangeMaxSubGroupSize_4 x); dbg_OpId (OpGetKernelNDrangeMaxSubGroupSize_5 x); dbg_OpId (OpGetKernelNDrangeMaxSubGroupSize_6 x)].

(* src/spv/op.rs:2037 *)
Record OpGetKernelWorkGroupSize : Type := Build_OpGetKernelWorkGroupSize { OpGetKernelWorkGroupSize_0 : OpId; OpGetKernelWorkGroupSize_1 : ResultId; OpGetKernelWorkGroupSize_2 : OpId; OpGetKernelWorkGroupSize_3 : OpId; OpGetKernelWorkGroupSize_4 : OpId; OpGetKernelWorkGroupSize_5 : OpId }.
(* src/spv/op.rs:2037 *)
Definition eq_OpGetKernelWorkGroupSize (a b : OpGetKernelWorkGroupSize) : bool := N.eqb (OpGetKernelWorkGroupSize_0 a) (OpGetKernelWorkGroupSize_0 b) && N.eqb (OpGetKernelWorkGroupSize_1 a) (OpGetKernelWorkGroupSize_1 b) && N.eqb (OpGetKernelWorkGroupSize_2 a) (OpGetKernelWorkGroupSize_2 b) && N.eqb (OpGetKernelWorkGroupSize_3 a) (OpGetKernelWorkGroupSize_3 b) && N.eqb (OpGetKernelWorkGroupSize_4 a) (OpGetKernelWorkGroupSize_4 b) && N.eqb (OpGetKernelWorkGroupSize_5 a) (OpGetKernelWorkGroupSize_5 b).
(* src/spv/op.rs:2037 *)
Definition dbg_OpGetKernelWorkGroupSize {E} (x : OpGetKernelWorkGroupSize) : dtree E := DTuple "OpGetKernelWorkGroupSize" [dbg_OpId (OpGetKernelWorkGroupSize_0 x); dbg_ResultId (OpGetKernelWorkGroupSize_1 x); dbg_OpId (OpGetKernelWorkGroupSize_2 x); dbg_OpId (OpGetKernelWorkGroupSize_3 x); dbg_OpId (OpGetKernelWorkGroupSize_4 x); dbg_OpId (OpGetKernelWorkGroupSize_5 x)].

(* src/spv/op.rs:2040-2045 *)
Record OpGetKernelPreferredWorkGroupSizeMultiple : Type := Build_OpGetKernelPreferredWorkGroupSizeMultiple { OpGetKernelPreferredWorkGroupSizeMultiple_0 : OpId; OpGetKernelPreferredWorkGroupSizeMultiple_1 : ResultId; OpGetKernelPreferredWorkGroupSizeMultiple_2 : OpId; OpGetKernelPreferredWorkGroupSizeMultiple_3 : OpId; OpGetKernelPreferredWorkGroupSizeMultiple_4 : OpId; OpGetKernelPreferredWorkGroupSizeMultiple_5 : OpId }.
(* src/spv/op.rs:2040-2045 *)
Definition eq_OpGetKernelPreferredWorkGroupSizeMultiple (a b : OpGetKernelPreferredWorkGroupSizeMultiple) : bool := N.eqb (OpGetKernelPreferredWorkGroupSizeMultiple_0 a) (OpGetKernelPreferredWorkGroupSizeMultiple_0 b) && N.eqb (OpGetKernelPreferredWorkGroupSizeMultiple_1 a) (OpGetKernelPreferredWorkGroupSizeMultiple_1 b) && N.eqb (OpGetKernelPreferredWorkGroupSizeMultiple_2 a) (OpGetKernelPreferredWorkGroupSizeMultiple_2 b) && N.eqb (OpGetKernelPreferredWorkGroupSizeMultiple_3 a) (OpGetKernelPreferredWorkGroupSizeMultiple_3 b) && N.eqb (OpGetKernelPreferredWorkGroupSizeMultiple_4 a) (OpGetKernelPreferredWorkGroupSizeMultiple_4 b) && N.eqb (OpGetKernelPreferredWorkGroupSizeMultiple_5 a) (OpGetKernelPreferredWorkGroupSizeMultiple_5 b).
(* src/spv/op.rs:2040-2045 *)
Definition dbg_OpGetKernelPreferredWorkGroupSizeMultiple {E} (x : OpGetKernelPreferredWorkGroupSizeMultiple) : dtree E := DTuple "OpGetKernelPreferredWorkGroupSizeMultiple" [dbg_OpId (OpGetKernelPreferredWorkGroupSizeMultiple_0 x); dbg_ResultId (OpGetKernelPreferredWorkGroupSizeMultiple_1 x); dbg_OpId (OpGetKernelPreferredWorkGroupSizeMultiple_2 x); dbg_OpId (OpGetKernelPreferredWorkGroupSizeMultiple_3 x); dbg_OpId (OpGetKernelPreferredWorkGroupSizeMultiple_4 x); dbg_OpId (OpGetKernelPreferredWorkGroupSizeMultiple_5 x)].

(* src/spv/op.rs:2048 *)
Record OpRetainEvent : Type := Build_OpRetainEvent { OpRetainEvent_0 : OpId }.
(* src/spv/op.rs:2048 *)
Definition eq_OpRetainEvent (a b : OpRetainEvent) : bool := N.eqb (OpRetainEvent_0 a) (OpRetainEvent_0 b).
(* src/spv/op.rs:2048 *)
Definition dbg_OpRetainEvent {E} (x : OpRetainEvent) : dtree E := DTuple "OpRetainEvent" [dbg_OpId (OpRetainEvent_0 x)].

(* src/spv/op.rs:2051 *)
Record OpReleaseEvent : Type := Build_OpReleaseEvent { OpReleaseEvent_0 : OpId }.
(* src/spv/op.rs:2051 *)
Definition eq_OpReleaseEvent (a b : OpReleaseEvent) : bool := N.eqb (OpReleaseEvent_0 a) (OpReleaseEvent_0 b).
(* src/spv/op.rs:2051 *)
Definition dbg_OpReleaseEvent {E} (x : OpReleaseEvent) : dtree E := DTuple "OpReleaseEvent" [dbg_OpId (OpReleaseEvent_0 x)].

(* src/spv/op.rs:2054 *)
Record OpCreateUserEvent : Type := Build_OpCreateUserEvent { OpCreateUserEvent_0 : OpId; OpCreateUserEvent_1 : ResultId }.
(* src/spv/op.rs:2054 *)
Definition eq_OpCreateUserEvent (a b : OpCreateUserEvent) : bool := N.eqb (OpCreateUserEvent_0 a) (OpCreateUserEvent_0 b) && N.eqb (OpCreateUserEvent_1 a) (OpCreateUserEvent_1 b).
(* src/spv/op.rs:2054 *)
Definition dbg_OpCreateUserEvent {E} (x : OpCreateUserEvent) : dtree E := DTuple "OpCreateUserEvent" [dbg_OpId (OpCreateUserEvent_0 x); dbg_ResultId (OpCreateUserEvent_1 x)].

(* src/spv/op.rs:2057 *)
Record OpIsValidEvent : Type := Build_OpIsValidEvent { OpIsValidEvent_0 : OpId; OpIsValidEvent_1 : ResultId; OpIsValidEvent_2 : OpId }.
(* src/spv/op.rs:2057 *)
Definition eq_OpIsValidEvent (a b : OpIsValidEvent) : bool := N.eqb (OpIsValidEvent_0 a) (OpIsValidEvent_0 b) && N.eqb (OpIsValidEvent_1 a) (OpIsValidEvent_1 b) && N.eqb (OpIsValidEvent_2 a) (OpIsValidEvent_2 b).
(* src/spv/op.rs:2057 *)
Definition dbg_OpIsValidEvent {E} (x : OpIsValidEvent) : dtree E := DTuple "OpIsValidEvent" [dbg_OpId (OpIsValidEvent_0 x); dbg_ResultId (OpIsValidEvent_1 x); dbg_OpId (OpIsValidEvent_2 x)].

(* src/spv/op.rs:2060 *)
Record OpSetUserEventStatus : Type := Build_OpSetUserEventStatus { OpSetUserEventStatus_0 : OpId; OpSetUserEventStatus_1 : OpId }.
(* src/spv/op.rs:2060 *)
Definition eq_OpSetUserEventStatus (a b : OpSetUserEventStatus) : bool := N.eqb (OpSetUserEventStatus_0 a) (OpSetUserEventStatus_0 b) && N.eqb (OpSetUserEventStatus_1 a) (OpSetUserEventStatus_1 b).
(* src/spv/op.rs:2060 *)
Definition dbg_OpSetUserEventStatus {E} (x : OpSetUserEventStatus) : dtree E := DTuple "OpSetUserEventStatus" [dbg_OpId (OpSetUserEventStatus_0 x); dbg_OpId (OpSetUserEventStatus_1 x)].

(* src/spv/op.rs:2063 *)
Record OpCaptureEventProfilingInfo : Type := Build_OpCaptureEventProfilingInfo { OpCaptureEventProfilingInfo_0 : OpId; OpCaptureEventProfilingInfo_1 : OpId; OpCaptureEventProfilingInfo_2 : OpId }.
(* src/spv/op.rs:2063 *)
Definition eq_OpCaptureEventProfilingInfo (a b : OpCaptureEventProfilingInfo) : bool := N.eqb (OpCaptureEventProfilingInfo_0 a) (OpCaptureEventProfilingInfo_0 b) && N.eqb (OpCaptureEventProfilingInfo_1 a) (OpCaptureEventProfilingInfo_1 b) && N.eqb (OpCaptureEventProfilingInfo_2 a) (OpCaptureEventProfilingInfo_2 b).
(* src/spv/op.rs:2063 *)
Definition dbg_OpCaptureEventProfilingInfo {E} (x : OpCaptureEventProfilingInfo) : dtree E := DTuple "OpCaptureEventProfilingInfo" [dbg_OpId (OpCaptureEventProfilingInfo_0 x); dbg_OpId (OpCaptureEventProfilingInfo_1 x); dbg_OpId (OpCaptureEventProfilingInfo_2 x)].

(* src/spv/op.rs:2066 *)
Record OpGetDefaultQueue : Type := Build_OpGetDefaultQueue { OpGetDefaultQueue_0 : OpId; OpGetDefaultQueue_1 : ResultId }.
(* src/spv/op.rs:2066 *)
Definition eq_OpGetDefaultQueue (a b : OpGetDefaultQueue) : bool := N.eqb (OpGetDefaultQueue_0 a) (OpGetDefaultQueue_0 b) && N.eqb (OpGetDefaultQueue_1 a) (OpGetDefaultQueue_1 b).
(* src/spv/op.rs:2066 *)
Definition dbg_OpGetDefaultQueue {E} (x : OpGetDefaultQueue) : dtree E := DTuple "OpGetDefaultQueue" [dbg_OpId (OpGetDefaultQueue_0 x); dbg_ResultId (OpGetDefaultQueue_1 x)].

(* src/spv/op.rs:2069 *)
Record OpBuildNDRange : Type := Build_OpBuildNDRange { OpBuildNDRange_0 : OpId; OpBuildNDRange_1 : ResultId; OpBuildNDRange_2 : OpId; OpBuildNDRange_3 : OpId; OpBuildNDRange_4 : OpId }.
(* src/spv/op.rs:2069 *)
Definition eq_OpBuildNDRange (a b : OpBuildNDRange) : bool := N.eqb (OpBuildNDRange_0 a) (OpBuildNDRange_0 b) && N.eqb (OpBuildNDRange_1 a) (OpBuildNDRange_1 b) && N.eqb (OpBuildNDRange_2 a) (OpBuildNDRange_2 b) && N.eqb (OpBuildNDRange_3 a) (OpBuildNDRange_3 b) && N.eqb (OpBuildNDRange_4 a) (OpBuildNDRange_4 b).
(* src/spv/op.rs:2069 *)
Definition dbg_OpBuildNDRange {E} (x : OpBuildNDRange) : dtree E := DTuple "OpBuildNDRange" [dbg_OpId (OpBuildNDRange_0 x); dbg_ResultId (OpBuildNDRange_1 x); dbg_OpId (OpBuildNDRange_2 x); dbg_OpId (OpBuildNDRange_3 x); dbg_OpId (OpBuildNDRange_4 x)].

(* src/spv/op.rs:2072-2078 *)
Record OpGetKernelLocalSizeForSubgroupCount : Type := Build_OpGetKernelLocalSizeForSubgroupCount { OpGetKernelLocalSizeForSubgroupCount_0 : OpId; OpGetKernelLocalSizeForSubgroupCount_1 : ResultId; OpGetKernelLocalSizeForSubgroupCount_2 : OpId; OpGetKernelLocalSizeForSubgroupCount_3 : OpId; OpGetKernelLocalSizeForSubgroupCount_4 : OpId; OpGetKernelLocalSizeForSubgroupCount_5 : OpId; OpGetKernelLocalSizeForSubgroupCount_6 : OpId }.
(* src/spv/op.rs:2072-2078 *)
Definition eq_OpGetKernelLocalSizeForSubgroupCount (a b : OpGetKernelLocalSizeForSubgroupCount) : bool := N.eqb (OpGetKernelLocalSizeForSubgroupCount_0 a) (OpGetKernelLocalSizeForSubgroupCount_0 b) && N.eqb (OpGetKernelLocalSizeForSubgroupCount_1 a) (OpGetKernelLocalSizeForSubgroupCount_1 b) && N.eqb (OpGetKernelLocalSizeForSubgroupCount_2 a) (OpGetKernelLocalSizeForSubgroupCount_2 b) && N.eqb (OpGetKernelLocalSizeForSubgroupCount_3 a) (OpGetKernelLocalSizeForSubgroupCount_3 b) && N.eqb (OpGetKernelLocalSizeForSubgroupCount_4 a) (OpGetKernelLocalSizeForSubgroupCount_4 b) && N.eqb (OpGetKernelLocalSizeForSubgroupCount_5 a) (OpGetKernelLocalSizeForSubgroupCount_5 b) && N.eqb (OpGetKernelLocalSizeForSubgroupCount_6 a) (OpGetKernelLocalSizeForSubgroupCount_6 b).
(* src/spv/op.rs:2072-2078 *)
Definition dbg_OpGetKernelLocalSizeForSubgroupCount {E} (x : OpGetKernelLocalSizeForSubgroupCount) : dtree E := DTuple "OpGetKernelLocalSizeForSubgroupCount" [dbg_OpId (OpGetKernelLocalSizeForSubgroupCount_0 x); dbg_ResultId (OpGetKernelLocalSizeForSubgroupCount_1 x); dbg_OpId (OpGetKernelLocalSizeForSubgroupCount_2 x); dbg_OpId (OpGetKernelLocalSizeForSubgroupCount_3 x); dbg_OpId (OpGetKernelLocalSizeForSubgroupCount_4 x); dbg_OpId (OpGetKernelLocalSizeForSubgroupCount_5 x); dbg_OpId (OpGetKernelLocalSizeForSubgroupCount_6 x)].

(* src/spv/op.rs:2081-2086 *)
Record OpGetKernelMaxNumSubgroups : Type := Build_OpGetKernelMaxNumSubgroups { OpGetKernelMaxNumSubgroups_0 : OpId; OpGetKernelMaxNumSubgroups_1 : ResultId; OpGetKernelMaxNumSubgroups_2 : OpId; OpGetKernelMaxNumSubgroups_3 : OpId; OpGetKernelMaxNumSubgroups_4 : OpId; OpGetKernelMaxNumSubgroups_5 : OpId }.
(* src/spv/op.rs:2081-2086 *)
Definition eq_OpGetKernelMaxNumSubgroups (a b : OpGetKernelMaxNumSubgroups) : bool := N.eqb (OpGetKernelMaxNumSubgroups_0 a) (OpGetKernelMaxNumSubgroups_0 b) && N.eqb (OpGetKernelMaxNumSubgroups_1 a) (OpGetKernelMaxNumSubgroups_1 b) && N.eqb (OpGetKernelMaxNumSubgroups_2 a) (OpGetKernelMaxNumSubgroups_2 b) && N.eqb (OpGetKernelMaxNumSubgroups_3 a) (OpGetKernelMaxNumSubgroups_3 b) && N.eqb (OpGetKernelMaxNumSubgroups_4 a) (OpGetKernelMaxNumSubgroups_4 b) && N.eqb (OpGetKernelMaxNumSubgroups_5 a) (OpGetKernelMaxNumSubgroups_5 b).
(* src/spv/op.rs:2081-2086 *)
Definition dbg_OpGetKernelMaxNumSubgroups {E} (x : OpGetKernelMaxNumSubgroups) : dtree E := DTuple "OpGetKernelMaxNumSubgroups" [dbg_OpId (OpGetKernelMaxNumSubgroups_0 x); dbg_ResultId (OpGetKernelMaxNumSubgroups_1 x); dbg_OpId (OpGetKernelMaxNumSubgroups_2 x); dbg_OpId (OpGetKernelMaxNumSubgroups_3 x); dbg_OpId (OpGetKernelMaxNumSubgroups_4 x); dbg_OpId (OpGetKernelMaxNumSubgroups_5 x)].

(* src/spv/op.rs:2091 *)
Record OpReadPipe : Type := Build_OpReadPipe { OpReadPipe_0 : OpId; OpReadPipe_1 : ResultId; OpReadPipe_2 : OpId; OpReadPipe_3 : OpId; OpReadPipe_4 : OpId; OpReadPipe_5 : OpId }.
(* src/spv/op.rs:2091 *)
Definition eq_OpReadPipe (a b : OpReadPipe) : bool := N.eqb (OpReadPipe_0 a) (OpReadPipe_0 b) && N.eqb (OpReadPipe_1 a) (OpReadPipe_1 b) && N.eqb (OpReadPipe_2 a) (OpReadPipe_2 b) && N.eqb (OpReadPipe_3 a) (OpReadPipe_3 b) && N.eqb (OpReadPipe_4 a) (OpReadPipe_4 b) && N.eqb (OpReadPipe_5 a) (OpReadPipe_5 b).
(* src/spv/op.rs:2091 *)
Definition dbg_OpReadPipe {E} (x : OpReadPipe) : dtree E := DTuple "OpReadPipe" [dbg_OpId (OpReadPipe_0 x); dbg_ResultId (OpReadPipe_1 x); dbg_OpId (OpReadPipe_2 x); dbg_OpId (OpReadPipe_3 x); dbg_OpId (OpReadPipe_4 x); dbg_OpId (OpReadPipe_5 x)].

(* src/spv/op.rs:2094 *)
Record OpWritePipe : Type := Build_OpWritePipe { OpWritePipe_0 : OpId; OpWritePipe_1 : ResultId; OpWritePipe_2 : OpId; OpWritePipe_3 : OpId; OpWritePipe_4 : OpId; OpWritePipe_5 : OpId }.
(* src/spv/op.rs:2094 *)
Definition eq_OpWritePipe (a b : OpWritePipe) : bool := N.eqb (OpWritePipe_0 a) (OpWritePipe_0 b) && N.eqb (OpWritePipe_1 a) (OpWritePipe_1 b) && N.eqb (OpWritePipe_2 a) (OpWritePipe_2 b) && N.eqb (OpWritePipe_3 a) (OpWritePipe_3 b) && N.eqb (OpWritePipe_4 a) (OpWritePipe_4 b) && N.eqb (OpWritePipe_5 a) (OpWritePipe_5 b).
(* src/spv/op.rs:2094 *)
Definition dbg_OpWritePipe {E} (x : OpWritePipe) : dtree E := DTuple "OpWritePipe" [dbg_OpId (OpWritePipe_0 x); dbg_ResultId (OpWritePipe_1 x); dbg_OpId (OpWritePipe_2 x); dbg_OpId (OpWritePipe_3 x); dbg_OpId (OpWritePipe_4 x); dbg_OpId (OpWritePipe_5 x)].

(* src/spv/op.rs:2097-2104 *)
Record OpReservedReadPipe : Type := Build_OpReservedReadPipe { OpReservedReadPipe_0 : OpId; OpReservedReadPipe_1 : ResultId; OpReservedReadPipe_2 : OpId; OpReservedReadPipe_3 : OpId; OpReservedReadPipe_4 : OpId; OpReservedReadPipe_5 : OpId; OpReservedReadPipe_6 : OpId; OpReservedReadPipe_7 : OpId }.
(* src/spv/op.rs:2097-2104 *)
Definition eq_OpReservedReadPipe (a b : OpReservedReadPipe) : bool := N.eqb (OpReservedReadPipe_0 a) (OpReservedReadPipe_0 b) && N.eqb (OpReservedReadPipe_1 a) (OpReservedReadPipe_1 b) && N.eqb (OpReservedReadPipe_2 a) (OpReservedReadPipe_2 b) && N.eqb (OpReservedReadPipe_3 a) (OpReservedReadPipe_3 b) && N.eqb (OpReservedReadPipe_4 a) (OpReservedReadPipe_4 b) && N.eqb (OpReservedReadPipe_5 a) (OpReservedReadPipe_5 b) && N.eqb (OpReservedReadPipe_6 a) (OpReservedReadPipe_6 b) && N.eqb (OpReservedReadPipe_7 a) (OpReservedReadPipe_7 b).
(* src/spv/op.rs:2097-2104 *)
Definition dbg_OpReservedReadPipe {E} (x : OpReservedReadPipe) : dtree E := DTuple "OpReservedReadPipe" [dbg_OpId (OpReservedReadPipe_0 x); dbg_ResultId (OpReservedReadPipe_1 x); dbg_OpId (OpReservedReadPipe_2 x); dbg_OpId (OpReservedReadPipe_3 x); dbg_OpId (OpReservedReadPipe_4 x); dbg_OpId (OpReservedReadPipe_5 x); dbg_OpId (OpReservedReadPipe_6 x); dbg_OpId (OpReservedReadPipe_7 x)].

(* src/spv/op.rs:2107-2114 *)
Record OpReservedWritePipe : Type := Build_OpReservedWritePipe { OpReservedWritePipe_0 : OpId; OpReservedWritePipe_1 : ResultId; OpReservedWritePipe_2 : OpId; OpReservedWritePipe_3 : OpId; OpReservedWritePipe_4 : OpId; OpReservedWritePipe_5 : OpId; OpReservedWritePipe_6 : OpId; OpReservedWritePipe_7 : OpId }.
(* src/spv/op.rs:2107-2114 *)
Definition eq_OpReservedWritePipe (a b : OpReservedWritePipe) : bool := N.eqb (OpReservedWritePipe_0 a) (OpReservedWritePipe_0 b) && N.eqb (OpReservedWritePipe_1 a) (OpReservedWritePipe_1 b) && N.eqb (OpReservedWritePipe_2 a) (OpReservedWritePipe_2 b) && N.eqb (OpReservedWritePipe_3 a) (OpReservedWritePipe_3 b) && N.eqb (OpReservedWritePipe_4 a) (OpReservedWritePipe_4 b) && N.eqb (OpReservedWritePipe_5 a) (OpReservedWritePipe_5 b) && N.eqb (OpReservedWritePipe_6 a) (OpReservedWritePipe_6 b) && N.eqb (OpReservedWritePipe_7 a) (OpReservedWritePipe_7 b).
(* src/spv/op.rs:2107-2114 *)
Definition dbg_OpReservedWritePipe {E} (x : OpReservedWritePipe) : dtree E := DTuple "OpReservedWritePipe" [dbg_OpId (OpReservedWritePipe_0 x); dbg_ResultId (OpReservedWritePipe_1 x); dbg_OpId (OpReservedWritePipe_2 x); dbg_OpId (OpReservedWritePipe_3 x); dbg_OpId (OpReservedWritePipe_4 x); dbg_OpId (OpReservedWritePipe_5 x); dbg_OpId (OpReservedWritePipe_6 x); dbg_OpId (OpReservedWritePipe_7 x)].

(* src/spv/op.rs:2117 *)
Record OpReserveReadPipePackets : Type := Build_OpReserveReadPipePackets { OpReserveReadPipePackets_0 : OpId; OpReserveReadPipePackets_1 : ResultId; OpReserveReadPipePackets_2 : OpId; OpReserveReadPipePackets_3 : OpId; OpReserveReadPipePackets_4 : OpId; OpReserveReadPipePackets_5 : OpId }.
(* src/spv/op.rs:2117 *)
Definition eq_OpReserveReadPipePackets (a b : OpReserveReadPipePackets) : bool := N.eqb (OpReserveReadPipePackets_0 a) (OpReserveReadPipePackets_0 b) && N.eqb (OpReserveReadPipePackets_1 a) (OpReserveReadPipePackets_1 b) && N.eqb (OpReserveReadPipePackets_2 a) (OpReserveReadPipePackets_2 b) && N.eqb (OpReserveReadPipePackets_3 a) (OpReserveReadPipePackets_3 b) && N.eqb (OpReserveReadPipePackets_4 a) (OpReserveReadPipePackets_4 b) && N.eqb (OpReserveReadPipePackets_5 a) (OpReserveReadPipePackets_5 b).
(* src/spv/op.rs:2117 *)
Definition dbg_OpReserveReadPipePackets {E} (x : OpReserveReadPipePackets) : dtree E := DTuple "OpReserveReadPipePackets" [dbg_OpId (OpReserveReadPipePackets_0 x); dbg_ResultId (OpReserveReadPipePackets_1 x); dbg_OpId (OpReserveReadPipePackets_2 x); dbg_OpId (OpReserveReadPipePackets_3 x); dbg_OpId (OpReserveReadPipePackets_4 x); dbg_OpId (OpReserveReadPipePackets_5 x)].

(* src/spv/op.rs:2120-2125 *)
Record OpReserveWritePipePackets : Type := Build_OpReserveWritePipePackets { OpReserveWritePipePackets_0 : OpId; OpReserveWritePipePackets_1 : ResultId; OpReserveWritePipePackets_2 : OpId; OpReserveWritePipePackets_3 : OpId; OpReserveWritePipePackets_4 : OpId; OpReserveWritePipePackets_5 : OpId }.
(* src/spv/op.rs:2120-2125 *)
Definition eq_OpReserveWritePipePackets (a b : OpReserveWritePipePackets) : bool := N.eqb (OpReserveWritePipePackets_0 a) (OpReserveWritePipePackets_0 b) && N.eqb (OpReserveWritePipePackets_1 a) (OpReserveWritePipePackets_1 b) && N.eqb (OpReserveWritePipePackets_2 a) (OpReserveWritePipePackets_2 b) && N.eqb (OpReserveWritePipePackets_3 a) (OpReserveWritePipePackets_3 b) && N.eqb (OpReserveWritePipePackets_4 a) (OpReserveWritePipePackets_4 b) && N.eqb (OpReserveWritePipePackets_5 a) (OpReserveWritePipePackets_5 b).
(* src/spv/op.rs:2120-2125 *)
Definition dbg_OpReserveWritePipePackets {E} (x : OpReserveWritePipePackets) : dtree E := DTuple "OpReserveWritePipePackets" [dbg_OpId (OpReserveWritePipePackets_0 x); dbg_ResultId (OpReserveWritePipePackets_1 x); dbg_OpId (OpReserveWritePipePackets_2 x); dbg_OpId (OpReserveWritePipePackets_3 x); dbg_OpId (OpReserveWritePipePackets_4 x); dbg_OpId (OpReserveWritePipePackets_5 x)].

(* src/spv/op.rs:2128 *)
Record OpCommitReadPipe : Type := Build_OpCommitReadPipe { OpCommitReadPipe_0 : OpId; OpCommitReadPipe_1 : OpId; OpCommitReadPipe_2 : OpId; OpCommitReadPipe_3 : OpId }.
(* src/spv/op.rs:2128 *)
Definition eq_OpCommitReadPipe (a b : OpCommitReadPipe) : bool := N.eqb (OpCommitReadPipe_0 a) (OpCommitReadPipe_0 b) && N.eqb (OpCommitReadPipe_1 a) (OpCommitReadPipe_1 b) && N.eqb (OpCommitReadPipe_2 a) (OpCommitReadPipe_2 b) && N.eqb (OpCommitReadPipe_3 a) (OpCommitReadPipe_3 b).
(* src/spv/op.rs:2128 *)
Definition dbg_OpCommitReadPipe {E} (x : OpCommitReadPipe) : dtree E := DTuple "OpCommitReadPipe" [dbg_OpId (OpCommitReadPipe_0 x); dbg_OpId (OpCommitReadPipe_1 x); dbg_OpId (OpCommitReadPipe_2 x); dbg_OpId (OpCommitReadPipe_3 x)].

(* src/spv/op.rs:2131 *)
Record OpCommitWritePipe : Type := Build_OpCommitWritePipe { OpCommitWritePipe_0 : OpId; OpCommitWritePipe_1 : OpId; OpCommitWritePipe_2 : OpId; OpCommitWritePipe_3 : OpId }.
(* src/spv/op.rs:2131 *)
Definition eq_OpCommitWritePipe (a b : OpCommitWritePipe) : bool := N.eqb (OpCommitWritePipe_0 a) (OpCommitWritePipe_0 b) && N.eqb (OpCommitWritePipe_1 a) (OpCommitWritePipe_1 b) && N.eqb (OpCommitWritePipe_2 a) (OpCommitWritePipe_2 b) && N.eqb (OpCommitWritePipe_3 a) (OpCommitWritePipe_3 b).
(* src/spv/op.rs:2131 *)
Definition dbg_OpCommitWritePipe {E} (x : OpCommitWritePipe) : dtree E := DTuple "OpCommitWritePipe" [dbg_OpId (OpCommitWritePipe_0 x); dbg_OpId (OpCommitWritePipe_1 x); dbg_OpId (OpCommitWritePipe_2 x); dbg_OpId (OpCommitWritePipe_3 x)].

(* src/spv/op.rs:2134 *)
Record OpIsValidReserveId : Type := Build_OpIsValidReserveId { OpIsValidReserveId_0 : OpId; OpIsValidReserveId_1 : ResultId; OpIsValidReserveId_2 : OpId }.
(* src/spv/op.rs:2134 *)
Definition eq_OpIsValidReserveId (a b : OpIsValidReserveId) : bool := N.eqb (OpIsValidReserveId_0 a) (OpIsValidReserveId_0 b) && N.eqb (OpIsValidReserveId_1 a) (OpIsValidReserveId_1 b) && N.eqb (OpIsValidReserveId_2 a) (OpIsValidReserveId_2 b).
(* src/spv/op.rs:2134 *)
Definition dbg_OpIsValidReserveId {E} (x : OpIsValidReserveId) : dtree E := DTuple "OpIsValidReserveId" [dbg_OpId (OpIsValidReserveId_0 x); dbg_ResultId (OpIsValidReserveId_1 x); dbg_OpId (OpIsValidReserveId_2 x)].

(* src/spv/op.rs:2137 *)
Record OpGetNumPipePackets : Type := Build_OpGetNumPipePackets { OpGetNumPipePackets_0 : OpId; OpGetNumPipePackets_1 : ResultId; OpGetNumPipePackets_2 : OpId; OpGetNumPipePackets_3 : OpId; OpGetNumPipePackets_4 : OpId }.
(* src/spv/op.rs:2137 *)
Definition eq_OpGetNumPipePackets (a b : OpGetNumPipePackets) : bool := N.eqb (OpGetNumPipePackets_0 a) (OpGetNumPipePackets_0 b) && N.eqb (OpGetNumPipePackets_1 a) (OpGetNumPipePackets_1 b) && N.eqb (OpGetNumPipePackets_2 a) (OpGetNumPipePackets_2 b) && N.eqb (OpGetNumPipePackets_3 a) (OpGetNumPipePackets_3 b) && N.eqb (OpGetNumPipePackets_4 a) (OpGetNumPipePackets_4 b).
(* src/spv/op.rs:2137 *)
Definition dbg_OpGetNumPipePackets {E} (x : OpGetNumPipePackets) : dtree E := DTuple "OpGetNumPipePackets" [dbg_OpId (OpGetNumPipePackets_0 x); dbg_ResultId (OpGetNumPipePackets_1 x); dbg_OpId (OpGetNumPipePackets_2 x); dbg_OpId (OpGetNumPipePackets_3 x); dbg_OpId (OpGetNumPipePackets_4 x)].

(* src/spv/op.rs:2140 *)
Record OpGetMaxPipePackets : Type := Build_OpGetMaxPipePackets { OpGetMaxPipePackets_0 : OpId; OpGetMaxPipePackets_1 : ResultId; OpGetMaxPipePackets_2 : OpId; OpGetMaxPipePackets_3 : OpId; OpGetMaxPipePackets_4 : OpId }.
(* src/spv/op.rs:2140 *)
Definition eq_OpGetMaxPipePackets (a b : OpGetMaxPipePackets) : bool := N.eqb (OpGetMaxPipePackets_0 a) (OpGetMaxPipePackets_0 b) && N.eqb (OpGetMaxPipePackets_1 a) (OpGetMaxPipePackets_1 b) && N.eqb (OpGetMaxPipePackets_2 a) (OpGetMaxPipePackets_2 b) && N.eqb (OpGetMaxPipePackets_3 a) (OpGetMaxPipePackets_3 b) && N.eqb (OpGetMaxPipePackets_4 a) (OpGetMaxPipePackets_4 b).
(* src/spv/op.rs:2140 *)
Definition dbg_OpGetMaxPipePackets {E} (x : OpGetMaxPipePackets) : dtree E := DTuple "OpGetMaxPipePackets" [dbg_OpId (OpGetMaxPipePackets_0 x); dbg_ResultId (OpGetMaxPipePackets_1 x); dbg_OpId (OpGetMaxPipePackets_2 x); dbg_OpId (OpGetMaxPipePackets_3 x); dbg_OpId (OpGetMaxPipePackets_4 x)].

(* src/spv/op.rs:2143-2149 *)
Record OpGroupReserveReadPipePackets : Type := Build_OpGroupReserveReadPipePackets { OpGroupReserveReadPipePackets_0 : OpId; OpGroupReserveReadPipePackets_1 : ResultId; OpGroupReserveReadPipePackets_2 : ScopeId; OpGroupReserveReadPipePackets_3 : OpId; OpGroupReserveReadPipePackets_4 : OpId; OpGroupReserveReadPipePackets_5 : OpId; OpGroupReserveReadPipePackets_6 : OpId }.
(* src/spv/op.rs:2143-2149 *)
Definition eq_OpGroupReserveReadPipePackets (a b : OpGroupReserveReadPipePackets) : bool := N.eqb (OpGroupReserveReadPipePackets_0 a) (OpGroupReserveReadPipePackets_0 b) && N.eqb (OpGroupReserveReadPipePackets_1 a) (OpGroupReserveReadPipePackets_1 b) && N.eqb (OpGroupReserveReadPipePackets_2 a) (OpGroupReserveReadPipePackets_2 b) && N.eqb (OpGroupReserveReadPipePackets_3 a) (OpGroupReserveReadPipePackets_3 b) && N.eqb (OpGroupReserveReadPipePackets_4 a) (OpGroupReserveReadPipePackets_4 b) && N.eqb (OpGroupReserveReadPipePackets_5 a) (OpGroupReserveReadPipePackets_5 b) && N.eqb (OpGroupReserveReadPipePackets_6 a) (OpGroupReserveReadPipePackets_6 b).
(* src/spv/op.rs:2143-2149 *)
Definition dbg_OpGroupReserveReadPipePackets {E} (x : OpGroupReserveReadPipePackets) : dtree E := DTuple "OpGroupReserveReadPipePackets" [dbg_OpId (OpGroupReserveReadPipePackets_0 x); dbg_ResultId (OpGroupReserveReadPipePackets_1 x); dbg_ScopeId (OpGroupReserveReadPipePackets_2 x); dbg_OpId (OpGroupReserveReadPipePackets_3 x); dbg_OpId (OpGroupReserveReadPipePackets_4 x); dbg_OpId (OpGroupReserveReadPipePackets_5 x); dbg_OpId (OpGroupReserveReadPipePackets_6 x)].

(* src/spv/op.rs:2152-2158 *)
Record OpGroupReserveWritePipePackets : Type := Build_OpGroupReserveWritePipePackets { OpGroupReserveWritePipePackets_0 : OpId; OpGroupReserveWritePipePackets_1 : ResultId; OpGroupReserveWritePipePackets_2 : ScopeId; OpGroupReserveWritePipePackets_3 : OpId; OpGroupReserveWritePipePackets_4 : OpId; OpGroupReserveWritePipePackets_5 : OpId; OpGroupReserveWritePipePackets_6 : OpId }.
(* src/spv/op.rs:2152-2158 *)
Definition eq_OpGroupReserveWritePipePackets (a b : OpGroupReserveWritePipePackets) : bool := N.eqb (OpGroupReserveWritePipePackets_0 a) (OpGroupReserveWritePipePackets_0 b) && N.eqb (OpGroupReserveWritePipePackets_1 a) (OpGroupReserveWritePipePackets_1 b) && N.eqb (OpGroupReserveWritePipePackets_2 a) (OpGroupReserveWritePipePackets_2 b) && N.eqb (OpGroupReserveWritePipePackets_3 a) (OpGroupReserveWritePipePackets_3 b) && N.eqb (OpGroupReserveWritePipePackets_4 a) (OpGroupReserveWritePipePackets_4 b) && N.eqb (OpGroupReserveWritePipePackets_5 a) (OpGroupReserveWritePipePackets_5 b) && N.eqb (OpGroupReserveWritePipePackets_6 a) (OpGroupReserveWritePipePackets_6 b).
(* src/spv/op.rs:2152-2158 *)
Definition dbg_OpGroupReserveWritePipePackets {E} (x : OpGroupReserveWritePipePackets) : dtree E := DTuple "OpGroupReserveWritePipePackets" [dbg_OpId (OpGroupReserveWritePipePackets_0 x); dbg_ResultId (OpGroupReserveWritePipePackets_1 x); dbg_ScopeId (OpGroupReserveWritePipePackets_2 x); dbg_OpId (OpGroupReserveWritePipePackets_3 x); dbg_OpId (OpGroupReserveWritePipePackets_4 x); dbg_OpId (OpGroupReserveWritePipePackets_5 x); dbg_OpId (OpGroupReserveWritePipePackets_6 x)].

(* src/spv/op.rs:2161 *)
Record OpGroupCommitReadPipe : Type := Build_OpGroupCommitReadPipe { OpGroupCommitReadPipe_0 : ScopeId; OpGroupCommitReadPipe_1 : OpId; OpGroupCommitReadPipe_2 : OpId; OpGroupCommitReadPipe_3 : OpId; OpGroupCommitReadPipe_4 : OpId }.
(* src/spv/op.rs:2161 *)
Definition eq_OpGroupCommitReadPipe (a b : OpGroupCommitReadPipe) : bool := N.eqb (OpGroupCommitReadPipe_0 a) (OpGroupCommitReadPipe_0 b) && N.eqb (OpGroupCommitReadPipe_1 a) (OpGroupCommitReadPipe_1 b) && N.eqb (OpGroupCommitReadPipe_2 a) (OpGroupCommitReadPipe_2 b) && N.eqb (OpGroupCommitReadPipe_3 a) (OpGroupCommitReadPipe_3 b) && N.eqb (OpGroupCommitReadPipe_4 a) (OpGroupCommitReadPipe_4 b).
(* src/spv/op.rs:2161 *)
Definition dbg_OpGroupCommitReadPipe {E} (x : OpGroupCommitReadPipe) : dtree E := DTuple "OpGroupCommitReadPipe" [dbg_ScopeId (OpGroupCommitReadPipe_0 x); dbg_OpId (OpGroupCommitReadPipe_1 x); dbg_OpId (OpGroupCommitReadPipe_2 x); dbg_OpId (OpGroupCommitReadPipe_3 x); dbg_OpId (OpGroupCommitReadPipe_4 x)].

(* src/spv/op.rs:2164 *)
Record OpGroupCommitWritePipe : Type := Build_OpGroupCommitWritePipe { OpGroupCommitWritePipe_0 : ScopeId; OpGroupCommitWritePipe_1 : OpId; OpGroupCommitWritePipe_2 : OpId; OpGroupCommitWritePipe_3 : OpId; OpGroupCommitWritePipe_4 : OpId }.
(* src/spv/op.rs:2164 *)
Definition eq_OpGroupCommitWritePipe (a b : OpGroupCommitWritePipe) : bool := N.eqb (OpGroupCommitWritePipe_0 a) (OpGroupCommitWritePipe_0 b) && N.eqb (OpGroupCommitWritePipe_1 a) (OpGroupCommitWritePipe_1 b) && N.eqb (OpGroupCommitWritePipe_2 a) (OpGroupCommitWritePipe_2 b) && N.eqb (OpGroupCommitWritePipe_3 a) (OpGroupCommitWritePipe_3 b) && N.eqb (OpGroupCommitWritePipe_4 a) (OpGroupCommitWritePipe_4 b).
(* src/spv/op.rs:2164 *)
Definition dbg_OpGroupCommitWritePipe {E} (x : OpGroupCommitWritePipe) : dtree E := DTuple "OpGroupCommitWritePipe" [dbg_ScopeId (OpGroupCommitWritePipe_0 x); dbg_OpId (OpGroupCommitWritePipe_1 x); dbg_OpId (OpGroupCommitWritePipe_2 x); dbg_OpId (OpGroupCommitWritePipe_3 x); dbg_OpId (OpGroupCommitWritePipe_4 x)].

(* src/spv/op.rs:2167 *)
Record OpConstantPipeStorage : Type := Build_OpConstantPipeStorage { OpConstantPipeStorage_0 : OpId; OpConstantPipeStorage_1 : ResultId; OpConstantPipeStorage_2 : N; OpConstantPipeStorage_3 : N; OpConstantPipeStorage_4 : N }.
(* src/spv/op.rs:2167 *)
Definition eq_OpConstantPipeStorage (a b : OpConstantPipeStorage) : bool := N.eqb (OpConstantPipeStorage_0 a) (OpConstantPipeStorage_0 b) && N.eqb (OpConstantPipeStorage_1 a) (OpConstantPipeStorage_1 b) && N.eqb (OpConstantPipeStorage_2 a) (OpConstantPipeStorage_2 b) && N.eqb (OpConstantPipeStorage_3 a) (OpConstantPipeStorage_3 b) && N.eqb (OpConstantPipeStorage_4 a) (OpConstantPipeStorage_4 b).
(* src/spv/op.rs:2167 *)
Definition dbg_OpConstantPipeStorage {E} (x : OpConstantPipeStorage) : dtree E := DTuple "OpConstantPipeStorage" [dbg_OpId (OpConstantPipeStorage_0 x); dbg_ResultId (OpConstantPipeStorage_1 x); DNumber (OpConstantPipeStorage_2 x); DNumber (OpConstantPipeStorage_3 x); DNumber (OpConstantPipeStorage_4 x)].

(* src/spv/op.rs:2170 *)
Record OpCreatePipeFromPipeStorage : Type := Build_OpCreatePipeFromPipeStorage { OpCreatePipeFromPipeStorage_0 : OpId; OpCreatePipeFromPipeStorage_1 : ResultId; OpCreatePipeFromPipeStorage_2 : OpId }.
(* src/spv/op.rs:2170 *)
Definition eq_OpCreatePipeFromPipeStorage (a b : OpCreatePipeFromPipeStorage) : bool := N.eqb (OpCreatePipeFromPipeStorage_0 a) (OpCreatePipeFromPipeStorage_0 b) && N.eqb (OpCreatePipeFromPipeStorage_1 a) (OpCreatePipeFromPipeStorage_1 b) && N.eqb (OpCreatePipeFromPipeStorage_2 a) (OpCreatePipeFromPipeStorage_2 b).
(* src/spv/op.rs:2170 *)
Definition dbg_OpCreatePipeFromPipeStorage {E} (x : OpCreatePipeFromPipeStorage) : dtree E := DTuple "OpCreatePipeFromPipeStorage" [dbg_OpId (OpCreatePipeFromPipeStorage_0 x); dbg_ResultId (OpCreatePipeFromPipeStorage_1 x); dbg_OpId (OpCreatePipeFromPipeStorage_2 x)].

(** Which of these types of src/spv/op.rs and src/spv/types.rs: a way to speak about them all. *)
Inductive PlainType : Type :=
| Type_OpGroupMemberDecorate
| Type_OpImageSampledImplicitLod
| Type_OpImageSampledExplicitLod
| Type_OpImageSampleDrefImplicitLod
| Type_OpImageSampleDrefExplicitLod
| Type_OpImageSampleProjImplicitLod
| Type_OpImageSampleProjExplicitLod
| Type_OpImageSampleProjDrefImplicitLod
| Type_OpImageSampleProjDrefExplicitLod
| Type_OpImageFetch
| Type_OpImageGather
| Type_OpImageDrefGather
| Type_OpImageRead
| Type_OpImageWrite
| Type_OpImage
| Type_OpImageQueryFormat
| Type_OpImageQueryOrder
| Type_OpImageQuerySizeLod
| Type_OpImageQuerySize
| Type_OpImageQueryLod
| Type_OpImageQueryLevels
| Type_OpImageQuerySamples
| Type_OpImageSparseSampleImplicitLod
| Type_OpImageSparseSampleExplicitLod
| Type_OpImageSparseSampleDrefImplicitLod
| Type_OpImageSparseSampleDrefExplicitLod
| Type_OpImageSparseSampleProjImplicitLod
| Type_OpImageSparseSampleProjExplicitLod
| Type_OpImageSparseSampleProjDrefImplicitLod
| Type_OpImageSparseSampleProjDrefExplicitLod
| Type_OpImageSparseFetch
| Type_OpImageSparseGather
| Type_OpImageSparseDrefGather
| Type_OpImageSparseTexelsResident
| Type_OpImageSparseRead
| Type_OpBitFieldInsert
| Type_OpBitFieldSExtract
| Type_OpBitFieldUExtract
| Type_OpBitReverse
| Type_OpBitCount
| Type_OpAny
| Type_OpAll
| Type_OpIsNan
| Type_OpIsInf
| Type_OpIsFinite
| Type_OpIsNormal
| Type_OpSignBitSet
| Type_OpLessOrGreater
| Type_OpOrdered
| Type_OpUnordered
| Type_OpLogicalEqual
| Type_OpLogicalNotEqual
| Type_OpLogicalOr
| Type_OpLogicalAnd
| Type_OpLogicalNot
| Type_OpSelect
| Type_OpDPdx
| Type_OpDPdy
| Type_OpFwidth
| Type_OpDPdxFine
| Type_OpDPdyFine
| Type_OpFwidthFine
| Type_OpDPdxCoarse
| Type_OpDPdyCoarse
| Type_OpFwidthCoarse
| Type_OpSwitch
| Type_OpKill
| Type_OpReturnValue
| Type_OpUnreachable
| Type_OpLifetimeStart
| Type_OpLifetimeStop
| Type_OpAtomicLoad
| Type_OpAtomicStore
| Type_OpAtomicExchange
| Type_OpAtomicCompareExchange
| Type_OpAtomicCompareExchangeWeak
| Type_OpAtomicIIncrement
| Type_OpAtomicIDecrement
| Type_OpAtomicIAdd
| Type_OpAtomicISub
| Type_OpAtomicSMin
| Type_OpAtomicUMin
| Type_OpAtomicSMax
| Type_OpAtomicUMax
| Type_OpAtomicAnd
| Type_OpAtomicOr
| Type_OpAtomicXor
| Type_OpAtomicFlagTestAndSet
| Type_OpAtomicFlagClear
| Type_OpEmitVertex
| Type_OpEndPrimitive
| Type_OpEmitStreamVertex
| Type_OpEndStreamPrimitive
| Type_OpControlBarrier
| Type_OpMemoryBarrier
| Type_OpNamedBarrierInitialize
| Type_OpMemoryNamedBarrier
| Type_OpGroupAsyncCopy
| Type_OpGroupWaitEvents
| Type_OpGroupAll
| Type_OpGroupAny
| Type_OpGroupBroadcast
| Type_OpGroupIAdd
| Type_OpGroupFAdd
| Type_OpGroupFMin
| Type_OpGroupUMin
| Type_OpGroupSMin
| Type_OpGroupFMax
| Type_OpGroupUMax
| Type_OpGroupSMax
| Type_OpEnqueueMarker
| Type_OpEnqueueKernel
| Type_OpGetKernelNDrangeSubGroupCount
| Type_OpGetKernelNDrangeMaxSubGroupSize
| Type_OpGetKernelWorkGroupSize
| Type_OpGetKernelPreferredWorkGroupSizeMultiple
| Type_OpRetainEvent
| Type_OpReleaseEvent
| Type_OpCreateUserEvent
| Type_OpIsValidEvent
| Type_OpSetUserEventStatus
| Type_OpCaptureEventProfilingInfo
| Type_OpGetDefaultQueue
| Type_OpBuildNDRange
| Type_OpGetKernelLocalSizeForSubgroupCount
| Type_OpGetKernelMaxNumSubgroups
| Type_OpReadPipe
| Type_OpWritePipe
| Type_OpReservedReadPipe
| Type_OpReservedWritePipe
| Type_OpReserveReadPipePackets
| Type_OpReserveWritePipePackets
| Type_OpCommitReadPipe
| Type_OpCommitWritePipe
| Type_OpIsValidReserveId
| Type_OpGetNumPipePackets
| Type_OpGetMaxPipePackets
| Type_OpGroupReserveReadPipePackets
| Type_OpGroupReserveWritePipePackets
| Type_OpGroupCommitReadPipe
| Type_OpGroupCommitWritePipe
| Type_OpConstantPipeStorage
| Type_OpCreatePipeFromPipeStorage.

(* src/spv/op.rs: which struct decides *)
Definition PlainValue (T : PlainType) : Type :=
  match T with
  | Type_OpGroupMemberDecorate => OpGroupMemberDecorate
  | Type_OpImageSampledImplicitLod => OpImageSampledImplicitLod
  | Type_OpImageSampledExplicitLod => OpImageSampledExplicitLod
  | Type_OpImageSampleDrefImplicitLod => OpImageSampleDrefImplicitLod
  | Type_OpImageSampleDrefExplicitLod => OpImageSampleDrefExplicitLod
  | Type_OpImageSampleProjImplicitLod => OpImageSampleProjImplicitLod
  | Type_OpImageSampleProjExplicitLod => OpImageSampleProjExplicitLod
  | Type_OpImageSampleProjDrefImplicitLod => OpImageSampleProjDrefImplicitLod
  | Type_OpImageSampleProjDrefExplicitLod => OpImageSampleProjDrefExplicitLod
  | Type_OpImageFetch => OpImageFetch
  | Type_OpImageGather => OpImageGather
  | Type_OpImageDrefGather => OpImageDrefGather
  | Type_OpImageRead => OpImageRead
  | Type_OpImageWrite => OpImageWrite
  | Type_OpImage => OpImage
  | Type_OpImageQueryFormat => OpImageQueryFormat
  | Type_OpImageQueryOrder => OpImageQueryOrder
  | Type_OpImageQuerySizeLod => OpImageQuerySizeLod
  | Type_OpImageQuerySize => OpImageQuerySize
  | Type_OpImageQueryLod => OpImageQueryLod
  | Type_OpImageQueryLevels => OpImageQueryLevels
  | Type_OpImageQuerySamples => OpImageQuerySamples
  | Type_OpImageSparseSampleImplicitLod => OpImageSparseSampleImplicitLod
  | Type_OpImageSparseSampleExplicitLod => OpImageSparseSampleExplicitLod
  | Type_OpImageSparseSampleDrefImplicitLod => OpImageSparseSampleDrefImplicitLod
  | Type_OpImageSparseSampleDrefExplicitLod => OpImageSparseSampleDrefExplicitLod
  | Type_OpImageSparseSampleProjImplicitLod => OpImageSparseSampleProjImplicitLod
  | Type_OpImageSparseSampleProjExplicitLod => OpImageSparseSampleProjExplicitLod
  | Type_OpImageSparseSampleProjDrefImplicitLod => OpImageSparseSampleProjDrefImplicitLod
  | Type_OpImageSparseSampleProjDrefExplicitLod => OpImageSparseSampleProjDrefExplicitLod
  | Type_OpImageSparseFetch => OpImageSparseFetch
  | Type_OpImageSparseGather => OpImageSparseGather
  | Type_OpImageSparseDrefGather => OpImageSparseDrefGather
  | Type_OpImageSparseTexelsResident => OpImageSparseTexelsResident
  | Type_OpImageSparseRead => OpImageSparseRead
  | Type_OpBitFieldInsert => OpBitFieldInsert
  | Type_OpBitFieldSExtract => OpBitFieldSExtract
  | Type_OpBitFieldUExtract => OpBitFieldUExtract
  | Type_OpBitReverse => OpBitReverse
  | Type_OpBitCount => OpBitCount
  | Type_OpAny => OpAny
  | Type_OpAll => OpAll
  | Type_OpIsNan => OpIsNan
  | Type_OpIsInf => OpIsInf
  | Type_OpIsFinite => OpIsFinite
  | Type_OpIsNormal => OpIsNormal
  | Type_OpSignBitSet => OpSignBitSet
  | Type_OpLessOrGreater => OpLessOrGreater
  | Type_OpOrdered => OpOrdered
  | Type_OpUnordered => OpUnordered
  | Type_OpLogicalEqual => OpLogicalEqual
  | Type_OpLogicalNotEqual => OpLogicalNotEqual
  | Type_OpLogicalOr => OpLogicalOr
  | Type_OpLogicalAnd => OpLogicalAnd
  | Type_OpLogicalNot => OpLogicalNot
  | Type_OpSelect => OpSelect
  | Type_OpDPdx => OpDPdx
  | Type_OpDPdy => OpDPdy
  | Type_OpFwidth => OpFwidth
  | Type_OpDPdxFine => OpDPdxFine
  | Type_OpDPdyFine => OpDPdyFine
  | Type_OpFwidthFine => OpFwidthFine
  | Type_OpDPdxCoarse => OpDPdxCoarse
  | Type_OpDPdyCoarse => OpDPdyCoarse
  | Type_OpFwidthCoarse => OpFwidthCoarse
  | Type_OpSwitch => OpSwitch
  | Type_OpKill => OpKill
  | Type_OpReturnValue => OpReturnValue
  | Type_OpUnreachable => OpUnreachable
  | Type_OpLifetimeStart => OpLifetimeStart
  | Type_OpLifetimeStop => OpLifetimeStop
  | Type_OpAtomicLoad => OpAtomicLoad
  | Type_OpAtomicStore => OpAtomicStore
  | Type_OpAtomicExchange => OpAtomicExchange
  | Type_OpAtomicCompareExchange => OpAtomicCompareExchange
  | Type_OpAtomicCompareExchangeWeak => OpAtomicCompareExchangeWeak
  | Type_OpAtomicIIncrement => OpAtomicIIncrement
  | Type_OpAtomicIDecrement => OpAtomicIDecrement
  | Type_OpAtomicIAdd => OpAtomicIAdd
  | Type_OpAtomicISub => OpAtomicISub
  | Type_OpAtomicSMin => OpAtomicSMin
  | Type_OpAtomicUMin => OpAtomicUMin
  | Type_OpAtomicSMax => OpAtomicSMax
  | Type_OpAtomicUMax => OpAtomicUMax
  | Type_OpAtomicAnd => OpAtomicAnd
  | Type_OpAtomicOr => OpAtomicOr
  | Type_OpAtomicXor => OpAtomicXor
  | Type_OpAtomicFlagTestAndSet => OpAtomicFlagTestAndSet
  | Type_OpAtomicFlagClear => OpAtomicFlagClear
  | Type_OpEmitVertex => OpEmitVertex
  | Type_OpEndPrimitive => OpEndPrimitive
  | Type_OpEmitStreamVertex => OpEmitStreamVertex
  | Type_OpEndStreamPrimitive => OpEndStreamPrimitive
  | Type_OpControlBarrier => OpControlBarrier
  | Type_OpMemoryBarrier => OpMemoryBarrier
  | Type_OpNamedBarrierInitialize => OpNamedBarrierInitialize
  | Type_OpMemoryNamedBarrier => OpMemoryNamedBarrier
  | Type_OpGroupAsyncCopy => OpGroupAsyncCopy
  | Type_OpGroupWaitEvents => OpGroupWaitEvents
  | Type_OpGroupAll => OpGroupAll
  | Type_OpGroupAny => OpGroupAny
  | Type_OpGroupBroadcast => OpGroupBroadcast
  | Type_OpGroupIAdd => OpGroupIAdd
  | Type_OpGroupFAdd => OpGroupFAdd
  | Type_OpGroupFMin => OpGroupFMin
  | Type_OpGroupUMin => OpGroupUMin
  | Type_OpGroupSMin => OpGroupSMin
  | Type_OpGroupFMax => OpGroupFMax
  | Type_OpGroupUMax => OpGroupUMax
  | Type_OpGroupSMax => OpGroupSMax
  | Type_OpEnqueueMarker => OpEnqueueMarker
  | Type_OpEnqueueKernel => OpEnqueueKernel
  | Type_OpGetKernelNDrangeSubGroupCount => OpGetKernelNDrangeSubGroupCount
  | Type_OpGetKernelNDrangeMaxSubGroupSize => OpGetKernelNDrangeMaxSubGroupSize
  | Type_OpGetKernelWorkGroupSize => OpGetKernelWorkGroupSize
  | Type_OpGetKernelPreferredWorkGroupSizeMultiple => OpGetKernelPreferredWorkGroupSizeMultiple
  | Type_OpRetainEvent => OpRetainEvent
  | Type_OpReleaseEvent => OpReleaseEvent
  | Type_OpCreateUserEvent => OpCreateUserEvent
  | Type_OpIsValidEvent => OpIsValidEvent
  | Type_OpSetUserEventStatus => OpSetUserEventStatus
  | Type_OpCaptureEventProfilingInfo => OpCaptureEventProfilingInfo
  | Type_OpGetDefaultQueue => OpGetDefaultQueue
  | Type_OpBuildNDRange => OpBuildNDRange
  | Type_OpGetKernelLocalSizeForSubgroupCount => OpGetKernelLocalSizeForSubgroupCount
  | Type_OpGetKernelMaxNumSubgroups => OpGetKernelMaxNumSubgroups
  | Type_OpReadPipe => OpReadPipe
  | Type_OpWritePipe => OpWritePipe
  | Type_OpReservedReadPipe => OpReservedReadPipe
  | Type_OpReservedWritePipe => OpReservedWritePipe
  | Type_OpReserveReadPipePackets => OpReserveReadPipePackets
  | Type_OpReserveWritePipePackets => OpReserveWritePipePackets
  | Type_OpCommitReadPipe => OpCommitReadPipe
  | Type_OpCommitWritePipe => OpCommitWritePipe
  | Type_OpIsValidReserveId => OpIsValidReserveId
  | Type_OpGetNumPipePackets => OpGetNumPipePackets
  | Type_OpGetMaxPipePackets => OpGetMaxPipePackets
  | Type_OpGroupReserveReadPipePackets => OpGroupReserveReadPipePackets
  | Type_OpGroupReserveWritePipePackets => OpGroupReserveWritePipePackets
  | Type_OpGroupCommitReadPipe => OpGroupCommitReadPipe
  | Type_OpGroupCommitWritePipe => OpGroupCommitWritePipe
  | Type_OpConstantPipeStorage => OpConstantPipeStorage
  | Type_OpCreatePipeFromPipeStorage => OpCreatePipeFromPipeStorage
  end.

(* src/spv/op.rs: which struct decides *)
Definition eq_Plain (T : PlainType) : PlainValue T -> PlainValue T -> bool :=
  match T with
  | Type_OpGroupMemberDecorate => eq_OpGroupMemberDecorate
  | Type_OpImageSampledImplicitLod => eq_OpImageSampledImplicitLod
  | Type_OpImageSampledExplicitLod => eq_OpImageSampledExplicitLod
  | Type_OpImageSampleDrefImplicitLod => eq_OpImageSampleDrefImplicitLod
  | Type_OpImageSampleDrefExplicitLod => eq_OpImageSampleDrefExplicitLod
  | Type_OpImageSampleProjImplicitLod => eq_OpImageSampleProjImplicitLod
  | Type_OpImageSampleProjExplicitLod => eq_OpImageSampleProjExplicitLod
  | Type_OpImageSampleProjDrefImplicitLod => eq_OpImageSampleProjDrefImplicitLod
  | Type_OpImageSampleProjDrefExplicitLod => eq_OpImageSampleProjDrefExplicitLod
  | Type_OpImageFetch => eq_OpImageFetch
  | Type_OpImageGather => eq_OpImageGather
  | Type_OpImageDrefGather => eq_OpImageDrefGather
  | Type_OpImageRead => eq_OpImageRead
  | Type_OpImageWrite => eq_OpImageWrite
  | Type_OpImage => eq_OpImage
  | Type_OpImageQueryFormat => eq_OpImageQueryFormat
  | Type_OpImageQueryOrder => eq_OpImageQueryOrder
  | Type_OpImageQuerySizeLod => eq_OpImageQuerySizeLod
  | Type_OpImageQuerySize => eq_OpImageQuerySize
  | Type_OpImageQueryLod => eq_OpImageQueryLod
  | Type_OpImageQueryLevels => eq_OpImageQueryLevels
  | Type_OpImageQuerySamples => eq_OpImageQuerySamples
  | Type_OpImageSparseSampleImplicitLod => eq_OpImageSparseSampleImplicitLod
  | Type_OpImageSparseSampleExplicitLod => eq_OpImageSparseSampleExplicitLod
  | Type_OpImageSparseSampleDrefImplicitLod => eq_OpImageSparseSampleDrefImplicitLod
  | Type_OpImageSparseSampleDrefExplicitLod => eq_OpImageSparseSampleDrefExplicitLod
  | Type_OpImageSparseSampleProjImplicitLod => eq_OpImageSparseSampleProjImplicitLod
  | Type_OpImageSparseSampleProjExplicitLod => eq_OpImageSparseSampleProjExplicitLod
  | Type_OpImageSparseSampleProjDrefImplicitLod => eq_OpImageSparseSampleProjDrefImplicitLod
  | Type_OpImageSparseSampleProjDrefExplicitLod => eq_OpImageSparseSampleProjDrefExplicitLod
  | Type_OpImageSparseFetch => eq_OpImageSparseFetch
  | Type_OpImageSparseGather => eq_OpImageSparseGather
  | Type_OpImageSparseDrefGather => eq_OpImageSparseDrefGather
  | Type_OpImageSparseTexelsResident => eq_OpImageSparseTexelsResident
  | Type_OpImageSparseRead => eq_OpImageSparseRead
  | Type_OpBitFieldInsert => eq_OpBitFieldInsert
  | Type_OpBitFieldSExtract => eq_OpBitFieldSExtract
  | Type_OpBitFieldUExtract => eq_OpBitFieldUExtract
  | Type_OpBitReverse => eq_OpBitReverse
  | Type_OpBitCount => eq_OpBitCount
  | Type_OpAny => eq_OpAny
  | Type_OpAll => eq_OpAll
  | Type_OpIsNan => eq_OpIsNan
  | Type_OpIsInf => eq_OpIsInf
  | Type_OpIsFinite => eq_OpIsFinite
  | Type_OpIsNormal => eq_OpIsNormal
  | Type_OpSignBitSet => eq_OpSignBitSet
  | Type_OpLessOrGreater => eq_OpLessOrGreater
  | Type_OpOrdered => eq_OpOrdered
  | Type_OpUnordered => eq_OpUnordered
  | Type_OpLogicalEqual => eq_OpLogicalEqual
  | Type_OpLogicalNotEqual => eq_OpLogicalNotEqual
  | Type_OpLogicalOr => eq_OpLogicalOr
  | Type_OpLogicalAnd => eq_OpLogicalAnd
  | Type_OpLogicalNot => eq_OpLogicalNot
  | Type_OpSelect => eq_OpSelect
  | Type_OpDPdx => eq_OpDPdx
  | Type_OpDPdy => eq_OpDPdy
  | Type_OpFwidth => eq_OpFwidth
  | Type_OpDPdxFine => eq_OpDPdxFine
  | Type_OpDPdyFine => eq_OpDPdyFine
  | Type_OpFwidthFine => eq_OpFwidthFine
  | Type_OpDPdxCoarse => eq_OpDPdxCoarse
  | Type_OpDPdyCoarse => eq_OpDPdyCoarse
  | Type_OpFwidthCoarse => eq_OpFwidthCoarse
  | Type_OpSwitch => eq_OpSwitch
  | Type_OpKill => eq_OpKill
  | Type_OpReturnValue => eq_OpReturnValue
  | Type_OpUnreachable => eq_OpUnreachable
  | Type_OpLifetimeStart => eq_OpLifetimeStart
  | Type_OpLifetimeStop => eq_OpLifetimeStop
  | Type_OpAtomicLoad => eq_OpAtomicLoad
  | Type_OpAtomicStore => eq_OpAtomicStore
  | Type_OpAtomicExchange => eq_OpAtomicExchange
  | Type_OpAtomicCompareExchange => eq_OpAtomicCompareExchange
  | Type_OpAtomicCompareExchangeWeak => eq_OpAtomicCompareExchangeWeak
  | Type_OpAtomicIIncrement => eq_OpAtomicIIncrement
  | Type_OpAtomicIDecrement => eq_OpAtomicIDecrement
  | Type_OpAtomicIAdd => eq_OpAtomicIAdd
  | Type_OpAtomicISub => eq_OpAtomicISub
  | Type_OpAtomicSMin => eq_OpAtomicSMin
  | Type_OpAtomicUMin => eq_OpAtomicUMin
  | Type_OpAtomicSMax => eq_OpAtomicSMax
  | Type_OpAtomicUMax => eq_OpAtomicUMax
  | Type_OpAtomicAnd => eq_OpAtomicAnd
  | Type_OpAtomicOr => eq_OpAtomicOr
  | Type_OpAtomicXor => eq_OpAtomicXor
  | Type_OpAtomicFlagTestAndSet => eq_OpAtomicFlagTestAndSet
  | Type_OpAtomicFlagClear => eq_OpAtomicFlagClear
  | Type_OpEmitVertex => eq_OpEmitVertex
  | Type_OpEndPrimitive => eq_OpEndPrimitive
  | Type_OpEmitStreamVertex => eq_OpEmitStreamVertex
  | Type_OpEndStreamPrimitive => eq_OpEndStreamPrimitive
  | Type_OpControlBarrier => eq_OpControlBarrier
  | Type_OpMemoryBarrier => eq_OpMemoryBarrier
  | Type_OpNamedBarrierInitialize => eq_OpNamedBarrierInitialize
  | Type_OpMemoryNamedBarrier => eq_OpMemoryNamedBarrier
  | Type_OpGroupAsyncCopy => eq_OpGroupAsyncCopy
  | Type_OpGroupWaitEvents => eq_OpGroupWaitEvents
  | Type_OpGroupAll => eq_OpGroupAll
  | Type_OpGroupAny => eq_OpGroupAny
  | Type_OpGroupBroadcast => eq_OpGroupBroadcast
  | Type_OpGroupIAdd => eq_OpGroupIAdd
  | Type_OpGroupFAdd => eq_OpGroupFAdd
  | Type_OpGroupFMin => eq_OpGroupFMin
  | Type_OpGroupUMin => eq_OpGroupUMin
  | Type_OpGroupSMin => eq_OpGroupSMin
  | Type_OpGroupFMax => eq_OpGroupFMax
  | Type_OpGroupUMax => eq_OpGroupUMax
  | Type_OpGroupSMax => eq_OpGroupSMax
  | Type_OpEnqueueMarker => eq_OpEnqueueMarker
  | Type_OpEnqueueKernel => eq_OpEnqueueKernel
  | Type_OpGetKernelNDrangeSubGroupCount => eq_OpGetKernelNDrangeSubGroupCount
  | Type_OpGetKernelNDrangeMaxSubGroupSize => eq_OpGetKernelNDrangeMaxSubGroupSize
  | Type_OpGetKernelWorkGroupSize => eq_OpGetKernelWorkGroupSize
  | Type_OpGetKernelPreferredWorkGroupSizeMultiple => eq_OpGetKernelPreferredWorkGroupSizeMultiple
  | Type_OpRetainEvent => eq_OpRetainEvent
  | Type_OpReleaseEvent => eq_OpReleaseEvent
  | Type_OpCreateUserEvent => eq_OpCreateUserEvent
  | Type_OpIsValidEvent => eq_OpIsValidEvent
  | Type_OpSetUserEventStatus => eq_OpSetUserEventStatus
  | Type_OpCaptureEventProfilingInfo => eq_OpCaptureEventProfilingInfo
  | Type_OpGetDefaultQueue => eq_OpGetDefaultQueue
  | Type_OpBuildNDRange => eq_OpBuildNDRange
  | Type_OpGetKernelLocalSizeForSubgroupCount => eq_OpGetKernelLocalSizeForSubgroupCount
  | Type_OpGetKernelMaxNumSubgroups => eq_OpGetKernelMaxNumSubgroups
  | Type_OpReadPipe => eq_OpReadPipe
  | Type_OpWritePipe => eq_OpWritePipe
  | Type_OpReservedReadPipe => eq_OpReservedReadPipe
  | Type_OpReservedWritePipe => eq_OpReservedWritePipe
  | Type_OpReserveReadPipePackets => eq_OpReserveReadPipePackets
  | Type_OpReserveWritePipePackets => eq_OpReserveWritePipePackets
  | Type_OpCommitReadPipe => eq_OpCommitReadPipe
  | Type_OpCommitWritePipe => eq_OpCommitWritePipe
  | Type_OpIsValidReserveId => eq_OpIsValidReserveId
  | Type_OpGetNumPipePackets => eq_OpGetNumPipePackets
  | Type_OpGetMaxPipePackets => eq_OpGetMaxPipePackets
  | Type_OpGroupReserveReadPipePackets => eq_OpGroupReserveReadPipePackets
  | Type_OpGroupReserveWritePipePackets => eq_OpGroupReserveWritePipePackets
  | Type_OpGroupCommitReadPipe => eq_OpGroupCommitReadPipe
  | Type_OpGroupCommitWritePipe => eq_OpGroupCommitWritePipe
  | Type_OpConstantPipeStorage => eq_OpConstantPipeStorage
  | Type_OpCreatePipeFromPipeStorage => eq_OpCreatePipeFromPipeStorage
  end.

(* src/spv/op.rs: which struct decides *)
Definition dbg_Plain {E} (T : PlainType) : PlainValue T -> dtree E :=
  match T with
  | Type_OpGroupMemberDecorate => dbg_OpGroupMemberDecorate
  | Type_OpImageSampledImplicitLod => dbg_OpImageSampledImplicitLod
  | Type_OpImageSampledExplicitLod => dbg_OpImageSampledExplicitLod
  | Type_OpImageSampleDrefImplicitLod => dbg_OpImageSampleDrefImplicitLod
  | Type_OpImageSampleDrefExplicitLod => dbg_OpImageSampleDrefExplicitLod
  | Type_OpImageSampleProjImplicitLod => dbg_OpImageSampleProjImplicitLod
  | Type_OpImageSampleProjExplicitLod => dbg_OpImageSampleProjExplicitLod
  | Type_OpImageSampleProjDrefImplicitLod => dbg_OpImageSampleProjDrefImplicitLod
  | Type_OpImageSampleProjDrefExplicitLod => dbg_OpImageSampleProjDrefExplicitLod
  | Type_OpImageFetch => dbg_OpImageFetch
  | Type_OpImageGather => dbg_OpImageGather
  | Type_OpImageDrefGather => dbg_OpImageDrefGather
  | Type_OpImageRead => dbg_OpImageRead
  | Type_OpImageWrite => dbg_OpImageWrite
  | Type_OpImage => dbg_OpImage
  | Type_OpImageQueryFormat => dbg_OpImageQueryFormat
  | Type_OpImageQueryOrder => dbg_OpImageQueryOrder
  | Type_OpImageQuerySizeLod => dbg_OpImageQuerySizeLod
  | Type_OpImageQuerySize => dbg_OpImageQuerySize
  | Type_OpImageQueryLod => dbg_OpImageQueryLod
  | Type_OpImageQueryLevels => dbg_OpImageQueryLevels
  | Type_OpImageQuerySamples => dbg_OpImageQuerySamples
  | Type_OpImageSparseSampleImplicitLod => dbg_OpImageSparseSampleImplicitLod
  | Type_OpImageSparseSampleExplicitLod => dbg_OpImageSparseSampleExplicitLod
  | Type_OpImageSparseSampleDrefImplicitLod => dbg_OpImageSparseSampleDrefImplicitLod
  | Type_OpImageSparseSampleDrefExplicitLod => dbg_OpImageSparseSampleDrefExplicitLod
  | Type_OpImageSparseSampleProjImplicitLod => dbg_OpImageSparseSampleProjImplicitLod
  | Type_OpImageSparseSampleProjExplicitLod => dbg_OpImageSparseSampleProjExplicitLod
  | Type_OpImageSparseSampleProjDrefImplicitLod => dbg_OpImageSparseSampleProjDrefImplicitLod
  | Type_OpImageSparseSampleProjDrefExplicitLod => dbg_OpImageSparseSampleProjDrefExplicitLod
  | Type_OpImageSparseFetch => dbg_OpImageSparseFetch
  | Type_OpImageSparseGather => dbg_OpImageSparseGather
  | Type_OpImageSparseDrefGather => dbg_OpImageSparseDrefGather
  | Type_OpImageSparseTexelsResident => dbg_OpImageSparseTexelsResident
  | Type_OpImageSparseRead => dbg_OpImageSparseRead
  | Type_OpBitFieldInsert => dbg_OpBitFieldInsert
  | Type_OpBitFieldSExtract => dbg_OpBitFieldSExtract
  | Type_OpBitFieldUExtract => dbg_OpBitFieldUExtract
  | Type_OpBitReverse => dbg_OpBitReverse
  | Type_OpBitCount => dbg_OpBitCount
  | Type_OpAny => dbg_OpAny
  | Type_OpAll => dbg_OpAll
  | Type_OpIsNan => dbg_OpIsNan
  | Type_OpIsInf => dbg_OpIsInf
  | Type_OpIsFinite => dbg_OpIsFinite
  | Type_OpIsNormal => dbg_OpIsNormal
  | Type_OpSignBitSet => dbg_OpSignBitSet
  | Type_OpLessOrGreater => dbg_OpLessOrGreater
  | Type_OpOrdered => dbg_OpOrdered
  | Type_OpUnordered => dbg_OpUnordered
  | Type_OpLogicalEqual => dbg_OpLogicalEqual
  | Type_OpLogicalNotEqual => dbg_OpLogicalNotEqual
  | Type_OpLogicalOr => dbg_OpLogicalOr
  | Type_OpLogicalAnd => dbg_OpLogicalAnd
  | Type_OpLogicalNot => dbg_OpLogicalNot
  | Type_OpSelect => dbg_OpSelect
  | Type_OpDPdx => dbg_OpDPdx
  | Type_OpDPdy => dbg_OpDPdy
  | Type_OpFwidth => dbg_OpFwidth
  | Type_OpDPdxFine => dbg_OpDPdxFine
  | Type_OpDPdyFine => dbg_OpDPdyFine
  | Type_OpFwidthFine => dbg_OpFwidthFine
  | Type_OpDPdxCoarse => dbg_OpDPdxCoarse
  | Type_OpDPdyCoarse => dbg_OpDPdyCoarse
  | Type_OpFwidthCoarse => dbg_OpFwidthCoarse
  | Type_OpSwitch => dbg_OpSwitch
  | Type_OpKill => dbg_OpKill
  | Type_OpReturnValue => dbg_OpReturnValue
  | Type_OpUnreachable => dbg_OpUnreachable
  | Type_OpLifetimeStart => dbg_OpLifetimeStart
  | Type_OpLifetimeStop => dbg_OpLifetimeStop
  | Type_OpAtomicLoad => dbg_OpAtomicLoad
  | Type_OpAtomicStore => dbg_OpAtomicStore
  | Type_OpAtomicExchange => dbg_OpAtomicExchange
  | Type_OpAtomicCompareExchange => dbg_OpAtomicCompareExchange
  | Type_OpAtomicCompareExchangeWeak => dbg_OpAtomicCompareExchangeWeak
  | Type_OpAtomicIIncrement => dbg_OpAtomicIIncrement
  | Type_OpAtomicIDecrement => dbg_OpAtomicIDecrement
  | Type_OpAtomicIAdd => dbg_OpAtomicIAdd
  | Type_OpAtomicISub => dbg_OpAtomicISub
  | Type_OpAtomicSMin => dbg_OpAtomicSMin
  | Type_OpAtomicUMin => dbg_OpAtomicUMin
  | Type_OpAtomicSMax => dbg_OpAtomicSMax
  | Type_OpAtomicUMax => dbg_OpAtomicUMax
  | Type_OpAtomicAnd => dbg_OpAtomicAnd
  | Type_OpAtomicOr => dbg_OpAtomicOr
  | Type_OpAtomicXor => dbg_OpAtomicXor
  | Type_OpAtomicFlagTestAndSet => dbg_OpAtomicFlagTestAndSet
  | Type_OpAtomicFlagClear => dbg_OpAtomicFlagClear
  | Type_OpEmitVertex => dbg_OpEmitVertex
  | Type_OpEndPrimitive => dbg_OpEndPrimitive
  | Type_OpEmitStreamVertex => dbg_OpEmitStreamVertex
  | Type_OpEndStreamPrimitive => dbg_OpEndStreamPrimitive
  | Type_OpControlBarrier => dbg_OpControlBarrier
  | Type_OpMemoryBarrier => dbg_OpMemoryBarrier
  | Type_OpNamedBarrierInitialize => dbg_OpNamedBarrierInitialize
  | Type_OpMemoryNamedBarrier => dbg_OpMemoryNamedBarrier
  | Type_OpGroupAsyncCopy => dbg_OpGroupAsyncCopy
  | Type_OpGroupWaitEvents => dbg_OpGroupWaitEvents
  | Type_OpGroupAll => dbg_OpGroupAll
  | Type_OpGroupAny => dbg_OpGroupAny
  | Type_OpGroupBroadcast => dbg_OpGroupBroadcast
  | Type_OpGroupIAdd => dbg_OpGroupIAdd
  | Type_OpGroupFAdd => dbg_OpGroupFAdd
  | Type_OpGroupFMin => dbg_OpGroupFMin
  | Type_OpGroupUMin => dbg_OpGroupUMin
  | Type_OpGroupSMin => dbg_OpGroupSMin
  | Type_OpGroupFMax => dbg_OpGroupFMax
  | Type_OpGroupUMax => dbg_OpGroupUMax
  | Type_OpGroupSMax => dbg_OpGroupSMax
  | Type_OpEnqueueMarker => dbg_OpEnqueueMarker
  | Type_OpEnqueueKernel => dbg_OpEnqueueKernel
  | Type_OpGetKernelNDrangeSubGroupCount => dbg_OpGetKernelNDrangeSubGroupCount
  | Type_OpGetKernelNDrangeMaxSubGroupSize => dbg_OpGetKernelNDrangeMaxSubGroupSize
  | Type_OpGetKernelWorkGroupSize => dbg_OpGetKernelWorkGroupSize
  | Type_OpGetKernelPreferredWorkGroupSizeMultiple => dbg_OpGetKernelPreferredWorkGroupSizeMultiple
  | Type_OpRetainEvent => dbg_OpRetainEvent
  | Type_OpReleaseEvent => dbg_OpReleaseEvent
  | Type_OpCreateUserEvent => dbg_OpCreateUserEvent
  | Type_OpIsValidEvent => dbg_OpIsValidEvent
  | Type_OpSetUserEventStatus => dbg_OpSetUserEventStatus
  | Type_OpCaptureEventProfilingInfo => dbg_OpCaptureEventProfilingInfo
  | Type_OpGetDefaultQueue => dbg_OpGetDefaultQueue
  | Type_OpBuildNDRange => dbg_OpBuildNDRange
  | Type_OpGetKernelLocalSizeForSubgroupCount => dbg_OpGetKernelLocalSizeForSubgroupCount
  | Type_OpGetKernelMaxNumSubgroups => dbg_OpGetKernelMaxNumSubgroups
  | Type_OpReadPipe => dbg_OpReadPipe
  | Type_OpWritePipe => dbg_OpWritePipe
  | Type_OpReservedReadPipe => dbg_OpReservedReadPipe
  | Type_OpReservedWritePipe => dbg_OpReservedWritePipe
  | Type_OpReserveReadPipePackets => dbg_OpReserveReadPipePackets
  | Type_OpReserveWritePipePackets => dbg_OpReserveWritePipePackets
  | Type_OpCommitReadPipe => dbg_OpCommitReadPipe
  | Type_OpCommitWritePipe => dbg_OpCommitWritePipe
  | Type_OpIsValidReserveId => dbg_OpIsValidReserveId
  | Type_OpGetNumPipePackets => dbg_OpGetNumPipePackets
  | Type_OpGetMaxPipePackets => dbg_OpGetMaxPipePackets
  | Type_OpGroupReserveReadPipePackets => dbg_OpGroupReserveReadPipePackets
  | Type_OpGroupReserveWritePipePackets => dbg_OpGroupReserveWritePipePackets
  | Type_OpGroupCommitReadPipe => dbg_OpGroupCommitReadPipe
  | Type_OpGroupCommitWritePipe => dbg_OpGroupCommitWritePipe
  | Type_OpConstantPipeStorage => dbg_OpConstantPipeStorage
  | Type_OpCreatePipeFromPipeStorage => dbg_OpCreatePipeFromPipeStorage
  end.
