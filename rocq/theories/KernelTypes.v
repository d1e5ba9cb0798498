(** The two types of src/spv/types.rs that no other type contains. *)
From Verif Require Import Base DebugBase.
Local Open Scope string_scope.

(* src/spv/types.rs:1271-1276 *)
Inductive KernelEnqueueFlags : Type :=
| KernelEnqueueFlags_NoWait
| KernelEnqueueFlags_WaitKernel
| KernelEnqueueFlags_WaitWorkGroup.
(* src/spv/types.rs:1271 derive(PartialEq) *)
Definition eq_KernelEnqueueFlags (a b : KernelEnqueueFlags) : bool :=
  match a, b with
  | KernelEnqueueFlags_NoWait, KernelEnqueueFlags_NoWait => true
  | KernelEnqueueFlags_WaitKernel, KernelEnqueueFlags_WaitKernel => true
  | KernelEnqueueFlags_WaitWorkGroup, KernelEnqueueFlags_WaitWorkGroup => true
  | _, _ => false
  end.
(* src/spv/types.rs:1271 derive(Debug) *)
Definition dbg_KernelEnqueueFlags {E} (x : KernelEnqueueFlags) : dtree E :=
  match x with
  | KernelEnqueueFlags_NoWait => DName "NoWait"
  | KernelEnqueueFlags_WaitKernel => DName "WaitKernel"
  | KernelEnqueueFlags_WaitWorkGroup => DName "WaitWorkGroup"
  end.

(* src/spv/types.rs:1278-1281 *)
Record KernelProfilingInfo : Type := Build_KernelProfilingInfo { KernelProfilingInfo_cmd_exec_time : bool }.
(* src/spv/types.rs:1278 derive(PartialEq) *)
Definition eq_KernelProfilingInfo (a b : KernelProfilingInfo) : bool :=
  Bool.eqb (KernelProfilingInfo_cmd_exec_time a) (KernelProfilingInfo_cmd_exec_time b).
(* src/spv/types.rs:1278 derive(Debug) *)
Definition dbg_KernelProfilingInfo {E} (x : KernelProfilingInfo) : dtree E :=
  DStruct "KernelProfilingInfo" [("cmd_exec_time", DBool (KernelProfilingInfo_cmd_exec_time x))].
