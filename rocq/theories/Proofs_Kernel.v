(** The two types of types.rs that nothing else contains (C91). *)
From Verif Require Import Base DebugBase KernelTypes.
Local Open Scope string_scope.

Lemma kernel_types : (forall a b, eq_KernelEnqueueFlags a b = true <-> a = b) /\ (forall a b, eq_KernelProfilingInfo a b = true <-> a = b)
  /\ forall E e (ext : E -> string),
    (forall x, debug_text e ext (dbg_KernelEnqueueFlags x)
       = match x with KernelEnqueueFlags_NoWait => "NoWait" | KernelEnqueueFlags_WaitKernel => "WaitKernel" | KernelEnqueueFlags_WaitWorkGroup => "WaitWorkGroup" end)
    /\ (forall b, debug_text e ext (dbg_KernelProfilingInfo (Build_KernelProfilingInfo b))
       = "KernelProfilingInfo { cmd_exec_time: " ++ (if b then "true" else "false") ++ " }").
Proof.
  split; [intros [] []; cbn; split; intros H; congruence|]. split; [intros [[]] [[]]; cbn; split; intros H; congruence|].
  intros E e ext. split; [intros []; reflexivity|intros []; reflexivity].
Qed.
