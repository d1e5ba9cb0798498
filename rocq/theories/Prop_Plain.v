(** Property theorems about the structs that can neither be decoded nor printed, C91, and the Debug format of those that
    can only be printed.  The vocabulary of the statements is in Spec_Plain and Spec_PlainFields. *)
From Verif Require Import Base Types Ops MoreOps DebugBase Debug PlainOps DebugOps KernelTypes Spec_Wire Spec_Opcodes Spec_Debug Spec_More Spec_Plain
  Spec_PlainFields Proofs_Plain Proofs_Plain2 Proofs_PlainFields Proofs_Kernel.
Local Open Scope string_scope.

(** [T] is one of the types, [PlainValue T] are its values. *)
Theorem C91_equality : forall T (a b : PlainValue T), eq_Plain T a b = true <-> a = b.
Proof. exact plain_exact. Qed.
Print Assumptions C91_equality.

Theorem C91_text : forall E e (ext : E -> string), unambiguous ext ->
  (forall T U (a : PlainValue T) (b : PlainValue U),
     debug_text e ext (dbg_Plain T a) = debug_text e ext (dbg_Plain U b) -> existT PlainValue T a = existT PlainValue U b)
  /\ (forall i j, debug_text e ext (dbg_MoreOp i) = debug_text e ext (dbg_MoreOp j) -> i = j).
Proof. exact (fun E e ext X => conj (plain_text_exact E e ext X) (more_text_exact E e ext X)). Qed.
Print Assumptions C91_text.

(** What is shown, and that nothing less is. *)
Theorem C91_operands : forall E (t : dtree E),
  (exists T (a : PlainValue T), t = dbg_Plain T a) <-> (exists n, shows_plain n t).
Proof. exact plain_shown_iff. Qed.
Print Assumptions C91_operands.

(** Which value is shown where: the struct made from operands [v] shows these operands, in this order; and all values of
    the struct are made like this. *)
Theorem C91_fields : forall E T,
  (forall v, exists name, plain_name (plain_opcode T) = Some name
     /\ dbg_Plain (E := E) T (instruction T v) = plain_tree (plain_opcode T) name (show_operands _ v))
  /\ (forall a : PlainValue T, exists v, a = instruction T v).
Proof. exact (fun E T => conj (fields_shown E T) (every_instruction T)). Qed.
Print Assumptions C91_fields.

Theorem C91_standard : forall E n (t : dtree E), ~ departs n -> shows_plain n t <-> shows_standard n t.
Proof. exact standard_unless. Qed.
Print Assumptions C91_standard.

(** OpImageSampleImplicitLod and OpImageSampleExplicitLod have other names, OpAtomicIIncrement and OpAtomicIDecrement have
    one operand too many, and the local sizes of OpEnqueueKernel come in pairs. *)
Theorem C91_departures_refuted : forall E n, departs n -> exists t : dtree E, shows_plain n t /\ ~ shows_standard n t.
Proof. exact departures. Qed.
Print Assumptions C91_departures_refuted.

Theorem C91_more : forall E i, dbg_MoreOp (E := E) i = show_more i.
Proof. exact more_shown. Qed.
Print Assumptions C91_more.

(** Every instruction of version 1.0 has a struct, except OpSpecConstantOp. *)
Theorem C91_all_instructions : forall E (x : E) n name, In (n, name) opcode_names -> n <> 52%N ->
  (exists i : Core E, opcode i = n) \/ (exists i, more_opcode i = n) \/ (exists t : dtree E, shows_plain n t).
Proof. exact opcode_has_struct. Qed.
Print Assumptions C91_all_instructions.

Theorem C91_spec_constant_op_refuted : exists n, opcode_name n = Some "OpSpecConstantOp"
  /\ forall E, (forall i : Core E, opcode i <> n) /\ (forall i, more_opcode i <> n) /\ (forall t : dtree E, ~ shows_plain n t).
Proof. exact (ex_intro _ 52%N (conj eq_refl no_struct)). Qed.
Print Assumptions C91_spec_constant_op_refuted.

(** The two types that nothing else contains. *)
Theorem C91_kernel_types : (forall a b, eq_KernelEnqueueFlags a b = true <-> a = b) /\ (forall a b, eq_KernelProfilingInfo a b = true <-> a = b)
  /\ forall E e (ext : E -> string),
    (forall x, debug_text e ext (dbg_KernelEnqueueFlags x)
       = match x with KernelEnqueueFlags_NoWait => "NoWait" | KernelEnqueueFlags_WaitKernel => "WaitKernel" | KernelEnqueueFlags_WaitWorkGroup => "WaitWorkGroup" end)
    /\ (forall b, debug_text e ext (dbg_KernelProfilingInfo (Build_KernelProfilingInfo b))
       = "KernelProfilingInfo { cmd_exec_time: " ++ (if b then "true" else "false") ++ " }").
Proof. exact kernel_types. Qed.
Print Assumptions C91_kernel_types.

(** An OpSwitch with two cases and an image instruction with operands; an increment with its superfluous operand. *)
Example C91_example : forall e,
  let text := fun T a => debug_text e no_ext (dbg_Plain T a) in
  let switch := Build_OpSwitch 4%N 9%N [([1%N], 7%N); ([2%N; 0%N], 8%N)] in
  let image := fun grad => Build_OpImageFetch 1%N 2%N 3%N 4%N (Some (Build_ImageOperands None (Some 5%N) grad None None None None)) in
  text Type_OpSwitch switch = "OpSwitch(OpId(4), OpId(9), [([1], OpId(7)), ([2, 0], OpId(8))])"
  /\ text Type_OpImageFetch (image (Some (6%N, 7%N)))
     = "OpImageFetch(OpId(1), ResultId(2), OpId(3), OpId(4), Some(ImageOperands { bias: None, lod: Some(OpId(5)), grad: Some((OpId(6), OpId(7))), const_offset: None, offset: None, const_offsets: None, min_lod: None }))"
  /\ eq_Plain Type_OpImageFetch (image None) (image (Some (6%N, 7%N))) = false
  /\ text Type_OpKill Build_OpKill = "OpKill"
  /\ text Type_OpAtomicIIncrement (Build_OpAtomicIIncrement 1%N 2%N 3%N 4%N 5%N 6%N)
     = "OpAtomicIIncrement(OpId(1), ResultId(2), OpId(3), ScopeId(4), MemorySemanticsId(5), OpId(6))"
  /\ text Type_OpGroupMemberDecorate (Build_OpGroupMemberDecorate 1%N [(2%N, 0%N)])
     = "OpGroupMemberDecorate { decoration_group: OpId(1), targets: [(OpId(2), MemberIndex(0))] }"
  /\ debug_text e no_ext (dbg_MoreOp (More_OpVectorShuffle (Build_OpVectorShuffle 1%N 2%N 3%N 4%N [0%N; 5%N])))
     = "OpVectorShuffle { result_type: OpId(1), result_id: ResultId(2), operand1: OpId(3), operand2: OpId(4), components: [MemberIndex(0), MemberIndex(5)] }"
  /\ instruction Type_OpSwitch (4%N, (9%N, ([([1%N], 7%N); ([2%N; 0%N], 8%N)], tt))) = switch
  /\ ~ departs 95%N /\ departs 232%N /\ unambiguous no_ext.
Proof.
  intros e. cbv zeta. repeat split; try (vm_compute; reflexivity).
  - unfold departs. cbn. intuition discriminate.
  - unfold departs. cbn. tauto.
  - destruct x.
  - destruct x.
Qed.
