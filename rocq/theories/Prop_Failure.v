(** Property theorem about the errors of the reader, C70.  The vocabulary of the statements is in Spec_Failure: a table
    of the operands of every instruction, what reading them from left to right meets first, and the ways a module can
    fail. *)
From Verif Require Import Base Types Ops ReadErr ExtSet Reader Glsl450 Spec_Wire Spec_Failure Samples Proofs_Facts2 Proofs_Failure.
Local Open Scope N_scope.

(** ** C70 *)
Theorem C70_exact_failure : forall E (known : list (ExtInstSet E)) data e,
  read_module data known = Err e <-> module_fails known data e.
Proof. intros E known data e. exact (read_fails data known e). Qed.
Print Assumptions C70_exact_failure.

(** The specification of failing complements that of the wire form, and says which error. *)
Theorem C70_decided : forall E (known : list (ExtInstSet E)) data,
  (forall s n ws, In s known -> (exists r, duplicate s n ws = Ok r) \/ (exists e, duplicate s n ws = Err e)) ->
  (exists m, wire_module known data m /\ (forall e, ~ module_fails known data e))
  \/ (exists e, module_fails known data e /\ (forall e', module_fails known data e' -> e' = e) /\ (forall m, ~ wire_module known data m)).
Proof. intros E known data. exact (decided data known). Qed.
Print Assumptions C70_decided.

(** After the sample: OpTypeInt with signedness 2 and a superfluous word; OpMemberDecorate with a linkage attribute whose
    name is not UTF-8. *)
Example C70_example :
  read_module (sample_bytes BigEndian ++ bytes_of_words BigEndian (instruction_words 21 [7; 32; 2; 9])) [InstSet] = Err (UnknownSignedness 2)
  /\ scans_instruction 21 [7; 32; 2; 9] (Fails (UnknownSignedness 2))
  /\ scans_instruction 21 [7; 32; 1; 9] (Left [9])
  /\ read_module (sample_bytes BigEndian ++ bytes_of_words BigEndian (instruction_words 72 [7; 32; 41; 0x00FF; 5])) [InstSet] = Err InvalidString.
Proof.
  split; [vm_compute; reflexivity|]. split; [|split; [|vm_compute; reflexivity]].
  - right. exists [32; 2; 9]. split; [apply scans_word|]. right. exists [2; 9]. split; [apply scans_word|].
    left. eexists. split; [|reflexivity]. apply scans_enum_unknown. cbn. intuition discriminate.
  - right. exists [32; 1; 9]. split; [apply scans_word|]. right. exists [1; 9]. split; [apply scans_word|].
    right. exists [9]. split; [apply scans_enum; cbn; auto|reflexivity].
Qed.
(** The built-in set always answers. *)
Example C70_decided_met : forall s n ws, In s [InstSet] -> (exists r, duplicate s n ws = Ok r) \/ (exists e, duplicate s n ws = Err e).
Proof.
  intros s n ws [<-|[]]. cbn. unfold glsl450_read_instruction.
  destruct ws as [|w ws]; [right|]; (do 4 (destruct n as [|[n|n|]] || destruct n as [n|n|]; cbn; eauto)).
Qed.
