(** SPECIFICATION: which instructions may stand next to each other, and where one can be added or removed, C132. *)
From Verif Require Import Base Types Ops Groups Validate Spec_Tables Spec_Layout.

(** An instruction of kind [q] may come directly after one of kind [p]. *)
Definition may_follow (p q : kind) : bool :=
  match p, q with
  | KCapability, (KCapability | KExtension | KImport | KMemoryModel) => true
  | KExtension, (KExtension | KImport | KMemoryModel) => true
  | KImport, (KImport | KMemoryModel) => true
  | (KMemoryModel | KEntryPoint), (KEntryPoint | KExecutionMode | KDebug | KAnnotation | KGlobal | KFunction) => true
  | KExecutionMode, (KExecutionMode | KDebug | KAnnotation | KGlobal | KFunction) => true
  | KDebug, (KDebug | KAnnotation | KGlobal | KFunction) => true
  | KAnnotation, (KAnnotation | KGlobal | KFunction) => true
  | KGlobal, (KGlobal | KFunction) => true
  | (KFunction | KParameter), (KParameter | KLabel | KFunctionEnd) => true
  | (KLabel | KCode), (KCode | KMerge | KTerminator) => true
  | KMerge, KTerminator => true
  | KTerminator, (KLabel | KFunctionEnd) => true
  | KFunctionEnd, KFunction => true
  | _, _ => false
  end.
Definition may_start (k : kind) : bool := match k with KCapability | KExtension | KImport | KMemoryModel => true | _ => false end.
Definition may_end (k : kind) : bool :=
  match k with KMemoryModel | KEntryPoint | KExecutionMode | KDebug | KAnnotation | KGlobal | KFunctionEnd => true | _ => false end.

(** Nothing but neighbours is looked at. *)
Fixpoint links {E} (i : Core E) (is : list (Core E)) : bool :=
  match is with
  | [] => may_end (kind_of i)
  | j :: is => may_follow (kind_of i) (kind_of j) && links j is
  end.
Definition neighbours_fit {E} (is : list (Core E)) : bool := match is with [] => false | i :: is => may_start (kind_of i) && links i is end.

(** ** Parts of a module, in order *)
Definition part (k : kind) : nat :=
  match k with
  | KCapability => 0 | KExtension => 1 | KImport => 2 | KMemoryModel => 3 | KEntryPoint => 4 | KExecutionMode => 5 | KDebug => 6 | KAnnotation => 7 | KGlobal => 8
  | _ => 9
  end.

Definition last_kind {E} (is : list (Core E)) : option kind := match rev is with i :: _ => Some (kind_of i) | [] => None end.
Definition first_kind {E} (is : list (Core E)) : option kind := match is with i :: _ => Some (kind_of i) | [] => None end.

(** Where an instruction can be added: between the parts before and after its own; a parameter after OpFunction or a parameter, an instruction of a
    block after OpLabel or another one, and a merge instruction before the terminator of a block that has none. *)
Definition can_add {E} (before : list (Core E)) (i : Core E) (behind : list (Core E)) : Prop :=
  match kind_of i with
  | KCapability | KExtension | KImport | KEntryPoint | KExecutionMode | KDebug | KAnnotation | KGlobal =>
      Forall (fun j => part (kind_of j) <= part (kind_of i)) before /\ Forall (fun j => part (kind_of i) <= part (kind_of j)) behind
  | KParameter => last_kind before = Some KFunction \/ last_kind before = Some KParameter
  | KCode => last_kind before = Some KLabel \/ last_kind before = Some KCode
  | KMerge => (last_kind before = Some KLabel \/ last_kind before = Some KCode) /\ first_kind behind = Some KTerminator
  | KMemoryModel | KFunction | KFunctionEnd | KLabel | KTerminator => False
  end.

(** Which instruction can be removed. *)
Definition can_remove (k : kind) : bool := match k with KMemoryModel | KFunction | KFunctionEnd | KLabel | KTerminator => false | _ => true end.
