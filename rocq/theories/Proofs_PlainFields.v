(** Which value the structs that can neither be decoded nor printed show where (C91). *)
From Verif Require Import Base Types DebugBase Debug PlainOps Spec_Names Spec_Plain Spec_PlainFields.
Local Open Scope string_scope.

Lemma image_bits_shown : forall E x, dbg_ImageOperands (E := E) x = show_image_bits x.
Proof. reflexivity. Qed.
Lemma group_operation_shown : forall E g, dbg_GroupOperation (E := E) g = show_value AGroupOperation g.
Proof. destruct g; reflexivity. Qed.

Lemma fields_shown : forall E T v, exists name, plain_name (plain_opcode T) = Some name
  /\ dbg_Plain (E := E) T (instruction T v) = plain_tree (plain_opcode T) name (show_operands _ v).
Proof.
  intros E T v. destruct T; (eexists; split; [reflexivity|]);
    repeat match type of v with (values _) => let t := type of v in let t' := eval vm_compute in t in change t' in v end;
    first [reflexivity | repeat match type of v with (_ * _)%type => let a := fresh in destruct v as [a v] end;
    repeat match goal with g : GroupOperation |- _ => destruct g end; reflexivity].
Qed.

Lemma some_pair : forall (A B : Type) (P : A * B -> Prop), (exists a b, P (a, b)) -> exists v, P v.
Proof. intros A B P [a [b H]]. exists (a, b). exact H. Qed.
Lemma every_instruction : forall T (a : PlainValue T), exists v, a = instruction T v.
Proof.
  intros T a. destruct T; destruct a;
    match goal with |- @ex ?t _ => let t' := eval vm_compute in t in change t with t' end;
    repeat (apply some_pair; eexists); (exists tt; reflexivity).
Qed.
