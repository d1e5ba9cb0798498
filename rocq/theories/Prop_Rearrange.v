(** C133: Files made of the instructions of another file. *)
From Verif Require Import Base Types Ops Reader ExtSet Glsl450 Spec_Wire Spec_Operands Spec_Layout Spec_Rearrange Samples Proofs_Rearrange.

(** Instructions taken from a file that was read, in any order, with some left out and some repeated, can be read again exactly if each extended instruction comes after the import of its set and no two imports have the same id. *)
Theorem C133_rearranged : forall E (known : list (ExtInstSet E)) data m, read_module data known = Ok m -> forall is, incl is (RawModule_instructions m) ->
  (can_be_read known m is <-> imports_first is /\ imports_differ is).
Proof. intros E known. exact (rearranged known). Qed.
Print Assumptions C133_rearranged.

(** One instruction can be left out exactly if it is not the import of the set of an extended instruction behind it. *)
Theorem C133_remove : forall E (known : list (ExtInstSet E)) data m, read_module data known = Ok m ->
  forall before i behind, RawModule_instructions m = before ++ i :: behind ->
  (can_be_read known m (before ++ behind) <-> forall j, In j behind -> ~ imports_for i j).
Proof. intros E known. exact (remove_one known). Qed.
Print Assumptions C133_remove.

(** Two neighbours can change places exactly if the first is not the import of the set of the second. *)
Theorem C133_swap : forall E (known : list (ExtInstSet E)) data m, read_module data known = Ok m ->
  forall before i j behind, RawModule_instructions m = before ++ i :: j :: behind ->
  (can_be_read known m (before ++ j :: i :: behind) <-> ~ imports_for i j).
Proof. intros E known. exact (swap_two known). Qed.
Print Assumptions C133_swap.

(** Not every selection can be read. *)
Theorem C133_selection_refuted : ~ (forall E (known : list (ExtInstSet E)) data m, read_module data known = Ok m ->
  forall is, incl is (RawModule_instructions m) -> can_be_read known m is).
Proof. exact not_any_selection. Qed.
Print Assumptions C133_selection_refuted.

(** The sine of the sample can be read directly after its import, twice, but not without it. *)
Example C133_example : let import := Core_OpExtInstImport (Build_OpExtInstImport 1%N "GLSL.std.450"%string) in
  let sine := Core_OpExtInst (Build_OpExtInst 4%N 7%N 1%N (Inst_Sin (Build_Sin 8%N))) in
  read_module (sample_bytes LittleEndian) [InstSet] = Ok sample
  /\ incl [import; sine; sine] (RawModule_instructions sample) /\ imports_first [import; sine; sine] /\ imports_differ [import; sine; sine]
  /\ can_be_read [InstSet] sample [import; sine; sine] /\ imports_for import sine /\ ~ can_be_read [InstSet] sample [sine].
Proof.
  intros import sine. split; [apply sample_read|].
  assert (I : incl [import; sine; sine] (RawModule_instructions sample)).
  { intros x [<-|[<-|[<-|[]]]]; cbn; repeat (first [left; reflexivity | right]). }
  assert (F : imports_first [import; sine; sine]).
  { intros before op behind Q. exists "GLSL.std.450"%string. destruct before as [|? [|? [|? [|? ?]]]]; cbn in Q; inversion Q; subst; left; reflexivity. }
  assert (D : imports_differ [import; sine; sine]). { unfold imports_differ. cbn. constructor; [intros []|constructor]. }
  split; [exact I|]. split; [exact F|]. split; [exact D|].
  split; [apply (C133_rearranged _ _ _ _ (sample_read LittleEndian) _ I); split; assumption|].
  split; [do 2 eexists; split; [reflexivity|]; split; reflexivity|].
  intros H. apply (C133_rearranged _ _ _ _ (sample_read LittleEndian)) in H; [|intros x [<-|[]]; apply I; right; left; reflexivity].
  destruct H as [H _]. destruct (H [] _ [] eq_refl) as [name []].
Qed.
