(** C134: Putting valid files together and taking them apart. *)
From Verif Require Import Base Types Ops Groups Reader ExtSet Validate Glsl450 Spec_Wire Spec_Order Spec_Link Samples Proofs_Link.

(** Two files that are read and accepted can be put together, part by part, to a file that is read and accepted exactly if their imports have different ids. *)
Theorem C134_link : forall E (known : list (ExtInstSet E)) a b, has_file known a -> has_file known b ->
  (has_file known (link a b) <-> imports_apart a b).
Proof. intros E known. exact (linked known). Qed.
Print Assumptions C134_link.

(** What is taken from the parts of a file that is read and accepted, in any order and number, makes such a file exactly if the first function of the definitions has a body, the sets of
    the extended instructions taken are imported and the imports taken have different ids. *)
Theorem C134_take : forall E (known : list (ExtInstSet E)) a b, has_file known a -> taken_from a b ->
  (has_file known b <-> first_has_body b /\ sets_imported b /\ import_ids_differ b).
Proof. intros E known. exact (taken known). Qed.
Print Assumptions C134_take.

(** Not all files can be put together. *)
Theorem C134_link_refuted : ~ (forall E (known : list (ExtInstSet E)) a b, has_file known a -> has_file known b -> has_file known (link a b)).
Proof. exact not_with_itself. Qed.
Print Assumptions C134_link_refuted.

(** The sample and a module that imports the same set with another id; and the sample without its function and its import. *)
Example C134_example : exists a b c, validate sample = Ok a /\ has_file [InstSet] a /\ has_file [InstSet] b /\ imports_apart a b /\ has_file [InstSet] (link a b)
  /\ LogicalModule_ext_inst_imports (link a b) = [Build_OpExtInstImport 1%N "GLSL.std.450"%string; Build_OpExtInstImport 20%N "GLSL.std.450"%string]
  /\ taken_from a c /\ first_has_body c /\ sets_imported c /\ import_ids_differ c /\ has_file [InstSet] c
  /\ LogicalModule_ext_inst_imports c = [] /\ LogicalModule_globals c = LogicalModule_globals a.
Proof.
  set (other := Build_RawModule (Build_Version 1%N 0%N) (Build_Generator (Tool_Other 77%N) 3%N) 21%N
    [Core_OpExtInstImport (Build_OpExtInstImport 20%N "GLSL.std.450"%string); Core_OpMemoryModel (Build_OpMemoryModel AddressingModel_Logical MemoryModel_Glsl450)] : RawModule Inst).
  assert (A : exists a, validate sample = Ok a) by (eexists; vm_compute; reflexivity). destruct A as [a A].
  assert (B : exists b, validate other = Ok b) by (eexists; vm_compute; reflexivity). destruct B as [b B].
  assert (FA : has_file [InstSet] a) by (exists (sample_bytes LittleEndian), sample; split; [apply sample_read|exact A]).
  assert (FB : has_file [InstSet] b) by (exists (encode_module LittleEndian other []), other; split; [vm_compute; reflexivity|exact B]).
  exists a, b, (Build_LogicalModule (LogicalModule_capabilities a) [] [] (LogicalModule_memory_model a) [] [] [] (LogicalModule_annotations a) (LogicalModule_globals a) [] []).
  vm_compute in A. injection A as <-. vm_compute in B. injection B as <-.
  match goal with |- context [imports_apart ?a ?b] => assert (P : imports_apart a b) by (intros x y [<-|[]] [<-|[]]; discriminate) end.
  match goal with |- context [taken_from ?a ?b] => assert (T : taken_from a b) by (constructor; cbn; first [reflexivity | apply incl_refl | apply incl_nil_l]) end.
  split; [vm_compute; reflexivity|]. split; [exact FA|]. split; [exact FB|]. split; [exact P|]. split; [exact (proj2 (C134_link _ _ _ _ FA FB) P)|].
  split; [reflexivity|]. split; [exact T|]. split; [exact I|].
  match goal with |- sets_imported ?c /\ _ => assert (S : sets_imported c) by (intros f k x []) end. split; [exact S|].
  match goal with |- import_ids_differ ?c /\ _ => assert (D : import_ids_differ c) by constructor end. split; [exact D|].
  split; [exact (proj2 (C134_take _ _ _ _ FA T) (conj I (conj S D)))|]. split; reflexivity.
Qed.
