(** Sets and instructions that write down when they go, C119. *)
From Verif Require Import Base Types Ops ReadErr ExtSet Reader ReaderState HashTable ReaderOwned Glsl450 Spec_Wire Spec_Calls Spec_Drop Samples.

(* the world: how many copies there are, and what has gone *)
Definition lives := (nat * list (drop nat Inst))%type.
(* set 2 has another name; copies are numbered from 100 *)
Definition living : SetMethods nat Inst lives := {|
  call_get_name := fun s w => (Some (if Nat.eqb s 2 then "Other"%string else get_name InstSet), w);
  call_duplicate := fun s w => (Some (100 + fst w)%nat, (S (fst w), snd w));
  call_read_instruction := fun s n ws w => (duplicate InstSet n ws, w)
|}.
Definition mourning : Drops nat Inst lives := {|
  drop_set := fun s w => (fst w, snd w ++ [DropSet s]);
  drop_instruction := fun x w => (fst w, snd w ++ [DropInstruction x])
|}.

(* the last bits of a number, in a table with as many buckets as there will be entries *)
Definition by_number : Hashing := Build_Hashing (Build_Hasher N 0%N (fun n _ => n) (fun s => s)) (fun _ _ => 7%nat).
Definition backwards : Hashing := Build_Hashing (Build_Hasher N 0%N (fun n _ => 7 - n)%N (fun s => s)) (fun _ _ => 7%nat).

(* the sample, with another import at the end *)
Definition imports_at_end (ids : list N) : list ascii :=
  encode_module LittleEndian (Build_RawModule (Build_Version 1 0) (Build_Generator (Tool_Other 77) 3) 11
    (sample_instructions ++ map (fun id => Core_OpExtInstImport (Build_OpExtInstImport id "GLSL.std.450"%string)) ids)) sample_payloads.

(* read in this way, these objects go in this order *)
Definition gone (hashing : Hashing) (ids : list N) : bool * list (drop nat Inst) :=
  let '(r, (_, ds)) := read_module_owned living mourning hashing (imports_at_end ids) [2; 5]%nat (0, [])%nat in
  (match r with Ok _ => true | _ => false end, ds).

Lemma order_varies : exists (methods : SetMethods nat Inst lives) drops h1 h2 data known w,
  snd (read_module_owned methods drops h1 data known w) <> snd (read_module_owned methods drops h2 data known w).
Proof.
  exists living, mourning, by_number, backwards, (imports_at_end [3; 2]%N), [2; 5]%nat, (0, [])%nat.
  intros H. vm_compute in H. discriminate H.
Qed.
