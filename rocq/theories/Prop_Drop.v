(** Property theorems about the objects of the user that read_module owns, C119.  The vocabulary of the statements is in
    Spec_Calls and Spec_Drop; ReaderOwned models the reader with the drops. *)
From Coq Require Import Permutation.
From Verif Require Import Base Types Ops ReadErr ExtSet Reader ReaderState HashTable ReaderOwned Glsl450 Spec_Wire Spec_Calls Spec_Drop
  Samples Samples_Drop Proofs_Drop.

(** ** C119 *)
(** First the conversation of C83, and after it the drops: the copies in some order and then the known sets in their order,
    and the extended instructions if they are not returned. *)
Theorem C119_each_once : forall Obj E W (methods : SetMethods Obj E W) (drops : Drops Obj E W) hashing data known w r w',
  read_module_owned methods drops hashing data known w = (r, w') ->
  exists calls w1 ds copies,
    answered methods w calls w1 /\ module_calls known data calls r
    /\ w' = after_drops drops ds w1
    /\ sets_dropped ds = copies ++ known /\ Permutation copies (copies_made calls)
    /\ match r with
       | Ok m => instructions_dropped ds = [] /\ instructions_made calls = extended_of (RawModule_instructions m)
       | _ => Permutation (instructions_dropped ds) (instructions_made calls)
       end.
Proof. exact @module_drops. Qed.
Print Assumptions C119_each_once.

(** The drops have no influence on the result. *)
Theorem C119_result : forall Obj E W (methods : SetMethods Obj E W) (drops : Drops Obj E W) hashing data known w,
  fst (read_module_owned methods drops hashing data known w) = fst (read_module_in methods data known w).
Proof. exact @owned_result. Qed.
Print Assumptions C119_result.

(** The copies do not go in the order in which they were made: that depends on the hash function. *)
Theorem C119_order_refuted : exists (methods : SetMethods nat Inst lives) drops h1 h2 data known w,
  snd (read_module_owned methods drops h1 data known w) <> snd (read_module_owned methods drops h2 data known w).
Proof. exact order_varies. Qed.
Print Assumptions C119_order_refuted.

(** Reading succeeds; an id is imported again, and the first copy goes at once; an extended instruction goes too. *)
Example C119_example :
  gone by_number [3; 2]%N = (true, [DropSet 100; DropSet 102; DropSet 101; DropSet 2; DropSet 5]%nat)
  /\ gone backwards [3; 2]%N = (true, [DropSet 101; DropSet 102; DropSet 100; DropSet 2; DropSet 5]%nat)
  /\ gone by_number [3; 1]%N
     = (false, [DropSet 100; DropSet 102; DropSet 101; DropInstruction (Inst_Sin (Build_Sin 8%N)); DropSet 2; DropSet 5]%nat).
Proof. repeat split; vm_compute; reflexivity. Qed.
