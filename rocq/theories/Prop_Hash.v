(** Hash maps: C118. *)
From Verif Require Import Base Types Ops Groups ReadErr ExtSet Reader ControlFlow HashTable ControlFlowHash ReaderHash
  Spec_Wire Glsl450 Samples Samples_Flow Spec_Hash Proofs_Hash.

(** ** C118 *)
Theorem C118_keys : forall x y : N,
  (N.eqb x y = true <-> forall h (s : hasher_state h), hash_OpId h x s = hash_OpId h y s)
  /\ (N.eqb x y = true <-> forall h (s : hasher_state h), hash_BlockId h x s = hash_BlockId h y s).
Proof. exact equal_hashes. Qed.
Print Assumptions C118_keys.

Theorem C118_map : forall A hashing hash (l : list (N * A)),
  (forall k, table_get hashing hash k (snd (insert_all hashing hash l table_new)) = last_value k l)
  /\ forall before k v after, l = before ++ (k, v) :: after ->
       nth_error (fst (insert_all hashing hash l table_new)) (List.length before) = Some (last_value k before).
Proof. intros A hashing hash. exact (table_map hashing hash). Qed.
Print Assumptions C118_map.

Theorem C118_reader : forall E hashing data (known : list (ExtInstSet E)),
  read_module_hashed hashing data known = read_module data known.
Proof. intros E. exact read_module_hashed_ok. Qed.
Print Assumptions C118_reader.

Theorem C118_control_flow : forall E hashing depth (f : FunctionDefinition E),
  find_control_flow_hashed hashing depth f = find_control_flow depth f.
Proof. intros E. exact find_hashed_ok. Qed.
Print Assumptions C118_control_flow.

(* a hasher that keeps the last five bits, with a table that is enlarged at once, and one that
   gives every key the same hash, with a table that is enlarged and shrunk all the time *)
Definition few_bits : Hashing :=
  Build_Hashing (Build_Hasher N 7%N (fun n s => N.modulo (n + s) 32) (fun s => s)) (fun entries _ => (2 * entries)%nat).
Definition one_bucket : Hashing :=
  Build_Hashing (Build_Hasher unit tt (fun _ s => s) (fun _ => 12%N)) (fun _ buckets => (7 - buckets)%nat).

Example C118_example :
  (forall hashing, In hashing [few_bits; one_bucket] ->
    read_module_hashed hashing (sample_bytes LittleEndian) [InstSet] = Ok sample
    /\ find_control_flow_hashed hashing 20 loop_function = Ok loop_chain)
  /\ fst (insert_all one_bucket (hash_OpId _) [(4, "a"); (9, "b"); (4, "c"); (4, "d")]%string%N table_new)
     = [None; None; Some "a"; Some "c"]%string
  /\ snd (insert_all few_bits (hash_OpId _) [(4, "a"); (9, "b"); (4, "c"); (4, "d")]%string%N table_new)
     <> snd (insert_all one_bucket (hash_OpId _) [(4, "a"); (9, "b"); (4, "c"); (4, "d")]%string%N table_new).
Proof.
  split; [|split; [vm_compute; reflexivity|]].
  - intros hashing [<-|[<-|[]]]; split; vm_compute; reflexivity.
  - intros H. vm_compute in H. discriminate H.
Qed.
