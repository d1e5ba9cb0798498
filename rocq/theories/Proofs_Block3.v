(** Modules read with sets written against MemoryBlock, C94. *)
From Verif Require Import Base Types Ops ReadErr ReadBase ExtSet Reader MemoryBlock Spec_Wire Spec_Block Proofs_Facts Proofs_Facts2 Proofs_Block Proofs_Block2.
From Verif Require Prop_Reader.

Lemma extended_sessions : forall E (known : list (ExtInstSet E)) (program : ExtInstSet E -> N -> Program E) data m before op after,
  (forall s n ws, In s known -> duplicate s n ws = run (program s n) ws) ->
  read_module data known = Ok m -> RawModule_instructions m = before ++ Core_OpExtInst op :: after ->
  exists s number es, In s known
    /\ In (Core_OpExtInstImport (Build_OpExtInstImport (OpExtInst_set op) (get_name s))) before
    /\ does (program s number) es (Ok (OpExtInst_instruction op)) /\ happens (words_of es) es
    /\ exists o ws1 ws2, data = bytes_of_words o (ws1
         ++ instruction_words 12 ([OpExtInst_result_type op; OpExtInst_result_id op; OpExtInst_set op; number] ++ words_of es) ++ ws2).
Proof.
  intros E known program data m before op after P R I.
  destruct (Prop_Reader.C12_extended_instruction_resolves E known data m before op after R I) as (name & r & number & words & IM & SN & RD & o & ws1 & ws2 & D & _).
  destruct SN as (b & s & a & K & N1 & _ & ->). assert (IN : In s known) by (rewrite K; apply in_elt).
  rewrite (P s number words IN) in RD. apply run_accepts in RD. destruct RD as (es & DO & H & W). subst words name.
  exists s, number, es. repeat (split; [assumption|]). exists o, ws1, ws2. exact D.
Qed.

Lemma returning_sets : forall E (known : list (ExtInstSet E)) (program : ExtInstSet E -> N -> Program E) data,
  (forall s n ws, In s known -> duplicate s n ws = run (program s n) ws) -> (forall s n, In s known -> returning (program s n)) ->
  (exists m, read_module data known = Ok m) \/ (exists e, read_module data known = Err e).
Proof.
  intros E known program data P R. apply Prop_Reader.C06_reader_returns. intros s n ws IN. rewrite (P s n ws IN). apply returning_run. exact (R s n IN).
Qed.
