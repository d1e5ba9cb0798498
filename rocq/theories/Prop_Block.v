(** Property theorems about the interface for authors of extended instruction sets, C94.  The vocabulary of the statements is in
    Spec_Block; MemoryBlock models the methods and the code that uses them. *)
From Verif Require Import Base Types Ops ReadErr ReadBase ReadOperands ExtSet ReadOps Reader Glsl450 MemoryBlock Spec_Wire Spec_Block Samples Prop_Reader
  Proofs_Block Proofs_Block2 Proofs_Block3.

(** Code that gets a block of words is handed the words in order, and what it leaves are the words it was not handed. *)
Theorem C94_exact : forall A (p : Program A) ws r, run p ws = r <->
  exists es rest answer, does p es answer /\ happens ws es /\ ws = words_of es ++ rest /\ r = (let! a := answer in Ok (rest, a)).
Proof. exact run_exact. Qed.
Print Assumptions C94_exact.

(** If the sets are such code, then the words of each extended instruction of a module that was read are exactly the words that were
    handed to the code of the imported set, in this order, until it finished with this instruction. *)
Theorem C94_extended_instructions : forall E (known : list (ExtInstSet E)) (program : ExtInstSet E -> N -> Program E) data m before op after,
  (forall s n ws, In s known -> duplicate s n ws = run (program s n) ws) ->
  read_module data known = Ok m -> RawModule_instructions m = before ++ Core_OpExtInst op :: after ->
  exists s number es, In s known
    /\ In (Core_OpExtInstImport (Build_OpExtInstImport (OpExtInst_set op) (get_name s))) before
    /\ does (program s number) es (Ok (OpExtInst_instruction op)) /\ happens (words_of es) es
    /\ exists o ws1 ws2, data = bytes_of_words o (ws1
         ++ instruction_words 12 ([OpExtInst_result_type op; OpExtInst_result_id op; OpExtInst_set op; number] ++ words_of es) ++ ws2).
Proof. exact extended_sessions. Qed.
Print Assumptions C94_extended_instructions.

(** With sets whose code always returns, read_module always returns. *)
Theorem C94_returns : forall E (known : list (ExtInstSet E)) (program : ExtInstSet E -> N -> Program E) data,
  (forall s n ws, In s known -> duplicate s n ws = run (program s n) ws) -> (forall s n, In s known -> returning (program s n)) ->
  (exists m, read_module data known = Ok m) \/ (exists e, read_module data known = Err e).
Proof. exact returning_sets. Qed.
Print Assumptions C94_returns.

(** The readers that the crate offers are no different: none of them does what a user's code could not do. *)
Theorem C94_operand_readers : writable read_u32 /\ writable read_OpId /\ writable read_ResultId /\ writable read_LitString /\ writable read_SourceVersion
  /\ writable read_MemberIndex /\ writable read_SourceLanguage /\ writable read_AddressingModel /\ writable read_MemoryModel
  /\ writable read_ExecutionModel /\ writable read_ExecutionMode /\ writable read_Capability /\ writable read_Signedness /\ writable read_Dim
  /\ writable read_DepthStatus /\ writable read_Arrayed /\ writable read_MS /\ writable read_SampledStatus /\ writable read_ImageFormat
  /\ writable read_AccessQualifier /\ writable read_StorageClass /\ writable read_BuiltIn /\ writable read_FunctionParameterAttribute
  /\ writable read_FpRoundingMode /\ writable read_LinkageType /\ writable read_FunctionControl /\ writable read_MemoryAccess
  /\ writable read_FpFastMathMode /\ writable read_Decoration /\ writable read_LoopControl /\ writable read_SelectionControl
  /\ writable read_BranchWeights /\ writable read_PhiArg.
Proof. exact all_readers. Qed.
Print Assumptions C94_operand_readers.

Theorem C94_generic_readers : forall A size (read : Reader A), writable read -> writable (read_Option read) /\ writable (read_Vec size read).
Proof. intros A size read W. split; [exact (writable_option A read W)|exact (writable_vec A size read W)]. Qed.
Print Assumptions C94_generic_readers.

Theorem C94_instruction_readers : forall E op wc (read : CoreReader (E := E)), dispatch op wc = Ok read -> op <> 11%N -> op <> 12%N ->
  exists p, forall ws known bound, read ws known bound = (let! (rest, i) := run p ws in Ok (rest, i, bound)).
Proof. exact dispatched_code. Qed.
Print Assumptions C94_instruction_readers.

(** A list of items of at least four bytes ([size] is the size_of the item) takes all the words.  Any reader of items does one
    of the things that [items_then] lists. *)
Theorem C94_lists : forall A size (read : Reader A), (4 <= size)%N -> writable read ->
  (forall ws items stop, items_then read ws items stop ->
     read_Vec size read ws = match stop with None => Ok ([], items) | Some f => fail f end)
  /\ forall ws, exists items stop, items_then read ws items stop.
Proof. exact vec_exact. Qed.
Print Assumptions C94_lists.

(** Lists of smaller items panic, even if there are no words. *)
Theorem C94_lists_of_small_items : forall A size (read : Reader A) ws, (size < 4)%N -> read_Vec size read ws = Panic.
Proof. exact vec_panics. Qed.
Print Assumptions C94_lists_of_small_items.

(** GLSL.std.450 as such code, which returns.  A set that reads a count and then that many words, unless something else remains: the block of
    a right and of a wrong instruction. *)
Definition glsl_program (n : N) : Program Inst :=
  match n with
  | 13%N => Read_op_id Returns_error (fun x => Finish (Inst_Sin (Build_Sin x)))
  | 14%N => Read_op_id Returns_error (fun x => Finish (Inst_Cos (Build_Cos x)))
  | _ => Give_up (Returns_error (UnknownExtInstOp glsl450_name n))
  end.
Example C94_example_glsl : (forall n ws, duplicate InstSet n ws = run (glsl_program n) ws) /\ (forall n, returning (glsl_program n))
  /\ exists before op after, RawModule_instructions sample = before ++ Core_OpExtInst op :: after.
Proof.
  assert (X : forall (P : N -> Prop), P 13%N -> P 14%N -> (forall n, n <> 13%N -> n <> 14%N -> P n) -> forall n, P n).
  { intros P H1 H2 H3 n. destruct (N.eq_dec n 13) as [->|]; [exact H1|]. destruct (N.eq_dec n 14) as [->|]; [exact H2|]. apply H3; assumption. }
  split; [|split; [|exists (firstn 11 sample_instructions); eexists _, _; reflexivity]].
  - intro n. pattern n. apply X; [intros [|w ws]; reflexivity|intros [|w ws]; reflexivity|]. clear n. intros n N1 N2 ws.
    destruct n as [|p]; [reflexivity|]. do 5 (destruct p as [p|p|]; try reflexivity; try congruence).
  - intro n. pattern n. apply X; try (constructor; [eexists; reflexivity|intro; constructor]). clear n. intros n N1 N2.
    assert (glsl_program n = Give_up (Returns_error (UnknownExtInstOp glsl450_name n))) as ->; [|constructor].
    destruct n as [|p]; [reflexivity|]. do 5 (destruct p as [p|p|]; try reflexivity; try congruence).
Qed.
Definition counted : Program (list N) :=
  Read_word Returns_error (fun n => Ask_remaining (fun left =>
    if Nat.eqb left (N.to_nat n) then Read_word (fun _ => Panics) (fun a => Read_word (fun _ => Panics) (fun b => Ask_end (fun e => if e then Finish [a; b] else Give_up Panics)))
    else Give_up (Returns_error UnexpectedEndOfInstruction))).
Example C94_example_counted : run counted [2; 7; 8]%N = Ok ([], [7; 8]%N) /\ run counted [2; 7; 8; 9]%N = Err UnexpectedEndOfInstruction
  /\ does counted [Got 2; Told_remaining 2; Got 7; Got 8; Told_end true]%N (Ok [7; 8]%N)
  /\ happens [2; 7; 8]%N [Got 2; Told_remaining 2; Got 7; Got 8; Told_end true]%N.
Proof.
  split; [reflexivity|]. split; [reflexivity|]. split; [repeat constructor|]. split; [exists []; reflexivity|].
  intros before e after H. do 5 (destruct before as [|? before]; [injection H as <- <-; cbn; intuition congruence|injection H as <- H]).
  destruct before; discriminate.
Qed.
(** A list of pairs, a pair that is incomplete, and items without words, which are read for ever. *)
Example C94_example_lists : items_then read_PhiArg [1; 2; 3; 4]%N [Build_PhiArg 1 2; Build_PhiArg 3 4]%N None
  /\ items_then read_PhiArg [1; 2; 3]%N [Build_PhiArg 1 2]%N (Some (Returns_error UnexpectedEndOfInstruction))
  /\ items_then (fun ws => Ok (ws, tt)) [1]%N [] (Some Hangs) /\ writable (fun ws => Ok (ws, tt)).
Proof.
  split; [|split; [|split]].
  - apply items_next with (used := [1; 2]%N) (rest := [3; 4]%N); try reflexivity; [discriminate|].
    apply items_next with (used := [3; 4]%N) (rest := []); try reflexivity; [discriminate|constructor].
  - apply items_next with (used := [1; 2]%N) (rest := [3]%N); try reflexivity; [discriminate|]. apply items_error; [discriminate|reflexivity].
  - apply items_stuck with (x := tt); [discriminate|reflexivity].
  - exists (Finish tt). reflexivity.
Qed.
