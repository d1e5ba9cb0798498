(** Property theorems about what the results do not depend on, C84 to C86: the order of the extended instruction sets, the
    numbering of the ids, and blocks that are not reached.  The vocabulary of the statements is in Spec_Invariance. *)
From Coq Require Import Lia Permutation.
From Verif Require Import Base Types Ops ReadErr ExtSet Reader Glsl450 Groups ControlFlow Spec_Wire Spec_Operands Spec_Flow Spec_Invariance
  Samples Samples_Flow Proofs_Invariance.

(** ** C84 *)
(** Of several sets of the same name the first counts; nothing else about the list matters. *)
Theorem C84_first_of_each_name : forall E (known1 known2 : list (ExtInstSet E)),
  (forall name r, set_named known1 name r <-> set_named known2 name r) ->
  forall data, read_module data known1 = read_module data known2.
Proof. exact @known_sets. Qed.
Print Assumptions C84_first_of_each_name.

Theorem C84_order_is_irrelevant : forall E (known1 known2 : list (ExtInstSet E)), Permutation known1 known2 -> NoDup (map get_name known1) ->
  forall data, read_module data known1 = read_module data known2.
Proof. exact @known_order. Qed.
Print Assumptions C84_order_is_irrelevant.

(** What is accepted depends on no set that is not imported... *)
Theorem C84_only_imported : forall E (known1 known2 : list (ExtInstSet E)) data m, read_module data known1 = Ok m ->
  (forall op r, In op (imports_of (RawModule_instructions m)) ->
    set_named known1 (OpExtInstImport_name op) r -> set_named known2 (OpExtInstImport_name op) r) ->
  read_module data known2 = Ok m.
Proof. exact @accepted_sets. Qed.
Print Assumptions C84_only_imported.

(** ...and more sets at the end of the list do no harm. *)
Theorem C84_more_sets : forall E (known more : list (ExtInstSet E)) data m,
  read_module data known = Ok m -> read_module data (known ++ more) = Ok m.
Proof. exact @more_sets. Qed.
Print Assumptions C84_more_sets.

Definition silent (name : string) : ExtInstSet Inst := Build_ExtInstSet name (fun _ _ => Panic).
Example C84_example : forall o, read_module (sample_bytes o) [InstSet; silent "a"] = Ok sample
  /\ read_module (sample_bytes o) [silent "a"; InstSet] = Ok sample /\ NoDup (map get_name [silent "a"; InstSet])
  /\ read_module (sample_bytes o) [InstSet; silent (get_name InstSet)] = Ok sample
  /\ read_module (sample_bytes o) [silent (get_name InstSet); InstSet] = Panic.
Proof.
  intro o. repeat split; try (destruct o; vm_compute; reflexivity).
  repeat constructor; cbn; intuition discriminate.
Qed.
(** Sets that differ only in what is not consulted. *)
Example C84_met : (forall name r, set_named [InstSet] name r <-> set_named [InstSet; silent (get_name InstSet)] name r)
  /\ Permutation [InstSet; silent "a"] [silent "a"; InstSet]
  /\ (forall op r, In op (imports_of (RawModule_instructions sample)) -> set_named [InstSet] (OpExtInstImport_name op) r ->
      set_named [silent "a"; InstSet] (OpExtInstImport_name op) r).
Proof.
  split; [|split; [constructor|]].
  - intros name r. split.
    + intros (before & s & after & K & N & F & R). destruct before as [|s0 [|s1 before]]; cbn in K; try discriminate K.
      injection K as K1 K2. subst s after. exists [], InstSet, [silent (get_name InstSet)]. repeat split; assumption || constructor.
    + intros (before & s & after & K & N & F & R). destruct before as [|s0 [|s1 [|s2 before]]]; cbn in K; try discriminate K.
      * injection K as K1 K2. subst s after. exists [], InstSet, []. repeat split; assumption || constructor.
      * injection K as K1 K2 K3. subst s0 s after. exfalso. inversion F as [|? ? F1 _]. apply F1. rewrite <- N. reflexivity.
  - intros op r H (before & s & after & K & N & F & R). destruct before as [|s0 [|s1 before]]; cbn in K; try discriminate K.
    injection K as K1 K2. subst s after. exists [silent "a"], InstSet, []. split; [reflexivity|]. split; [exact N|]. split; [|exact R].
    constructor; [|constructor]. rewrite <- N. discriminate.
Qed.

(** ** C85 *)
(** A function with the same blocks under other names gets the same result under other names, whatever it is. *)
Theorem C85_numbering_is_irrelevant : forall E1 E2 r (f : FunctionDefinition E1) (f' : FunctionDefinition E2),
  map skeleton (FunctionDefinition_blocks f') = map (rename_skeleton r) (map skeleton (FunctionDefinition_blocks f)) ->
  (forall a b, In a (mentioned f) -> In b (mentioned f) -> r a = r b -> a = b) ->
  forall depth, find_control_flow depth f' = rename_result r (find_control_flow depth f).
Proof. exact @find_rename. Qed.
Print Assumptions C85_numbering_is_irrelevant.

(** The loop of the examples with its ids reversed. *)
Definition reversed (id : N) : N := (100 - id)%N.
Definition reversed_block (b : BasicBlock Inst) : BasicBlock Inst :=
  let s := rename_skeleton reversed (skeleton b) in simple_block (fst (fst s)) (snd (fst s)) (snd s).
Definition reversed_function : FunctionDefinition Inst := function_of (map reversed_block loop_blocks).
Example C85_example :
  map skeleton (FunctionDefinition_blocks reversed_function) = map (rename_skeleton reversed) (map skeleton (FunctionDefinition_blocks loop_function))
  /\ (forall a b, In a (mentioned loop_function) -> In b (mentioned loop_function) -> reversed a = reversed b -> a = b)
  /\ find_control_flow 100 loop_function = Ok loop_chain
  /\ find_control_flow 100 reversed_function = Ok (rename_chain reversed loop_chain)
  /\ rename_chain reversed loop_chain <> loop_chain.
Proof.
  split; [reflexivity|]. split.
  { intros a b Ha Hb. assert (X : forall c, In c (mentioned loop_function) -> (c <= 100)%N).
    { apply Forall_forall. vm_compute. repeat constructor; discriminate. }
    apply X in Ha, Hb. unfold reversed. lia. }
  split; [vm_compute; reflexivity|]. split; [vm_compute; reflexivity|]. vm_compute. discriminate.
Qed.
(** If the renaming joins two blocks the result is another one. *)
Example C85_example_joined : find_control_flow 100 (function_of [simple_block 9%N None (branch_to 10%N); simple_block 10%N None (GroupBranch_OpReturn Build_OpReturn)])
    = Ok (Block [Atom 9%N; Atom 10%N])
  /\ find_control_flow 100 (function_of [simple_block 9%N None (branch_to 9%N); simple_block 9%N None (GroupBranch_OpReturn Build_OpReturn)]) = Err (DuplicateBlockId 9%N).
Proof. split; vm_compute; reflexivity. Qed.

(** ** C86 *)
(** The first block is where the function starts.  The others may be in any order, and there may be more of them, unless one
    of those was missed. *)
Theorem C86_further_blocks : forall E (f f' : FunctionDefinition E) first rest rest' more,
  FunctionDefinition_blocks f = first :: rest -> FunctionDefinition_blocks f' = first :: rest' -> Permutation rest' (rest ++ more) ->
  NoDup (labels f') ->
  forall depth, (forall id, find_control_flow depth f = Err (UnknownBlockId id) -> ~ In id (map label_of more)) ->
  find_control_flow depth f' = find_control_flow depth f.
Proof. exact @find_more. Qed.
Print Assumptions C86_further_blocks.

(** Only blocks the chain names matter for the chain. *)
Theorem C86_only_named_blocks : forall E E' (f : FunctionDefinition E) (f' : FunctionDefinition E') chain,
  returns f (Ok chain) -> NoDup (labels f') -> (forall id, entry f id -> entry f' id) ->
  (forall b, In b (FunctionDefinition_blocks f) -> In (label_of b) (chain_ids chain) -> In (skeleton b) (map skeleton (FunctionDefinition_blocks f'))) ->
  returns f' (Ok chain).
Proof. exact @only_named. Qed.
Print Assumptions C86_only_named_blocks.

(** The blocks of the loop in another order, with one that nothing refers to. *)
Definition shuffled_blocks : list (BasicBlock Inst) :=
  match loop_blocks with
  | first :: rest => first :: simple_block 77%N None (branch_to 9%N) :: rev rest
  | [] => []
  end.
Example C86_example : NoDup (labels (function_of shuffled_blocks))
  /\ Permutation (tl shuffled_blocks) (tl loop_blocks ++ [simple_block 77%N None (branch_to 9%N)])
  /\ find_control_flow 100 (function_of shuffled_blocks) = Ok loop_chain /\ find_control_flow 100 loop_function = Ok loop_chain.
Proof.
  repeat split; try (vm_compute; reflexivity).
  - vm_compute. repeat constructor; cbn; intuition discriminate.
  - change (tl shuffled_blocks) with (simple_block 77%N None (branch_to 9%N) :: rev (tl loop_blocks)).
    rewrite <- Permutation_cons_append. constructor. symmetry. apply Permutation_rev.
Qed.
(** With other code in the blocks, in another order and with further blocks: the chain is the same. *)
Example C86_named_met : returns loop_function (Ok loop_chain) /\ NoDup (labels (function_of shuffled_blocks))
  /\ (forall id, entry loop_function id -> entry (function_of shuffled_blocks) id)
  /\ (forall b, In b (FunctionDefinition_blocks loop_function) -> In (label_of b) (chain_ids loop_chain) ->
      In (skeleton b) (map skeleton (FunctionDefinition_blocks (function_of shuffled_blocks)))).
Proof.
  split; [split; [discriminate|exists 100; vm_compute; reflexivity]|].
  split; [vm_compute; repeat constructor; cbn; intuition discriminate|].
  split; [intros id (b & rest & H & L); injection H as H1 _; subst b; eexists _, (tl shuffled_blocks); split; [reflexivity|exact L]|].
  intros b H _. apply in_map. cbn in H |- *. tauto.
Qed.
(** An added block that was missed does matter. *)
Example C86_example_missed :
  find_control_flow 100 (function_of [simple_block 9%N None (branch_to 10%N)]) = Err (UnknownBlockId 10%N)
  /\ find_control_flow 100 (function_of [simple_block 9%N None (branch_to 10%N); simple_block 10%N None (GroupBranch_OpReturn Build_OpReturn)]) = Ok (Block [Atom 9%N; Atom 10%N]).
Proof. split; vm_compute; reflexivity. Qed.
