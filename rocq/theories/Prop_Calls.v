(** Property theorems about the calls read_module makes to the extended instruction sets, C83.  The vocabulary of the
    statements is in Spec_Calls; ReaderState models the reader with sets whose methods have side effects. *)
From Verif Require Import Base Types Ops ReadErr ExtSet Reader ReaderState Spec_Wire Spec_Operands Spec_Calls Samples Glsl450 Proofs_Calls.

(** ** C83 *)
(** The result and the side effects are exactly those of the prescribed conversation. *)
Theorem C83_exact_conversation : forall Obj E W (methods : SetMethods Obj E W) data known w r w',
  read_module_in methods data known w = (r, w') <-> exists calls, answered methods w calls w' /\ module_calls known data calls r.
Proof. exact @module_exact. Qed.
Print Assumptions C83_exact_conversation.

(** On success, the extended instructions of the module are the answers, in order, and no answer is dropped. *)
Theorem C83_one_request_per_instruction : forall Obj E W (methods : SetMethods Obj E W) data known w m w',
  read_module_in methods data known w = (Ok m, w') ->
  exists calls, answered methods w calls w' /\ module_calls known data calls (Ok m)
    /\ asked_instructions calls = map (fun x => Ok ([], x)) (extended_of (RawModule_instructions m)).
Proof. exact @module_asked. Qed.
Print Assumptions C83_one_request_per_instruction.

(** A module without imports never touches the sets. *)
Theorem C83_no_import_no_call : forall Obj E W (methods : SetMethods Obj E W) data known w m w',
  read_module_in methods data known w = (Ok m, w') -> imports_of (RawModule_instructions m) = [] -> w' = w.
Proof. exact @module_untouched. Qed.
Print Assumptions C83_no_import_no_call.

(** The reader itself does not panic: if it does, the last thing it did was a call that panicked. *)
Theorem C83_panics_come_from_sets : forall Obj E W (methods : SetMethods Obj E W) data known w w',
  read_module_in methods data known w = (Panic, w') -> exists calls c, answered methods w (calls ++ [c]) w' /\ panicked c.
Proof. exact @module_panic. Qed.
Print Assumptions C83_panics_come_from_sets.

(** If the answers do not depend on the world, the result is the one that the other theorems about read_module are about. *)
Theorem C83_answers_decide : forall Obj E W (methods : SetMethods Obj E W) (name : Obj -> string) (copy : Obj -> Obj)
    (answer : Obj -> N -> list N -> outcome ReadError (list N * E)),
  (forall s w, fst (call_get_name methods s w) = Some (name s)) ->
  (forall s w, fst (call_duplicate methods s w) = Some (copy s)) ->
  (forall s n ws w, fst (call_read_instruction methods s n ws w) = answer s n ws) ->
  forall data known w,
  fst (read_module_in methods data known w) = read_module data (map (fun s => Build_ExtInstSet (name s) (answer (copy s))) known).
Proof. exact @stateless_module. Qed.
Print Assumptions C83_answers_decide.

(** Two sets: one with another name, one that is GLSL.std.450 and has a use counter.  A copy is marked by an odd number. *)
Definition counting : SetMethods nat Inst nat := {|
  call_get_name := fun s w => (Some (if Nat.ltb s 10 then "Other"%string else get_name InstSet), S w);
  call_duplicate := fun s w => (Some (S s), S w);
  call_read_instruction := fun s n ws w => (if Nat.odd s then duplicate InstSet n ws else Panic, S w)
|}.
Example C83_example : forall o, read_module_in counting (sample_bytes o) [2; 10] 0 = (Ok sample, 4).
Proof. intros []; vm_compute; reflexivity. Qed.
Example C83_example_calls : exists answer, answered counting 0
  [AskName 2 (Some "Other"%string); AskName 10 (Some "GLSL.std.450"%string); AskCopy 10 (Some 11); AskInstruction 11 13 [8%N] answer] 4
  /\ map (fun x => Ok ([], x)) (extended_of (RawModule_instructions sample)) = [answer].
Proof.
  eexists. split; [|reflexivity].
  repeat first [apply answered_nil | eapply answered_name; [vm_compute; reflexivity|] | eapply answered_copy; [vm_compute; reflexivity|]
    | eapply answered_instruction; [vm_compute; reflexivity|]].
Qed.
(** A set that answers only once: its answers depend on the world, and so does the module's fate. *)
Definition once : SetMethods unit Inst nat := {|
  call_get_name := fun _ w => (Some (get_name InstSet), w);
  call_duplicate := fun s w => (Some s, w);
  call_read_instruction := fun _ n ws w => match w with O => (Panic, w) | S w => (duplicate InstSet n ws, w) end
|}.
Example C83_example_once : forall o,
  read_module_in once (sample_bytes o) [tt] 1 = (Ok sample, 0) /\ read_module_in once (sample_bytes o) [tt] 0 = (Panic, 0).
Proof. intros []; split; vm_compute; reflexivity. Qed.
(** The empty module leaves even sets that panic alone. *)
Example C83_example_untouched : forall o, read_module_in once (empty_bytes o) [tt] 0 = (Ok empty_module, 0)
  /\ imports_of (RawModule_instructions empty_module) = [].
Proof. intros []; split; vm_compute; reflexivity. Qed.
