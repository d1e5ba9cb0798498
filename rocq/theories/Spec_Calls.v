(** What read_module asks the extended instruction sets it is given, in which order, and how their answers decide the
    result.  Nothing here knows how the sets work or how the reader does. *)
From Verif Require Import Base Types Ops ReadErr ReaderState Spec_Wire Spec_Failure.
Local Open Scope N_scope.

Section Calls.
Context {Obj E : Type}.

(** A call of a method, with its answer ([None]: it panicked). *)
Inductive call : Type :=
| AskName (set : Obj) (answer : option string)
| AskCopy (set : Obj) (answer : option Obj)
| AskInstruction (set : Obj) (number : N) (words : list N) (answer : outcome ReadError (list N * E)).

(** The sets have the names they should not have. *)
Inductive other_names (name : string) : list Obj -> list call -> Prop :=
| no_names : other_names name [] []
| other_name : forall set n sets calls, n <> name -> other_names name sets calls ->
    other_names name (set :: sets) (AskName set (Some n) :: calls).

(** After OpExtInst with this type, result and set, the set gave the answer. *)
Definition accept (type result set : N) (answer : outcome ReadError (list N * E)) : outcome ReadError (Core E) :=
  match answer with
  | Ok ([], x) => Ok (Core_OpExtInst (Build_OpExtInst type result set x))
  | Ok (_ :: _, _) => Err InstructionHadExcessData
  | Err e => Err e
  | Panic => Panic
  | OutOfFuel => OutOfFuel
  end.

(** [instruction_calls known copies op wc body calls copies' r]: reading the instruction with this opcode, word
    count and operand words makes these calls and results in [r].  [copies] are the imported sets so far. *)
Inductive instruction_calls (known : list Obj) (copies : list (N * Obj)) (op word_count : N) (body : list N)
  : list call -> list (N * Obj) -> outcome ReadError (Core E) -> Prop :=
(* no calls for most instructions *)
| plain_accepted : forall i, op <> 11 -> op <> 12 -> opcode i = op -> representable i ->
    wire_operands (operands i) body -> instruction_calls known copies op word_count body [] copies (Ok i)
| plain_rejected : forall e, op <> 11 -> op <> 12 -> instruction_fails (E := E) [] [] op word_count body e ->
    instruction_calls known copies op word_count body [] copies (Err e)
(* imports: the names of the known sets are asked for until one fits, and that set is duplicated *)
| import_malformed : forall e, op = 11 -> scans_instruction 11 body (Fails e) ->
    instruction_calls known copies op word_count body [] copies (Err e)
| import_unknown : forall id name chars rest calls, op = 11 -> body = id :: chars ++ rest -> wire_string name chars -> text name ->
    other_names name known calls -> instruction_calls known copies op word_count body calls copies (Err (UnknownInstSet name))
| import_name_panics : forall id name chars rest before set after calls, op = 11 -> body = id :: chars ++ rest ->
    wire_string name chars -> text name -> known = before ++ set :: after -> other_names name before calls ->
    instruction_calls known copies op word_count body (calls ++ [AskName set None]) copies Panic
| import_copy_panics : forall id name chars rest before set after calls, op = 11 -> body = id :: chars ++ rest ->
    wire_string name chars -> text name -> known = before ++ set :: after -> other_names name before calls ->
    instruction_calls known copies op word_count body (calls ++ [AskName set (Some name); AskCopy set None]) copies Panic
| import_copied : forall id name chars rest before set after calls copy, op = 11 -> body = id :: chars ++ rest ->
    wire_string name chars -> text name -> known = before ++ set :: after -> other_names name before calls ->
    instruction_calls known copies op word_count body (calls ++ [AskName set (Some name); AskCopy set (Some copy)])
      (copies ++ [(id, copy)])
      (if existsb (N.eqb id) (map fst copies) then Err (DuplicateResultId id)
       else match rest with [] => Ok (Core_OpExtInstImport (Build_OpExtInstImport id name)) | _ :: _ => Err InstructionHadExcessData end)
(* extended instructions: the imported copy is asked once *)
| extended_short : op = 12 -> (List.length body < 4)%nat ->
    instruction_calls known copies op word_count body [] copies (Err UnexpectedEndOfInstruction)
| extended_unknown : forall type result set number words, op = 12 -> body = type :: result :: set :: number :: words ->
    ~ In set (map fst copies) -> instruction_calls known copies op word_count body [] copies (Err (UnknownInstSetId set))
| extended_asked : forall type result set number words copy answer, op = 12 -> body = type :: result :: set :: number :: words ->
    In (set, copy) copies ->
    instruction_calls known copies op word_count body [AskInstruction copy number words answer] copies (accept type result set answer).

(** The instructions in [data], words in byte order [o]. *)
Inductive instructions_calls (known : list Obj) (o : byte_order)
  : list (N * Obj) -> list ascii -> list call -> outcome ReadError (list (Core E)) -> Prop :=
| calls_end : forall copies, instructions_calls known o copies [] [] (Ok [])
| calls_partial_word : forall copies rest, (0 < List.length rest < 4)%nat ->
    instructions_calls known o copies rest [] (Err UnexpectedStreamAlignment)
| calls_partial_instruction : forall copies head rest, word head -> (List.length rest < 4 * (N.to_nat (head / 65536) - 1))%nat ->
    instructions_calls known o copies (bytes_of_word o head ++ rest) [] (Err (ran_out_of rest))
| calls_stop : forall copies head body rest calls copies' r r', word head -> Forall word body ->
    List.length body = (N.to_nat (head / 65536) - 1)%nat ->
    instruction_calls known copies (head mod 65536) (head / 65536) body calls copies' r ->
    match r with Ok _ => False | Err e => r' = Err e | Panic => r' = Panic | OutOfFuel => r' = OutOfFuel end ->
    instructions_calls known o copies (bytes_of_words o (head :: body) ++ rest) calls r'
| calls_go_on : forall copies head body rest calls copies' i calls' r, word head -> Forall word body ->
    List.length body = (N.to_nat (head / 65536) - 1)%nat ->
    instruction_calls known copies (head mod 65536) (head / 65536) body calls copies' (Ok i) ->
    instructions_calls known o copies' rest calls' r ->
    instructions_calls known o copies (bytes_of_words o (head :: body) ++ rest) (calls ++ calls') (let! is := r in Ok (i :: is)).

(** A header is a module without instructions. *)
Definition header (data : list ascii) (m : RawModule E) : Prop := wire_module [] data m /\ RawModule_instructions m = [].

Inductive module_calls (known : list Obj) : list ascii -> list call -> outcome ReadError (RawModule E) -> Prop :=
| calls_bad_header : forall data e, (forall h m rest, data = h ++ rest -> ~ header h m) -> module_fails (E := E) [] data e ->
    module_calls known data [] (Err e)
| calls_header : forall o h m rest calls r, in_order o h -> header h m -> instructions_calls known o [] rest calls r ->
    module_calls known (h ++ rest) calls
      (let! is := r in Ok (Build_RawModule (RawModule_version m) (RawModule_generator m) (RawModule_bound m) is)).

(** The answers to the requests to read an instruction; the extended instructions among instructions. *)
Definition asked_instructions (calls : list call) : list (outcome ReadError (list N * E)) :=
  flat_map (fun c => match c with AskInstruction _ _ _ answer => [answer] | _ => [] end) calls.
Definition extended_of (is : list (Core E)) : list E :=
  flat_map (fun i => match i with Core_OpExtInst op => [OpExtInst_instruction op] | _ => [] end) is.

(** The method did not return. *)
Definition panicked (c : call) : Prop :=
  match c with AskName _ None | AskCopy _ None | AskInstruction _ _ _ Panic => True | _ => False end.

(** In world [w] the calls get these answers and leave [w']. *)
Context {W : Type} (methods : SetMethods Obj E W).
Inductive answered : W -> list call -> W -> Prop :=
| answered_nil : forall w, answered w [] w
| answered_name : forall w set answer w1 calls w', call_get_name methods set w = (answer, w1) -> answered w1 calls w' ->
    answered w (AskName set answer :: calls) w'
| answered_copy : forall w set answer w1 calls w', call_duplicate methods set w = (answer, w1) -> answered w1 calls w' ->
    answered w (AskCopy set answer :: calls) w'
| answered_instruction : forall w set number words answer w1 calls w', call_read_instruction methods set number words w = (answer, w1) ->
    answered w1 calls w' -> answered w (AskInstruction set number words answer :: calls) w'.

End Calls.
Arguments call : clear implicits.
