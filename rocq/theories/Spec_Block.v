(** SPECIFICATION of what code sees of a MemoryBlock, C94. *)
From Verif Require Import Base Types ReadErr MemoryBlock.

(** What happens, as seen by the code. *)
Inductive event : Type :=
| Got (w : N)          (* a word, as a number or as an id *)
| Got_nothing          (* a word was asked for in vain *)
| Told_remaining (n : nat)
| Told_end (b : bool).

(** [does p es r]: if [es] is what happens, then the code [p] ends with [r]. *)
Inductive does {A} : Program A -> list event -> outcome ReadError A -> Prop :=
| does_finish : forall value, does (Finish value) [] (Ok value)
| does_give_up : forall f, does (Give_up f) [] (fail f)
| does_word : forall on_error next w es r, does (next w) es r -> does (Read_word on_error next) (Got w :: es) r
| does_no_word : forall on_error next, does (Read_word on_error next) [Got_nothing] (fail (on_error UnexpectedEndOfInstruction))
| does_id : forall on_error next w es r, does (next w) es r -> does (Read_op_id on_error next) (Got w :: es) r
| does_no_id : forall on_error next, does (Read_op_id on_error next) [Got_nothing] (fail (on_error UnexpectedEndOfInstruction))
| does_remaining : forall next n es r, does (next n) es r -> does (Ask_remaining next) (Told_remaining n :: es) r
| does_end : forall next b es r, does (next b) es r -> does (Ask_end next) (Told_end b :: es) r.

(** The words that were handed out. *)
Definition words_of (es : list event) : list N := flat_map (fun e => match e with Got w => [w] | _ => [] end) es.

(** What happens to a block of words [ws]: the words come in order, each once, and none is denied as long as there are
    any; the number remaining is the number of words not handed out yet, and the end is where it is 0. *)
Definition happens (ws : list N) (es : list event) : Prop :=
  (exists rest, ws = words_of es ++ rest)
  /\ forall before e after, es = before ++ e :: after ->
     match e with
     | Got _ => True
     | Got_nothing => words_of before = ws
     | Told_remaining n => n + List.length (words_of before) = List.length ws
     | Told_end b => b = true <-> words_of before = ws
     end.

(** A reader that could have been written by a user. *)
Definition writable {A} (read : list N -> outcome ReadError (list N * A)) : Prop :=
  exists p : Program A, forall ws, read ws = run p ws.

(** Code that returns, whatever it reads. *)
Inductive returning {A} : Program A -> Prop :=
| returning_finish : forall value, returning (Finish value)
| returning_error : forall e, returning (Give_up (Returns_error e))
| returning_word : forall on_error next, (exists e, on_error UnexpectedEndOfInstruction = Returns_error e) -> (forall w, returning (next w)) ->
    returning (Read_word on_error next)
| returning_id : forall on_error next, (exists e, on_error UnexpectedEndOfInstruction = Returns_error e) -> (forall w, returning (next w)) ->
    returning (Read_op_id on_error next)
| returning_remaining : forall next, (forall n, returning (next n)) -> returning (Ask_remaining next)
| returning_end : forall next, (forall b, returning (next b)) -> returning (Ask_end next).

(** Lists of items that take up all the words of a block: [items_then read ws items stop] if reading items one after the other from
    [ws], each from at least one word, gives [items] and then [stop]: [None] if no words are left, or what becomes
    of the next item, which is not read, or takes no words so that it is read again and again. *)
Section Items.
Context {A : Type} (read : list N -> outcome ReadError (list N * A)).
Inductive items_then : list N -> list A -> option failure -> Prop :=
| items_end : items_then [] [] None
| items_error : forall ws e, ws <> [] -> read ws = Err e -> items_then ws [] (Some (Returns_error e))
| items_panic : forall ws, ws <> [] -> read ws = Panic -> items_then ws [] (Some Panics)
| items_hang : forall ws, ws <> [] -> read ws = OutOfFuel -> items_then ws [] (Some Hangs)
| items_stuck : forall ws x, ws <> [] -> read ws = Ok (ws, x) -> items_then ws [] (Some Hangs)
| items_next : forall ws used rest x items stop, used <> [] -> ws = used ++ rest -> read ws = Ok (rest, x) -> items_then rest items stop ->
    items_then ws (x :: items) stop.
End Items.
