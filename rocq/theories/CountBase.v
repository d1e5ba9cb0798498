(** Outcomes that carry a number of steps, and the generic readers of ReadBase.v with their steps.
    A step is one of: a word taken from a block of operands or from the stream, a byte of a string looked at,
    a byte of a string checked by from_utf8, an item pushed to a Vec, a known set asked for its name, a look-up or
    an insertion in the map of imported sets, a call of an imported set. *)
From Verif Require Import Base Types ReadErr Utf8 ReadBase.
Local Open Scope N_scope.

(* the results of src/spv/raw/mod.rs:357 with the steps it took to come to them *)
Definition counted (A : Type) : Type := (nat * outcome ReadError A)%type.

(* try!, e.g. src/spv/raw/mod.rs:398, after which the steps are those of both parts *)
Definition count_bind {A B} (c : counted A) (k : A -> counted B) : counted B :=
  match c with
  | (n, Ok a) => let (m, o) := k a in ((n + m)%nat, o)
  | (n, Err e) => (n, Err e)
  | (n, Panic) => (n, Panic)
  | (n, OutOfFuel) => (n, OutOfFuel)
  end.

Notation "'let+' p ':=' e 'in' k" := (count_bind e (fun p => k))
  (at level 200, p pattern, e at level 200, k at level 200, right associativity).

(* Ok and Err of src/spv/raw/mod.rs:357: no step *)
Definition count_Ok {A} (a : A) : counted A := (O, Ok a).
Definition count_Err {A} (e : ReadError) : counted A := (O, Err e).

(* one step, and [n] of them; see the head of this file *)
Definition steps (n : nat) : counted unit := (n, Ok tt).
Definition step : counted unit := steps 1.

(* src/spv/raw/mod.rs:392-394 *)
Definition CountReader (A : Type) := list N -> counted (list N * A).

(* src/spv/raw/mod.rs:370-376 *)
Definition count_word : CountReader N := fun block =>
  let+ _ := step in
  match block with
  | word :: rest => count_Ok (rest, word)
  | [] => count_Err UnexpectedEndOfInstruction
  end.

(* src/spv/raw/mod.rs:415-419, the while loop; [fuel] bounds the number of iterations *)
Fixpoint count_items {A} (fuel : nat) (read : CountReader A) (block : list N) (items : list A)
  : counted (list N * list A) :=
  match block with
  | [] => count_Ok (block, items)
  | _ :: _ =>
      match fuel with
      | O => (O, OutOfFuel)
      | S fuel =>
          let+ (next_block, item) := read block in
          let+ _ := step in
          count_items fuel read next_block (items ++ [item])
      end
  end.

(* src/spv/raw/mod.rs:410-422 *)
Definition count_Vec {A} (size_of : N) (read : CountReader A) : CountReader (list A) := fun block =>
  let item_word_size := N.min 1 (size_of / 4) in
  if N.eqb item_word_size 0 then (O, Panic)
  else count_items (List.length block) read block [].

(* src/spv/raw/mod.rs:424-433 *)
Definition count_Option {A} (read : CountReader A) : CountReader (option A) := fun block =>
  match block with
  | _ :: _ => let+ (block, item) := read block in count_Ok (block, Some item)
  | [] => count_Ok (block, None)
  end.

(* src/spv/raw/mod.rs:451-456, the for loop *)
Fixpoint count_chars (chars bytes : list N) : counted (bool * list N) :=
  match chars with
  | [] => count_Ok (false, bytes)
  | c :: chars =>
      let+ _ := step in
      if N.eqb c 0 then count_Ok (true, bytes) else count_chars chars (bytes ++ [c])
  end.

(* src/spv/raw/mod.rs:444-457, 'null: loop *)
Fixpoint count_bytes (block bytes : list N) : counted (list N * list N) :=
  let+ _ := step in
  match block with
  | [] => count_Err UnexpectedEndOfInstruction
  | word :: block =>
      let+ (null, bytes) := count_chars (chars_of_word word) bytes in
      if null then count_Ok (block, bytes) else count_bytes block bytes
  end.

(* src/spv/raw/mod.rs:441-464; from_utf8 goes over the bytes once *)
Definition count_LitString : CountReader LitString := fun block =>
  let+ (block, bytes) := count_bytes block [] in
  let+ _ := steps (List.length bytes) in
  match from_utf8 bytes with
  | Some s => count_Ok (block, s)
  | None => count_Err InvalidString
  end.

(* src/spv/raw/reader.rs:100-114 *)
Definition count_stream_word (s : Stream) : counted (Stream * N) :=
  let+ _ := step in (O, stream_read_word s).
