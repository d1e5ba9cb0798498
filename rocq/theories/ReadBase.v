(** MemoryBlock and the generic readers of src/spv/raw/mod.rs; Stream of
    src/spv/raw/reader.rs. *)
From Verif Require Import Base Types ReadErr Utf8.
Local Open Scope N_scope.

(* src/spv/raw/mod.rs:359-363 (MemoryBlock, a slice of words) and the trait
   MemoryBlockRead, src/spv/raw/mod.rs:392-394 *)
Definition Reader (A : Type) := list N -> outcome ReadError (list N * A).

(* src/spv/raw/mod.rs:370-376 *)
Definition read_word : Reader N := fun block =>
  match block with
  | word :: rest => Ok (rest, word)
  | [] => Err UnexpectedEndOfInstruction
  end.

(* src/spv/raw/mod.rs:386-389 *)
Definition read_op_id : Reader OpId := fun block =>
  let! (next, word) := read_word block in Ok (next, word).

(* src/spv/raw/mod.rs:415-419, the while loop; [fuel] bounds the number of iterations *)
Fixpoint read_items {A} (fuel : nat) (read : Reader A) (block : list N) (items : list A)
  : outcome ReadError (list N * list A) :=
  match block with
  | [] => Ok (block, items)
  | _ :: _ =>
      match fuel with
      | O => OutOfFuel
      | S fuel =>
          let! (next_block, item) := read block in
          read_items fuel read next_block (items ++ [item])
      end
  end.

(* src/spv/raw/mod.rs:410-422.  [size_of] is std::mem::size_of::<T>(); the division
   panics when item_word_size is zero.  The quotient is only used as a capacity. *)
Definition read_Vec {A} (size_of : N) (read : Reader A) : Reader (list A) := fun block =>
  let item_word_size := N.min 1 (size_of / 4) in
  if N.eqb item_word_size 0 then Panic
  else read_items (List.length block) read block [].

(* src/spv/raw/mod.rs:424-433 *)
Definition read_Option {A} (read : Reader A) : Reader (option A) := fun block =>
  match block with
  | _ :: _ => let! (block, item) := read block in Ok (block, Some item)
  | [] => Ok (block, None)
  end.

(* src/spv/raw/mod.rs:447-450 *)
Definition chars_of_word (word : N) : list N :=
  [as_u8 (N.land word 0xFF);
   as_u8 (N.land (N.shiftr word 8) 0xFF);
   as_u8 (N.land (N.shiftr word 16) 0xFF);
   as_u8 (N.shiftr word 24)].

(* src/spv/raw/mod.rs:451-456, the for loop: true when the null byte was met *)
Fixpoint push_chars (chars bytes : list N) : bool * list N :=
  match chars with
  | [] => (false, bytes)
  | c :: chars => if N.eqb c 0 then (true, bytes) else push_chars chars (bytes ++ [c])
  end.

(* src/spv/raw/mod.rs:444-457, 'null: loop *)
Fixpoint read_bytes (block bytes : list N) : outcome ReadError (list N * list N) :=
  match block with
  | [] => Err UnexpectedEndOfInstruction
  | word :: block =>
      let (null, bytes) := push_chars (chars_of_word word) bytes in
      if null then Ok (block, bytes) else read_bytes block bytes
  end.

(* src/spv/raw/mod.rs:441-464 *)
Definition read_LitString : Reader LitString := fun block =>
  let! (block, bytes) := read_bytes block [] in
  match from_utf8 bytes with
  | Some s => Ok (block, s)
  | None => Err InvalidString
  end.

(* src/spv/raw/reader.rs:87-90 *)
Record Stream : Type := Build_Stream { Stream_source : list ascii; Stream_is_le : bool }.

(* byteorder::LittleEndian::read_u32 (external crate), used at src/spv/raw/reader.rs:103 *)
Definition le_u32 (a b c d : ascii) : N :=
  N_of_ascii a + 256 * N_of_ascii b + 65536 * N_of_ascii c + 16777216 * N_of_ascii d.

(* byteorder::BigEndian::read_u32 (external crate), used at src/spv/raw/reader.rs:105 *)
Definition be_u32 (a b c d : ascii) : N := le_u32 d c b a.

(* src/spv/raw/reader.rs:100-114 *)
Definition stream_read_word (s : Stream) : outcome ReadError (Stream * N) :=
  match Stream_source s with
  | a :: b :: c :: d :: rest =>
      let result := if Stream_is_le s then le_u32 a b c d else be_u32 a b c d in
      Ok (Build_Stream rest (Stream_is_le s), result)
  | _ :: _ => Err UnexpectedStreamAlignment
  | [] => Err UnexpectedEndOfStream
  end.

(* src/spv/raw/reader.rs:116-118 *)
Definition stream_is_end (s : Stream) : bool :=
  match Stream_source s with [] => true | _ => false end.

(* src/spv/raw/reader.rs:120-122 *)
Definition invert_endianness (s : Stream) : Stream :=
  Build_Stream (Stream_source s) (negb (Stream_is_le s)).
