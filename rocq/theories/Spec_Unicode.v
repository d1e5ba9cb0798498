(** SPECIFICATION: Unicode scalar values and their UTF-8 encoding (RFC 3629).
    Written from the standard; does not mention the model. *)
From Coq Require Import NArith List String Ascii.
Import ListNotations.
Local Open Scope N_scope.

(** A Unicode scalar value: any code point up to U+10FFFF that is not a surrogate. *)
Definition scalar (c : N) : Prop := c < 0xD800 \/ (0xE000 <= c /\ c <= 0x10FFFF).

(** The UTF-8 bytes of one scalar value. *)
Definition utf8_char (c : N) : list N :=
  if c <? 0x80 then [c]
  else if c <? 0x800 then [0xC0 + c / 64; 0x80 + c mod 64]
  else if c <? 0x10000 then [0xE0 + c / 4096; 0x80 + c / 64 mod 64; 0x80 + c mod 64]
  else [0xF0 + c / 262144; 0x80 + c / 4096 mod 64; 0x80 + c / 64 mod 64; 0x80 + c mod 64].

(** The UTF-8 bytes of a text. *)
Definition utf8 (text : list N) : list N := flat_map utf8_char text.

(** Some bytes are UTF-8 when they encode some sequence of scalar values. *)
Definition is_utf8 (bytes : list N) : Prop :=
  exists text, Forall scalar text /\ bytes = utf8 text.

(** The bytes of a Coq string. *)
Definition bytes_of_string (s : string) : list N := map N_of_ascii (list_ascii_of_string s).
