(** The byte level of text: Rust's [str] is the UTF-8 encoding of its
    characters.  The model works on characters; here is the encoding, with
    which byte positions are computed. *)
From Verif Require Import M_Base.
From stdpp Require Import options.

(** [char::len_utf8] *)
Definition utf8_len (c : N) : nat :=
  if (c <? 128)%N then 1 else if (c <? 2048)%N then 2 else if (c <? 65536)%N then 3 else 4.

(** [char::encode_utf8] *)
Definition utf8 (c : N) : list N :=
  if (c <? 128)%N then [c]
  else if (c <? 2048)%N then [192 + c / 64; 128 + c mod 64]%N
  else if (c <? 65536)%N then [224 + c / 4096; 128 + (c / 64) mod 64; 128 + c mod 64]%N
  else [240 + c / 262144; 128 + (c / 4096) mod 64; 128 + (c / 64) mod 64; 128 + c mod 64]%N.

(** the bytes of a text, and [str::len] *)
Definition bytes (s : str) : list N := concat (map utf8 s).
Definition byte_len (s : str) : nat := sum_list (map utf8_len s).

(** a Unicode scalar value is below 0x110000 *)
Definition scalar (c : N) : Prop := (c < 1114112)%N.
