(** * AvrSpec.v -- what avr/hash.c and avr/prf.c compute (C40).

    Not a standard: the functions defined here differ from those of Spec.v in
    the padding (src/avr/hash.c l.48 and src/avr/prf.c l.52 put the padding
    byte at index [7 - inlen] of the last word, not [inlen]) and in the place
    of the domain separation (prf.c l.55: byte 0 of the last state word, not
    byte 7). *)
From Coq Require Import Arith NArith List Init.Byte.
From Verif Require Import Words Spec.
Import ListNotations.

(** The last 8-byte word for the remaining bytes [r], fewer than 8. *)
Definition avr_word (r : bytes) : bytes := xor_at (7 - length r) (r ++ zeros (8 - length r)) [x01].
(** The message, padded to a multiple of 8 bytes, to a multiple of 32. *)
Definition whole8 (l : bytes) : nat := 8 * (length l / 8).
Definition avr_pad8 (l : bytes) : bytes := firstn (whole8 l) l ++ avr_word (skipn (whole8 l) l).
Definition avr_pad32 (l : bytes) : bytes := avr_pad8 l ++ zeros (24 - 8 * ((length l / 8) mod 4)).

Definition avr_sponge (S msg : bytes) (outlen : nat) : bytes :=
  squeeze outlen 8 12 (absorb 12 S (chunks 8 (avr_pad8 msg))).
Definition avr_hash256 (msg : bytes) : bytes := avr_sponge (hash_init iv_hash256) msg 32.
Definition avr_xof128 (msg : bytes) (outlen : nat) : bytes := avr_sponge (hash_init iv_xof128) msg outlen.

Fixpoint avr_prf_absorb (S : bytes) (bs : list bytes) : bytes :=
  match bs with
  | [] => S
  | [B] => p 12 (xor_at 32 (xor_into S B) [x80])
  | B :: bs' => avr_prf_absorb (p 12 (xor_into S B)) bs'
  end.
Definition avr_prf_gen (iv k msg : bytes) (outlen : nat) : bytes :=
  squeeze outlen 16 12 (avr_prf_absorb (p 12 (iv ++ k ++ zeros 16)) (chunks 32 (avr_pad32 msg))).
Definition avr_mac (k msg : bytes) (outlen : nat) : bytes := avr_prf_gen iv_mac k msg outlen.
Definition avr_prf (k msg : bytes) (outlen : nat) : bytes := avr_prf_gen iv_prf k msg outlen.
