(** * SpecMask.v -- what the tag comparison of the masked implementation
    decides, in terms of the two tags (16 bytes each) and of the permutation
    of Spec.v only. *)
From Coq Require Import NArith List Init.Byte.
From Verif Require Import Words Spec.
Import ListNotations.
Local Open Scope N_scope.

(** The XOR of the last two 64-bit words of the 40-byte state [S]. *)
Definition last_words (S : bytes) : N := N.lxor (le_num (firstn 8 (skipn 24 S))) (le_num (firstn 8 (skipn 32 S))).

(** The 64 bits the comparison looks at, for the difference [d] (16 bytes) of
    the two tags: [d] in the last 16 bytes of an otherwise zero state, 8
    rounds, relative to what the zero difference gives. *)
Definition check_bits (d : bytes) : N :=
  N.lxor (last_words (p 8 (repeat x00 24 ++ d))) (last_words (p 8 (repeat x00 40))).

(** Only 32 of them matter: each bit at an even position is compared with its
    neighbour. *)
Definition check_passes (d : bytes) : Prop :=
  forall i, i < 32 -> N.testbit (check_bits d) (2 * i) = N.testbit (check_bits d) (2 * i + 1).
