(** * SpecHide.v -- what the shares of a text are, in terms of the 32-bit cells
    of a buffer only. *)
From Coq Require Import Arith NArith List Init.Byte.
From Verif Require Import Words Spec.
Import ListNotations.
Local Open Scope N_scope.

(** The share [d] of the 64-bit word [j] in a buffer with [ns] shares: for each
    word there are [ns] cells with the low halves, then [ns] cells with the high halves. *)
Definition share_of (cells : list (option N)) (ns j d : nat) : option N :=
  match nth_error cells (2 * ns * j + d), nth_error cells (2 * ns * j + ns + d) with
  | Some (Some lo), Some (Some hi) => Some (lo + 2 ^ 32 * hi)
  | _, _ => None
  end.
(** The XOR of the shares 0 to [n - 1] of word [j], share [d] rotated right by [10 d] bits *)
Fixpoint xor_of_shares (cells : list (option N)) (ns j n : nat) : option N :=
  match n with
  | O => Some 0
  | S d => match xor_of_shares cells ns j d, share_of cells ns j d with
           | Some x, Some s => Some (N.lxor x (rotr s (10 * N.of_nat d)))
           | _, _ => None
           end
  end.
(** The number of 64-bit words of [n] bytes, and word [j] of a text: 8 bytes, the
    first of which is the lowest; missing bytes count as 0. *)
Definition words_of (n : nat) : nat := (n + 7) / 8.
Definition word_at (b : bytes) (j : nat) : N := le_num (firstn 8 (skipn (8 * j) b)).
