(** * SpecShare.v -- what it means that a masked state holds a state of the
    permutation, and that a value computed from it does not depend on what it
    holds. *)
From Coq Require Import Bool Arith NArith List.
From Verif Require Import Words Spec ModelMask.
Import ListNotations.
Local Open Scope N_scope.

(** Bit [k] of the 64-bit word which [w] holds with [ns] shares: bit [2j] is
    the XOR of bit [j + 5d mod 32] of half 0 of share [d], for all [d], and
    bit [2j+1] that of half 1. *)
Definition share_of (w : mword) (d : nat) : share := match d with 0%nat => m0 w | 1%nat => m1 w | 2%nat => m2 w | _ => m3 w end.
Definition half_of (x : share) (odd : bool) : N := if odd then h1 x else h0 x.
Definition word_bit (ns : nat) (w : mword) (k : N) : bool :=
  fold_right xorb false
    (map (fun d => N.testbit (half_of (share_of w d) (N.odd k)) ((k / 2 + 5 * N.of_nat d) mod 32)) (seq 0 ns)).
Definition holds (ns : nat) (w : mword) (x : N) : Prop := forall k, k < 64 -> word_bit ns w k = N.testbit x k.

(** [w] has 32-bit halves, and 0 in the shares that [ns] shares leave unused *)
Definition proper (ns : nat) (w : mword) : Prop :=
  forall d odd, (d < 4)%nat -> half_of (share_of w d) odd < 2 ^ 32 /\ ((ns <= d)%nat -> half_of (share_of w d) odd = 0).

(** the masked states that hold [S]: one for each choice of the shares other
    than the first ones, the spare word holds 0 *)
Definition sharing (ns : nat) (S : state) (s : mstate) : Prop :=
  (proper ns (y0 s) /\ proper ns (y1 s) /\ proper ns (y2 s) /\ proper ns (y3 s) /\ proper ns (y4 s) /\ proper ns (y5 s)) /\
  holds ns (y0 s) (X0 S) /\ holds ns (y1 s) (X1 S) /\ holds ns (y2 s) (X2 S) /\ holds ns (y3 s) (X3 S) /\ holds ns (y4 s) (X4 S) /\
  holds ns (y5 s) 0.

(** [f] maps the sharings of [S] one to one onto those of [T] *)
Definition one_to_one (ns : nat) (S T : state) (f : mstate -> mstate) : Prop :=
  exists g, (forall s, sharing ns S s -> sharing ns T (f s) /\ g (f s) = s) /\
            (forall t, sharing ns T t -> sharing ns S (g t) /\ f (g t) = t).

(** [q] takes each value as often on the sharings of [S] as on those of [T]:
    its distribution, on uniformly chosen sharings, is the same. *)
Definition same_distribution {A} (ns : nat) (S T : state) (q : mstate -> A) : Prop :=
  exists f, one_to_one ns S T f /\ forall s, sharing ns S s -> q (f s) = q s.
