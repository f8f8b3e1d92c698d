(** * Words.v -- fixed-width machine words and bytes.

    C unsigned integers of width [w] are modelled as [N] values below [2^w];
    every operation that can leave that range truncates explicitly
    ([trunc w]).  Bytes are the 256-element type [Coq.Init.Byte.byte].
    Only definitions here; the facts are in [WordFacts.v]. *)
From Coq Require Import NArith List Init.Byte Strings.Byte.
Import ListNotations.
Local Open Scope N_scope.

Notation bytes := (list byte).

(** C conversion to an unsigned type of width [w] (C11 6.3.1.3p2). *)
Definition trunc (w x : N) : N := N.land x (N.ones w).

(** C [~x] on an unsigned type of width [w]. *)
Definition notw (w x : N) : N := N.lxor x (N.ones w).

(** C [x << n] on an unsigned type of width [w] ([n < w]). *)
Definition shlw (w x n : N) : N := trunc w (N.shiftl x n).

(** C [x >> n] on an unsigned type. *)
Definition shrw (x n : N) : N := N.shiftr x n.

(** A value of an unsigned type of width [w]. *)
Definition fits (w x : N) : Prop := x < 2 ^ w.

(** Byte <-> number. *)
Definition b2n (b : byte) : N := Byte.to_N b.
Definition n2b (x : N) : byte :=
  match Byte.of_N (trunc 8 x) with Some b => b | None => x00 end.

Definition bxor (a b : byte) : byte := n2b (N.lxor (b2n a) (b2n b)).
Definition band (a b : byte) : byte := n2b (N.land (b2n a) (b2n b)).
Definition bor (a b : byte) : byte := n2b (N.lor (b2n a) (b2n b)).
Definition bnot (a : byte) : byte := n2b (notw 8 (b2n a)).

(** Little-endian value of a byte string, and the low [n] bytes of a
    number, least significant first. *)
Fixpoint le_num (l : bytes) : N :=
  match l with
  | [] => 0
  | b :: r => N.lor (b2n b) (N.shiftl (le_num r) 8)
  end.

Fixpoint le_bytes (n : nat) (x : N) : bytes :=
  match n with
  | O => []
  | S n' => n2b x :: le_bytes n' (N.shiftr x 8)
  end.

Definition zeros (n : nat) : bytes := repeat x00 n.

(** The [n]-bit number whose bit [i] is [f i]. *)
Fixpoint of_bits (n : nat) (f : N -> bool) : N :=
  match n with
  | O => 0
  | S m => N.lor (of_bits m f)
                 (N.shiftl (if f (N.of_nat m) then 1 else 0) (N.of_nat m))
  end.

(** Five 64-bit words. *)
Record state := St { X0 : N; X1 : N; X2 : N; X3 : N; X4 : N }.
