(** * Contract.v -- vocabulary of the theorem statements about memory.

    Small and separate from the model: what it means for a caller to pass
    buffers, and for a run to end in a given way. *)
From Coq Require Import Bool NArith ZArith List Init.Byte.
From Verif Require Import Words CMem.
Import ListNotations.
Local Open Scope N_scope.

Definition len (l : bytes) : N := N.of_nat (length l).

(** The initialised, readable bytes [l] are stored at [p].  If [l] is
    empty, [p] is any pointer value (NULL included). *)
Definition readable (M : mem) (p : ptr) (l : bytes) : Prop :=
  p + len l < 2 ^ 64 /\ (l <> [] -> p <> NULL) /\
  forall i, (i < length l)%nat -> rd M (p + N.of_nat i) = Some (nth i l x00).

(** The [n] bytes at [p] may be written (they may be uninitialised). *)
Definition writable (M : mem) (p : ptr) (n : N) : Prop :=
  p + n < 2 ^ 64 /\ (n <> 0 -> p <> NULL) /\
  forall a, p <= a -> a < p + n -> can_write M a = true.

(** The [n] bytes at [p] and the [m] bytes at [q] do not overlap. *)
Definition disjoint (p : ptr) (n : N) (q : ptr) (m : N) : Prop :=
  n = 0 \/ m = 0 \/ p + n <= q \/ q + m <= p.

(** Address [a] lies outside the [n] bytes at [p]. *)
Definition outside (p : ptr) (n : N) (a : N) : Prop := a < p \/ p + n <= a.

(** An output of [n] bytes at [dst] written front to back while [n] bytes
    at [src] are still being read front to back: harmless if they do not
    overlap or the output does not start above the input. *)
Definition no_overtake (dst src : ptr) (n : N) : Prop :=
  dst <= src \/ src + n <= dst \/ n = 0.

(** The computation finishes (no undefined behaviour, loops terminate)
    with value [v] and memory [M']. *)
Definition runs {A} (c : C A) (M M' : mem) (v : A) : Prop := exists t, c M = Done t M' v.

(** [16] bytes: keys, nonces, tags. *)
Definition is16 (l : bytes) : Prop := length l = 16%nat.

(** The [n] cells at [sp] are free for a local array: not accessible
    to the caller, so disjoint from every buffer the caller passes. *)
Definition free_cells (M : mem) (sp n : N) : Prop :=
  sp <> 0 /\ sp + n < 2 ^ 64 /\ forall a, sp <= a -> a < sp + n -> M a = NoAccess.

(** The computation finishes with value [v] and a memory that agrees with
    [M'] at every address. *)
Definition returns {A} (c : C A) (M M' : mem) (v : A) : Prop :=
  exists t M1, c M = Done t M1 v /\ forall a, M1 a = M' a.
