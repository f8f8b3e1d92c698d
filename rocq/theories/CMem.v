(** * CMem.v -- the fragment of C semantics the model runs in.

    - Memory is flat: an address is a number, address 0 is NULL.  A cell
      is inaccessible, read-only, or read-write; a read-write cell may be
      uninitialised.
    - A computation either finishes, giving the events an observer of
      branches and addresses sees, the final memory and a value, or goes
      [Bad]: undefined behaviour, or (never in a proved theorem) fuel
      exhaustion of a loop.
    - Local variables and local arrays are Gallina values: they are not in
      the flat memory.  (C objects with automatic storage whose address
      does not escape the translation unit.)

    Not modelled: object provenance (an offset beyond the end of one
    object that lands in another valid object is only caught when the
    final address space is exceeded), alignment, signals, threads. *)
From Coq Require Import Bool NArith ZArith List Init.Byte.
From Verif Require Import Words.
Import ListNotations.
Local Open Scope N_scope.

Inductive cell := NoAccess | RO (b : byte) | RW (v : option byte).
Definition mem := N -> cell.
Definition ptr := N.
Definition NULL : ptr := 0.

(** What a byte read at [a] gives; [None]: undefined behaviour. *)
Definition rd (M : mem) (a : N) : option byte :=
  match M a with RO b => Some b | RW (Some b) => Some b | _ => None end.

Definition can_write (M : mem) (a : N) : bool :=
  match M a with RW _ => true | _ => false end.

Definition upd (M : mem) (a : N) (b : byte) : mem :=
  fun a' => if a' =? a then RW (Some b) else M a'.

(** [write M p l]: memory after storing the bytes [l] at [p], [p+1], ... *)
Fixpoint write (M : mem) (p : ptr) (l : bytes) : mem :=
  match l with [] => M | b :: r => write (upd M p b) (p + 1) r end.

(** Observable events: the outcome of a conditional branch, and the address
    range of a memory access. *)
Inductive event := EBranch (b : bool) | ERead (a n : N) | EWrite (a n : N).

Inductive error :=
  | ErrRead (a : N) | ErrWrite (a : N) | ErrNull | ErrPtr | ErrShift | ErrIndex | ErrFuel
  | ErrAlign (a : N)  (** alignment fault *)
  | ErrJump  (** a subroutine of assembly code returns to a wrong address *).

Inductive outcome (A : Type) :=
  | Done (t : list event) (M : mem) (v : A)
  | Bad (e : error).
Arguments Done {A}. Arguments Bad {A}.

Definition C (A : Type) := mem -> outcome A.

Definition ret {A} (v : A) : C A := fun M => Done [] M v.
Definition fail {A} (e : error) : C A := fun _ => Bad e.
Definition bind {A B} (c : C A) (f : A -> C B) : C B := fun M =>
  match c M with
  | Bad e => Bad e
  | Done t M1 a =>
      match f a M1 with
      | Bad e => Bad e
      | Done t' M2 b => Done (t ++ t') M2 b
      end
  end.
Notation "x <- c1 ;; c2" := (bind c1 (fun x => c2))
  (at level 61, c1 at next level, right associativity).
Notation "' p <- c1 ;; c2" := (bind c1 (fun x => match x with p => c2 end))
  (at level 61, p pattern, c1 at next level, right associativity).
Notation "c1 ;;; c2" := (bind c1 (fun _ => c2))
  (at level 61, right associativity).

(** A conditional branch on [b]. *)
Definition branch (b : bool) : C bool := fun M => Done [EBranch b] M b.

(** Pointer arithmetic [p + n]; a non-zero offset from NULL and leaving
    the address space are undefined. *)
Definition padd (p : ptr) (n : N) : C ptr :=
  if (p =? 0) && negb (n =? 0) then fail ErrNull
  else if 2 ^ 64 <=? p + n then fail ErrPtr
  else ret (p + n).

(** Byte load and store through a pointer. *)
Definition ldb (p : ptr) : C byte := fun M =>
  if p =? 0 then Bad ErrNull else
  match rd M p with Some b => Done [ERead p 1] M b | None => Bad (ErrRead p) end.
Definition stb (p : ptr) (b : byte) : C unit := fun M =>
  if p =? 0 then Bad ErrNull else
  if can_write M p then Done [EWrite p 1] (upd M p b) tt else Bad (ErrWrite p).

(** [p[i]] and [p[i] = b]. *)
Definition ld (p : ptr) (i : N) : C byte := q <- padd p i ;; ldb q.
Definition st (p : ptr) (i : N) (b : byte) : C unit := q <- padd p i ;; stb q b.

Fixpoint read_bytes (n : nat) (M : mem) (p : ptr) : option bytes :=
  match n with
  | O => Some []
  | S n' => match rd M p, read_bytes n' M (p + 1) with
            | Some b, Some r => Some (b :: r)
            | _, _ => None
            end
  end.
Fixpoint all_writable (n : nat) (M : mem) (p : ptr) : bool :=
  match n with O => true | S n' => can_write M p && all_writable n' M (p + 1) end.

(** [memcpy] between memory and a local object.  C11 7.24.1p2: both
    pointers must be valid even when the size is 0. *)
Definition memcpy_in (p : ptr) (n : N) : C bytes := fun M =>
  if p =? 0 then Bad ErrNull else
  if 2 ^ 64 <=? p + n then Bad ErrPtr else
  match read_bytes (N.to_nat n) M p with
  | Some l => Done [ERead p n] M l | None => Bad (ErrRead p) end.
Definition memcpy_out (p : ptr) (l : bytes) : C unit := fun M =>
  if p =? 0 then Bad ErrNull else
  if 2 ^ 64 <=? p + N.of_nat (length l) then Bad ErrPtr else
  if all_writable (length l) M p
  then Done [EWrite p (N.of_nat (length l))] (write M p l) tt else Bad (ErrWrite p).

(** Host byte order. *)
Inductive endian := LE | BE.
Definition to_host (e : endian) (n : nat) (x : N) : bytes :=
  match e with LE => le_bytes n x | BE => rev (le_bytes n x) end.
Definition from_host (e : endian) (l : bytes) : N :=
  match e with LE => le_num l | BE => le_num (rev l) end.

(** [*p = x] and [*p] for [unsigned long long *p] (8 bytes). *)
Definition store_ull (e : endian) (p : ptr) (x : N) : C unit := memcpy_out p (to_host e 8 x).
Definition load_ull (e : endian) (p : ptr) : C N :=
  l <- memcpy_in p 8 ;; ret (from_host e l).

(** [for (i = i0; trip count k; ++i) body]. *)
Fixpoint for_loop {S} (k : nat) (i : N) (body : N -> S -> C S) (s : S) : C S :=
  match k with
  | O => branch false ;;; ret s
  | Datatypes.S k' => branch true ;;; s' <- body i s ;; for_loop k' (i + 1) body s'
  end.

(** [while (cond) body] with fuel. *)
Fixpoint while {S} (fuel : nat) (cond : S -> bool) (body : S -> C S) (s : S) : C S :=
  match fuel with
  | O => fail ErrFuel
  | Datatypes.S f =>
      b <- branch (cond s) ;;
      if b : bool then s' <- body s ;; while f cond body s' else ret s
  end.

(** Unsigned 64-bit subtraction and addition (wrap around). *)
Definition sub64 (a b : N) : N := trunc 64 (a + 2 ^ 64 - b).
Definition add64 (a b : N) : N := trunc 64 (a + b).

(** A local array of [n] bytes whose address escapes into a callee: the
    cells at [sp] (chosen by the implementation, not accessible to the
    caller) become read-write and uninitialised for the duration of
    [body], and inaccessible again afterwards. *)
Definition in_range (p n a : N) : bool := (p <=? a) && (a <? p + n).
Definition set_range (M : mem) (p n : N) (c : cell) : mem :=
  fun a => if in_range p n a then c else M a.
Fixpoint all_fresh (n : nat) (M : mem) (p : ptr) : bool :=
  match n with
  | O => true
  | S n' => match M p with NoAccess => all_fresh n' M (p + 1) | _ => false end
  end.
Definition with_local {A} (sp : ptr) (n : N) (body : ptr -> C A) : C A := fun M =>
  if sp =? 0 then Bad ErrNull else
  if 2 ^ 64 <=? sp + n then Bad ErrPtr else
  if all_fresh (N.to_nat n) M sp then
    match body sp (set_range M sp n (RW None)) with
    | Done t M' v => Done t (set_range M' sp n NoAccess) v
    | Bad e => Bad e
    end
  else Bad ErrPtr.
