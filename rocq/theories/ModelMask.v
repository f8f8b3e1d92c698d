(** * ModelMask.v -- the masked implementation of Ascon-AEAD128,
    crypto_aead/asconaead128/protected_bi32_armv6_leveled.

    - A [word_t] is four shares (NUM_SHARES_KEY of them exist; the others
      are never used), a share is two 32-bit halves.
    - The numbers of shares (api.h l.13-31) are a parameter [cfg]; they are
      compile-time constants, so tests on them are not branches.
    - [randombytes] reads a tape [R] of arbitrary 64-bit draws; the
      position [g] on the tape is threaded through the program.
    - The share buffers obtained from [malloc] are bounds-checked arrays of
      uint32_t, initially uninitialised, that only this code can reach;
      [malloc] is assumed to succeed (its result is not tested by the
      code).  Their base addresses are parameters, they appear in the trace
      of memory accesses.
    - The inline assembly of asm.h is modelled by the value it computes;
      [CLEAR()] and the [print] macros compute nothing. *)
From Coq Require Import Bool Arith NArith ZArith List Init.Byte.
From Verif Require Import Words CMem ModelRef ModelCommon ModelWords.
Import ListNotations.
Local Open Scope N_scope.

(** ** word.h *)

(** word.h l.15-17 *)
Record share := Sh { h0 : N; h1 : N }.
(** word.h l.19-21 *)
Record mword := MW { m0 : share; m1 : share; m2 : share; m3 : share }.
(** ascon.h l.9-11 *)
Record mstate := MS { y0 : mword; y1 : mword; y2 : mword; y3 : mword; y4 : mword; y5 : mword }.

(** [w.s[d]], [w.s[d] = v], [w.s[d].w[i]] and [w.s[d].w[i] = v] *)
Definition sget (w : mword) (d : nat) : share :=
  match d with O => m0 w | 1%nat => m1 w | 2%nat => m2 w | _ => m3 w end.
Definition sset (w : mword) (d : nat) (v : share) : mword :=
  let '(MW a b c e) := w in
  match d with O => MW v b c e | 1%nat => MW a v c e | 2%nat => MW a b v e | _ => MW a b c v end.
Definition hget (s : share) (i : nat) : N := match i with O => h0 s | _ => h1 s end.
Definition hset (s : share) (i : nat) (v : N) : share :=
  match i with O => Sh v (h1 s) | _ => Sh (h0 s) v end.
Definition wget (w : mword) (d i : nat) : N := hget (sget w d) i.
Definition wset (w : mword) (d i : nat) (v : N) : mword := sset w d (hset (sget w d) i v).
(** [w.s[d].w[i] ^= v] *)
Definition wxor (w : mword) (d i : nat) (v : N) : mword := wset w d i (N.lxor (wget w d i) v).
(** [if (b) w = f(w)] for a compile-time condition *)
Definition when {A} (b : bool) (f : A -> A) (w : A) : A := if b then f w else w.

(** shares.h l.10 with api.h l.9-11 (ASCON_ROR_SHARES 5); the argument may
    be negative *)
Definition ROT (i : Z) : N := Z.to_N (Z.land (i * 5) 31).

(** word.h l.39-49 *)
Definition MXOR (a b : mword) (ns : nat) : mword :=
  let a := when (1 <=? ns)%nat (fun a => wxor a 0 0 (wget b 0 0)) a in
  let a := when (1 <=? ns)%nat (fun a => wxor a 0 1 (wget b 0 1)) a in
  let a := when (2 <=? ns)%nat (fun a => wxor a 1 0 (wget b 1 0)) a in
  let a := when (2 <=? ns)%nat (fun a => wxor a 1 1 (wget b 1 1)) a in
  let a := when (3 <=? ns)%nat (fun a => wxor a 2 0 (wget b 2 0)) a in
  let a := when (3 <=? ns)%nat (fun a => wxor a 2 1 (wget b 2 1)) a in
  let a := when (4 <=? ns)%nat (fun a => wxor a 3 0 (wget b 3 0)) a in
  when (4 <=? ns)%nat (fun a => wxor a 3 1 (wget b 3 1)) a.

(** asm.h l.31-37: [and tmp, ae, be, ror #ROT(imm); eor ce, tmp, ce] with
    [ce], [ae], [be] the halves [i] of the shares [d], [j], [k] of [c],
    [a], [b] *)
Definition EOR_AND_ROR (i : nat) (c : mword) (d : nat) (a : mword) (j : nat) (b : mword) (k : nat)
    (imm : Z) : mword :=
  wset c d i (N.lxor (N.land (wget a j i) (ROR32 (wget b k i) (ROT imm))) (wget c d i)).
(** asm.h l.39-45: [bic] *)
Definition EOR_BIC_ROR (i : nat) (c : mword) (d : nat) (a : mword) (j : nat) (b : mword) (k : nat)
    (imm : Z) : mword :=
  wset c d i (N.lxor (N.land (wget a j i) (notw 32 (ROR32 (wget b k i) (ROT imm)))) (wget c d i)).
(** asm.h l.47-53: [orr] *)
Definition EOR_ORR_ROR (i : nat) (c : mword) (d : nat) (a : mword) (j : nat) (b : mword) (k : nat)
    (imm : Z) : mword :=
  wset c d i (N.lxor (N.lor (wget a j i) (ROR32 (wget b k i) (ROT imm))) (wget c d i)).

(** word.h l.51-94 *)
Definition MXORBIC (c a b : mword) (i ns : nat) : mword :=
  match ns with
  | 1%nat => (* l.53-55 *)
    EOR_BIC_ROR i c 0 a 0 b 0 0
  | 2%nat => (* l.56-63 *)
    let c := EOR_BIC_ROR i c 0 a 0 b 0 0 in
    let c := EOR_BIC_ROR i c 1 a 1 b 0 (0 - 1) in
    let c := EOR_AND_ROR i c 1 a 1 b 1 0 in
    EOR_AND_ROR i c 0 a 0 b 1 (1 - 0)
  | 3%nat => (* l.64-74 *)
    let c := EOR_AND_ROR i c 0 b 0 a 1 (1 - 0) in
    let c := EOR_BIC_ROR i c 0 a 0 b 0 0 in
    let c := EOR_AND_ROR i c 0 b 0 a 2 (2 - 0) in
    let c := EOR_AND_ROR i c 1 b 1 a 2 (2 - 1) in
    let c := EOR_BIC_ROR i c 1 a 1 b 1 0 in
    let c := EOR_AND_ROR i c 1 b 1 a 0 (0 - 1) in
    let c := EOR_BIC_ROR i c 2 b 2 a 0 (0 - 2) in
    let c := EOR_ORR_ROR i c 2 a 2 b 2 0 in
    EOR_AND_ROR i c 2 b 2 a 1 (1 - 2)
  | 4%nat => (* l.75-92 *)
    let c := EOR_BIC_ROR i c 0 a 0 b 0 0 in
    let c := EOR_BIC_ROR i c 1 a 1 b 0 (0 - 1) in
    let c := EOR_BIC_ROR i c 2 a 2 b 0 (0 - 2) in
    let c := EOR_BIC_ROR i c 3 a 3 b 0 (0 - 3) in
    let c := EOR_AND_ROR i c 1 a 1 b 1 0 in
    let c := EOR_AND_ROR i c 2 a 2 b 1 (1 - 2) in
    let c := EOR_AND_ROR i c 3 a 3 b 1 (1 - 3) in
    let c := EOR_AND_ROR i c 0 a 0 b 1 (1 - 0) in
    let c := EOR_AND_ROR i c 2 a 2 b 2 0 in
    let c := EOR_AND_ROR i c 3 a 3 b 2 (2 - 3) in
    let c := EOR_AND_ROR i c 0 a 0 b 2 (2 - 0) in
    let c := EOR_AND_ROR i c 1 a 1 b 2 (2 - 1) in
    let c := EOR_AND_ROR i c 3 a 3 b 3 0 in
    let c := EOR_AND_ROR i c 0 a 0 b 3 (3 - 0) in
    let c := EOR_AND_ROR i c 1 a 1 b 3 (3 - 1) in
    EOR_AND_ROR i c 2 a 2 b 3 (3 - 2)
  | _ => c
  end.

(** word.h l.96-102 *)
Definition MXORAND (c a b : mword) (ns : nat) : mword :=
  let b := wset b 0 0 (notw 32 (wget b 0 0)) in
  let b := wset b 0 1 (notw 32 (wget b 0 1)) in
  let c := MXORBIC c a b 0 ns in
  MXORBIC c a b 1 ns.

(** One 8-byte draw at position [g] of the tape, as the two halves a
    little-endian host finds in memory. *)
Definition draw (R : N -> N) (g : N) : share := Sh (trunc 32 (R g)) (trunc 32 (shrw (R g) 32)).
(** word.h l.104-109; the draws beyond share [ns] stand for the
    indeterminate content of the local variable *)
Definition MRND (R : N -> N) (g : N) : mword * N :=
  (MW (Sh 0 0) (draw R g) (draw R (g + 1)) (draw R (g + 2)), g + 3).

(** word.h l.111-119 *)
Definition MMIX (w : mword) (ns : nat) : mword :=
  let w := when (2 <=? ns)%nat (fun w => wset w 1 0 (ROR32 (wget w 1 0) 7)) w in
  let w := when (2 <=? ns)%nat (fun w => wset w 1 1 (ROR32 (wget w 1 1) 7)) w in
  let w := when (3 <=? ns)%nat (fun w => wset w 2 0 (ROR32 (wget w 2 0) 13)) w in
  let w := when (3 <=? ns)%nat (fun w => wset w 2 1 (ROR32 (wget w 2 1) 13)) w in
  let w := when (4 <=? ns)%nat (fun w => wset w 3 0 (ROR32 (wget w 3 0) 29)) w in
  when (4 <=? ns)%nat (fun w => wset w 3 1 (ROR32 (wget w 3 1) 29)) w.

(** word.h l.121-129 *)
Definition MREMASK (w r : mword) (nsi nso : nat) : mword :=
  let w := when ((2 <=? nsi)%nat && (nso <? 2)%nat) (fun w => wxor w 0 0 (ROR32 (wget r 1 0) (ROT 1))) w in
  let w := when ((2 <=? nsi)%nat && (nso <? 2)%nat) (fun w => wxor w 0 1 (ROR32 (wget r 1 1) (ROT 1))) w in
  let w := when ((3 <=? nsi)%nat && (nso <? 3)%nat) (fun w => wxor w 0 0 (ROR32 (wget r 2 0) (ROT 2))) w in
  let w := when ((3 <=? nsi)%nat && (nso <? 3)%nat) (fun w => wxor w 0 1 (ROR32 (wget r 2 1) (ROT 2))) w in
  let w := when ((4 <=? nsi)%nat && (nso <? 4)%nat) (fun w => wxor w 0 0 (ROR32 (wget r 3 0) (ROT 3))) w in
  when ((4 <=? nsi)%nat && (nso <? 4)%nat) (fun w => wxor w 0 1 (ROR32 (wget r 3 1) (ROT 3))) w.

(** word.h l.131-133 *)
Definition MREDUCE (w : mword) (nsi nso : nat) : mword := MREMASK w w nsi nso.
(** word.h l.135-137 *)
Definition MEXPAND (w : mword) (nsi nso : nat) : mword := MREMASK w w nso nsi.
(** word.h l.139-145 *)
Definition MREUSE (w : mword) (val : N) (ns : nat) : mword :=
  let w := wset w 0 0 (trunc 32 val) in
  let w := wset w 0 1 (trunc 32 (shrw val 32)) in
  let w := MMIX w ns in
  MREMASK w w ns 1.
(** word.h l.147-152 *)
Definition MZERO (R : N -> N) (g : N) (ns : nat) : mword * N :=
  let '(w, g) := MRND R g in
  let w := MMIX w ns in
  (MREMASK w w ns 1, g).
(** word.h l.154-158 *)
Definition MREFRESH (R : N -> N) (g : N) (w : mword) (ns : nat) : mword * N :=
  let '(r, g) := MRND R g in
  let w := MREMASK w r ns 1 in
  (MXOR w r ns, g).
(** word.h l.160-165; [n < 8] *)
Definition MMASK (w : mword) (n : N) : mword :=
  let mask := shlw 32 0xffffffff (n * 4) in
  let w := wxor w 0 0 mask in
  wxor w 0 1 mask.

(** ** round.h, permutations.c *)

Definition setw (s : mstate) (k : nat) (v : mword) : mstate :=
  let '(MS a b c d e f) := s in
  match k with
  | 0%nat => MS v b c d e f | 1%nat => MS a v c d e f | 2%nat => MS a b v d e f
  | 3%nat => MS a b c v e f | 4%nat => MS a b c d v f | _ => MS a b c d e v
  end.
Definition getw (s : mstate) (k : nat) : mword :=
  match k with
  | 0%nat => y0 s | 1%nat => y1 s | 2%nat => y2 s | 3%nat => y3 s | 4%nat => y4 s | _ => y5 s
  end.
(** [s.x[k].s[d].w[i] ^= v] *)
Definition xxor (s : mstate) (k d i : nat) (v : N) : mstate := setw s k (wxor (getw s k) d i v).

(** round.h l.8-13 *)
Definition AFFINE1 (s : mstate) (i d : nat) : mstate :=
  let s := xxor s 2 d i (wget (getw s 1) d i) in
  let s := xxor s 0 d i (wget (getw s 4) d i) in
  xxor s 4 d i (wget (getw s 3) d i).
(** round.h l.15-21 *)
Definition AFFINE2 (s : mstate) (i d : nat) : mstate :=
  let s := xxor s 2 d i (wget (getw s 5) d i) in
  let s := xxor s 1 d i (wget (getw s 0) d i) in
  let s := xxor s 0 d i (wget (getw s 4) d i) in
  xxor s 3 d i (wget (getw s 2) d i).
(** round.h l.23-42 *)
Definition SBOX (s : mstate) (i ns : nat) : mstate :=
  (* affine layer 1 *)
  let s := when (1 <=? ns)%nat (fun s => AFFINE1 s i 0) s in
  let s := when (2 <=? ns)%nat (fun s => AFFINE1 s i 1) s in
  let s := when (3 <=? ns)%nat (fun s => AFFINE1 s i 2) s in
  let s := when (4 <=? ns)%nat (fun s => AFFINE1 s i 3) s in
  (* Toffoli gates *)
  let s := setw s 5 (MXORBIC (getw s 5) (getw s 4) (getw s 3) i ns) in
  let s := setw s 4 (MXORBIC (getw s 4) (getw s 1) (getw s 0) i ns) in
  let s := setw s 1 (MXORBIC (getw s 1) (getw s 3) (getw s 2) i ns) in
  let s := setw s 3 (MXORBIC (getw s 3) (getw s 0) (getw s 4) i ns) in
  let s := setw s 0 (MXORBIC (getw s 0) (getw s 2) (getw s 1) i ns) in
  (* affine layer 2 *)
  let s := when (1 <=? ns)%nat (fun s => AFFINE2 s i 0) s in
  let s := setw s 2 (wset (getw s 2) 0 i (notw 32 (wget (getw s 2) 0 i))) in
  let s := when (2 <=? ns)%nat (fun s => AFFINE2 s i 1) s in
  let s := when (3 <=? ns)%nat (fun s => AFFINE2 s i 2) s in
  when (4 <=? ns)%nat (fun s => AFFINE2 s i 3) s.

(** round.h l.44-67, share [d] of each word: the halves [t] first, then
    the updates of [s] *)
Definition LINEAR (s : mstate) (d : nat) : mstate :=
  let g k i := wget (getw s k) d i in
  let t00 := N.lxor (g 0%nat 0%nat) (ROR32 (g 0%nat 1%nat) 4) in
  let t01 := N.lxor (g 0%nat 1%nat) (ROR32 (g 0%nat 0%nat) 5) in
  let t10 := N.lxor (g 1%nat 0%nat) (ROR32 (g 1%nat 0%nat) 11) in
  let t11 := N.lxor (g 1%nat 1%nat) (ROR32 (g 1%nat 1%nat) 11) in
  let t20 := N.lxor (g 2%nat 0%nat) (ROR32 (g 2%nat 1%nat) 2) in
  let t21 := N.lxor (g 2%nat 1%nat) (ROR32 (g 2%nat 0%nat) 3) in
  let t30 := N.lxor (g 3%nat 0%nat) (ROR32 (g 3%nat 1%nat) 3) in
  let t31 := N.lxor (g 3%nat 1%nat) (ROR32 (g 3%nat 0%nat) 4) in
  let t40 := N.lxor (g 4%nat 0%nat) (ROR32 (g 4%nat 0%nat) 17) in
  let t41 := N.lxor (g 4%nat 1%nat) (ROR32 (g 4%nat 1%nat) 17) in
  let s := xxor s 0 d 0 (ROR32 t01 9) in
  let s := xxor s 0 d 1 (ROR32 t00 10) in
  let s := xxor s 1 d 0 (ROR32 t11 19) in
  let s := xxor s 1 d 1 (ROR32 t10 20) in
  let s := xxor s 2 d 0 (ROR32 t21 0) in
  let s := xxor s 2 d 1 (ROR32 t20 1) in
  let s := xxor s 3 d 0 (ROR32 t30 5) in
  let s := xxor s 3 d 1 (ROR32 t31 5) in
  let s := xxor s 4 d 0 (ROR32 t41 3) in
  xxor s 4 d 1 (ROR32 t40 4).

(** round.h l.69-85 *)
Definition ROUND_ (s : mstate) (C_o C_e : N) (ns : nat) : mstate :=
  let s := xxor s 2 0 0 C_e in
  let s := SBOX s 0 ns in
  let s := xxor s 2 0 1 C_o in
  let s := SBOX s 1 ns in
  (* reuse rotated randomness *)
  let s := setw s 5 (MREUSE (getw s 5) 0 ns) in
  (* linear layer *)
  let s := when (4 <=? ns)%nat (fun s => LINEAR s 3) s in
  let s := when (3 <=? ns)%nat (fun s => LINEAR s 2) s in
  let s := when (2 <=? ns)%nat (fun s => LINEAR s 1) s in
  when (1 <=? ns)%nat (fun s => LINEAR s 0) s.

(** constants.c l.3-5 *)
Definition mconstants : list N :=
  [0xc; 0xc; 0x9; 0xc; 0xc; 0x9; 0x9; 0x9;
   0x6; 0xc; 0x3; 0xc; 0x6; 0x9; 0x3; 0x9;
   0xc; 0x6; 0x9; 0x6; 0xc; 0x3; 0x9; 0x3].

(** round.h l.91-97 with constants.h l.87-91: the do-while loop from
    [i = START(nr) = 12 - nr] by 1 to 12, and permutations.c l.6-20,
    permutations.h l.11-16: [P(s, nr, ns)] *)
Fixpoint MPROUNDS (fuel i : nat) (s : mstate) (ns : nat) : mstate :=
  match fuel with
  | O => s
  | S fuel =>
    let s := ROUND_ s (nth (2 * i + 1) mconstants 0) (nth (2 * i) mconstants 0) ns in
    if (S i =? 12)%nat then s else MPROUNDS fuel (S i) s ns
  end.
Definition MP (s : mstate) (nr ns : nat) : mstate := MPROUNDS 12 (12 - nr) s ns.

(** ** Share buffers *)

(** A buffer obtained from malloc: base address and uint32_t cells. *)
Record arr := Arr { a_base : N; a_cells : list (option N) }.
Definition alen (a : arr) : N := N.of_nat (length (a_cells a)).

Fixpoint lset {A} (l : list A) (i : nat) (v : A) : list A :=
  match l, i with
  | [], _ => []
  | _ :: r, O => v :: r
  | x :: r, S i => x :: lset r i v
  end.
(** [a[i]] *)
Definition aget (a : arr) (i : N) : C N := fun M =>
  match nth_error (a_cells a) (N.to_nat i) with
  | Some (Some v) => Done [ERead (a_base a + 4 * i) 4] M v
  | _ => Bad ErrIndex
  end.
(** [a[i] = v] *)
Definition aset (a : arr) (i v : N) : C arr := fun M =>
  if i <? alen a then
    Done [EWrite (a_base a + 4 * i) 4] M (Arr (a_base a) (lset (a_cells a) (N.to_nat i) (Some v)))
  else Bad ErrIndex.
(** pointer arithmetic inside a buffer, in cells *)
Definition aoff (a : arr) (off n : N) : C N :=
  if off + n <=? alen a then ret (off + n) else fail ErrPtr.
(** malloc of [bytes] bytes at [base] *)
Definition malloc (base bytes : N) : arr := Arr base (repeat None (N.to_nat (bytes / 4))).

(** shares.h l.9, in unsigned 64-bit arithmetic *)
Definition NUM_WORDS (len : N) : N := trunc 64 ((trunc 64 (len + 7)) / 8 * 2).

(** word.h l.167-180 (ASCON_EXTERN_BI 0) with interleave.h l.9-14: BD is
    TOBI = deinterleave32 without a byte swap *)
Definition LOADSHARE (a : arr) (off : N) (ns : nat) : C share :=
  lo <- aget a off ;;
  hi <- aget a (off + N.of_nat ns) ;;
  let tmp := deinterleave32 LE (N.lor (shlw 64 hi 32) lo) in
  ret (Sh (trunc 32 tmp) (shrw tmp 32)).
(** word.h l.182-193 with interleave.h l.16-21 *)
Definition STORESHARE (a : arr) (off : N) (s : share) (ns : nat) : C arr :=
  let tmp := interleave32 LE (N.lor (shlw 64 (h1 s) 32) (h0 s)) in
  a <- aset a off (trunc 32 tmp) ;;
  aset a (off + N.of_nat ns) (shrw tmp 32).
(** [if (b) w = c] for a compile-time condition *)
Definition whenC {A} (b : bool) (f : A -> C A) (w : A) : C A := if b then f w else ret w.
(** word.h l.195-202 *)
Definition MLOAD (a : arr) (off : N) (ns : nat) : C mword :=
  let w := MW (Sh 0 0) (Sh 0 0) (Sh 0 0) (Sh 0 0) in
  w <- whenC (1 <=? ns)%nat (fun w => s <- LOADSHARE a (off + 0) ns ;; ret (sset w 0 s)) w ;;
  w <- whenC (2 <=? ns)%nat (fun w => s <- LOADSHARE a (off + 1) ns ;; ret (sset w 1 s)) w ;;
  w <- whenC (3 <=? ns)%nat (fun w => s <- LOADSHARE a (off + 2) ns ;; ret (sset w 2 s)) w ;;
  whenC (4 <=? ns)%nat (fun w => s <- LOADSHARE a (off + 3) ns ;; ret (sset w 3 s)) w.
(** word.h l.204-209 *)
Definition MSTORE (a : arr) (off : N) (w : mword) (ns : nat) : C arr :=
  a <- whenC (1 <=? ns)%nat (fun a => STORESHARE a (off + 0) (sget w 0) ns) a ;;
  a <- whenC (2 <=? ns)%nat (fun a => STORESHARE a (off + 1) (sget w 1) ns) a ;;
  a <- whenC (3 <=? ns)%nat (fun a => STORESHARE a (off + 2) (sget w 2) ns) a ;;
  whenC (4 <=? ns)%nat (fun a => STORESHARE a (off + 3) (sget w 3) ns) a.

(** ** aead.c (ASCON_AEAD_RATE 16, ASCON_PA_ROUNDS 12, ASCON_PB_ROUNDS 8) *)

(** api.h l.13-31: the numbers of shares *)
Record cfg := Cfg { nM : nat; nC : nat; nAD : nat; nNPUB : nat; nKEY : nat }.
(** api.h l.13-31: the defaults *)
Definition default_cfg : cfg := Cfg 1 1 1 1 2.

(** constants.h l.34 *)
Definition ASCON_128A_IV : N := 0x00008a0000400201.

Section Mask.
Variable F : cfg.
Variable R : N -> N.

(** aead.c l.7-39 *)
Definition m_initaead (g : N) (k n : arr) : C (mstate * N) :=
  (* randomize the initial state *)
  let '(x5, g) := MZERO R g (nKEY F) in
  let '(x0, g) := MZERO R g (nKEY F) in
  (* set the initial value *)
  let x0 := wxor x0 0 0 (trunc 32 ASCON_128A_IV) in
  let x0 := wxor x0 0 1 (shrw ASCON_128A_IV 32) in
  (* set the nonce *)
  N0 <- MLOAD n 0 (nNPUB F) ;;
  o <- aoff n 0 (2 * N.of_nat (nNPUB F)) ;;
  N1 <- MLOAD n o (nNPUB F) ;;
  let '(x3, x4, g) :=
    if (nKEY F =? nNPUB F)%nat then (N0, N1, g)
    else
      let '(z0, g) := MZERO R g (nKEY F) in
      let '(z1, g) := MZERO R g (nKEY F) in
      (MXOR N0 z0 (nKEY F), MXOR N1 z1 (nKEY F), g) in
  (* first key xor *)
  K1 <- MLOAD k 0 (nKEY F) ;;
  o <- aoff k 0 (2 * N.of_nat (nKEY F)) ;;
  K2 <- MLOAD k o (nKEY F) ;;
  (* compute the permutation *)
  let s := MP (MS x0 K1 K2 x3 x4 x5) 12 (nKEY F) in
  (* second key xor *)
  let s := setw s 3 (MXOR (getw s 3) K1 (nKEY F)) in
  let s := setw s 4 (MXOR (getw s 4) K2 (nKEY F)) in
  ret (s, g).

(** [s->x[i].s[0].w[0] ^= 0x01 << (n * 4)], aead.c l.67, l.114, l.158:
    the shift is of an int *)
Definition m_pad (s : mstate) (i : nat) (n : N) : C mstate :=
  if n * 4 <? 31 then ret (xxor s i 0 0 (shlw 32 0x01 (n * 4))) else fail ErrShift.

(** aead.c l.46-58 *)
Definition m_ad_body (ad : arr) : mstate * N * N -> C (mstate * N * N) := fun '(s, o, adlen) =>
  x <- MLOAD ad o (nAD F) ;;
  let s := setw s 0 (MXOR (getw s 0) x (nAD F)) in
  o1 <- aoff ad o (2 * N.of_nat (nAD F)) ;;
  x <- MLOAD ad o1 (nAD F) ;;
  let s := setw s 1 (MXOR (getw s 1) x (nAD F)) in
  let s := MP s 8 (nAD F) in
  o <- aoff ad o (4 * N.of_nat (nAD F)) ;;
  ret (s, o, sub64 adlen 16).
(** aead.c l.41-78 *)
Definition m_adata (s : mstate) (ad : arr) (adlen : N) : C mstate :=
  b <- branch (negb (adlen =? 0)) ;;
  s <- (if b : bool then
    (* full associated data blocks *)
    '(s, o, adlen) <- while (S (N.to_nat (adlen / 16))) (fun '(_, _, n) => 16 <=? n) (m_ad_body ad)
                        (s, 0, adlen) ;;
    (* final associated data block *)
    b <- branch (8 <=? adlen) ;;
    '(s, i, o, adlen) <- (if b : bool then
      x <- MLOAD ad o (nAD F) ;;
      let s := setw s 0 (MXOR (getw s 0) x (nAD F)) in
      o <- aoff ad o (2 * N.of_nat (nAD F)) ;;
      ret (s, 1%nat, o, sub64 adlen 8)
    else ret (s, 0%nat, o, adlen)) ;;
    s <- m_pad s i adlen ;;
    b <- branch (negb (adlen =? 0)) ;;
    s <- (if b : bool then
      x <- MLOAD ad o (nAD F) ;;
      ret (setw s i (MXOR (getw s i) x (nAD F)))
    else ret s) ;;
    ret (MP s 8 (nAD F))
  else ret s) ;;
  (* domain separation *)
  ret (xxor s 4 0 1 0x80000000).

(** aead.c l.85-101 *)
Definition m_enc_body (m : arr) : mstate * arr * N * N * N -> C (mstate * arr * N * N * N) :=
  fun '(s, c, om, oc, mlen) =>
  x <- MLOAD m om (nM F) ;;
  let s := setw s 0 (MXOR (getw s 0) x (nM F)) in
  c <- MSTORE c oc (MREDUCE (getw s 0) (nM F) (nC F)) (nC F) ;;
  o1 <- aoff m om (2 * N.of_nat (nM F)) ;;
  x <- MLOAD m o1 (nM F) ;;
  let s := setw s 1 (MXOR (getw s 1) x (nM F)) in
  o1 <- aoff c oc (2 * N.of_nat (nC F)) ;;
  c <- MSTORE c o1 (MREDUCE (getw s 1) (nM F) (nC F)) (nC F) ;;
  let s := MP s 8 (nM F) in
  om <- aoff m om (4 * N.of_nat (nM F)) ;;
  oc <- aoff c oc (4 * N.of_nat (nC F)) ;;
  ret (s, c, om, oc, sub64 mlen 16).
(** aead.c l.80-122 *)
Definition m_encrypt (s : mstate) (c m : arr) (mlen : N) : C (mstate * arr) :=
  (* full plaintext blocks *)
  '(s, c, om, oc, mlen) <- while (S (N.to_nat (mlen / 16))) (fun '(_, _, _, _, n) => 16 <=? n)
                             (m_enc_body m) (s, c, 0, 0, mlen) ;;
  (* final plaintext block *)
  b <- branch (8 <=? mlen) ;;
  '(s, i, c, om, oc, mlen) <- (if b : bool then
    x <- MLOAD m om (nM F) ;;
    let s := setw s 0 (MXOR (getw s 0) x (nM F)) in
    c <- MSTORE c oc (MREDUCE (getw s 0) (nM F) (nC F)) (nC F) ;;
    om <- aoff m om (2 * N.of_nat (nM F)) ;;
    oc <- aoff c oc (2 * N.of_nat (nC F)) ;;
    ret (s, 1%nat, c, om, oc, sub64 mlen 8)
  else ret (s, 0%nat, c, om, oc, mlen)) ;;
  s <- m_pad s i mlen ;;
  b <- branch (negb (mlen =? 0)) ;;
  if b : bool then
    x <- MLOAD m om (nM F) ;;
    let s := setw s i (MXOR (getw s i) x (nM F)) in
    c <- MSTORE c oc (MREDUCE (getw s i) (nM F) (nC F)) (nC F) ;;
    ret (s, c)
  else ret (s, c).

(** aead.c l.129-145 *)
Definition m_dec_body (c : arr) : mstate * arr * N * N * N -> C (mstate * arr * N * N * N) :=
  fun '(s, m, om, oc, clen) =>
  x <- MLOAD c oc (nC F) ;;
  let s := setw s 0 (MXOR (getw s 0) x (nC F)) in
  m <- MSTORE m om (getw s 0) (nM F) ;;
  let s := setw s 0 (MEXPAND x (nC F) (nM F)) in
  o1 <- aoff c oc (2 * N.of_nat (nC F)) ;;
  x <- MLOAD c o1 (nC F) ;;
  let s := setw s 1 (MXOR (getw s 1) x (nC F)) in
  o1 <- aoff m om (2 * N.of_nat (nM F)) ;;
  m <- MSTORE m o1 (getw s 1) (nM F) ;;
  let s := setw s 1 (MEXPAND x (nC F) (nM F)) in
  let s := MP s 8 (nM F) in
  om <- aoff m om (4 * N.of_nat (nM F)) ;;
  oc <- aoff c oc (4 * N.of_nat (nC F)) ;;
  ret (s, m, om, oc, sub64 clen 16).
(** aead.c l.124-169 *)
Definition m_decrypt (s : mstate) (m c : arr) (clen : N) : C (mstate * arr) :=
  (* full ciphertext blocks *)
  '(s, m, om, oc, clen) <- while (S (N.to_nat (clen / 16))) (fun '(_, _, _, _, n) => 16 <=? n)
                             (m_dec_body c) (s, m, 0, 0, clen) ;;
  (* final ciphertext block *)
  b <- branch (8 <=? clen) ;;
  '(s, i, m, om, oc, clen) <- (if b : bool then
    x <- MLOAD c oc (nC F) ;;
    let s := setw s 0 (MXOR (getw s 0) x (nC F)) in
    m <- MSTORE m om (getw s 0) (nM F) ;;
    let s := setw s 0 (MEXPAND x (nC F) (nM F)) in
    om <- aoff m om (2 * N.of_nat (nM F)) ;;
    oc <- aoff c oc (2 * N.of_nat (nC F)) ;;
    ret (s, 1%nat, m, om, oc, sub64 clen 8)
  else ret (s, 0%nat, m, om, oc, clen)) ;;
  s <- m_pad s i clen ;;
  b <- branch (negb (clen =? 0)) ;;
  if b : bool then
    x <- MLOAD c oc (nC F) ;;
    let s := setw s i (MXOR (getw s i) x (nC F)) in
    m <- MSTORE m om (getw s i) (nM F) ;;
    let mask := MMASK (getw s 5) clen in
    let x := MEXPAND x (nC F) (nM F) in
    let s := setw s i (MXORAND x mask (getw s i) (nM F)) in
    let s := setw s 5 (MREUSE (getw s 5) 0 (nM F)) in
    ret (s, m)
  else ret (s, m).

(** aead.c l.171-194 (rate 16: the key is added to x2, x3) *)
Definition m_final (s : mstate) (k : arr) : C mstate :=
  K1 <- MLOAD k 0 (nKEY F) ;;
  o <- aoff k 0 (2 * N.of_nat (nKEY F)) ;;
  K2 <- MLOAD k o (nKEY F) ;;
  let s := setw s 2 (MXOR (getw s 2) K1 (nKEY F)) in
  let s := setw s 3 (MXOR (getw s 3) K2 (nKEY F)) in
  let s := MP s 12 (nKEY F) in
  let s := setw s 3 (MXOR (getw s 3) K1 (nKEY F)) in
  let s := setw s 4 (MXOR (getw s 4) K2 (nKEY F)) in
  ret s.

(** aead.c l.196-201 *)
Definition m_settag (s : mstate) (t : arr) (o : N) : C arr :=
  let s := setw s 3 (MREDUCE (getw s 3) (nKEY F) (nC F)) in
  let s := setw s 4 (MREDUCE (getw s 4) (nKEY F) (nC F)) in
  t <- MSTORE t o (getw s 3) (nC F) ;;
  o <- aoff t o (2 * N.of_nat (nC F)) ;;
  MSTORE t o (getw s 4) (nC F).

(** aead.c l.217 *)
Definition tag_c : list N := [0xc7c72006; 0xc3bfab9c; 0x18213f82; 0x0653ed71].

(** aead.c l.220-239 (ASCON_PRINT_STATE not defined) *)
Definition m_xortag (s : mstate) (t : arr) (o : N) : C mstate :=
  let s := setw s 0 (MREUSE (getw s 0) 0 (nKEY F)) in
  let s := setw s 1 (MREUSE (getw s 1) 0 (nKEY F)) in
  let s := setw s 2 (MREUSE (getw s 2) 0 (nKEY F)) in
  t0 <- MLOAD t o (nC F) ;;
  let s := setw s 3 (MXOR (getw s 3) t0 (nC F)) in
  o <- aoff t o (2 * N.of_nat (nC F)) ;;
  t1 <- MLOAD t o (nC F) ;;
  let s := setw s 4 (MXOR (getw s 4) t1 (nC F)) in
  (* compute P(0) if tags are equal *)
  let s := MP s 8 (nKEY F) in
  (* xor expected result to x3, x4 *)
  let s := xxor s 3 0 0 (nth 0 tag_c 0) in
  let s := xxor s 3 0 1 (nth 1 tag_c 0) in
  let s := xxor s 4 0 0 (nth 2 tag_c 0) in
  ret (xxor s 4 0 1 (nth 3 tag_c 0)).

(** aead.c l.241-250; the last line is the one of [NOTZERO], ModelCommon.v *)
Definition m_iszero (s : mstate) : Z :=
  let s := setw s 3 (MREDUCE (getw s 3) (nKEY F) 1) in
  let s := setw s 4 (MREDUCE (getw s 4) (nKEY F) 1) in
  let result := N.lxor (wget (getw s 3) 0 0) (wget (getw s 3) 0 1) in
  let result := N.lxor result (N.lxor (wget (getw s 4) 0 0) (wget (getw s 4) 0 1)) in
  let result := N.lor result (shrw result 16) in
  let result := N.lor result (shrw result 8) in
  (Z.land (Z.shiftr (Z.of_N (N.land result 0xff) - 1) 8) 1 - 1)%Z.

Definition on_words (f : mword -> mword) (s : mstate) : mstate :=
  MS (f (y0 s)) (f (y1 s)) (f (y2 s)) (f (y3 s)) (f (y4 s)) (f (y5 s)).
Definition refresh_words (s : mstate) (g : N) (ns : nat) : mstate * N :=
  let '(a, g) := MREFRESH R g (y0 s) ns in
  let '(b, g) := MREFRESH R g (y1 s) ns in
  let '(c, g) := MREFRESH R g (y2 s) ns in
  let '(d, g) := MREFRESH R g (y3 s) ns in
  let '(e, g) := MREFRESH R g (y4 s) ns in
  let '(f, g) := MREFRESH R g (y5 s) ns in
  (MS a b c d e f, g).
(** aead.c l.253-260 *)
Definition m_level_adata (s : mstate) : mstate := on_words (fun w => MREDUCE w (nKEY F) (nAD F)) s.
(** aead.c l.264-279 *)
Definition m_level_encdec (s : mstate) (g : N) : mstate * N :=
  let s := on_words (fun w => MEXPAND w (nAD F) (nM F)) s in
  if (nAD F <? nM F)%nat then refresh_words s g (nM F) else (s, g).
(** aead.c l.283-298 *)
Definition m_level_final (s : mstate) (g : N) : mstate * N :=
  let s := on_words (fun w => MEXPAND w (nM F) (nKEY F)) s in
  if (nM F <? nKEY F)%nat then refresh_words s g (nKEY F) else (s, g).

(** ** crypto_aead_shared.c *)

(** crypto_aead_shared.c l.9-27; gives the buffer [cs] back *)
Definition m_encrypt_shared (e : endian) (g : N) (cs : arr) (clen : ptr) (ms : arr) (mlen : N)
    (ads : arr) (adlen : N) (npubs ks : arr) : C (arr * Z) :=
  store_ull e clen (add64 mlen 16) ;;;
  '(s, g) <- m_initaead g ks npubs ;;
  let s := if (nKEY F =? nAD F)%nat then s else m_level_adata s in
  s <- m_adata s ads adlen ;;
  let '(s, g) := if (nAD F =? nM F)%nat then (s, g) else m_level_encdec s g in
  '(s, cs) <- m_encrypt s cs ms mlen ;;
  let '(s, g) := if (nM F =? nKEY F)%nat then (s, g) else m_level_final s g in
  s <- m_final s ks ;;
  o <- aoff cs 0 (NUM_WORDS mlen * N.of_nat (nC F)) ;;
  cs <- m_settag s cs o ;;
  ret (cs, 0%Z).

(** crypto_aead_shared.c l.29-47; gives the buffer [ms] back *)
Definition m_decrypt_shared (e : endian) (g : N) (ms : arr) (mlen : ptr) (cs : arr) (clen : N)
    (ads : arr) (adlen : N) (npubs ks : arr) : C (arr * Z) :=
  store_ull e mlen (sub64 clen 16) ;;;
  '(s, g) <- m_initaead g ks npubs ;;
  let s := if (nKEY F =? nAD F)%nat then s else m_level_adata s in
  s <- m_adata s ads adlen ;;
  let '(s, g) := if (nAD F =? nM F)%nat then (s, g) else m_level_encdec s g in
  n <- load_ull e mlen ;;
  '(s, ms) <- m_decrypt s ms cs n ;;
  let '(s, g) := if (nM F =? nKEY F)%nat then (s, g) else m_level_final s g in
  s <- m_final s ks ;;
  n <- load_ull e mlen ;;
  o <- aoff cs 0 (NUM_WORDS n * N.of_nat (nC F)) ;;
  s <- m_xortag s cs o ;;
  ret (ms, m_iszero s).

(** ** shares.c (ASCON_EXTERN_BI 0) *)

(** shares.c l.75-87, the body of the loop over [d] *)
Definition gs_share (ns i : N) : N -> arr * N -> C (arr * N) := fun d '(a, g) =>
  let rnd := trunc 64 (R g) in
  a <- aset a ((i + 0) * ns + d) (trunc 32 rnd) ;;
  a <- aset a ((i + 1) * ns + d) (trunc 32 (shrw rnd 32)) ;;
  let rnd := w64_ROR rnd (ROT (2 * Z.of_N d)) in
  x <- aget a ((i + 0) * ns + 0) ;;
  a <- aset a ((i + 0) * ns + 0) (N.lxor x (trunc 32 rnd)) ;;
  x <- aget a ((i + 1) * ns + 0) ;;
  a <- aset a ((i + 1) * ns + 0) (N.lxor x (trunc 32 (shrw rnd 32))) ;;
  ret (a, g + 1).
(** shares.c l.72-88, the body of the loop over [i], [i = 2 * j] *)
Definition gs_random (ns : N) : N -> arr * N -> C (arr * N) := fun j '(a, g) =>
  let i := 2 * j in
  a <- aset a ((i + 0) * ns + 0) 0 ;;
  a <- aset a ((i + 1) * ns + 0) 0 ;;
  for_loop (N.to_nat (ns - 1)) 1 (gs_share ns i) (a, g).
(** [s[j * ns] ^= (uint32_t)x; s[(j + 1) * ns] ^= x >> 32], shares.c
    l.97-98, l.110-111 *)
Definition gs_xor (ns j x : N) (a : arr) : C arr :=
  v <- aget a ((j + 0) * ns + 0) ;;
  a <- aset a ((j + 0) * ns + 0) (N.lxor v (trunc 32 x)) ;;
  v <- aget a ((j + 1) * ns + 0) ;;
  aset a ((j + 1) * ns + 0) (N.lxor v (trunc 32 (shrw x 32))).
(** shares.c l.90-99, the body of the loop over complete words *)
Definition gs_word (e : endian) (ns : N) (data : ptr) : N -> arr -> C arr := fun i a =>
  q <- padd data (i * 8) ;;
  l <- memcpy_in q 8 ;;
  gs_xor ns (2 * i) (U64LE e (from_host e l)) a.
(** shares.c l.103-105, the body of the loop over the remaining bytes *)
Definition gs_byte (data : ptr) : N -> N -> C N := fun i x =>
  b <- ld data i ;;
  ret (N.lxor x (shlw 64 (b2n b) (i mod 8 * 8))).
(** shares.c l.68-113 *)
Definition generate_shares (e : endian) (g : N) (a : arr) (nsn : nat) (data : ptr) (len : N) : C (arr * N) :=
  let ns := N.of_nat nsn in
  (* generate random shares *)
  '(a, g) <- for_loop (N.to_nat (NUM_WORDS len / 2)) 0 (gs_random ns) (a, g) ;;
  (* mask complete words *)
  a <- for_loop (N.to_nat (len / 8)) 0 (gs_word e ns data) a ;;
  (* mask remaining bytes *)
  b <- branch (negb (len / 8 * 8 =? len)) ;;
  if b : bool then
    x <- for_loop (N.to_nat (len - len / 8 * 8)) (len / 8 * 8) (gs_byte data) 0 ;;
    a <- gs_xor ns (2 * (len / 8)) (U64LE e x) a ;;
    ret (a, g)
  else ret (a, g).

(** shares.c l.122-131 (and l.141-150), the loop over [d] *)
Definition cs_share (ns i : N) (a : arr) : N -> N -> C N := fun d x =>
  rnd0 <- aget a ((2 * i + 0) * ns + d) ;;
  rnd1 <- aget a ((2 * i + 1) * ns + d) ;;
  ret (N.lxor x (w64_ROR (N.lor (shlw 64 rnd1 32) rnd0) (ROT (2 * Z.of_N d)))).
(** shares.c l.120-137, the body of the loop over complete words *)
Definition cs_word (e : endian) (ns : N) (a : arr) (data : ptr) : N -> unit -> C unit := fun i _ =>
  x <- for_loop (N.to_nat ns) 0 (cs_share ns i a) 0 ;;
  let x := U64LE e x in
  q <- padd data (i * 8) ;;
  memcpy_out q (to_host e 8 x).
(** shares.c l.155-157, the body of the loop over the remaining bytes *)
Definition cs_byte (data : ptr) (x : N) : N -> unit -> C unit := fun i _ =>
  st data i (n2b (shrw x (i mod 8 * 8))).
(** shares.c l.115-159 *)
Definition combine_shares (e : endian) (data : ptr) (len : N) (a : arr) (off : N) (nsn : nat) : C unit :=
  let ns := N.of_nat nsn in
  let a := Arr (a_base a + 4 * off) (skipn (N.to_nat off) (a_cells a)) in
  (* unmask complete words *)
  for_loop (N.to_nat (len / 8)) 0 (cs_word e ns a data) tt ;;;
  (* unmask remaining bytes *)
  b <- branch (negb (len / 8 * 8 =? len)) ;;
  if b : bool then
    x <- for_loop nsn 0 (cs_share ns (len / 8) a) 0 ;;
    let x := U64LE e x in
    for_loop (N.to_nat (len - len / 8 * 8)) (len / 8 * 8) (cs_byte data x) tt
  else ret tt.

(** [generate_shares] into the buffer [a] from cell [off] on *)
Definition generate_shares_at (e : endian) (g : N) (a : arr) (off : N) (nsn : nat) (data : ptr) (len : N)
    : C (arr * N) :=
  '(b, g) <- generate_shares e g (Arr (a_base a + 4 * off) (skipn (N.to_nat off) (a_cells a))) nsn data len ;;
  ret (Arr (a_base a) (firstn (N.to_nat off) (a_cells a) ++ a_cells b), g).

(** ** crypto_aead.c *)

(** malloc(sizeof(share array) * NUM_WORDS(len)), crypto_aead.c l.28-32, l.68-72,
    in size_t = 64-bit arithmetic *)
Definition malloc_shares (base : N) (ns : nat) (len : N) : arr :=
  malloc base (trunc 64 (4 * N.of_nat ns * NUM_WORDS len)).

(** The addresses malloc returns for the five buffers. *)
Record heap := Heap { b_k : N; b_n : N; b_a : N; b_m : N; b_c : N }.

(** crypto_aead.c l.16-51, shares.c l.26-37, l.55-61 *)
Definition masked_encrypt (e : endian) (H : heap) (c clen m : ptr) (mlen : N) (ad : ptr) (adlen : N)
    (nsec npub k : ptr) : C Z :=
  let ks := malloc_shares (b_k H) (nKEY F) 16 in
  let ns := malloc_shares (b_n H) (nNPUB F) 16 in
  let as_ := malloc_shares (b_a H) (nAD F) adlen in
  let ms := malloc_shares (b_m H) (nM F) mlen in
  let cs := malloc_shares (b_c H) (nC F) (add64 mlen 16) in
  (* mask plain input data *)
  '(ks, g) <- generate_shares e 0 ks (nKEY F) k 16 ;;
  '(ns, g) <- generate_shares e g ns (nNPUB F) npub 16 ;;
  '(as_, g) <- generate_shares e g as_ (nAD F) ad adlen ;;
  '(ms, g) <- generate_shares e g ms (nM F) m mlen ;;
  (* call shared interface of ascon encrypt *)
  '(cs, _) <- m_encrypt_shared e g cs clen ms mlen as_ adlen ns ks ;;
  (* unmask shared output data *)
  n <- load_ull e clen ;;
  let mlen := sub64 n 16 in
  o <- aoff cs 0 (NUM_WORDS mlen * N.of_nat (nC F)) ;;
  combine_shares e c mlen cs 0 (nC F) ;;;
  q <- padd c mlen ;;
  combine_shares e q 16 cs o (nC F) ;;;
  ret 0%Z.

(** crypto_aead.c l.53-90, shares.c l.39-53, l.63-66 *)
Definition masked_decrypt (e : endian) (H : heap) (m mlen nsec c : ptr) (clen : N) (ad : ptr) (adlen : N)
    (npub k : ptr) : C Z :=
  b <- branch (clen <? 16) ;;
  if b : bool then ret (-1)%Z else
  let ks := malloc_shares (b_k H) (nKEY F) 16 in
  let ns := malloc_shares (b_n H) (nNPUB F) 16 in
  let as_ := malloc_shares (b_a H) (nAD F) adlen in
  let ms := malloc_shares (b_m H) (nM F) (sub64 clen 16) in
  let cs := malloc_shares (b_c H) (nC F) clen in
  (* mask plain input data *)
  let n := sub64 clen 16 in
  o <- aoff cs 0 (NUM_WORDS n * N.of_nat (nC F)) ;;
  '(ks, g) <- generate_shares e 0 ks (nKEY F) k 16 ;;
  '(ns, g) <- generate_shares e g ns (nNPUB F) npub 16 ;;
  '(as_, g) <- generate_shares e g as_ (nAD F) ad adlen ;;
  '(cs, g) <- generate_shares e g cs (nC F) c n ;;
  q <- padd c n ;;
  '(cs, g) <- generate_shares_at e g cs o (nC F) q 16 ;;
  (* call shared interface of ascon decrypt *)
  '(ms, result) <- m_decrypt_shared e g ms mlen cs clen as_ adlen ns ks ;;
  (* unmask shared output data *)
  n <- load_ull e mlen ;;
  combine_shares e m n ms 0 (nM F) ;;;
  ret result.
End Mask.
