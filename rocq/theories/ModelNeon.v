(** * ModelNeon.v -- the NEON implementation.

    Models src/neon/{round.h,permutations.h,aead.c}, of which the
    directories neon of crypto_aead/asconaead128,
    crypto_aead_hash/asconaeadxof128, crypto_hash/asconhash256 and
    crypto_hash/asconxof128 hold verbatim copies.  hash.c, word.h,
    lendian.h and constants.h next to them are those of opt64, and aead.c
    differs from src/aead.c only in the loops over full blocks, which are
    inline assembly.

    The meaning of the instructions (ARM Architecture Reference Manual,
    ARMv7-A) is part of the trusted base, and so is that the compiler
    respects the register operands and clobbers of the asm statements.  Three
    simplifications: a 64-bit load or store moves the bytes of the register
    in little-endian order (big-endian hosts are not modelled); the state
    structure, which is never at the address of a caller's buffer, is passed
    by value; the NEON registers have the same content [u] at the start of
    every asm statement.  The content is indeterminate: the instructions
    vsri read registers before anything is written to them.  [u] is a
    parameter, and nothing depends on it (C43 in PropertiesNeon.v). *)
From Coq Require Import Bool NArith ZArith List Init.Byte.
From Verif Require Import Words CMem ModelRef ModelCommon ModelWords.
Import ListNotations.
Local Open Scope N_scope.

(** ** The machine: d0 to d31, 64 bits each; q[i] is d[2i], d[2i+1] *)

Definition dregs := N -> N.
Definition setd (r : dregs) (d v : N) : dregs := fun i => if i =? d then v else r i.

Inductive neon :=
  | VEOR (d n m : N)   (** veor dD, dN, dM *)
  | VEORQ (d n m : N)  (** veor qD, qN, qM *)
  | VBIC (d n m : N)   (** vbic dD, dN, dM: dN and not dM *)
  | VMVN (d m : N)     (** vmvn dD, dM *)
  | VMOVQ (d m : N)    (** vmov qD, qM *)
  | VSRI (d m i : N)   (** vsri.64 dD, dM, #i: shift right, the top i bits of dD stay *)
  | VSLI (d m i : N)   (** vsli.64 dD, dM, #i: shift left, the low i bits of dD stay *)
  | VLDC (d off : N)   (** vldr dD, [C, #off] *).

(** permutations.h l.13-18 *)
Definition neon_C : list N :=
  [0xffffffffffffff0f; 0xffffffffffffff1e; 0xffffffffffffff2d;
   0xffffffffffffff3c; 0xffffffffffffff4b; 0xffffffffffffff5a;
   0xffffffffffffff69; 0xffffffffffffff78; 0xffffffffffffff87;
   0xffffffffffffff96; 0xffffffffffffffa5; 0xffffffffffffffb4].

Definition vsri (d m i : N) : N :=
  N.lor (N.land d (shlw 64 (N.ones i) (64 - i))) (shrw m i).
Definition vsli (d m i : N) : N := N.lor (N.land d (N.ones i)) (shlw 64 m i).

Definition exec (r : dregs) (i : neon) : dregs :=
  match i with
  | VEOR d n m => setd r d (N.lxor (r n) (r m))
  | VEORQ d n m =>
      let lo := N.lxor (r (2 * n)) (r (2 * m)) in
      let hi := N.lxor (r (2 * n + 1)) (r (2 * m + 1)) in
      setd (setd r (2 * d) lo) (2 * d + 1) hi
  | VBIC d n m => setd r d (N.land (r n) (notw 64 (r m)))
  | VMVN d m => setd r d (notw 64 (r m))
  | VMOVQ d m =>
      let lo := r (2 * m) in let hi := r (2 * m + 1) in
      setd (setd r (2 * d) lo) (2 * d + 1) hi
  | VSRI d m i => setd r d (vsri (r d) (r m) i)
  | VSLI d m i => setd r d (vsli (r d) (r m) i)
  | VLDC d off => setd r d (nth (N.to_nat (off / 8)) neon_C 0)
  end.
Definition execs (code : list neon) (r : dregs) : dregs := fold_left exec code r.

(** vldm/vstm of the state: d0 to d4 *)
Definition ldstate (r : dregs) (s : state) : dregs :=
  setd (setd (setd (setd (setd r 0 (X0 s)) 1 (X1 s)) 2 (X2 s)) 3 (X3 s)) 4 (X4 s).
Definition ststate (r : dregs) : state := St (r 0) (r 1) (r 2) (r 3) (r 4).

(** ** round.h l.10-52 *)
Definition nROUND (OFFSET : N) : list neon :=
  [VLDC 31 OFFSET;
   VEOR 0 0 4; VEOR 4 4 3; VEOR 2 2 31;
   VBIC 13 0 4; VBIC 12 4 3; VEOR 2 2 1; VBIC 14 1 0; VBIC 11 3 2; VBIC 10 2 1;
   VEORQ 0 0 5; VEORQ 1 1 6; VEOR 4 4 14; VEOR 1 1 0; VEOR 3 3 2; VEOR 0 0 4;
   VSRI 14 4 7; VSRI 24 4 41; VSRI 11 1 39; VSRI 21 1 61; VSRI 10 0 19; VSRI 20 0 28;
   VSRI 12 2 1; VSRI 22 2 6; VSRI 13 3 10; VSRI 23 3 17;
   VSLI 10 0 45; VSLI 20 0 36; VSLI 11 1 25; VSLI 21 1 3; VSLI 12 2 63; VSLI 22 2 58;
   VSLI 13 3 54; VSLI 23 3 47; VSLI 14 4 57; VSLI 24 4 23;
   VEORQ 5 5 0; VEORQ 6 6 1; VEOR 14 14 4; VEORQ 0 5 10; VEOR 4 14 24; VEORQ 1 6 11].

(** ** permutations.h *)

(** permutations.h l.20-32, l.34-42, l.44-50 *)
Definition P12ROUNDS : list neon := flat_map nROUND [0; 8; 16; 24; 32; 40; 48; 56; 64; 72; 80; 88].
Definition P8ROUNDS : list neon := flat_map nROUND [32; 40; 48; 56; 64; 72; 80; 88].
Definition P6ROUNDS : list neon := flat_map nROUND [48; 56; 64; 72; 80; 88].

(** permutations.h l.52-65, l.67-80, l.82-95 *)
Definition nP_asm (rounds : list neon) (u : dregs) (s : state) : state :=
  ststate (execs ([VMVN 2 2] ++ rounds ++ [VMVN 2 2]) (ldstate u s)).

(** permutations.h l.97-101 *)
Definition nP (u : dregs) (nr : N) (s : state) : state :=
  let s := if nr =? 12 then nP_asm P12ROUNDS u s else s in
  let s := if nr =? 8 then nP_asm P8ROUNDS u s else s in
  if nr =? 6 then nP_asm P6ROUNDS u s else s.

(** The primitives of opt64 with this permutation. *)
Definition neon_ops (u : dregs) : endian -> wordops := w64 (nP u).

(** ** aead.c *)

(** The flags Z and C. *)
Definition flags := (bool * bool)%type.
(** cmp a, #b *)
Definition cmp (a b : N) : flags := (a =? b, b <=? a).
(** cmpeq a, #b *)
Definition cmpeq (f : flags) (a b : N) : flags := if fst f then cmp a b else f.
(** condition hi; bls branches on its negation *)
Definition is_hi (f : flags) : bool := snd f && negb (fst f).
(** sub a, a, #b: no flags *)
Definition sub32 (a b : N) : N := trunc 32 (a + 2 ^ 32 - b).
(** sbc a, a, #b: the carry flag is a negated borrow *)
Definition sbc32 (f : flags) (a b : N) : N := sub32 a (b + if snd f then 0 else 1).

(** the comparison before and at the end of each loop, R = 16 *)
Definition cmplen (hi lo : N) : flags := cmpeq (cmp hi 0) lo 15.

(** vldm and vstm of a pair of d registers through a pointer to bytes: an
    address that is no multiple of 4 is an alignment fault *)
Definition vldm (p : ptr) : C (N * N) :=
  if p mod 4 =? 0 then
    l <- memcpy_in p 16 ;;
    ret (le_num (firstn 8 l), le_num (skipn 8 l))
  else fail (ErrAlign p).
Definition vstm (p : ptr) (a b : N) : C unit :=
  if p mod 4 =? 0 then memcpy_out p (le_bytes 8 a ++ le_bytes 8 b) else fail (ErrAlign p).
Definition setq (r : dregs) (q : N) (v : N * N) : dregs := setd (setd r (2 * q) (fst v)) (2 * q + 1) (snd v).

(** the state permuted in the registers *)
Definition round_code : list neon := [VMVN 2 2] ++ P8ROUNDS ++ [VMVN 2 2].

(** aead.c l.17-27: registers, ad, adlen_hi, adlen_lo, flags *)
Definition n_ad_body (v : dregs * ptr * N * N * flags) : C (dregs * ptr * N * N * flags) :=
  let '(r, ad, hi, lo, f) := v in
  q <- vldm ad ;; ad <- padd ad 16 ;;
  let r := setq r 8 q in
  let r := execs ([VEORQ 0 0 8] ++ round_code) r in
  let lo := sub32 lo 16 in
  let hi := sbc32 f hi 0 in
  ret (r, ad, hi, lo, cmplen hi lo).
(** aead.c l.7-38; one test of the condition before each pass, bls before
    the first and bhi before the others *)
Definition nAD (u : dregs) (s : state) (ad : ptr) (adlen : N) : C (state * ptr * N) :=
  let hi := trunc 32 (shrw adlen 32) in
  let lo := trunc 32 adlen in
  '(r, ad, hi, lo, _) <-
    while (fuel adlen 16) (fun '(_, _, _, _, f) => is_hi f) n_ad_body (ldstate u s, ad, hi, lo, cmplen hi lo) ;;
  ret (ststate r, ad, N.lor (shlw 64 hi 32) lo).

(** aead.c l.154-180 *)
Definition n_adata (u : dregs) (s : state) (ad : ptr) (adlen : N) : C state :=
  b <- branch (negb (adlen =? 0)) ;;
  s <- (if b : bool then
    '(s, ad, adlen) <- nAD u s ad adlen ;;
    s <- ad_last LE (neon_ops u LE) s ad adlen ;;
    ret (nP u 8 s)
  else ret s) ;;
  ret (xorx s 4 (w_dsep (neon_ops u LE))).

(** aead.c l.50-61 *)
Definition n_enc_body (v : dregs * ptr * ptr * N * N * flags) : C (dregs * ptr * ptr * N * N * flags) :=
  let '(r, m, c, hi, lo, f) := v in
  q <- vldm m ;; m <- padd m 16 ;;
  let r := setq r 8 q in
  let r := execs [VEORQ 0 0 8] r in
  vstm c (r 0) (r 1) ;;; c <- padd c 16 ;;
  let r := execs round_code r in
  let lo := sub32 lo 16 in
  let hi := sbc32 f hi 0 in
  ret (r, m, c, hi, lo, cmplen hi lo).
(** aead.c l.40-72 *)
Definition nPT (u : dregs) (s : state) (m c : ptr) (mlen : N) : C (state * ptr * ptr * N) :=
  let hi := trunc 32 (shrw mlen 32) in
  let lo := trunc 32 mlen in
  '(r, m, c, hi, lo, _) <-
    while (fuel mlen 16) (fun '(_, _, _, _, _, f) => is_hi f) n_enc_body (ldstate u s, m, c, hi, lo, cmplen hi lo) ;;
  ret (ststate r, m, c, N.lor (shlw 64 hi 32) lo).
(** aead.c l.182-206 *)
Definition n_encrypt (u : dregs) (s : state) (c m : ptr) (mlen : N) : C state :=
  '(s, m, c, mlen) <- nPT u s m c mlen ;;
  enc_last LE (neon_ops u LE) s m c mlen.

(** aead.c l.84-96 *)
Definition n_dec_body (v : dregs * ptr * ptr * N * N * flags) : C (dregs * ptr * ptr * N * N * flags) :=
  let '(r, m, c, hi, lo, f) := v in
  q <- vldm c ;; c <- padd c 16 ;;
  let r := setq r 13 q in
  let r := execs [VEORQ 8 0 13] r in
  vstm m (r 16) (r 17) ;;; m <- padd m 16 ;;
  let r := execs ([VMOVQ 0 13] ++ round_code) r in
  let lo := sub32 lo 16 in
  let hi := sbc32 f hi 0 in
  ret (r, m, c, hi, lo, cmplen hi lo).
(** aead.c l.74-107 *)
Definition nCT (u : dregs) (s : state) (m c : ptr) (clen : N) : C (state * ptr * ptr * N) :=
  let hi := trunc 32 (shrw clen 32) in
  let lo := trunc 32 clen in
  '(r, m, c, hi, lo, _) <-
    while (fuel clen 16) (fun '(_, _, _, _, _, f) => is_hi f) n_dec_body (ldstate u s, m, c, hi, lo, cmplen hi lo) ;;
  ret (ststate r, m, c, N.lor (shlw 64 hi 32) lo).
(** aead.c l.208-237 *)
Definition n_decrypt (u : dregs) (s : state) (m c : ptr) (clen : N) : C state :=
  '(s, m, c, clen) <- nCT u s m c clen ;;
  dec_last LE (neon_ops u LE) s m c clen.

(** aead.c l.116-152, l.239-275 have the text of src/aead.c. *)

(** aead.c l.277-289 *)
Definition n_aead_encrypt (u : dregs) (t c m : ptr) (mlen : N) (ad : ptr) (adlen : N) (npub k : ptr) : C Z :=
  let o := neon_ops u LE in
  key <- ascon_loadkey LE o k ;;
  s <- ascon_initaead LE o key npub ;;
  s <- n_adata u s ad adlen ;;
  s <- n_encrypt u s c m mlen ;;
  let s := ascon_final o s key in
  ascon_gettag LE o s t ;;;
  ret 0%Z.

(** aead.c l.291-302 *)
Definition n_aead_decrypt (u : dregs) (m t c : ptr) (clen : N) (ad : ptr) (adlen : N) (npub k : ptr) : C Z :=
  let o := neon_ops u LE in
  key <- ascon_loadkey LE o k ;;
  s <- ascon_initaead LE o key npub ;;
  s <- n_adata u s ad adlen ;;
  s <- n_decrypt u s m c clen ;;
  let s := ascon_final o s key in
  ascon_verify LE o s t.

(** aead.c l.304-324 *)
Definition neon_aead_encrypt (u : dregs) (c clen m : ptr) (mlen : N)
    (ad : ptr) (adlen : N) (nsec npub k : ptr) : C Z :=
  store_ull LE clen (add64 mlen CRYPTO_ABYTES) ;;;
  t <- padd c mlen ;;
  n_aead_encrypt u t c m mlen ad adlen npub k.

(** aead.c l.326-347 *)
Definition neon_aead_decrypt (u : dregs) (m mlen nsec c : ptr) (clen : N)
    (ad : ptr) (adlen : N) (npub k : ptr) : C Z :=
  b <- branch (clen <? CRYPTO_ABYTES) ;;
  if b : bool then ret (-1)%Z else
  store_ull LE mlen (sub64 clen CRYPTO_ABYTES) ;;;
  n <- load_ull LE mlen ;;
  t <- padd c n ;;
  n <- load_ull LE mlen ;;
  n_aead_decrypt u m t c n ad adlen npub k.
