(** * ModelAvx.v -- the AVX-512 implementation.

    Models src/avx512/{ascon.h,round.h,aead.c,hash.c}, of which the
    directories avx512 of crypto_aead/asconaead128,
    crypto_aead_hash/asconaeadxof128, crypto_hash/asconhash256 and
    crypto_hash/asconxof128 hold verbatim copies; the files word.h,
    lendian.h, constants.h, permutations.h, config.h next to them are those
    of opt64 (ModelCommon.v, ModelWords.v).  The host is x86: little-endian.

    The meaning of the vector intrinsics (Intel's Intrinsics Guide) is
    part of the trusted base.  ASCON_AEAD_RATE is 16 and CRYPTO_KEYBYTES 16
    in these directories; comparisons of preprocessor constants are
    resolved. *)
From Coq Require Import Bool NArith ZArith List Init.Byte.
From Verif Require Import Words CMem ModelRef ModelCommon ModelWords.
Import ListNotations.
Local Open Scope N_scope.

(** ** The vector registers *)

(** ascon.h l.10-15: [__m512i z], eight 64-bit lanes; the union member
    [x[5]] is lanes 0 to 4.  Lanes 5 to 7 of an automatic variable that
    is only assigned through [x] are indeterminate. *)
Record zmm := Zm { zx : state; z5 : N; z6 : N; z7 : N }.

(** lane [i] *)
Definition lane (v : zmm) (i : N) : N :=
  if i <? 5 then getx (zx v) i else if i =? 5 then z5 v else if i =? 6 then z6 v else z7 v.
Definition mkvec (f : N -> N) : zmm := Zm (St (f 0) (f 1) (f 2) (f 3) (f 4)) (f 5) (f 6) (f 7).
(** _mm512_set_epi64: the arguments are lanes 7 to 0 *)
Definition set_epi64 (a7 a6 a5 a4 a3 a2 a1 a0 : N) : zmm := Zm (St a0 a1 a2 a3 a4) a5 a6 a7.
(** _mm512_permutexvar_epi64(idx, a): dst.lane[i] = a.lane[idx.lane[i] mod 8] *)
Definition permutexvar (idx a : zmm) : zmm := mkvec (fun i => lane a (lane idx i mod 8)).
(** _mm512_maskz_permutexvar_epi64(k, idx, a): lanes without mask bit are zero *)
Definition maskz_permutexvar (k : N) (idx a : zmm) : zmm :=
  mkvec (fun i => if N.testbit k i then lane a (lane idx i mod 8) else 0).
(** _mm512_ternarylogic_epi64(a, b, c, imm8): bitwise, by the truth table imm8 *)
Definition ternlog (a b c imm8 : N) : N :=
  of_bits 64 (fun i => N.testbit imm8
    (4 * N.b2n (N.testbit a i) + 2 * N.b2n (N.testbit b i) + N.b2n (N.testbit c i))).
Definition ternarylogic (a b c : zmm) (imm8 : N) : zmm :=
  mkvec (fun i => ternlog (lane a i) (lane b i) (lane c i) imm8).
(** _mm512_rorv_epi64(a, n): lane i rotated right by n.lane[i] mod 64 *)
Definition rorv (a n : zmm) : zmm :=
  mkvec (fun i => let r := lane n i mod 64 in
    N.lor (shrw (lane a i) r) (shlw 64 (lane a i) ((64 - r) mod 64))).
(** _mm512_xor_epi64 *)
Definition vxor (a b : zmm) : zmm := mkvec (fun i => N.lxor (lane a i) (lane b i)).

(** the 64 bytes of a register, and back *)
Definition vec_bytes (v : zmm) : bytes :=
  flat_map (fun i => le_bytes 8 (lane v i)) [0; 1; 2; 3; 4; 5; 6; 7].
Definition vec_of_bytes (b : bytes) : zmm :=
  mkvec (fun i => le_num (firstn 8 (skipn (8 * N.to_nat i) b))).
(** _mm512_maskz_loadu_epi8(mask, p) where mask is the [n] low bits: only
    the [n] selected bytes are accessed, the others are zero *)
Definition maskz_loadu (n : N) (p : ptr) : C zmm :=
  l <- memcpy_in p n ;;
  ret (vec_of_bytes (l ++ zeros (64 - length l))).
(** _mm512_mask_storeu_epi8(p, mask, a): only the selected bytes are stored *)
Definition mask_storeu (n : N) (p : ptr) (a : zmm) : C unit :=
  memcpy_out p (firstn (N.to_nat n) (vec_bytes a)).
(** _mm512_mask_blend_epi8(mask, a, b): selected bytes from b, others from a *)
Definition mask_blend (n : N) (a b : zmm) : zmm :=
  vec_of_bytes (firstn (N.to_nat n) (vec_bytes b) ++ skipn (N.to_nat n) (vec_bytes a)).

(** ** round.h *)

(** round.h l.10-39 *)
Definition zROUND (s : zmm) (C : N) : zmm :=
  let x := 0 in
  let mxor1 := 0x15 in
  let mxor2 := 0x0b in
  let pxor1 := set_epi64 x x x 3 x 1 x 4 in
  let pxor2 := set_epi64 x x x x 2 x 0 4 in
  let rc := set_epi64 x x x 0 0 C 0 0 in
  let neg := set_epi64 x x x 0 0 (N.ones 64) 0 0 in
  let pchi1 := set_epi64 x x x 0 4 3 2 1 in
  let pchi2 := set_epi64 x x x 1 0 4 3 2 in
  let rot1 := set_epi64 x x x 7 10 1 61 19 in
  let rot2 := set_epi64 x x x 41 17 6 39 28 in
  (* round constant + s-box layer *)
  let t0 := maskz_permutexvar mxor1 pxor1 s in
  let t0 := ternarylogic s t0 rc 0x96 in
  (* keccak s-box start *)
  let t1 := permutexvar pchi1 t0 in
  let t2 := permutexvar pchi2 t0 in
  let t0 := ternarylogic t0 t1 t2 0xd2 in
  (* keccak s-box end *)
  let t1 := maskz_permutexvar mxor2 pxor2 t0 in
  let t0 := ternarylogic t0 t1 neg 0x96 in
  (* linear layer *)
  let t1 := rorv t0 rot1 in
  let t2 := rorv t0 rot2 in
  ternarylogic t0 t1 t2 0x96.

(** permutations.h l.13-54 with config.h (inlined and unrolled), constants.h
    l.74-85; 6 rounds are not used *)
Definition zP (nr : N) (s : zmm) : zmm :=
  let s := if nr =? 12 then fold_left zROUND (map w64_RCk [0; 1; 2; 3; 4; 5; 6; 7; 8; 9; 10; 11]) s else s in
  let s := if nr =? 8 then fold_left zROUND (map w64_RCk [4; 5; 6; 7; 8; 9; 10; 11]) s else s in
  if nr =? 6 then fold_left zROUND (map w64_RCk [6; 7; 8; 9; 10; 11]) s else s.

(** ** aead.c *)

(** word.h and constants.h are those of opt64: [wLOAD], [wPAD], ... of
    ModelCommon.v at [wo].  (The permutation of [wo] is not used.) *)
Definition wo : wordops := opt64 LE.
(** an assignment to the members [s->x[i]] leaves lanes 5 to 7 *)
Definition withx (z : zmm) (s : state) : zmm := Zm s (z5 z) (z6 z) (z7 z).

(** aead.c l.14-23 is [ModelCommon.ascon_loadkey]. *)

(** aead.c l.25-50; [u] is the indeterminate content of [*s] on entry (the
    automatic variable of l.200, l.214) *)
Definition z_initaead (u : zmm) (key : N * N) (npub : ptr) : C zmm :=
  let '(K0, K1) := key in
  N0 <- wLOAD LE wo npub ;;
  n8 <- padd npub 8 ;; N1 <- wLOAD LE wo n8 ;;
  let z := withx u (St (c_aead wo) K0 K1 N0 N1) in
  let z := zP 12 z in
  let s := xorx (zx z) 3 K0 in
  ret (withx z (xorx s 4 K1)).

(** aead.c l.58-66 *)
Definition z_ad_body (v : zmm * ptr * N) : C (zmm * ptr * N) :=
  let '(z, ad, adlen) := v in
  t <- maskz_loadu 16 ad ;;
  let z := vxor z t in
  let z := zP 8 z in
  ad <- padd ad 16 ;;
  ret (z, ad, sub64 adlen 16).

(** aead.c l.52-83; l.67-77 have the text of src/aead.c: they access the
    state through [x] only *)
Definition z_adata (z : zmm) (ad : ptr) (adlen : N) : C zmm :=
  b <- branch (negb (adlen =? 0)) ;;
  z <- (if b : bool then
    '(z, ad, adlen) <-
      while (fuel adlen 16) (fun '(_, _, adlen) => 16 <=? adlen) z_ad_body (z, ad, adlen) ;;
    s <- ad_last LE wo (zx z) ad adlen ;;
    ret (zP 8 (withx z s))
  else ret z) ;;
  ret (withx z (xorx (zx z) 4 (w_dsep wo))).

(** aead.c l.90-100 *)
Definition z_enc_body (v : zmm * ptr * ptr * N) : C (zmm * ptr * ptr * N) :=
  let '(z, m, c, mlen) := v in
  t <- maskz_loadu 16 m ;;
  let z := vxor z t in
  mask_storeu 16 c z ;;;
  let z := zP 8 z in
  m <- padd m 16 ;;
  c <- padd c 16 ;;
  ret (z, m, c, sub64 mlen 16).

(** aead.c l.85-117 *)
Definition z_encrypt (z : zmm) (c m : ptr) (mlen : N) : C zmm :=
  '(z, m, c, mlen) <-
    while (fuel mlen 16) (fun '(_, _, _, mlen) => 16 <=? mlen) z_enc_body (z, m, c, mlen) ;;
  s <- enc_last LE wo (zx z) m c mlen ;;
  ret (withx z s).

(** aead.c l.124-135 *)
Definition z_dec_body (v : zmm * ptr * ptr * N) : C (zmm * ptr * ptr * N) :=
  let '(z, m, c, clen) := v in
  t <- maskz_loadu 16 c ;;
  let z := vxor z t in
  mask_storeu 16 m z ;;;
  let z := mask_blend 16 z t in
  let z := zP 8 z in
  m <- padd m 16 ;;
  c <- padd c 16 ;;
  ret (z, m, c, sub64 clen 16).

(** aead.c l.119-157 *)
Definition z_decrypt (z : zmm) (m c : ptr) (clen : N) : C zmm :=
  '(z, m, c, clen) <-
    while (fuel clen 16) (fun '(_, _, _, clen) => 16 <=? clen) z_dec_body (z, m, c, clen) ;;
  s <- dec_last LE wo (zx z) m c clen ;;
  ret (withx z s).

(** aead.c l.159-183 *)
Definition z_final (z : zmm) (key : N * N) : zmm :=
  let '(K0, K1) := key in
  let s := xorx (zx z) 2 K0 in
  let s := xorx s 3 K1 in
  let z := zP 12 (withx z s) in
  let s := xorx (zx z) 3 K0 in
  withx z (xorx s 4 K1).

(** aead.c l.185-195, [ascon_gettag] and [ascon_verify], access the state
    through [x] and have the text of src/aead.c *)

(** aead.c l.197-209; [u] as in [z_initaead] *)
Definition z_aead_encrypt (u : zmm) (t c m : ptr) (mlen : N) (ad : ptr) (adlen : N) (npub k : ptr) : C Z :=
  key <- ascon_loadkey LE wo k ;;
  z <- z_initaead u key npub ;;
  z <- z_adata z ad adlen ;;
  z <- z_encrypt z c m mlen ;;
  let z := z_final z key in
  ascon_gettag LE wo (zx z) t ;;;
  ret 0%Z.

(** aead.c l.211-222 *)
Definition z_aead_decrypt (u : zmm) (m t c : ptr) (clen : N) (ad : ptr) (adlen : N) (npub k : ptr) : C Z :=
  key <- ascon_loadkey LE wo k ;;
  z <- z_initaead u key npub ;;
  z <- z_adata z ad adlen ;;
  z <- z_decrypt z m c clen ;;
  let z := z_final z key in
  ascon_verify LE wo (zx z) t.

(** aead.c l.224-244 *)
Definition avx_aead_encrypt (u : zmm) (c clen m : ptr) (mlen : N)
    (ad : ptr) (adlen : N) (nsec npub k : ptr) : C Z :=
  store_ull LE clen (add64 mlen CRYPTO_ABYTES) ;;;
  t <- padd c mlen ;;
  z_aead_encrypt u t c m mlen ad adlen npub k.

(** aead.c l.246-267 *)
Definition avx_aead_decrypt (u : zmm) (m mlen nsec c : ptr) (clen : N)
    (ad : ptr) (adlen : N) (npub k : ptr) : C Z :=
  b <- branch (clen <? CRYPTO_ABYTES) ;;
  if b : bool then ret (-1)%Z else
  store_ull LE mlen (sub64 clen CRYPTO_ABYTES) ;;;
  n <- load_ull LE mlen ;;
  t <- padd c n ;;
  n <- load_ull LE mlen ;;
  z_aead_decrypt u m t c n ad adlen npub k.

(** ** hash.c *)

(** hash.c l.39-47 *)
Definition z_absorb_body (v : zmm * ptr * N) : C (zmm * ptr * N) :=
  let '(z, inp, inlen) := v in
  t <- maskz_loadu 8 inp ;;
  let z := vxor z t in
  let z := zP 12 z in
  inp <- padd inp 8 ;;
  ret (z, inp, sub64 inlen 8).

(** hash.c l.36-52 *)
Definition z_absorb (z : zmm) (inp : ptr) (inlen : N) : C zmm :=
  '(z, inp, inlen) <-
    while (fuel inlen 8) (fun '(_, _, inlen) => 8 <=? inlen) z_absorb_body (z, inp, inlen) ;;
  w <- wLOADBYTES LE wo inp inlen ;;
  let s := xorx (zx z) 0 w in
  pad <- wPAD wo inlen ;;
  ret (withx z (xorx s 0 pad)).

(** hash.c l.58-64 *)
Definition z_squeeze_body (v : zmm * ptr * N) : C (zmm * ptr * N) :=
  let '(z, out, outlen) := v in
  mask_storeu 8 out z ;;;
  let z := zP 12 z in
  out <- padd out 8 ;;
  ret (z, out, sub64 outlen 8).

(** hash.c l.54-68 *)
Definition z_squeeze (z : zmm) (out : ptr) (outlen : N) : C unit :=
  let z := zP 12 z in
  '(z, out, outlen) <-
    while (fuel outlen 8) (fun '(_, _, outlen) => 8 <? outlen) z_squeeze_body (z, out, outlen) ;;
  wSTOREBYTES LE wo out (X0 (zx z)) outlen.

(** hash.c l.70-79; l.31 initialises the vector member of the union with
    five of its eight lanes, so the others become zero *)
Definition avx_xof (iv : state) (out : ptr) (outlen : N) (inp : ptr) (inlen : N) : C Z :=
  z <- z_absorb (Zm iv 0 0 0) inp inlen ;;
  z_squeeze z out outlen ;;;
  ret 0%Z.

(** hash.c l.81-84 with ASCON_HASH_BYTES 32, CRYPTO_BYTES 32 *)
Definition avx_hash_hash256 (out inp : ptr) (inlen : N) : C Z := avx_xof w64_HASH_IV out 32 inp inlen.
(** hash.c l.81-84 with ASCON_HASH_BYTES 0, CRYPTO_BYTES 64 *)
Definition avx_hash_xof128 (out inp : ptr) (inlen : N) : C Z := avx_xof w64_XOF_IV out 64 inp inlen.
