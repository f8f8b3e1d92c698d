(** * ModelRef.v -- the reference implementation.

    Models, function by function, the files
    - crypto_aead/asconaead128/ref/{aead.c,word.h,round.h,permutations.h,constants.h}
    - crypto_hash/asconhash256/ref/hash.c, crypto_hash/asconxof128/ref/hash.c
    - crypto_cxof/asconcxof128/ref/hash.c
    - crypto_auth/asconmacv13/ref/prf.c, crypto_auth/asconprfv13/ref/prf.c
    - crypto_auth/asconprfsv13/ref/prfs.c
    (word.h, round.h, permutations.h, ascon.h, constants.h are byte-identical
    in all ref directories; crypto_aead_hash/asconaeadxof128/ref has the same
    aead.c and, up to nothing, the same hash.c as asconxof128.)

    Simplifications, everywhere: the debugging calls print/printbytes/
    printstate are empty macros unless ASCON_PRINT_STATE is defined
    (printstate.h) and are left out; [(void)nsec] is a no-op; state words
    are a record instead of an array; the ignored argument nsec is kept. *)
From Coq Require Import Bool NArith ZArith List Init.Byte.
From Verif Require Import Words CMem.
Import ListNotations.
Local Open Scope N_scope.

(** crypto_aead/asconaead128/ref/constants.h l.6-31 *)
Definition ASCON_AEAD_VARIANT := 1.   Definition ASCON_HASH_VARIANT := 2.
Definition ASCON_XOF_VARIANT := 3.    Definition ASCON_CXOF_VARIANT := 4.
Definition ASCON_MAC_VARIANT := 5.    Definition ASCON_PRF_VARIANT := 6.
Definition ASCON_PRFS_VARIANT := 7.
Definition ASCON_TAG_SIZE := 16.      Definition ASCON_HASH_SIZE := 32.
Definition ASCON_128A_RATE := 16.     Definition ASCON_HASH_RATE := 8.
Definition ASCON_PRF_IN_RATE := 32.   Definition ASCON_PRF_OUT_RATE := 16.
Definition ASCON_PA_ROUNDS := 12.     Definition ASCON_128A_PB_ROUNDS := 8.
Definition ASCON_HASH_PB_ROUNDS := 12. Definition ASCON_PRF_PB_ROUNDS := 12.
(** api.h of each directory *)
Definition CRYPTO_ABYTES := 16.

(** constants.h l.40-45 *)
Definition ASCON_128A_IV : N :=
  N.lor (shlw 64 ASCON_AEAD_VARIANT 0) (N.lor (shlw 64 ASCON_PA_ROUNDS 16)
  (N.lor (shlw 64 ASCON_128A_PB_ROUNDS 20) (N.lor (shlw 64 (ASCON_TAG_SIZE * 8) 24)
  (shlw 64 ASCON_128A_RATE 40)))).
(** constants.h l.53-58 *)
Definition ASCON_HASH_IV : N :=
  N.lor (shlw 64 ASCON_HASH_VARIANT 0) (N.lor (shlw 64 ASCON_PA_ROUNDS 16)
  (N.lor (shlw 64 ASCON_HASH_PB_ROUNDS 20) (N.lor (shlw 64 (ASCON_HASH_SIZE * 8) 24)
  (shlw 64 ASCON_HASH_RATE 40)))).
(** constants.h l.67-71 *)
Definition ASCON_XOF_IV : N :=
  N.lor (shlw 64 ASCON_XOF_VARIANT 0) (N.lor (shlw 64 ASCON_PA_ROUNDS 16)
  (N.lor (shlw 64 ASCON_HASH_PB_ROUNDS 20) (shlw 64 ASCON_HASH_RATE 40))).
(** constants.h l.79-83 *)
Definition ASCON_CXOF_IV : N :=
  N.lor (shlw 64 ASCON_CXOF_VARIANT 0) (N.lor (shlw 64 ASCON_PA_ROUNDS 16)
  (N.lor (shlw 64 ASCON_HASH_PB_ROUNDS 20) (shlw 64 ASCON_HASH_RATE 40))).
(** constants.h l.91-97 *)
Definition ASCON_MAC_IV : N :=
  N.lor (shlw 64 ASCON_MAC_VARIANT 0) (N.lor (shlw 64 ASCON_PA_ROUNDS 16)
  (N.lor (shlw 64 ASCON_PRF_PB_ROUNDS 20) (N.lor (shlw 64 (ASCON_TAG_SIZE * 8) 24)
  (N.lor (shlw 64 ASCON_PRF_IN_RATE 40) (shlw 64 ASCON_PRF_OUT_RATE 48))))).
(** constants.h l.107-112 *)
Definition ASCON_PRF_IV : N :=
  N.lor (shlw 64 ASCON_PRF_VARIANT 0) (N.lor (shlw 64 ASCON_PA_ROUNDS 16)
  (N.lor (shlw 64 ASCON_PRF_PB_ROUNDS 20)
  (N.lor (shlw 64 ASCON_PRF_IN_RATE 40) (shlw 64 ASCON_PRF_OUT_RATE 48)))).
(** constants.h l.121-124 *)
Definition ASCON_PRFS_IV : N :=
  N.lor (shlw 64 ASCON_PRFS_VARIANT 0) (N.lor (shlw 64 ASCON_PA_ROUNDS 16)
  (shlw 64 (ASCON_TAG_SIZE * 8) 24)).

(** word.h l.7 [GETBYTE], l.10 [SETBYTE], l.13 [PAD], l.16 [DSEP] *)
Definition GETBYTE (x i : N) : byte := n2b (shrw x (8 * i)).
Definition SETBYTE (b : N) (i : N) : N := shlw 64 b (8 * i).
Definition PAD (i : N) : N := SETBYTE 0x01 i.
Definition DSEP : N := SETBYTE 0x80 7.

(** word.h l.19-24 *)
Definition LOADBYTES (p : ptr) (n : N) : C N :=
  for_loop (N.to_nat n) 0
    (fun i x => b <- ld p i ;; ret (N.lor x (SETBYTE (b2n b) i))) 0.

(** word.h l.27-30 *)
Definition STOREBYTES (p : ptr) (x : N) (n : N) : C unit :=
  for_loop (N.to_nat n) 0 (fun i _ => st p i (GETBYTE x i)) tt.

(** word.h l.27-30, when the destination is a local array of exactly [n]
    bytes: its final contents (the trip count is a constant there). *)
Definition STOREBYTES_local (x : N) (n : nat) : bytes :=
  map (fun i => GETBYTE x (N.of_nat i)) (seq 0 n).

(** word.h l.33-37 (straight-line for the observer up to the public [n]) *)
Fixpoint clearbytes_loop (k : nat) (i : N) (x : N) : N :=
  match k with
  | O => x
  | S k' => clearbytes_loop k' (i + 1) (N.land x (notw 64 (SETBYTE 0xff i)))
  end.
Definition CLEARBYTES (x : N) (n : N) : N := clearbytes_loop (N.to_nat n) 0 x.

(** round.h l.8-10; [-n & 63] is computed on a non-negative representative *)
Definition ROR (x : N) (n : N) : N := N.lor (shrw x n) (shlw 64 x (N.land (64 - n) 63)).

(** round.h l.12-40 *)
Definition ROUND (s : state) (c : N) : state :=
  let '(St x0 x1 x2 x3 x4) := s in
  (* addition of round constant *)
  let x2 := N.lxor x2 c in
  (* substitution layer *)
  let x0 := N.lxor x0 x4 in
  let x4 := N.lxor x4 x3 in
  let x2 := N.lxor x2 x1 in
  let t0 := N.lxor x0 (N.land (notw 64 x1) x2) in
  let t1 := N.lxor x1 (N.land (notw 64 x2) x3) in
  let t2 := N.lxor x2 (N.land (notw 64 x3) x4) in
  let t3 := N.lxor x3 (N.land (notw 64 x4) x0) in
  let t4 := N.lxor x4 (N.land (notw 64 x0) x1) in
  let t1 := N.lxor t1 t0 in
  let t0 := N.lxor t0 t4 in
  let t3 := N.lxor t3 t2 in
  let t2 := notw 64 t2 in
  (* linear diffusion layer *)
  let x0 := N.lxor (N.lxor t0 (ROR t0 19)) (ROR t0 28) in
  let x1 := N.lxor (N.lxor t1 (ROR t1 61)) (ROR t1 39) in
  let x2 := N.lxor (N.lxor t2 (ROR t2 1)) (ROR t2 6) in
  let x3 := N.lxor (N.lxor t3 (ROR t3 10)) (ROR t3 17) in
  let x4 := N.lxor (N.lxor t4 (ROR t4 7)) (ROR t4 41) in
  St x0 x1 x2 x3 x4.

(** permutations.h l.11-24 *)
Definition P12 (s : state) : state :=
  let s := ROUND s 0xf0 in let s := ROUND s 0xe1 in let s := ROUND s 0xd2 in
  let s := ROUND s 0xc3 in let s := ROUND s 0xb4 in let s := ROUND s 0xa5 in
  let s := ROUND s 0x96 in let s := ROUND s 0x87 in let s := ROUND s 0x78 in
  let s := ROUND s 0x69 in let s := ROUND s 0x5a in let s := ROUND s 0x4b in s.
(** permutations.h l.26-35 *)
Definition P8 (s : state) : state :=
  let s := ROUND s 0xb4 in let s := ROUND s 0xa5 in
  let s := ROUND s 0x96 in let s := ROUND s 0x87 in let s := ROUND s 0x78 in
  let s := ROUND s 0x69 in let s := ROUND s 0x5a in let s := ROUND s 0x4b in s.
(** permutations.h l.37-44 *)
Definition P6 (s : state) : state :=
  let s := ROUND s 0x96 in let s := ROUND s 0x87 in let s := ROUND s 0x78 in
  let s := ROUND s 0x69 in let s := ROUND s 0x5a in let s := ROUND s 0x4b in s.

(** [s.x[i] ^= v] *)
Definition xor0 (s : state) (v : N) := St (N.lxor (X0 s) v) (X1 s) (X2 s) (X3 s) (X4 s).
Definition xor1 (s : state) (v : N) := St (X0 s) (N.lxor (X1 s) v) (X2 s) (X3 s) (X4 s).
Definition xor2 (s : state) (v : N) := St (X0 s) (X1 s) (N.lxor (X2 s) v) (X3 s) (X4 s).
Definition xor3 (s : state) (v : N) := St (X0 s) (X1 s) (X2 s) (N.lxor (X3 s) v) (X4 s).
Definition xor4 (s : state) (v : N) := St (X0 s) (X1 s) (X2 s) (X3 s) (N.lxor (X4 s) v).
(** [s.x[i] = v] *)
Definition set0 (s : state) (v : N) := St v (X1 s) (X2 s) (X3 s) (X4 s).
Definition set1 (s : state) (v : N) := St (X0 s) v (X2 s) (X3 s) (X4 s).

(** Fuel for a loop that consumes [r] bytes of [len] per iteration. *)
Definition fuel (len r : N) : nat := S (N.to_nat (len / r)).

(** aead.c l.25-42 = l.139-156: key and nonce loading and initialisation
    (the same text in encrypt and decrypt). *)
Definition ref_init (npub k : ptr) : C (N * N * state) :=
  K0 <- LOADBYTES k 8 ;;
  k8 <- padd k 8 ;; K1 <- LOADBYTES k8 8 ;;
  N0 <- LOADBYTES npub 8 ;;
  n8 <- padd npub 8 ;; N1 <- LOADBYTES n8 8 ;;
  let s := St ASCON_128A_IV K0 K1 N0 N1 in
  let s := P12 s in
  let s := xor3 s K0 in
  let s := xor4 s K1 in
  ret (K0, K1, s).

(** aead.c l.46-53 = l.160-167: body of the associated-data loop *)
Definition ref_ad_body (v : state * ptr * N) : C (state * ptr * N) :=
  let '(s, ad, adlen) := v in
  w0 <- LOADBYTES ad 8 ;; let s := xor0 s w0 in
  ad8 <- padd ad 8 ;; w1 <- LOADBYTES ad8 8 ;; let s := xor1 s w1 in
  let s := P8 s in
  ad <- padd ad ASCON_128A_RATE ;;
  ret (s, ad, sub64 adlen ASCON_128A_RATE).

(** aead.c l.44-67 = l.158-181: associated data and domain separation *)
Definition ref_adata (s : state) (ad : ptr) (adlen : N) : C state :=
  b <- branch (negb (adlen =? 0)) ;;
  s <- (if b : bool then
    '(s, ad, adlen) <-
      while (fuel adlen ASCON_128A_RATE) (fun '(_, _, adlen) => ASCON_128A_RATE <=? adlen)
        ref_ad_body (s, ad, adlen) ;;
    b <- branch (8 <=? adlen) ;;
    s <- (if b : bool then
      w0 <- LOADBYTES ad 8 ;; let s := xor0 s w0 in
      ad8 <- padd ad 8 ;;
      w1 <- LOADBYTES ad8 (sub64 adlen 8) ;; let s := xor1 s w1 in
      ret (xor1 s (PAD (sub64 adlen 8)))
    else
      w0 <- LOADBYTES ad adlen ;; let s := xor0 s w0 in
      ret (xor0 s (PAD adlen))) ;;
    ret (P8 s)
  else ret s) ;;
  ret (xor4 s DSEP).

(** aead.c l.71-81: body of the plaintext loop *)
Definition ref_enc_body (v : state * ptr * ptr * N) : C (state * ptr * ptr * N) :=
  let '(s, m, c, mlen) := v in
  w0 <- LOADBYTES m 8 ;; let s := xor0 s w0 in
  m8 <- padd m 8 ;; w1 <- LOADBYTES m8 8 ;; let s := xor1 s w1 in
  STOREBYTES c (X0 s) 8 ;;;
  c8 <- padd c 8 ;; STOREBYTES c8 (X1 s) 8 ;;;
  let s := P8 s in
  m <- padd m ASCON_128A_RATE ;;
  c <- padd c ASCON_128A_RATE ;;
  ret (s, m, c, sub64 mlen ASCON_128A_RATE).

(** aead.c l.70-95: plaintext; returns the state and the advanced [c] *)
Definition ref_enc (s : state) (c m : ptr) (mlen : N) : C (state * ptr) :=
  '(s, m, c, mlen) <-
    while (fuel mlen ASCON_128A_RATE) (fun '(_, _, _, mlen) => ASCON_128A_RATE <=? mlen)
      ref_enc_body (s, m, c, mlen) ;;
  b <- branch (8 <=? mlen) ;;
  s <- (if b : bool then
    w0 <- LOADBYTES m 8 ;; let s := xor0 s w0 in
    m8 <- padd m 8 ;;
    w1 <- LOADBYTES m8 (sub64 mlen 8) ;; let s := xor1 s w1 in
    STOREBYTES c (X0 s) 8 ;;;
    c8 <- padd c 8 ;; STOREBYTES c8 (X1 s) (sub64 mlen 8) ;;;
    ret (xor1 s (PAD (sub64 mlen 8)))
  else
    w0 <- LOADBYTES m mlen ;; let s := xor0 s w0 in
    STOREBYTES c (X0 s) mlen ;;;
    ret (xor0 s (PAD mlen))) ;;
  m <- padd m mlen ;;
  c <- padd c mlen ;;
  ret (s, c).

(** aead.c l.99-105 = l.221-227 *)
Definition ref_final (s : state) (K0 K1 : N) : state :=
  let s := xor2 s K0 in
  let s := xor3 s K1 in
  let s := P12 s in
  let s := xor3 s K0 in
  xor4 s K1.

(** aead.c l.8-117 *)
Definition crypto_aead_encrypt (e : endian) (c clen m : ptr) (mlen : N)
    (ad : ptr) (adlen : N) (nsec npub k : ptr) : C Z :=
  store_ull e clen (add64 mlen CRYPTO_ABYTES) ;;;
  '(K0, K1, s) <- ref_init npub k ;;
  s <- ref_adata s ad adlen ;;
  '(s, c) <- ref_enc s c m mlen ;;
  let s := ref_final s K0 K1 in
  STOREBYTES c (X3 s) 8 ;;;
  c8 <- padd c 8 ;; STOREBYTES c8 (X4 s) 8 ;;;
  ret 0%Z.

(** aead.c l.186-198: body of the ciphertext loop *)
Definition ref_dec_body (v : state * ptr * ptr * N) : C (state * ptr * ptr * N) :=
  let '(s, m, c, clen) := v in
  c0 <- LOADBYTES c 8 ;;
  cp8 <- padd c 8 ;; c1 <- LOADBYTES cp8 8 ;;
  STOREBYTES m (N.lxor (X0 s) c0) 8 ;;;
  m8 <- padd m 8 ;; STOREBYTES m8 (N.lxor (X1 s) c1) 8 ;;;
  let s := set0 s c0 in
  let s := set1 s c1 in
  let s := P8 s in
  m <- padd m ASCON_128A_RATE ;;
  c <- padd c ASCON_128A_RATE ;;
  ret (s, m, c, sub64 clen ASCON_128A_RATE).

(** aead.c l.184-217: ciphertext ([clen] already without the tag);
    returns the state and the advanced [c] *)
Definition ref_dec (s : state) (m c : ptr) (clen : N) : C (state * ptr) :=
  '(s, m, c, clen) <-
    while (fuel clen ASCON_128A_RATE) (fun '(_, _, _, clen) => ASCON_128A_RATE <=? clen)
      ref_dec_body (s, m, c, clen) ;;
  b <- branch (8 <=? clen) ;;
  s <- (if b : bool then
    c0 <- LOADBYTES c 8 ;;
    cp8 <- padd c 8 ;; c1 <- LOADBYTES cp8 (sub64 clen 8) ;;
    STOREBYTES m (N.lxor (X0 s) c0) 8 ;;;
    m8 <- padd m 8 ;; STOREBYTES m8 (N.lxor (X1 s) c1) (sub64 clen 8) ;;;
    let s := set0 s c0 in
    let s := set1 s (CLEARBYTES (X1 s) (sub64 clen 8)) in
    let s := set1 s (N.lor (X1 s) c1) in
    ret (xor1 s (PAD (sub64 clen 8)))
  else
    c0 <- LOADBYTES c clen ;;
    STOREBYTES m (N.lxor (X0 s) c0) clen ;;;
    let s := set0 s (CLEARBYTES (X0 s) clen) in
    let s := set0 s (N.lor (X0 s) c0) in
    ret (xor0 s (PAD clen))) ;;
  m <- padd m clen ;;
  c <- padd c clen ;;
  ret (s, c).

(** [for (i = 0; i < n; ++i) r |= a[i] ^ t[i]] with [t] a local array:
    aead.c l.235-237; prf.c l.78 and prfs.c l.64 have the same loop with
    [t] in memory ([diff_loop_mem]). The accumulator is an [int] (uint8_t
    in prf.c) holding a value below 256. *)
Definition diff_loop (a : ptr) (t : bytes) : C N :=
  for_loop (length t) 0
    (fun i r => b <- ld a i ;;
       ret (N.lor r (N.lxor (b2n b) (b2n (nth (N.to_nat i) t x00))))) 0.
Definition diff_loop_mem (n : nat) (a t : ptr) : C N :=
  for_loop n 0
    (fun i r => b <- ld a i ;; b' <- ld t i ;; ret (N.lor r (N.lxor (b2n b) (b2n b')))) 0.

(** aead.c l.238: [result = (((result - 1) >> 8) & 1) - 1] on a 32-bit int
    (arithmetic right shift); also prf.c l.79, prfs.c l.65 *)
Definition verdict (r : N) : Z := (Z.land (Z.shiftr (Z.of_N r - 1) 8) 1 - 1)%Z.

(** aead.c l.119-245 *)
Definition crypto_aead_decrypt (e : endian) (m mlen nsec c : ptr) (clen : N)
    (ad : ptr) (adlen : N) (npub k : ptr) : C Z :=
  b <- branch (clen <? CRYPTO_ABYTES) ;;
  if b : bool then ret (-1)%Z else
  store_ull e mlen (sub64 clen CRYPTO_ABYTES) ;;;
  '(K0, K1, s) <- ref_init npub k ;;
  s <- ref_adata s ad adlen ;;
  '(s, c) <- ref_dec s m c (sub64 clen CRYPTO_ABYTES) ;;
  let s := ref_final s K0 K1 in
  let t := STOREBYTES_local (X3 s) 8 ++ STOREBYTES_local (X4 s) 8 in
  r <- diff_loop c t ;;
  ret (verdict r).

(** ** Hash, XOF, CXOF *)

(** crypto_hash/asconhash256/ref/hash.c l.23-29 (and cxof hash.c l.30-36,
    l.44-50): body of an absorbing loop *)
Definition ref_absorb_body (v : state * ptr * N) : C (state * ptr * N) :=
  let '(s, inp, len) := v in
  w <- LOADBYTES inp 8 ;;
  let s := xor0 s w in
  let s := P12 s in
  inp <- padd inp ASCON_HASH_RATE ;;
  ret (s, inp, sub64 len ASCON_HASH_RATE).

(** hash.c l.22-34, cxof hash.c l.29-41 and l.43-55 (same text) *)
Definition ref_absorb (s : state) (inp : ptr) (len : N) : C state :=
  '(s, inp, len) <-
    while (fuel len ASCON_HASH_RATE) (fun '(_, _, len) => ASCON_HASH_RATE <=? len)
      ref_absorb_body (s, inp, len) ;;
  w <- LOADBYTES inp len ;;
  let s := xor0 s w in
  let s := xor0 s (PAD len) in
  ret (P12 s).

(** hash.c l.38-44, cxof hash.c l.58-64 *)
Definition ref_squeeze_body (v : state * ptr * N) : C (state * ptr * N) :=
  let '(s, out, len) := v in
  STOREBYTES out (X0 s) 8 ;;;
  let s := P12 s in
  out <- padd out ASCON_HASH_RATE ;;
  ret (s, out, sub64 len ASCON_HASH_RATE).

(** hash.c l.36-46, cxof hash.c l.57-66 *)
Definition ref_squeeze (s : state) (out : ptr) (len : N) : C unit :=
  '(s, out, len) <-
    while (fuel len ASCON_HASH_RATE) (fun '(_, _, len) => ASCON_HASH_RATE <? len)
      ref_squeeze_body (s, out, len) ;;
  STOREBYTES out (X0 s) len.

(** hash.c l.8-51, with the IV and CRYPTO_BYTES of the directory *)
Definition ref_hash (IV CRYPTO_BYTES : N) (out inp : ptr) (len : N) : C Z :=
  let s := St IV 0 0 0 0 in
  let s := P12 s in
  s <- ref_absorb s inp len ;;
  ref_squeeze s out CRYPTO_BYTES ;;;
  ret 0%Z.
(** crypto_hash/asconhash256/ref/hash.c l.8-51, api.h (CRYPTO_BYTES 32) *)
Definition crypto_hash_hash256 := ref_hash ASCON_HASH_IV 32.
(** crypto_hash/asconxof128/ref/hash.c l.8-51, api.h (CRYPTO_BYTES 64) *)
Definition crypto_hash_xof128 := ref_hash ASCON_XOF_IV 64.

(** crypto_cxof/asconcxof128/ref/hash.c l.8-71 *)
Definition crypto_cxof (out : ptr) (outlen : N) (inp : ptr) (inlen : N)
    (cs : ptr) (cslen : N) : C Z :=
  let s := St ASCON_CXOF_IV 0 0 0 0 in
  let s := P12 s in
  let s := xor0 s (trunc 64 (cslen * 8)) in
  let s := P12 s in
  s <- ref_absorb s cs cslen ;;
  s <- ref_absorb s inp inlen ;;
  ref_squeeze s out outlen ;;;
  ret 0%Z.
(** crypto_cxof/asconcxof128/ref/hash.c l.73-76 *)
Definition crypto_hash_cxof128 (out inp : ptr) (len : N) : C Z :=
  crypto_cxof out 64 inp len NULL 0.

(** ** MAC, PRF *)

(** [((uint64_t* )(&s.x[0]))[i]]: word by index *)
Definition getx (s : state) (i : N) : N :=
  if i =? 0 then X0 s else if i =? 1 then X1 s else if i =? 2 then X2 s
  else if i =? 3 then X3 s else X4 s.
Definition xorx (s : state) (i : N) (v : N) : state :=
  if i =? 0 then xor0 s v else if i =? 1 then xor1 s v else if i =? 2 then xor2 s v
  else if i =? 3 then xor3 s v else xor4 s v.

(** crypto_auth/asconprfv13/ref/prf.c l.31-38 *)
Definition ref_prf_absorb_body (v : state * N * ptr * N) : C (state * N * ptr * N) :=
  let '(s, i, inp, inlen) := v in
  w <- LOADBYTES inp 8 ;;
  let s := xorx s i w in
  b <- branch (i + 1 =? 4) ;;
  let i := if b : bool then 0 else i + 1 in
  b <- branch (i =? 0) ;;
  let s := if b : bool then P12 s else s in
  inp <- padd inp 8 ;;
  ret (s, i, inp, sub64 inlen 8).

(** prf.c l.51-58 *)
Definition ref_prf_squeeze_body (v : state * N * ptr * N) : C (state * N * ptr * N) :=
  let '(s, i, out, outlen) := v in
  STOREBYTES out (getx s i) 8 ;;;
  b <- branch (i + 1 =? 2) ;;
  let i := if b : bool then 0 else i + 1 in
  b <- branch (i =? 0) ;;
  let s := if b : bool then P12 s else s in
  out <- padd out 8 ;;
  ret (s, i, out, sub64 outlen 8).

(** prf.c l.8-65; [CRYPTO_BYTES &&] in l.11 is constant true *)
Definition ref_prf (IV CRYPTO_BYTES : N) (out : ptr) (outlen : N) (inp : ptr) (inlen : N)
    (k : ptr) : C Z :=
  b <- branch (CRYPTO_BYTES <? outlen) ;;
  if b : bool then ret (-1)%Z else
  K0 <- LOADBYTES k 8 ;;
  k8 <- padd k 8 ;; K1 <- LOADBYTES k8 8 ;;
  let s := St IV K0 K1 0 0 in
  let s := P12 s in
  '(s, i, inp, inlen) <-
    while (fuel inlen 8) (fun '(_, _, _, inlen) => 8 <=? inlen)
      ref_prf_absorb_body (s, 0, inp, inlen) ;;
  w <- LOADBYTES inp inlen ;;
  let s := xorx s i w in
  let s := xorx s i (PAD inlen) in
  let s := xor4 s DSEP in
  let s := P12 s in
  '(s, i, out, outlen) <-
    while (fuel outlen 8) (fun '(_, _, _, outlen) => 8 <? outlen)
      ref_prf_squeeze_body (s, 0, out, outlen) ;;
  STOREBYTES out (getx s i) outlen ;;;
  ret 0%Z.

(** prf.c l.67-70 *)
Definition ref_auth (IV CRYPTO_BYTES : N) (out inp : ptr) (len : N) (k : ptr) : C Z :=
  ref_prf IV CRYPTO_BYTES out CRYPTO_BYTES inp len k.

(** prf.c l.72-80; [sp] is the address of the local array [tag] *)
Definition ref_auth_verify (IV CRYPTO_BYTES : N) (sp h inp : ptr) (len : N) (k : ptr) : C Z :=
  with_local sp CRYPTO_BYTES (fun tag =>
    ref_prf IV CRYPTO_BYTES tag CRYPTO_BYTES inp len k ;;;
    diff <- diff_loop_mem (N.to_nat CRYPTO_BYTES) h tag ;;
    ret (verdict diff)).

(** crypto_auth/asconmacv13/ref (CRYPTO_BYTES 16), asconprfv13/ref (64) *)
Definition crypto_prf_mac := ref_prf ASCON_MAC_IV 16.
Definition crypto_auth_mac := ref_auth ASCON_MAC_IV 16.
Definition crypto_auth_verify_mac := ref_auth_verify ASCON_MAC_IV 16.
Definition crypto_prf_prf := ref_prf ASCON_PRF_IV 64.
Definition crypto_auth_prf := ref_auth ASCON_PRF_IV 64.
Definition crypto_auth_verify_prf := ref_auth_verify ASCON_PRF_IV 64.

(** ** PRFshort: crypto_auth/asconprfsv13/ref/prfs.c l.9-50 *)
Definition crypto_prf_prfs (out : ptr) (outlen : N) (inp : ptr) (inlen : N) (k : ptr) : C Z :=
  b1 <- branch (16 <? inlen) ;;
  if b1 : bool then ret (-1)%Z else
  b2 <- branch (16 <? outlen) ;;
  if b2 : bool then ret (-1)%Z else
  b3 <- branch (16 <? outlen) ;;    (* outlen > CRYPTO_BYTES *)
  if b3 : bool then ret (-1)%Z else
  K0 <- LOADBYTES k 8 ;;
  k8 <- padd k 8 ;; K1 <- LOADBYTES k8 8 ;;
  let s := St (N.lor ASCON_PRFS_IV (shlw 64 (trunc 64 (inlen * 8)) 48)) K0 K1 0 0 in
  b <- branch (8 <? inlen) ;;
  s <- (if b : bool then
    w3 <- LOADBYTES inp 8 ;;
    in8 <- padd inp 8 ;; w4 <- LOADBYTES in8 (sub64 inlen 8) ;;
    ret (St (X0 s) (X1 s) (X2 s) w3 w4)
  else
    b <- branch (negb (inlen =? 0)) ;;
    if b : bool then
      w3 <- LOADBYTES inp inlen ;;
      ret (St (X0 s) (X1 s) (X2 s) w3 (X4 s))
    else ret s) ;;
  let s := P12 s in
  let s := xor3 s K0 in
  let s := xor4 s K1 in
  b <- branch (8 <? outlen) ;;
  (if b : bool then
    STOREBYTES out (X3 s) 8 ;;;
    out8 <- padd out 8 ;; STOREBYTES out8 (X4 s) (sub64 outlen 8)
  else
    b <- branch (negb (outlen =? 0)) ;;
    if b : bool then STOREBYTES out (X3 s) outlen else ret tt) ;;;
  ret 0%Z.
(** prfs.c l.52-55 *)
Definition crypto_auth_prfs (out inp : ptr) (len : N) (k : ptr) : C Z :=
  crypto_prf_prfs out 16 inp len k.
(** prfs.c l.57-66 *)
Definition crypto_auth_verify_prfs (sp h inp : ptr) (len : N) (k : ptr) : C Z :=
  b <- branch (16 <? len) ;;
  if b : bool then ret (-1)%Z else
  with_local sp 16 (fun tag =>
    crypto_prf_prfs tag 16 inp len k ;;;
    diff <- diff_loop_mem 16 h tag ;;
    ret (verdict diff)).
