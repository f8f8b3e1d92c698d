(** * ModelOpt8.v -- the byte-oriented implementations.

    Models, function by function, src/opt8/word.h, round.h, aead.c, hash.c,
    prf.c, prfs.c and src/opt8_lowsize/update.c, aead.c, hash.c.  Verbatim
    copies make up the directories opt8 of crypto_aead/asconaead128,
    crypto_hash/asconhash256, crypto_hash/asconxof128,
    crypto_auth/asconmacv13, asconprfv13, asconprfsv13 and
    crypto_aead_hash/asconaeadxof128, and the directories opt8_lowsize of
    the AEAD and hash directories.  The mode files of the avr directories
    are the same text with three changed lines; see [hpad], [dpos] below.

    The state is the array [s->b] with its two dimensions flattened: 40
    bytes, [s->b[i][j]] is byte [8 * i + j], and [s->x[i]] are the 8 bytes
    from [8 * i] on, read in the byte order [e] of the host.  As in the C
    code a pointer into [s->b[i]] may run on into [s->b[i+1]] (memxor and
    memcpy of 16 bytes); leaving the 40 bytes is undefined.

    Simplifications, everywhere: as in ModelCommon.v; [*p++] is modelled as
    [p[j]] with [j] counting up, so a pointer is never advanced past the
    last byte accessed. *)
From Coq Require Import Bool NArith ZArith List Init.Byte.
From Verif Require Import Words CMem ModelRef ModelCommon ModelWords.
Import ListNotations.
Local Open Scope N_scope.

(** ** Accesses to the state *)

Definition setb (s : bytes) (i : nat) (v : byte) : bytes :=
  firstn i s ++ v :: skipn (S i) s.
Definition getb (s : bytes) (i : nat) : byte := nth i s x00.

(** a byte of [s->b] at run time *)
Definition sget (s : bytes) (i : N) : C byte :=
  if i <? N.of_nat (length s) then ret (getb s (N.to_nat i)) else fail ErrIndex.
Definition sput (s : bytes) (i : N) (v : byte) : C bytes :=
  if i <? N.of_nat (length s) then ret (setb s (N.to_nat i) v) else fail ErrIndex.

(** ** round.h *)

(** word.h l.21-26 [XMUL]: [tmp = (uint16_t)a.b[i] * (1 << x)] *)
Definition XMUL (a : bytes) (bit_rol byte_rol : N) (b : bytes) (i : N) : bytes :=
  let tmp := trunc 16 (b2n (getb a (N.to_nat i)) * N.shiftl 1 bit_rol) in
  let j := N.to_nat (N.land (byte_rol + i) 7) in
  let b := setb b j (bxor (getb b j) (n2b tmp)) in
  let j := N.to_nat (N.land (byte_rol + i + 1) 7) in
  setb b j (bxor (getb b j) (n2b (shrw tmp 8))).
(** word.h l.28-42 *)
Definition ROR8 (x : bytes) (n : N) : bytes :=
  let bit_rol := N.land (64 - n) 7 in
  let byte_rol := shrw (64 - n) 3 in
  fold_left (XMUL x bit_rol byte_rol) [0; 1; 2; 3; 4; 5; 6; 7] (zeros 8).

(** the 8 bytes of [s->x[i]] *)
Definition lane (s : bytes) (i : nat) : bytes := firstn 8 (skipn (8 * i) s).
Fixpoint xorl (a b : bytes) : bytes :=
  match a, b with x :: a, y :: b => bxor x y :: xorl a b | _, _ => [] end.

(** round.h l.10-22: 64-bit words appear as their bytes in memory order
    ([^] acts bytewise) *)
Definition LINEAR_LAYER (s xtemp : bytes) : bytes :=
  let x1 := lane s 1 in let x2 := lane s 2 in let x3 := lane s 3 in let x4 := lane s 4 in
  let temp := xorl x2 (ROR8 x2 9) in
  let x0 := xorl x2 (ROR8 temp 19) in
  let temp := xorl x4 (ROR8 x4 5) in
  let x2 := xorl x4 (ROR8 temp 1) in
  let temp := xorl x1 (ROR8 x1 34) in
  let x4 := xorl x1 (ROR8 temp 7) in
  let temp := xorl x3 (ROR8 x3 22) in
  let x1 := xorl x3 (ROR8 temp 39) in
  let temp := xorl xtemp (ROR8 xtemp 7) in
  let x3 := xorl xtemp (ROR8 temp 10) in
  x0 ++ x1 ++ x2 ++ x3 ++ x4.

(** round.h l.24-46; the pair is [*s] and [*xtemp] *)
Definition NONLINEAR_LAYER (v : bytes * bytes) (pos : nat) : bytes * bytes :=
  let '(s, xtemp) := v in
  let b i s := getb s (8 * i + pos)%nat in
  let w i v s := setb s (8 * i + pos)%nat v in
  let t0 := bxor (b 1%nat s) (b 2%nat s) in
  let t1 := bxor (b 0%nat s) (b 4%nat s) in
  let t2 := bxor (b 3%nat s) (b 4%nat s) in
  let s := w 4%nat (bor (b 3%nat s) (bnot (b 4%nat s))) s in
  let s := w 4%nat (bxor (b 4%nat s) t0) s in
  let s := w 3%nat (bxor (b 3%nat s) (b 1%nat s)) s in
  let s := w 3%nat (bor (b 3%nat s) t0) s in
  let s := w 3%nat (bxor (b 3%nat s) t1) s in
  let s := w 2%nat (bxor (b 2%nat s) t1) s in
  let s := w 2%nat (bor (b 2%nat s) (b 1%nat s)) s in
  let s := w 2%nat (bxor (b 2%nat s) t2) s in
  let s := w 1%nat (band (b 1%nat s) (bnot t1)) s in
  let s := w 1%nat (bxor (b 1%nat s) t2) s in
  let s := w 0%nat (bor (b 0%nat s) t2) s in
  (s, setb xtemp pos (bxor (b 0%nat s) t0)).

(** round.h l.48-58; [xtemp] starts uninitialised, every byte of it is
    written before it is read *)
Definition ROUND8 (s : bytes) (C : N) : bytes :=
  let s := setb s 16 (bxor (getb s 16) (n2b C)) in
  let '(s, xtemp) := fold_left NONLINEAR_LAYER [0; 1; 2; 3; 4; 5; 6; 7]%nat (s, zeros 8) in
  LINEAR_LAYER s xtemp.

(** round.h l.60-66: the do-while loop *)
Fixpoint PROUNDS8 (ROUND : bytes -> N -> bytes) (fuel : nat) (i : Z) (s : bytes) : bytes :=
  match fuel with
  | O => s
  | S fuel =>
    let s := ROUND s (w64_RC i) in
    let i := (i + w64_INC)%Z in
    if Z.eqb i w64_END then s else PROUNDS8 ROUND fuel i s
  end.
(** permutations.c l.30; more than 16 rounds are never requested *)
Definition P8bit (nr : N) (s : bytes) : bytes := PROUNDS8 ROUND8 16 (w64_START nr) s.

(** ** word.h: copying and xoring loops *)

(** word.h l.92-97 [memxor] between two local objects *)
Definition memxor (s : bytes) (off : N) (src : bytes) : C bytes :=
  for_loop (length src) 0 (fun j s =>
    v <- sget s (off + j) ;; sput s (off + j) (bxor v (nth (N.to_nat j) src x00))) s.
(** word.h l.99-104 *)
Definition INSERT (s : bytes) (off : N) (d : ptr) (n : N) : C bytes :=
  for_loop (N.to_nat n) 0 (fun j s => v <- ld d j ;; sput s (off + j) v) s.
(** word.h l.106-111 *)
Definition SQUEEZE (d : ptr) (s : bytes) (off n : N) : C unit :=
  for_loop (N.to_nat n) 0 (fun j (_ : unit) => v <- sget s (off + j) ;; st d j v) tt.
(** word.h l.113-118 *)
Definition ABSORB (s : bytes) (off : N) (d : ptr) (n : N) : C bytes :=
  for_loop (N.to_nat n) 0 (fun j s =>
    v <- sget s (off + j) ;; b <- ld d j ;; sput s (off + j) (bxor v b)) s.
(** word.h l.120-125 *)
Definition ENCRYPT (s : bytes) (off : N) (c m : ptr) (n : N) : C bytes :=
  for_loop (N.to_nat n) 0 (fun j s =>
    v <- sget s (off + j) ;; b <- ld m j ;;
    s <- sput s (off + j) (bxor v b) ;;
    st c j (bxor v b) ;;; ret s) s.
(** word.h l.127-134 *)
Definition DECRYPT (s : bytes) (off : N) (m c : ptr) (n : N) : C bytes :=
  for_loop (N.to_nat n) 0 (fun j s =>
    t <- ld c j ;;
    v <- sget s (off + j) ;;
    st m j (bxor v t) ;;;
    sput s (off + j) t) s.
(** word.h l.136-143 *)
Definition VERIFY (s : bytes) (off : N) (d : ptr) (n : N) : C byte :=
  for_loop (N.to_nat n) 0 (fun j r =>
    v <- sget s (off + j) ;; b <- ld d j ;; ret (bor r (bxor v b))) x00.

(** [s->b[i][n] ^= v] *)
Definition xorb8 (s : bytes) (i n : N) (v : byte) : C bytes :=
  if 8 <=? n then fail ErrIndex else
  w <- sget s (8 * i + n) ;; sput s (8 * i + n) (bxor w v).

Section Opt8.
Variable e : endian.
(** permutations.h [P] *)
Variable P : N -> bytes -> bytes.

(** ** aead.c *)

(** aead.c l.14-23; the key object is a list of 16 bytes *)
Definition o8_loadkey (k : ptr) : C bytes :=
  key <- INSERT (zeros 16) 0 k 8 ;;
  k8 <- padd k 8 ;; INSERT key 8 k8 8.

(** aead.c l.25-45; [s] starts uninitialised, every byte is written before
    it is read *)
Definition o8_initaead (key : bytes) (npub : ptr) : C bytes :=
  let s := to_host e 8 0x00001000808c0001 ++ key ++ zeros 16 in
  s <- INSERT s 24 npub 8 ;;
  n8 <- padd npub 8 ;; s <- INSERT s 32 n8 8 ;;
  let s := P 12 s in
  memxor s 24 key.

(** aead.c l.52-59 *)
Definition o8_ad_body (v : bytes * ptr * N) : C (bytes * ptr * N) :=
  let '(s, ad, adlen) := v in
  s <- ABSORB s 0 ad 8 ;;
  ad8 <- padd ad 8 ;; s <- ABSORB s 8 ad8 8 ;;
  let s := P 8 s in
  ad <- padd ad 16 ;;
  ret (s, ad, sub64 adlen 16).

(** aead.c l.47-76 *)
Definition o8_adata (s : bytes) (ad : ptr) (adlen : N) : C bytes :=
  b <- branch (negb (adlen =? 0)) ;;
  s <- (if b : bool then
    '(s, ad, adlen) <-
      while (fuel adlen 16) (fun '(_, _, adlen) => 16 <=? adlen) o8_ad_body (s, ad, adlen) ;;
    b <- branch (8 <=? adlen) ;;
    '(s, i, ad, adlen) <- (if b : bool then
      s <- ABSORB s 0 ad 8 ;;
      ad <- padd ad 8 ;;
      ret (s, 1, ad, sub64 adlen 8)
    else ret (s, 0, ad, adlen)) ;;
    s <- ABSORB s (8 * i) ad adlen ;;
    s <- xorb8 s i adlen x01 ;;
    ret (P 8 s)
  else ret s) ;;
  xorb8 s 4 7 x80.

(** aead.c l.82-90 *)
Definition o8_enc_body (v : bytes * ptr * ptr * N) : C (bytes * ptr * ptr * N) :=
  let '(s, m, c, mlen) := v in
  s <- ENCRYPT s 0 c m 8 ;;
  c8 <- padd c 8 ;; m8 <- padd m 8 ;; s <- ENCRYPT s 8 c8 m8 8 ;;
  let s := P 8 s in
  m <- padd m 16 ;;
  c <- padd c 16 ;;
  ret (s, m, c, sub64 mlen 16).

(** aead.c l.78-103 *)
Definition o8_encrypt (s : bytes) (c m : ptr) (mlen : N) : C bytes :=
  '(s, m, c, mlen) <-
    while (fuel mlen 16) (fun '(_, _, _, mlen) => 16 <=? mlen) o8_enc_body (s, m, c, mlen) ;;
  b <- branch (8 <=? mlen) ;;
  '(s, i, m, c, mlen) <- (if b : bool then
    s <- ENCRYPT s 0 c m 8 ;;
    m <- padd m 8 ;;
    c <- padd c 8 ;;
    ret (s, 1, m, c, sub64 mlen 8)
  else ret (s, 0, m, c, mlen)) ;;
  s <- ENCRYPT s (8 * i) c m mlen ;;
  xorb8 s i mlen x01.

(** aead.c l.109-117 *)
Definition o8_dec_body (v : bytes * ptr * ptr * N) : C (bytes * ptr * ptr * N) :=
  let '(s, m, c, clen) := v in
  s <- DECRYPT s 0 m c 8 ;;
  m8 <- padd m 8 ;; c8 <- padd c 8 ;; s <- DECRYPT s 8 m8 c8 8 ;;
  let s := P 8 s in
  m <- padd m 16 ;;
  c <- padd c 16 ;;
  ret (s, m, c, sub64 clen 16).

(** aead.c l.105-130 *)
Definition o8_decrypt (s : bytes) (m c : ptr) (clen : N) : C bytes :=
  '(s, m, c, clen) <-
    while (fuel clen 16) (fun '(_, _, _, clen) => 16 <=? clen) o8_dec_body (s, m, c, clen) ;;
  b <- branch (8 <=? clen) ;;
  '(s, i, m, c, clen) <- (if b : bool then
    s <- DECRYPT s 0 m c 8 ;;
    m <- padd m 8 ;;
    c <- padd c 8 ;;
    ret (s, 1, m, c, sub64 clen 8)
  else ret (s, 0, m, c, clen)) ;;
  s <- DECRYPT s (8 * i) m c clen ;;
  xorb8 s i clen x01.

(** aead.c l.132-148 *)
Definition o8_final (s key : bytes) : C bytes :=
  s <- memxor s 16 key ;;
  let s := P 12 s in
  memxor s 24 key.

(** aead.c l.150-153 *)
Definition o8_gettag (s : bytes) (t : ptr) : C unit :=
  SQUEEZE t s 24 8 ;;;
  t8 <- padd t 8 ;; SQUEEZE t8 s 32 8.

(** aead.c l.155-161 *)
Definition o8_verify (s : bytes) (t : ptr) : C Z :=
  r0 <- VERIFY s 24 t 8 ;;
  t8 <- padd t 8 ;; r1 <- VERIFY s 32 t8 8 ;;
  ret (verdict (b2n (bor (bor x00 r0) r1))).

(** aead.c l.163-175 *)
Definition o8_ascon_aead_encrypt (t c m : ptr) (mlen : N) (ad : ptr) (adlen : N) (npub k : ptr) : C Z :=
  key <- o8_loadkey k ;;
  s <- o8_initaead key npub ;;
  s <- o8_adata s ad adlen ;;
  s <- o8_encrypt s c m mlen ;;
  s <- o8_final s key ;;
  o8_gettag s t ;;;
  ret 0%Z.

(** aead.c l.177-188 *)
Definition o8_ascon_aead_decrypt (m t c : ptr) (clen : N) (ad : ptr) (adlen : N) (npub k : ptr) : C Z :=
  key <- o8_loadkey k ;;
  s <- o8_initaead key npub ;;
  s <- o8_adata s ad adlen ;;
  s <- o8_decrypt s m c clen ;;
  s <- o8_final s key ;;
  o8_verify s t.

(** aead.c l.190-210 *)
Definition o8_aead_encrypt (c clen m : ptr) (mlen : N)
    (ad : ptr) (adlen : N) (nsec npub k : ptr) : C Z :=
  store_ull e clen (add64 mlen CRYPTO_ABYTES) ;;;
  t <- padd c mlen ;;
  o8_ascon_aead_encrypt t c m mlen ad adlen npub k.

(** aead.c l.212-233: [*mlen] is read back twice *)
Definition o8_aead_decrypt (m mlen nsec c : ptr) (clen : N)
    (ad : ptr) (adlen : N) (npub k : ptr) : C Z :=
  b <- branch (clen <? CRYPTO_ABYTES) ;;
  if b : bool then ret (-1)%Z else
  store_ull e mlen (sub64 clen CRYPTO_ABYTES) ;;;
  n <- load_ull e mlen ;;
  t <- padd c n ;;
  n <- load_ull e mlen ;;
  o8_ascon_aead_decrypt m t c n ad adlen npub k.

(** ** hash.c and prf.c *)

(** [hpad n]: the index in [s->b[i][.] ^= PAD()] after a last block of [n]
    bytes; [dpos]: the index in [s.b[4][.] ^= DSEP()].  opt8: [n] and 7
    (hash.c l.48, prf.c l.49, l.52); avr: [7 - n] and 0 (avr/hash.c l.48,
    avr/prf.c l.52, l.55). *)
Variable hpad : N -> N.
Variable dpos : N.

(** hash.c l.39-45 *)
Definition o8_absorb_body (v : bytes * ptr * N) : C (bytes * ptr * N) :=
  let '(s, inp, inlen) := v in
  s <- ABSORB s 0 inp 8 ;;
  let s := P 12 s in
  inp <- padd inp 8 ;;
  ret (s, inp, sub64 inlen 8).

(** hash.c l.36-50 *)
Definition o8_absorb (s : bytes) (inp : ptr) (inlen : N) : C bytes :=
  '(s, inp, inlen) <-
    while (fuel inlen 8) (fun '(_, _, inlen) => 8 <=? inlen) o8_absorb_body (s, inp, inlen) ;;
  s <- ABSORB s 0 inp inlen ;;
  xorb8 s 0 (hpad inlen) x01.

(** hash.c l.56-62 *)
Definition o8_squeeze_body (v : bytes * ptr * N) : C (bytes * ptr * N) :=
  let '(s, out, outlen) := v in
  SQUEEZE out s 0 8 ;;;
  let s := P 12 s in
  out <- padd out 8 ;;
  ret (s, out, sub64 outlen 8).

(** hash.c l.52-66 *)
Definition o8_squeeze (s : bytes) (out : ptr) (outlen : N) : C unit :=
  let s := P 12 s in
  '(s, out, outlen) <-
    while (fuel outlen 8) (fun '(_, _, outlen) => 8 <? outlen) o8_squeeze_body (s, out, outlen) ;;
  SQUEEZE out s 0 outlen.

(** hash.c l.24-34: the five 64-bit initial values *)
Definition o8_words (iv : state) : bytes :=
  to_host e 8 (X0 iv) ++ to_host e 8 (X1 iv) ++ to_host e 8 (X2 iv) ++
  to_host e 8 (X3 iv) ++ to_host e 8 (X4 iv).

(** hash.c l.68-77 *)
Definition o8_xof (iv : state) (out : ptr) (outlen : N) (inp : ptr) (inlen : N) : C Z :=
  s <- o8_absorb (o8_words iv) inp inlen ;;
  o8_squeeze s out outlen ;;;
  ret 0%Z.

(** hash.c l.79-82 with ASCON_HASH_BYTES 32, CRYPTO_BYTES 32 *)
Definition o8_hash_hash256 (out inp : ptr) (inlen : N) : C Z := o8_xof w64_HASH_IV out 32 inp inlen.
(** hash.c l.79-82 with ASCON_HASH_BYTES 0, CRYPTO_BYTES 64 *)
Definition o8_hash_xof128 (out inp : ptr) (inlen : N) : C Z := o8_xof w64_XOF_IV out 64 inp inlen.

(** prf.c l.39-46 *)
Definition o8_prf_absorb_body (v : bytes * N * ptr * N) : C (bytes * N * ptr * N) :=
  let '(s, i, inp, inlen) := v in
  s <- ABSORB s (8 * i) inp 8 ;;
  b <- branch (i + 1 =? 4) ;;
  let i := if b : bool then 0 else i + 1 in
  b <- branch (i =? 0) ;;
  let s := if b : bool then P 12 s else s in
  inp <- padd inp 8 ;;
  ret (s, i, inp, sub64 inlen 8).

(** prf.c l.59-66 *)
Definition o8_prf_squeeze_body (v : bytes * N * ptr * N) : C (bytes * N * ptr * N) :=
  let '(s, i, out, outlen) := v in
  SQUEEZE out s (8 * i) 8 ;;;
  b <- branch (i + 1 =? 2) ;;
  let i := if b : bool then 0 else i + 1 in
  b <- branch (i =? 0) ;;
  let s := if b : bool then P 12 s else s in
  out <- padd out 8 ;;
  ret (s, i, out, sub64 outlen 8).

(** prf.c l.10-73; [IV] as selected in l.23-29, [CRYPTO_BYTES] of api.h *)
Definition o8_prf (IV CRYPTO_BYTES : N) (out : ptr) (outlen : N) (inp : ptr) (inlen : N) (k : ptr) : C Z :=
  b <- branch (CRYPTO_BYTES <? outlen) ;;
  if b : bool then ret (-1)%Z else
  let s := to_host e 8 IV ++ zeros 32 in
  s <- INSERT s 8 k 8 ;;
  k8 <- padd k 8 ;; s <- INSERT s 16 k8 8 ;;
  let s := P 12 s in
  '(s, i, inp, inlen) <-
    while (fuel inlen 8) (fun '(_, _, _, inlen) => 8 <=? inlen) o8_prf_absorb_body (s, 0, inp, inlen) ;;
  s <- ABSORB s (8 * i) inp inlen ;;
  s <- xorb8 s i (hpad inlen) x01 ;;
  s <- xorb8 s 4 dpos x80 ;;
  let s := P 12 s in
  '(s, i, out, outlen) <-
    while (fuel outlen 8) (fun '(_, _, _, outlen) => 8 <? outlen) o8_prf_squeeze_body (s, 0, out, outlen) ;;
  SQUEEZE out s (8 * i) outlen ;;;
  ret 0%Z.

(** prf.c l.75-78 *)
Definition o8_auth (IV CRYPTO_BYTES : N) (out inp : ptr) (len : N) (k : ptr) : C Z :=
  o8_prf IV CRYPTO_BYTES out CRYPTO_BYTES inp len k.

(** prf.c l.80-88; [sp] is the address of the local array [tag] *)
Definition o8_auth_verify (IV CRYPTO_BYTES : N) (sp h inp : ptr) (len : N) (k : ptr) : C Z :=
  with_local sp CRYPTO_BYTES (fun tag =>
    o8_prf IV CRYPTO_BYTES tag CRYPTO_BYTES inp len k ;;;
    diff <- diff_loop_mem (N.to_nat CRYPTO_BYTES) h tag ;;
    ret (verdict diff)).

(** ** prfs.c *)

(** prfs.c l.10-48; word.h l.68 [PRFS_MLEN] *)
Definition o8_prfs (out : ptr) (outlen : N) (inp : ptr) (inlen : N) (k : ptr) : C Z :=
  b1 <- branch (16 <? inlen) ;;
  if b1 : bool then ret (-1)%Z else
  b2 <- branch (16 <? outlen) ;;
  if b2 : bool then ret (-1)%Z else
  b3 <- branch (16 <? outlen) ;;    (* outlen > CRYPTO_BYTES *)
  if b3 : bool then ret (-1)%Z else
  let s := to_host e 8 (N.lxor 0x00000000800c0007 (shlw 64 inlen 51)) ++ zeros 32 in
  s <- INSERT s 8 k 8 ;;
  k8 <- padd k 8 ;; s <- INSERT s 16 k8 8 ;;
  b <- branch (8 <? inlen) ;;
  s <- (if b : bool then
    s <- ABSORB s 24 inp 8 ;;
    in8 <- padd inp 8 ;; ABSORB s 32 in8 (sub64 inlen 8)
  else
    b <- branch (negb (inlen =? 0)) ;;
    if b : bool then ABSORB s 24 inp inlen else ret s) ;;
  let s := P 12 s in
  s <- ABSORB s 24 k 8 ;;
  k8 <- padd k 8 ;; s <- ABSORB s 32 k8 8 ;;
  b <- branch (8 <? outlen) ;;
  (if b : bool then
    SQUEEZE out s 24 8 ;;;
    out8 <- padd out 8 ;; SQUEEZE out8 s 32 (sub64 outlen 8)
  else
    b <- branch (negb (outlen =? 0)) ;;
    if b : bool then SQUEEZE out s 24 outlen else ret tt) ;;;
  ret 0%Z.
(** prfs.c l.50-53 *)
Definition o8_prfs_auth (out inp : ptr) (len : N) (k : ptr) : C Z := o8_prfs out 16 inp len k.
(** prfs.c l.55-64 *)
Definition o8_prfs_verify (sp h inp : ptr) (len : N) (k : ptr) : C Z :=
  b <- branch (16 <? len) ;;
  if b : bool then ret (-1)%Z else
  with_local sp 16 (fun tag =>
    o8_prfs tag 16 inp len k ;;;
    diff <- diff_loop_mem 16 h tag ;;
    ret (verdict diff)).
(** ** opt8_lowsize *)

(** [ar], [hr]: whether ASCON_AEAD_RATE (then 16), ASCON_HASH_ROUNDS (then
    12) are defined; [strict]: as in ModelLow.v, how [p += rate] on a null
    pointer is treated *)
Variables ar hr strict : bool.

(** update.c l.49-50, l.61-62 *)
Definition o8_advance (p : ptr) (n : N) : C ptr :=
  if strict then padd p n else if p =? 0 then ret n else padd p n.

(** update.c l.16-26 *)
Definition o8_nr (mode : N) : N :=
  if ar && negb hr then 8 else if negb ar && hr then 12
  else if negb (N.land mode 8 =? 0) then 12 else 8.
Definition o8_rate (mode : N) : N :=
  if ar && negb hr then 16 else if negb ar && hr then 8
  else if negb (N.land mode 8 =? 0) then 8 else 16.

(** [if (b) s = f(s);] *)
Definition cond_do (b : bool) (f : bytes -> C bytes) (s : bytes) : C bytes :=
  b <- branch b ;; if b : bool then f s else ret s.
(** the same inside [#if d] *)
Definition ifdef (d : bool) (f : bytes -> C bytes) (s : bytes) : C bytes := if d then f s else ret s.

(** update.c l.28-52: body of the loop *)
Definition o8_update_body (mode : N) (v : bytes * ptr * ptr * N) : C (bytes * ptr * ptr * N) :=
  let '(s, c, m, mlen) := v in
  s <- cond_do ((mode =? 1) || (mode =? 9)) (fun s => ABSORB s 0 m 8) s ;;
  s <- ifdef hr (cond_do ((mode =? 2) || (mode =? 10)) (fun s => SQUEEZE c s 0 8 ;;; ret s)) s ;;
  s <- ifdef ar (cond_do (mode =? 3) (fun s => ENCRYPT s 0 c m 8)) s ;;
  s <- ifdef ar (cond_do (mode =? 7) (fun s => DECRYPT s 0 c m 8)) s ;;
  s <- ifdef ar (cond_do (mode =? 1) (fun s => m8 <- padd m 8 ;; ABSORB s 8 m8 8)) s ;;
  s <- ifdef ar (cond_do (mode =? 3) (fun s =>
         c8 <- padd c 8 ;; m8 <- padd m 8 ;; ENCRYPT s 8 c8 m8 8)) s ;;
  s <- ifdef ar (cond_do (mode =? 7) (fun s =>
         c8 <- padd c 8 ;; m8 <- padd m 8 ;; DECRYPT s 8 c8 m8 8)) s ;;
  s <- (if hr then cond_do (negb ((mode =? 10) && (mlen =? o8_rate mode)))
                     (fun s => ret (P (o8_nr mode) s)) s
        else ret (P (o8_nr mode) s)) ;;
  m <- o8_advance m (o8_rate mode) ;;
  c <- o8_advance c (o8_rate mode) ;;
  ret (s, c, m, sub64 mlen (o8_rate mode)).

(** update.c l.14-76 *)
Definition o8_update (s : bytes) (c m : ptr) (mlen mode : N) : C bytes :=
  '(s, c, m, mlen) <-
    while (fuel mlen (o8_rate mode)) (fun '(_, _, _, mlen) => o8_rate mode <=? mlen)
      (o8_update_body mode) (s, c, m, mlen) ;;
  '(s, i, c, m, mlen) <- (if ar then
    b <- branch (8 <=? mlen) ;;
    if b : bool then
      s <- cond_do (mode =? 1) (fun s => ABSORB s 0 m 8) s ;;
      s <- cond_do (mode =? 3) (fun s => ENCRYPT s 0 c m 8) s ;;
      s <- cond_do (mode =? 7) (fun s => DECRYPT s 0 c m 8) s ;;
      m <- o8_advance m 8 ;;
      c <- o8_advance c 8 ;;
      ret (s, 1, c, m, sub64 mlen 8)
    else ret (s, 0, c, m, mlen)
  else ret (s, 0, c, m, mlen)) ;;
  s <- ifdef ar (cond_do (mode =? 3) (fun s => ENCRYPT s (8 * i) c m mlen)) s ;;
  s <- ifdef ar (cond_do (mode =? 7) (fun s => DECRYPT s (8 * i) c m mlen)) s ;;
  s <- cond_do ((mode =? 1) || (mode =? 9)) (fun s => ABSORB s (8 * i) m mlen) s ;;
  s <- ifdef hr (cond_do ((mode =? 2) || (mode =? 10)) (fun s => SQUEEZE c s 0 mlen ;;; ret s)) s ;;
  xorb8 s i mlen x01.

(** opt8_lowsize/aead.c l.78-91, l.98-111: the part common to encryption
    and decryption.  loadkey, initaead, final, gettag and verify (l.14-76)
    have the text of opt8/aead.c *)
Definition o8_low_start (ad : ptr) (adlen : N) (npub k : ptr) : C (bytes * bytes) :=
  key <- o8_loadkey k ;;
  s <- o8_initaead key npub ;;
  b <- branch (negb (adlen =? 0)) ;;
  s <- (if b : bool then s <- o8_update s NULL ad adlen 1 ;; ret (P 8 s) else ret s) ;;
  s <- xorb8 s 4 7 x80 ;;
  ret (s, key).

(** opt8_lowsize/aead.c l.78-96 with l.117-137 *)
Definition o8_low_aead_encrypt (c clen m : ptr) (mlen : N)
    (ad : ptr) (adlen : N) (nsec npub k : ptr) : C Z :=
  store_ull e clen (add64 mlen CRYPTO_ABYTES) ;;;
  t <- padd c mlen ;;
  '(s, key) <- o8_low_start ad adlen npub k ;;
  s <- o8_update s c m mlen 3 ;;
  s <- o8_final s key ;;
  o8_gettag s t ;;;
  ret 0%Z.

(** opt8_lowsize/aead.c l.98-115 with l.139-160: [*mlen] is read back twice *)
Definition o8_low_aead_decrypt (m mlen nsec c : ptr) (clen : N)
    (ad : ptr) (adlen : N) (npub k : ptr) : C Z :=
  b <- branch (clen <? CRYPTO_ABYTES) ;;
  if b : bool then ret (-1)%Z else
  store_ull e mlen (sub64 clen CRYPTO_ABYTES) ;;;
  n <- load_ull e mlen ;;
  t <- padd c n ;;
  n <- load_ull e mlen ;;
  '(s, key) <- o8_low_start ad adlen npub k ;;
  s <- o8_update s m c n 7 ;;
  s <- o8_final s key ;;
  o8_verify s t.

(** opt8_lowsize/hash.c l.29-40 *)
Definition o8_low_xof (iv : state) (out : ptr) (outlen : N) (inp : ptr) (inlen : N) : C Z :=
  s <- o8_update (o8_words iv) NULL inp inlen (N.lor 8 1) ;;
  let s := P 12 s in
  o8_update s out NULL outlen (N.lor 8 2) ;;;
  ret 0%Z.
(** opt8_lowsize/hash.c l.42-45 *)
Definition o8_low_hash256 (out inp : ptr) (inlen : N) : C Z := o8_low_xof w64_HASH_IV out 32 inp inlen.
Definition o8_low_xof128 (out inp : ptr) (inlen : N) : C Z := o8_low_xof w64_XOF_IV out 64 inp inlen.
End Opt8.

(** opt8 *)
Definition opt8_hpad (n : N) : N := n.
Definition opt8_dpos : N := 7.
(** avr; [7 - inlen] *)
Definition avr_hpad (n : N) : N := 7 - n.
Definition avr_dpos : N := 0.
