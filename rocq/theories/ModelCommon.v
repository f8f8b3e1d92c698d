(** * ModelCommon.v -- the mode code shared by the optimised implementations.

    Models, function by function, src/word.h (memory part), src/aead.c,
    src/hash.c, src/prf.c and src/prfs.c.  Verbatim copies of these files
    make up the directories opt64, opt32, bi32, bi32_lowreg, bi8 of
    crypto_aead/asconaead128, crypto_hash/asconhash256,
    crypto_hash/asconxof128, crypto_auth/asconmacv13, asconprfv13,
    asconprfsv13 and crypto_aead_hash/asconaeadxof128, and (hash.c) the
    *_lowsize directories of the hash functions.

    What differs between these directories (word representation, round
    function, constants) is collected in the record [wordops]; its
    instances are in ModelWords.v.

    Simplifications, everywhere: print, printbytes and printstate are empty
    macros unless ASCON_PRINT_STATE is defined (printstate.h); comparisons
    of two preprocessor constants (ASCON_AEAD_RATE == 16, CRYPTO_KEYBYTES
    == 16, ...) are resolved; the permutation is a pure function of the
    state (its loop runs a constant number of times, without memory
    accesses), so it emits no events. *)
From Coq Require Import Bool NArith ZArith List Init.Byte.
From Verif Require Import Words CMem ModelRef.
Import ListNotations.
Local Open Scope N_scope.

(** word.h, round.h, permutations.h and constants.h of one implementation
    on one host *)
Record wordops := WordOps {
  w_in : N -> N;                 (** U64TOWORD *)
  w_out : N -> N;                (** WORDTOU64 *)
  w_pad : N -> N;                (** PAD *)
  w_dsep : N;                    (** DSEP *)
  w_clear : N -> N -> N;         (** CLEAR *)
  w_prfs_mlen : N -> N;          (** PRFS_MLEN *)
  w_P : N -> state -> state;     (** P(s, nr) *)
  c_aead : N;                    (** ASCON_128A_IV *)
  c_hash : state;                (** ASCON_HASH_IV0 .. IV4 *)
  c_xof : state;                 (** ASCON_XOF_IV0 .. IV4 *)
  c_mac : N;  c_prf : N;  c_prfs : N   (** ASCON_MAC_IV, ASCON_PRF_IV, ASCON_PRFS_IV *)
}.

(** lendian.h l.14, l.25-34: [U64LE] *)
Definition swap64 (x : N) : N :=
  N.lor (shlw 64 (N.land 0x00000000000000FF x) 56)
  (N.lor (shlw 64 (N.land 0x000000000000FF00 x) 40)
  (N.lor (shlw 64 (N.land 0x0000000000FF0000 x) 24)
  (N.lor (shlw 64 (N.land 0x00000000FF000000 x) 8)
  (N.lor (shrw (N.land 0x000000FF00000000 x) 8)
  (N.lor (shrw (N.land 0x0000FF0000000000 x) 24)
  (N.lor (shrw (N.land 0x00FF000000000000 x) 40)
         (shrw (N.land 0xFF00000000000000 x) 56))))))).
Definition U64LE (e : endian) (x : N) : N := match e with LE => x | BE => swap64 x end.

Section Mode.
Variable e : endian.
Variable o : wordops.

(** word.h l.52-56 (bi32/word.h l.96-100, bi8/word.h l.91-95): [n] bytes
    are copied over the first bytes of a zero uint64_t; more than 8 would
    overflow it *)
Definition wLOADBYTES (p : ptr) (n : N) : C N :=
  if 8 <? n then fail ErrIndex else
  l <- memcpy_in p n ;;
  ret (w_in o (from_host e (l ++ zeros (8 - length l)))).
(** word.h l.58-61 *)
Definition wSTOREBYTES (p : ptr) (w n : N) : C unit :=
  if 8 <? n then fail ErrIndex else
  memcpy_out p (firstn (N.to_nat n) (to_host e 8 (w_out o w))).
(** word.h l.18-19 *)
Definition wLOAD (p : ptr) := wLOADBYTES p 8.
Definition wSTORE (p : ptr) (w : N) := wSTOREBYTES p w 8.
(** word.h l.35 [PAD], l.41-45 [CLEAR]: the shift count must be smaller
    than the width *)
Definition wPAD (i : N) : C N := if i <? 8 then ret (w_pad o i) else fail ErrShift.
Definition wCLEAR (w n : N) : C N := if n <? 8 then ret (w_clear o w n) else fail ErrShift.

(** word.h l.27-33 (the same text in bi32/word.h and bi8/word.h) *)
Definition NOTZERO (a b : N) : Z :=
  let r := N.lor a b in
  let r := N.lor r (shrw r 32) in
  let r := N.lor r (shrw r 16) in
  let r := N.lor r (shrw r 8) in
  verdict (N.land r 0xff).

(** [*px = v] for [px = &s->x[i]] *)
Definition setx (s : state) (i v : N) : state :=
  let '(St x0 x1 x2 x3 x4) := s in
  if i =? 0 then St v x1 x2 x3 x4 else if i =? 1 then St x0 v x2 x3 x4
  else if i =? 2 then St x0 x1 v x3 x4 else if i =? 3 then St x0 x1 x2 v x4
  else St x0 x1 x2 x3 v.

(** ** aead.c *)

(** aead.c l.14-23 *)
Definition ascon_loadkey (k : ptr) : C (N * N) :=
  K0 <- wLOAD k ;;
  k8 <- padd k 8 ;; K1 <- wLOAD k8 ;;
  ret (K0, K1).

(** aead.c l.25-50 *)
Definition ascon_initaead (key : N * N) (npub : ptr) : C state :=
  let '(K0, K1) := key in
  N0 <- wLOAD npub ;;
  n8 <- padd npub 8 ;; N1 <- wLOAD n8 ;;
  let s := St (c_aead o) K0 K1 N0 N1 in
  let s := w_P o 12 s in
  let s := xorx s 3 K0 in
  ret (xorx s 4 K1).

(** aead.c l.57-64 *)
Definition ad_body (v : state * ptr * N) : C (state * ptr * N) :=
  let '(s, ad, adlen) := v in
  w <- wLOAD ad ;; let s := xorx s 0 w in
  ad8 <- padd ad 8 ;; w <- wLOAD ad8 ;; let s := xorx s 1 w in
  let s := w_P o 8 s in
  ad <- padd ad 16 ;;
  ret (s, ad, sub64 adlen 16).

(** aead.c l.65-74 (the last, partial block, up to the permutation) *)
Definition ad_last (s : state) (ad : ptr) (adlen : N) : C state :=
  b <- branch (8 <=? adlen) ;;
  '(s, px, ad, adlen) <- (if b : bool then
    w <- wLOAD ad ;; let s := xorx s 0 w in
    ad <- padd ad 8 ;;
    ret (s, 1, ad, sub64 adlen 8)
  else ret (s, 0, ad, adlen)) ;;
  pad <- wPAD adlen ;; let s := xorx s px pad in
  b <- branch (negb (adlen =? 0)) ;;
  if b : bool then w <- wLOADBYTES ad adlen ;; ret (xorx s px w) else ret s.

(** aead.c l.52-81 *)
Definition ascon_adata (s : state) (ad : ptr) (adlen : N) : C state :=
  b <- branch (negb (adlen =? 0)) ;;
  s <- (if b : bool then
    '(s, ad, adlen) <-
      while (fuel adlen 16) (fun '(_, _, adlen) => 16 <=? adlen) ad_body (s, ad, adlen) ;;
    s <- ad_last s ad adlen ;;
    ret (w_P o 8 s)
  else ret s) ;;
  ret (xorx s 4 (w_dsep o)).

(** aead.c l.87-99 *)
Definition enc_body (v : state * ptr * ptr * N) : C (state * ptr * ptr * N) :=
  let '(s, m, c, mlen) := v in
  w <- wLOAD m ;; let s := xorx s 0 w in
  wSTORE c (X0 s) ;;;
  m8 <- padd m 8 ;; w <- wLOAD m8 ;; let s := xorx s 1 w in
  c8 <- padd c 8 ;; wSTORE c8 (X1 s) ;;;
  let s := w_P o 8 s in
  m <- padd m 16 ;;
  c <- padd c 16 ;;
  ret (s, m, c, sub64 mlen 16).

(** aead.c l.101-115 (the last, partial block) *)
Definition enc_last (s : state) (m c : ptr) (mlen : N) : C state :=
  b <- branch (8 <=? mlen) ;;
  '(s, px, m, c, mlen) <- (if b : bool then
    w <- wLOAD m ;; let s := xorx s 0 w in
    wSTORE c (X0 s) ;;;
    m <- padd m 8 ;;
    c <- padd c 8 ;;
    ret (s, 1, m, c, sub64 mlen 8)
  else ret (s, 0, m, c, mlen)) ;;
  pad <- wPAD mlen ;; let s := xorx s px pad in
  b <- branch (negb (mlen =? 0)) ;;
  if b : bool then
    w <- wLOADBYTES m mlen ;; let s := xorx s px w in
    wSTOREBYTES c (getx s px) mlen ;;;
    ret s
  else ret s.

(** aead.c l.83-116 *)
Definition ascon_encrypt (s : state) (c m : ptr) (mlen : N) : C state :=
  '(s, m, c, mlen) <-
    while (fuel mlen 16) (fun '(_, _, _, mlen) => 16 <=? mlen) enc_body (s, m, c, mlen) ;;
  enc_last s m c mlen.

(** aead.c l.122-138 *)
Definition dec_body (v : state * ptr * ptr * N) : C (state * ptr * ptr * N) :=
  let '(s, m, c, clen) := v in
  cx <- wLOAD c ;; let s := xorx s 0 cx in
  wSTORE m (X0 s) ;;;
  let s := setx s 0 cx in
  c8 <- padd c 8 ;; cx <- wLOAD c8 ;; let s := xorx s 1 cx in
  m8 <- padd m 8 ;; wSTORE m8 (X1 s) ;;;
  let s := setx s 1 cx in
  let s := w_P o 8 s in
  m <- padd m 16 ;;
  c <- padd c 16 ;;
  ret (s, m, c, sub64 clen 16).

(** aead.c l.140-159 (the last, partial block) *)
Definition dec_last (s : state) (m c : ptr) (clen : N) : C state :=
  b <- branch (8 <=? clen) ;;
  '(s, px, m, c, clen) <- (if b : bool then
    cx <- wLOAD c ;; let s := xorx s 0 cx in
    wSTORE m (X0 s) ;;;
    let s := setx s 0 cx in
    m <- padd m 8 ;;
    c <- padd c 8 ;;
    ret (s, 1, m, c, sub64 clen 8)
  else ret (s, 0, m, c, clen)) ;;
  pad <- wPAD clen ;; let s := xorx s px pad in
  b <- branch (negb (clen =? 0)) ;;
  if b : bool then
    cx <- wLOADBYTES c clen ;;
    let s := xorx s px cx in
    wSTOREBYTES m (getx s px) clen ;;;
    x <- wCLEAR (getx s px) clen ;; let s := setx s px x in
    ret (xorx s px cx)
  else ret s.

(** aead.c l.118-160 *)
Definition ascon_decrypt (s : state) (m c : ptr) (clen : N) : C state :=
  '(s, m, c, clen) <-
    while (fuel clen 16) (fun '(_, _, _, clen) => 16 <=? clen) dec_body (s, m, c, clen) ;;
  dec_last s m c clen.

(** aead.c l.162-186 *)
Definition ascon_final (s : state) (key : N * N) : state :=
  let '(K0, K1) := key in
  let s := xorx s 2 K0 in
  let s := xorx s 3 K1 in
  let s := w_P o 12 s in
  let s := xorx s 3 K0 in
  xorx s 4 K1.

(** aead.c l.188-191 *)
Definition ascon_gettag (s : state) (t : ptr) : C unit :=
  wSTOREBYTES t (X3 s) 8 ;;;
  t8 <- padd t 8 ;; wSTOREBYTES t8 (X4 s) 8.

(** aead.c l.193-198 *)
Definition ascon_verify (s : state) (t : ptr) : C Z :=
  w <- wLOADBYTES t 8 ;; let s := xorx s 3 w in
  t8 <- padd t 8 ;; w <- wLOADBYTES t8 8 ;; let s := xorx s 4 w in
  ret (NOTZERO (X3 s) (X4 s)).

(** aead.c l.200-212 *)
Definition ascon_aead_encrypt (t c m : ptr) (mlen : N) (ad : ptr) (adlen : N) (npub k : ptr) : C Z :=
  key <- ascon_loadkey k ;;
  s <- ascon_initaead key npub ;;
  s <- ascon_adata s ad adlen ;;
  s <- ascon_encrypt s c m mlen ;;
  let s := ascon_final s key in
  ascon_gettag s t ;;;
  ret 0%Z.

(** aead.c l.214-225 *)
Definition ascon_aead_decrypt (m t c : ptr) (clen : N) (ad : ptr) (adlen : N) (npub k : ptr) : C Z :=
  key <- ascon_loadkey k ;;
  s <- ascon_initaead key npub ;;
  s <- ascon_adata s ad adlen ;;
  s <- ascon_decrypt s m c clen ;;
  let s := ascon_final s key in
  ascon_verify s t.

(** aead.c l.227-247 *)
Definition com_aead_encrypt (c clen m : ptr) (mlen : N)
    (ad : ptr) (adlen : N) (nsec npub k : ptr) : C Z :=
  store_ull e clen (add64 mlen CRYPTO_ABYTES) ;;;
  t <- padd c mlen ;;
  ascon_aead_encrypt t c m mlen ad adlen npub k.

(** aead.c l.249-270: [*mlen] is read back twice (l.258, l.266) *)
Definition com_aead_decrypt (m mlen nsec c : ptr) (clen : N)
    (ad : ptr) (adlen : N) (npub k : ptr) : C Z :=
  b <- branch (clen <? CRYPTO_ABYTES) ;;
  if b : bool then ret (-1)%Z else
  store_ull e mlen (sub64 clen CRYPTO_ABYTES) ;;;
  n <- load_ull e mlen ;;
  t <- padd c n ;;
  n <- load_ull e mlen ;;
  ascon_aead_decrypt m t c n ad adlen npub k.

(** ** hash.c *)

(** hash.c l.39-45 *)
Definition absorb_body (v : state * ptr * N) : C (state * ptr * N) :=
  let '(s, inp, inlen) := v in
  w <- wLOAD inp ;; let s := xorx s 0 w in
  let s := w_P o 12 s in
  inp <- padd inp 8 ;;
  ret (s, inp, sub64 inlen 8).

(** hash.c l.36-50 *)
Definition ascon_absorb (s : state) (inp : ptr) (inlen : N) : C state :=
  '(s, inp, inlen) <-
    while (fuel inlen 8) (fun '(_, _, inlen) => 8 <=? inlen) absorb_body (s, inp, inlen) ;;
  w <- wLOADBYTES inp inlen ;; let s := xorx s 0 w in
  pad <- wPAD inlen ;;
  ret (xorx s 0 pad).

(** hash.c l.56-62 *)
Definition squeeze_body (v : state * ptr * N) : C (state * ptr * N) :=
  let '(s, out, outlen) := v in
  wSTORE out (X0 s) ;;;
  let s := w_P o 12 s in
  out <- padd out 8 ;;
  ret (s, out, sub64 outlen 8).

(** hash.c l.52-66 *)
Definition ascon_squeeze (s : state) (out : ptr) (outlen : N) : C unit :=
  let s := w_P o 12 s in
  '(s, out, outlen) <-
    while (fuel outlen 8) (fun '(_, _, outlen) => 8 <? outlen) squeeze_body (s, out, outlen) ;;
  wSTOREBYTES out (X0 s) outlen.

(** hash.c l.68-77; [iv] is the initial state built in l.24-34 from the
    precomputed constants selected in l.14-22 *)
Definition ascon_xof (iv : state) (out : ptr) (outlen : N) (inp : ptr) (inlen : N) : C Z :=
  s <- ascon_absorb iv inp inlen ;;
  ascon_squeeze s out outlen ;;;
  ret 0%Z.

(** hash.c l.79-82 with ASCON_HASH_BYTES 32, CRYPTO_BYTES 32 *)
Definition com_hash_hash256 (out inp : ptr) (inlen : N) : C Z := ascon_xof (c_hash o) out 32 inp inlen.
(** hash.c l.79-82 with ASCON_HASH_BYTES 0, CRYPTO_BYTES 64 *)
Definition com_hash_xof128 (out inp : ptr) (inlen : N) : C Z := ascon_xof (c_xof o) out 64 inp inlen.

(** ** prf.c *)

(** prf.c l.42-49 *)
Definition prf_absorb_body (v : state * N * ptr * N) : C (state * N * ptr * N) :=
  let '(s, i, inp, inlen) := v in
  w <- wLOAD inp ;;
  let s := xorx s i w in
  b <- branch (i + 1 =? 4) ;;
  let i := if b : bool then 0 else i + 1 in
  b <- branch (i =? 0) ;;
  let s := if b : bool then w_P o 12 s else s in
  inp <- padd inp 8 ;;
  ret (s, i, inp, sub64 inlen 8).

(** prf.c l.62-69 *)
Definition prf_squeeze_body (v : state * N * ptr * N) : C (state * N * ptr * N) :=
  let '(s, i, out, outlen) := v in
  wSTORE out (getx s i) ;;;
  b <- branch (i + 1 =? 2) ;;
  let i := if b : bool then 0 else i + 1 in
  b <- branch (i =? 0) ;;
  let s := if b : bool then w_P o 12 s else s in
  out <- padd out 8 ;;
  ret (s, i, out, sub64 outlen 8).

(** prf.c l.10-76; [IV] as selected in l.25-31, [CRYPTO_BYTES] of api.h *)
Definition com_prf (IV CRYPTO_BYTES : N) (out : ptr) (outlen : N) (inp : ptr) (inlen : N) (k : ptr) : C Z :=
  b <- branch (CRYPTO_BYTES <? outlen) ;;
  if b : bool then ret (-1)%Z else
  K0 <- wLOAD k ;;
  k8 <- padd k 8 ;; K1 <- wLOAD k8 ;;
  let s := St IV K0 K1 0 0 in
  let s := w_P o 12 s in
  '(s, i, inp, inlen) <-
    while (fuel inlen 8) (fun '(_, _, _, inlen) => 8 <=? inlen) prf_absorb_body (s, 0, inp, inlen) ;;
  b <- branch (negb (inlen =? 0)) ;;
  s <- (if b : bool then w <- wLOADBYTES inp inlen ;; ret (xorx s i w) else ret s) ;;
  pad <- wPAD inlen ;; let s := xorx s i pad in
  let s := xorx s 4 (w_dsep o) in
  let s := w_P o 12 s in
  '(s, i, out, outlen) <-
    while (fuel outlen 8) (fun '(_, _, _, outlen) => 8 <? outlen) prf_squeeze_body (s, 0, out, outlen) ;;
  wSTOREBYTES out (getx s i) outlen ;;;
  ret 0%Z.

(** prf.c l.78-81 *)
Definition com_auth (IV CRYPTO_BYTES : N) (out inp : ptr) (len : N) (k : ptr) : C Z :=
  com_prf IV CRYPTO_BYTES out CRYPTO_BYTES inp len k.

(** prf.c l.83-91; [sp] is the address of the local array [tag] *)
Definition com_auth_verify (IV CRYPTO_BYTES : N) (sp h inp : ptr) (len : N) (k : ptr) : C Z :=
  with_local sp CRYPTO_BYTES (fun tag =>
    com_prf IV CRYPTO_BYTES tag CRYPTO_BYTES inp len k ;;;
    diff <- diff_loop_mem (N.to_nat CRYPTO_BYTES) h tag ;;
    ret (verdict diff)).

(** ** prfs.c *)

(** prfs.c l.10-51 *)
Definition com_prfs (out : ptr) (outlen : N) (inp : ptr) (inlen : N) (k : ptr) : C Z :=
  b1 <- branch (16 <? inlen) ;;
  if b1 : bool then ret (-1)%Z else
  b2 <- branch (16 <? outlen) ;;
  if b2 : bool then ret (-1)%Z else
  b3 <- branch (16 <? outlen) ;;    (* outlen > CRYPTO_BYTES *)
  if b3 : bool then ret (-1)%Z else
  K0 <- wLOAD k ;;
  k8 <- padd k 8 ;; K1 <- wLOAD k8 ;;
  let s := St (N.lxor (c_prfs o) (w_prfs_mlen o inlen)) K0 K1 0 0 in
  b <- branch (8 <? inlen) ;;
  s <- (if b : bool then
    w3 <- wLOAD inp ;; let s := setx s 3 w3 in
    in8 <- padd inp 8 ;; w4 <- wLOADBYTES in8 (sub64 inlen 8) ;;
    ret (setx s 4 w4)
  else
    b <- branch (negb (inlen =? 0)) ;;
    if b : bool then w3 <- wLOADBYTES inp inlen ;; ret (setx s 3 w3) else ret s) ;;
  let s := w_P o 12 s in
  let s := xorx s 3 K0 in
  let s := xorx s 4 K1 in
  b <- branch (8 <? outlen) ;;
  (if b : bool then
    wSTORE out (X3 s) ;;;
    out8 <- padd out 8 ;; wSTOREBYTES out8 (X4 s) (sub64 outlen 8)
  else
    b <- branch (negb (outlen =? 0)) ;;
    if b : bool then wSTOREBYTES out (X3 s) outlen else ret tt) ;;;
  ret 0%Z.
(** prfs.c l.53-56 *)
Definition com_prfs_auth (out inp : ptr) (len : N) (k : ptr) : C Z := com_prfs out 16 inp len k.
(** prfs.c l.58-67 *)
Definition com_prfs_verify (sp h inp : ptr) (len : N) (k : ptr) : C Z :=
  b <- branch (16 <? len) ;;
  if b : bool then ret (-1)%Z else
  with_local sp 16 (fun tag =>
    com_prfs tag 16 inp len k ;;;
    diff <- diff_loop_mem 16 h tag ;;
    ret (verdict diff)).
End Mode.
