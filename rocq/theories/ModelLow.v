(** * ModelLow.v -- the size-optimised implementations.

    Models, function by function, src/lowsize/aead.c, src/lowsize/update.c,
    src/lowsize/crypto_aead.c and src/combined/hash.c.  Verbatim copies
    make up the directories opt64_lowsize, opt32_lowsize, bi32_lowsize of
    crypto_aead/asconaead128 (without hash.c) and of
    crypto_aead_hash/asconaeadxof128.  The word operations are those of
    ModelWords.v ([opt64_lowsize], [opt32_lowsize], [bi32_lowsize]).

    [hb] says whether ASCON_HASH_BYTES is defined (crypto_aead_hash).

    update.c advances both of its pointers on every block (l.56-57), and
    is called with a NULL [out] (aead.c l.88, hash.c l.34) or a NULL [in]
    (hash.c l.37).  Adding 8 to a null pointer is undefined in ISO C.
    [strict] selects how the model treats it: [true] as undefined
    behaviour, [false] as arithmetic on the address 0, which is what the
    targeted compilers do (the resulting pointer is never dereferenced).

    Simplifications, everywhere: as in ModelCommon.v; in addition the local
    array [t] (aead.c l.101-103) is a Gallina list: the aliasing and
    alignment of the cast to uint64_t* are not modelled. *)
From Coq Require Import Bool NArith ZArith List Init.Byte.
From Verif Require Import Words CMem ModelRef ModelCommon.
Import ListNotations.
Local Open Scope N_scope.

(** lowsize/ascon.h l.27-32 *)
Definition ASCON_ABSORB := 0x1.   Definition ASCON_SQUEEZE := 0x2.
Definition ASCON_INSERT := 0x4.   Definition ASCON_HASH := 0x8.
Definition ASCON_ENCRYPT := 0x3.  Definition ASCON_DECRYPT := 0x7.
(** [mode & flag] as a condition *)
Definition has (mode flag : N) : bool := negb (N.land mode flag =? 0).

Section Low.
Variable e : endian.
Variable o : wordops.
Variable strict : bool.
Variable hb : bool.

(** [p += 8] (update.c l.56, l.57) *)
Definition advance (p : ptr) : C ptr :=
  if strict then padd p 8 else if p =? 0 then ret 8 else padd p 8.

(** update.c l.32-34 and l.61-63: under [#ifdef ASCON_HASH_BYTES] *)
Definition absorbs (mode : N) : C bool :=
  if hb then branch (has mode ASCON_ABSORB) else ret true.

(** update.c l.16-22: [nr] and [rate] *)
Definition upd_rounds (mode : N) : N := if hb && has mode ASCON_HASH then 12 else 8.
Definition upd_rate (mode : N) : N := if hb && has mode ASCON_HASH then 8 else 16.

(** update.c l.30-59: body of the loop over 8-byte words; the variables
    are the state, [i], [tmp], [in], [out] and [len] *)
Definition update_body (mode : N) (v : state * N * N * ptr * ptr * N) :
    C (state * N * N * ptr * ptr * N) :=
  let '(s, i, tmp, inp, out, len) := v in
  (* absorb data *)
  b <- absorbs mode ;;
  '(s, tmp) <- (if b : bool then w <- wLOAD e o inp ;; ret (xorx s i w, w) else ret (s, tmp)) ;;
  (* extract data *)
  b <- branch (has mode ASCON_SQUEEZE) ;;
  (if b : bool then wSTORE e o out (getx s i) else ret tt) ;;;
  (* insert data *)
  b <- branch (has mode ASCON_INSERT) ;;
  let s := if b : bool then setx s i tmp else s in
  (* compute permutation for full blocks *)
  b <- branch (i + 1 =? upd_rate mode / 8) ;;
  let i := if b : bool then 0 else i + 1 in
  b <- branch (i =? 0) ;;
  let s := if b : bool then w_P o (upd_rounds mode) s else s in
  inp <- advance inp ;;
  out <- advance out ;;
  ret (s, i, tmp, inp, out, sub64 len 8).

(** update.c l.14-76 *)
Definition ascon_update (s : state) (out inp : ptr) (len mode : N) : C state :=
  '(s, i, tmp, inp, out, len) <-
    while (fuel len 8) (fun '(_, _, _, _, _, len) => 8 <=? len) (update_body mode)
      (s, 0, 0, inp, out, len) ;;
  (* absorb data *)
  b <- absorbs mode ;;
  '(s, tmp) <- (if b : bool then w <- wLOADBYTES e o inp len ;; ret (xorx s i w, w) else ret (s, tmp)) ;;
  (* extract data *)
  b <- branch (has mode ASCON_SQUEEZE) ;;
  (if b : bool then wSTOREBYTES e o out (getx s i) len else ret tt) ;;;
  (* insert data *)
  b <- branch (has mode ASCON_INSERT) ;;
  s <- (if b : bool then x <- wCLEAR o (getx s i) len ;; ret (xorx (setx s i x) i tmp) else ret s) ;;
  pad <- wPAD o len ;;
  ret (xorx s i pad).

(** lowsize/aead.c l.101-103: the bytes of the local array [t] *)
Definition low_tag (s : state) : bytes :=
  to_host e 8 (w_out o (X3 s)) ++ to_host e 8 (w_out o (X4 s)).

(** lowsize/aead.c l.77-113; loadkey, initaead and final (l.13-75) have the
    text of src/aead.c *)
Definition ascon_aead (tag out inp : ptr) (inlen : N) (ad : ptr) (adlen : N) (npub k : ptr)
    (mode : N) : C Z :=
  key <- ascon_loadkey e o k ;;
  s <- ascon_initaead e o key npub ;;
  b <- branch (negb (adlen =? 0)) ;;
  s <- (if b : bool then s <- ascon_update s NULL ad adlen ASCON_ABSORB ;; ret (w_P o 8 s)
        else ret s) ;;
  let s := xorx s 4 (w_dsep o) in
  s <- ascon_update s out inp inlen mode ;;
  let s := ascon_final o s key in
  let t := low_tag s in
  b <- branch (mode =? ASCON_ENCRYPT) ;;
  if b : bool then
    for_loop 16 0 (fun i (_ : unit) => st tag i (nth (N.to_nat i) t x00)) tt ;;;
    ret 0%Z
  else
    r <- diff_loop tag t ;;
    ret (verdict r).

(** lowsize/crypto_aead.c l.12-32 *)
Definition low_aead_encrypt (c clen m : ptr) (mlen : N)
    (ad : ptr) (adlen : N) (nsec npub k : ptr) : C Z :=
  store_ull e clen (add64 mlen CRYPTO_ABYTES) ;;;
  t <- padd c mlen ;;
  ascon_aead t c m mlen ad adlen npub k ASCON_ENCRYPT.

(** lowsize/crypto_aead.c l.34-56: [*mlen] is read back twice (l.43, l.51) *)
Definition low_aead_decrypt (m mlen nsec c : ptr) (clen : N)
    (ad : ptr) (adlen : N) (npub k : ptr) : C Z :=
  b <- branch (clen <? CRYPTO_ABYTES) ;;
  if b : bool then ret (-1)%Z else
  store_ull e mlen (sub64 clen CRYPTO_ABYTES) ;;;
  n <- load_ull e mlen ;;
  t <- padd c n ;;
  n <- load_ull e mlen ;;
  ascon_aead t m c n ad adlen npub k ASCON_DECRYPT.

(** combined/hash.c l.29-40; [iv] is the initial state of l.17-27 *)
Definition low_xof (iv : state) (out : ptr) (outlen : N) (inp : ptr) (inlen : N) : C Z :=
  s <- ascon_update iv NULL inp inlen (N.lor ASCON_HASH ASCON_ABSORB) ;;
  let s := w_P o 12 s in
  ascon_update s out NULL outlen (N.lor ASCON_HASH ASCON_SQUEEZE) ;;;
  ret 0%Z.

(** combined/hash.c l.42-45 with ASCON_HASH_BYTES 0, CRYPTO_BYTES 64 *)
Definition low_hash_xof128 (out inp : ptr) (inlen : N) : C Z := low_xof (c_xof o) out 64 inp inlen.
End Low.
