(** * ModelEsp32.v -- the C implementation for the ESP32.

    Models, function by function, src/esp32/{core.c,encrypt.c,decrypt.c,
    hash.c,permutations.c}.  Verbatim copies make up the directories esp32
    of crypto_aead/asconaead128, crypto_aead_hash/asconaeadxof128,
    crypto_hash/asconhash256 and crypto_hash/asconxof128 (api.h:
    CRYPTO_NOOVERLAP 1, ASCON_AEAD_RATE 16, CRYPTO_KEYBYTES 16).

    [e] is the byte order of the host.  [ul] is the number of bits of
    [unsigned long], the type of the length argument of ascon_duplex and
    of the length variable of crypto_hash (32 on the ESP32 and on other
    32-bit and Windows targets, 64 on other 64-bit targets).  core.c l.63
    advances the null pointer that core.c l.198 passes as [out]; [strict]
    says whether that is undefined behaviour or address arithmetic, as in
    ModelLow.v.

    Simplifications: as in ModelRef.v.  The local unions tmp, tmp0, K0 ..
    N1 are numbers ([x]); the accesses through uint32_t pointers do not
    check alignment; indexing past the row b[3] of the state union
    (encrypt.c l.24, decrypt.c l.31) continues in the row b[4]. *)
From Coq Require Import Bool NArith ZArith List Init.Byte.
From Verif Require Import Words CMem ModelRef ModelCommon ModelWords Asm.
Import ListNotations.
Local Open Scope N_scope.

(** ** permutations.c *)

(** The local variables of P (l.59-66), as registers. *)
Definition x0l := 0%nat. Definition x0h := 1%nat. Definition x1l := 2%nat. Definition x1h := 3%nat.
Definition x2l := 4%nat. Definition x2h := 5%nat. Definition x3l := 6%nat. Definition x3h := 7%nat.
Definition x4l := 8%nat. Definition x4h := 9%nat.
Definition t0l := 10%nat. Definition t0h := 11%nat. Definition tmp0 := 12%nat. Definition rnd := 13%nat.

Definition XOR (d a b : nat) : op := Set_ d (Xor (Reg a) (Reg b)).
Definition OR (d a b : nat) : op := Set_ d (Or (Reg a) (Reg b)).
Definition AND (d a b : nat) : op := Set_ d (And (Reg a) (Reg b)).
(** [t = -1] *)
Definition ONES (d : nat) : op := Set_ d (Cst 0xffffffff).

(** l.9-31 *)
Definition SBOX (x0 x1 x2 x3 x4 r0 t0 t1 t2 : nat) : list op := [
  XOR t1 x0 x4;
  XOR t2 x3 x4;
  ONES t0;
  XOR x4 x4 t0;
  XOR t0 x1 x2;
  OR x4 x4 x3;
  XOR x4 x4 t0;
  XOR x3 x3 x1;
  OR x3 x3 t0;
  XOR x3 x3 t1;
  XOR x2 x2 t1;
  OR x2 x2 x1;
  XOR x2 x2 t2;
  OR x0 x0 t2;
  XOR x0 x0 t0;
  ONES t0;
  XOR t1 t1 t0;
  AND x1 x1 t1;
  XOR x1 x1 t2;
  Set_ r0 (Reg x0)].
(** l.33-36: [o = (((uint64_t)h << 32) | l) >> amt], converted to uint32_t *)
Definition SRC (o h l : nat) (amt : N) : op :=
  Set_ o (And (Shr (Or (Shl 64 (Reg h) 32) (Reg l)) amt) (Cst 0xffffffff)).
(** l.38-48 *)
Definition LINEAR (dl dh sl sh sl0 sh0 : nat) (r0 : N) (sl1 sh1 : nat) (r1 : N) (t0 : nat) : list op := [
  SRC dl sh0 sl0 r0;
  SRC dh sl0 sh0 r0;
  XOR dl dl sl;
  XOR dh dh sh;
  SRC t0 sh1 sl1 r1;
  SRC sh sl1 sh1 r1;
  XOR dl dl t0;
  XOR dh dh sh].

(** l.69-80: body of the loop of P *)
Definition P_body : list op :=
  XOR x2l x2l rnd ::
  SBOX x0l x1l x2l x3l x4l t0l t0h t0l tmp0 ++
  SBOX x0h x1h x2h x3h x4h t0h t0h x0l tmp0 ++
  LINEAR x0l x0h x2l x2h x2l x2h 19 x2l x2h 28 tmp0 ++
  LINEAR x2l x2h x4l x4h x4l x4h 1 x4l x4h 6 tmp0 ++
  LINEAR x4l x4h x1l x1h x1l x1h 7 x1h x1l 9 tmp0 ++
  LINEAR x1l x1h x3l x3h x3h x3l 29 x3h x3l 7 tmp0 ++
  LINEAR x3l x3h t0l t0h t0l t0h 10 t0l t0h 17 tmp0 ++
  [Set_ rnd (Sub 32 (Reg rnd) (Cst 15))].

(** l.68-95: [while (rnd >= LAST_ROUND)], at most [f] times *)
Fixpoint P_while (f : nat) (M : mach) : option mach :=
  match f with
  | O => None
  | S f =>
    if 0x4b <=? nth rnd (regs M) 0 then
      match exec P_body M with Some M' => P_while f M' | None => None end
    else Some M
  end.

(** l.50-56: the halves [lo] and [hi] of a state word: which of the members
    l and h they are depends on the byte order, but they always are the low
    and the high half of the uint64_t *)
Definition lohi (s : state) : list N :=
  flat_map (fun x => [trunc 32 x; shrw x 32]) [X0 s; X1 s; X2 s; X3 s; X4 s].
Definition unlohi (r : list N) : state :=
  let x i := N.lor (nth (2 * i) r 0) (shlw 64 (nth (2 * i + 1) r 0) 32) in
  St (x 0%nat) (x 1%nat) (x 2%nat) (x 3%nat) (x 4%nat).

(** l.58-107; [u] are the values of the uninitialised variables t0l, t0h
    and tmp0 (theorem [P_ok] of Esp32Prim.v: they do not matter).
    round_const is a uint8_t and every round subtracts 15, so 20 rounds are
    enough for every value of it. *)
Definition P_call (u : list N) (round_const : N) (s : state) : option state :=
  match P_while 20 (Mach (lohi s ++ u ++ [round_const]) [] 0 []) with
  | Some M => Some (unlohi (regs M))
  | None => None
  end.
Definition P (round_const : N) (s : state) : state :=
  match P_call [0; 0; 0] round_const s with Some s' => s' | None => St 0 0 0 0 0 end.

(** core.c l.8, l.13; hash.c l.23; hash.c l.11, l.17 *)
Definition PA_START_ROUND := 0xf0.
Definition PB_START_ROUND := 0xb4.
Definition HASH_PB_START_ROUND := 0xf0.

Section Esp.
Variable e : endian.
Variable strict : bool.
Variable ul : N.

(** ** Words: ascon.h l.6-12, the members [l] and [h] are [w0] and [w1] *)

(** [((uint32_t* )p)[i]] and [((uint32_t* )p)[i] = x] *)
Definition LD32 (p : ptr) (i : N) : C N :=
  q <- padd p (4 * i) ;; l <- memcpy_in q 4 ;; ret (from_host e l).
Definition ST32 (p : ptr) (i x : N) : C unit :=
  q <- padd p (4 * i) ;; memcpy_out q (to_host e 4 x).
(** core.c l.25-27, l.31-33, l.128-135, l.139-146, hash.c l.43-45:
    [tmp.l = p[i]; tmp.h = p[i + 1]; tmp.x = U64LE(tmp.x)] *)
Definition LD64 (p : ptr) (i : N) : C N :=
  a <- LD32 p i ;; b <- LD32 p (i + 1) ;; ret (U64LE e (ofw e a b)).
(** core.c l.39-42, l.44-47, hash.c l.70-73:
    [tmp0 = w; tmp0.x = U64LE(tmp0.x); p[i] = tmp0.l; p[i + 1] = tmp0.h] *)
Definition ST64 (p : ptr) (i w : N) : C unit :=
  let x := U64LE e w in
  ST32 p i (w0 e x) ;;; ST32 p (i + 1) (w1 e x).
(** [w.h ^= t.h; w.l ^= t.l] *)
Definition xor_hl (w t : N) : N := ofw e (N.lxor (w0 e w) (w0 e t)) (N.lxor (w1 e w) (w1 e t)).
Definition hxor0 (s : state) (t : N) := set0 s (xor_hl (X0 s) t).
Definition hxor1 (s : state) (t : N) := set1 s (xor_hl (X1 s) t).
Definition hxor2 (s : state) (t : N) := St (X0 s) (X1 s) (xor_hl (X2 s) t) (X3 s) (X4 s).
Definition hxor3 (s : state) (t : N) := St (X0 s) (X1 s) (X2 s) (xor_hl (X3 s) t) (X4 s).
Definition hxor4 (s : state) (t : N) := St (X0 s) (X1 s) (X2 s) (X3 s) (xor_hl (X4 s) t).

(** [len - n] for an unsigned long [len] *)
Definition subul (a b : N) : N := trunc ul (a + 2 ^ ul - b).

(** [p += n] (core.c l.63) *)
Definition advance (p : ptr) (n : N) : C ptr :=
  if strict then padd p n else if p =? 0 then ret n else padd p n.

(** The local buffer [bytes] of core.c l.67 and hash.c l.56: [bytes[i] ^= 1],
    [memcpy(bytes, .., n)], and the uint64_t number [i] in it *)
Definition poke (l : bytes) (i : nat) : bytes :=
  firstn i l ++ n2b (N.lxor (b2n (nth i l x00)) 1) :: skipn (S i) l.
Definition over (l new : bytes) : bytes := new ++ skipn (length new) l.
Definition word_at (l : bytes) (i : nat) : N := U64LE e (from_host e (firstn 8 (skipn (8 * i) l))).

(** ** core.c *)

(** core.h l.8-10 *)
Definition ASCON_AD := 0.  Definition ASCON_ENC := 1.  Definition ASCON_DEC := 2.

(** core.c l.24-65: body of the loop *)
Definition duplex_body (mode : N) (v : state * ptr * ptr * N) : C (state * ptr * ptr * N) :=
  let '(s, out, inp, len) := v in
  t0 <- LD64 inp 0 ;; let s := hxor0 s t0 in
  t1 <- LD64 inp 2 ;; let s := hxor1 s t1 in
  b <- branch (negb (mode =? ASCON_AD)) ;;
  (if b : bool then ST64 out 0 (X0 s) ;;; ST64 out 2 (X1 s) else ret tt) ;;;
  b <- branch (mode =? ASCON_DEC) ;;
  let s := if b : bool then set1 (set0 s t0) t1 else s in
  let s := P PB_START_ROUND s in
  inp <- padd inp 16 ;;
  out <- advance out 16 ;;
  ret (s, out, inp, subul len 16).

(** core.c l.67-98: the last block *)
Definition duplex_last (mode : N) (s : state) (out inp : ptr) (len : N) : C state :=
  l <- memcpy_in inp len ;;
  let bytes := over (repeat x00 16) l in
  let bytes := poke bytes (N.to_nat len) in
  let s := hxor0 s (word_at bytes 0) in
  let s := hxor1 s (word_at bytes 1) in
  b <- branch (negb (mode =? ASCON_AD)) ;;
  bytes <- (if b : bool then
    let bytes := to_host e 8 (U64LE e (X0 s)) ++ to_host e 8 (U64LE e (X1 s)) in
    memcpy_out out (firstn (N.to_nat len) bytes) ;;;
    ret bytes
  else ret bytes) ;;
  b <- branch (mode =? ASCON_DEC) ;;
  if b : bool then
    l <- memcpy_in inp len ;;
    let bytes := over bytes l in
    ret (set1 (set0 s (word_at bytes 0)) (word_at bytes 1))
  else ret s.

(** core.c l.16-102 *)
Definition ascon_duplex (s : state) (out inp : ptr) (len mode : N) : C state :=
  '(s, out, inp, len) <-
    while (fuel len 16) (fun '(_, _, _, len) => 16 <=? len) (duplex_body mode) (s, out, inp, len) ;;
  duplex_last mode s out inp len.

(** core.c l.127-192: keys, nonce, initialisation *)
Definition esp_init (npub k : ptr) : C (N * N * state) :=
  K0 <- LD64 k 0 ;; K1 <- LD64 k 2 ;;
  N0 <- LD64 npub 0 ;; N1 <- LD64 npub 2 ;;
  let s := St ASCON_128A_IV K0 K1 N0 N1 in
  let s := P PA_START_ROUND s in
  let s := hxor3 s K0 in
  let s := hxor4 s K1 in
  ret (K0, K1, s).

(** core.c l.197-201: the argument [adlen] is converted to unsigned long *)
Definition esp_adata (s : state) (ad : ptr) (adlen : N) : C state :=
  b <- branch (negb (adlen =? 0)) ;;
  s <- (if b : bool then
    s <- ascon_duplex s NULL ad (trunc ul adlen) ASCON_AD ;;
    ret (P PB_START_ROUND s)
  else ret s) ;;
  ret (xor4 s 0x8000000000000000).

(** core.c l.228-244 *)
Definition esp_final (s : state) (K0 K1 : N) : state :=
  let s := hxor2 s K0 in
  let s := hxor3 s K1 in
  let s := P PA_START_ROUND s in
  let s := hxor3 s K0 in
  hxor4 s K1.

(** core.c l.104-249; the result are the 16 bytes of the state from b[3]
    on (l.246-247) *)
Definition ascon_core (out inp : ptr) (tlen : N) (ad : ptr) (adlen : N) (npub k : ptr) (mode : N) : C bytes :=
  '(K0, K1, s) <- esp_init npub k ;;
  s <- esp_adata s ad adlen ;;
  s <- ascon_duplex s out inp (trunc ul tlen) mode ;;
  let s := esp_final s K0 K1 in
  ret (to_host e 8 (U64LE e (X3 s)) ++ to_host e 8 (U64LE e (X4 s))).

(** ** encrypt.c l.4-30 *)
Definition esp_aead_encrypt (c clen m : ptr) (mlen : N) (ad : ptr) (adlen : N) (nsec npub k : ptr) : C Z :=
  store_ull e clen (add64 mlen CRYPTO_ABYTES) ;;;
  t <- ascon_core c m mlen ad adlen npub k ASCON_ENC ;;
  for_loop 16 0 (fun i (_ : unit) => st c (add64 mlen i) (nth (N.to_nat i) t x00)) tt ;;;
  ret 0%Z.

(** ** decrypt.c l.4-37: [*mlen] is read again for every byte of the tag
    (l.31) *)
Definition esp_aead_decrypt (m mlen nsec c : ptr) (clen : N) (ad : ptr) (adlen : N) (npub k : ptr) : C Z :=
  b <- branch (clen <? CRYPTO_ABYTES) ;;
  if b : bool then store_ull e mlen 0 ;;; ret (-1)%Z else
  store_ull e mlen (sub64 clen CRYPTO_ABYTES) ;;;
  n <- load_ull e mlen ;;
  t <- ascon_core m c n ad adlen npub k ASCON_DEC ;;
  r <- for_loop 16 0 (fun i r =>
         n <- load_ull e mlen ;;
         b <- ld c (add64 n i) ;;
         ret (N.lor r (N.lxor (b2n b) (b2n (nth (N.to_nat i) t x00))))) 0 ;;
  ret (verdict r).

(** ** hash.c l.25-88 *)

(** l.42-54 *)
Definition hash_absorb_body (v : state * ptr * N) : C (state * ptr * N) :=
  let '(s, inp, len) := v in
  t <- LD64 inp 0 ;; let s := hxor0 s t in
  let s := P HASH_PB_START_ROUND s in
  inp <- padd inp ASCON_HASH_RATE ;;
  ret (s, inp, subul len ASCON_HASH_RATE).
(** l.42-66 *)
Definition hash_absorb (s : state) (inp : ptr) (len : N) : C state :=
  '(s, inp, len) <-
    while (fuel len ASCON_HASH_RATE) (fun '(_, _, len) => ASCON_HASH_RATE <=? len)
      hash_absorb_body (s, inp, len) ;;
  l <- memcpy_in inp len ;;
  let bytes := poke (over (repeat x00 8) l) (N.to_nat len) in
  let s := hxor0 s (word_at bytes 0) in
  ret (P PA_START_ROUND s).
(** l.69-80 *)
Definition hash_squeeze_body (v : state * ptr * N) : C (state * ptr * N) :=
  let '(s, out, len) := v in
  ST64 out 0 (X0 s) ;;;
  let s := P HASH_PB_START_ROUND s in
  out <- padd out ASCON_HASH_RATE ;;
  ret (s, out, subul len ASCON_HASH_RATE).
(** l.69-84 *)
Definition hash_squeeze (s : state) (out : ptr) (len : N) : C unit :=
  '(s, out, len) <-
    while (fuel len ASCON_HASH_RATE) (fun '(_, _, len) => ASCON_HASH_RATE <? len)
      hash_squeeze_body (s, out, len) ;;
  memcpy_out out (firstn (N.to_nat len) (to_host e 8 (U64LE e (X0 s)))).

(** l.28-38: [len = inlen] converts to unsigned long; [iv] are the
    words IV(0) .. IV(4) *)
Definition esp_hash (iv : state) (CRYPTO_BYTES : N) (out inp : ptr) (inlen : N) : C Z :=
  s <- hash_absorb iv inp (trunc ul inlen) ;;
  hash_squeeze s out CRYPTO_BYTES ;;;
  ret 0%Z.
End Esp.
