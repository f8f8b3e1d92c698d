(** * ModelWords.v -- word representation, round function, permutation and
    constants of the optimised portable implementations.

    Each instance of [wordops] is one directory of the implementations:
    opt64, opt64_lowsize, opt32 (= opt32_lowsize), bi32, bi32_lowreg
    (= bi32_lowsize), bi8; the argument [e] is the byte order of the host. *)
From Coq Require Import Bool NArith ZArith List Init.Byte.
From Verif Require Import Words CMem ModelRef ModelCommon.
Import ListNotations.
Local Open Scope N_scope.

(** ** Permutation drivers *)

(** permutations.h l.13-26 (the macro names RC0 .. RCb are the argument) *)
Definition P12ROUNDS (ROUND : state -> N -> state) (RC : N -> N) (s : state) : state :=
  let s := ROUND s (RC 0) in let s := ROUND s (RC 1) in
  let s := ROUND s (RC 2) in let s := ROUND s (RC 3) in
  let s := ROUND s (RC 4) in let s := ROUND s (RC 5) in
  let s := ROUND s (RC 6) in let s := ROUND s (RC 7) in
  let s := ROUND s (RC 8) in let s := ROUND s (RC 9) in
  let s := ROUND s (RC 10) in ROUND s (RC 11).
(** permutations.h l.28-37 *)
Definition P8ROUNDS (ROUND : state -> N -> state) (RC : N -> N) (s : state) : state :=
  let s := ROUND s (RC 4) in let s := ROUND s (RC 5) in
  let s := ROUND s (RC 6) in let s := ROUND s (RC 7) in
  let s := ROUND s (RC 8) in let s := ROUND s (RC 9) in
  let s := ROUND s (RC 10) in ROUND s (RC 11).
(** permutations.h l.39-46 *)
Definition P6ROUNDS (ROUND : state -> N -> state) (RC : N -> N) (s : state) : state :=
  let s := ROUND s (RC 6) in let s := ROUND s (RC 7) in
  let s := ROUND s (RC 8) in let s := ROUND s (RC 9) in
  let s := ROUND s (RC 10) in ROUND s (RC 11).
(** permutations.h l.50-54 (inlined) and l.62-73 with permutations.c l.3-26
    (out of line) *)
Definition Punrolled (ROUND : state -> N -> state) (RC : N -> N) (nr : N) (s : state) : state :=
  let s := if nr =? 12 then P12ROUNDS ROUND RC s else s in
  let s := if nr =? 8 then P8ROUNDS ROUND RC s else s in
  if nr =? 6 then P6ROUNDS ROUND RC s else s.

(** round.h [PROUNDS]: the do-while loop from [i = START(nr)], at most
    [fuel] times *)
Fixpoint PROUNDS (fuel : nat) (ROUND : state -> N -> state) (RC : Z -> N) (INC END : Z)
    (i : Z) (s : state) : state :=
  match fuel with
  | O => s
  | S fuel =>
    let s := ROUND s (RC i) in
    let i := (i + INC)%Z in
    if Z.eqb i END then s else PROUNDS fuel ROUND RC INC END i s
  end.
(** permutations.h l.77 and permutations.c l.30: [P] is [PROUNDS]; more
    than 16 rounds are never requested *)
Definition Ploop (ROUND : state -> N -> state) (RC : Z -> N) (START : N -> Z) (INC END : Z)
    (nr : N) (s : state) : state :=
  PROUNDS 16 ROUND RC INC END (START nr) s.

(** ** Rounds, over the rotation [ROR] of the representation *)

(** opt64/round.h l.10-40, bi32/round.h l.10-40 *)
Definition ROUND_t (ROR : N -> N -> N) (s : state) (C : N) : state :=
  let '(St x0 x1 x2 x3 x4) := s in
  (* round constant *)
  let x2 := N.lxor x2 C in
  (* s-box layer *)
  let x0 := N.lxor x0 x4 in
  let x4 := N.lxor x4 x3 in
  let x2 := N.lxor x2 x1 in
  let t0 := N.lxor x0 (N.land (notw 64 x1) x2) in
  let t2 := N.lxor x2 (N.land (notw 64 x3) x4) in
  let t4 := N.lxor x4 (N.land (notw 64 x0) x1) in
  let t1 := N.lxor x1 (N.land (notw 64 x2) x3) in
  let t3 := N.lxor x3 (N.land (notw 64 x4) x0) in
  let t1 := N.lxor t1 t0 in
  let t3 := N.lxor t3 t2 in
  let t0 := N.lxor t0 t4 in
  (* linear layer *)
  let x2 := N.lxor t2 (ROR t2 5) in
  let x3 := N.lxor t3 (ROR t3 7) in
  let x4 := N.lxor t4 (ROR t4 34) in
  let x0 := N.lxor t0 (ROR t0 9) in
  let x1 := N.lxor t1 (ROR t1 22) in
  let x2 := N.lxor t2 (ROR x2 1) in
  let x3 := N.lxor t3 (ROR x3 10) in
  let x4 := N.lxor t4 (ROR x4 7) in
  let x0 := N.lxor t0 (ROR x0 19) in
  let x1 := N.lxor t1 (ROR x1 39) in
  let x2 := notw 64 x2 in
  St x0 x1 x2 x3 x4.

(** opt64_lowsize/round.h l.10-41, bi32_lowreg/round.h, bi32_lowsize/round.h
    and bi8/round.h l.10-41 *)
Definition ROUND_x (ROR : N -> N -> N) (s : state) (C : N) : state :=
  let '(St x0 x1 x2 x3 x4) := s in
  let x2 := N.lxor x2 C in
  let x0 := N.lxor x0 x4 in
  let x4 := N.lxor x4 x3 in
  let x2 := N.lxor x2 x1 in
  let xtemp := N.land x0 (notw 64 x4) in
  let x0 := N.lxor x0 (N.land x2 (notw 64 x1)) in
  let x2 := N.lxor x2 (N.land x4 (notw 64 x3)) in
  let x4 := N.lxor x4 (N.land x1 (notw 64 x0)) in
  let x1 := N.lxor x1 (N.land x3 (notw 64 x2)) in
  let x3 := N.lxor x3 xtemp in
  let x1 := N.lxor x1 x0 in
  let x3 := N.lxor x3 x2 in
  let x0 := N.lxor x0 x4 in
  let xtemp := N.lxor x0 (ROR x0 9) in
  let x0 := N.lxor x0 (ROR xtemp 19) in
  let xtemp := N.lxor x1 (ROR x1 22) in
  let x1 := N.lxor x1 (ROR xtemp 39) in
  let xtemp := N.lxor x2 (ROR x2 5) in
  let x2 := N.lxor x2 (ROR xtemp 1) in
  let xtemp := N.lxor x3 (ROR x3 7) in
  let x3 := N.lxor x3 (ROR xtemp 10) in
  let xtemp := N.lxor x4 (ROR x4 34) in
  let x4 := N.lxor x4 (ROR xtemp 7) in
  let x2 := notw 64 x2 in
  St x0 x1 x2 x3 x4.

(** opt32/round.h l.10-43, opt32_lowsize/round.h l.10-43 *)
Definition xshift (x r1 l1 r2 l2 : N) : N :=
  N.lxor x (N.lxor (N.lxor (N.lxor (shrw x r1) (shlw 64 x l1)) (shrw x r2)) (shlw 64 x l2)).
Definition ROUND_s (s : state) (C : N) : state :=
  let '(St x0 x1 x2 x3 x4) := s in
  let x2 := N.lxor x2 C in
  let x0 := N.lxor x0 x4 in
  let x4 := N.lxor x4 x3 in
  let x2 := N.lxor x2 x1 in
  let xtemp := N.land x0 (notw 64 x4) in
  let x0 := N.lxor x0 (N.land x2 (notw 64 x1)) in
  let x2 := N.lxor x2 (N.land x4 (notw 64 x3)) in
  let x4 := N.lxor x4 (N.land x1 (notw 64 x0)) in
  let x1 := N.lxor x1 (N.land x3 (notw 64 x2)) in
  let x3 := N.lxor x3 xtemp in
  let x1 := N.lxor x1 x0 in
  let x3 := N.lxor x3 x2 in
  let x0 := N.lxor x0 x4 in
  let x2 := notw 64 x2 in
  let x0 := xshift x0 19 45 28 36 in
  let x1 := xshift x1 61 3 39 25 in
  let x2 := xshift x2 1 63 6 58 in
  let x3 := xshift x3 10 54 17 47 in
  let x4 := xshift x4 7 57 41 23 in
  St x0 x1 x2 x3 x4.

(** ** Plain 64-bit words: opt64, opt64_lowsize, opt32, opt32_lowsize *)

(** word.h l.21 *)
Definition w64_ROR (x n : N) : N := N.lor (shrw x n) (shlw 64 x (N.land (64 - n) 63)).
(** word.h l.35 *)
Definition w64_PAD (i : N) : N := shlw 64 0x01 (8 * i).
(** word.h l.37 *)
Definition w64_DSEP : N := shlw 64 0x80 56.
(** word.h l.39 *)
Definition w64_PRFS_MLEN (len : N) : N := shlw 64 len 51.
(** word.h l.41-45 *)
Definition w64_CLEAR (w n : N) : N := N.land w (shlw 64 (N.ones 64) (8 * n)).

(** constants.h l.74-85 *)
Definition w64_RCk (k : N) : N :=
  nth (N.to_nat k) [0xf0; 0xe1; 0xd2; 0xc3; 0xb4; 0xa5; 0x96; 0x87; 0x78; 0x69; 0x5a; 0x4b] 0.
(** constants.h l.87, converted to the uint8_t parameter of [ROUND] *)
Definition w64_RC (i : Z) : N := Z.to_N (i mod 256)%Z.
(** constants.h l.89-91 *)
Definition w64_START (n : N) : Z := Z.lor (Z.shiftl (3 + Z.of_N n) 4) (12 - Z.of_N n).
Definition w64_INC : Z := (-0x0f)%Z.
Definition w64_END : Z := 0x3c%Z.

(** constants.h l.50-54, l.62-66 *)
Definition w64_HASH_IV : state :=
  St 0x9b1e5494e934d681 0x4bc3a01e333751d2 0xae65396c6b34b81a 0x3c7fd4a4d56a4db3 0x1a5c464906c5976d.
Definition w64_XOF_IV : state :=
  St 0xda82ce768d9447eb 0xcc7ce6c75f1ef969 0xe7508fd780085631 0x0ee0ea53416b58cc 0xe0547524db6f0bde.

(** word.h, constants.h with the permutation [P] *)
Definition w64 (P : N -> state -> state) (e : endian) : wordops := {|
  w_in := U64LE e;                 (* word.h l.16 *)
  w_out := U64LE e;                (* word.h l.17 *)
  w_pad := w64_PAD; w_dsep := w64_DSEP; w_clear := w64_CLEAR;
  w_prfs_mlen := w64_PRFS_MLEN;
  w_P := P;
  c_aead := 0x00001000808c0001;    (* constants.h l.34 *)
  c_hash := w64_HASH_IV; c_xof := w64_XOF_IV;
  c_mac := 0x0010200080cc0005;     (* constants.h l.44 *)
  c_prf := 0x0010200000cc0006;     (* constants.h l.46 *)
  c_prfs := 0x00000000800c0007     (* constants.h l.48 *)
|}.

(** opt64: config.h inlines and unrolls *)
Definition opt64 := w64 (Punrolled (ROUND_t w64_ROR) w64_RCk).
(** opt32: config.h inlines and unrolls *)
Definition opt32 := w64 (Punrolled ROUND_s w64_RCk).
(** opt64_lowsize, opt32_lowsize: config.h does neither *)
Definition opt64_lowsize := w64 (Ploop (ROUND_x w64_ROR) w64_RC w64_START w64_INC w64_END).
Definition opt32_lowsize := w64 (Ploop ROUND_s w64_RC w64_START w64_INC w64_END).

(** ** Two interleaved 32-bit halves: bi32, bi32_lowreg, bi32_lowsize *)

(** bi32/interleave.h l.25-47, one step [t = (x ^ (x >> n)) & m, x ^= t ^ (t << n)]
    on uint32_t *)
Definition swapmove (x m n : N) : N :=
  let t := N.land (N.lxor x (shrw x n)) m in
  N.lxor x (N.lxor t (shlw 32 t n)).
(** bi32/interleave.h l.27-34 with the table of bi32/interleave.c l.5 *)
Definition deinterleave16 (x : N) : N :=
  let x := swapmove x 0x22222222 1 in
  let x := swapmove x 0x0c0c0c0c 2 in
  let x := swapmove x 0x00f000f0 4 in
  swapmove x 0xff00 8.
(** bi32/interleave.h l.36-43 *)
Definition interleave16 (x : N) : N :=
  let x := swapmove x 0xff00 8 in
  let x := swapmove x 0x00f000f0 4 in
  let x := swapmove x 0x0c0c0c0c 2 in
  swapmove x 0x22222222 1.
(** bi32/interleave.h l.46-56 *)
Definition deinterleave32 (e : endian) (i : N) : N :=
  let i := U64LE e i in
  let hi := trunc 32 (shrw i 32) in
  let lo := trunc 32 i in
  let t0 := deinterleave16 lo in
  let t1 := deinterleave16 hi in
  let ev := N.lor (shlw 32 t1 16) (N.land t0 0x0000FFFF) in
  let od := N.lor (N.land t1 0xFFFF0000) (shrw t0 16) in
  N.lor (shlw 64 od 32) ev.
(** bi32/interleave.h l.59-68 *)
Definition interleave32 (e : endian) (i : N) : N :=
  let ev := trunc 32 i in
  let od := trunc 32 (shrw i 32) in
  let t0 := N.lor (shlw 32 od 16) (N.land ev 0x0000FFFF) in
  let t1 := N.lor (N.land od 0xFFFF0000) (shrw ev 16) in
  let lo := interleave16 t0 in
  let hi := interleave16 t1 in
  U64LE e (N.lor (shlw 64 hi 32) lo).

(** bi32/word.h l.22-26: the members [w[0]], [w[1]] of the union with a
    uint64_t, on a host of byte order [e] *)
Definition w0 (e : endian) (x : N) : N := match e with LE => trunc 32 x | BE => shrw x 32 end.
Definition w1 (e : endian) (x : N) : N := match e with LE => shrw x 32 | BE => trunc 32 x end.
Definition ofw (e : endian) (a b : N) : N :=
  match e with LE => N.lor a (shlw 64 b 32) | BE => N.lor b (shlw 64 a 32) end.
(** bi32/word.h l.29-31 *)
Definition ROR32 (x n : N) : N := N.lor (shrw x n) (shlw 32 x (N.land (32 - n) 31)).
(** bi32/word.h l.33-38 *)
Definition bi32_ROR (e : endian) (x n : N) : N :=
  let b0 := if n mod 2 =? 1 then ROR32 (w1 e x) ((n - 1) / 2) else ROR32 (w0 e x) (n / 2) in
  let b1 := if n mod 2 =? 1 then ROR32 (w0 e x) ((n + 1) / 2) else ROR32 (w1 e x) (n / 2) in
  ofw e b0 b1.
(** bi32/word.h l.71 *)
Definition bi32_PAD (i : N) : N := shlw 32 0x01 (4 * i).
(** bi32/word.h l.75-81 *)
Definition bi32_PRFS_MLEN (len : N) : N :=
  N.lor (N.lor (N.lor (N.lor
    (shlw 64 (N.land len 0x01) 57) (shlw 64 (N.land len 0x02) 25))
    (shlw 64 (N.land len 0x04) 56)) (shlw 64 (N.land len 0x08) 24))
    (shlw 64 (N.land len 0x10) 55).
(** bi32/word.h l.83-87 *)
Definition bi32_CLEAR (w n : N) : N :=
  let mask := trunc 32 (shlw 64 0xffffffff (4 * n)) in
  N.land w (N.lor (shlw 64 mask 32) mask).

(** bi32/constants.h l.74-85 *)
Definition bi32_RCk (k : N) : N :=
  nth (N.to_nat k)
    [0x0000000c0000000c; 0x0000000c00000009; 0x000000090000000c; 0x0000000900000009;
     0x0000000c00000006; 0x0000000c00000003; 0x0000000900000006; 0x0000000900000003;
     0x000000060000000c; 0x0000000600000009; 0x000000030000000c; 0x0000000300000009] 0.
(** bi32/constants.c l.5-7, constants.h l.87 *)
Definition bi32_constants : list N :=
  [0xc; 0xc; 0x9; 0xc; 0xc; 0x9; 0x9; 0x9; 0x6; 0xc; 0x3; 0xc;
   0x6; 0x9; 0x3; 0x9; 0xc; 0x6; 0x9; 0x6; 0xc; 0x3; 0x9; 0x3].
Definition bi32_RC (i : Z) : N :=
  N.lor (shlw 64 (nth (Z.to_nat (i + 1)) bi32_constants 0) 32) (nth (Z.to_nat i) bi32_constants 0).
(** bi32/constants.h l.89-91 *)
Definition bi32_START (n : N) : Z := (24 - 2 * Z.of_N n)%Z.
Definition bi32_INC : Z := 2%Z.
Definition bi32_END : Z := 24%Z.

(** bi32/constants.h l.33-72, bi32/word.h l.16-17 (ASCON_EXTERN_BI 0) with
    the permutation [P] *)
Definition bi32_ops (P : N -> state -> state) (e : endian) : wordops := {|
  w_in := deinterleave32 e; w_out := interleave32 e;
  w_pad := bi32_PAD; w_dsep := shlw 64 0x80 56; w_clear := bi32_CLEAR;
  w_prfs_mlen := bi32_PRFS_MLEN;
  w_P := P;
  c_aead := 0x00008a0000400201;
  c_hash := St 0xb308e49856e696e1 0x39c35509990657dc 0xf46674e32b5a9644 0x678c872d6fe2f8b5 0x321218964ea92b7b;
  c_xof := St 0xb9b5a81fc0ae36b9 0xa6d933e6aeabf6d9 0xd0b98214bc3f00e5 0x3cf1072a288d99ca 0xc044b73b8ef2db1e;
  c_mac := 0x00408a0004000a03;
  c_prf := 0x00400a0104000a02;
  c_prfs := 0x0000820100000203
|}.
(** bi32: unrolled; bi32_lowreg, bi32_lowsize: loop *)
Definition bi32 (e : endian) := bi32_ops (Punrolled (ROUND_t (bi32_ROR e)) bi32_RCk) e.
Definition bi32_lowreg (e : endian) :=
  bi32_ops (Ploop (ROUND_x (bi32_ROR e)) bi32_RC bi32_START bi32_INC bi32_END) e.
Definition bi32_lowsize (e : endian) :=
  bi32_ops (Ploop (ROUND_x (bi32_ROR e)) bi32_RC bi32_START bi32_INC bi32_END) e.

(** ** Eight interleaved bytes: bi8 *)

(** bi8/interleave.h l.28-36 *)
Definition interleave8_step (x m1 m2 n : N) : N :=
  N.lor (N.lor (N.land x m1) (shlw 64 (N.land x m2) n)) (N.land (shrw x n) m2).
Definition interleave8 (x : N) : N :=
  let x := interleave8_step x 0xaa55aa55aa55aa55 0x00aa00aa00aa00aa 7 in
  let x := interleave8_step x 0xcccc3333cccc3333 0x0000cccc0000cccc 14 in
  interleave8_step x 0xf0f0f0f00f0f0f0f 0x00000000f0f0f0f0 28.
(** bi8/word.h l.11-15: the member [b[j]] of the union with a uint64_t *)
Definition w8get (e : endian) (x j : N) : N :=
  trunc 8 (shrw x (8 * match e with LE => j | BE => 7 - j end)).
Definition w8of (e : endian) (f : N -> N) : N :=
  fold_left (fun r j => N.lor r (shlw 64 (f j) (8 * match e with LE => j | BE => 7 - j end)))
    [0; 1; 2; 3; 4; 5; 6; 7] 0.
(** bi8/word.h l.22 *)
Definition ROR8 (a n : N) : N := trunc 8 (N.lor (shrw a n) (shlw 32 a (8 - n))).
(** bi8/word.h l.24-35 *)
Definition bi8_ROR (e : endian) (x n : N) : N :=
  w8of e (fun j => ROR8 (w8get e x (N.land (n + j) 0x7)) (shrw (n + j) 3)).
(** bi8/word.h l.58 *)
Definition bi8_PAD (i : N) : N := shlw 32 0x01 i.
(** bi8/word.h l.62-68 *)
Definition bi8_PRFS_MLEN (len : N) : N :=
  N.lor (N.lor (N.lor (N.lor
    (shlw 64 (N.land len 0x01) 30) (shlw 64 (N.land len 0x02) 37))
    (shlw 64 (N.land len 0x04) 44)) (shlw 64 (N.land len 0x08) 51))
    (shlw 64 (N.land len 0x10) 58).
(** bi8/word.h l.70-84 *)
Definition bi8_CLEAR (w n : N) : N :=
  let m := trunc 8 (shlw 32 0xff n) in
  N.land w (w8of LE (fun _ => m)).

(** bi8/constants.h l.74-85, l.87; constants.c l.5-6 *)
Definition bi8_constants : list N :=
  [0x0101010100000000; 0x0101010000000001; 0x0101000100000100; 0x0101000000000101;
   0x0100010100010000; 0x0100010000010001; 0x0100000100010100; 0x0100000000010101;
   0x0001010101000000; 0x0001010001000001; 0x0001000101000100; 0x0001000001000101].
Definition bi8_RC (i : Z) : N := nth (Z.to_nat i) bi8_constants 0.
(** bi8/constants.h l.88-90 *)
Definition bi8_START (n : N) : Z := (12 - Z.of_N n)%Z.
Definition bi8_INC : Z := 1%Z.
Definition bi8_END : Z := 12%Z.

(** bi8/word.h l.17-18, bi8/constants.h l.33-72 *)
Definition bi8 (e : endian) : wordops := {|
  w_in := fun x => interleave8 (U64LE e x);
  w_out := fun x => U64LE e (interleave8 x);
  w_pad := bi8_PAD; w_dsep := shlw 64 0x80 56; w_clear := bi8_CLEAR;
  w_prfs_mlen := bi8_PRFS_MLEN;
  w_P := Ploop (ROUND_x (bi8_ROR e)) bi8_RC bi8_START bi8_INC bi8_END;
  c_aead := 0x0c00002004040001;
  c_hash := St 0x9b2a0cf6c876c289 0x61c32c1f9014ddce 0x8258fe27bbd48968 0x396ed5e9c6fa454b 0x067501c2d16faa17;
  c_xof := St 0xedb31194a93ef30b 0xb2fb634ecffc3c1b 0xb8d2815324b2b2b1 0x617f6412a781b41c 0x89edb4690f750f2e;
  c_mac := 0x0c04204004050001;
  c_prf := 0x0404204004050100;
  c_prfs := 0x0800000004050101
|}.
