(** * ModelRv.v -- the RISC-V implementations.

    Models crypto_aead/asconaead128/{asm_rv32i,asm_rv32b,asm_fsr_rv32b,
    asm_bi32_rv32b}/{ascon.S,encrypt.c,decrypt.c,ascon.h,api.h}.  The four
    ascon.S have the same structure; what differs is a field of [variant].
    Line numbers without a directory are those of asm_rv32i/ascon.S.

    The meaning of the instructions (RISC-V manual, volume I; bit
    manipulation extension, draft 0.93, for rev8, zip, unzip, pack, packu,
    orn, andn, rori, fsri and fsr) is part of the trusted base.

    Simplifications.
    - Jumps are structured: the loops and conditional branches of the text
      are [while] and [if]; a subroutine is a function.  A call puts an
      address into the link register, and a return with another value in
      the link register than the one of the call is an error.
    - Instructions that fault: loads and stores of words at addresses that
      are not multiples of 4, and accesses to cells that are not mapped.
      Addresses are 32 bits wide.
    - Labels are parameters: the return addresses [lab] and the place [tab]
      of the table in the data section of asm_bi32_rv32b. *)
From Coq Require Import Bool NArith ZArith List Init.Byte.
From Verif Require Import Words Asm CMem.
Import ListNotations.
Local Open Scope N_scope.

(** ** The machine *)

(** Registers x0 to x31. *)
Definition regs := nat -> N.
Definition setr (r : regs) (d : nat) (v : N) : regs := fun i => if Nat.eqb i d then v else r i.
Definition rl (r : regs) : list N := map r (seq 0 32).

(** Names of the registers: ABI names, and l.3-29 of ascon.S. *)
Module R.
Notation zero := 0%nat. Notation ra := 1%nat. Notation sp := 2%nat.
Notation t0 := 5%nat. Notation t1 := 6%nat. Notation t2 := 7%nat.
Notation a0 := 10%nat. Notation a1 := 11%nat. Notation a2 := 12%nat. Notation a3 := 13%nat.
Notation a4 := 14%nat. Notation a5 := 15%nat. Notation a6 := 16%nat. Notation a7 := 17%nat.
Notation t0h := 28%nat. Notation t0l := 29%nat. Notation t1h := 30%nat. Notation t1l := 31%nat.
Notation x0h := 8%nat. Notation x0l := 9%nat. Notation x1h := 18%nat. Notation x1l := 19%nat.
Notation x2h := 20%nat. Notation x2l := 21%nat. Notation x3h := 22%nat. Notation x3l := 23%nat.
Notation x4h := 24%nat. Notation x4l := 25%nat.
Notation k0h := 26%nat. Notation k0l := 27%nat. Notation k1h := 15%nat. Notation k1l := 16%nat.
Notation optr := 10%nat. Notation iptr := 13%nat. Notation ilen := 14%nat. Notation mode := 17%nat.
End R.
Import R.

Inductive ins :=
  | Op (d : nat) (t : wx)                        (** d := t *)
  | Fn (d : nat) (f : N -> N -> N -> N) (a b c : nat) (** d := f a b c *)
  | Lw (d b : nat) (o : N) | Sw (s b : nat) (o : N)   (** words at o(b) *)
  | Lbu (d b : nat) (o : N) | Sb (s b : nat) (o : N)  (** bytes at o(b) *)
  | Lu (d b : nat) (o : N) | Su (s b : nat) (o : N).  (** words at o(b), any address; not used here but in ModelXt.v *)

Definition addr (r : regs) (b : nat) (o : N) : N := trunc 32 (r b + o).
Definition aligned4 (a : N) : bool := N.land a 3 =? 0.
Definition step (i : ins) (r : regs) : C regs :=
  match i with
  | Op d t => ret (setr r d (weval (rl r) t))
  | Fn d f a b c => ret (setr r d (f (r a) (r b) (r c)))
  | Lw d b o => let a := addr r b o in
      if aligned4 a then l <- memcpy_in a 4 ;; ret (setr r d (le_num l)) else fail (ErrAlign a)
  | Sw s b o => let a := addr r b o in
      if aligned4 a then memcpy_out a (le_bytes 4 (r s)) ;;; ret r else fail (ErrAlign a)
  | Lbu d b o => l <- memcpy_in (addr r b o) 1 ;; ret (setr r d (le_num l))
  | Sb s b o => memcpy_out (addr r b o) (le_bytes 1 (r s)) ;;; ret r
  | Lu d b o => l <- memcpy_in (addr r b o) 4 ;; ret (setr r d (le_num l))
  | Su s b o => memcpy_out (addr r b o) (le_bytes 4 (r s)) ;;; ret r
  end.
Fixpoint exec (l : list ins) (r : regs) : C regs :=
  match l with [] => ret r | i :: l => r <- step i r ;; exec l r end.

(** Instructions.  Immediates are given modulo 2^32. *)
Definition neg (n : N) : N := 2 ^ 32 - n.
Definition li d n := Op d (Cst n).
Definition mv d a := Op d (Reg a).
Definition xor d a b := Op d (Xor (Reg a) (Reg b)).
Definition or d a b := Op d (Or (Reg a) (Reg b)).
Definition and d a b := Op d (And (Reg a) (Reg b)).
Definition orn d a b := Op d (Or (Reg a) (Not 32 (Reg b))).
Definition andn d a b := Op d (And (Reg a) (Not 32 (Reg b))).
Definition xori d a n := Op d (Xor (Reg a) (Cst n)).
Definition andi d a n := Op d (And (Reg a) (Cst n)).
Definition add d a b := Op d (Add 32 (Reg a) (Reg b)).
Definition sub d a b := Op d (Sub 32 (Reg a) (Reg b)).
Definition addi d a n := Op d (Add 32 (Reg a) (Cst n)).
Definition slli d a n := Op d (Shl 32 (Reg a) n).
Definition srli d a n := Op d (Shr (Reg a) n).
Definition rori d a n := Op d (Ror 32 (Reg a) n).
(** fsri d, a, b, n: the low word of b:a shifted right by n. *)
Definition fsri d a b n := Op d (Or (Shr (Reg a) n) (Shl 32 (Reg b) (32 - n))).
Definition srai d a n := Fn d (fun x _ _ =>
  if N.testbit x 31 then N.lor (shrw x n) (shlw 32 (N.ones n) (32 - n)) else shrw x n) a a a.
Definition sll d a b := Fn d (fun x n _ => shlw 32 x (N.land n 31)) a b b.
Definition srl d a b := Fn d (fun x n _ => shrw x (N.land n 31)) a b b.
(** fsr d, a, b, s: the low word of b:a rotated right by s modulo 64. *)
Definition fsr d a b s := Fn d (fun x y n =>
  trunc 32 (rorw 64 (N.lor x (N.shiftl y 32)) (N.land n 63))) a b s.
Definition rev8f (x : N) : N := le_num (rev (le_bytes 4 x)).
Definition rev8 d a := Fn d (fun x _ _ => rev8f x) a a a.
(** unzip: even bits to the low half, odd bits to the high half; zip is the
    inverse. *)
Definition unzipf (x : N) : N := of_bits 32 (fun i => N.testbit x (if i <? 16 then 2 * i else 2 * (i - 16) + 1)).
Definition zipf (x : N) : N := of_bits 32 (fun i => N.testbit x (if N.even i then i / 2 else 16 + i / 2)).
Definition unzip d a := Fn d (fun x _ _ => unzipf x) a a a.
Definition zip d a := Fn d (fun x _ _ => zipf x) a a a.
Definition packf (x y : N) : N := N.lor (trunc 16 x) (shlw 32 y 16).
Definition packuf (x y : N) : N := N.lor (shrw x 16) (shlw 32 (shrw y 16) 16).
Definition pack d a b := Fn d (fun x y _ => packf x y) a b b.
Definition packu d a b := Fn d (fun x y _ => packuf x y) a b b.

(** Conditions of branches; bge and blt compare signed. *)
Definition s32 (x : N) : Z := if x <? 2 ^ 31 then Z.of_N x else (Z.of_N x - 2 ^ 32)%Z.
Definition bge (a b : nat) (r : regs) : bool := (s32 (r b) <=? s32 (r a))%Z.
Definition blt (a b : nat) (r : regs) : bool := (s32 (r a) <? s32 (r b))%Z.
Definition beq (a b : nat) (r : regs) : bool := r a =? r b.

Definition code := regs -> C regs.
Definition andthen (f g : code) : code := fun r => r <- f r ;; g r.
Notation "f >>> g" := (andthen f g) (at level 60, right associativity).
Definition cond (b : regs -> bool) (yes no : code) : code := fun r =>
  x <- branch (b r) ;; if x : bool then yes r else no r.
Definition skip : code := exec [].
(** "j L; loop: body; L: test; branch loop", at most [fuel r] times *)
Definition loop (fuel : regs -> nat) (test : list ins) (b : regs -> bool) (body : code) : code := fun r =>
  r <- exec test r ;; while (fuel r) b (fun r => r <- body r ;; exec test r) r.
(** jal link, f -- jalr zero, 0(link): [ret_to] is the address behind the call. *)
Definition call (link : nat) (ret_to : N) (f : code) : code := fun r =>
  r <- f (setr r link ret_to) ;;
  if r link =? ret_to then ret r else fail ErrJump.

(** Addresses chosen by the linker: [lab n] is the address behind the call in
    line [n] of asm_rv32i/ascon.S ([1000 + n]: of asm_rv32b/ascon.S, for calls of ascon_rev8),
    or the corresponding line of another directory. *)
Record env := Env { lab : N -> N; tab : N }.

(** ** What differs between the four directories *)
Record variant := Variant {
  v_data : bytes;                     (** the data section, at [tab] *)
  v_perm : env -> N -> bool -> code;  (** li/la t1, PA/PB_START_ROUND; jal t0, ascon_permute *)
  v_load : env -> N -> nat -> code;   (** the 16 bytes at (b) to t0h, t0l, t1h, t1l *)
  v_store : code;                     (** x0, x1 to the 16 bytes at (optr) *)
  v_conv : env -> N -> code;          (** t0h, t0l, t1h, t1l from the form of the state to that in memory *)
  v_first : nat * nat * nat * nat;    (** these registers in the order of the words in memory *)
  v_reload : env -> N -> code;        (** x0, x1 from the 16 bytes at (sp) *)
  v_pad : N;                          (** xori t0, t0, _ *)
  v_sep : code;                       (** domain separation *)
  v_iv : N * N;                       (** li x0h, li x0l *)
  v_tag : env -> N -> code            (** 16 bytes at (iptr), any alignment, to t0h, t0l, t1h, t1l *)
}.

(** ** The permutation *)

(** l.72-90; asm_rv32b l.71-87, asm_fsr_rv32b l.72-88, asm_bi32_rv32b l.72-88 *)
Definition sbox_i x0 x1 x2 x3 x4 t0 t1 t2 : list ins :=
  [xor t1 x0 x4; xor t2 x3 x4; xori x4 x4 (neg 1); xor t0 x1 x2; or x4 x4 x3; xor x4 x4 t0;
   xor x3 x3 x1; or x3 x3 t0; xor x3 x3 t1; xor x2 x2 t1; or x2 x2 x1; xor x2 x2 t2;
   or x0 x0 t2; xor t0 t0 x0; xori t1 t1 (neg 1); and x1 x1 t1; xor x1 x1 t2].
Definition sbox_b x0 x1 x2 x3 x4 t0 t1 t2 : list ins :=
  [xor t1 x0 x4; xor t2 x3 x4; xor t0 x1 x2; orn x4 x3 x4; xor x4 x4 t0;
   xor x3 x3 x1; or x3 x3 t0; xor x3 x3 t1; xor x2 x2 t1; or x2 x2 x1; xor x2 x2 t2;
   or x0 x0 t2; xor t0 t0 x0; andn x1 x1 t1; xor x1 x1 t2].
(** l.93-110; asm_rv32b l.90-107 *)
Definition linear_i dl dh sl sh sl0 sh0 r0 sl1 sh1 r1 t0 : list ins :=
  [slli dh sl0 (32 - r0); srli t0 sh0 r0; xor dh dh t0; slli t0 sl1 (32 - r1); xor dh dh t0;
   srli t0 sh1 r1; xor dh dh t0;
   slli dl sh0 (32 - r0); srli t0 sl0 r0; xor dl dl t0; slli t0 sh1 (32 - r1); xor dl dl t0;
   srli t0 sl1 r1; xor dl dl t0; xor dl dl sl; xor dh dh sh].
(** asm_fsr_rv32b l.90-99 *)
Definition linear_fsr dl dh sl sh sl0 sh0 r0 sl1 sh1 r1 t0 : list ins :=
  [fsri dl sl0 sh0 r0; fsri dh sh0 sl0 r0; xor dl dl sl; xor dh dh sh;
   fsri t0 sl1 sh1 r1; fsri sh sh1 sl1 r1; xor dl dl t0; xor dh dh sh].
(** asm_bi32_rv32b l.90-126 *)
Definition linear_odd_odd de dO se so r0 r1 t0 t1 : list ins :=
  [rori t0 so ((r0 - r1) / 2); rori t1 se ((r0 - r1) / 2); xor t0 t0 so; xor t1 t1 se;
   rori t0 t0 ((r1 - 1) / 2); rori t1 t1 ((r1 + 1) / 2); xor de se t0; xor dO so t1].
Definition linear_odd_even de dO se so r0 r1 t0 t1 : list ins :=
  (if 1 <? r0 then [rori t0 so ((r0 - 1) / 2); xor t0 t0 se] else [xor t0 so se]) ++
  [rori t1 se ((r0 + 1) / 2); xor t1 t1 so; rori se se (r1 / 2); rori so so (r1 / 2);
   xor de se t0; xor dO so t1].
Definition linear_ge de dO se so r0 r1 t0 t1 : list ins :=
  if N.even r0 then linear_odd_even de dO se so r1 r0 t0 t1
  else if N.even r1 then linear_odd_even de dO se so r0 r1 t0 t1
  else linear_odd_odd de dO se so r0 r1 t0 t1.
Definition linear_bi de dO se so r0 r1 t0 t1 : list ins :=
  if r0 <? r1 then linear_ge de dO se so r1 r0 t0 t1 else linear_ge de dO se so r0 r1 t0 t1.

(** l.126-135: the round without the round constant *)
Definition round_with (sbox : nat -> nat -> nat -> nat -> nat -> nat -> nat -> nat -> list ins)
    (linear : nat -> nat -> nat -> nat -> nat -> nat -> N -> nat -> nat -> N -> nat -> list ins) : list ins :=
  sbox x0l x1l x2l x3l x4l t0l t0h t1h ++
  sbox x0h x1h x2h x3h x4h t0h x0l t1h ++
  linear x0l x0h x2l x2h x2l x2h 19 x2l x2h 28 t1h ++
  linear x2l x2h x4l x4h x4l x4h 1 x4l x4h 6 t1h ++
  linear x4l x4h x1l x1h x1l x1h 7 x1h x1l 9 t1h ++
  linear x1l x1h x3l x3h x3h x3l 29 x3h x3l 7 t1h ++
  linear x3l x3h t0l t0h t0l t0h 10 t0l t0h 17 t1h.
(** asm_bi32_rv32b l.167-175 *)
Definition round_bi : list ins :=
  sbox_b x0l x1l x2l x3l x4l t0l t0h t1h ++
  sbox_b x0h x1h x2h x3h x4h t0h x0l t1h ++
  linear_bi x0l x0h x2l x2h 19 28 x0l x0h ++
  linear_bi x2l x2h x4l x4h 1 6 x2l x2h ++
  linear_bi x4l x4h x1l x1h 7 41 x4l x4h ++
  linear_bi x1l x1h x3l x3h 61 39 x1l x1h ++
  linear_bi x3l x3h t0l t0h 10 17 x3l x3h.

(** l.115-142, asm_rv32b l.112-139, asm_fsr_rv32b l.104-131: a loop that
    tests at the end *)
Definition permute_with (rnd : list ins) : code :=
  let body := exec ([xor x2l x2l t1] ++ rnd ++ [addi t1 t1 (neg 15)]) in
  exec [li t1l 0x4b] >>> body >>> fun r => while 32 (bge t1 t1l) body r.
(** li t1, PA_START_ROUND (0xf0), li t1, PB_START_ROUND (0xb4) (l.62, l.64) *)
Definition perm_with (rnd : list ins) (e : env) (ln : N) (a : bool) : code :=
  exec [li t1 (if a then 0xf0 else 0xb4)] >>> call t0 (lab e ln) (permute_with rnd).
(** asm_bi32_rv32b l.128-147 *)
Definition bi_table : bytes :=
  [x0c; x0c; x09; x0c; x0c; x09; x09; x09; x06; x0c; x03; x0c; x06; x09; x03; x09;
   x0c; x06; x09; x06; x0c; x03; x09; x03; x00].
(** asm_bi32_rv32b l.153-184 *)
Definition permute_bi : code :=
  loop (fun _ => 32%nat) [Lbu t2 t1 0] (fun r => negb (beq t2 zero r))
    (exec ([xor x2l x2l t2; Lbu t2 t1 1; xor x2h x2h t2] ++ round_bi ++ [addi t1 t1 2])).
Definition perm_bi (e : env) (ln : N) (a : bool) : code :=
  exec [li t1 (if a then tab e else tab e + 8)] >>> call t0 (lab e ln) permute_bi.

(** ** Blocks *)

Definition lws (b : nat) (l : nat * nat * nat * nat) : list ins :=
  let '(p, q, s, t) := l in [Lw p b 0; Lw q b 4; Lw s b 8; Lw t b 12].
Definition sws (b : nat) (l : nat * nat * nat * nat) : list ins :=
  let '(p, q, s, t) := l in [Sw p b 0; Sw q b 4; Sw s b 8; Sw t b 12].
(** The order of words in memory: asm_rv32i, the others. *)
Definition le_first := (t0l, t0h, t1l, t1h).
Definition be_first := (t0h, t0l, t1h, t1l).

(** asm_rv32b l.144-155, asm_fsr_rv32b l.136-147 *)
Definition ascon_rev8 : code := exec [rev8 t0h t0h; rev8 t0l t0l; rev8 t1h t1h; rev8 t1l t1l].
(** asm_bi32_rv32b l.186-202 *)
Definition to_bi32_rev8 de dO xl xh t0 : list ins :=
  [rev8 t0 xl; rev8 dO xh; unzip t0 t0; unzip dO dO; pack de t0 dO; packu dO t0 dO].
Definition from_bi32_rev8 dl dh xe xo t0 : list ins :=
  [pack t0 xe xo; packu dh xe xo; zip dl t0; zip dh dh; rev8 dl dl; rev8 dh dh].
(** asm_bi32_rv32b l.204-214, l.216-226 *)
Definition ascon_to_bi32_rev8 : code :=
  exec (to_bi32_rev8 t0l t0h t0l t0h t1 ++ to_bi32_rev8 t1l t1h t1l t1h t1).
Definition ascon_from_bi32_rev8 : code :=
  exec (from_bi32_rev8 t0l t0h t0l t0h t1 ++ from_bi32_rev8 t1l t1h t1l t1h t1).

(** l.270-278 *)
Definition sw_unaligned (x : nat) (off : N) (a : nat) : list ins :=
  [Sb x a off; srli x x 8; Sb x a (1 + off); srli x x 8; Sb x a (2 + off); srli x x 8; Sb x a (3 + off)].
Definition sws_unaligned (l : nat * nat * nat * nat) : list ins :=
  let '(p, q, s, t) := l in
  sw_unaligned p 0 optr ++ sw_unaligned q 4 optr ++ sw_unaligned s 8 optr ++ sw_unaligned t 12 optr.
(** l.280-304 (asm_rv32b l.302-326, asm_bi32_rv32b l.373-397) with the
    arguments of l.408 *)
Definition lw_unaligned_4x (l : nat * nat * nat * nat) : code :=
  let '(p, q, s, t) := l in
  exec ([andi t0 iptr (neg 4)] ++ lws t0 l) >>>
  cond (beq t0 iptr) skip
    (exec [Lw t0 t0 16; andi t1 iptr 3; slli t1 t1 3; sub t2 zero t1;
           srl p p t1; sll k0h q t2; or p p k0h;
           srl q q t1; sll k0h s t2; or q q k0h;
           srl s s t1; sll k0h t t2; or s s k0h;
           srl t t t1; sll k0h t0 t2; or t t k0h]).
(** asm_fsr_rv32b l.294-309 *)
Definition lw_unaligned_4x_fsr (l : nat * nat * nat * nat) : code :=
  let '(p, q, s, t) := l in
  exec ([andi t0 iptr (neg 4)] ++ lws t0 l) >>>
  cond (beq t0 iptr) skip
    (exec [Lw t0 t0 16; andi t1 iptr 3; slli t1 t1 3;
           fsr p p q t1; fsr q q s t1; fsr s s t t1; fsr t t t0 t1]).

(** ** The four directories *)

Definition rv32i : variant := {|
  v_data := [];
  v_perm := perm_with (round_with sbox_i linear_i);
  v_load := fun _ _ b => exec (lws b le_first);                                           (* l.174-177 *)
  v_store := exec (sws optr (x0l, x0h, x1l, x1h));                                        (* l.185-188 *)
  v_conv := fun _ _ => skip;
  v_first := le_first;                                                                    (* l.240-243, l.427-430 *)
  v_reload := fun _ _ =>                                                                  (* l.256-263 *)
    exec (lws sp (t0l, t0h, t1h, t1l) ++ [mv x0h t0h; mv x0l t0l; mv x1l t1h; mv x1h t1l]);
  v_pad := 1;                                                                             (* l.221 *)
  v_sep := exec [li t0 0x80000000; xor x4h x4h t0];                                       (* l.386-387 *)
  v_iv := (0x1000, 0x808c0001);                                                           (* l.66-67 *)
  v_tag := fun _ _ => lw_unaligned_4x le_first                                            (* l.408 *)
|}.

(** Lines of asm_rv32b/ascon.S; [conv] is the subroutine between the words in
    memory and those of the state, [linear] the linear layer. *)
Definition rv32b_with (linear : nat -> nat -> nat -> nat -> nat -> nat -> N -> nat -> nat -> N -> nat -> list ins)
    (tagload : nat * nat * nat * nat -> code) : variant := {|
  v_data := [];
  v_perm := perm_with (round_with sbox_b linear);
  v_load := fun e ln b => exec (lws b be_first) >>> call t0 (lab e ln) ascon_rev8;        (* l.185-189 *)
  v_store := exec [rev8 t0 x0h; Sw t0 optr 0; rev8 t0 x0l; Sw t0 optr 4;                  (* l.200-207 *)
                   rev8 t0 x1h; Sw t0 optr 8; rev8 t0 x1l; Sw t0 optr 12];
  v_conv := fun e ln => call t0 (lab e ln) ascon_rev8;                                    (* l.260, l.451 *)
  v_first := be_first;                                                                    (* l.261-264, l.452-455 *)
  v_reload := fun e ln => exec (lws sp be_first) >>> call t0 (lab e ln) ascon_rev8 >>>    (* l.277-285 *)
    exec [mv x0h t0h; mv x0l t0l; mv x1h t1h; mv x1l t1l];
  v_pad := 0x80;                                                                          (* l.240 *)
  v_sep := exec [xori x4l x4l 1];                                                         (* l.410 *)
  v_iv := (0x80800c08, 0);                                                                (* l.65-66 *)
  v_tag := fun e ln => tagload be_first >>> call t0 (lab e ln) ascon_rev8                 (* l.431-432 *)
|}.
Definition rv32b : variant := rv32b_with linear_i lw_unaligned_4x.
Definition fsr_rv32b : variant := rv32b_with linear_fsr lw_unaligned_4x_fsr.

(** Lines of asm_bi32_rv32b/ascon.S *)
Definition bi32_rv32b : variant := {|
  v_data := bi_table;
  v_perm := perm_bi;
  v_load := fun e ln b => exec (lws b be_first) >>> call t0 (lab e ln) ascon_to_bi32_rev8; (* l.258-262 *)
  v_store := exec (from_bi32_rev8 t0 t1 x0l x0h t2 ++ [Sw t1 optr 0; Sw t0 optr 4] ++     (* l.273-278 *)
                   from_bi32_rev8 t0 t1 x1l x1h t2 ++ [Sw t1 optr 8; Sw t0 optr 12]);
  v_conv := fun e ln => call t0 (lab e ln) ascon_from_bi32_rev8;                          (* l.331, l.522 *)
  v_first := be_first;                                                                    (* l.332-335, l.523-526 *)
  v_reload := fun e ln => exec (lws sp be_first) >>> call t0 (lab e ln) ascon_to_bi32_rev8 >>> (* l.348-356 *)
    exec [mv x0h t0h; mv x0l t0l; mv x1h t1h; mv x1l t1l];
  v_pad := 0x80;                                                                          (* l.311 *)
  v_sep := exec [xori x4l x4l 1];                                                         (* l.481 *)
  v_iv := (0x88220000, 0x200000);                                                         (* l.65-66: IVo, IVe *)
  v_tag := fun e ln => lw_unaligned_4x be_first >>> call t0 (lab e ln) ascon_to_bi32_rev8 (* l.502-503 *)
|}.

(** ** The mode *)

Section mode.
Variable V : variant.
Variable e : env.

(** l.147-165 *)
Definition ascon_memcpy : code :=
  exec [li 28 0] >>>
  loop (fun r => S (N.to_nat (r ilen))) [] (blt 28 ilen)
    (exec [Lbu 29 t2 0; Sb 29 t1 0; addi t1 t1 1; addi t2 t2 1; addi 28 28 1]).

(** l.178-181 *)
Definition xor_block : list ins := [xor x0h x0h t0h; xor x0l x0l t0l; xor x1h x1h t1h; xor x1l x1l t1l].
(** l.191-195 *)
Definition take_block : list ins := [mv x0h t0h; mv x0l t0l; mv x1h t1h; mv x1l t1l].

(** l.170-207 *)
Definition duplex_loop : code :=
  loop (fun r => S (N.to_nat (r ilen))) [li t0 16] (bge ilen t0)
    (v_load V e 1189 iptr >>> exec xor_block >>>
     cond (beq mode zero) skip (v_store V) >>>
     cond (bge mode zero) skip (exec take_block) >>>
     v_perm V e 199 false >>>
     exec [addi optr optr 16; addi iptr iptr 16; addi ilen ilen (neg 16)]).
(** l.209-268 *)
Definition duplex_end : code :=
  exec [Sw zero sp 0; Sw zero sp 4; Sw zero sp 8; Sw zero sp 12; mv t1 sp; mv t2 iptr] >>>
  call t0 (lab e 217) ascon_memcpy >>>
  exec [add t1 sp ilen; Lbu t0 t1 0; xori t0 t0 (v_pad V); Sb t0 t1 0] >>>
  v_load V e 1247 sp >>> exec xor_block >>>
  cond (beq mode zero) skip
    (exec [mv t0h x0h; mv t0l x0l; mv t1h x1h; mv t1l x1l] >>> v_conv V e 1260 >>> exec (sws sp (v_first V)) >>>
     exec [mv t1 optr; mv t2 sp] >>> call t0 (lab e 247) ascon_memcpy) >>>
  cond (bge mode zero) skip
    (exec [mv t1 sp; mv t2 iptr] >>> call t0 (lab e 254) ascon_memcpy >>> v_reload V e 1281) >>>
  exec [add optr optr ilen; add iptr iptr ilen].
Definition ascon_duplex : code := duplex_loop >>> duplex_end.

(** l.318-331, l.435-447 *)
Definition saved : list (nat * N) :=
  [(ra, 76); (8%nat, 72); (9%nat, 68); (18%nat, 64); (19%nat, 60); (20%nat, 56); (21%nat, 52); (22%nat, 48);
   (23%nat, 44); (24%nat, 40); (25%nat, 36); (26%nat, 32); (27%nat, 28)].
Definition prologue : list ins := addi sp sp (neg 80) :: map (fun x => Sw (fst x) sp (snd x)) saved.
Definition epilogue : list ins := map (fun x => Lw (fst x) sp (snd x)) saved ++ [addi sp sp 80].

(** l.333-369 *)
Definition core_init : code :=
  exec [slli mode mode 24; srai mode mode 24] >>>
  v_load V e 1366 a5 >>> exec [mv x3h t0h; mv x3l t0l; mv x4h t1h; mv x4l t1l] >>>
  v_load V e 1376 a6 >>> exec [mv k0h t0h; mv k0l t0l; mv k1h t1h; mv k1l t1l] >>>
  exec [li x0h (fst (v_iv V)); li x0l (snd (v_iv V)); mv x1h k0h; mv x1l k0l; mv x2h k1h; mv x2l k1l] >>>
  v_perm V e 366 true >>>
  exec [xor x3h x3h k0h; xor x3l x3l k0l; xor x4h x4h k1h; xor x4l x4l k1l].
(** l.373-387 *)
Definition core_ad : code :=
  cond (beq ilen zero) skip
    (exec [Sw optr sp 20; Sw mode sp 24; li mode 0] >>> call ra (lab e 378) ascon_duplex >>>
     exec [Lw optr sp 20; Lw mode sp 24] >>> v_perm V e 383 false) >>>
  v_sep V.
(** l.389-404 *)
Definition core_text : code :=
  exec [mv iptr a1; mv ilen a2] >>> call ra (lab e 391) ascon_duplex >>>
  exec [xor x2h x2h k0h; xor x2l x2l k0l; xor x3h x3h k1h; xor x3l x3l k1l] >>>
  v_perm V e 399 true >>>
  exec [xor x3h x3h k0h; xor x3l x3l k0l; xor x4h x4h k1h; xor x4l x4l k1l].
(** l.407-433 *)
Definition core_tag : code :=
  cond (bge mode zero)
    (exec [mv t0h x3h; mv t0l x3l; mv t1h x4h; mv t1l x4l] >>> v_conv V e 1451 >>>
     exec (sws_unaligned (v_first V)) >>> exec [li a0 0])
    (v_tag V e 1432 >>>
     exec [xor t0 x3h t0h; xor t1 x3l t0l; xor t0 t0 t1; xor t1 x4h t1h; xor t0 t0 t1;
           xor t1 x4l t1l; xor t0 t0 t1] >>>
     cond (beq t0 zero) (exec [li a0 0]) (exec [li a0 (neg 1)])).
(** l.309-449; the last instruction, jalr zero, 0(ra), returns to the caller
    if ra has the value it had at the start: [call_core]. *)
Definition ascon_core : code :=
  exec prologue >>> core_init >>> core_ad >>> core_text >>> core_tag >>> exec epilogue.

(** ** The functions in C *)

(** The call of ascon_core from C: the arguments in a0 to a7 (the last one,
    an unsigned char, extended with zeros), everything else as the compiler
    left it in [r]; the stack pointer and the saved registers must be
    unchanged. *)
Definition call_core (r : regs) (outptr inptr inlen adptr adlen nptr kptr md : N) : C regs :=
  let r0 := setr (setr (setr (setr (setr (setr (setr (setr r a0 outptr) a1 inptr) a2 inlen) a3 adptr) a4 adlen)
              a5 nptr) a6 kptr) a7 md in
  call ra (r ra) ascon_core r0.

(** encrypt.c l.3-12; the result is the int in a0 *)
Definition rv_encrypt (r : regs) (c clen m mlen ad adlen nsec npub k : N) : C Z :=
  store_ull LE clen (add64 mlen 16) ;;;
  r <- call_core r c m (trunc 32 mlen) ad (trunc 32 adlen) npub k 1 ;;
  ret (s32 (r a0)).
(** decrypt.c l.3-18 *)
Definition rv_decrypt (r : regs) (m mlen nsec c clen ad adlen npub k : N) : C Z :=
  b <- branch (clen <? 16) ;;
  if b : bool then store_ull LE mlen 0 ;;; ret (-1)%Z else
  store_ull LE mlen (sub64 clen 16) ;;;
  n <- load_ull LE mlen ;;
  r <- call_core r m c (trunc 32 n) ad (trunc 32 adlen) npub k 255 ;;
  ret (s32 (r a0)).
End mode.
