(** * ModelArm.v -- the implementations for 32-bit ARM.

    armv6, armv6m, armv7m, armv7m_small: the C files of src (aead.c, hash.c,
    prf.c, prfs.c) with src/word.h; armv6_lowsize, armv6m_lowsize,
    armv7m_lowsize: the C files of src/lowsize with src/word.h; bi32_armv6,
    bi32_armv6m, bi32_armv7m, bi32_armv7m_small: the C files of src with
    src/bi32/word.h.  They differ in the permutation, which is assembly
    (ArmCode.v).  The directory configuration (config.h) decides which of
    the drivers below is used.

    An asm statement has the ten 32-bit halves of the state as operands in
    registers and scratch operands.  What scratch registers contain before
    the statement is the argument [t] of the block functions; a theorem of
    AsmArmFacts.v says that it does not matter, so the drivers use zeros. *)
From Coq Require Import Bool NArith ZArith List.
From Verif Require Import Words CMem ModelRef ModelCommon ModelWords Asm AsmArm ArmCode.
Import ListNotations.
Local Open Scope N_scope.

(** Loading the operands: [s->w[i][j]] is 32-bit half number j, in memory
    order, of word i (ascon.h, word.h). *)
Definition halves (e : endian) (s : state) : list N :=
  flat_map (fun x => [w0 e x; w1 e x]) [X0 s; X1 s; X2 s; X3 s; X4 s].
Definition unhalves (e : endian) (rs : list N) : state :=
  let x i := ofw e (nth (2 * i) rs 0) (nth (2 * i + 1) rs 0) in
  St (x 0%nat) (x 1%nat) (x 2%nat) (x 3%nat) (x 4%nat).

(** An asm statement: operands in registers 0 to 9, scratch operands [t] in
    registers 10 to 14 (AsmArm.v), empty stack; [None] if the statement
    fails or does not terminate within [FUEL] steps. *)
Definition FUEL := 100%nat.
Definition asm_block (e : endian) (t : list N) (p : list stm) (s : state) : option state :=
  match run FUEL p (Mach (halves e s ++ t) [] 0 []) with
  | Some M => Some (unhalves e (regs M))
  | None => None
  end.
Definition or_zero (o : option state) : state := match o with Some s => s | None => St 0 0 0 0 0 end.
Definition scratch : list N := [0; 0; 0; 0; 0].

(** ** Rounds *)

(** arm*/round.h [ROUND] and [ROUND5]: one asm statement; the constant is an
    immediate operand, [(uint32_t)C] *)
Definition asm_ROUND (e : endian) (code : N -> list arm) (s : state) (C : N) : state :=
  or_zero (asm_block e scratch [Ops (arm_ops [] (code (trunc 32 C)))] s).
(** bi32_arm*/round.h: [C_e] = (uint32_t)C, [C_o] = (uint32_t)(C >> 32) *)
Definition asm_ROUND_bi (e : endian) (code : N -> N -> list arm) (s : state) (C : N) : state :=
  or_zero (asm_block e scratch [Ops (arm_ops [] (code (trunc 32 C) (trunc 32 (shrw C 32))))] s).

(** ** Unrolled permutation, arm/permutations.h *)

(** l.31-53, not inlined: l.13-20 LOADSTATE, l.34-46 the calls of the macro
    ROUND5 on the local variables x0..x4, l.47 STORESTATE *)
Definition P12ROUNDS5 (R5 : state -> N -> state) (RC : N -> N) (s : state) : state :=
  let '(St x0 x1 x2 x3 x4) := s in
  let '(St x0 x1 x2 x3 x4) := R5 (St x0 x1 x2 x3 x4) (RC 0) in
  let '(St x2 x3 x4 x0 x1) := R5 (St x2 x3 x4 x0 x1) (RC 1) in
  let '(St x4 x0 x1 x2 x3) := R5 (St x4 x0 x1 x2 x3) (RC 2) in
  let '(St x1 x2 x3 x4 x0) := R5 (St x1 x2 x3 x4 x0) (RC 3) in
  let '(St x3 x4 x0 x1 x2) := R5 (St x3 x4 x0 x1 x2) (RC 4) in
  let '(St x0 x1 x2 x3 x4) := R5 (St x0 x1 x2 x3 x4) (RC 5) in
  let '(St x2 x3 x4 x0 x1) := R5 (St x2 x3 x4 x0 x1) (RC 6) in
  let '(St x4 x0 x1 x2 x3) := R5 (St x4 x0 x1 x2 x3) (RC 7) in
  let '(St x1 x2 x3 x4 x0) := R5 (St x1 x2 x3 x4 x0) (RC 8) in
  let '(St x3 x4 x0 x1 x2) := R5 (St x3 x4 x0 x1 x2) (RC 9) in
  let '(St x0 x1 x2 x3 x4) := R5 (St x0 x1 x2 x3 x4) (RC 10) in
  let '(St x2 x3 x4 x0 x1) := R5 (St x2 x3 x4 x0 x1) (RC 11) in
  St x4 x0 x1 x2 x3.
(** l.31-53, inlined: l.49-51 *)
Definition P12ROUNDS5i (R5 R : state -> N -> state) (RC : N -> N) (s : state) : state :=
  let '(St x0 x1 x2 x3 x4) := s in
  let '(St x0 x1 x2 x3 x4) := R5 (St x0 x1 x2 x3 x4) (RC 0) in
  let '(St x2 x3 x4 x0 x1) := R5 (St x2 x3 x4 x0 x1) (RC 1) in
  let '(St x4 x0 x1 x2 x3) := R5 (St x4 x0 x1 x2 x3) (RC 2) in
  let '(St x1 x2 x3 x4 x0) := R5 (St x1 x2 x3 x4 x0) (RC 3) in
  let '(St x3 x4 x0 x1 x2) := R5 (St x3 x4 x0 x1 x2) (RC 4) in
  let '(St x0 x1 x2 x3 x4) := R5 (St x0 x1 x2 x3 x4) (RC 5) in
  let '(St x2 x3 x4 x0 x1) := R5 (St x2 x3 x4 x0 x1) (RC 6) in
  let '(St x4 x0 x1 x2 x3) := R5 (St x4 x0 x1 x2 x3) (RC 7) in
  let '(St x1 x2 x3 x4 x0) := R5 (St x1 x2 x3 x4 x0) (RC 8) in
  let '(St x3 x4 x0 x1 x2) := R5 (St x3 x4 x0 x1 x2) (RC 9) in
  let s := St x0 x1 x2 x3 x4 in
  let s := R s (RC 10) in R s (RC 11).
(** l.55-74 *)
Definition P8ROUNDS5 (R5 : state -> N -> state) (RC : N -> N) (s : state) : state :=
  let '(St x0 x1 x2 x3 x4) := s in
  let '(St x0 x1 x2 x3 x4) := R5 (St x0 x1 x2 x3 x4) (RC 4) in
  let '(St x2 x3 x4 x0 x1) := R5 (St x2 x3 x4 x0 x1) (RC 5) in
  let '(St x4 x0 x1 x2 x3) := R5 (St x4 x0 x1 x2 x3) (RC 6) in
  let '(St x1 x2 x3 x4 x0) := R5 (St x1 x2 x3 x4 x0) (RC 7) in
  let '(St x3 x4 x0 x1 x2) := R5 (St x3 x4 x0 x1 x2) (RC 8) in
  let '(St x0 x1 x2 x3 x4) := R5 (St x0 x1 x2 x3 x4) (RC 9) in
  let '(St x2 x3 x4 x0 x1) := R5 (St x2 x3 x4 x0 x1) (RC 10) in
  let '(St x4 x0 x1 x2 x3) := R5 (St x4 x0 x1 x2 x3) (RC 11) in
  St x1 x2 x3 x4 x0.
Definition P8ROUNDS5i (R5 R : state -> N -> state) (RC : N -> N) (s : state) : state :=
  let '(St x0 x1 x2 x3 x4) := s in
  let '(St x0 x1 x2 x3 x4) := R5 (St x0 x1 x2 x3 x4) (RC 4) in
  let '(St x2 x3 x4 x0 x1) := R5 (St x2 x3 x4 x0 x1) (RC 5) in
  let '(St x4 x0 x1 x2 x3) := R5 (St x4 x0 x1 x2 x3) (RC 6) in
  let '(St x1 x2 x3 x4 x0) := R5 (St x1 x2 x3 x4 x0) (RC 7) in
  let '(St x3 x4 x0 x1 x2) := R5 (St x3 x4 x0 x1 x2) (RC 8) in
  let s := St x0 x1 x2 x3 x4 in
  let s := R s (RC 9) in let s := R s (RC 10) in R s (RC 11).
(** l.76-91 *)
Definition P6ROUNDS5 (R5 : state -> N -> state) (RC : N -> N) (s : state) : state :=
  let '(St x0 x1 x2 x3 x4) := s in
  let '(St x0 x1 x2 x3 x4) := R5 (St x0 x1 x2 x3 x4) (RC 6) in
  let '(St x2 x3 x4 x0 x1) := R5 (St x2 x3 x4 x0 x1) (RC 7) in
  let '(St x4 x0 x1 x2 x3) := R5 (St x4 x0 x1 x2 x3) (RC 8) in
  let '(St x1 x2 x3 x4 x0) := R5 (St x1 x2 x3 x4 x0) (RC 9) in
  let '(St x3 x4 x0 x1 x2) := R5 (St x3 x4 x0 x1 x2) (RC 10) in
  let '(St x0 x1 x2 x3 x4) := R5 (St x0 x1 x2 x3 x4) (RC 11) in
  St x2 x3 x4 x0 x1.
Definition P6ROUNDS5i (R5 R : state -> N -> state) (RC : N -> N) (s : state) : state :=
  let '(St x0 x1 x2 x3 x4) := s in
  let '(St x0 x1 x2 x3 x4) := R5 (St x0 x1 x2 x3 x4) (RC 6) in
  let '(St x2 x3 x4 x0 x1) := R5 (St x2 x3 x4 x0 x1) (RC 7) in
  let '(St x4 x0 x1 x2 x3) := R5 (St x4 x0 x1 x2 x3) (RC 8) in
  let '(St x1 x2 x3 x4 x0) := R5 (St x1 x2 x3 x4 x0) (RC 9) in
  let '(St x3 x4 x0 x1 x2) := R5 (St x3 x4 x0 x1 x2) (RC 10) in
  let s := St x0 x1 x2 x3 x4 in R s (RC 11).
(** l.101-117 with permutations.c, and l.93-99 *)
Definition P5 (R5 : state -> N -> state) (RC : N -> N) (nr : N) (s : state) : state :=
  let s := if nr =? 12 then P12ROUNDS5 R5 RC s else s in
  let s := if nr =? 8 then P8ROUNDS5 R5 RC s else s in
  if nr =? 6 then P6ROUNDS5 R5 RC s else s.
Definition P5i (R5 R : state -> N -> state) (RC : N -> N) (nr : N) (s : state) : state :=
  let s := if nr =? 12 then P12ROUNDS5i R5 R RC s else s in
  let s := if nr =? 8 then P8ROUNDS5i R5 R RC s else s in
  if nr =? 6 then P6ROUNDS5i R5 R RC s else s.

(** ** Looped permutation: one asm statement, [ROUND_LOOP] *)

(** armv7m/round.h l.271, armv6/round.h: PROUNDS(s, nr) = ROUND_LOOP(s,
    START(nr)); the loop ends with "cmp C, #60; bne" *)
Definition loop_prog (code : list arm) (C : nat) : list stm := [DoWhile [Ops (arm_ops [] code)] (Reg C) (Cst 60)].
Definition start64 (nr : N) : N := Z.to_N (w64_START nr).
Definition asm_loop (e : endian) (code : list arm) (nr : N) (s : state) : state :=
  or_zero (asm_block e [0; 0; 0; start64 nr; 0] (loop_prog code rC) s).
(** armv6m/round.h l.348, l.9-12 and l.170-178: the operand [tmp1] is C *)
Definition asm_loop_m (e : endian) (code : list arm) (nr : N) (s : state) : state :=
  or_zero (asm_block e [0; start64 nr; 0; 0; 0] (loop_prog code tmp1) s).
(** bi32_arm*/round.h: ROUND_LOOP(s, constants + START(nr), constants + 24);
    the loop ends with "cmp C, E; bne"; pointers into the byte array
    [constants] are indices *)
Definition loop_prog_bi (code : list arm) (C E : nat) : list stm :=
  [DoWhile [Ops (arm_ops bi32_constants code)] (Reg C) (Reg E)].
Definition start_bi (nr : N) : N := Z.to_N (bi32_START nr).
Definition asm_loop_bi (e : endian) (code : list arm) (nr : N) (s : state) : state :=
  or_zero (asm_block e [0; 0; 0; start_bi nr; 24] (loop_prog_bi code rC rE) s).
(** bi32_armv6m/round.h l.9-12, l.161-170: [tmp1] is C and [tmp0] is E *)
Definition asm_loop_bi_m (e : endian) (code : list arm) (nr : N) (s : state) : state :=
  or_zero (asm_block e [24; start_bi nr; 0; 0; 0] (loop_prog_bi code tmp1 tmp0) s).

(** ** armv6m_lowsize/permutations.S: the function P(s, nr) *)

(** l.21-244; arguments: r0 = s, r1 = nr *)
Definition armv6m_S_prog : list stm :=
  [ Ops (arm_ops [] armv6m_S_prologue)
  ; DoWhile [Ops (arm_ops [] armv6m_S_body)] (Reg r1) (Cst 60)
  ; Ops (arm_ops [] armv6m_S_epilogue) ].
(** The call: [addr] is the address of the state, [c] the registers r2 to
    r15 before the call, [u] the words below the stack pointer. *)
Definition asm_call (e : endian) (p : list stm) (addr : N) (c u : list N) (nr : N) (s : state) : option mach :=
  run FUEL p (Mach (addr :: nr :: c ++ u) [] addr (halves e s)).
Definition armv6m_S_P (e : endian) (nr : N) (s : state) : state :=
  or_zero (match asm_call e armv6m_S_prog 0 (repeat 0 14) (repeat 0 3) nr s with
           | Some M => Some (unhalves e (obj M)) | None => None end).

(** ** The directories *)

Definition armv6 (e : endian) := w64 (P5 (asm_ROUND e armv6_ROUND5) w64_RCk) e.
Definition armv7m (e : endian) := w64 (P5 (asm_ROUND e armv7m_ROUND5) w64_RCk) e.
Definition armv6m (e : endian) := w64 (asm_loop_m e armv6m_ROUND_LOOP) e.
(** armv7m_small = armv7m_lowsize *)
Definition armv7m_small (e : endian) := w64 (asm_loop e armv7m_ROUND_LOOP) e.
Definition armv6_lowsize (e : endian) := w64 (asm_loop e armv6_ROUND_LOOP) e.
Definition armv6m_lowsize (e : endian) := w64 (armv6m_S_P e) e.
Definition bi32_armv6 (e : endian) := bi32_ops (P5 (asm_ROUND_bi e bi32_armv6_ROUND5) bi32_RCk) e.
Definition bi32_armv6m (e : endian) := bi32_ops (asm_loop_bi_m e bi32_armv6m_ROUND_LOOP) e.
Definition bi32_armv7m (e : endian) :=
  bi32_ops (P5i (asm_ROUND_bi e bi32_armv7m_ROUND5) (asm_ROUND_bi e bi32_armv7m_ROUND) bi32_RCk) e.
Definition bi32_armv7m_small (e : endian) := bi32_ops (asm_loop_bi e bi32_armv7m_ROUND_LOOP) e.
