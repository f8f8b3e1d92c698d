(** * AsmArm.v -- the ARM instructions used in the repository.

    32-bit registers, numbered; the inline assembly names its operands, the
    numbering of those is below.  [S] suffixes and flags: only the flags of
    [cmp] are used, by the branch that ends a loop, so loops are expressed
    with [DoWhile] (Asm.v) and flags are not modelled.  The meaning of each
    instruction is the one of the ARMv6-M, ARMv7-M and ARM architecture
    manuals. *)
From Coq Require Import NArith List.
From Verif Require Import Words Asm.
Import ListNotations.
Local Open Scope N_scope.

(** Operands of the inline assembly: [x0_l] is s->w[0][0] and so on. *)
Definition x0_l := 0%nat. Definition x0_h := 1%nat.
Definition x1_l := 2%nat. Definition x1_h := 3%nat.
Definition x2_l := 4%nat. Definition x2_h := 5%nat.
Definition x3_l := 6%nat. Definition x3_h := 7%nat.
Definition x4_l := 8%nat. Definition x4_h := 9%nat.
Definition tmp0 := 10%nat. Definition tmp1 := 11%nat. Definition tmp2 := 12%nat.
Definition rC := 13%nat. Definition rE := 14%nat.

(** armv6m_lowsize/permutations.S: the real registers; the stack pointer is
    implicit in the stack operations. *)
Definition r0 := 0%nat. Definition r1 := 1%nat. Definition r2 := 2%nat. Definition r3 := 3%nat.
Definition r4 := 4%nat. Definition r5 := 5%nat. Definition r6 := 6%nat. Definition r7 := 7%nat.
Definition r8 := 8%nat. Definition r9 := 9%nat. Definition r10 := 10%nat. Definition r11 := 11%nat.
Definition r12 := 12%nat. Definition lr := 14%nat. Definition pc := 15%nat.

(** Second operand: register, shifted or rotated register, immediate. *)
Inductive op2 := R (r : nat) | RLSL (r : nat) (n : N) | RLSR (r : nat) (n : N) | RROR (r : nat) (n : N) | I (n : N).
Definition op2x (o : op2) : wx :=
  match o with
  | R r => Reg r
  | RLSL r n => Shl 32 (Reg r) n
  | RLSR r n => Shr (Reg r) n
  | RROR r n => Ror 32 (Reg r) n
  | I n => Cst n
  end.

Inductive arm :=
| EOR (d a : nat) (o : op2) | ORR (d a : nat) (o : op2) | AND (d a : nat) (o : op2)
| BIC (d a : nat) (o : op2) | ORN (d a : nat) (o : op2)
| MVN (d : nat) (o : op2) | MOV (d : nat) (o : op2)
| LSL (d a : nat) (n : N) | LSR (d a : nat) (n : N)
| ROR (d a b : nat)
| ADD (d a : nat) (o : op2) | SUB (d a : nat) (o : op2)
| LDRB (d c : nat) (off : N)        (** ldrb d, [c, #off] *)
| LDRBP (d c : nat) (n : N)         (** ldrb d, [c], #n *)
| PUSH (r : nat) | POP (d : nat)
(** armv6m_lowsize/permutations.S only *)
| LDR (d b k : nat) | STR (r b k : nat)     (** word [k] of the state *)
| LDRSP (d k : nat) | STRSP (r k : nat)
| SUBSP (n : nat) | ADDSP (n : nat).        (** [n] words *)

(** The words that [sub sp] makes accessible have unknown values: the model
    takes them from registers 16, 17, .., about which the theorems assume
    nothing. *)
Definition junk := 16%nat.

(** [tab]: the byte table that [ldrb] reads; its address is modelled as
    index 0, so the pointers [C] and [E] of the code are indices. *)
Definition arm_sem (tab : list N) (i : arm) : list op :=
  match i with
  | EOR d a o => [Set_ d (Xor (Reg a) (op2x o))]
  | ORR d a o => [Set_ d (Or (Reg a) (op2x o))]
  | AND d a o => [Set_ d (And (Reg a) (op2x o))]
  | BIC d a o => [Set_ d (And (Reg a) (Not 32 (op2x o)))]
  | ORN d a o => [Set_ d (Or (Reg a) (Not 32 (op2x o)))]
  | MVN d o => [Set_ d (Not 32 (op2x o))]
  | MOV d o => [Set_ d (op2x o)]
  | LSL d a n => [Set_ d (Shl 32 (Reg a) n)]
  | LSR d a n => [Set_ d (Shr (Reg a) n)]
  | ROR d a b => [Set_ d (RorV 32 (Reg a) (And (Reg b) (Cst 0xff)))]
  | ADD d a o => [Set_ d (Add 32 (Reg a) (op2x o))]
  | SUB d a o => [Set_ d (Sub 32 (Reg a) (op2x o))]
  | LDRB d c off => [Set_ d (Tab tab (Add 32 (Reg c) (Cst off)))]
  | LDRBP d c n => [Set_ d (Tab tab (Reg c)); Set_ c (Add 32 (Reg c) (Cst n))]
  | PUSH r => [Push r]
  | POP d => [Pop d]
  | LDR d b k => [LdObj d b k]
  | STR r b k => [StObj b k r]
  | LDRSP d k => [LdStk d k]
  | STRSP r k => [StStk k r]
  | SUBSP n => map Push (seq junk n)
  | ADDSP n => [Shrink n]
  end.
Definition arm_ops (tab : list N) (l : list arm) : list op := flat_map (arm_sem tab) l.
