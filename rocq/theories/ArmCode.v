(** * ArmCode.v -- the ARM assembly of the repository, one list element per
    source line.  Generated by scripts/gen_arm.py from the files cited. *)
From Coq Require Import NArith List.
From Verif Require Import Words Asm AsmArm.
Import ListNotations.
Local Open Scope N_scope.

(** src/armv7m/round.h l.13-89; the loop ends with: cmp %[C], #60; bne rbegin_%= *)
Definition armv7m_ROUND_LOOP : list arm :=
  [ EOR x2_l x2_l (R rC)
  ; EOR x0_l x0_l (R x4_l)
  ; EOR x4_l x4_l (R x3_l)
  ; EOR x2_l x2_l (R x1_l)
  ; ORN tmp0 x4_l (R x0_l)
  ; BIC tmp1 x2_l (R x1_l)
  ; EOR x0_l x0_l (R tmp1)
  ; ORN tmp1 x3_l (R x4_l)
  ; EOR x2_l x2_l (R tmp1)
  ; BIC tmp1 x1_l (R x0_l)
  ; EOR x4_l x4_l (R tmp1)
  ; AND tmp1 x3_l (R x2_l)
  ; EOR x1_l x1_l (R tmp1)
  ; EOR x3_l x3_l (R tmp0)
  ; EOR x1_l x1_l (R x0_l)
  ; EOR x3_l x3_l (R x2_l)
  ; EOR x0_l x0_l (R x4_l)
  ; EOR x0_h x0_h (R x4_h)
  ; EOR x4_h x4_h (R x3_h)
  ; EOR x2_h x2_h (R x1_h)
  ; ORN tmp0 x4_h (R x0_h)
  ; BIC tmp1 x2_h (R x1_h)
  ; EOR x0_h x0_h (R tmp1)
  ; ORN tmp1 x3_h (R x4_h)
  ; EOR x2_h x2_h (R tmp1)
  ; BIC tmp1 x1_h (R x0_h)
  ; EOR x4_h x4_h (R tmp1)
  ; AND tmp1 x3_h (R x2_h)
  ; EOR x1_h x1_h (R tmp1)
  ; EOR x3_h x3_h (R tmp0)
  ; EOR x1_h x1_h (R x0_h)
  ; EOR x3_h x3_h (R x2_h)
  ; EOR x0_h x0_h (R x4_h)
  ; EOR tmp0 x0_l (RLSR x0_l 19)
  ; EOR tmp1 x0_h (RLSR x0_h 19)
  ; EOR tmp0 tmp0 (RLSL x0_h 13)
  ; EOR tmp1 tmp1 (RLSL x0_l 13)
  ; EOR tmp0 tmp0 (RLSL x0_h 4)
  ; EOR tmp1 tmp1 (RLSL x0_l 4)
  ; EOR x0_l tmp0 (RLSR x0_l 28)
  ; EOR x0_h tmp1 (RLSR x0_h 28)
  ; EOR tmp0 x1_l (RLSL x1_l 3)
  ; EOR tmp1 x1_h (RLSL x1_h 3)
  ; EOR tmp0 tmp0 (RLSR x1_h 29)
  ; EOR tmp1 tmp1 (RLSR x1_l 29)
  ; EOR tmp0 tmp0 (RLSR x1_h 7)
  ; EOR tmp1 tmp1 (RLSR x1_l 7)
  ; EOR x1_l tmp0 (RLSL x1_l 25)
  ; EOR x1_h tmp1 (RLSL x1_h 25)
  ; EOR tmp0 x2_l (RLSR x2_l 1)
  ; EOR tmp1 x2_h (RLSR x2_h 1)
  ; EOR tmp0 tmp0 (RLSL x2_h 31)
  ; EOR tmp1 tmp1 (RLSL x2_l 31)
  ; EOR tmp0 tmp0 (RLSL x2_h 26)
  ; EOR tmp1 tmp1 (RLSL x2_l 26)
  ; EOR x2_l tmp0 (RLSR x2_l 6)
  ; EOR x2_h tmp1 (RLSR x2_h 6)
  ; EOR tmp0 x3_l (RLSR x3_l 10)
  ; EOR tmp1 x3_h (RLSR x3_h 10)
  ; EOR tmp0 tmp0 (RLSL x3_h 22)
  ; EOR tmp1 tmp1 (RLSL x3_l 22)
  ; EOR tmp0 tmp0 (RLSL x3_h 15)
  ; EOR tmp1 tmp1 (RLSL x3_l 15)
  ; EOR x3_l tmp0 (RLSR x3_l 17)
  ; EOR x3_h tmp1 (RLSR x3_h 17)
  ; EOR tmp0 x4_l (RLSR x4_l 7)
  ; EOR tmp1 x4_h (RLSR x4_h 7)
  ; EOR tmp0 tmp0 (RLSL x4_h 25)
  ; EOR tmp1 tmp1 (RLSL x4_l 25)
  ; EOR tmp0 tmp0 (RLSR x4_h 9)
  ; EOR tmp1 tmp1 (RLSR x4_l 9)
  ; EOR x4_l tmp0 (RLSL x4_l 23)
  ; EOR x4_h tmp1 (RLSL x4_h 23)
  ; SUB rC rC (I 15) ].

(** src/armv7m/round.h l.102-174 *)
Definition armv7m_ROUND (C : N) : list arm :=
  [ EOR x0_l x0_l (R x4_l)
  ; EOR x4_l x4_l (R x3_l)
  ; EOR x2_l x2_l (R x1_l)
  ; ORN tmp0 x4_l (R x0_l)
  ; EOR x2_l x2_l (I C)
  ; BIC tmp1 x2_l (R x1_l)
  ; EOR x0_l x0_l (R tmp1)
  ; ORN tmp1 x3_l (R x4_l)
  ; EOR x2_l x2_l (R tmp1)
  ; BIC tmp1 x1_l (R x0_l)
  ; EOR x4_l x4_l (R tmp1)
  ; AND tmp1 x3_l (R x2_l)
  ; EOR x1_l x1_l (R tmp1)
  ; EOR x3_l x3_l (R tmp0)
  ; EOR x1_l x1_l (R x0_l)
  ; EOR x3_l x3_l (R x2_l)
  ; EOR x0_l x0_l (R x4_l)
  ; EOR x0_h x0_h (R x4_h)
  ; EOR x4_h x4_h (R x3_h)
  ; EOR x2_h x2_h (R x1_h)
  ; ORN tmp0 x4_h (R x0_h)
  ; BIC tmp1 x2_h (R x1_h)
  ; EOR x0_h x0_h (R tmp1)
  ; ORN tmp1 x3_h (R x4_h)
  ; EOR x2_h x2_h (R tmp1)
  ; BIC tmp1 x1_h (R x0_h)
  ; EOR x4_h x4_h (R tmp1)
  ; AND tmp1 x3_h (R x2_h)
  ; EOR x1_h x1_h (R tmp1)
  ; EOR x3_h x3_h (R tmp0)
  ; EOR x1_h x1_h (R x0_h)
  ; EOR x3_h x3_h (R x2_h)
  ; EOR x0_h x0_h (R x4_h)
  ; EOR tmp0 x0_l (RLSR x0_l 19)
  ; EOR tmp1 x0_h (RLSR x0_h 19)
  ; EOR tmp0 tmp0 (RLSL x0_h 13)
  ; EOR tmp1 tmp1 (RLSL x0_l 13)
  ; EOR tmp0 tmp0 (RLSL x0_h 4)
  ; EOR tmp1 tmp1 (RLSL x0_l 4)
  ; EOR x0_l tmp0 (RLSR x0_l 28)
  ; EOR x0_h tmp1 (RLSR x0_h 28)
  ; EOR tmp0 x1_l (RLSL x1_l 3)
  ; EOR tmp1 x1_h (RLSL x1_h 3)
  ; EOR tmp0 tmp0 (RLSR x1_h 29)
  ; EOR tmp1 tmp1 (RLSR x1_l 29)
  ; EOR tmp0 tmp0 (RLSR x1_h 7)
  ; EOR tmp1 tmp1 (RLSR x1_l 7)
  ; EOR x1_l tmp0 (RLSL x1_l 25)
  ; EOR x1_h tmp1 (RLSL x1_h 25)
  ; EOR tmp0 x2_l (RLSR x2_l 1)
  ; EOR tmp1 x2_h (RLSR x2_h 1)
  ; EOR tmp0 tmp0 (RLSL x2_h 31)
  ; EOR tmp1 tmp1 (RLSL x2_l 31)
  ; EOR tmp0 tmp0 (RLSL x2_h 26)
  ; EOR tmp1 tmp1 (RLSL x2_l 26)
  ; EOR x2_l tmp0 (RLSR x2_l 6)
  ; EOR x2_h tmp1 (RLSR x2_h 6)
  ; EOR tmp0 x3_l (RLSR x3_l 10)
  ; EOR tmp1 x3_h (RLSR x3_h 10)
  ; EOR tmp0 tmp0 (RLSL x3_h 22)
  ; EOR tmp1 tmp1 (RLSL x3_l 22)
  ; EOR tmp0 tmp0 (RLSL x3_h 15)
  ; EOR tmp1 tmp1 (RLSL x3_l 15)
  ; EOR x3_l tmp0 (RLSR x3_l 17)
  ; EOR x3_h tmp1 (RLSR x3_h 17)
  ; EOR tmp0 x4_l (RLSR x4_l 7)
  ; EOR tmp1 x4_h (RLSR x4_h 7)
  ; EOR tmp0 tmp0 (RLSL x4_h 25)
  ; EOR tmp1 tmp1 (RLSL x4_l 25)
  ; EOR tmp0 tmp0 (RLSR x4_h 9)
  ; EOR tmp1 tmp1 (RLSR x4_l 9)
  ; EOR x4_l tmp0 (RLSL x4_l 23)
  ; EOR x4_h tmp1 (RLSL x4_h 23) ].

(** src/armv7m/round.h l.191-261 *)
Definition armv7m_ROUND5 (C : N) : list arm :=
  [ EOR x2_l x2_l (I C)
  ; EOR tmp0 x1_l (R x2_l)
  ; EOR tmp1 x0_l (R x4_l)
  ; EOR tmp2 x3_l (R x4_l)
  ; ORN x4_l x3_l (R x4_l)
  ; EOR x4_l x4_l (R tmp0)
  ; EOR x3_l x3_l (R x1_l)
  ; ORR x3_l x3_l (R tmp0)
  ; EOR x3_l x3_l (R tmp1)
  ; EOR x2_l x2_l (R tmp1)
  ; ORR x2_l x2_l (R x1_l)
  ; EOR x2_l x2_l (R tmp2)
  ; BIC x1_l x1_l (R tmp1)
  ; EOR x1_l x1_l (R tmp2)
  ; ORR x0_l x0_l (R tmp2)
  ; EOR x0_l x0_l (R tmp0)
  ; EOR tmp0 x1_h (R x2_h)
  ; EOR tmp1 x0_h (R x4_h)
  ; EOR tmp2 x3_h (R x4_h)
  ; ORN x4_h x3_h (R x4_h)
  ; EOR x4_h x4_h (R tmp0)
  ; EOR x3_h x3_h (R x1_h)
  ; ORR x3_h x3_h (R tmp0)
  ; EOR x3_h x3_h (R tmp1)
  ; EOR x2_h x2_h (R tmp1)
  ; ORR x2_h x2_h (R x1_h)
  ; EOR x2_h x2_h (R tmp2)
  ; BIC x1_h x1_h (R tmp1)
  ; EOR x1_h x1_h (R tmp2)
  ; ORR x0_h x0_h (R tmp2)
  ; EOR x0_h x0_h (R tmp0)
  ; EOR tmp0 x2_l (RLSR x2_l 19)
  ; EOR tmp1 x2_h (RLSR x2_h 19)
  ; EOR tmp0 tmp0 (RLSL x2_h 13)
  ; EOR tmp1 tmp1 (RLSL x2_l 13)
  ; EOR tmp0 tmp0 (RLSL x2_h 4)
  ; EOR tmp1 tmp1 (RLSL x2_l 4)
  ; EOR x2_l tmp0 (RLSR x2_l 28)
  ; EOR x2_h tmp1 (RLSR x2_h 28)
  ; EOR tmp0 x3_l (RLSL x3_l 3)
  ; EOR tmp1 x3_h (RLSL x3_h 3)
  ; EOR tmp0 tmp0 (RLSR x3_h 29)
  ; EOR tmp1 tmp1 (RLSR x3_l 29)
  ; EOR tmp0 tmp0 (RLSR x3_h 7)
  ; EOR tmp1 tmp1 (RLSR x3_l 7)
  ; EOR x3_l tmp0 (RLSL x3_l 25)
  ; EOR x3_h tmp1 (RLSL x3_h 25)
  ; EOR tmp0 x4_l (RLSR x4_l 1)
  ; EOR tmp1 x4_h (RLSR x4_h 1)
  ; EOR tmp0 tmp0 (RLSL x4_h 31)
  ; EOR tmp1 tmp1 (RLSL x4_l 31)
  ; EOR tmp0 tmp0 (RLSL x4_h 26)
  ; EOR tmp1 tmp1 (RLSL x4_l 26)
  ; EOR x4_l tmp0 (RLSR x4_l 6)
  ; EOR x4_h tmp1 (RLSR x4_h 6)
  ; EOR tmp0 x0_l (RLSR x0_l 10)
  ; EOR tmp1 x0_h (RLSR x0_h 10)
  ; EOR tmp0 tmp0 (RLSL x0_h 22)
  ; EOR tmp1 tmp1 (RLSL x0_l 22)
  ; EOR tmp0 tmp0 (RLSL x0_h 15)
  ; EOR tmp1 tmp1 (RLSL x0_l 15)
  ; EOR x0_l tmp0 (RLSR x0_l 17)
  ; EOR x0_h tmp1 (RLSR x0_h 17)
  ; EOR tmp0 x1_l (RLSR x1_l 7)
  ; EOR tmp1 x1_h (RLSR x1_h 7)
  ; EOR tmp0 tmp0 (RLSL x1_h 25)
  ; EOR tmp1 tmp1 (RLSL x1_l 25)
  ; EOR tmp0 tmp0 (RLSR x1_h 9)
  ; EOR tmp1 tmp1 (RLSR x1_l 9)
  ; EOR x1_l tmp0 (RLSL x1_l 23)
  ; EOR x1_h tmp1 (RLSL x1_h 23) ].

(** src/armv6/round.h l.13-93; the loop ends with: cmp %[C], #60; bne rbegin_%= *)
Definition armv6_ROUND_LOOP : list arm :=
  [ EOR x2_l x2_l (R rC)
  ; EOR x0_l x0_l (R x4_l)
  ; EOR x4_l x4_l (R x3_l)
  ; EOR x2_l x2_l (R x1_l)
  ; MVN tmp0 (R x0_l)
  ; ORR tmp0 x4_l (R tmp0)
  ; BIC tmp1 x2_l (R x1_l)
  ; EOR x0_l x0_l (R tmp1)
  ; MVN tmp1 (R x4_l)
  ; ORR tmp1 x3_l (R tmp1)
  ; EOR x2_l x2_l (R tmp1)
  ; BIC tmp1 x1_l (R x0_l)
  ; EOR x4_l x4_l (R tmp1)
  ; AND tmp1 x3_l (R x2_l)
  ; EOR x1_l x1_l (R tmp1)
  ; EOR x3_l x3_l (R tmp0)
  ; EOR x1_l x1_l (R x0_l)
  ; EOR x3_l x3_l (R x2_l)
  ; EOR x0_l x0_l (R x4_l)
  ; EOR x0_h x0_h (R x4_h)
  ; EOR x4_h x4_h (R x3_h)
  ; EOR x2_h x2_h (R x1_h)
  ; MVN tmp0 (R x0_h)
  ; ORR tmp0 x4_h (R tmp0)
  ; BIC tmp1 x2_h (R x1_h)
  ; EOR x0_h x0_h (R tmp1)
  ; MVN tmp1 (R x4_h)
  ; ORR tmp1 x3_h (R tmp1)
  ; EOR x2_h x2_h (R tmp1)
  ; BIC tmp1 x1_h (R x0_h)
  ; EOR x4_h x4_h (R tmp1)
  ; AND tmp1 x3_h (R x2_h)
  ; EOR x1_h x1_h (R tmp1)
  ; EOR x3_h x3_h (R tmp0)
  ; EOR x1_h x1_h (R x0_h)
  ; EOR x3_h x3_h (R x2_h)
  ; EOR x0_h x0_h (R x4_h)
  ; EOR tmp0 x0_l (RLSR x0_l 19)
  ; EOR tmp1 x0_h (RLSR x0_h 19)
  ; EOR tmp0 tmp0 (RLSL x0_h 13)
  ; EOR tmp1 tmp1 (RLSL x0_l 13)
  ; EOR tmp0 tmp0 (RLSL x0_h 4)
  ; EOR tmp1 tmp1 (RLSL x0_l 4)
  ; EOR x0_l tmp0 (RLSR x0_l 28)
  ; EOR x0_h tmp1 (RLSR x0_h 28)
  ; EOR tmp0 x1_l (RLSL x1_l 3)
  ; EOR tmp1 x1_h (RLSL x1_h 3)
  ; EOR tmp0 tmp0 (RLSR x1_h 29)
  ; EOR tmp1 tmp1 (RLSR x1_l 29)
  ; EOR tmp0 tmp0 (RLSR x1_h 7)
  ; EOR tmp1 tmp1 (RLSR x1_l 7)
  ; EOR x1_l tmp0 (RLSL x1_l 25)
  ; EOR x1_h tmp1 (RLSL x1_h 25)
  ; EOR tmp0 x2_l (RLSR x2_l 1)
  ; EOR tmp1 x2_h (RLSR x2_h 1)
  ; EOR tmp0 tmp0 (RLSL x2_h 31)
  ; EOR tmp1 tmp1 (RLSL x2_l 31)
  ; EOR tmp0 tmp0 (RLSL x2_h 26)
  ; EOR tmp1 tmp1 (RLSL x2_l 26)
  ; EOR x2_l tmp0 (RLSR x2_l 6)
  ; EOR x2_h tmp1 (RLSR x2_h 6)
  ; EOR tmp0 x3_l (RLSR x3_l 10)
  ; EOR tmp1 x3_h (RLSR x3_h 10)
  ; EOR tmp0 tmp0 (RLSL x3_h 22)
  ; EOR tmp1 tmp1 (RLSL x3_l 22)
  ; EOR tmp0 tmp0 (RLSL x3_h 15)
  ; EOR tmp1 tmp1 (RLSL x3_l 15)
  ; EOR x3_l tmp0 (RLSR x3_l 17)
  ; EOR x3_h tmp1 (RLSR x3_h 17)
  ; EOR tmp0 x4_l (RLSR x4_l 7)
  ; EOR tmp1 x4_h (RLSR x4_h 7)
  ; EOR tmp0 tmp0 (RLSL x4_h 25)
  ; EOR tmp1 tmp1 (RLSL x4_l 25)
  ; EOR tmp0 tmp0 (RLSR x4_h 9)
  ; EOR tmp1 tmp1 (RLSR x4_l 9)
  ; EOR x4_l tmp0 (RLSL x4_l 23)
  ; EOR x4_h tmp1 (RLSL x4_h 23)
  ; SUB rC rC (I 15) ].

(** src/armv6/round.h l.106-182 *)
Definition armv6_ROUND (C : N) : list arm :=
  [ EOR x0_l x0_l (R x4_l)
  ; EOR x4_l x4_l (R x3_l)
  ; EOR x2_l x2_l (R x1_l)
  ; MVN tmp0 (R x0_l)
  ; ORR tmp0 x4_l (R tmp0)
  ; EOR x2_l x2_l (I C)
  ; BIC tmp1 x2_l (R x1_l)
  ; EOR x0_l x0_l (R tmp1)
  ; MVN tmp1 (R x4_l)
  ; ORR tmp1 x3_l (R tmp1)
  ; EOR x2_l x2_l (R tmp1)
  ; BIC tmp1 x1_l (R x0_l)
  ; EOR x4_l x4_l (R tmp1)
  ; AND tmp1 x3_l (R x2_l)
  ; EOR x1_l x1_l (R tmp1)
  ; EOR x3_l x3_l (R tmp0)
  ; EOR x1_l x1_l (R x0_l)
  ; EOR x3_l x3_l (R x2_l)
  ; EOR x0_l x0_l (R x4_l)
  ; EOR x0_h x0_h (R x4_h)
  ; EOR x4_h x4_h (R x3_h)
  ; EOR x2_h x2_h (R x1_h)
  ; MVN tmp0 (R x0_h)
  ; ORR tmp0 x4_h (R tmp0)
  ; BIC tmp1 x2_h (R x1_h)
  ; EOR x0_h x0_h (R tmp1)
  ; MVN tmp1 (R x4_h)
  ; ORR tmp1 x3_h (R tmp1)
  ; EOR x2_h x2_h (R tmp1)
  ; BIC tmp1 x1_h (R x0_h)
  ; EOR x4_h x4_h (R tmp1)
  ; AND tmp1 x3_h (R x2_h)
  ; EOR x1_h x1_h (R tmp1)
  ; EOR x3_h x3_h (R tmp0)
  ; EOR x1_h x1_h (R x0_h)
  ; EOR x3_h x3_h (R x2_h)
  ; EOR x0_h x0_h (R x4_h)
  ; EOR tmp0 x0_l (RLSR x0_l 19)
  ; EOR tmp1 x0_h (RLSR x0_h 19)
  ; EOR tmp0 tmp0 (RLSL x0_h 13)
  ; EOR tmp1 tmp1 (RLSL x0_l 13)
  ; EOR tmp0 tmp0 (RLSL x0_h 4)
  ; EOR tmp1 tmp1 (RLSL x0_l 4)
  ; EOR x0_l tmp0 (RLSR x0_l 28)
  ; EOR x0_h tmp1 (RLSR x0_h 28)
  ; EOR tmp0 x1_l (RLSL x1_l 3)
  ; EOR tmp1 x1_h (RLSL x1_h 3)
  ; EOR tmp0 tmp0 (RLSR x1_h 29)
  ; EOR tmp1 tmp1 (RLSR x1_l 29)
  ; EOR tmp0 tmp0 (RLSR x1_h 7)
  ; EOR tmp1 tmp1 (RLSR x1_l 7)
  ; EOR x1_l tmp0 (RLSL x1_l 25)
  ; EOR x1_h tmp1 (RLSL x1_h 25)
  ; EOR tmp0 x2_l (RLSR x2_l 1)
  ; EOR tmp1 x2_h (RLSR x2_h 1)
  ; EOR tmp0 tmp0 (RLSL x2_h 31)
  ; EOR tmp1 tmp1 (RLSL x2_l 31)
  ; EOR tmp0 tmp0 (RLSL x2_h 26)
  ; EOR tmp1 tmp1 (RLSL x2_l 26)
  ; EOR x2_l tmp0 (RLSR x2_l 6)
  ; EOR x2_h tmp1 (RLSR x2_h 6)
  ; EOR tmp0 x3_l (RLSR x3_l 10)
  ; EOR tmp1 x3_h (RLSR x3_h 10)
  ; EOR tmp0 tmp0 (RLSL x3_h 22)
  ; EOR tmp1 tmp1 (RLSL x3_l 22)
  ; EOR tmp0 tmp0 (RLSL x3_h 15)
  ; EOR tmp1 tmp1 (RLSL x3_l 15)
  ; EOR x3_l tmp0 (RLSR x3_l 17)
  ; EOR x3_h tmp1 (RLSR x3_h 17)
  ; EOR tmp0 x4_l (RLSR x4_l 7)
  ; EOR tmp1 x4_h (RLSR x4_h 7)
  ; EOR tmp0 tmp0 (RLSL x4_h 25)
  ; EOR tmp1 tmp1 (RLSL x4_l 25)
  ; EOR tmp0 tmp0 (RLSR x4_h 9)
  ; EOR tmp1 tmp1 (RLSR x4_l 9)
  ; EOR x4_l tmp0 (RLSL x4_l 23)
  ; EOR x4_h tmp1 (RLSL x4_h 23) ].

(** src/armv6/round.h l.199-271 *)
Definition armv6_ROUND5 (C : N) : list arm :=
  [ EOR x2_l x2_l (I C)
  ; EOR tmp0 x1_l (R x2_l)
  ; EOR tmp1 x0_l (R x4_l)
  ; EOR tmp2 x3_l (R x4_l)
  ; MVN x4_l (R x4_l)
  ; ORR x4_l x3_l (R x4_l)
  ; EOR x4_l x4_l (R tmp0)
  ; EOR x3_l x3_l (R x1_l)
  ; ORR x3_l x3_l (R tmp0)
  ; EOR x3_l x3_l (R tmp1)
  ; EOR x2_l x2_l (R tmp1)
  ; ORR x2_l x2_l (R x1_l)
  ; EOR x2_l x2_l (R tmp2)
  ; BIC x1_l x1_l (R tmp1)
  ; EOR x1_l x1_l (R tmp2)
  ; ORR x0_l x0_l (R tmp2)
  ; EOR x0_l x0_l (R tmp0)
  ; EOR tmp0 x1_h (R x2_h)
  ; EOR tmp1 x0_h (R x4_h)
  ; EOR tmp2 x3_h (R x4_h)
  ; MVN x4_h (R x4_h)
  ; ORR x4_h x3_h (R x4_h)
  ; EOR x4_h x4_h (R tmp0)
  ; EOR x3_h x3_h (R x1_h)
  ; ORR x3_h x3_h (R tmp0)
  ; EOR x3_h x3_h (R tmp1)
  ; EOR x2_h x2_h (R tmp1)
  ; ORR x2_h x2_h (R x1_h)
  ; EOR x2_h x2_h (R tmp2)
  ; BIC x1_h x1_h (R tmp1)
  ; EOR x1_h x1_h (R tmp2)
  ; ORR x0_h x0_h (R tmp2)
  ; EOR x0_h x0_h (R tmp0)
  ; EOR tmp0 x2_l (RLSR x2_l 19)
  ; EOR tmp1 x2_h (RLSR x2_h 19)
  ; EOR tmp0 tmp0 (RLSL x2_h 13)
  ; EOR tmp1 tmp1 (RLSL x2_l 13)
  ; EOR tmp0 tmp0 (RLSL x2_h 4)
  ; EOR tmp1 tmp1 (RLSL x2_l 4)
  ; EOR x2_l tmp0 (RLSR x2_l 28)
  ; EOR x2_h tmp1 (RLSR x2_h 28)
  ; EOR tmp0 x3_l (RLSL x3_l 3)
  ; EOR tmp1 x3_h (RLSL x3_h 3)
  ; EOR tmp0 tmp0 (RLSR x3_h 29)
  ; EOR tmp1 tmp1 (RLSR x3_l 29)
  ; EOR tmp0 tmp0 (RLSR x3_h 7)
  ; EOR tmp1 tmp1 (RLSR x3_l 7)
  ; EOR x3_l tmp0 (RLSL x3_l 25)
  ; EOR x3_h tmp1 (RLSL x3_h 25)
  ; EOR tmp0 x4_l (RLSR x4_l 1)
  ; EOR tmp1 x4_h (RLSR x4_h 1)
  ; EOR tmp0 tmp0 (RLSL x4_h 31)
  ; EOR tmp1 tmp1 (RLSL x4_l 31)
  ; EOR tmp0 tmp0 (RLSL x4_h 26)
  ; EOR tmp1 tmp1 (RLSL x4_l 26)
  ; EOR x4_l tmp0 (RLSR x4_l 6)
  ; EOR x4_h tmp1 (RLSR x4_h 6)
  ; EOR tmp0 x0_l (RLSR x0_l 10)
  ; EOR tmp1 x0_h (RLSR x0_h 10)
  ; EOR tmp0 tmp0 (RLSL x0_h 22)
  ; EOR tmp1 tmp1 (RLSL x0_l 22)
  ; EOR tmp0 tmp0 (RLSL x0_h 15)
  ; EOR tmp1 tmp1 (RLSL x0_l 15)
  ; EOR x0_l tmp0 (RLSR x0_l 17)
  ; EOR x0_h tmp1 (RLSR x0_h 17)
  ; EOR tmp0 x1_l (RLSR x1_l 7)
  ; EOR tmp1 x1_h (RLSR x1_h 7)
  ; EOR tmp0 tmp0 (RLSL x1_h 25)
  ; EOR tmp1 tmp1 (RLSL x1_l 25)
  ; EOR tmp0 tmp0 (RLSR x1_h 9)
  ; EOR tmp1 tmp1 (RLSR x1_l 9)
  ; EOR x1_l tmp0 (RLSL x1_l 23)
  ; EOR x1_h tmp1 (RLSL x1_h 23) ].

(** src/armv6m/round.h l.13-171; the loop ends with: cmp %[tmp1], #60; beq rend_%=; b rbegin_%= *)
Definition armv6m_ROUND_LOOP : list arm :=
  [ EOR x2_l x2_l (R tmp1)
  ; PUSH tmp1
  ; EOR x0_l x0_l (R x4_l)
  ; EOR x4_l x4_l (R x3_l)
  ; EOR x2_l x2_l (R x1_l)
  ; MVN tmp0 (R x0_l)
  ; ORR tmp0 tmp0 (R x4_l)
  ; MOV tmp1 (R x2_l)
  ; BIC tmp1 tmp1 (R x1_l)
  ; EOR x0_l x0_l (R tmp1)
  ; MVN tmp1 (R x4_l)
  ; ORR tmp1 tmp1 (R x3_l)
  ; EOR x2_l x2_l (R tmp1)
  ; MOV tmp1 (R x1_l)
  ; BIC tmp1 tmp1 (R x0_l)
  ; EOR x4_l x4_l (R tmp1)
  ; MOV tmp1 (R x3_l)
  ; AND tmp1 tmp1 (R x2_l)
  ; EOR tmp1 x1_l (R tmp1)
  ; EOR tmp0 x3_l (R tmp0)
  ; EOR tmp0 tmp0 (R x2_l)
  ; EOR tmp1 tmp1 (R x0_l)
  ; EOR x0_l x0_l (R x4_l)
  ; MOV x1_l (R x0_h)
  ; MOV x3_l (R x1_h)
  ; MOV x0_h (R x2_l)
  ; MOV x1_h (R x0_l)
  ; MOV x0_l (R x2_h)
  ; MOV x2_l (R x3_h)
  ; MOV tmp2 (R x4_h)
  ; MOV x2_h (R tmp0)
  ; MOV x3_h (R x4_l)
  ; EOR x1_l x1_l (R tmp2)
  ; EOR tmp2 tmp2 (R x2_l)
  ; EOR x0_l x0_l (R x3_l)
  ; MVN tmp0 (R x1_l)
  ; ORR tmp0 tmp0 (R tmp2)
  ; MOV x4_l (R x0_l)
  ; BIC x4_l x4_l (R x3_l)
  ; EOR x1_l x1_l (R x4_l)
  ; MVN x4_l (R tmp2)
  ; ORR x4_l x4_l (R x2_l)
  ; EOR x0_l x0_l (R x4_l)
  ; MOV x4_l (R x3_l)
  ; BIC x4_l x4_l (R x1_l)
  ; EOR tmp2 tmp2 (R x4_l)
  ; MOV x4_l (R x2_l)
  ; AND x4_l x4_l (R x0_l)
  ; EOR x3_l x3_l (R x4_l)
  ; EOR x2_l x2_l (R tmp0)
  ; EOR x2_l x2_l (R x0_l)
  ; EOR x3_l x3_l (R x1_l)
  ; EOR x1_l x1_l (R tmp2)
  ; MOV x4_h (R x2_l)
  ; MOV x2_l (R x0_h)
  ; MOV x0_h (R x1_l)
  ; LSR x4_l x0_l 6
  ; LSL x1_l x2_l 26
  ; LSR tmp0 x2_l 6
  ; EOR x4_l x4_l (R x1_l)
  ; LSL x1_l x0_l 26
  ; EOR tmp0 tmp0 (R x1_l)
  ; LSR x1_l x0_l 1
  ; EOR x4_l x4_l (R x1_l)
  ; LSL x1_l x2_l 31
  ; EOR x4_l x4_l (R x1_l)
  ; LSR x1_l x2_l 1
  ; EOR tmp0 tmp0 (R x1_l)
  ; LSL x1_l x0_l 31
  ; EOR tmp0 tmp0 (R x1_l)
  ; EOR x0_l x0_l (R x4_l)
  ; EOR x2_l x2_l (R tmp0)
  ; LSL x4_l x3_l 3
  ; LSR x1_l tmp1 29
  ; LSL tmp0 tmp1 3
  ; EOR x4_l x4_l (R x1_l)
  ; LSR x1_l x3_l 29
  ; EOR tmp0 tmp0 (R x1_l)
  ; LSL x1_l x3_l 25
  ; EOR x4_l x4_l (R x1_l)
  ; LSR x1_l tmp1 7
  ; EOR x4_l x4_l (R x1_l)
  ; LSL x1_l tmp1 25
  ; EOR tmp0 tmp0 (R x1_l)
  ; LSR x1_l x3_l 7
  ; EOR tmp0 tmp0 (R x1_l)
  ; EOR x3_l x3_l (R x4_l)
  ; EOR tmp1 tmp1 (R tmp0)
  ; MOV x4_l (R x3_h)
  ; MOV x3_h (R tmp1)
  ; LSL tmp1 tmp2 23
  ; LSR x1_l x4_l 9
  ; LSL tmp0 x4_l 23
  ; EOR tmp1 tmp1 (R x1_l)
  ; LSR x1_l tmp2 9
  ; EOR tmp0 tmp0 (R x1_l)
  ; LSR x1_l tmp2 7
  ; EOR tmp1 tmp1 (R x1_l)
  ; LSL x1_l x4_l 25
  ; EOR tmp1 tmp1 (R x1_l)
  ; LSR x1_l x4_l 7
  ; EOR tmp0 tmp0 (R x1_l)
  ; LSL x1_l tmp2 25
  ; EOR tmp0 tmp0 (R x1_l)
  ; EOR tmp2 tmp2 (R tmp1)
  ; EOR x4_l x4_l (R tmp0)
  ; MOV x1_l (R x3_h)
  ; MOV tmp1 (R x4_h)
  ; MOV x4_h (R tmp2)
  ; MOV x3_h (R x3_l)
  ; MOV x3_l (R x2_h)
  ; MOV x2_h (R x0_l)
  ; LSR tmp2 tmp1 17
  ; LSL x0_l x3_l 15
  ; LSR tmp0 x3_l 17
  ; EOR tmp2 tmp2 (R x0_l)
  ; LSL x0_l tmp1 15
  ; EOR tmp0 tmp0 (R x0_l)
  ; LSR x0_l tmp1 10
  ; EOR tmp2 tmp2 (R x0_l)
  ; LSL x0_l x3_l 22
  ; EOR tmp2 tmp2 (R x0_l)
  ; LSR x0_l x3_l 10
  ; EOR tmp0 tmp0 (R x0_l)
  ; LSL x0_l tmp1 22
  ; EOR tmp0 tmp0 (R x0_l)
  ; EOR tmp1 tmp1 (R tmp2)
  ; EOR x3_l x3_l (R tmp0)
  ; MOV tmp0 (R x0_h)
  ; MOV x0_l (R x1_h)
  ; MOV x0_h (R x4_l)
  ; MOV x1_h (R x3_h)
  ; MOV x3_h (R tmp1)
  ; LSR x4_l tmp0 28
  ; LSL tmp1 x0_l 4
  ; LSR tmp2 x0_l 28
  ; EOR x4_l x4_l (R tmp1)
  ; LSL tmp1 tmp0 4
  ; EOR tmp2 tmp2 (R tmp1)
  ; LSR tmp1 tmp0 19
  ; EOR x4_l x4_l (R tmp1)
  ; LSL tmp1 x0_l 13
  ; EOR x4_l x4_l (R tmp1)
  ; LSR tmp1 x0_l 19
  ; EOR tmp2 tmp2 (R tmp1)
  ; LSL tmp1 tmp0 13
  ; EOR tmp2 tmp2 (R tmp1)
  ; POP tmp1
  ; EOR tmp0 tmp0 (R x4_l)
  ; EOR x0_l x0_l (R tmp2)
  ; MOV x4_l (R x0_h)
  ; MOV x0_h (R tmp0)
  ; SUB tmp1 tmp1 (I 15) ].

(** src/armv6m/round.h l.185-336 *)
Definition armv6m_ROUND (C : N) : list arm :=
  [ MOV tmp0 (I C)
  ; EOR x2_l x2_l (R tmp0)
  ; EOR x0_l x0_l (R x4_l)
  ; EOR x4_l x4_l (R x3_l)
  ; EOR x2_l x2_l (R x1_l)
  ; MVN tmp0 (R x0_l)
  ; ORR tmp0 tmp0 (R x4_l)
  ; MOV tmp1 (R x2_l)
  ; BIC tmp1 tmp1 (R x1_l)
  ; EOR x0_l x0_l (R tmp1)
  ; MVN tmp1 (R x4_l)
  ; ORR tmp1 tmp1 (R x3_l)
  ; EOR x2_l x2_l (R tmp1)
  ; MOV tmp1 (R x1_l)
  ; BIC tmp1 tmp1 (R x0_l)
  ; EOR x4_l x4_l (R tmp1)
  ; MOV tmp1 (R x3_l)
  ; AND tmp1 tmp1 (R x2_l)
  ; EOR tmp1 x1_l (R tmp1)
  ; EOR tmp0 x3_l (R tmp0)
  ; EOR tmp0 tmp0 (R x2_l)
  ; EOR tmp1 tmp1 (R x0_l)
  ; EOR x0_l x0_l (R x4_l)
  ; MOV x1_l (R x0_h)
  ; MOV x3_l (R x1_h)
  ; MOV x0_h (R x2_l)
  ; MOV x1_h (R x0_l)
  ; MOV x0_l (R x2_h)
  ; MOV x2_l (R x3_h)
  ; MOV tmp2 (R x4_h)
  ; MOV x2_h (R tmp0)
  ; MOV x3_h (R x4_l)
  ; EOR x1_l x1_l (R tmp2)
  ; EOR tmp2 tmp2 (R x2_l)
  ; EOR x0_l x0_l (R x3_l)
  ; MVN tmp0 (R x1_l)
  ; ORR tmp0 tmp0 (R tmp2)
  ; MOV x4_l (R x0_l)
  ; BIC x4_l x4_l (R x3_l)
  ; EOR x1_l x1_l (R x4_l)
  ; MVN x4_l (R tmp2)
  ; ORR x4_l x4_l (R x2_l)
  ; EOR x0_l x0_l (R x4_l)
  ; MOV x4_l (R x3_l)
  ; BIC x4_l x4_l (R x1_l)
  ; EOR tmp2 tmp2 (R x4_l)
  ; MOV x4_l (R x2_l)
  ; AND x4_l x4_l (R x0_l)
  ; EOR x3_l x3_l (R x4_l)
  ; EOR x2_l x2_l (R tmp0)
  ; EOR x2_l x2_l (R x0_l)
  ; EOR x3_l x3_l (R x1_l)
  ; EOR x1_l x1_l (R tmp2)
  ; MOV x4_h (R x2_l)
  ; MOV x2_l (R x0_h)
  ; MOV x0_h (R x1_l)
  ; LSR x4_l x0_l 6
  ; LSL x1_l x2_l 26
  ; LSR tmp0 x2_l 6
  ; EOR x4_l x4_l (R x1_l)
  ; LSL x1_l x0_l 26
  ; EOR tmp0 tmp0 (R x1_l)
  ; LSR x1_l x0_l 1
  ; EOR x4_l x4_l (R x1_l)
  ; LSL x1_l x2_l 31
  ; EOR x4_l x4_l (R x1_l)
  ; LSR x1_l x2_l 1
  ; EOR tmp0 tmp0 (R x1_l)
  ; LSL x1_l x0_l 31
  ; EOR tmp0 tmp0 (R x1_l)
  ; EOR x0_l x0_l (R x4_l)
  ; EOR x2_l x2_l (R tmp0)
  ; LSL x4_l x3_l 3
  ; LSR x1_l tmp1 29
  ; LSL tmp0 tmp1 3
  ; EOR x4_l x4_l (R x1_l)
  ; LSR x1_l x3_l 29
  ; EOR tmp0 tmp0 (R x1_l)
  ; LSL x1_l x3_l 25
  ; EOR x4_l x4_l (R x1_l)
  ; LSR x1_l tmp1 7
  ; EOR x4_l x4_l (R x1_l)
  ; LSL x1_l tmp1 25
  ; EOR tmp0 tmp0 (R x1_l)
  ; LSR x1_l x3_l 7
  ; EOR tmp0 tmp0 (R x1_l)
  ; EOR x3_l x3_l (R x4_l)
  ; EOR tmp1 tmp1 (R tmp0)
  ; MOV x4_l (R x3_h)
  ; MOV x3_h (R tmp1)
  ; LSL tmp1 tmp2 23
  ; LSR x1_l x4_l 9
  ; LSL tmp0 x4_l 23
  ; EOR tmp1 tmp1 (R x1_l)
  ; LSR x1_l tmp2 9
  ; EOR tmp0 tmp0 (R x1_l)
  ; LSR x1_l tmp2 7
  ; EOR tmp1 tmp1 (R x1_l)
  ; LSL x1_l x4_l 25
  ; EOR tmp1 tmp1 (R x1_l)
  ; LSR x1_l x4_l 7
  ; EOR tmp0 tmp0 (R x1_l)
  ; LSL x1_l tmp2 25
  ; EOR tmp0 tmp0 (R x1_l)
  ; EOR tmp2 tmp2 (R tmp1)
  ; EOR x4_l x4_l (R tmp0)
  ; MOV x1_l (R x3_h)
  ; MOV tmp1 (R x4_h)
  ; MOV x4_h (R tmp2)
  ; MOV x3_h (R x3_l)
  ; MOV x3_l (R x2_h)
  ; MOV x2_h (R x0_l)
  ; LSR tmp2 tmp1 17
  ; LSL x0_l x3_l 15
  ; LSR tmp0 x3_l 17
  ; EOR tmp2 tmp2 (R x0_l)
  ; LSL x0_l tmp1 15
  ; EOR tmp0 tmp0 (R x0_l)
  ; LSR x0_l tmp1 10
  ; EOR tmp2 tmp2 (R x0_l)
  ; LSL x0_l x3_l 22
  ; EOR tmp2 tmp2 (R x0_l)
  ; LSR x0_l x3_l 10
  ; EOR tmp0 tmp0 (R x0_l)
  ; LSL x0_l tmp1 22
  ; EOR tmp0 tmp0 (R x0_l)
  ; EOR tmp1 tmp1 (R tmp2)
  ; EOR x3_l x3_l (R tmp0)
  ; MOV tmp0 (R x0_h)
  ; MOV x0_l (R x1_h)
  ; MOV x0_h (R x4_l)
  ; MOV x1_h (R x3_h)
  ; MOV x3_h (R tmp1)
  ; LSR x4_l tmp0 28
  ; LSL tmp1 x0_l 4
  ; LSR tmp2 x0_l 28
  ; EOR x4_l x4_l (R tmp1)
  ; LSL tmp1 tmp0 4
  ; EOR tmp2 tmp2 (R tmp1)
  ; LSR tmp1 tmp0 19
  ; EOR x4_l x4_l (R tmp1)
  ; LSL tmp1 x0_l 13
  ; EOR x4_l x4_l (R tmp1)
  ; LSR tmp1 x0_l 19
  ; EOR tmp2 tmp2 (R tmp1)
  ; LSL tmp1 tmp0 13
  ; EOR tmp2 tmp2 (R tmp1)
  ; EOR tmp0 tmp0 (R x4_l)
  ; EOR x0_l x0_l (R tmp2)
  ; MOV x4_l (R x0_h)
  ; MOV x0_h (R tmp0) ].

(** src/bi32_armv7m/round.h l.14-72; the loop ends with: cmp %[C], %[E]; bne rbegin_%= *)
Definition bi32_armv7m_ROUND_LOOP : list arm :=
  [ LDRBP tmp1 rC 1
  ; EOR x0_l x0_l (R x4_l)
  ; EOR x4_l x4_l (R x3_l)
  ; EOR x2_l x2_l (R x1_l)
  ; ORN tmp0 x4_l (R x0_l)
  ; EOR x2_l x2_l (R tmp1)
  ; BIC tmp1 x2_l (R x1_l)
  ; EOR x0_l x0_l (R tmp1)
  ; ORN tmp1 x3_l (R x4_l)
  ; EOR x2_l x2_l (R tmp1)
  ; BIC tmp1 x1_l (R x0_l)
  ; EOR x4_l x4_l (R tmp1)
  ; AND tmp1 x3_l (R x2_l)
  ; EOR x1_l x1_l (R tmp1)
  ; EOR x3_l x3_l (R tmp0)
  ; LDRBP tmp1 rC 1
  ; EOR x1_l x1_l (R x0_l)
  ; EOR x3_l x3_l (R x2_l)
  ; EOR x0_l x0_l (R x4_l)
  ; EOR x0_h x0_h (R x4_h)
  ; EOR x4_h x4_h (R x3_h)
  ; EOR x2_h x2_h (R tmp1)
  ; EOR x2_h x2_h (R x1_h)
  ; ORN tmp0 x4_h (R x0_h)
  ; BIC tmp1 x2_h (R x1_h)
  ; EOR x0_h x0_h (R tmp1)
  ; ORN tmp1 x3_h (R x4_h)
  ; EOR x2_h x2_h (R tmp1)
  ; BIC tmp1 x1_h (R x0_h)
  ; EOR x4_h x4_h (R tmp1)
  ; AND tmp1 x3_h (R x2_h)
  ; EOR x1_h x1_h (R tmp1)
  ; EOR x3_h x3_h (R tmp0)
  ; EOR x1_h x1_h (R x0_h)
  ; EOR x3_h x3_h (R x2_h)
  ; EOR x0_h x0_h (R x4_h)
  ; EOR tmp0 x0_l (RROR x0_h 4)
  ; EOR tmp1 x0_h (RROR x0_l 5)
  ; EOR x0_h x0_h (RROR tmp0 10)
  ; EOR x0_l x0_l (RROR tmp1 9)
  ; EOR tmp0 x1_l (RROR x1_l 11)
  ; EOR tmp1 x1_h (RROR x1_h 11)
  ; EOR x1_h x1_h (RROR tmp0 20)
  ; EOR x1_l x1_l (RROR tmp1 19)
  ; EOR tmp0 x2_l (RROR x2_h 2)
  ; EOR tmp1 x2_h (RROR x2_l 3)
  ; EOR x2_h x2_h (RROR tmp0 1)
  ; EOR x2_l x2_l (R tmp1)
  ; EOR tmp0 x3_l (RROR x3_h 3)
  ; EOR tmp1 x3_h (RROR x3_l 4)
  ; EOR x3_l x3_l (RROR tmp0 5)
  ; EOR x3_h x3_h (RROR tmp1 5)
  ; EOR tmp0 x4_l (RROR x4_l 17)
  ; EOR tmp1 x4_h (RROR x4_h 17)
  ; EOR x4_h x4_h (RROR tmp0 4)
  ; EOR x4_l x4_l (RROR tmp1 3) ].

(** src/bi32_armv7m/round.h l.86-139 *)
Definition bi32_armv7m_ROUND (C_e C_o : N) : list arm :=
  [ EOR x0_l x0_l (R x4_l)
  ; EOR x4_l x4_l (R x3_l)
  ; EOR x2_l x2_l (R x1_l)
  ; ORN tmp0 x4_l (R x0_l)
  ; EOR x2_l x2_l (I C_e)
  ; BIC tmp1 x2_l (R x1_l)
  ; EOR x0_l x0_l (R tmp1)
  ; ORN tmp1 x3_l (R x4_l)
  ; EOR x2_l x2_l (R tmp1)
  ; BIC tmp1 x1_l (R x0_l)
  ; EOR x4_l x4_l (R tmp1)
  ; AND tmp1 x3_l (R x2_l)
  ; EOR x1_l x1_l (R tmp1)
  ; EOR x3_l x3_l (R tmp0)
  ; EOR x1_l x1_l (R x0_l)
  ; EOR x3_l x3_l (R x2_l)
  ; EOR x0_l x0_l (R x4_l)
  ; EOR x0_h x0_h (R x4_h)
  ; EOR x4_h x4_h (R x3_h)
  ; EOR x2_h x2_h (I C_o)
  ; EOR x2_h x2_h (R x1_h)
  ; ORN tmp0 x4_h (R x0_h)
  ; BIC tmp1 x2_h (R x1_h)
  ; EOR x0_h x0_h (R tmp1)
  ; ORN tmp1 x3_h (R x4_h)
  ; EOR x2_h x2_h (R tmp1)
  ; BIC tmp1 x1_h (R x0_h)
  ; EOR x4_h x4_h (R tmp1)
  ; AND tmp1 x3_h (R x2_h)
  ; EOR x1_h x1_h (R tmp1)
  ; EOR x3_h x3_h (R tmp0)
  ; EOR x1_h x1_h (R x0_h)
  ; EOR x3_h x3_h (R x2_h)
  ; EOR x0_h x0_h (R x4_h)
  ; EOR tmp0 x0_l (RROR x0_h 4)
  ; EOR tmp1 x0_h (RROR x0_l 5)
  ; EOR x0_h x0_h (RROR tmp0 10)
  ; EOR x0_l x0_l (RROR tmp1 9)
  ; EOR tmp0 x1_l (RROR x1_l 11)
  ; EOR tmp1 x1_h (RROR x1_h 11)
  ; EOR x1_h x1_h (RROR tmp0 20)
  ; EOR x1_l x1_l (RROR tmp1 19)
  ; EOR tmp0 x2_l (RROR x2_h 2)
  ; EOR tmp1 x2_h (RROR x2_l 3)
  ; EOR x2_h x2_h (RROR tmp0 1)
  ; EOR x2_l x2_l (R tmp1)
  ; EOR tmp0 x3_l (RROR x3_h 3)
  ; EOR tmp1 x3_h (RROR x3_l 4)
  ; EOR x3_l x3_l (RROR tmp0 5)
  ; EOR x3_h x3_h (RROR tmp1 5)
  ; EOR tmp0 x4_l (RROR x4_l 17)
  ; EOR tmp1 x4_h (RROR x4_h 17)
  ; EOR x4_h x4_h (RROR tmp0 4)
  ; EOR x4_l x4_l (RROR tmp1 3) ].

(** src/bi32_armv7m/round.h l.156-207 *)
Definition bi32_armv7m_ROUND5 (C_e C_o : N) : list arm :=
  [ EOR x2_l x2_l (I C_e)
  ; EOR tmp0 x1_l (R x2_l)
  ; EOR tmp1 x0_l (R x4_l)
  ; EOR tmp2 x3_l (R x4_l)
  ; ORN x4_l x3_l (R x4_l)
  ; EOR x4_l x4_l (R tmp0)
  ; EOR x3_l x3_l (R x1_l)
  ; ORR x3_l x3_l (R tmp0)
  ; EOR x3_l x3_l (R tmp1)
  ; EOR x2_l x2_l (R tmp1)
  ; ORR x2_l x2_l (R x1_l)
  ; EOR x2_l x2_l (R tmp2)
  ; BIC x1_l x1_l (R tmp1)
  ; EOR x1_l x1_l (R tmp2)
  ; ORR x0_l x0_l (R tmp2)
  ; EOR x0_l x0_l (R tmp0)
  ; EOR x2_h x2_h (I C_o)
  ; EOR tmp0 x1_h (R x2_h)
  ; EOR tmp1 x0_h (R x4_h)
  ; EOR tmp2 x3_h (R x4_h)
  ; ORN x4_h x3_h (R x4_h)
  ; EOR x4_h x4_h (R tmp0)
  ; EOR x3_h x3_h (R x1_h)
  ; ORR x3_h x3_h (R tmp0)
  ; EOR x3_h x3_h (R tmp1)
  ; EOR x2_h x2_h (R tmp1)
  ; ORR x2_h x2_h (R x1_h)
  ; EOR x2_h x2_h (R tmp2)
  ; BIC x1_h x1_h (R tmp1)
  ; EOR x1_h x1_h (R tmp2)
  ; ORR x0_h x0_h (R tmp2)
  ; EOR x0_h x0_h (R tmp0)
  ; EOR tmp0 x2_l (RROR x2_h 4)
  ; EOR tmp1 x2_h (RROR x2_l 5)
  ; EOR x2_h x2_h (RROR tmp0 10)
  ; EOR x2_l x2_l (RROR tmp1 9)
  ; EOR tmp0 x3_l (RROR x3_l 11)
  ; EOR tmp1 x3_h (RROR x3_h 11)
  ; EOR x3_h x3_h (RROR tmp0 20)
  ; EOR x3_l x3_l (RROR tmp1 19)
  ; EOR tmp0 x4_l (RROR x4_h 2)
  ; EOR tmp1 x4_h (RROR x4_l 3)
  ; EOR x4_h x4_h (RROR tmp0 1)
  ; EOR x4_l x4_l (R tmp1)
  ; EOR tmp0 x0_l (RROR x0_h 3)
  ; EOR tmp1 x0_h (RROR x0_l 4)
  ; EOR x0_l x0_l (RROR tmp0 5)
  ; EOR x0_h x0_h (RROR tmp1 5)
  ; EOR tmp0 x1_l (RROR x1_l 17)
  ; EOR tmp1 x1_h (RROR x1_h 17)
  ; EOR x1_h x1_h (RROR tmp0 4)
  ; EOR x1_l x1_l (RROR tmp1 3) ].

(** src/bi32_armv6/round.h l.14-76; the loop ends with: cmp %[C], %[E]; bne rbegin_%= *)
Definition bi32_armv6_ROUND_LOOP : list arm :=
  [ LDRBP tmp1 rC 1
  ; EOR x0_l x0_l (R x4_l)
  ; EOR x4_l x4_l (R x3_l)
  ; EOR x2_l x2_l (R x1_l)
  ; MVN tmp0 (R x0_l)
  ; ORR tmp0 x4_l (R tmp0)
  ; EOR x2_l x2_l (R tmp1)
  ; BIC tmp1 x2_l (R x1_l)
  ; EOR x0_l x0_l (R tmp1)
  ; MVN tmp1 (R x4_l)
  ; ORR tmp1 x3_l (R tmp1)
  ; EOR x2_l x2_l (R tmp1)
  ; BIC tmp1 x1_l (R x0_l)
  ; EOR x4_l x4_l (R tmp1)
  ; AND tmp1 x3_l (R x2_l)
  ; EOR x1_l x1_l (R tmp1)
  ; EOR x3_l x3_l (R tmp0)
  ; LDRBP tmp1 rC 1
  ; EOR x1_l x1_l (R x0_l)
  ; EOR x3_l x3_l (R x2_l)
  ; EOR x0_l x0_l (R x4_l)
  ; EOR x0_h x0_h (R x4_h)
  ; EOR x4_h x4_h (R x3_h)
  ; EOR x2_h x2_h (R tmp1)
  ; EOR x2_h x2_h (R x1_h)
  ; MVN tmp0 (R x0_h)
  ; ORR tmp0 x4_h (R tmp0)
  ; BIC tmp1 x2_h (R x1_h)
  ; EOR x0_h x0_h (R tmp1)
  ; MVN tmp1 (R x4_h)
  ; ORR tmp1 x3_h (R tmp1)
  ; EOR x2_h x2_h (R tmp1)
  ; BIC tmp1 x1_h (R x0_h)
  ; EOR x4_h x4_h (R tmp1)
  ; AND tmp1 x3_h (R x2_h)
  ; EOR x1_h x1_h (R tmp1)
  ; EOR x3_h x3_h (R tmp0)
  ; EOR x1_h x1_h (R x0_h)
  ; EOR x3_h x3_h (R x2_h)
  ; EOR x0_h x0_h (R x4_h)
  ; EOR tmp0 x0_l (RROR x0_h 4)
  ; EOR tmp1 x0_h (RROR x0_l 5)
  ; EOR x0_h x0_h (RROR tmp0 10)
  ; EOR x0_l x0_l (RROR tmp1 9)
  ; EOR tmp0 x1_l (RROR x1_l 11)
  ; EOR tmp1 x1_h (RROR x1_h 11)
  ; EOR x1_h x1_h (RROR tmp0 20)
  ; EOR x1_l x1_l (RROR tmp1 19)
  ; EOR tmp0 x2_l (RROR x2_h 2)
  ; EOR tmp1 x2_h (RROR x2_l 3)
  ; EOR x2_h x2_h (RROR tmp0 1)
  ; EOR x2_l x2_l (R tmp1)
  ; EOR tmp0 x3_l (RROR x3_h 3)
  ; EOR tmp1 x3_h (RROR x3_l 4)
  ; EOR x3_l x3_l (RROR tmp0 5)
  ; EOR x3_h x3_h (RROR tmp1 5)
  ; EOR tmp0 x4_l (RROR x4_l 17)
  ; EOR tmp1 x4_h (RROR x4_h 17)
  ; EOR x4_h x4_h (RROR tmp0 4)
  ; EOR x4_l x4_l (RROR tmp1 3) ].

(** src/bi32_armv6/round.h l.90-147 *)
Definition bi32_armv6_ROUND (C_e C_o : N) : list arm :=
  [ EOR x0_l x0_l (R x4_l)
  ; EOR x4_l x4_l (R x3_l)
  ; EOR x2_l x2_l (R x1_l)
  ; MVN tmp0 (R x0_l)
  ; ORR tmp0 x4_l (R tmp0)
  ; EOR x2_l x2_l (I C_e)
  ; BIC tmp1 x2_l (R x1_l)
  ; EOR x0_l x0_l (R tmp1)
  ; MVN tmp1 (R x4_l)
  ; ORR tmp1 x3_l (R tmp1)
  ; EOR x2_l x2_l (R tmp1)
  ; BIC tmp1 x1_l (R x0_l)
  ; EOR x4_l x4_l (R tmp1)
  ; AND tmp1 x3_l (R x2_l)
  ; EOR x1_l x1_l (R tmp1)
  ; EOR x3_l x3_l (R tmp0)
  ; EOR x1_l x1_l (R x0_l)
  ; EOR x3_l x3_l (R x2_l)
  ; EOR x0_l x0_l (R x4_l)
  ; EOR x0_h x0_h (R x4_h)
  ; EOR x4_h x4_h (R x3_h)
  ; EOR x2_h x2_h (I C_o)
  ; EOR x2_h x2_h (R x1_h)
  ; MVN tmp0 (R x0_h)
  ; ORR tmp0 x4_h (R tmp0)
  ; BIC tmp1 x2_h (R x1_h)
  ; EOR x0_h x0_h (R tmp1)
  ; MVN tmp1 (R x4_h)
  ; ORR tmp1 x3_h (R tmp1)
  ; EOR x2_h x2_h (R tmp1)
  ; BIC tmp1 x1_h (R x0_h)
  ; EOR x4_h x4_h (R tmp1)
  ; AND tmp1 x3_h (R x2_h)
  ; EOR x1_h x1_h (R tmp1)
  ; EOR x3_h x3_h (R tmp0)
  ; EOR x1_h x1_h (R x0_h)
  ; EOR x3_h x3_h (R x2_h)
  ; EOR x0_h x0_h (R x4_h)
  ; EOR tmp0 x0_l (RROR x0_h 4)
  ; EOR tmp1 x0_h (RROR x0_l 5)
  ; EOR x0_h x0_h (RROR tmp0 10)
  ; EOR x0_l x0_l (RROR tmp1 9)
  ; EOR tmp0 x1_l (RROR x1_l 11)
  ; EOR tmp1 x1_h (RROR x1_h 11)
  ; EOR x1_h x1_h (RROR tmp0 20)
  ; EOR x1_l x1_l (RROR tmp1 19)
  ; EOR tmp0 x2_l (RROR x2_h 2)
  ; EOR tmp1 x2_h (RROR x2_l 3)
  ; EOR x2_h x2_h (RROR tmp0 1)
  ; EOR x2_l x2_l (R tmp1)
  ; EOR tmp0 x3_l (RROR x3_h 3)
  ; EOR tmp1 x3_h (RROR x3_l 4)
  ; EOR x3_l x3_l (RROR tmp0 5)
  ; EOR x3_h x3_h (RROR tmp1 5)
  ; EOR tmp0 x4_l (RROR x4_l 17)
  ; EOR tmp1 x4_h (RROR x4_h 17)
  ; EOR x4_h x4_h (RROR tmp0 4)
  ; EOR x4_l x4_l (RROR tmp1 3) ].

(** src/bi32_armv6/round.h l.164-217 *)
Definition bi32_armv6_ROUND5 (C_e C_o : N) : list arm :=
  [ EOR x2_l x2_l (I C_e)
  ; EOR tmp0 x1_l (R x2_l)
  ; EOR tmp1 x0_l (R x4_l)
  ; EOR tmp2 x3_l (R x4_l)
  ; MVN x4_l (R x4_l)
  ; ORR x4_l x3_l (R x4_l)
  ; EOR x4_l x4_l (R tmp0)
  ; EOR x3_l x3_l (R x1_l)
  ; ORR x3_l x3_l (R tmp0)
  ; EOR x3_l x3_l (R tmp1)
  ; EOR x2_l x2_l (R tmp1)
  ; ORR x2_l x2_l (R x1_l)
  ; EOR x2_l x2_l (R tmp2)
  ; BIC x1_l x1_l (R tmp1)
  ; EOR x1_l x1_l (R tmp2)
  ; ORR x0_l x0_l (R tmp2)
  ; EOR x0_l x0_l (R tmp0)
  ; EOR x2_h x2_h (I C_o)
  ; EOR tmp0 x1_h (R x2_h)
  ; EOR tmp1 x0_h (R x4_h)
  ; EOR tmp2 x3_h (R x4_h)
  ; MVN x4_h (R x4_h)
  ; ORR x4_h x3_h (R x4_h)
  ; EOR x4_h x4_h (R tmp0)
  ; EOR x3_h x3_h (R x1_h)
  ; ORR x3_h x3_h (R tmp0)
  ; EOR x3_h x3_h (R tmp1)
  ; EOR x2_h x2_h (R tmp1)
  ; ORR x2_h x2_h (R x1_h)
  ; EOR x2_h x2_h (R tmp2)
  ; BIC x1_h x1_h (R tmp1)
  ; EOR x1_h x1_h (R tmp2)
  ; ORR x0_h x0_h (R tmp2)
  ; EOR x0_h x0_h (R tmp0)
  ; EOR tmp0 x2_l (RROR x2_h 4)
  ; EOR tmp1 x2_h (RROR x2_l 5)
  ; EOR x2_h x2_h (RROR tmp0 10)
  ; EOR x2_l x2_l (RROR tmp1 9)
  ; EOR tmp0 x3_l (RROR x3_l 11)
  ; EOR tmp1 x3_h (RROR x3_h 11)
  ; EOR x3_h x3_h (RROR tmp0 20)
  ; EOR x3_l x3_l (RROR tmp1 19)
  ; EOR tmp0 x4_l (RROR x4_h 2)
  ; EOR tmp1 x4_h (RROR x4_l 3)
  ; EOR x4_h x4_h (RROR tmp0 1)
  ; EOR x4_l x4_l (R tmp1)
  ; EOR tmp0 x0_l (RROR x0_h 3)
  ; EOR tmp1 x0_h (RROR x0_l 4)
  ; EOR x0_l x0_l (RROR tmp0 5)
  ; EOR x0_h x0_h (RROR tmp1 5)
  ; EOR tmp0 x1_l (RROR x1_l 17)
  ; EOR tmp1 x1_h (RROR x1_h 17)
  ; EOR x1_h x1_h (RROR tmp0 4)
  ; EOR x1_l x1_l (RROR tmp1 3) ].

(** src/bi32_armv6m/round.h l.14-162; the loop ends with: cmp %[tmp1], %[tmp0]; beq rend_%=; b rbegin_%= *)
Definition bi32_armv6m_ROUND_LOOP : list arm :=
  [ LDRB tmp2 tmp1 0
  ; PUSH tmp0
  ; EOR x0_l x0_l (R x4_l)
  ; EOR x4_l x4_l (R x3_l)
  ; EOR x2_l x2_l (R x1_l)
  ; EOR x2_l x2_l (R tmp2)
  ; LDRB tmp2 tmp1 1
  ; ADD tmp1 tmp1 (I 2)
  ; MOV tmp0 (R x2_h)
  ; PUSH tmp1
  ; EOR tmp0 tmp0 (R tmp2)
  ; MOV x2_h (R tmp0)
  ; MOV tmp0 (R x0_l)
  ; BIC tmp0 tmp0 (R x4_l)
  ; MOV tmp1 (R x2_l)
  ; BIC tmp1 tmp1 (R x1_l)
  ; EOR x0_l x0_l (R tmp1)
  ; MOV tmp1 (R x4_l)
  ; BIC tmp1 tmp1 (R x3_l)
  ; EOR x2_l x2_l (R tmp1)
  ; MOV tmp2 (R x1_l)
  ; BIC tmp2 tmp2 (R x0_l)
  ; EOR tmp2 x4_l (R tmp2)
  ; MOV tmp1 (R x3_l)
  ; BIC tmp1 tmp1 (R x2_l)
  ; EOR tmp1 x1_l (R tmp1)
  ; EOR tmp0 x3_l (R tmp0)
  ; EOR tmp0 tmp0 (R x2_l)
  ; EOR tmp1 tmp1 (R x0_l)
  ; EOR x0_l x0_l (R tmp2)
  ; MOV x4_l (R x4_h)
  ; MOV x1_l (R x1_h)
  ; MOV x3_l (R x3_h)
  ; MOV x3_h (R tmp0)
  ; MOV x1_h (R tmp1)
  ; MOV tmp0 (R x0_h)
  ; MOV tmp1 (R x2_h)
  ; MOV x0_h (R x0_l)
  ; MOV x2_h (R x2_l)
  ; EOR tmp0 tmp0 (R x4_l)
  ; EOR x4_l x4_l (R x3_l)
  ; EOR tmp1 tmp1 (R x1_l)
  ; MOV x0_l (R tmp0)
  ; BIC x0_l x0_l (R x4_l)
  ; MOV x2_l (R tmp1)
  ; BIC x2_l x2_l (R x1_l)
  ; EOR tmp0 tmp0 (R x2_l)
  ; MOV x2_l (R x4_l)
  ; BIC x2_l x2_l (R x3_l)
  ; EOR tmp1 tmp1 (R x2_l)
  ; MOV x2_l (R x1_l)
  ; BIC x2_l x2_l (R tmp0)
  ; EOR x4_l x4_l (R x2_l)
  ; MOV x2_l (R x3_l)
  ; BIC x2_l x2_l (R tmp1)
  ; EOR x1_l x1_l (R x2_l)
  ; EOR x3_l x3_l (R x0_l)
  ; EOR x3_l x3_l (R tmp1)
  ; EOR x1_l x1_l (R tmp0)
  ; EOR tmp0 tmp0 (R x4_l)
  ; MOV x4_h (R tmp1)
  ; MOV x2_l (R x3_h)
  ; MOV x3_h (R x1_l)
  ; MOV tmp1 (I 17)
  ; MOV x0_l (R tmp2)
  ; ROR x0_l x0_l tmp1
  ; EOR x0_l tmp2 (R x0_l)
  ; MOV x1_l (R x4_l)
  ; ROR x1_l x1_l tmp1
  ; EOR x1_l x4_l (R x1_l)
  ; MOV tmp1 (I 3)
  ; ROR x1_l x1_l tmp1
  ; EOR tmp2 tmp2 (R x1_l)
  ; MOV tmp1 (I 4)
  ; ROR x0_l x0_l tmp1
  ; EOR x4_l x4_l (R x0_l)
  ; MOV x1_l (R x2_l)
  ; ROR x1_l x1_l tmp1
  ; EOR x1_l x3_l (R x1_l)
  ; MOV tmp1 (I 3)
  ; MOV x0_l (R x3_l)
  ; ROR x0_l x0_l tmp1
  ; EOR x0_l x2_l (R x0_l)
  ; MOV tmp1 (I 5)
  ; ROR x0_l x0_l tmp1
  ; EOR x2_l x2_l (R x0_l)
  ; ROR x1_l x1_l tmp1
  ; EOR x3_l x3_l (R x1_l)
  ; MOV x0_l (R x0_h)
  ; MOV x1_l (R x1_h)
  ; MOV x1_h (R x2_l)
  ; MOV x0_h (R tmp2)
  ; MOV tmp2 (R x4_h)
  ; MOV x4_h (R x4_l)
  ; MOV x4_l (R x3_h)
  ; MOV x3_h (R x3_l)
  ; MOV x3_l (R x0_l)
  ; ROR x3_l x3_l tmp1
  ; EOR x3_l tmp0 (R x3_l)
  ; MOV tmp1 (I 4)
  ; MOV x2_l (R tmp0)
  ; ROR x2_l x2_l tmp1
  ; EOR x2_l x0_l (R x2_l)
  ; MOV tmp1 (I 9)
  ; ROR x3_l x3_l tmp1
  ; EOR x0_l x0_l (R x3_l)
  ; MOV tmp1 (I 10)
  ; ROR x2_l x2_l tmp1
  ; EOR tmp0 tmp0 (R x2_l)
  ; MOV tmp1 (I 11)
  ; MOV x2_l (R x1_l)
  ; ROR x2_l x2_l tmp1
  ; EOR x2_l x1_l (R x2_l)
  ; MOV x3_l (R x4_l)
  ; ROR x3_l x3_l tmp1
  ; EOR x3_l x4_l (R x3_l)
  ; MOV tmp1 (I 19)
  ; ROR x3_l x3_l tmp1
  ; EOR x1_l x1_l (R x3_l)
  ; MOV tmp1 (I 20)
  ; ROR x2_l x2_l tmp1
  ; EOR x4_l x4_l (R x2_l)
  ; MOV x2_l (R x2_h)
  ; MOV x3_l (R x1_h)
  ; MOV x1_h (R x4_l)
  ; MOV x2_h (R tmp0)
  ; MOV x4_l (I 2)
  ; MVN tmp0 (R tmp2)
  ; ROR tmp0 tmp0 x4_l
  ; EOR tmp0 x2_l (R tmp0)
  ; MOV x4_l (I 3)
  ; MVN tmp1 (R x2_l)
  ; ROR tmp1 tmp1 x4_l
  ; EOR tmp1 tmp2 (R tmp1)
  ; EOR x2_l x2_l (R tmp1)
  ; MOV x4_l (I 1)
  ; POP tmp1
  ; ROR tmp0 tmp0 x4_l
  ; EOR tmp2 tmp2 (R tmp0)
  ; POP tmp0
  ; MOV x4_l (R x0_h)
  ; MOV x0_h (R x2_h)
  ; MOV x2_h (R tmp2) ].

(** src/bi32_armv6m/round.h l.176-312 *)
Definition bi32_armv6m_ROUND (C_e C_o : N) : list arm :=
  [ MOV tmp1 (I C_e)
  ; EOR x2_l x2_l (R tmp1)
  ; EOR x0_l x0_l (R x4_l)
  ; EOR x4_l x4_l (R x3_l)
  ; EOR x2_l x2_l (R x1_l)
  ; MOV tmp0 (R x0_l)
  ; BIC tmp0 tmp0 (R x4_l)
  ; MOV tmp1 (R x2_l)
  ; BIC tmp1 tmp1 (R x1_l)
  ; EOR x0_l x0_l (R tmp1)
  ; MOV tmp1 (R x4_l)
  ; BIC tmp1 tmp1 (R x3_l)
  ; EOR x2_l x2_l (R tmp1)
  ; MOV tmp2 (R x1_l)
  ; BIC tmp2 tmp2 (R x0_l)
  ; EOR tmp2 x4_l (R tmp2)
  ; MOV tmp1 (R x3_l)
  ; BIC tmp1 tmp1 (R x2_l)
  ; EOR tmp1 x1_l (R tmp1)
  ; EOR tmp0 x3_l (R tmp0)
  ; EOR tmp0 tmp0 (R x2_l)
  ; EOR tmp1 tmp1 (R x0_l)
  ; EOR x0_l x0_l (R tmp2)
  ; MOV x4_l (R x4_h)
  ; MOV x1_l (R x1_h)
  ; MOV x3_l (R x3_h)
  ; MOV x3_h (R tmp0)
  ; MOV x1_h (R tmp1)
  ; MOV tmp0 (R x0_h)
  ; MOV tmp1 (R x2_h)
  ; MOV x0_h (R x0_l)
  ; MOV x2_h (R x2_l)
  ; MOV x0_l (I C_o)
  ; EOR tmp1 tmp1 (R x0_l)
  ; EOR tmp0 tmp0 (R x4_l)
  ; EOR x4_l x4_l (R x3_l)
  ; EOR tmp1 tmp1 (R x1_l)
  ; MOV x0_l (R tmp0)
  ; BIC x0_l x0_l (R x4_l)
  ; MOV x2_l (R tmp1)
  ; BIC x2_l x2_l (R x1_l)
  ; EOR tmp0 tmp0 (R x2_l)
  ; MOV x2_l (R x4_l)
  ; BIC x2_l x2_l (R x3_l)
  ; EOR tmp1 tmp1 (R x2_l)
  ; MOV x2_l (R x1_l)
  ; BIC x2_l x2_l (R tmp0)
  ; EOR x4_l x4_l (R x2_l)
  ; MOV x2_l (R x3_l)
  ; BIC x2_l x2_l (R tmp1)
  ; EOR x1_l x1_l (R x2_l)
  ; EOR x3_l x3_l (R x0_l)
  ; EOR x3_l x3_l (R tmp1)
  ; EOR x1_l x1_l (R tmp0)
  ; EOR tmp0 tmp0 (R x4_l)
  ; MOV x4_h (R tmp1)
  ; MOV x2_l (R x3_h)
  ; MOV x3_h (R x1_l)
  ; MOV tmp1 (I 17)
  ; MOV x0_l (R tmp2)
  ; ROR x0_l x0_l tmp1
  ; EOR x0_l tmp2 (R x0_l)
  ; MOV x1_l (R x4_l)
  ; ROR x1_l x1_l tmp1
  ; EOR x1_l x4_l (R x1_l)
  ; MOV tmp1 (I 3)
  ; ROR x1_l x1_l tmp1
  ; EOR tmp2 tmp2 (R x1_l)
  ; MOV tmp1 (I 4)
  ; ROR x0_l x0_l tmp1
  ; EOR x4_l x4_l (R x0_l)
  ; MOV x1_l (R x2_l)
  ; ROR x1_l x1_l tmp1
  ; EOR x1_l x3_l (R x1_l)
  ; MOV tmp1 (I 3)
  ; MOV x0_l (R x3_l)
  ; ROR x0_l x0_l tmp1
  ; EOR x0_l x2_l (R x0_l)
  ; MOV tmp1 (I 5)
  ; ROR x0_l x0_l tmp1
  ; EOR x2_l x2_l (R x0_l)
  ; ROR x1_l x1_l tmp1
  ; EOR x3_l x3_l (R x1_l)
  ; MOV x0_l (R x0_h)
  ; MOV x1_l (R x1_h)
  ; MOV x1_h (R x2_l)
  ; MOV x0_h (R tmp2)
  ; MOV tmp2 (R x4_h)
  ; MOV x4_h (R x4_l)
  ; MOV x4_l (R x3_h)
  ; MOV x3_h (R x3_l)
  ; MOV x3_l (R x0_l)
  ; ROR x3_l x3_l tmp1
  ; EOR x3_l tmp0 (R x3_l)
  ; MOV tmp1 (I 4)
  ; MOV x2_l (R tmp0)
  ; ROR x2_l x2_l tmp1
  ; EOR x2_l x0_l (R x2_l)
  ; MOV tmp1 (I 9)
  ; ROR x3_l x3_l tmp1
  ; EOR x0_l x0_l (R x3_l)
  ; MOV tmp1 (I 10)
  ; ROR x2_l x2_l tmp1
  ; EOR tmp0 tmp0 (R x2_l)
  ; MOV tmp1 (I 11)
  ; MOV x2_l (R x1_l)
  ; ROR x2_l x2_l tmp1
  ; EOR x2_l x1_l (R x2_l)
  ; MOV x3_l (R x4_l)
  ; ROR x3_l x3_l tmp1
  ; EOR x3_l x4_l (R x3_l)
  ; MOV tmp1 (I 19)
  ; ROR x3_l x3_l tmp1
  ; EOR x1_l x1_l (R x3_l)
  ; MOV tmp1 (I 20)
  ; ROR x2_l x2_l tmp1
  ; EOR x4_l x4_l (R x2_l)
  ; MOV x2_l (R x2_h)
  ; MOV x3_l (R x1_h)
  ; MOV x1_h (R x4_l)
  ; MOV x2_h (R tmp0)
  ; MOV x4_l (I 2)
  ; MVN tmp0 (R tmp2)
  ; ROR tmp0 tmp0 x4_l
  ; EOR tmp0 x2_l (R tmp0)
  ; MOV x4_l (I 3)
  ; MVN tmp1 (R x2_l)
  ; ROR tmp1 tmp1 x4_l
  ; EOR tmp1 tmp2 (R tmp1)
  ; EOR x2_l x2_l (R tmp1)
  ; MOV x4_l (I 1)
  ; ROR tmp0 tmp0 x4_l
  ; EOR tmp2 tmp2 (R tmp0)
  ; MOV x4_l (R x0_h)
  ; MOV x0_h (R x2_h)
  ; MOV x2_h (R tmp2) ].

(** src/armv6m_lowsize/permutations.S l.24-56 *)
Definition armv6m_S_prologue : list arm :=
  [ MOV r3 (R r1)
  ; MOV r2 (I 12)
  ; ADD r1 r1 (I 3)
  ; SUB r3 r2 (R r3)
  ; LSL r1 r1 4
  ; PUSH lr
  ; PUSH r7
  ; PUSH r6
  ; PUSH r5
  ; PUSH r4
  ; ORR r1 r1 (R r3)
  ; MOV lr (R r11)
  ; MOV r7 (R r10)
  ; MOV r6 (R r9)
  ; MOV r5 (R r8)
  ; LDR r3 r0 0
  ; PUSH lr
  ; PUSH r7
  ; PUSH r6
  ; PUSH r5
  ; MOV r9 (R r3)
  ; LDR r3 r0 1
  ; SUBSP 3
  ; MOV r8 (R r3)
  ; LDR r3 r0 5
  ; LDR r2 r0 7
  ; MOV r12 (R r3)
  ; LDR r3 r0 8
  ; LDR r6 r0 3
  ; MOV r10 (R r3)
  ; LDR r7 r0 2
  ; LDR r5 r0 4
  ; LDR r4 r0 6
  ; STRSP r0 1
  ; LDR r0 r0 9
  ; MOV r3 (R r9)
  ; MOV r11 (R r2)
  ; MOV r9 (R r6)
  ; MOV r2 (R r10)
  ; MOV r10 (R r0) ].

(** src/armv6m_lowsize/permutations.S l.59-211; the loop ends with: cmp r1, #60; beq rend_49; b rbegin_49 *)
Definition armv6m_S_body : list arm :=
  [ EOR r5 r5 (R r1)
  ; PUSH r1
  ; EOR r3 r3 (R r2)
  ; EOR r2 r2 (R r4)
  ; EOR r5 r5 (R r7)
  ; MVN r6 (R r3)
  ; ORR r6 r6 (R r2)
  ; MOV r1 (R r5)
  ; BIC r1 r1 (R r7)
  ; EOR r3 r3 (R r1)
  ; MVN r1 (R r2)
  ; ORR r1 r1 (R r4)
  ; EOR r5 r5 (R r1)
  ; MOV r1 (R r7)
  ; BIC r1 r1 (R r3)
  ; EOR r2 r2 (R r1)
  ; MOV r1 (R r4)
  ; AND r1 r1 (R r5)
  ; EOR r1 r7 (R r1)
  ; EOR r6 r4 (R r6)
  ; EOR r6 r6 (R r5)
  ; EOR r1 r1 (R r3)
  ; EOR r3 r3 (R r2)
  ; MOV r7 (R r8)
  ; MOV r4 (R r9)
  ; MOV r8 (R r5)
  ; MOV r9 (R r3)
  ; MOV r3 (R r12)
  ; MOV r5 (R r11)
  ; MOV r0 (R r10)
  ; MOV r12 (R r6)
  ; MOV r11 (R r2)
  ; EOR r7 r7 (R r0)
  ; EOR r0 r0 (R r5)
  ; EOR r3 r3 (R r4)
  ; MVN r6 (R r7)
  ; ORR r6 r6 (R r0)
  ; MOV r2 (R r3)
  ; BIC r2 r2 (R r4)
  ; EOR r7 r7 (R r2)
  ; MVN r2 (R r0)
  ; ORR r2 r2 (R r5)
  ; EOR r3 r3 (R r2)
  ; MOV r2 (R r4)
  ; BIC r2 r2 (R r7)
  ; EOR r0 r0 (R r2)
  ; MOV r2 (R r5)
  ; AND r2 r2 (R r3)
  ; EOR r4 r4 (R r2)
  ; EOR r5 r5 (R r6)
  ; EOR r5 r5 (R r3)
  ; EOR r4 r4 (R r7)
  ; EOR r7 r7 (R r0)
  ; MOV r10 (R r5)
  ; MOV r5 (R r8)
  ; MOV r8 (R r7)
  ; LSR r2 r3 6
  ; LSL r7 r5 26
  ; LSR r6 r5 6
  ; EOR r2 r2 (R r7)
  ; LSL r7 r3 26
  ; EOR r6 r6 (R r7)
  ; LSR r7 r3 1
  ; EOR r2 r2 (R r7)
  ; LSL r7 r5 31
  ; EOR r2 r2 (R r7)
  ; LSR r7 r5 1
  ; EOR r6 r6 (R r7)
  ; LSL r7 r3 31
  ; EOR r6 r6 (R r7)
  ; EOR r3 r3 (R r2)
  ; EOR r5 r5 (R r6)
  ; LSL r2 r4 3
  ; LSR r7 r1 29
  ; LSL r6 r1 3
  ; EOR r2 r2 (R r7)
  ; LSR r7 r4 29
  ; EOR r6 r6 (R r7)
  ; LSL r7 r4 25
  ; EOR r2 r2 (R r7)
  ; LSR r7 r1 7
  ; EOR r2 r2 (R r7)
  ; LSL r7 r1 25
  ; EOR r6 r6 (R r7)
  ; LSR r7 r4 7
  ; EOR r6 r6 (R r7)
  ; EOR r4 r4 (R r2)
  ; EOR r1 r1 (R r6)
  ; MOV r2 (R r11)
  ; MOV r11 (R r1)
  ; LSL r1 r0 23
  ; LSR r7 r2 9
  ; LSL r6 r2 23
  ; EOR r1 r1 (R r7)
  ; LSR r7 r0 9
  ; EOR r6 r6 (R r7)
  ; LSR r7 r0 7
  ; EOR r1 r1 (R r7)
  ; LSL r7 r2 25
  ; EOR r1 r1 (R r7)
  ; LSR r7 r2 7
  ; EOR r6 r6 (R r7)
  ; LSL r7 r0 25
  ; EOR r6 r6 (R r7)
  ; EOR r0 r0 (R r1)
  ; EOR r2 r2 (R r6)
  ; MOV r7 (R r11)
  ; MOV r1 (R r10)
  ; MOV r10 (R r0)
  ; MOV r11 (R r4)
  ; MOV r4 (R r12)
  ; MOV r12 (R r3)
  ; LSR r0 r1 17
  ; LSL r3 r4 15
  ; LSR r6 r4 17
  ; EOR r0 r0 (R r3)
  ; LSL r3 r1 15
  ; EOR r6 r6 (R r3)
  ; LSR r3 r1 10
  ; EOR r0 r0 (R r3)
  ; LSL r3 r4 22
  ; EOR r0 r0 (R r3)
  ; LSR r3 r4 10
  ; EOR r6 r6 (R r3)
  ; LSL r3 r1 22
  ; EOR r6 r6 (R r3)
  ; EOR r1 r1 (R r0)
  ; EOR r4 r4 (R r6)
  ; MOV r6 (R r8)
  ; MOV r3 (R r9)
  ; MOV r8 (R r2)
  ; MOV r9 (R r11)
  ; MOV r11 (R r1)
  ; LSR r2 r6 28
  ; LSL r1 r3 4
  ; LSR r0 r3 28
  ; EOR r2 r2 (R r1)
  ; LSL r1 r6 4
  ; EOR r0 r0 (R r1)
  ; LSR r1 r6 19
  ; EOR r2 r2 (R r1)
  ; LSL r1 r3 13
  ; EOR r2 r2 (R r1)
  ; LSR r1 r3 19
  ; EOR r0 r0 (R r1)
  ; LSL r1 r6 13
  ; EOR r0 r0 (R r1)
  ; POP r1
  ; EOR r6 r6 (R r2)
  ; EOR r3 r3 (R r0)
  ; MOV r2 (R r8)
  ; MOV r8 (R r6)
  ; SUB r1 r1 (I 15) ].

(** src/armv6m_lowsize/permutations.S l.219-244 *)
Definition armv6m_S_epilogue : list arm :=
  [ LDRSP r1 1
  ; MOV r0 (R r10)
  ; STR r3 r1 0
  ; MOV r3 (R r8)
  ; MOV r10 (R r2)
  ; STR r3 r1 1
  ; MOV r3 (R r12)
  ; MOV r2 (R r11)
  ; MOV r6 (R r9)
  ; STR r3 r1 5
  ; MOV r3 (R r10)
  ; STR r7 r1 2
  ; STR r6 r1 3
  ; STR r5 r1 4
  ; STR r4 r1 6
  ; STR r2 r1 7
  ; STR r3 r1 8
  ; STR r0 r1 9
  ; ADDSP 3
  ; POP r4
  ; POP r5
  ; POP r6
  ; POP r7
  ; MOV r11 (R r7)
  ; MOV r10 (R r6)
  ; MOV r9 (R r5)
  ; MOV r8 (R r4)
  ; POP r4
  ; POP r5
  ; POP r6
  ; POP r7
  ; POP pc ].
