(** * AsmAvr.v -- the AVR instructions of src/avr/permutations.S.

    Registers 0 to 31 are r0 to r31 (8 bits); 32 is the carry flag, 33 the
    T flag; 34 is used by the translation only.  The other flags are not
    modelled: no instruction of the code reads them.  Semantics as in the
    AVR Instruction Set Manual; data addresses have 16 bits. *)
From Coq Require Import NArith List.
From Verif Require Import Words Asm.
Import ListNotations.
Local Open Scope N_scope.

Definition fC := 32%nat.
Definition fT := 33%nat.
Definition rT := 34%nat.
Definition ZL := 30%nat.
Definition ZH := 31%nat.

Inductive avr :=
| mov (d r : nat) | movw (d r : nat)     (** Rd+1:Rd := Rr+1:Rr *)
| ldi (d : nat) (k : N) | clr (d : nat)
| and_ (d r : nat) | or_ (d r : nat) | eor (d r : nat) | com (d : nat)
| add (d r : nat) | adc (d r : nat) | sub (d r : nat) | subi (d : nat) (k : N)
| lsl (d : nat) | rol (d : nat) | ror (d : nat) | swap (d : nat)
| bst (d b : nat) | bld (d b : nat)
| ldd (d : nat) (q : N)                  (** Rd := memory at Z + q *)
| std (q : N) (r : nat)
| st_Zinc (r : nat)                      (** memory at Z := Rr; Z := Z + 1 *)
| sbiw_Z (k : N)                         (** Z := Z - k *)
| push (r : nat) | pop (d : nat).

Definition Zx : wx := Or (Reg ZL) (Shl 16 (Reg ZH) 8).
Definition setZ : list op := [Set_ ZL (And (Reg rT) (Cst 0xff)); Set_ ZH (Shr (Reg rT) 8); Set_ rT (Cst 0)].
(** From a 9-bit result in [rT]: the register and the carry. *)
Definition res9 (d : nat) : list op := [Set_ d (And (Reg rT) (Cst 0xff)); Set_ fC (Shr (Reg rT) 8); Set_ rT (Cst 0)].
Definition avr_sem (i : avr) : list op :=
  match i with
  | mov d r => [Set_ d (Reg r)]
  | movw d r => [Set_ d (Reg r); Set_ (S d) (Reg (S r))]
  | ldi d k => [Set_ d (Cst k)]
  | clr d => [Set_ d (Xor (Reg d) (Reg d))]
  | and_ d r => [Set_ d (And (Reg d) (Reg r))]
  | or_ d r => [Set_ d (Or (Reg d) (Reg r))]
  | eor d r => [Set_ d (Xor (Reg d) (Reg r))]
  | com d => [Set_ d (Not 8 (Reg d)); Set_ fC (Cst 1)]
  | add d r => Set_ rT (Add 9 (Reg d) (Reg r)) :: res9 d
  | adc d r => Set_ rT (Add 9 (Add 9 (Reg d) (Reg r)) (Reg fC)) :: res9 d
  | sub d r => (* carry = borrow: bit 8 of the 9-bit difference *)
               Set_ rT (Sub 9 (Reg d) (Reg r)) :: res9 d
  | subi d k => Set_ rT (Sub 9 (Reg d) (Cst k)) :: res9 d
  | lsl d => [Set_ rT (Shr (Reg d) 7); Set_ d (Shl 8 (Reg d) 1); Set_ fC (Reg rT)]
  | rol d => [Set_ rT (Shr (Reg d) 7); Set_ d (Or (Shl 8 (Reg d) 1) (Reg fC)); Set_ fC (Reg rT)]
  | ror d => [Set_ rT (And (Reg d) (Cst 1)); Set_ d (Or (Shr (Reg d) 1) (Shl 8 (Reg fC) 7)); Set_ fC (Reg rT)]
  | swap d => [Set_ d (Or (Shl 8 (Reg d) 4) (Shr (Reg d) 4))]
  | bst d b => [Set_ fT (And (Shr (Reg d) (N.of_nat b)) (Cst 1))]
  | bld d b => [Set_ d (Or (And (Reg d) (Cst (0xff - 2 ^ N.of_nat b))) (Shl 8 (Reg fT) (N.of_nat b)))]
  | ldd d q => [LdIdx 16 d Zx q]
  | std q r => [StIdx 16 Zx q r]
  | st_Zinc r => StIdx 16 Zx 0 r :: Set_ rT (Add 16 Zx (Cst 1)) :: setZ
  | sbiw_Z k => (* carry = borrow: complement of the carry of Z + (2^16 - k) *)
                Set_ rT (Add 17 Zx (Cst (2 ^ 16 - k)))
                :: Set_ fC (Xor (Shr (Reg rT) 16) (Cst 1)) :: Set_ rT (And (Reg rT) (Cst 0xffff)) :: setZ
  | push r => [Push r]
  | pop d => [Pop d]
  end.
Definition avr_ops (l : list avr) : list op := flat_map avr_sem l.
