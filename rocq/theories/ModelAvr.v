(** * ModelAvr.v -- the implementations for AVR.

    avr: src/avr/aead.c (identical to src/opt8/aead.c), hash.c, prf.c and
    prfs.c (ModelOpt8.v with the parameters [avr_hpad] and [avr_dpos]; prf.c
    l.20-22 also loads the key into two variables that are not used, which
    is not modelled); avr_lowsize: src/opt8_lowsize.  The permutation is
    src/avr/permutations.S (AvrCode.v). *)
From Coq Require Import NArith List.
From Verif Require Import Words CMem Asm AsmAvr AvrCode.
Import ListNotations.
Local Open Scope N_scope.

(** A call of P (avr-gcc calling convention): the address of the state in
    r25:r24, the number of rounds in r22 (r23 is not read).  [r]: r0 to r31;
    [f]: carry, T, and the register of the translation. *)
Definition avr_addr (r : list N) : N := N.lor (nth 24 r 0) (shlw 16 (nth 25 r 0) 8).
Definition avr_start (r f : list N) (s : bytes) : mach := Mach (r ++ f) [] (avr_addr r) (map b2n s).
Definition AFUEL := 140%nat.
Definition avr_call (r f : list N) (s : bytes) : option mach := run AFUEL avr_P_prog (avr_start r f s).
(** The state after the call: AvrFacts.v shows that the other registers and
    the address do not matter. *)
Definition avr_regs (nr : N) : list N := repeat 0 22 ++ [nr] ++ repeat 0 9.
Definition avr_P (nr : N) (s : bytes) : bytes :=
  match avr_call (avr_regs nr) [0; 0; 0] s with Some M => map n2b (obj M) | None => [] end.
