(** * AvrCode.v -- src/avr/permutations.S, macro by macro. *)
From Coq Require Import NArith List.
From Verif Require Import Words Asm AsmAvr.
Import ListNotations.
Local Open Scope nat_scope.

(** l.43-54: dual-byte registers (pairs of registers) *)
Definition reg2 := (nat * nat)%type.
Definition DR0 : reg2 := (2, 3).
Definition DR1 : reg2 := (4, 5).
Definition DR3 : reg2 := (8, 9).
Definition DR4 : reg2 := (10, 11).
Definition DR5 : reg2 := (12, 13).
Definition DR6 : reg2 := (14, 15).
Definition DR7 : reg2 := (16, 17).
Definition DR8 : reg2 := (18, 19).
Definition DR9 : reg2 := (20, 21).
Definition DR10 : reg2 := (22, 23).
Definition DR11 : reg2 := (24, 25).
(** l.62-64: octa-byte registers *)
Definition OR0 : list nat := [2; 3; 4; 5; 6; 7; 8; 9].
Definition OR1 : list nat := [10; 11; 12; 13; 14; 15; 16; 17].
Definition OR2 : list nat := [18; 19; 20; 21; 22; 23; 24; 25].
(** l.68, l.73, l.78, l.83: rotated by 1, 2, 3 bytes to the right, by 3 to
    the left *)
Definition OR1R8 : list nat := [11; 12; 13; 14; 15; 16; 17; 10].
Definition OR1R16 : list nat := [12; 13; 14; 15; 16; 17; 10; 11].
Definition OR1R24 : list nat := [13; 14; 15; 16; 17; 10; 11; 12].
Definition OR1L24 : list nat := [15; 16; 17; 10; 11; 12; 13; 14].
(** l.88-92 *)
Definition OF0 : list N := [0; 1; 2; 3; 4; 5; 6; 7]%N.
Definition OF8 : list N := [8; 9; 10; 11; 12; 13; 14; 15]%N.
Definition OF16 : list N := [16; 17; 18; 19; 20; 21; 22; 23]%N.
Definition OF24 : list N := [24; 25; 26; 27; 28; 29; 30; 31]%N.
Definition OF32 : list N := [32; 33; 34; 35; 36; 37; 38; 39]%N.
(** l.96-105 *)
Definition rstop := 0.
Definition sstop := 26.
Definition zero := 1.
Definition tmp := 26.
Definition rcon := 27.
Definition x2lsb := 18.

(** l.115-117 *)
Definition DMOV (a b : reg2) : list avr := [movw (fst a) (fst b)].
(** l.124-127 *)
Definition DAND (a b : reg2) : list avr := [and_ (fst a) (fst b); and_ (snd a) (snd b)].
(** l.134-137 *)
Definition DIOR (a b : reg2) : list avr := [or_ (fst a) (fst b); or_ (snd a) (snd b)].
(** l.144-147 *)
Definition DXOR (a b : reg2) : list avr := [eor (fst a) (fst b); eor (snd a) (snd b)].
(** l.153-156 *)
Definition DINV (a : reg2) : list avr := [com (fst a); com (snd a)].
(** l.168-171 *)
Definition DLDZO (a : reg2) (b0 b1 : N) : list avr := [ldd (fst a) b0; ldd (snd a) b1].
(** l.179-182 *)
Definition DSTZI (a : reg2) : list avr := [st_Zinc (fst a); st_Zinc (snd a)].
(** l.190-193 *)
Definition DSTZO (a : reg2) (b0 b1 : N) : list avr := [std b0 (fst a); std b1 (snd a)].
(** l.205-211 *)
Definition OMOV (a b : list nat) : list avr :=
  let m i := movw (nth i a 0) (nth i b 0) in [m 0; m 2; m 4; m 6].
(** l.217-227 *)
Definition OROL (a : list nat) : list avr :=
  let r i := nth i a 0 in
  [lsl (r 0); rol (r 1); rol (r 2); rol (r 3); rol (r 4); rol (r 5); rol (r 6); rol (r 7); adc (r 0) zero].
(** l.233-252 *)
Definition OROL2 (a : list nat) : list avr := OROL a ++ OROL a.
(** l.292-303 *)
Definition OROR (a : list nat) : list avr :=
  let r i := nth i a 0 in
  [bst (r 0) 0; ror (r 7); ror (r 6); ror (r 5); ror (r 4); ror (r 3); ror (r 2); ror (r 1); ror (r 0); bld (r 7) 7].
(** l.336-367 *)
Definition OROR3 (a : list nat) : list avr := OROR a ++ OROR a ++ OROR a.
(** l.374-384 *)
Definition OXOR (a b : list nat) : list avr := map (fun t => eor (fst t) (snd t)) (combine a b).
(** l.397-407 *)
Definition OLDZO (a : list nat) (b : list N) : list avr := map (fun t => ldd (fst t) (snd t)) (combine a b).
(** l.416-426 *)
Definition OSTZO (a : list nat) (b : list N) : list avr := map (fun t => std (snd t) (fst t)) (combine a b).

(** l.436-454 *)
Definition PROLOGUE : list avr := map push [0; 2; 3; 4; 5; 6; 7; 8; 9; 10; 11; 12; 13; 14; 15; 16; 17].
(** l.460-479; [ret] ends the program: the theorem shows that the stack
    pointer is as at the entry, so the return address is on top *)
Definition EPILOGUE : list avr := map pop [17; 16; 15; 14; 13; 12; 11; 10; 9; 8; 7; 6; 5; 4; 3; 2; 0].
(** l.484-495 *)
Definition INITVARS : list avr :=
  [movw ZL 24; ldi tmp 0x3C; mov rstop tmp; clr zero; mov rcon 22; swap rcon; sub rcon 22; add rcon rstop].
(** l.500-502 *)
Definition ADDRCON : list avr := [eor x2lsb rcon].
(** l.515-520 *)
Definition LDSLICE : list avr := DLDZO DR0 0 1 ++ DLDZO DR1 8 9 ++ DLDZO DR3 24 25 ++ DLDZO DR4 32 33.
(** l.529-550 *)
Definition SBOXSLICE : list avr :=
  DMOV DR5 DR0 ++ DMOV DR6 DR1 ++ DMOV DR7 DR3 ++
  DXOR DR5 DR4 ++ DXOR DR6 DR8 ++ DXOR DR7 DR4 ++
  DINV DR4 ++ DIOR DR4 DR3 ++ DXOR DR4 DR6 ++
  DXOR DR3 DR8 ++ DIOR DR3 DR6 ++ DXOR DR3 DR5 ++
  DXOR DR8 DR5 ++ DIOR DR8 DR1 ++ DXOR DR8 DR7 ++
  DINV DR5 ++ DAND DR1 DR5 ++ DXOR DR1 DR7 ++
  DIOR DR0 DR7 ++ DXOR DR0 DR6.
(** l.559-568 *)
Definition STSLICE : list avr :=
  DSTZI DR8 ++ DSTZO DR3 6 7 ++ DSTZO DR0 22 23 ++ DSTZO DR1 30 31 ++
  DMOV DR8 DR9 ++ DMOV DR9 DR10 ++ DMOV DR10 DR11 ++ DMOV DR11 DR4.
(** l.575-585: the loop ends when "cpse ZL, sstop" skips the jump back *)
Definition SBOXLAYER : list stm :=
  [ Ops (avr_ops [ldi sstop 8; add sstop ZL])
  ; DoWhile [Ops (avr_ops (LDSLICE ++ SBOXSLICE ++ STSLICE))] (Reg ZL) (Reg sstop)
  ; Ops (avr_ops [sbiw_Z 8]) ].
(** l.596-604 *)
Definition LINSWX0 : list avr :=
  OLDZO OR0 OF0 ++ OMOV OR1 OR0 ++ OROR3 OR1 ++ OXOR OR0 OR1R16 ++ OROR OR1 ++ OXOR OR0 OR1R24 ++ OSTZO OR0 OF0.
(** l.610-618 *)
Definition LINSWX1 : list avr :=
  OLDZO OR0 OF8 ++ OMOV OR1 OR0 ++ OROL OR1 ++ OXOR OR0 OR1L24 ++ OROL2 OR1 ++ OXOR OR0 OR1 ++ OSTZO OR0 OF8.
(** l.625-631 *)
Definition LINSWX2 : list avr := OMOV OR1 OR2 ++ OROR OR2 ++ OXOR OR2 OR1 ++ OROL2 OR1 ++ OXOR OR2 OR1R8.
(** l.637-645 *)
Definition LINSWX3 : list avr :=
  OLDZO OR0 OF24 ++ OMOV OR1 OR0 ++ OROR OR1 ++ OXOR OR0 OR1R16 ++ OROR OR1 ++ OXOR OR0 OR1R8 ++ OSTZO OR0 OF24.
(** l.651-659 *)
Definition LINSWX4 : list avr :=
  OLDZO OR0 OF32 ++ OMOV OR1 OR0 ++ OROR OR1 ++ OXOR OR0 OR1L24 ++ OROL2 OR1 ++ OXOR OR0 OR1R8 ++ OSTZO OR0 OF32.
(** l.664-670 *)
Definition LINLAYER : list avr := LINSWX0 ++ LINSWX1 ++ LINSWX2 ++ LINSWX3 ++ LINSWX4.
(** l.682-694: the function P.  The round loop ends when "cpse rcon, rstop"
    skips the jump back. *)
Definition avr_pre : list stm := [Ops (avr_ops (PROLOGUE ++ INITVARS ++ OLDZO OR2 OF16))].
Definition avr_body : list stm := Ops (avr_ops ADDRCON) :: SBOXLAYER ++ [Ops (avr_ops (LINLAYER ++ [subi rcon 15]))].
Definition avr_post : list stm := [Ops (avr_ops (OSTZO OR2 OF16 ++ EPILOGUE))].
Definition avr_P_prog : list stm := avr_pre ++ [DoWhile avr_body (Reg rcon) (Reg rstop)] ++ avr_post.
