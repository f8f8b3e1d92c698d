(** * ModelMaskCode.v -- the masked permutation of
    crypto_aead/asconaead128/protected_bi32_armv6_leveled once more, with
    every value it computes.

    A [step] transforms the masked state and lists the values its
    instructions write to a register or to memory: the results of all
    logical operations, and those of the shifter of the ARM instructions
    with a rotated operand, in program order.  [MaskProbe.v] proves that
    the states are those of ModelMask.v.

    Simplification: a value is what one instruction computes; effects of two
    values on one another inside a processor (such as the bits flipped when
    one value replaces another in a register) are not modelled. *)
From Coq Require Import Bool Arith NArith ZArith List.
From Verif Require Import Words CMem ModelCommon ModelWords ModelMask.
Import ListNotations.
Local Open Scope N_scope.

Definition step := mstate -> list N * mstate.
Definition skip : step := fun s => ([], s).
Definition andthen (f g : step) : step := fun s =>
  let r := f s in let r' := g (snd r) in (fst r ++ fst r', snd r').
Definition run (l : list step) : step := fold_right andthen skip l.

(** [s.x[k].s[d].w[i]] *)
Definition xget (s : mstate) (k d i : nat) : N := wget (getw s k) d i.
Definition xset (s : mstate) (k d i : nat) (v : N) : mstate := setw s k (wset (getw s k) d i v).

(** loading the state, whose shares are values in memory *)
Definition t_load (ns : nat) : step := fun s =>
  (flat_map (fun k => flat_map (fun d => [xget s k d 0; xget s k d 1]) (seq 0 ns)) (seq 0 6), s).

(** round.h l.70, l.72: a constant added to a half of share 0 of x2 *)
Definition t_const (i : nat) (v : N) : step := fun s =>
  ([v; N.lxor (xget s 2 0 i) v], xxor s 2 0 i v).

(** [s->x[k].s[d].w[i] ^= s->x[j].s[d].w[i]] *)
Definition t_eor (k j d i : nat) : step := fun s =>
  ([N.lxor (xget s k d i) (xget s j d i)], xxor s k d i (xget s j d i)).
(** round.h l.8-13 *)
Definition t_AFFINE1 (i d : nat) : step := run [t_eor 2 1 d i; t_eor 0 4 d i; t_eor 4 3 d i].
(** round.h l.15-21 *)
Definition t_AFFINE2 (i d : nat) : step := run [t_eor 2 5 d i; t_eor 1 0 d i; t_eor 0 4 d i; t_eor 3 2 d i].
(** round.h l.37 *)
Definition t_not (i : nat) : step := fun s =>
  ([notw 32 (xget s 2 0 i)], xset s 2 0 i (notw 32 (xget s 2 0 i))).

(** One line of word.h l.51-94: [and], [bic] or [orr], then [eor].  The
    first operand is share [j] of [a], or of [b] if [sw]; the second one,
    rotated, is share [k] of [b], or of [a] if [sw]; the result is added to
    share [d] of [c]. *)
Inductive gop := And (d : nat) (sw : bool) (j k : nat) (imm : Z)
  | Bic (d : nat) (sw : bool) (j k : nat) (imm : Z)
  | Orr (d : nat) (sw : bool) (j k : nat) (imm : Z).
Definition g_dst (g : gop) : nat := match g with And d _ _ _ _ | Bic d _ _ _ _ | Orr d _ _ _ _ => d end.
Definition g_sw (g : gop) : bool := match g with And _ w _ _ _ | Bic _ w _ _ _ | Orr _ w _ _ _ => w end.
Definition g_j (g : gop) : nat := match g with And _ _ j _ _ | Bic _ _ j _ _ | Orr _ _ j _ _ => j end.
Definition g_k (g : gop) : nat := match g with And _ _ _ k _ | Bic _ _ _ k _ | Orr _ _ _ k _ => k end.
Definition g_imm (g : gop) : Z := match g with And _ _ _ _ z | Bic _ _ _ _ z | Orr _ _ _ _ z => z end.
Definition g_op (g : gop) (x y : N) : N :=
  match g with And _ _ _ _ _ => N.land x y | Bic _ _ _ _ _ => N.land x (notw 32 y) | Orr _ _ _ _ _ => N.lor x y end.
(** asm.h l.31-53: the output of the shifter, [tmp] and [ce] *)
Definition t_gop (c a b i : nat) (g : gop) : step := fun s =>
  let '(a, b) := if g_sw g then (b, a) else (a, b) in
  let r := ROR32 (xget s b (g_k g) i) (ROT (g_imm g)) in
  let tmp := g_op g (xget s a (g_j g) i) r in
  let ce := N.lxor tmp (xget s c (g_dst g) i) in
  ([r; tmp; ce], xset s c (g_dst g) i ce).
(** word.h l.51-94 *)
Definition gate (ns : nat) : list gop :=
  match ns with
  | 1%nat => [Bic 0 false 0 0 0]
  | 2%nat => [Bic 0 false 0 0 0; Bic 1 false 1 0 (0 - 1); And 1 false 1 1 0; And 0 false 0 1 (1 - 0)]
  | 3%nat => [And 0 true 0 1 (1 - 0); Bic 0 false 0 0 0; And 0 true 0 2 (2 - 0);
              And 1 true 1 2 (2 - 1); Bic 1 false 1 1 0; And 1 true 1 0 (0 - 1);
              Bic 2 true 2 0 (0 - 2); Orr 2 false 2 2 0; And 2 true 2 1 (1 - 2)]
  | 4%nat => [Bic 0 false 0 0 0; Bic 1 false 1 0 (0 - 1); Bic 2 false 2 0 (0 - 2); Bic 3 false 3 0 (0 - 3);
              And 1 false 1 1 0; And 2 false 2 1 (1 - 2); And 3 false 3 1 (1 - 3); And 0 false 0 1 (1 - 0);
              And 2 false 2 2 0; And 3 false 3 2 (2 - 3); And 0 false 0 2 (2 - 0); And 1 false 1 2 (2 - 1);
              And 3 false 3 3 0; And 0 false 0 3 (3 - 0); And 1 false 1 3 (3 - 1); And 2 false 2 3 (3 - 2)]
  | _ => []
  end%Z.
Definition t_MXORBIC (c a b i ns : nat) : step := run (map (t_gop c a b i) (gate ns)).

(** round.h l.23-42 *)
Definition t_SBOX (i ns : nat) : step := run
  [ (* affine layer 1 *)
    run (map (t_AFFINE1 i) (seq 0 ns));
    (* Toffoli gates *)
    t_MXORBIC 5 4 3 i ns;
    t_MXORBIC 4 1 0 i ns;
    t_MXORBIC 1 3 2 i ns;
    t_MXORBIC 3 0 4 i ns;
    t_MXORBIC 0 2 1 i ns;
    (* affine layer 2 *)
    run (t_AFFINE2 i 0 :: t_not i :: map (t_AFFINE2 i) (seq 1 (ns - 1)))].

(** word.h l.139-145 for word 5 and value 0: share 0 becomes 0, the other
    ones are rotated (word.h l.111-119) and added to share 0 (word.h
    l.121-129) *)
Definition mix_rot (d : nat) : N := match d with 1%nat => 7 | 2%nat => 13 | _ => 29 end.
Definition t_zero (i : nat) : step := fun s => ([0], xset s 5 0 i 0).
Definition t_mix (d i : nat) : step := fun s =>
  let v := ROR32 (xget s 5 d i) (mix_rot d) in ([v], xset s 5 d i v).
Definition t_remask (d i : nat) : step := fun s =>
  let r := ROR32 (xget s 5 d i) (ROT (Z.of_nat d)) in
  ([r; N.lxor (xget s 5 0 i) r], xxor s 5 0 i r).
Definition t_MREUSE (ns : nat) : step := run
  ([t_zero 0; t_zero 1]
   ++ flat_map (fun d => [t_mix d 0; t_mix d 1]) (seq 1 (ns - 1))
   ++ flat_map (fun d => [t_remask d 0; t_remask d 1]) (seq 1 (ns - 1))).

(** round.h l.44-67: the rotated operands and the halves [t], then the
    rotated halves and the new values of the state *)
Definition t_LINEAR (d : nat) : step := fun s =>
  let g k i := xget s k d i in
  let r00 := ROR32 (g 0%nat 1%nat) 4 in let t00 := N.lxor (g 0%nat 0%nat) r00 in
  let r01 := ROR32 (g 0%nat 0%nat) 5 in let t01 := N.lxor (g 0%nat 1%nat) r01 in
  let r10 := ROR32 (g 1%nat 0%nat) 11 in let t10 := N.lxor (g 1%nat 0%nat) r10 in
  let r11 := ROR32 (g 1%nat 1%nat) 11 in let t11 := N.lxor (g 1%nat 1%nat) r11 in
  let r20 := ROR32 (g 2%nat 1%nat) 2 in let t20 := N.lxor (g 2%nat 0%nat) r20 in
  let r21 := ROR32 (g 2%nat 0%nat) 3 in let t21 := N.lxor (g 2%nat 1%nat) r21 in
  let r30 := ROR32 (g 3%nat 1%nat) 3 in let t30 := N.lxor (g 3%nat 0%nat) r30 in
  let r31 := ROR32 (g 3%nat 0%nat) 4 in let t31 := N.lxor (g 3%nat 1%nat) r31 in
  let r40 := ROR32 (g 4%nat 0%nat) 17 in let t40 := N.lxor (g 4%nat 0%nat) r40 in
  let r41 := ROR32 (g 4%nat 1%nat) 17 in let t41 := N.lxor (g 4%nat 1%nat) r41 in
  let u k i v := [v; N.lxor (g k i) v] in
  ([r00; t00; r01; t01; r10; t10; r11; t11; r20; t20; r21; t21; r30; t30; r31; t31; r40; t40; r41; t41]
   ++ u 0%nat 0%nat (ROR32 t01 9) ++ u 0%nat 1%nat (ROR32 t00 10)
   ++ u 1%nat 0%nat (ROR32 t11 19) ++ u 1%nat 1%nat (ROR32 t10 20)
   ++ u 2%nat 0%nat (ROR32 t21 0) ++ u 2%nat 1%nat (ROR32 t20 1)
   ++ u 3%nat 0%nat (ROR32 t30 5) ++ u 3%nat 1%nat (ROR32 t31 5)
   ++ u 4%nat 0%nat (ROR32 t41 3) ++ u 4%nat 1%nat (ROR32 t40 4),
   LINEAR s d).

(** round.h l.69-85 *)
Definition t_ROUND (co ce : N) (ns : nat) : step := run
  [ t_const 0 ce;
    t_SBOX 0 ns;
    t_const 1 co;
    t_SBOX 1 ns;
    t_MREUSE ns;
    run (map t_LINEAR (rev (seq 0 ns)))].

(** round.h l.91-97, permutations.c l.6-20: [nr] rounds *)
Definition t_MP (nr ns : nat) : step := run
  (t_load ns :: map (fun i => t_ROUND (nth (2 * i + 1) mconstants 0) (nth (2 * i) mconstants 0) ns) (seq (12 - nr) nr)).
