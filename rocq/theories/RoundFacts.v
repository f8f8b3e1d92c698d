(** * RoundFacts.v -- bit-level facts about the Ascon round of the specification. *)
From Coq Require Import Arith NArith List Lia Bool Init.Byte.
From Coq Require Import ZifyBool ZifyNat ZifyN.
From Verif Require Import Words WordFacts Spec SpecFacts.
Import ListNotations.
Local Open Scope N_scope.

(** The S-box in algebraic form on five bits. *)
Definition sb0 (a b c d e : bool) := let a := xorb a e in let e := xorb e d in let c := xorb c b in
  xorb (xorb a (negb b && c)) (xorb e (negb a && b)).
Definition sb1 (a b c d e : bool) := let a := xorb a e in let e := xorb e d in let c := xorb c b in
  xorb (xorb b (negb c && d)) (xorb a (negb b && c)).
Definition sb2 (a b c d e : bool) := let a := xorb a e in let e := xorb e d in let c := xorb c b in
  negb (xorb c (negb d && e)).
Definition sb3 (a b c d e : bool) := let a := xorb a e in let e := xorb e d in let c := xorb c b in
  xorb (xorb d (negb e && a)) (xorb c (negb d && e)).
Definition sb4 (a b c d e : bool) := let a := xorb a e in let e := xorb e d in let c := xorb c b in
  xorb e (negb a && b).

Lemma sbox_bits (a b c d e : bool) :
  forall v, v = bitval a 16 + bitval b 8 + bitval c 4 + bitval d 2 + bitval e 1 ->
  N.testbit (sbox v) 4 = sb0 a b c d e /\ N.testbit (sbox v) 3 = sb1 a b c d e /\
  N.testbit (sbox v) 2 = sb2 a b c d e /\ N.testbit (sbox v) 1 = sb3 a b c d e /\
  N.testbit (sbox v) 0 = sb4 a b c d e.
Proof. intros v ->. destruct a, b, c, d, e; vm_compute; auto. Qed.

Section PSBits.
Variables (s : state) (i : N).
Let a := N.testbit (X0 s) i.
Let b := N.testbit (X1 s) i.
Let c := N.testbit (X2 s) i.
Let d := N.testbit (X3 s) i.
Let e := N.testbit (X4 s) i.

Lemma pS_bit0 : N.testbit (X0 (pS s)) i = (i <? 64) && sb0 a b c d e.
Proof. unfold pS; cbn [X0 X1 X2 X3 X4]. rewrite testbit_of_bits. f_equal.
  apply (sbox_bits a b c d e (column s i) eq_refl). Qed.
Lemma pS_bit1 : N.testbit (X1 (pS s)) i = (i <? 64) && sb1 a b c d e.
Proof. unfold pS; cbn [X0 X1 X2 X3 X4]. rewrite testbit_of_bits. f_equal.
  apply (sbox_bits a b c d e (column s i) eq_refl). Qed.
Lemma pS_bit2 : N.testbit (X2 (pS s)) i = (i <? 64) && sb2 a b c d e.
Proof. unfold pS; cbn [X0 X1 X2 X3 X4]. rewrite testbit_of_bits. f_equal.
  apply (sbox_bits a b c d e (column s i) eq_refl). Qed.
Lemma pS_bit3 : N.testbit (X3 (pS s)) i = (i <? 64) && sb3 a b c d e.
Proof. unfold pS; cbn [X0 X1 X2 X3 X4]. rewrite testbit_of_bits. f_equal.
  apply (sbox_bits a b c d e (column s i) eq_refl). Qed.
Lemma pS_bit4 : N.testbit (X4 (pS s)) i = (i <? 64) && sb4 a b c d e.
Proof. unfold pS; cbn [X0 X1 X2 X3 X4]. rewrite testbit_of_bits. f_equal.
  apply (sbox_bits a b c d e (column s i) eq_refl). Qed.
End PSBits.

(** ** Rotation *)

Lemma testbit_rotr x r i : N.testbit (rotr x r) i = (i <? 64) && N.testbit x ((i + r) mod 64).
Proof. unfold rotr. rewrite testbit_of_bits. reflexivity. Qed.

Lemma fits_rotr x r : fits 64 (rotr x r).
Proof. apply (fits_of_bits 64). Qed.

Lemma rotr_lxor x y r : rotr (N.lxor x y) r = N.lxor (rotr x r) (rotr y r).
Proof.
  apply N.bits_inj; intro i. rewrite N.lxor_spec, !testbit_rotr, N.lxor_spec.
  destruct (i <? 64); reflexivity.
Qed.

Lemma rotr_rotr x a b : rotr (rotr x a) b = rotr x (a + b).
Proof.
  apply N.bits_inj; intro i. rewrite !testbit_rotr. f_equal.
  assert (H : (i + b) mod 64 < 64) by (apply N.mod_lt; lia).
  apply N.ltb_lt in H. rewrite H. cbn [andb]. f_equal.
  rewrite N.add_mod_idemp_l by lia. f_equal. lia.
Qed.

Lemma rotr_notw x r : rotr (notw 64 x) r = notw 64 (rotr x r).
Proof.
  apply N.bits_inj; intro i. rewrite testbit_notw, !testbit_rotr, testbit_notw.
  assert (H : (i + r) mod 64 < 64) by (apply N.mod_lt; lia).
  apply N.ltb_lt in H. rewrite H.
  destruct (i <? 64); [reflexivity|reflexivity].
Qed.

Lemma rotr_mod x r : rotr x (r mod 64) = rotr x r.
Proof.
  apply N.bits_inj; intro i. rewrite !testbit_rotr. f_equal. f_equal.
  apply N.add_mod_idemp_r. lia.
Qed.

Global Opaque rotr of_bits.

(** [x ^ ROR(x ^ ROR(x, r2 - r1), r1)] is [sigma x r1 r2]. *)
Lemma sigma_two x r1 r2 d : (r1 + d) mod 64 = r2 mod 64 ->
  N.lxor x (rotr (N.lxor x (rotr x d)) r1) = sigma x r1 r2.
Proof.
  intros H. unfold sigma. rewrite rotr_lxor, rotr_rotr.
  rewrite <- (rotr_mod x (d + r1)), <- (rotr_mod x r2), <- H, (N.add_comm d r1). reflexivity.
Qed.

Lemma sigma_comm x r1 r2 : sigma x r1 r2 = sigma x r2 r1.
Proof. unfold sigma. rewrite (N.lxor_comm (rotr x r1)). reflexivity. Qed.

Lemma sigma_notw x r1 r2 : sigma (notw 64 x) r1 r2 = notw 64 (sigma x r1 r2).
Proof.
  unfold sigma. rewrite !rotr_notw. unfold notw.
  apply N.bits_inj; intro i. rewrite !N.lxor_spec, testbit_ones.
  destruct (N.testbit x i), (N.testbit (rotr x r1) i), (N.testbit (rotr x r2) i), (i <? 64); reflexivity.
Qed.

Lemma fits_sigma x a b : fits 64 x -> fits 64 (sigma x a b).
Proof. intros H. unfold sigma. auto using fits_lxor, fits_rotr. Qed.

(** The shift/or rotation used all over the C code. *)
Definition ror64 (x n : N) : N := N.lor (shrw x n) (shlw 64 x (N.land (64 - n) 63)).

Lemma land63 n : N.land n 63 = n mod 64.
Proof. change 63 with (N.ones 6). rewrite N.land_ones. reflexivity. Qed.

Lemma ror64_rotr x n : fits 64 x -> n < 64 -> ror64 x n = rotr x n.
Proof.
  intros Hx Hn. unfold ror64.
  apply (fits_ext 64); [apply fits_lor; auto using fits_shrw, fits_shlw | apply fits_rotr |].
  intros i Hi. rewrite N.lor_spec, testbit_shrw, testbit_shlw, testbit_rotr, land63.
  replace (i <? 64) with true by (symmetry; apply N.ltb_lt; exact Hi). cbn [andb].
  destruct (N.eq_dec n 0) as [->|Hn0].
  - change ((64 - 0) mod 64) with 0. rewrite N.add_0_r, N.sub_0_r, N.mod_small by exact Hi.
    destruct (N.leb_spec 0 i); [|lia]. cbn [andb]. apply orb_diag.
  - rewrite (N.mod_small (64 - n)) by lia.
    destruct (N.leb_spec (64 - n) i) as [H|H].
    + rewrite (fits_bit_high 64 x (i + n)) by (auto; lia). cbn [orb andb]. f_equal.
      replace (i + n) with (i - (64 - n) + 1 * 64) by lia.
      rewrite N.mod_add, N.mod_small by lia. reflexivity.
    + cbn [andb]. rewrite orb_false_r, N.mod_small by lia. reflexivity.
Qed.

(** ** Recognising a round: substitution outputs, then linear layer. *)

Lemma round_intro s c y0 y1 y2 y3 y4 :
  X0 (pS (pC c s)) = y0 -> X1 (pS (pC c s)) = y1 -> X2 (pS (pC c s)) = y2 ->
  X3 (pS (pC c s)) = y3 -> X4 (pS (pC c s)) = y4 ->
  St (sigma y0 19 28) (sigma y1 61 39) (sigma y2 1 6) (sigma y3 10 17) (sigma y4 7 41)
  = round s c.
Proof. intros <- <- <- <- <-. reflexivity. Qed.

(** Bits of every word expression built from the bitwise operators. *)
Ltac bitblast_rw :=
  rewrite ?pS_bit0, ?pS_bit1, ?pS_bit2, ?pS_bit3, ?pS_bit4;
  repeat first
    [ rewrite N.lxor_spec | rewrite N.land_spec | rewrite N.lor_spec
    | rewrite testbit_notw ].

(** Closes [X_j (pS (pC c s)) = y] for [y] a bitwise expression in the
    words of [s]; hypotheses: every word fits in 64 bits. *)
Lemma bit_const_false x i : fits 64 x -> (i <? 64) = false -> N.testbit x i = false.
Proof. intros Hx Hi. apply (fits_bit_high 64); [exact Hx|]. apply N.ltb_ge. exact Hi. Qed.

Ltac sbox_eq :=
  let i := fresh "i" in
  let E := fresh "E" in
  apply N.bits_inj; intro i;
  bitblast_rw; unfold pC; cbn [X0 X1 X2 X3 X4];
  rewrite ?N.lxor_spec;
  destruct (N.ltb i 64) eqn:E;
  [ repeat match goal with
      | |- context [N.testbit ?x i] => destruct (N.testbit x i)
      end; reflexivity
  | repeat match goal with
      | H : fits 64 ?x |- context [N.testbit ?x i] => rewrite (bit_const_false x i H E)
      end; reflexivity ].
