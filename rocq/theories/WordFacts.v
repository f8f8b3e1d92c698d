(** * WordFacts.v -- facts about words, bits and bytes. *)
From Coq Require Import Arith NArith List Lia Bool Init.Byte Strings.Byte.
From Coq Require Import ZifyBool ZifyNat ZifyN.
From Verif Require Import Words.
Import ListNotations.
Local Open Scope N_scope.

Global Arguments N.add : simpl never.
Global Arguments N.sub : simpl never.
Global Arguments N.mul : simpl never.
Global Arguments N.div : simpl never.
Global Arguments N.modulo : simpl never.
Global Arguments N.pow : simpl never.
Global Arguments N.ones : simpl never.
Global Arguments N.shiftl : simpl never.
Global Arguments N.shiftr : simpl never.
Global Arguments N.land : simpl never.
Global Arguments N.lor : simpl never.
Global Arguments N.lxor : simpl never.
Global Arguments N.testbit : simpl never.
Global Arguments N.ltb : simpl never.
Global Arguments N.leb : simpl never.
Global Arguments N.eqb : simpl never.
Global Arguments N.of_nat : simpl never.
Global Arguments N.to_nat : simpl never.
Global Arguments b2n : simpl never.
Global Arguments n2b : simpl never.
Global Arguments trunc : simpl never.

(** ** Bits of the operations *)

Lemma testbit_ones w i : N.testbit (N.ones w) i = (i <? w).
Proof.
  destruct (N.ltb_spec i w) as [H|H].
  - apply N.ones_spec_low; exact H.
  - apply N.ones_spec_high; exact H.
Qed.

Lemma testbit_trunc w x i : N.testbit (trunc w x) i = (i <? w) && N.testbit x i.
Proof.
  unfold trunc. rewrite N.land_spec, testbit_ones. apply andb_comm.
Qed.

Lemma testbit_notw w x i : N.testbit (notw w x) i = xorb (N.testbit x i) (i <? w).
Proof. unfold notw. rewrite N.lxor_spec, testbit_ones. reflexivity. Qed.

Lemma testbit_shiftl x n i :
  N.testbit (N.shiftl x n) i = (n <=? i) && N.testbit x (i - n).
Proof.
  destruct (N.leb_spec n i) as [H|H].
  - rewrite N.shiftl_spec_high' by exact H. reflexivity.
  - rewrite N.shiftl_spec_low by exact H. reflexivity.
Qed.

Lemma testbit_shiftr x n i : N.testbit (N.shiftr x n) i = N.testbit x (i + n).
Proof. apply N.shiftr_spec'. Qed.

Lemma testbit_shlw w x n i :
  N.testbit (shlw w x n) i = (i <? w) && ((n <=? i) && N.testbit x (i - n)).
Proof. unfold shlw. rewrite testbit_trunc, testbit_shiftl. reflexivity. Qed.

Lemma testbit_shrw x n i : N.testbit (shrw x n) i = N.testbit x (i + n).
Proof. apply N.shiftr_spec'. Qed.

Lemma fits_testbit w x : fits w x <-> forall i, w <= i -> N.testbit x i = false.
Proof.
  unfold fits. split.
  - intros H i Hi. destruct (N.eq_dec x 0) as [->|Hx]; [apply N.bits_0|].
    apply N.bits_above_log2. apply N.log2_lt_pow2 in H; lia.
  - intros H. destruct (N.eq_dec x 0) as [->|Hx].
    + apply N.neq_0_lt_0, N.pow_nonzero; lia.
    + apply N.log2_lt_pow2; [lia|].
      destruct (N.lt_ge_cases (N.log2 x) w) as [?|Hge]; [assumption|].
      specialize (H _ Hge). rewrite N.bit_log2 in H by assumption. discriminate.
Qed.

Lemma fits_bit w x i : fits w x -> N.testbit x i = (i <? w) && N.testbit x i.
Proof.
  intros H. destruct (N.ltb_spec i w) as [Hi|Hi]; [reflexivity|].
  rewrite (proj1 (fits_testbit w x) H i Hi). reflexivity.
Qed.

Lemma fits_bit_high w x i : fits w x -> w <= i -> N.testbit x i = false.
Proof. intros H. apply fits_testbit. exact H. Qed.

Lemma fits_0 w : fits w 0.
Proof. apply fits_testbit. intros. apply N.bits_0. Qed.

Lemma fits_trunc w x : fits w (trunc w x).
Proof. apply fits_testbit. intros i Hi. rewrite testbit_trunc.
  destruct (N.ltb_spec i w); [lia|reflexivity]. Qed.

Lemma fits_lxor w x y : fits w x -> fits w y -> fits w (N.lxor x y).
Proof. rewrite !fits_testbit. intros Hx Hy i Hi.
  rewrite N.lxor_spec, Hx, Hy by exact Hi. reflexivity. Qed.

Lemma fits_lor w x y : fits w x -> fits w y -> fits w (N.lor x y).
Proof. rewrite !fits_testbit. intros Hx Hy i Hi.
  rewrite N.lor_spec, Hx, Hy by exact Hi. reflexivity. Qed.

Lemma fits_land w x y : fits w x -> fits w (N.land x y).
Proof. rewrite !fits_testbit. intros Hx i Hi.
  rewrite N.land_spec, Hx by exact Hi. reflexivity. Qed.

Lemma fits_notw w x : fits w x -> fits w (notw w x).
Proof. rewrite !fits_testbit. intros Hx i Hi.
  rewrite testbit_notw, Hx by exact Hi. destruct (N.ltb_spec i w); [lia|reflexivity]. Qed.

Lemma fits_shlw w x n : fits w (shlw w x n).
Proof. apply fits_trunc. Qed.

Lemma fits_shrw w x n : fits w x -> fits w (shrw x n).
Proof. rewrite !fits_testbit. intros Hx i Hi.
  rewrite testbit_shrw, Hx by lia. reflexivity. Qed.

Lemma fits_le w w' x : w <= w' -> fits w x -> fits w' x.
Proof. rewrite !fits_testbit. intros Hw Hx i Hi. apply Hx. lia. Qed.

Lemma trunc_fits w x : fits w x -> trunc w x = x.
Proof.
  intros H. apply N.bits_inj; intro i. rewrite testbit_trunc.
  symmetry. apply fits_bit. exact H.
Qed.

Lemma trunc_mod w x : trunc w x = x mod 2 ^ w.
Proof. apply N.land_ones. Qed.

(** Equality of words from the bits below the width. *)
Lemma fits_ext w x y :
  fits w x -> fits w y ->
  (forall i, i < w -> N.testbit x i = N.testbit y i) -> x = y.
Proof.
  intros Hx Hy H. apply N.bits_inj; intro i.
  destruct (N.lt_ge_cases i w) as [Hi|Hi]; [apply H, Hi|].
  rewrite (fits_bit_high w x), (fits_bit_high w y) by assumption. reflexivity.
Qed.

Lemma testbit_of_bits n f i :
  N.testbit (of_bits n f) i = (i <? N.of_nat n) && f i.
Proof.
  induction n as [|n IH]; cbn [of_bits].
  - rewrite N.bits_0. destruct (N.ltb_spec i (N.of_nat 0)); [lia|reflexivity].
  - rewrite N.lor_spec, IH, testbit_shiftl.
    destruct (N.eq_dec i (N.of_nat n)) as [->|Hne].
    + rewrite N.sub_diag.
      replace (N.of_nat n <? N.of_nat n) with false by (symmetry; apply N.ltb_ge; lia).
      replace (N.of_nat n <=? N.of_nat n) with true by (symmetry; apply N.leb_le; lia).
      replace (N.of_nat n <? N.of_nat (S n)) with true by (symmetry; apply N.ltb_lt; lia).
      destruct (f (N.of_nat n)); reflexivity.
    + assert (E : (N.of_nat n <=? i) &&
        N.testbit (if f (N.of_nat n) then 1 else 0) (i - N.of_nat n) = false).
      { destruct (N.leb_spec (N.of_nat n) i) as [Hle|Hle]; [|reflexivity].
        destruct (f (N.of_nat n)); [|apply N.bits_0].
        apply N.bits_above_log2. change (N.log2 1) with 0. lia. }
      rewrite E, orb_false_r.
      destruct (N.ltb_spec i (N.of_nat n)), (N.ltb_spec i (N.of_nat (S n)));
        try reflexivity; lia.
Qed.

Lemma fits_of_bits n f : fits (N.of_nat n) (of_bits n f).
Proof. apply fits_testbit. intros i Hi. rewrite testbit_of_bits.
  destruct (N.ltb_spec i (N.of_nat n)); [lia|reflexivity]. Qed.

(** ** Bytes *)

Lemma b2n_lt b : b2n b < 256.
Proof. pose proof (Byte.to_N_bounded b). unfold b2n. lia. Qed.

Lemma fits_b2n b : fits 8 (b2n b).
Proof. unfold fits. change (2 ^ 8) with 256. apply b2n_lt. Qed.

Lemma b2n_n2b x : b2n (n2b x) = trunc 8 x.
Proof.
  unfold n2b, b2n.
  destruct (Byte.of_N (trunc 8 x)) as [b|] eqn:E.
  - apply Byte.to_of_N. exact E.
  - apply Byte.of_N_None_iff in E. pose proof (fits_trunc 8 x) as H.
    unfold fits in H. change (2 ^ 8) with 256 in H. lia.
Qed.

Lemma n2b_b2n b : n2b (b2n b) = b.
Proof.
  unfold n2b. rewrite trunc_fits by apply fits_b2n.
  unfold b2n. rewrite Byte.of_to_N. reflexivity.
Qed.

Lemma b2n_inj a b : b2n a = b2n b -> a = b.
Proof. intros H. rewrite <- (n2b_b2n a), <- (n2b_b2n b), H. reflexivity. Qed.

(** Bit [i] of a byte. *)
Definition bbit (b : byte) (i : N) : bool := N.testbit (b2n b) i.

Lemma byte_ext a b : (forall i, i < 8 -> bbit a i = bbit b i) -> a = b.
Proof.
  intros H. apply b2n_inj. apply (fits_ext 8); auto using fits_b2n.
Qed.

Lemma bbit_n2b x i : bbit (n2b x) i = (i <? 8) && N.testbit x i.
Proof. unfold bbit. rewrite b2n_n2b. apply testbit_trunc. Qed.

Lemma bbit_high b i : 8 <= i -> bbit b i = false.
Proof. apply fits_bit_high, fits_b2n. Qed.

Lemma bbit_x00 i : bbit x00 i = false.
Proof. apply N.bits_0. Qed.

Lemma bbit_bxor a b i : bbit (bxor a b) i = xorb (bbit a i) (bbit b i).
Proof.
  unfold bxor. rewrite bbit_n2b, N.lxor_spec. fold (bbit a i) (bbit b i).
  destruct (N.ltb_spec i 8) as [H|H]; [reflexivity|].
  rewrite !bbit_high by exact H. reflexivity.
Qed.

Lemma bbit_band a b i : bbit (band a b) i = bbit a i && bbit b i.
Proof.
  unfold band. rewrite bbit_n2b, N.land_spec. fold (bbit a i) (bbit b i).
  destruct (N.ltb_spec i 8) as [H|H]; [reflexivity|].
  rewrite !bbit_high by exact H. reflexivity.
Qed.

Lemma bbit_bor a b i : bbit (bor a b) i = bbit a i || bbit b i.
Proof.
  unfold bor. rewrite bbit_n2b, N.lor_spec. fold (bbit a i) (bbit b i).
  destruct (N.ltb_spec i 8) as [H|H]; [reflexivity|].
  rewrite !bbit_high by exact H. reflexivity.
Qed.

Lemma bbit_bnot a i : i < 8 -> bbit (bnot a) i = negb (bbit a i).
Proof.
  intros H. unfold bnot. rewrite bbit_n2b, testbit_notw. fold (bbit a i).
  destruct (N.ltb_spec i 8); [|lia]. destruct (bbit a i); reflexivity.
Qed.

Lemma bxor_x00_r a : bxor a x00 = a.
Proof. apply byte_ext. intros i _. rewrite bbit_bxor, bbit_x00. apply xorb_false_r. Qed.

Lemma bxor_x00_l a : bxor x00 a = a.
Proof. apply byte_ext. intros i _. rewrite bbit_bxor, bbit_x00. destruct (bbit a i); reflexivity. Qed.

Lemma bxor_comm a b : bxor a b = bxor b a.
Proof. unfold bxor. rewrite N.lxor_comm. reflexivity. Qed.

Lemma bxor_assoc a b c : bxor (bxor a b) c = bxor a (bxor b c).
Proof. apply byte_ext. intros i _. rewrite !bbit_bxor. apply xorb_assoc_reverse. Qed.

Lemma bxor_self a : bxor a a = x00.
Proof. apply byte_ext. intros i _. rewrite bbit_bxor, bbit_x00. apply xorb_nilpotent. Qed.

Lemma bxor_cancel a b : bxor (bxor a b) b = a.
Proof. rewrite bxor_assoc, bxor_self. apply bxor_x00_r. Qed.

Lemma bxor_zero_eq a b : bxor a b = x00 <-> a = b.
Proof.
  split; intros H; [|subst; apply bxor_self].
  rewrite <- (bxor_x00_l b), <- H, bxor_cancel. reflexivity.
Qed.

(** ** Little-endian numbers and byte strings *)

Lemma length_le_bytes n x : length (le_bytes n x) = n.
Proof. revert x; induction n as [|n IH]; intros x; cbn [le_bytes length]; auto. Qed.

Lemma nth_le_bytes n x j :
  (j < n)%nat -> nth j (le_bytes n x) x00 = n2b (N.shiftr x (8 * N.of_nat j)).
Proof.
  revert x j; induction n as [|n IH]; intros x j Hj; [lia|].
  destruct j as [|j]; cbn [le_bytes nth].
  - rewrite N.shiftr_0_r. reflexivity.
  - rewrite IH by lia. rewrite N.shiftr_shiftr. f_equal. f_equal. lia.
Qed.

Lemma testbit_le_num l i :
  N.testbit (le_num l) i = bbit (nth (N.to_nat (i / 8)) l x00) (i mod 8).
Proof.
  revert i; induction l as [|b l IH]; intros i; cbn [le_num].
  - rewrite N.bits_0. destruct (N.to_nat (i / 8)); cbn [nth]; symmetry; apply bbit_x00.
  - rewrite N.lor_spec, testbit_shiftl. fold (bbit b i).
    destruct (N.leb_spec 8 i) as [H|H].
    + rewrite bbit_high by exact H. cbn [orb andb]. rewrite IH.
      replace (i / 8) with (1 + (i - 8) / 8).
      2:{ rewrite <- N.div_add_l by lia. f_equal. lia. }
      replace (i mod 8) with ((i - 8) mod 8).
      2:{ replace i with (i - 8 + 1 * 8) at 2 by lia.
          rewrite N.mod_add by lia. reflexivity. }
      replace (N.to_nat (1 + (i - 8) / 8)) with (S (N.to_nat ((i - 8) / 8))) by lia.
      reflexivity.
    + cbn [andb]. rewrite orb_false_r. rewrite N.div_small, N.mod_small by exact H.
      reflexivity.
Qed.

Lemma fits_le_num l : fits (8 * N.of_nat (length l)) (le_num l).
Proof.
  apply fits_testbit. intros i Hi. rewrite testbit_le_num.
  rewrite nth_overflow; [apply bbit_x00|].
  assert (N.of_nat (length l) <= i / 8) by (apply N.div_le_lower_bound; lia). lia.
Qed.

Lemma bytes_ext (l1 l2 : bytes) :
  length l1 = length l2 ->
  (forall j, (j < length l1)%nat -> nth j l1 x00 = nth j l2 x00) -> l1 = l2.
Proof. intros H1 H2. apply (nth_ext l1 l2 x00 x00 H1 H2). Qed.

Lemma le_num_le_bytes n x : le_num (le_bytes n x) = trunc (8 * N.of_nat n) x.
Proof.
  apply N.bits_inj; intro i. rewrite testbit_le_num, testbit_trunc.
  destruct (N.ltb_spec i (8 * N.of_nat n)) as [H|H].
  - assert (i / 8 < N.of_nat n) by (apply N.div_lt_upper_bound; lia).
    rewrite nth_le_bytes by lia. rewrite bbit_n2b, testbit_shiftr.
    pose proof (N.mod_lt i 8). destruct (N.ltb_spec (i mod 8) 8); [|lia].
    cbn [andb]. f_equal. rewrite N2Nat.id. pose proof (N.div_mod' i 8). lia.
  - assert (N.of_nat n <= i / 8) by (apply N.div_le_lower_bound; lia).
    rewrite nth_overflow by (rewrite length_le_bytes; lia). apply bbit_x00.
Qed.

Lemma le_bytes_le_num n l : length l = n -> le_bytes n (le_num l) = l.
Proof.
  intros Hl. apply bytes_ext; rewrite length_le_bytes; [auto|].
  intros j Hj. rewrite nth_le_bytes by exact Hj. apply byte_ext. intros i Hi.
  rewrite bbit_n2b, testbit_shiftr, testbit_le_num.
  destruct (N.ltb_spec i 8); [|lia]. cbn [andb].
  replace (i + 8 * N.of_nat j) with (i + N.of_nat j * 8) by lia.
  rewrite N.div_add, N.mod_add, N.div_small, N.mod_small by lia.
  rewrite N.add_0_l, Nat2N.id. reflexivity.
Qed.

Lemma bbit_nth_le_bytes n x j i :
  i < 8 -> (j < n)%nat ->
  bbit (nth j (le_bytes n x) x00) i = N.testbit x (8 * N.of_nat j + i).
Proof.
  intros Hi Hj. rewrite nth_le_bytes by exact Hj.
  rewrite bbit_n2b, testbit_shiftr. destruct (N.ltb_spec i 8); [|lia].
  cbn [andb]. f_equal. lia.
Qed.

Lemma le_bytes_inj n x y :
  fits (8 * N.of_nat n) x -> fits (8 * N.of_nat n) y ->
  le_bytes n x = le_bytes n y -> x = y.
Proof.
  intros Hx Hy H. rewrite <- (trunc_fits _ _ Hx), <- (trunc_fits _ _ Hy).
  rewrite <- !le_num_le_bytes, H. reflexivity.
Qed.

Lemma le_num_inj l1 l2 :
  length l1 = length l2 -> le_num l1 = le_num l2 -> l1 = l2.
Proof.
  intros Hl H. rewrite <- (le_bytes_le_num (length l1) l1), H by reflexivity.
  apply le_bytes_le_num. auto.
Qed.

Lemma le_bytes_0 n : le_bytes n 0 = zeros n.
Proof.
  induction n as [|n IH]; [reflexivity|]. unfold zeros in *. cbn [le_bytes repeat].
  rewrite N.shiftr_0_l, IH. reflexivity.
Qed.

Lemma le_num_zeros n : le_num (zeros n) = 0.
Proof.
  apply N.bits_inj; intro i. rewrite testbit_le_num, N.bits_0.
  unfold zeros. rewrite nth_repeat. apply bbit_x00.
Qed.

Lemma length_zeros n : length (zeros n) = n.
Proof. apply repeat_length. Qed.

Lemma nth_zeros n j : nth j (zeros n) x00 = x00.
Proof. apply nth_repeat. Qed.

Lemma le_num_app_zeros l n : le_num (l ++ zeros n) = le_num l.
Proof.
  apply N.bits_inj; intro i. rewrite !testbit_le_num.
  destruct (Nat.lt_ge_cases (N.to_nat (i / 8)) (length l)) as [H|H].
  - rewrite app_nth1 by exact H. reflexivity.
  - rewrite app_nth2, nth_zeros by exact H. rewrite nth_overflow by exact H. reflexivity.
Qed.
