(** * RvWords.v -- words of the four RISC-V implementations: halves, even
    and odd bits, the bit manipulation instructions, unaligned words. *)
From Coq Require Import Bool Arith NArith ZArith List Lia Init.Byte Strings.Byte ZifyBool ZifyNat ZifyN.
From Verif Require Import Words WordFacts Spec SpecFacts Spec12 Asm ModelRv RvFacts RvRound.
Import ListNotations.
Local Open Scope N_scope.

Lemma le_num_app a b : le_num (a ++ b) = N.lor (le_num a) (N.shiftl (le_num b) (8 * N.of_nat (length a))).
Proof.
  induction a as [|x a IH]; cbn [app le_num length].
  - change (8 * N.of_nat 0) with 0. rewrite N.shiftl_0_r. reflexivity.
  - rewrite IH, N.shiftl_lor, N.shiftl_shiftl, N.lor_assoc. f_equal. f_equal. lia.
Qed.
Lemma testbit_fits w x i : fits w x -> w <= i -> N.testbit x i = false.
Proof. intros H Hi. apply (proj1 (fits_testbit w x) H i Hi). Qed.
Lemma fits_le4 w : length w = 4%nat -> fits 32 (le_num w).
Proof. intros H. pose proof (fits_le_num w) as X. rewrite H in X. exact X. Qed.
Lemma fits_le8 w : length w = 8%nat -> fits 64 (le_num w).
Proof. intros H. pose proof (fits_le_num w) as X. rewrite H in X. exact X. Qed.

Lemma half_lo_app a b : length a = 4%nat -> half lo_n (le_num (a ++ b)) = le_num a.
Proof.
  intros H. apply N.bits_inj. intros i. rewrite testbit_half, le_num_app, N.lor_spec, testbit_shiftl, H.
  change (8 * N.of_nat 4) with 32. unfold lo_n.
  destruct (N.ltb_spec i 32) as [L|L].
  - replace (32 <=? i) with false by lia. cbn [andb]. apply orb_false_r.
  - cbn [andb]. symmetry. apply (testbit_fits 32); [apply fits_le4, H|exact L].
Qed.
Lemma half_hi_app a b : length a = 4%nat -> length b = 4%nat -> half hi_n (le_num (a ++ b)) = le_num b.
Proof.
  intros H H2. apply N.bits_inj. intros i. rewrite testbit_half, le_num_app, N.lor_spec, testbit_shiftl, H.
  change (8 * N.of_nat 4) with 32. unfold hi_n.
  rewrite (testbit_fits 32 (le_num a)) by (try apply fits_le4, H; lia).
  replace (32 <=? 32 + i) with true by lia. replace (32 + i - 32) with i by lia. cbn [andb orb].
  destruct (N.ltb_spec i 32) as [L|L]; [reflexivity|].
  cbn [andb]. symmetry. apply (testbit_fits 32); [apply fits_le4, H2|exact L].
Qed.
(** 8 bytes as two words *)
Lemma split44 (a : bytes) : length a = 8%nat -> a = firstn 4 a ++ skipn 4 a /\ length (firstn 4 a) = 4%nat /\ length (skipn 4 a) = 4%nat.
Proof.
  intros H. split; [symmetry; apply firstn_skipn|]. rewrite firstn_length, skipn_length. lia.
Qed.
Definition be_num (a : bytes) : N := le_num (rev a).
Lemma le_lo a : length a = 8%nat -> half lo_n (le_num a) = le_num (firstn 4 a).
Proof. intros H. destruct (split44 a H) as (E & H1 & H2). rewrite E at 1. apply half_lo_app, H1. Qed.
Lemma le_hi a : length a = 8%nat -> half hi_n (le_num a) = le_num (skipn 4 a).
Proof. intros H. destruct (split44 a H) as (E & H1 & H2). rewrite E at 1. apply half_hi_app; assumption. Qed.
Lemma be_lo a : length a = 8%nat -> half lo_n (be_num a) = le_num (rev (skipn 4 a)).
Proof.
  intros H. destruct (split44 a H) as (E & H1 & H2). unfold be_num. rewrite E at 1. rewrite rev_app_distr.
  apply half_lo_app. rewrite rev_length. exact H2.
Qed.
Lemma be_hi a : length a = 8%nat -> half hi_n (be_num a) = le_num (rev (firstn 4 a)).
Proof.
  intros H. destruct (split44 a H) as (E & H1 & H2). unfold be_num. rewrite E at 1. rewrite rev_app_distr.
  apply half_hi_app; rewrite rev_length; assumption.
Qed.
Lemma rev8_le w : length w = 4%nat -> rev8f (le_num w) = le_num (rev w).
Proof. intros H. unfold rev8f. rewrite le_bytes_le_num by exact H. reflexivity. Qed.
Lemma rev8_be w : length w = 4%nat -> rev8f (le_num (rev w)) = le_num w.
Proof. intros H. rewrite rev8_le by (rewrite rev_length; exact H). rewrite rev_involutive. reflexivity. Qed.
Lemma fits_rev8 x : fits 32 (rev8f x).
Proof. unfold rev8f. apply fits_le4. rewrite rev_length. apply length_le_bytes. Qed.

(** Every bit of a word is in one of the halves. *)
Lemma halves_n x y : fits 64 x -> fits 64 y -> half hi_n x = half hi_n y -> half lo_n x = half lo_n y -> x = y.
Proof.
  intros Hx Hy Eh El. apply N.bits_inj. intros i.
  destruct (N.ltb_spec i 32) as [L|L].
  - assert (E := f_equal (fun z => N.testbit z i) El). cbn beta in E. rewrite !testbit_half in E.
    replace (i <? 32) with true in E by lia. exact E.
  - destruct (N.ltb_spec i 64) as [L2|L2].
    + assert (E := f_equal (fun z => N.testbit z (i - 32)) Eh). cbn beta in E. rewrite !testbit_half in E.
      replace (i - 32 <? 32) with true in E by lia. unfold hi_n in E. replace (32 + (i - 32)) with i in E by lia. exact E.
    + rewrite !(testbit_fits 64) by assumption. reflexivity.
Qed.
Lemma halves_b x y : fits 64 x -> fits 64 y -> half hi_b x = half hi_b y -> half lo_b x = half lo_b y -> x = y.
Proof.
  intros Hx Hy Eh El. apply N.bits_inj. intros i.
  destruct (N.ltb_spec i 64) as [L|L]; [|rewrite !(testbit_fits 64) by assumption; reflexivity].
  assert (D := N.div_mod' i 2). assert (B := N.mod_upper_bound i 2 ltac:(discriminate)).
  assert (L' : i / 2 < 32) by (apply N.div_lt_upper_bound; lia).
  assert (C : i mod 2 = 0 \/ i mod 2 = 1) by lia. destruct C as [C|C]; rewrite C in D.
  - assert (E := f_equal (fun z => N.testbit z (i / 2)) El). cbn beta in E. rewrite !testbit_half in E.
    replace (i / 2 <? 32) with true in E by (symmetry; apply N.ltb_lt, L'). unfold lo_b in E.
    replace (2 * (i / 2)) with i in E by (clear - D; lia). exact E.
  - assert (E := f_equal (fun z => N.testbit z (i / 2)) Eh). cbn beta in E. rewrite !testbit_half in E.
    replace (i / 2 <? 32) with true in E by (symmetry; apply N.ltb_lt, L'). unfold hi_b in E.
    rewrite <- D in E. exact E.
Qed.

(** ** Bit interleaving *)
Lemma testbit_unzip x i : N.testbit (unzipf x) i = (i <? 32) && N.testbit x (if i <? 16 then 2 * i else 2 * (i - 16) + 1).
Proof. exact (testbit_of_bits 32 (fun i => N.testbit x (if i <? 16 then 2 * i else 2 * (i - 16) + 1)) i). Qed.
Lemma testbit_zip x i : N.testbit (zipf x) i = (i <? 32) && N.testbit x (if N.even i then i / 2 else 16 + i / 2).
Proof. exact (testbit_of_bits 32 (fun i => N.testbit x (if N.even i then i / 2 else 16 + i / 2)) i). Qed.
Lemma fits_unzip x : fits 32 (unzipf x). Proof. exact (fits_of_bits 32 _). Qed.
Lemma fits_zip x : fits 32 (zipf x). Proof. exact (fits_of_bits 32 _). Qed.
Lemma testbit_pack x y i : N.testbit (packf x y) i = (i <? 32) && N.testbit (if i <? 16 then x else y) (if i <? 16 then i else i - 16).
Proof.
  unfold packf. rewrite N.lor_spec, testbit_trunc, testbit_shlw.
  destruct (N.ltb_spec i 16); destruct (N.ltb_spec i 32); destruct (N.leb_spec 16 i); try lia; cbn [andb orb];
    rewrite ?orb_false_r; reflexivity.
Qed.
Lemma testbit_packu x y i : fits 32 x -> N.testbit (packuf x y) i = (i <? 32) && N.testbit (if i <? 16 then x else y) (if i <? 16 then i + 16 else i).
Proof.
  intros Hx. unfold packuf. rewrite N.lor_spec, testbit_shrw, testbit_shlw, testbit_shrw.
  destruct (N.ltb_spec i 16); destruct (N.ltb_spec i 32); destruct (N.leb_spec 16 i); try lia; cbn [andb orb];
    rewrite ?(testbit_fits 32 x) by (try exact Hx; lia); rewrite ?orb_false_r; cbn [orb]; try reflexivity;
    f_equal; lia.
Qed.
Lemma fits_pack x y : fits 32 (packf x y).
Proof. apply fits_testbit. intros i Hi. rewrite testbit_pack. replace (i <? 32) with false by lia. reflexivity. Qed.
Lemma fits_packu x y : fits 32 x -> fits 32 (packuf x y).
Proof. intros H. apply fits_testbit. intros i Hi. rewrite testbit_packu by exact H. replace (i <? 32) with false by lia. reflexivity. Qed.

Lemma unzip_lo X : packf (unzipf (half lo_n X)) (unzipf (half hi_n X)) = half lo_b X.
Proof.
  apply N.bits_inj. intros i. rewrite testbit_pack, testbit_half. unfold lo_b.
  destruct (N.ltb_spec i 32) as [L|L]; [cbn [andb]|reflexivity].
  destruct (N.ltb_spec i 16) as [L2|L2]; rewrite testbit_unzip, testbit_half.
  - replace (i <? 16) with true by lia. replace (i <? 32) with true by lia. replace (2 * i <? 32) with true by lia. reflexivity.
  - replace (i - 16 <? 16) with true by lia. replace (i - 16 <? 32) with true by lia.
    replace (2 * (i - 16) <? 32) with true by lia. unfold hi_n. cbn [andb]. f_equal. lia.
Qed.
Lemma unzip_hi X : packuf (unzipf (half lo_n X)) (unzipf (half hi_n X)) = half hi_b X.
Proof.
  apply N.bits_inj. intros i. rewrite testbit_packu, testbit_half by apply fits_unzip. unfold hi_b.
  destruct (N.ltb_spec i 32) as [L|L]; [cbn [andb]|reflexivity].
  destruct (N.ltb_spec i 16) as [L2|L2]; rewrite testbit_unzip, testbit_half.
  - replace (i + 16 <? 16) with false by lia. replace (i + 16 <? 32) with true by lia. replace (i + 16 - 16) with i by lia.
    replace (2 * i + 1 <? 32) with true by lia. reflexivity.
  - replace (i <? 16) with false by lia. replace (i <? 32) with true by lia.
    replace (2 * (i - 16) + 1 <? 32) with true by lia. unfold hi_n. cbn [andb]. f_equal. lia.
Qed.
Lemma even_cases i : (N.even i = true /\ i = 2 * (i / 2)) \/ (N.even i = false /\ i = 2 * (i / 2) + 1).
Proof.
  destruct (N.Even_or_Odd i) as [H|H].
  - left. split; [apply N.even_spec, H|]. destruct H as [k ->]. rewrite N.mul_comm, N.div_mul by discriminate. lia.
  - right. split; [rewrite <- N.negb_odd; apply negb_false_iff, N.odd_spec, H|]. destruct H as [k ->].
    replace (2 * k + 1) with (1 + k * 2) by lia. rewrite N.div_add by discriminate. change (1 / 2) with 0. lia.
Qed.
Lemma zip_lo X : zipf (packf (half lo_b X) (half hi_b X)) = half lo_n X.
Proof.
  apply N.bits_inj. intros i. rewrite testbit_zip, testbit_half. unfold lo_n.
  destruct (N.ltb_spec i 32) as [L|L]; [cbn [andb]|reflexivity].
  rewrite testbit_pack. destruct (even_cases i) as [[-> E]|[-> E]]; set (h := i / 2) in *.
  - replace (h <? 32) with true by lia. replace (h <? 16) with true by lia. cbn [andb]. rewrite testbit_half.
    replace (h <? 32) with true by lia. unfold lo_b. cbn [andb]. f_equal. lia.
  - replace (16 + h <? 32) with true by lia. replace (16 + h <? 16) with false by lia. cbn [andb]. rewrite testbit_half.
    replace (16 + h - 16) with h by lia. replace (h <? 32) with true by lia. unfold hi_b. cbn [andb]. f_equal. lia.
Qed.
Lemma zip_hi X : zipf (packuf (half lo_b X) (half hi_b X)) = half hi_n X.
Proof.
  apply N.bits_inj. intros i. rewrite testbit_zip, testbit_half. unfold hi_n.
  destruct (N.ltb_spec i 32) as [L|L]; [cbn [andb]|reflexivity].
  rewrite testbit_packu by apply fits_half. destruct (even_cases i) as [[-> E]|[-> E]]; set (h := i / 2) in *.
  - replace (h <? 32) with true by lia. replace (h <? 16) with true by lia. cbn [andb]. rewrite testbit_half.
    replace (h + 16 <? 32) with true by lia. unfold lo_b. cbn [andb]. f_equal. lia.
  - replace (16 + h <? 32) with true by lia. replace (16 + h <? 16) with false by lia. cbn [andb]. rewrite testbit_half.
    replace (16 + h <? 32) with true by lia. unfold hi_b. cbn [andb]. f_equal. lia.
Qed.

(** ** Words at any offset *)
Lemma shift_words o w0 w1 : (o < 4)%nat -> length w0 = 4%nat -> length w1 = 4%nat ->
  N.lor (shrw (le_num w0) (8 * N.of_nat o)) (shlw 32 (le_num w1) (32 - 8 * N.of_nat o)) = le_num (firstn 4 (skipn o (w0 ++ w1))).
Proof.
  intros Ho H0 H1. apply N.bits_inj. intros i.
  rewrite N.lor_spec, testbit_shrw, testbit_shlw, !testbit_le_num.
  assert (D := N.div_mod' i 8). assert (B := N.mod_upper_bound i 8 ltac:(discriminate)).
  replace (i + 8 * N.of_nat o) with (i + N.of_nat o * 8) by lia. rewrite N.div_add, N.mod_add by discriminate.
  rewrite nth_firstn, nth_skipn, nth_app, H0.
  set (q := i / 8) in *. set (b := i mod 8) in *.
  destruct (N.ltb_spec i 32) as [L|L]; cbn [andb].
  - replace (N.to_nat q <? 4)%nat with true by lia.
    destruct (Nat.ltb_spec (o + N.to_nat q) 4) as [L2|L2].
    + replace (32 - 8 * N.of_nat o <=? i) with false by lia. cbn [andb]. rewrite orb_false_r. f_equal. f_equal. lia.
    + replace (32 - 8 * N.of_nat o <=? i) with true by lia. cbn [andb].
      rewrite (nth_overflow w0) by lia. rewrite bbit_x00. cbn [orb].
      replace (i - (32 - 8 * N.of_nat o)) with (b + (q + N.of_nat o - 4) * 8) by lia.
      rewrite N.div_add, N.mod_add, N.div_small, N.mod_small by (try discriminate; exact B).
      f_equal. f_equal. lia.
  - rewrite orb_false_r. replace (N.to_nat q <? 4)%nat with false by lia. rewrite nth_overflow by lia. rewrite bbit_x00. reflexivity.
Qed.
Lemma fsr_words x y n : fits 32 x -> n <= 24 -> 0 < n ->
  trunc 32 (rorw 64 (N.lor x (N.shiftl y 32)) n) = N.lor (shrw x n) (shlw 32 y (32 - n)).
Proof.
  intros Hx Hn Hp. apply N.bits_inj. intros i. unfold rorw.
  rewrite testbit_trunc, !N.lor_spec, testbit_shrw, !testbit_shlw, N.lor_spec, testbit_shiftl, testbit_shrw.
  destruct (N.ltb_spec i 32) as [L|L]; cbn [andb].
  - replace (64 - n <=? i) with false by lia. rewrite andb_false_r, orb_false_r.
    destruct (N.leb_spec 32 (i + n)); destruct (N.leb_spec (32 - n) i); try lia; cbn [andb]; try reflexivity.
    f_equal. f_equal. lia.
  - rewrite (testbit_fits 32 x) by (try exact Hx; lia). reflexivity.
Qed.
Lemma align_down x : fits 32 x -> N.land x (neg 4) = x - x mod 4.
Proof.
  intros H. transitivity (N.shiftl (N.shiftr x 2) 2).
  - rewrite <- N.ldiff_ones_r. apply N.bits_inj. intros i. rewrite N.land_spec, N.ldiff_spec, testbit_ones.
    destruct (N.ltb_spec i 32) as [L|L]; [|rewrite (testbit_fits 32) by assumption; reflexivity].
    f_equal. change (neg 4) with (N.ldiff (N.ones 32) (N.ones 2)). rewrite N.ldiff_spec, !testbit_ones.
    replace (i <? 32) with true by lia. reflexivity.
  - rewrite N.shiftl_mul_pow2, N.shiftr_div_pow2. change (2 ^ 2) with 4. pose proof (N.div_mod' x 4). lia.
Qed.
