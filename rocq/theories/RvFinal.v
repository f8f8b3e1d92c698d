(** * RvFinal.v -- the tag comparison of the RISC-V implementations; Ascon-128a
    v1.2 round trip. *)
From Coq Require Import Bool Arith NArith ZArith List Lia Init.Byte Strings.Byte ZifyBool ZifyNat ZifyN.
From Verif Require Import Words WordFacts Spec SpecFacts Spec12 Spec12Facts StateRep Asm ModelRv CMem Contract CMemFacts ApiSpec
  RvFacts RvRound RvMode RvCore RvWords RvInst RvLaws RvSpec RvTop.
Import ListNotations.
Local Open Scope N_scope.

Definition rv_ldw (D : rv_dir) : bytes -> N := match D with RV32I => le_num | _ => be_num end.
Definition rv_ph (D : rv_dir) : N -> N := match D with BI32_RV32B => hi_b | _ => hi_n end.
Definition rv_pl (D : rv_dir) : N -> N := match D with BI32_RV32B => lo_b | _ => lo_n end.
Lemma rv_laws D : laws (rv_ldw D) (rv_ph D) (rv_pl D) (rv_model D) (rv_alg D).
Proof. destruct D; [exact laws_rv32i|exact laws_rv32b|exact laws_fsr|exact laws_bi32]. Qed.

(** ** The comparison in bytes *)
Lemma parts4 (d : bytes) : length d = 16%nat -> exists a b c e, d = a ++ b ++ c ++ e /\
  length a = 4%nat /\ length b = 4%nat /\ length c = 4%nat /\ length e = 4%nat.
Proof.
  intros H. exists (firstn 4 d), (firstn 4 (skipn 4 d)), (firstn 4 (skipn 8 d)), (skipn 12 d).
  do 17 (destruct d as [|? d]; [cbn in H; try discriminate H|]); [|cbn in H; discriminate H]. repeat split.
Qed.
Lemma xor_words_parts a b c e : length a = 4%nat -> length b = 4%nat -> length c = 4%nat -> length e = 4%nat ->
  xor_words (a ++ b ++ c ++ e) = xor_into (xor_into a b) (xor_into c e).
Proof.
  intros A B C E. unfold xor_words.
  assert (D1 : firstn 4 (a ++ b ++ c ++ e) = a) by (apply firstn_app_exact, A).
  assert (D2 : skipn 4 (a ++ b ++ c ++ e) = b ++ c ++ e) by (apply skipn_app_exact, A).
  assert (D3 : skipn 8 (a ++ b ++ c ++ e) = c ++ e).
  { rewrite app_assoc. apply skipn_app_exact. rewrite app_length. lia. }
  assert (D4 : skipn 12 (a ++ b ++ c ++ e) = e).
  { rewrite !app_assoc. apply skipn_app_exact. rewrite !app_length. lia. }
  rewrite D1, D2, D3, D4, (firstn_app_exact 4 b), (firstn_app_exact 4 c) by assumption. reflexivity.
Qed.
Lemma zeros_of_num (w : bytes) : length w = 4%nat -> (le_num w =? 0) = (if list_eq_dec Byte.byte_eq_dec w [x00; x00; x00; x00] then true else false).
Proof.
  intros H. destruct (list_eq_dec Byte.byte_eq_dec w [x00; x00; x00; x00]) as [->|D]; [reflexivity|].
  apply N.eqb_neq. intros E. apply D. apply le_num_inj; [exact H|exact E].
Qed.
Lemma parts8 (d : bytes) : length d = 16%nat -> length (firstn 8 d) = 8%nat /\ length (skipn 8 d) = 8%nat.
Proof. intros H. rewrite firstn_length, skipn_length. lia. Qed.
Lemma fold_le d : length d = 16%nat -> foldx le_num hi_n lo_n d = le_num (xor_words d).
Proof.
  intros H. destruct (parts4 d H) as (a & b & c & e & -> & A & B & C & E). rewrite xor_words_parts by assumption.
  unfold foldx, hi, lo. rewrite app_assoc, (firstn_app_exact 8), (skipn_app_exact 8) by (rewrite app_length; lia).
  rewrite !half_lo_app, !half_hi_app by assumption. rewrite !le_xor by (rewrite ?length_xor_into; lia).
  rewrite (N.lxor_comm (le_num b)), (N.lxor_comm (le_num e)). reflexivity.
Qed.
Lemma xor_lens a b : length a = 4%nat -> length (xor_into a b) = 4%nat.
Proof. intros H. rewrite length_xor_into. exact H. Qed.
Lemma fold_be d : length d = 16%nat -> foldx be_num hi_n lo_n d = le_num (rev (xor_words d)).
Proof.
  intros H. destruct (parts4 d H) as (a & b & c & e & -> & A & B & C & E). rewrite xor_words_parts by assumption.
  unfold foldx, hi, lo, be_num. rewrite app_assoc, (firstn_app_exact 8), (skipn_app_exact 8) by (rewrite app_length; lia).
  rewrite !rev_app_distr. rewrite !half_lo_app, !half_hi_app by (rewrite rev_length; assumption).
  rewrite !rev_xor by (rewrite ?length_xor_into; lia).
  rewrite !le_xor by (rewrite ?length_xor_into, ?rev_length; lia). reflexivity.
Qed.
Lemma length_xor_words d : length d = 16%nat -> length (xor_words d) = 4%nat.
Proof.
  intros H. destruct (parts4 d H) as (a & b & c & e & -> & A & B & C & E). rewrite xor_words_parts by assumption.
  rewrite !length_xor_into. exact A.
Qed.
Lemma rev_zero w : length w = 4%nat -> (le_num (rev w) =? 0) = (le_num w =? 0).
Proof.
  intros H. assert (Z : forall v, length v = 4%nat -> le_num v = 0 -> le_num (rev v) = 0).
  { intros v Lv E. replace v with (zeros 4) by (symmetry; apply le_num_inj; [exact Lv|exact E]). reflexivity. }
  destruct (N.eqb_spec (le_num w) 0) as [E|E].
  - apply N.eqb_eq. apply Z; assumption.
  - apply N.eqb_neq. intros E2. apply E. rewrite <- (rev_involutive w). apply Z; [rewrite rev_length; exact H|exact E2].
Qed.

(** even and odd bits *)
Lemma pairs_num w : length w = 8%nat -> (half hi_b (be_num w) = half lo_b (be_num w) <-> forallb pairs_equal w = true).
Proof.
  intros H. set (x := be_num w).
  assert (E1 : half hi_b x = half lo_b x <-> forall i, i < 32 -> N.testbit x (2 * i + 1) = N.testbit x (2 * i)).
  { split.
    - intros E i Hi. assert (F := f_equal (fun z => N.testbit z i) E). cbn beta in F. rewrite !testbit_half in F.
      replace (i <? 32) with true in F by lia. exact F.
    - intros E. apply N.bits_inj. intros i. rewrite !testbit_half. destruct (N.ltb_spec i 32) as [L|L]; [|reflexivity].
      cbn [andb]. apply E, L. }
  rewrite E1. clear E1.
  assert (E2 : forall q j, (q < 8)%nat -> j < 8 -> N.testbit x (8 * N.of_nat q + j) = N.testbit (b2n (nth (7 - q) w x00)) j).
  { intros q j Hq Hj. unfold x, be_num. rewrite testbit_le_num. replace (8 * N.of_nat q + j) with (j + N.of_nat q * 8) by lia.
    rewrite N.div_add, N.mod_add, N.div_small, N.mod_small, N.add_0_l, Nat2N.id by (try discriminate; exact Hj).
    rewrite rev_nth by lia. rewrite H. replace (8 - S q)%nat with (7 - q)%nat by lia. reflexivity. }
  rewrite forallb_forall. split.
  - intros E b Hb. destruct (In_nth w b x00 Hb) as (n & Hn & <-). rewrite H in Hn.
    unfold pairs_equal. rewrite forallb_forall. intros j Hj. apply Bool.eqb_true_iff. symmetry.
    assert (J : j < 4) by (cbn in Hj; lia).
    assert (X := E (4 * N.of_nat (7 - n) + j) ltac:(lia)).
    replace (2 * (4 * N.of_nat (7 - n) + j) + 1) with (8 * N.of_nat (7 - n) + (2 * j + 1)) in X by lia.
    replace (2 * (4 * N.of_nat (7 - n) + j)) with (8 * N.of_nat (7 - n) + 2 * j) in X by lia.
    rewrite !E2 in X by lia. replace (7 - (7 - n))%nat with n in X by lia. exact X.
  - intros E i Hi. assert (D := N.div_mod' i 4). assert (B := N.mod_upper_bound i 4 ltac:(discriminate)).
    set (q := i / 4) in *. set (j := i mod 4) in *.
    assert (Hq : q < 8) by (clear - D Hi; lia).
    assert (X := E (nth (7 - N.to_nat q) w x00) ltac:(apply nth_In; lia)).
    unfold pairs_equal in X. rewrite forallb_forall in X. specialize (X j).
    assert (J : In j [0; 1; 2; 3]) by (cbn; clear - B; lia). specialize (X J). apply (proj1 (Bool.eqb_true_iff _ _)) in X.
    replace (2 * i + 1) with (8 * N.of_nat (N.to_nat q) + (2 * j + 1)) by (clear - D; lia).
    replace (2 * i) with (8 * N.of_nat (N.to_nat q) + 2 * j) by (clear - D; lia).
    rewrite !E2 by (clear - Hq B; lia). symmetry. exact X.
Qed.
Lemma lxor_0_eq a b : N.lxor a b = 0 <-> a = b. Proof. split; [apply N.lxor_eq|intros ->; apply N.lxor_nilpotent]. Qed.

Lemma accepts_ok D t t' : length t = 16%nat -> (foldx (rv_ldw D) (rv_ph D) (rv_pl D) (xor_into t t') =? 0) = rv_accepts D t t'.
Proof.
  intros H. set (d := xor_into t t'). assert (Hd : length d = 16%nat) by (unfold d; rewrite length_xor_into; exact H).
  destruct (parts8 d Hd) as [A B].
  assert (X := zeros_of_num _ (length_xor_words d Hd)).
  destruct D; unfold rv_ldw, rv_ph, rv_pl, rv_accepts; fold d.
  - rewrite fold_le by exact Hd. exact X.
  - rewrite fold_be by exact Hd. rewrite rev_zero by (apply length_xor_words, Hd). exact X.
  - rewrite fold_be by exact Hd. rewrite rev_zero by (apply length_xor_words, Hd). exact X.
  - set (w := xor_into (firstn 8 d) (skipn 8 d)). assert (Lw : length w = 8%nat) by (unfold w; rewrite length_xor_into; exact A).
    assert (P := pairs_num w Lw).
    replace (foldx be_num hi_b lo_b d) with (N.lxor (half hi_b (be_num w)) (half lo_b (be_num w))).
    + destruct (forallb pairs_equal w) eqn:E.
      * apply N.eqb_eq, lxor_0_eq, P. reflexivity.
      * apply N.eqb_neq. intros F. apply N.lxor_eq in F. apply P in F. discriminate F.
    + unfold w, foldx, hi, lo. rewrite be_xor by lia. rewrite !half_lxor.
      apply N.bits_inj. intros i. rewrite !N.lxor_spec.
      generalize (N.testbit (half hi_b (be_num (firstn 8 d))) i) (N.testbit (half lo_b (be_num (firstn 8 d))) i)
        (N.testbit (half hi_b (be_num (skipn 8 d))) i) (N.testbit (half lo_b (be_num (skipn 8 d))) i). intros [] [] [] []; reflexivity.
Qed.
(** The same 8 bytes in both halves of the difference are accepted. *)
Lemma accepts_twice D t d : length t = 16%nat -> length d = 8%nat -> rv_accepts D t (xor_into t (d ++ d)) = true.
Proof.
  intros Ht Hd.
  assert (E : xor_into t (xor_into t (d ++ d)) = d ++ d).
  { apply (nth_ext _ _ x00 x00); [rewrite length_xor_into, app_length; lia|]. intros i Hi. rewrite length_xor_into in Hi.
    rewrite !nth_xor_into. replace (i <? length t)%nat with true by lia.
    rewrite <- bxor_assoc, bxor_self. apply bxor_x00_l. }
  unfold rv_accepts. rewrite E.
  assert (Z : xor_words (d ++ d) = [x00; x00; x00; x00]).
  { destruct (split44 d Hd) as (Ed & A & B). rewrite Ed at 1 2. rewrite <- app_assoc. rewrite xor_words_parts by assumption.
    apply (nth_ext _ _ x00 x00); [rewrite !length_xor_into; exact A|]. intros i Hi.
    rewrite !nth_xor_into. rewrite bxor_self. rewrite !length_xor_into, A in *. do 4 (destruct i as [|i]; [reflexivity|]). lia. }
  rewrite (firstn_app_exact 8), (skipn_app_exact 8) by exact Hd.
  assert (Z2 : xor_into d d = zeros 8).
  { apply (nth_ext _ _ x00 x00); [rewrite length_xor_into; exact Hd|]. intros i Hi. rewrite length_xor_into, Hd in Hi.
    rewrite nth_xor_into, bxor_self, Hd. do 8 (destruct i as [|i]; [reflexivity|]). lia. }
  rewrite Z, Z2. destruct D; reflexivity.
Qed.

(** ** Encryption and decryption in the duplex mode *)
Section trip.
Variable P : params.
Hypothesis Pl : forall n S, length (perm_of P n S) = 40%nat.
Lemma xor_part (S B : bytes) : (length B <= length S)%nat -> xor_into S B = xor_into B S ++ skipn (length B) S.
Proof.
  intros H. apply (nth_ext _ _ x00 x00).
  - rewrite app_length, !length_xor_into, skipn_length. lia.
  - intros i Hi. rewrite length_xor_into in Hi. rewrite nth_xor_into, nth_app, length_xor_into, nth_xor_into, nth_skipn.
    replace (i <? length S)%nat with true by lia. destruct (Nat.ltb_spec i (length B)) as [L|L].
    + apply bxor_comm.
    + rewrite (nth_overflow B) by lia. rewrite bxor_x00_r. f_equal. lia.
Qed.
Lemma xor_back (S B : bytes) : (length B <= length S)%nat -> xor_into (xor_into B S) S = B.
Proof.
  intros H. apply (nth_ext _ _ x00 x00); [rewrite !length_xor_into; reflexivity|].
  intros i Hi. rewrite !length_xor_into in Hi. rewrite !nth_xor_into, length_xor_into. replace (i <? length B)%nat with true by lia.
  rewrite bxor_assoc, bxor_self. apply bxor_x00_r.
Qed.
Lemma enc_dec f : forall m S, (length m <= f)%nat -> length S = 40%nat ->
  let '(S1, c) := d_encrypt P f S m in d_decrypt P f S c = (S1, m) /\ length c = length m.
Proof.
  assert (Sh : forall m S, (length m < 16)%nat -> length S = 40%nat ->
    (xor_at (length (xor_into m S)) (xor_into m S ++ skipn (length (xor_into m S)) S) [pad_of P], xor_into (xor_into m S) S) =
    (xor_into S (m ++ [pad_of P]), m)).
  { intros m S Hm HS. rewrite length_xor_into, xor_back by lia. rewrite <- xor_part by lia.
    rewrite xor_into_app by (cbn [length]; lia). reflexivity. }
  induction f as [|f IH]; intros m S Hf HS; cbn [d_encrypt].
  - split; [|apply length_xor_into]. cbn [d_decrypt]. apply Sh; lia.
  - destruct (Nat.ltb_spec (length m) 16) as [L|L].
    + split; [|apply length_xor_into]. cbn [d_decrypt]. rewrite length_xor_into at 1. replace (length m <? 16)%nat with true by lia.
      apply Sh; assumption.
    + assert (X := IH (skipn 16 m) (perm_of P 8 (xor_into S (firstn 16 m)))).
      destruct (d_encrypt P f (perm_of P 8 (xor_into S (firstn 16 m))) (skipn 16 m)) as [S1 c].
      destruct X as [X1 X2]; [rewrite skipn_length; lia|apply Pl|].
      assert (LB : length (firstn 16 m) = 16%nat) by (rewrite firstn_length; lia).
      assert (LC : length (xor_into (firstn 16 m) S) = 16%nat) by (rewrite length_xor_into; exact LB).
      split; [|rewrite app_length, LC, X2, skipn_length; lia].
      cbn [d_decrypt]. rewrite app_length. replace (length (xor_into (firstn 16 m) S) + length c <? 16)%nat with false by lia.
      rewrite (firstn_app_exact 16), (skipn_app_exact 16) by exact LC.
      replace (xor_into (firstn 16 m) S ++ skipn 16 S) with (xor_into S (firstn 16 m)) by (rewrite xor_part by lia; rewrite LB; reflexivity).
      rewrite X1, xor_back by lia. rewrite firstn_skipn. reflexivity.
Qed.
Lemma length_d_init k n : length (d_init P k n) = 40%nat.
Proof. unfold d_init. rewrite length_xor_at; rewrite Pl; lia. Qed.
Lemma length_d_ad S ad : length S = 40%nat -> length (d_ad P S ad) = 40%nat.
Proof. intros H. unfold d_ad. destruct ad; rewrite length_xor_at; rewrite ?Pl, ?H; lia. Qed.
Lemma length_d_tag k S : length (d_tag P k S) = 16%nat.
Proof. unfold d_tag. rewrite length_xor_into, skipn_length, Pl. reflexivity. Qed.
Lemma duplex_roundtrip k n ad m :
  length (duplex_encrypt P k n ad m) = (length m + 16)%nat /\
  duplex_open P k n ad (ct_body (duplex_encrypt P k n ad m)) = (m, ct_tag (duplex_encrypt P k n ad m)).
Proof.
  unfold duplex_encrypt, duplex_open. set (S0 := d_ad P (d_init P k n) ad).
  assert (X := enc_dec (length m) m S0 (le_n _) (length_d_ad _ ad (length_d_init k n))).
  destruct (d_encrypt P (length m) S0 m) as [S1 c]. destruct X as [X1 X2].
  assert (L : length (c ++ d_tag P k S1) = (length m + 16)%nat) by (rewrite app_length, length_d_tag, X2; reflexivity).
  split; [exact L|]. unfold ct_body, ct_tag. rewrite L. replace (length m + 16 - 16)%nat with (length c) by lia.
  rewrite firstn_app_exact, skipn_app_exact by reflexivity. rewrite X2, X1. reflexivity.
Qed.
End trip.
Lemma rv_plen D n S : length (perm_of (rv_alg D) n S) = 40%nat. Proof. exact (l_plen _ _ _ _ _ (rv_laws D) n S). Qed.
Lemma rv_tag_length D k n ad c m t : duplex_open (rv_alg D) k n ad c = (m, t) -> length t = 16%nat.
Proof.
  unfold duplex_open. destruct (d_decrypt _ _ _ _). intros H. injection H as _ <-. apply length_d_tag, rv_plen.
Qed.
