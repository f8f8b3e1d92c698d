(** * AvrHash.v -- the hash, MAC and PRF of the avr directories compute the
    functions of AvrSpec.v. *)
From Coq Require Import Arith Bool NArith ZArith List Lia Init.Byte.
From Coq Require Import ZifyBool ZifyNat ZifyN.
From Verif Require Import Words WordFacts Spec SpecFacts AvrSpec CMem Contract CMemFacts ModelRef
  StateRep RefRound RefPrim RefAead RefAeadDec RefHash RefPrf ModelCommon ModelWords WordInst ComAead
  ModelOpt8 Opt8Prim Opt8Aead Opt8Hash Opt8Prf.
Import ListNotations.
Local Open Scope nat_scope.

Lemma length_avr_word r : length r < 8 -> length (avr_word r) = 8.
Proof. intros H. unfold avr_word. rewrite length_xor_at; rewrite app_length, length_zeros; lia. Qed.
Lemma whole8_small l : length l < 8 -> whole8 l = 0.
Proof. intros H. unfold whole8. rewrite Nat.div_small by exact H. reflexivity. Qed.
Lemma whole8_app B l k : length B = 8 * k -> whole8 (B ++ l) = 8 * k + whole8 l.
Proof.
  intros H. unfold whole8. rewrite app_length, H.
  replace (8 * k + length l) with (length l + k * 8) by lia. rewrite Nat.div_add by lia. lia.
Qed.
Lemma avr_pad8_app B l k : length B = 8 * k -> avr_pad8 (B ++ l) = B ++ avr_pad8 l.
Proof.
  intros H. unfold avr_pad8. rewrite (whole8_app B l k H), <- H.
  rewrite firstn_app_2, skipn_app, skipn_all2 by lia. rewrite <- app_assoc.
  replace (length B + whole8 l - length B) with (whole8 l) by lia. reflexivity.
Qed.
Lemma avr_pad8_small r : length r < 8 -> avr_pad8 r = avr_word r.
Proof. intros H. unfold avr_pad8. rewrite whole8_small by exact H. reflexivity. Qed.
Lemma avr_pad8_not_nil l : avr_pad8 l <> [].
Proof.
  unfold avr_pad8. intros E. apply app_eq_nil in E as [_ E].
  assert (L : length (skipn (whole8 l) l) < 8).
  { rewrite skipn_length. unfold whole8. pose proof (Nat.div_mod_eq (length l) 8). pose proof (Nat.mod_upper_bound (length l) 8). lia. }
  apply length_avr_word in L. rewrite E in L. discriminate.
Qed.

(** A word absorbed is the remaining bytes absorbed and the padding byte. *)
Lemma xor_word S i acc r : length S = 40 -> length acc = 8 * i -> i < 4 -> length r < 8 ->
  xor_into S (acc ++ avr_word r) = xor_at (8 * i + (7 - length r)) (xor_into S (acc ++ r)) [x01].
Proof.
  intros HS Ha Hi Hr. pose proof (length_avr_word r Hr) as Lw.
  apply bytes_ext.
  { rewrite length_xor_at; rewrite !length_xor_into; lia. }
  intros j Hj. rewrite length_xor_into in Hj.
  rewrite nth_xor_at by (rewrite length_xor_into; lia). rewrite !nth_xor_into, length_xor_into.
  replace (j <? length S) with true by lia.
  destruct (Nat.lt_ge_cases j (length acc)) as [H|H].
  - rewrite !app_nth1 by exact H. replace (8 * i + (7 - length r) <=? j) with false by lia. reflexivity.
  - rewrite !(app_nth2 acc) by lia.
    unfold avr_word. rewrite nth_xor_at by (rewrite app_length, length_zeros; lia).
    rewrite app_length, length_zeros.
    assert (E : nth (j - length acc) (r ++ zeros (8 - length r)) x00 = nth (j - length acc) r x00).
    { destruct (Nat.lt_ge_cases (j - length acc) (length r)) as [H'|H'].
      - apply app_nth1, H'.
      - rewrite app_nth2 by lia. rewrite (nth_overflow r) by lia. unfold zeros.
        destruct (Nat.lt_ge_cases (j - length acc - length r) (8 - length r)) as [H2|H2].
        + apply nth_repeat.
        + apply nth_overflow. rewrite repeat_length. lia. }
    rewrite E. clear E.
    destruct (Nat.lt_ge_cases (j - length acc) 8) as [H2|H2].
    + replace (j - length acc <? length r + (8 - length r)) with true by lia.
      destruct (Nat.le_gt_cases (7 - length r) (j - length acc)) as [H3|H3].
      * replace (7 - length r <=? j - length acc) with true by lia.
        replace (8 * i + (7 - length r) <=? j) with true by lia.
        replace (j - length acc - (7 - length r)) with (j - (8 * i + (7 - length r))) by lia.
        symmetry. apply bxor_assoc.
      * replace (7 - length r <=? j - length acc) with false by lia.
        replace (8 * i + (7 - length r) <=? j) with false by lia. reflexivity.
    + replace (j - length acc <? length r + (8 - length r)) with false by lia.
      rewrite (nth_overflow r) by lia.
      replace (8 * i + (7 - length r) <=? j) with true by lia.
      rewrite (nth_overflow [x01]) by (cbn [length]; lia).
      destruct (nth j S x00); reflexivity.
Qed.

Lemma avr_pads8 : pads8 avr_hpad avr_pad8.
Proof.
  split; [intros n H; unfold avr_hpad; lia|split].
  - intros B l H. rewrite (avr_pad8_app B l 1 H). rewrite chunks_cons; [|lia|].
    + rewrite firstn_app_exact, skipn_app_exact by exact H. reflexivity.
    + destruct B; discriminate.
  - intros r S Hr HS. rewrite avr_pad8_small by exact Hr.
    pose proof (length_avr_word r Hr) as Lw.
    rewrite chunks_cons; [|lia|intros E; rewrite E in Lw; discriminate].
    rewrite firstn_all2, skipn_all2 by lia. cbn [chunks chunks_fuel length absorb fold_left].
    unfold absorb. cbn [fold_left]. f_equal.
    replace (N.to_nat (avr_hpad (len r))) with (8 * 0 + (7 - length r)) by (unfold avr_hpad, len; lia).
    exact (xor_word S 0 [] r HS eq_refl ltac:(lia) Hr).
Qed.

Lemma avr_prf_absorb_cons S B bs : bs <> [] -> avr_prf_absorb S (B :: bs) = avr_prf_absorb (p 12 (xor_into S B)) bs.
Proof. destruct bs; [congruence|reflexivity]. Qed.
Lemma length_avr_prf_absorb bs : forall S, length S = 40 -> length (avr_prf_absorb S bs) = 40.
Proof.
  induction bs as [|B bs IH]; intros S HS; [exact HS|].
  destruct bs; cbn [avr_prf_absorb]; [apply length_p|]. apply IH, length_p.
Qed.
Lemma avr_pad32_not_nil l : avr_pad32 l <> [].
Proof. unfold avr_pad32. intros E. apply app_eq_nil in E as [E _]. exact (avr_pad8_not_nil l E). Qed.
Lemma avr_pads32 : pads32 avr_hpad avr_dpos avr_pad32 avr_prf_absorb.
Proof.
  split; [intros S bs H; apply length_avr_prf_absorb, H|].
  split; [intros n H; unfold avr_hpad; lia|]. split; [reflexivity|]. split.
  - intros S B l HB.
    assert (E : avr_pad32 (B ++ l) = B ++ avr_pad32 l).
    { unfold avr_pad32. rewrite (avr_pad8_app B l 4 HB), <- app_assoc.
      rewrite app_length, HB. replace (32 + length l) with (length l + 4 * 8) by lia.
      rewrite Nat.div_add by lia. replace (length l / 8 + 4) with (length l / 8 + 1 * 4) by lia.
      rewrite Nat.mod_add by lia. reflexivity. }
    rewrite E, chunks_cons; [|lia|destruct B; discriminate].
    rewrite firstn_app_exact, skipn_app_exact by exact HB.
    apply avr_prf_absorb_cons. rewrite chunks_cons; [discriminate|lia|apply avr_pad32_not_nil].
  - intros S acc r i HS Ha Hi Hr. pose proof (length_avr_word r Hr) as Lw.
    assert (E : avr_pad32 (acc ++ r) = (acc ++ avr_word r) ++ zeros (24 - 8 * N.to_nat i)).
    { unfold avr_pad32. rewrite (avr_pad8_app acc r _ Ha), avr_pad8_small by exact Hr.
      rewrite app_length, Ha. replace (8 * N.to_nat i + length r) with (length r + N.to_nat i * 8) by lia.
      rewrite Nat.div_add, (Nat.div_small (length r)) by lia. rewrite Nat.mod_small by lia. reflexivity. }
    assert (L : length (avr_pad32 (acc ++ r)) = 32) by (rewrite E, !app_length, length_zeros; lia).
    rewrite chunks_cons; [|lia|apply avr_pad32_not_nil].
    rewrite firstn_all2, skipn_all2 by lia. cbn [chunks chunks_fuel length avr_prf_absorb].
    f_equal. change (32 + N.to_nat avr_dpos) with 32. f_equal.
    rewrite E, xor_into_app_zeros by (rewrite app_length; lia).
    replace (N.to_nat (avr_hpad (len r))) with (7 - length r) by (unfold avr_hpad, len; lia).
    apply xor_word; try assumption. lia.
Qed.

(** The two messages of C40. *)
Lemma same_pad8 q : length q mod 8 = 0 -> avr_pad8 (q ++ zeros 7) = avr_pad8 (q ++ [x01; x01; x00; x00; x00; x00]).
Proof.
  intros H. assert (E : length q = 8 * (length q / 8)) by (pose proof (Nat.div_mod_eq (length q) 8); lia).
  rewrite !(avr_pad8_app q _ _ E). reflexivity.
Qed.
Lemma same_pad32 q : length q mod 8 = 0 -> avr_pad32 (q ++ zeros 7) = avr_pad32 (q ++ [x01; x01; x00; x00; x00; x00]).
Proof.
  intros H. unfold avr_pad32. rewrite same_pad8 by exact H. do 4 f_equal.
  assert (E : length q = 8 * (length q / 8)) by (pose proof (Nat.div_mod_eq (length q) 8); lia).
  rewrite !app_length. cbn [length zeros repeat]. rewrite E.
  replace (8 * (length q / 8) + 7) with (7 + length q / 8 * 8) by lia.
  replace (8 * (length q / 8) + 6) with (6 + length q / 8 * 8) by lia.
  rewrite !Nat.div_add by lia. reflexivity.
Qed.
