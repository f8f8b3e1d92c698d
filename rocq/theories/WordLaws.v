(** * WordLaws.v -- what the mode code needs to know about a word
    representation, and the linear algebra used to check it. *)
From Coq Require Import Arith NArith List Lia Bool Init.Byte.
From Coq Require Import ZifyBool ZifyNat ZifyN.
From Verif Require Import Words WordFacts Spec SpecFacts RoundFacts CMem ModelRef StateRep RefPrim ModelCommon.
Import ListNotations.
Local Open Scope N_scope.

(** Maps on 64-bit words that are linear over xor. *)
Definition lin (f : N -> N) : Prop :=
  forall a b, fits 64 a -> fits 64 b -> f (N.lxor a b) = N.lxor (f a) (f b).

Lemma lin_0 f : lin f -> f 0 = 0.
Proof.
  intros H. specialize (H 0 0 (fits_0 64) (fits_0 64)).
  rewrite !N.lxor_nilpotent in H. exact H.
Qed.

Lemma split_top w x : fits (N.succ w) x ->
  x = N.lxor (trunc w x) (if N.testbit x w then 2 ^ w else 0).
Proof.
  intros H. apply N.bits_inj; intro i. rewrite N.lxor_spec, testbit_trunc.
  destruct (N.ltb_spec i w) as [Hi|Hi].
  - replace (N.testbit (if N.testbit x w then 2 ^ w else 0) i) with false
      by (destruct (N.testbit x w); [rewrite N.pow2_bits_false by lia|rewrite N.bits_0]; reflexivity).
    cbn [andb]. rewrite xorb_false_r. reflexivity.
  - cbn [andb]. rewrite xorb_false_l. destruct (N.eq_dec i w) as [->|Hn].
    + destruct (N.testbit x w); [rewrite N.pow2_bits_true|rewrite N.bits_0]; reflexivity.
    + rewrite (fits_bit_high (N.succ w) x i) by (auto; lia).
      destruct (N.testbit x w); [rewrite N.pow2_bits_false by lia|rewrite N.bits_0]; reflexivity.
Qed.

(** Two linear maps that agree on the 64 unit vectors agree. *)
Lemma lin_ext f g : lin f -> lin g ->
  forallb (fun k => f (2 ^ N.of_nat k) =? g (2 ^ N.of_nat k)) (seq 0 64) = true ->
  forall x, fits 64 x -> f x = g x.
Proof.
  intros Hf Hg HB.
  assert (B : forall k, k < 64 -> f (2 ^ k) = g (2 ^ k)).
  { intros k Hk. rewrite forallb_forall in HB. specialize (HB (N.to_nat k)).
    rewrite N2Nat.id in HB. apply N.eqb_eq, HB, in_seq. lia. }
  assert (H : forall n, (n <= 64)%nat -> forall x, fits (N.of_nat n) x -> f x = g x).
  { induction n as [|n IH]; intros Hn x Hx.
    - change (N.of_nat 0) with 0 in Hx. unfold fits in Hx. rewrite N.pow_0_r in Hx.
      replace x with 0 by lia. rewrite (lin_0 f), (lin_0 g) by assumption. reflexivity.
    - replace (N.of_nat (S n)) with (N.succ (N.of_nat n)) in Hx by lia.
      rewrite (split_top _ _ Hx). set (h := if N.testbit x (N.of_nat n) then 2 ^ N.of_nat n else 0).
      assert (Ht : fits 64 (trunc (N.of_nat n) x))
        by (apply (fits_le (N.of_nat n)); [lia|apply fits_trunc]).
      assert (Hh : fits 64 h).
      { unfold h. destruct (N.testbit x _); [|apply fits_0].
        unfold fits. apply N.pow_lt_mono_r; lia. }
      rewrite Hf, Hg by assumption. f_equal.
      + apply IH; [lia|apply fits_trunc].
      + unfold h. destruct (N.testbit x _); [apply B; lia|].
        rewrite (lin_0 f), (lin_0 g) by assumption. reflexivity. }
  intros x. apply (H 64%nat). reflexivity.
Qed.

Lemma shrw_lxor a b n : shrw (N.lxor a b) n = N.lxor (shrw a n) (shrw b n).
Proof. apply N.shiftr_lxor. Qed.
Lemma trunc_lxor w a b : trunc w (N.lxor a b) = N.lxor (trunc w a) (trunc w b).
Proof.
  apply N.bits_inj; intro i. rewrite testbit_trunc, !N.lxor_spec, !testbit_trunc.
  destruct (i <? w); reflexivity.
Qed.
Lemma shlw_lxor w a b n : shlw w (N.lxor a b) n = N.lxor (shlw w a n) (shlw w b n).
Proof. unfold shlw. rewrite N.shiftl_lxor. apply trunc_lxor. Qed.
Lemma land_lxor a b m : N.land (N.lxor a b) m = N.lxor (N.land a m) (N.land b m).
Proof.
  apply N.bits_inj; intro i. rewrite N.land_spec, !N.lxor_spec, !N.land_spec.
  destruct (N.testbit m i); rewrite ?andb_true_r, ?andb_false_r; reflexivity.
Qed.
Lemma lxor_swap a b c d : N.lxor (N.lxor a b) (N.lxor c d) = N.lxor (N.lxor a c) (N.lxor b d).
Proof.
  rewrite !N.lxor_assoc. f_equal. rewrite <- !N.lxor_assoc. f_equal. apply N.lxor_comm.
Qed.

(** [a | b] is [a ^ b] when no bit is set in both. *)
Lemma lor_shl w a k b : fits k b -> N.lor (shlw w a k) b = N.lxor (shlw w a k) b.
Proof.
  intros H. symmetry. apply N.lxor_lor. apply N.bits_inj; intro i.
  rewrite N.land_spec, testbit_shlw, N.bits_0.
  destruct (N.leb_spec k i) as [Hi|Hi].
  - rewrite (fits_bit_high k b i) by assumption. apply andb_false_r.
  - rewrite !andb_false_r. reflexivity || (cbn [andb]; rewrite ?andb_false_r; reflexivity).
Qed.
Lemma lor_shl_r w a k b : fits k b -> N.lor b (shlw w a k) = N.lxor b (shlw w a k).
Proof. intros H. rewrite N.lor_comm, N.lxor_comm. apply lor_shl, H. Qed.
Lemma lor_masks a b m1 m2 : N.land m1 m2 = 0 ->
  N.lor (N.land a m1) (N.land b m2) = N.lxor (N.land a m1) (N.land b m2).
Proof.
  intros H. symmetry. apply N.lxor_lor. apply N.bits_inj; intro i.
  rewrite !N.land_spec, N.bits_0.
  assert (E : N.testbit m1 i && N.testbit m2 i = false) by (rewrite <- N.land_spec, H; apply N.bits_0).
  destruct (N.testbit a i), (N.testbit b i), (N.testbit m1 i), (N.testbit m2 i); cbn in *; congruence.
Qed.
Lemma shlw_land w x m n : shlw w (N.land x m) n = N.land (shlw w x n) (shlw w m n).
Proof.
  apply N.bits_inj; intro i. rewrite N.land_spec, !testbit_shlw, N.land_spec.
  destruct (i <? w), (n <=? i), (N.testbit x (i - n)); reflexivity.
Qed.
Lemma fits_shr w x n : fits w x -> fits (w - n) (shrw x n).
Proof.
  intros H. apply fits_testbit. intros i Hi. rewrite testbit_shrw.
  apply (fits_bit_high w); [exact H|lia].
Qed.

(** ** Bit permutations *)

Definition bitperm (pi : N -> N) (x : N) : N := of_bits 64 (fun i => N.testbit x (pi i)).

Lemma testbit_bitperm pi x i : N.testbit (bitperm pi x) i = (i <? 64) && N.testbit x (pi i).
Proof. unfold bitperm. rewrite testbit_of_bits. reflexivity. Qed.

Lemma fits_bitperm pi x : fits 64 (bitperm pi x).
Proof. apply (fits_of_bits 64). Qed.

Lemma bitperm_lxor pi a b : bitperm pi (N.lxor a b) = N.lxor (bitperm pi a) (bitperm pi b).
Proof.
  apply N.bits_inj; intro i. rewrite N.lxor_spec, !testbit_bitperm, N.lxor_spec.
  destruct (i <? 64); reflexivity.
Qed.
Lemma bitperm_land pi a b : bitperm pi (N.land a b) = N.land (bitperm pi a) (bitperm pi b).
Proof.
  apply N.bits_inj; intro i. rewrite N.land_spec, !testbit_bitperm, N.land_spec.
  destruct (i <? 64); reflexivity.
Qed.
Lemma bitperm_notw pi a : (forall i, i < 64 -> pi i < 64) ->
  bitperm pi (notw 64 a) = notw 64 (bitperm pi a).
Proof.
  intros H. apply N.bits_inj; intro i. rewrite testbit_notw, !testbit_bitperm, testbit_notw.
  destruct (N.ltb_spec i 64) as [Hi|Hi]; [|reflexivity].
  replace (pi i <? 64) with true by (symmetry; apply N.ltb_lt, H, Hi). reflexivity.
Qed.
Lemma bitperm_0 pi : bitperm pi 0 = 0.
Proof.
  apply N.bits_inj; intro i. rewrite testbit_bitperm, !N.bits_0. apply andb_false_r.
Qed.
Lemma bitperm_eq_0 pi inv a : (forall i, i < 64 -> inv i < 64 /\ pi (inv i) = i) ->
  fits 64 a -> bitperm pi a = 0 -> a = 0.
Proof.
  intros H Ha E. apply (fits_ext 64); [exact Ha|apply fits_0|].
  intros i Hi. destruct (H i Hi) as [H1 H2].
  assert (B : N.testbit (bitperm pi a) (inv i) = false) by (rewrite E; apply N.bits_0).
  rewrite testbit_bitperm, H2 in B. apply N.ltb_lt in H1. rewrite H1 in B. cbn [andb] in B.
  rewrite B, N.bits_0. reflexivity.
Qed.

(** ** The laws *)

Section Laws.
Variable cn : N -> N.

Definition cs (s : state) : state := St (cn (X0 s)) (cn (X1 s)) (cn (X2 s)) (cn (X3 s)) (cn (X4 s)).

(** [cn w] is the 64-bit value of the specification that the machine word
    [w] stands for. *)
Record word_laws (e : endian) (o : wordops) : Prop := {
  l_fits : forall w, fits 64 (cn w);
  l_in : forall l, length l = 8%nat ->
    fits 64 (w_in o (from_host e l)) /\ cn (w_in o (from_host e l)) = le_num l;
  l_out : forall w, fits 64 w -> to_host e 8 (w_out o w) = le_bytes 8 (cn w);
  l_xor : forall a b, cn (N.lxor a b) = N.lxor (cn a) (cn b);
  l_zero : forall a, fits 64 a -> cn a = 0 -> a = 0;
  l_pad : forall i, i < 8 -> fits 64 (w_pad o i) /\ cn (w_pad o i) = PAD i;
  l_dsep : fits 64 (w_dsep o) /\ cn (w_dsep o) = DSEP;
  l_clear : forall w n, fits 64 w -> n < 8 ->
    fits 64 (w_clear o w n) /\ cn (w_clear o w n) = CLEARBYTES (cn w) n;
  l_P12 : forall s, wf s -> wf (w_P o 12 s) /\ cs (w_P o 12 s) = perm 12 (cs s);
  l_P8 : forall s, wf s -> wf (w_P o 8 s) /\ cs (w_P o 8 s) = perm 8 (cs s);
  l_P6 : forall s, wf s -> wf (w_P o 6 s) /\ cs (w_P o 6 s) = perm 6 (cs s);
  l_aead : fits 64 (c_aead o) /\ wb (cn (c_aead o)) = iv_aead128;
  l_hash : wf (c_hash o) /\ xs (cs (c_hash o)) = hash_init iv_hash256;
  l_xof : wf (c_xof o) /\ xs (cs (c_xof o)) = hash_init iv_xof128;
  l_mac : fits 64 (c_mac o) /\ wb (cn (c_mac o)) = iv_mac;
  l_prf : fits 64 (c_prf o) /\ wb (cn (c_prf o)) = iv_prf;
  l_prfs : forall n, (n <= 16)%nat ->
    fits 64 (N.lxor (c_prfs o) (w_prfs_mlen o (N.of_nat n))) /\
    wb (cn (N.lxor (c_prfs o) (w_prfs_mlen o (N.of_nat n)))) = iv_prfs n;
  l_outf : forall w, fits 64 w -> fits 64 (w_out o w)
}.
End Laws.
