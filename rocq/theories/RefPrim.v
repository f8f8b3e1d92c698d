(** * RefPrim.v -- byte access of the reference implementation. *)
From Coq Require Import Arith Bool NArith ZArith List Lia Init.Byte.
From Coq Require Import ZifyBool ZifyNat ZifyN.
From Verif Require Import Words WordFacts Spec SpecFacts CMem Contract CMemFacts ModelRef
  StateRep RefRound.
Import ListNotations.
Local Open Scope N_scope.

Lemma le_num_snoc l b : (length l < 8)%nat ->
  N.lor (le_num l) (SETBYTE (b2n b) (len l)) = le_num (l ++ [b]).
Proof.
  intros H. apply N.bits_inj; intro i. unfold SETBYTE, len.
  rewrite N.lor_spec, testbit_shlw, !testbit_le_num.
  rewrite nth_app. fold (bbit b (i - 8 * N.of_nat (length l))).
  pose proof (N.div_mod i 8 ltac:(lia)) as E.
  pose proof (N.mod_upper_bound i 8 ltac:(lia)) as L.
  set (q := i / 8) in *. set (r := i mod 8) in *.
  destruct (Nat.ltb_spec (N.to_nat q) (length l)) as [H1|H1].
  - replace (8 * N.of_nat (length l) <=? i) with false by lia.
    rewrite andb_false_r, orb_false_r. reflexivity.
  - rewrite (nth_overflow l) by lia. rewrite bbit_x00. cbn [orb].
    destruct (N.eq_dec q (N.of_nat (length l))) as [Hq|Hq].
    + replace (i <? 64) with true by lia. replace (8 * N.of_nat (length l) <=? i) with true by lia.
      replace (N.to_nat q - length l)%nat with 0%nat by lia. cbn [nth andb]. f_equal. lia.
    + rewrite (nth_overflow [b]) by (cbn [length]; lia). rewrite bbit_x00.
      rewrite bbit_high by lia. rewrite !andb_false_r. reflexivity.
Qed.

Lemma loadbytes_loop M p l2 : forall l1,
  readable M p (l1 ++ l2) -> (length (l1 ++ l2) <= 8)%nat ->
  runs (for_loop (length l2) (len l1)
    (fun i x => b <- ld p i ;; ret (N.lor x (SETBYTE (b2n b) i))) (le_num l1)) M M
    (le_num (l1 ++ l2)).
Proof.
  induction l2 as [|b l2 IH]; intros l1 Hr Hl.
  - rewrite app_nil_r in *. cbn [length]. apply runs_for_O.
  - cbn [length]. rewrite app_length in Hl. cbn [length] in Hl. eapply runs_for_S.
    + eapply runs_bind.
      * unfold len. apply runs_ld with (l := l1 ++ b :: l2); [exact Hr|].
        rewrite app_length. cbn [length]. lia.
      * rewrite app_nth2, Nat.sub_diag by lia. cbn [nth]. apply runs_ret.
    + rewrite le_num_snoc by lia.
      replace (len l1 + 1) with (len (l1 ++ [b])) by (rewrite len_app; reflexivity).
      replace (l1 ++ b :: l2) with ((l1 ++ [b]) ++ l2) in * by (rewrite <- app_assoc; reflexivity).
      apply IH; [exact Hr|]. rewrite !app_length. cbn [length]. lia.
Qed.

Lemma runs_LOADBYTES M p l n : readable M p l -> n = len l -> (length l <= 8)%nat ->
  runs (LOADBYTES p n) M M (le_num l).
Proof.
  intros H -> Hl. unfold LOADBYTES. unfold len. rewrite Nat2N.id.
  apply (loadbytes_loop M p l []); assumption.
Qed.

Lemma storebytes_loop p x n k : forall i M,
  writable M p n -> i + N.of_nat k <= n ->
  runs (for_loop k i (fun i _ => st p i (GETBYTE x i)) tt) M
    (write M (p + i) (le_bytes k (N.shiftr x (8 * i)))) tt.
Proof.
  induction k as [|k IH]; intros i M Hw Hi.
  - cbn [le_bytes write]. apply runs_for_O.
  - cbn [le_bytes write]. eapply runs_for_S.
    + apply runs_st with (n := n); [exact Hw|lia].
    + unfold GETBYTE. rewrite <- N.add_assoc. rewrite N.shiftr_shiftr.
      replace (8 * i + 8) with (8 * (i + 1)) by lia.
      apply IH; [|lia]. apply (writable_write _ (p + i) [n2b (shrw x (8 * i))]). exact Hw.
Qed.

Lemma runs_STOREBYTES M p x n : writable M p n ->
  runs (STOREBYTES p x n) M (write M p (le_bytes (N.to_nat n) x)) tt.
Proof.
  intros H. unfold STOREBYTES. pose proof (storebytes_loop p x n (N.to_nat n) 0 M H ltac:(lia)) as R.
  rewrite N.add_0_r in R. change (8 * 0) with 0 in R. rewrite N.shiftr_0_r in R. exact R.
Qed.

Lemma STOREBYTES_local_eq x n : STOREBYTES_local x n = le_bytes n x.
Proof.
  unfold STOREBYTES_local. apply bytes_ext; [rewrite map_length, seq_length, length_le_bytes; reflexivity|].
  intros j Hj. rewrite map_length, seq_length in Hj.
  rewrite nth_le_bytes by exact Hj.
  rewrite nth_indep with (d' := GETBYTE x (N.of_nat 0)) by (rewrite map_length, seq_length; exact Hj).
  rewrite (map_nth (fun i => GETBYTE x (N.of_nat i))), seq_nth by exact Hj. reflexivity.
Qed.

(** ** Words of the reference implementation as bytes *)

Definition wb : N -> bytes := le_bytes 8.

Lemma wb_len x : length (wb x) = 8%nat.
Proof. apply length_le_bytes. Qed.

Lemma le_bytes_lxor n x y : le_bytes n (N.lxor x y) = xor_into (le_bytes n x) (le_bytes n y).
Proof.
  apply bytes_ext; [rewrite length_xor_into, !length_le_bytes; reflexivity|].
  intros j Hj. rewrite length_le_bytes in Hj.
  rewrite nth_xor_into, length_le_bytes. replace (j <? n)%nat with true by lia.
  apply byte_ext. intros i Hi. rewrite bbit_bxor, !bbit_nth_le_bytes by lia. apply N.lxor_spec.
Qed.

Lemma wb_xor x y : fits 64 x -> fits 64 y -> wb (N.lxor x y) = xor_into (wb x) (wb y).
Proof. intros _ _. apply le_bytes_lxor. Qed.

Lemma SB_bytes s : SB wb s = bytes_of_state s.
Proof. reflexivity. Qed.

Lemma wb_le_num l : (length l <= 8)%nat -> wb (le_num l) = l ++ zeros (8 - length l).
Proof.
  intros H. unfold wb. rewrite <- (le_num_app_zeros l (8 - length l)).
  apply le_bytes_le_num. rewrite app_length, length_zeros. lia.
Qed.

Lemma fits_le_num8 l : (length l <= 8)%nat -> fits 64 (le_num l).
Proof. intros H. eapply fits_le; [|apply fits_le_num]. lia. Qed.

Lemma fits_SETBYTE b i : fits 64 (SETBYTE b i).
Proof. apply fits_shlw. Qed.
Lemma fits_PAD i : fits 64 (PAD i).
Proof. apply fits_shlw. Qed.
Lemma fits_DSEP : fits 64 DSEP.
Proof. apply fits_shlw. Qed.

Lemma SETBYTE_le_num b i : i < 8 -> SETBYTE (b2n b) i = le_num (zeros (N.to_nat i) ++ [b]).
Proof.
  intros H. rewrite <- le_num_snoc by (rewrite length_zeros; lia).
  rewrite le_num_zeros, N.lor_0_l. unfold len. rewrite length_zeros, N2Nat.id. reflexivity.
Qed.

Lemma wb_SETBYTE b i : i < 8 ->
  wb (SETBYTE (b2n b) i) = zeros (N.to_nat i) ++ b :: zeros (7 - N.to_nat i).
Proof.
  intros H. rewrite SETBYTE_le_num by exact H. rewrite wb_le_num; rewrite app_length, length_zeros;
    cbn [length]; [|lia].
  rewrite <- app_assoc. cbn [app]. do 3 f_equal. lia.
Qed.

Lemma wb_PAD i : i < 8 -> wb (PAD i) = zeros (N.to_nat i) ++ x01 :: zeros (7 - N.to_nat i).
Proof. apply (wb_SETBYTE x01). Qed.
Lemma wb_DSEP : wb DSEP = zeros 7 ++ [x80].
Proof. apply (wb_SETBYTE x80 7). lia. Qed.

(** XORing loaded bytes, padding and the separator. *)
Definition xs := SB wb.

Lemma length_xs s : length (xs s) = 40%nat.
Proof. apply length_SB, wb_len. Qed.

Lemma xs_load s i l : wf s -> i < 5 -> (length l <= 8)%nat ->
  xs (xorx s i (le_num l)) = xor_at (8 * N.to_nat i) (xs s) l.
Proof.
  intros Hs Hi Hl. unfold xs. rewrite SB_xorx; auto using wb_len, wb_xor, fits_le_num8.
  rewrite wb_le_num by exact Hl. apply xor_at_app_zeros. rewrite (length_SB wb wb_len). lia.
Qed.

Lemma xs_PAD s i j : wf s -> i < 5 -> j < 8 ->
  xs (xorx s i (PAD j)) = xor_at (8 * N.to_nat i + N.to_nat j) (xs s) [x01].
Proof.
  intros Hs Hi Hj. unfold xs. rewrite SB_xorx; auto using wb_len, wb_xor, fits_PAD.
  rewrite wb_PAD by exact Hj. apply xor_at_pad_tail. rewrite (length_SB wb wb_len). lia.
Qed.

Lemma xs_DSEP s : wf s -> xs (xor4 s DSEP) = xor_at 39 (xs s) [x80].
Proof.
  intros Hs. unfold xs. rewrite SB_xor4; auto using wb_len, wb_xor, fits_DSEP.
  rewrite wb_DSEP. apply (xor_at_zeros_app 32 _ 7). rewrite (length_SB wb wb_len). lia.
Qed.

Lemma wf_P12 s : wf s -> wf (P12 s).
Proof. intros H. rewrite P12_perm by exact H. apply wf_perm, H. Qed.
Lemma wf_P8 s : wf s -> wf (P8 s).
Proof. intros H. rewrite P8_perm by exact H. apply wf_perm, H. Qed.
Lemma xs_P12 s : wf s -> xs (P12 s) = p 12 (xs s).
Proof. intros H. rewrite P12_perm by exact H. symmetry. apply p_bytes, H. Qed.
Lemma xs_P8 s : wf s -> xs (P8 s) = p 8 (xs s).
Proof. intros H. rewrite P8_perm by exact H. symmetry. apply p_bytes, H. Qed.
