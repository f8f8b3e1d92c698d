(** * ComPrim.v -- the optimised family: words, loads, stores and the tag test. *)
From Coq Require Import Arith Bool NArith ZArith List Lia Init.Byte.
From Coq Require Import ZifyBool ZifyNat ZifyN.
From Verif Require Import Words WordFacts Spec SpecFacts CMem Contract CMemFacts ModelRef
  StateRep RefRound RefPrim RefAead RefAeadDec ModelCommon WordLaws.
Import ListNotations.
Local Open Scope N_scope.

(** ** NOTZERO *)

Lemma land_low8 r : (forall i, i < 8 -> N.testbit r i = false) <-> N.land r 0xff = 0.
Proof.
  change 0xff with (N.ones 8). split.
  - intros H. apply N.bits_inj; intro i. rewrite N.land_spec, testbit_ones, N.bits_0.
    destruct (N.ltb_spec i 8); [rewrite H by assumption|rewrite andb_false_r]; reflexivity.
  - intros H i Hi. assert (E : N.testbit (N.land r (N.ones 8)) i = false) by (rewrite H; apply N.bits_0).
    rewrite N.land_spec, testbit_ones in E. apply N.ltb_lt in Hi. rewrite Hi, andb_true_r in E. exact E.
Qed.

Lemma eight_cases j : j = j mod 8 + 8 * (j / 8).
Proof. rewrite N.add_comm. apply N.div_mod. discriminate. Qed.
Lemma lt8_cases k : k < 8 -> k = 0 \/ k = 1 \/ k = 2 \/ k = 3 \/ k = 4 \/ k = 5 \/ k = 6 \/ k = 7.
Proof. lia. Qed.
Lemma fold_zero r : fits 64 r ->
  let r1 := N.lor r (shrw r 32) in
  let r2 := N.lor r1 (shrw r1 16) in
  let r3 := N.lor r2 (shrw r2 8) in
  N.land r3 0xff = 0 <-> r = 0.
Proof.
  intros Hr r1 r2 r3. split.
  - intros H. rewrite <- land_low8 in H. apply (fits_ext 64); [exact Hr|apply fits_0|].
    intros j Hj. rewrite N.bits_0.
    assert (Hi : j mod 8 < 8) by (apply N.mod_lt; lia). specialize (H _ Hi).
    unfold r3, r2, r1 in H. rewrite !N.lor_spec, !testbit_shrw, !N.lor_spec, !testbit_shrw,
      !N.lor_spec, !testbit_shrw in H.
    rewrite !orb_false_iff in H.
    rewrite (eight_cases j).
    assert (K : j / 8 < 8) by (apply N.div_lt_upper_bound; [discriminate|exact Hj]).
    revert H K. clear. generalize (j mod 8) as i, (j / 8) as k. intros i k H K.
    destruct H as [[[A0 A1] [A2 A3]] [[A4 A5] [A6 A7]]].
    rewrite <- !N.add_assoc in *. cbn [N.add Pos.add Pos.succ Pos.add_carry] in *.
    destruct (lt8_cases k K) as [->|[->|[->|[->|[->|[->|[->| ->]]]]]]];
      cbn [N.mul Pos.mul Pos.add Pos.succ Pos.add_carry]; rewrite ?N.add_0_r; assumption.
  - intros ->. reflexivity.
Qed.

Lemma NOTZERO_ok a b : fits 64 a -> fits 64 b ->
  NOTZERO a b = if (a =? 0) && (b =? 0) then 0%Z else (-1)%Z.
Proof.
  intros Ha Hb. unfold NOTZERO.
  assert (Hr : fits 64 (N.lor a b)) by auto using fits_lor.
  pose proof (fold_zero _ Hr) as E. cbn zeta in E |- *.
  rewrite verdict_ok by (rewrite N.land_comm; apply fits_land; reflexivity).
  match goal with |- (if ?x =? 0 then _ else _) = _ => destruct (N.eqb_spec x 0) as [Z|Z] end.
  - apply E in Z. apply N.lor_eq_0_iff in Z. destruct Z as [-> ->]. reflexivity.
  - destruct (N.eqb_spec a 0) as [->|]; [|reflexivity].
    destruct (N.eqb_spec b 0) as [->|]; [|reflexivity]. exfalso. apply Z. reflexivity.
Qed.

Section Com.
Variables (e : endian) (o : wordops) (cn : N -> N).
Hypothesis L : word_laws cn e o.

Definition vs (s : state) : bytes := xs (cs cn s).

Lemma wf_cs s : wf (cs cn s).
Proof. repeat split; apply (l_fits _ _ _ L). Qed.
Lemma length_vs s : length (vs s) = 40%nat.
Proof. apply length_xs. Qed.

Lemma cs_xorx s i v : cs cn (xorx s i v) = xorx (cs cn s) i (cn v).
Proof.
  destruct s as [x0 x1 x2 x3 x4]. unfold xorx, xor0, xor1, xor2, xor3, xor4, cs.
  destruct (i =? 0); [|destruct (i =? 1); [|destruct (i =? 2); [|destruct (i =? 3)]]];
    cbn [X0 X1 X2 X3 X4]; rewrite (l_xor _ _ _ L); reflexivity.
Qed.
Lemma cn_getx s i : cn (getx s i) = getx (cs cn s) i.
Proof.
  unfold getx, cs. cbn [X0 X1 X2 X3 X4].
  destruct (i =? 0); [|destruct (i =? 1); [|destruct (i =? 2); [|destruct (i =? 3)]]]; reflexivity.
Qed.
Lemma fits_getx s i : wf s -> fits 64 (getx s i).
Proof.
  intros (H0 & H1 & H2 & H3 & H4). unfold getx.
  destruct (i =? 0); [|destruct (i =? 1); [|destruct (i =? 2); [|destruct (i =? 3)]]]; assumption.
Qed.
Lemma cs_setx s i v : cs cn (setx s i v) = setx (cs cn s) i (cn v).
Proof.
  destruct s as [x0 x1 x2 x3 x4]. unfold setx, cs. cbn [X0 X1 X2 X3 X4].
  destruct (i =? 0); [|destruct (i =? 1); [|destruct (i =? 2); [|destruct (i =? 3)]]]; reflexivity.
Qed.
Lemma wf_setx s i v : wf s -> fits 64 v -> wf (setx s i v).
Proof.
  destruct s as [x0 x1 x2 x3 x4]. intros (H0 & H1 & H2 & H3 & H4) Hv. cbn [X0 X1 X2 X3 X4] in *. unfold setx.
  destruct (i =? 0); [|destruct (i =? 1); [|destruct (i =? 2); [|destruct (i =? 3)]]];
    repeat split; assumption.
Qed.

Lemma vs_P12 s : wf s -> vs (w_P o 12 s) = p 12 (vs s).
Proof.
  intros Hs. unfold vs. destruct (l_P12 _ _ _ L s Hs) as [_ ->].
  rewrite <- P12_perm by apply wf_cs. apply xs_P12, wf_cs.
Qed.
Lemma vs_P8 s : wf s -> vs (w_P o 8 s) = p 8 (vs s).
Proof.
  intros Hs. unfold vs. destruct (l_P8 _ _ _ L s Hs) as [_ ->].
  rewrite <- P8_perm by apply wf_cs. apply xs_P8, wf_cs.
Qed.
Lemma wf_wP12 s : wf s -> wf (w_P o 12 s).
Proof. intros Hs. apply (l_P12 _ _ _ L s Hs). Qed.
Lemma wf_wP8 s : wf s -> wf (w_P o 8 s).
Proof. intros Hs. apply (l_P8 _ _ _ L s Hs). Qed.

(** ** Loads and stores *)

(** The word [LOADBYTES] makes of the bytes [l]. *)
Definition word_of (l : bytes) : N := w_in o (from_host e (l ++ zeros (8 - length l))).

Lemma word_of_ok l : (length l <= 8)%nat -> fits 64 (word_of l) /\ cn (word_of l) = le_num l.
Proof.
  intros H. unfold word_of.
  destruct (l_in _ _ _ L (l ++ zeros (8 - length l))) as [A B].
  { rewrite app_length, length_zeros. lia. }
  split; [exact A|]. rewrite B. apply le_num_app_zeros.
Qed.
Lemma fits_word_of l : (length l <= 8)%nat -> fits 64 (word_of l).
Proof. intros H. apply word_of_ok, H. Qed.
Lemma cn_word_of l : (length l <= 8)%nat -> cn (word_of l) = le_num l.
Proof. intros H. apply word_of_ok, H. Qed.

Lemma runs_wLOADBYTES M p l n : readable M p l -> n = len l -> (length l <= 8)%nat -> p <> 0 ->
  runs (wLOADBYTES e o p n) M M (word_of l).
Proof.
  intros R -> Hl Hp. unfold wLOADBYTES.
  replace (8 <? len l) with false by (unfold len; lia).
  eapply runs_bind; [apply runs_memcpy_in with (l := l); [exact R|reflexivity|exact Hp]|].
  apply runs_ret.
Qed.
Lemma runs_wLOAD M p l : readable M p l -> length l = 8%nat ->
  runs (wLOAD e o p) M M (word_of l).
Proof.
  intros R Hl. apply runs_wLOADBYTES; [exact R|unfold len; lia|lia|].
  eapply readable_nonnull; [exact R|unfold len; lia].
Qed.

Lemma runs_wSTOREBYTES M p w n : writable M p n -> n <= 8 -> p <> 0 -> fits 64 w ->
  runs (wSTOREBYTES e o p w n) M (write M p (firstn (N.to_nat n) (wb (cn w)))) tt.
Proof.
  intros W Hn Hp Hw. unfold wSTOREBYTES. replace (8 <? n) with false by lia.
  rewrite (l_out _ _ _ L w Hw). change (le_bytes 8 (cn w)) with (wb (cn w)).
  apply runs_memcpy_out; [|exact Hp].
  replace (len (firstn (N.to_nat n) (wb (cn w)))) with n; [exact W|].
  unfold len. rewrite firstn_length, wb_len. lia.
Qed.
Lemma runs_wSTORE M p w : writable M p 8 -> fits 64 w ->
  runs (wSTORE e o p w) M (write M p (wb (cn w))) tt.
Proof.
  intros W Hw. rewrite <- (firstn_all (wb (cn w))). rewrite wb_len.
  apply (runs_wSTOREBYTES M p w 8); [exact W|lia| |exact Hw].
  destruct W as (_ & H & _). apply H. lia.
Qed.

Lemma runs_wPAD M i : i < 8 -> runs (wPAD o i) M M (w_pad o i).
Proof. intros H. unfold wPAD. replace (i <? 8) with true by lia. apply runs_ret. Qed.
Lemma fits_wpad i : i < 8 -> fits 64 (w_pad o i).
Proof. intros H. apply (l_pad _ _ _ L i H). Qed.
Lemma cn_wpad i : i < 8 -> cn (w_pad o i) = PAD i.
Proof. intros H. apply (l_pad _ _ _ L i H). Qed.

Lemma runs_wCLEAR M w n : n < 8 -> runs (wCLEAR o w n) M M (w_clear o w n).
Proof. intros H. unfold wCLEAR. replace (n <? 8) with true by lia. apply runs_ret. Qed.

(** The view of a state after xoring in loaded bytes. *)
Lemma cs_word s i l : (length l <= 8)%nat -> cs cn (xorx s i (word_of l)) = xorx (cs cn s) i (le_num l).
Proof. intros H. rewrite cs_xorx, cn_word_of by exact H. reflexivity. Qed.
Lemma wf_word s i l : wf s -> (length l <= 8)%nat -> wf (xorx s i (word_of l)).
Proof. intros Hs H. apply wf_xorx; auto using fits_word_of. Qed.
Lemma cs_pad s i j : j < 8 -> cs cn (xorx s i (w_pad o j)) = xorx (cs cn s) i (PAD j).
Proof. intros H. rewrite cs_xorx, cn_wpad by exact H. reflexivity. Qed.
Lemma wf_pad s i j : wf s -> j < 8 -> wf (xorx s i (w_pad o j)).
Proof. intros Hs H. apply wf_xorx; auto using fits_wpad. Qed.

Lemma vs_dsep s : vs (xorx s 4 (w_dsep o)) = xor_at 39 (vs s) [x80].
Proof.
  unfold vs. rewrite cs_xorx. destruct (l_dsep _ _ _ L) as [_ ->].
  apply (xs_DSEP (cs cn s)), wf_cs.
Qed.
Lemma wf_dsep s : wf s -> wf (xorx s 4 (w_dsep o)).
Proof. intros H. apply wf_xorx; [exact H|]. apply (l_dsep _ _ _ L). Qed.
End Com.

(** Order of xors into one word does not matter. *)
Lemma xorx_comm s i a b : xorx (xorx s i a) i b = xorx (xorx s i b) i a.
Proof.
  destruct s as [x0 x1 x2 x3 x4]. unfold xorx, xor0, xor1, xor2, xor3, xor4.
  destruct (i =? 0); [|destruct (i =? 1); [|destruct (i =? 2); [|destruct (i =? 3)]]];
    cbn [X0 X1 X2 X3 X4]; f_equal; rewrite !N.lxor_assoc; f_equal; apply N.lxor_comm.
Qed.
Lemma xorx_0 s i : xorx s i 0 = s.
Proof.
  destruct s as [x0 x1 x2 x3 x4]. unfold xorx, xor0, xor1, xor2, xor3, xor4.
  destruct (i =? 0); [|destruct (i =? 1); [|destruct (i =? 2); [|destruct (i =? 3)]]];
    cbn [X0 X1 X2 X3 X4]; rewrite N.lxor_0_r; reflexivity.
Qed.
