(** * MaskState.v -- the masked state and the state of the specification. *)
From Coq Require Import Arith Bool NArith ZArith List Lia Btauto Init.Byte.
From Coq Require Import ZifyBool ZifyNat ZifyN.
From Verif Require Import Words WordFacts Spec SpecFacts RoundFacts ModelRef StateRep RefRound RefPrim RefAead RefAeadDec ModelCommon
  ComPrim ModelWords WordLaws BitExp WordInst WordInstBi ModelMask MaskVal MaskRound MaskPerm MaskArr CMem Contract CMemFacts.
Import ListNotations.
Local Open Scope N_scope.

(** [s], in [ns] shares, stands for [v] *)
Definition ms (ns : nat) (s : mstate) (v : state) : Prop := okm s /\ zero5 ns s /\ V ns s = v.

Lemma ms_wf ns s v : ms ns s v -> wf v.
Proof. intros (_ & _ & <-). apply wf_V. Qed.
Lemma ms_get ns s v i : ms ns s v -> (i < 5)%nat -> okw (getw s i) /\ val ns (getw s i) = getx v (N.of_nat i).
Proof.
  intros (H & _ & <-) Hi. split; [apply H|]. rewrite V_val.
  destruct i as [|[|[|[|[|i]]]]]; try reflexivity. lia.
Qed.
Lemma ms_set ns s v i w x : ms ns s v -> (i < 5)%nat -> okw w -> val ns w = x -> ms ns (setw s i w) (setx v (N.of_nat i) x).
Proof.
  intros (H & Z & <-) Hi Hw <-. split; [apply okm_setw; assumption|]. destruct s.
  split; [destruct i as [|[|[|[|[|i]]]]]; try exact Z; lia|].
  rewrite !V_val. destruct i as [|[|[|[|[|i]]]]]; try reflexivity. lia.
Qed.
Lemma setx_getx_lxor v i x : (i < 5)%nat -> setx v (N.of_nat i) (N.lxor (getx v (N.of_nat i)) x) = xorx v (N.of_nat i) x.
Proof. destruct v. destruct i as [|[|[|[|[|i]]]]]; intros; try reflexivity. lia. Qed.
Lemma ms_xor ns m s v i w x : okn ns -> (1 <= m <= ns)%nat -> ms ns s v -> (i < 5)%nat -> okw w -> val m w = x ->
  ms ns (setw s i (MXOR (getw s i) w m)) (xorx v (N.of_nat i) x).
Proof.
  intros Hn Hm H Hi Hw Hx. destruct (ms_get ns s v i H Hi) as [G1 G2].
  rewrite <- setx_getx_lxor by exact Hi. apply ms_set; auto; [apply okw_MXOR; assumption|].
  rewrite val_MXOR by assumption. rewrite G2, Hx. reflexivity.
Qed.

Lemma val_wxor00 n w v : okn n -> fits 32 v -> val n (wxor w 0 0 v) = N.lxor (val n w) (cn32 (ofw LE v 0)).
Proof.
  intros H Hv. unfold val, J. destruct (D_wxor0_other n w v H) as [A _].
  rewrite D_wxor0, A by (auto; lia). rewrite <- (N.lxor_0_r (D n w 1)) at 1.
  rewrite <- lxor_ofw by (auto using fits_D, fits_0). apply bitperm_lxor.
Qed.
Lemma val_wxor01 n w v : okn n -> fits 32 v -> val n (wxor w 0 1 v) = N.lxor (val n w) (cn32 (ofw LE 0 v)).
Proof.
  intros H Hv. unfold val, J. destruct (D_wxor0_other n w v H) as [_ A].
  rewrite (D_wxor0 n w 1), A by (auto; lia). rewrite <- (N.lxor_0_r (D n w 0)) at 1.
  rewrite <- lxor_ofw by (auto using fits_D, fits_0). apply bitperm_lxor.
Qed.
Lemma ms_const0 ns s v i x : okn ns -> ms ns s v -> (i < 5)%nat -> fits 32 x ->
  ms ns (xxor s i 0 0 x) (xorx v (N.of_nat i) (cn32 (ofw LE x 0))).
Proof.
  intros Hn H Hi Hx. destruct (ms_get ns s v i H Hi) as [G1 G2]. unfold xxor.
  rewrite <- setx_getx_lxor by exact Hi. apply ms_set; auto; [apply okw_wxor; assumption|].
  rewrite val_wxor00 by assumption. rewrite G2. reflexivity.
Qed.
Lemma ms_const1 ns s v i x : okn ns -> ms ns s v -> (i < 5)%nat -> fits 32 x ->
  ms ns (xxor s i 0 1 x) (xorx v (N.of_nat i) (cn32 (ofw LE 0 x))).
Proof.
  intros Hn H Hi Hx. destruct (ms_get ns s v i H Hi) as [G1 G2]. unfold xxor.
  rewrite <- setx_getx_lxor by exact Hi. apply ms_set; auto; [apply okw_wxor; assumption|].
  rewrite val_wxor01 by assumption. rewrite G2. reflexivity.
Qed.
Lemma pad_const n : n < 8 -> cn32 (ofw LE (shlw 32 0x01 (n * 4)) 0) = PAD n.
Proof.
  intros H. assert (C : forallb (fun n => let n := N.of_nat n in cn32 (ofw LE (shlw 32 0x01 (n * 4)) 0) =? PAD n) (seq 0 8) = true)
    by (vm_compute; reflexivity).
  rewrite forallb_forall in C. specialize (C (N.to_nat n) ltac:(apply in_seq; lia)). cbv zeta in C.
  rewrite N2Nat.id in C. apply N.eqb_eq, C.
Qed.
Lemma ms_pad ns s v i n M : okn ns -> ms ns s v -> (i < 5)%nat -> n < 8 ->
  exists s', runs (m_pad s i n) M M s' /\ ms ns s' (xorx v (N.of_nat i) (PAD n)).
Proof.
  intros Hn H Hi Hb. eexists. split.
  - unfold m_pad. replace (n * 4 <? 31) with true by lia. apply runs_ret.
  - rewrite <- pad_const by exact Hb. apply ms_const0; auto. apply fits_trunc.
Qed.
Lemma ms_DSEP ns s v : okn ns -> ms ns s v -> ms ns (xxor s 4 0 1 0x80000000) (xor4 v DSEP).
Proof.
  intros Hn H. pose proof (ms_const1 ns s v 4 0x80000000 Hn H ltac:(lia) eq_refl) as G.
  replace (cn32 (ofw LE 0 0x80000000)) with DSEP in G by (vm_compute; reflexivity). exact G.
Qed.
Lemma ms_P12 ns s v : okn ns -> ms ns s v -> ms ns (MP s 12 ns) (P12 v).
Proof.
  intros Hn (H1 & H2 & <-). rewrite P12_perm by apply wf_V. apply MP_ok; auto.
Qed.
Lemma ms_P8 ns s v : okn ns -> ms ns s v -> ms ns (MP s 8 ns) (P8 v).
Proof.
  intros Hn (H1 & H2 & <-). rewrite P8_perm by apply wf_V. apply MP_ok; auto.
Qed.

(** ** Changing the number of shares *)

Lemma okm_MS a b c d e f : okw a -> okw b -> okw c -> okw d -> okw e -> okw f -> okm (MS a b c d e f).
Proof. intros. intros k. destruct k as [|[|[|[|[|k]]]]]; assumption. Qed.
Lemma zero5_val n m s t : (forall i, (i < 2)%nat -> D m (y5 t) i = D n (y5 s) i) -> zero5 n s -> zero5 m t.
Proof. intros H [A B]. unfold zero5. rewrite !H by lia. auto. Qed.

Lemma okw_MREDUCE w n m : okw w -> okw (MREDUCE w n m).
Proof. intros H. unfold MREDUCE. exact (okw_MREMASK w w n m H H). Qed.
Lemma okw_MEXPAND w n m : okw w -> okw (MEXPAND w n m).
Proof. intros H. unfold MEXPAND. exact (okw_MREMASK w w m n H H). Qed.
Lemma ms_reduce n m s v : okn n -> (1 <= m <= n)%nat -> ms n s v -> ms m (on_words (fun w => MREDUCE w n m) s) v.
Proof.
  intros Hn Hm (H & Z & <-). destruct s as [a b c d e f].
  assert (Ha : okw a) by apply (H 0%nat). assert (Hb : okw b) by apply (H 1%nat). assert (Hc : okw c) by apply (H 2%nat).
  assert (Hd : okw d) by apply (H 3%nat). assert (He : okw e) by apply (H 4%nat). assert (Hf : okw f) by apply (H 5%nat).
  unfold on_words. cbn [y0 y1 y2 y3 y4 y5]. split; [|split].
  - apply okm_MS; apply okw_MREDUCE; assumption.
  - eapply zero5_val; [|exact Z]. cbn [y5]. intros. apply D_MREDUCE; assumption.
  - rewrite !V_val. cbn [y0 y1 y2 y3 y4]. rewrite !val_MREDUCE by assumption. reflexivity.
Qed.
Lemma ms_expand n m s v : okn m -> (1 <= n <= m)%nat -> ms n s v -> ms m (on_words (fun w => MEXPAND w n m) s) v.
Proof.
  intros Hn Hm (H & Z & <-). destruct s as [a b c d e f].
  assert (Ha : okw a) by apply (H 0%nat). assert (Hb : okw b) by apply (H 1%nat). assert (Hc : okw c) by apply (H 2%nat).
  assert (Hd : okw d) by apply (H 3%nat). assert (He : okw e) by apply (H 4%nat). assert (Hf : okw f) by apply (H 5%nat).
  unfold on_words. cbn [y0 y1 y2 y3 y4 y5]. split; [|split].
  - apply okm_MS; apply okw_MEXPAND; assumption.
  - eapply zero5_val; [|exact Z]. cbn [y5]. intros. apply D_MEXPAND; assumption.
  - rewrite !V_val. cbn [y0 y1 y2 y3 y4]. rewrite !val_MEXPAND by assumption. reflexivity.
Qed.
Lemma ms_refresh R g n s v : okn n -> ms n s v -> ms n (fst (refresh_words R s g n)) v.
Proof.
  intros Hn (H & Z & <-). destruct s as [a b c d e f].
  assert (Ha : okw a) by apply (H 0%nat). assert (Hb : okw b) by apply (H 1%nat). assert (Hc : okw c) by apply (H 2%nat).
  assert (Hd : okw d) by apply (H 3%nat). assert (He : okw e) by apply (H 4%nat). assert (Hf : okw f) by apply (H 5%nat).
  unfold refresh_words. cbn [y0 y1 y2 y3 y4 y5].
  destruct (MREFRESH R g a n) as [a' g1] eqn:E1. destruct (MREFRESH R g1 b n) as [b' g2] eqn:E2.
  destruct (MREFRESH R g2 c n) as [c' g3] eqn:E3. destruct (MREFRESH R g3 d n) as [d' g4] eqn:E4.
  destruct (MREFRESH R g4 e n) as [e' g5] eqn:E5. destruct (MREFRESH R g5 f n) as [f' g6] eqn:E6.
  cbn [fst].
  assert (K : forall g w w' g', MREFRESH R g w n = (w', g') -> okw w -> okw w' /\ val n w' = val n w /\
     forall i, (i < 2)%nat -> D n w' i = D n w i).
  { intros g0 w w' g' E Hw. replace w' with (fst (MREFRESH R g0 w n)) by (rewrite E; reflexivity).
    split; [apply okw_MREFRESH, Hw|]. split; [apply val_MREFRESH; assumption|]. intros. apply D_MREFRESH; assumption. }
  destruct (K _ _ _ _ E1 Ha) as (? & V1 & _). destruct (K _ _ _ _ E2 Hb) as (? & V2 & _).
  destruct (K _ _ _ _ E3 Hc) as (? & V3 & _). destruct (K _ _ _ _ E4 Hd) as (? & V4 & _).
  destruct (K _ _ _ _ E5 He) as (? & V5 & _). destruct (K _ _ _ _ E6 Hf) as (? & _ & D6).
  split; [|split].
  - apply okm_MS; assumption.
  - eapply zero5_val; [|exact Z]. cbn [y5]. exact D6.
  - rewrite !V_val. cbn [y0 y1 y2 y3 y4]. congruence.
Qed.

(** ** The last partial word of decryption *)

Lemma okw_MMASK w n : okw w -> okw (MMASK w n).
Proof. intros H. unfold MMASK. repeat (apply okw_wxor; [|apply fits_trunc]). exact H. Qed.
Lemma okw_MXORAND c a b ns : okw c -> okw a -> okw b -> okw (MXORAND c a b ns).
Proof.
  intros. unfold MXORAND. cbv zeta.
  assert (okw (wset (wset b 0 0 (notw 32 (wget b 0 0))) 0 1 (notw 32 (wget (wset b 0 0 (notw 32 (wget b 0 0))) 0 1)))).
  { assert (okw (wset b 0 0 (notw 32 (wget b 0 0)))) by (apply okw_wset; [assumption|]; apply fits_notw; auto).
    apply okw_wset; [assumption|]. apply fits_notw; auto. }
  apply okw_MXORBIC; auto. apply okw_MXORBIC; auto.
Qed.
Lemma D_MXORAND ns c a b i : okn ns -> (i < 2)%nat -> okw a -> okw b ->
  D ns (MXORAND c a b ns) i = N.lxor (D ns c i) (N.land (D ns a i) (D ns b i)).
Proof.
  intros Hn Hi Ha Hb. unfold MXORAND. cbv zeta.
  set (b1 := wset b 0 0 (notw 32 (wget b 0 0))). set (b2 := wset b1 0 1 (notw 32 (wget b1 0 1))).
  assert (H1 : okw b1) by (apply okw_wset; [exact Hb|apply fits_notw; auto]).
  assert (H2 : okw b2) by (apply okw_wset; [exact H1|apply fits_notw; auto]).
  assert (E0 : D ns b2 0 = notw 32 (D ns b 0)).
  { destruct (D_wset0_other ns b1 (notw 32 (wget b1 0 1)) Hn) as [_ A]. unfold b2. rewrite A. apply D_not0; auto. }
  assert (E1 : D ns b2 1 = notw 32 (D ns b 1)).
  { unfold b2. rewrite D_not0 by (auto; lia). f_equal. destruct (D_wset0_other ns b (notw 32 (wget b 0 0)) Hn) as [A _]. exact A. }
  assert (NN : forall x, fits 32 x -> notw 32 (notw 32 x) = x).
  { intros x Hx. apply (fits_ext 32); [apply fits_notw, fits_notw, Hx|exact Hx|]. intros j Hj. rewrite !testbit_notw.
    replace (j <? 32) with true by lia. cbn [andb]. apply negb_involutive. }
  destruct (D_MXORBIC_other ns (MXORBIC c a b2 0 ns) a b2 Hn) as [_ O1].
  destruct (D_MXORBIC_other ns c a b2 Hn) as [O2 _].
  assert (E : i = 0%nat \/ i = 1%nat) by lia. destruct E as [->| ->].
  - rewrite O1, D_MXORBIC by assumption. rewrite E0, NN by apply fits_D. reflexivity.
  - rewrite D_MXORBIC by assumption. rewrite O2, E1, NN by apply fits_D. reflexivity.
Qed.
Lemma val_land n a b : ofw LE (N.land (D n a 0) (D n b 0)) (N.land (D n a 1) (D n b 1)) = N.land (J n a) (J n b).
Proof. unfold J. rewrite land_ofw by apply fits_D. reflexivity. Qed.
Lemma bitperm_land f x y : bitperm f (N.land x y) = N.land (bitperm f x) (bitperm f y).
Proof.
  apply N.bits_inj; intro i. rewrite N.land_spec, !testbit_bitperm, N.land_spec. destruct (i <? 64); reflexivity.
Qed.
Lemma val_MXORAND ns c a b : okn ns -> okw a -> okw b ->
  val ns (MXORAND c a b ns) = N.lxor (val ns c) (N.land (val ns a) (val ns b)).
Proof.
  intros Hn Ha Hb. unfold val. unfold cn32. rewrite <- bitperm_land, <- bitperm_lxor. f_equal.
  unfold J. rewrite !D_MXORAND by (auto; lia). rewrite land_ofw, lxor_ofw by (auto using fits_D, fits_land). reflexivity.
Qed.
Lemma val_MMASK ns w n : okn ns -> val ns w = 0 -> n < 8 ->
  forall x, fits 64 x -> N.land (val ns (MMASK w n)) x = CLEARBYTES x n.
Proof.
  intros Hn H0 Hb x Hx. unfold MMASK. cbv zeta. rewrite val_wxor0 by (auto; apply fits_trunc). rewrite H0, N.lxor_0_l.
  assert (C : forallb (fun n => let n := N.of_nat n in
     cn32 (ofw LE (shlw 32 0xffffffff (n * 4)) (shlw 32 0xffffffff (n * 4))) =? shlw 64 (N.ones 64) (8 * n)) (seq 0 8) = true)
    by (vm_compute; reflexivity).
  rewrite forallb_forall in C. specialize (C (N.to_nat n) ltac:(apply in_seq; lia)). cbv zeta in C.
  rewrite N2Nat.id in C. apply N.eqb_eq in C. rewrite C.
  apply (fits_ext 64).
  - apply fits_testbit. intros i Hi. rewrite N.land_spec, (fits_bit_high 64 x i Hx Hi). apply andb_false_r.
  - apply fits_CLEARBYTES; [exact Hx|lia].
  - intros i Hi. rewrite N.land_spec, testbit_shlw, testbit_ones. unfold CLEARBYTES.
    rewrite testbit_clear by (auto; lia). rewrite N2Nat.id, N.add_0_l, N.mul_0_r.
    replace (i <? 64) with true by lia. replace (i - 8 * n <? 64) with true by lia. replace (0 <=? i) with true by lia.
    cbn [andb]. rewrite andb_true_r, andb_comm. f_equal. destruct (N.leb_spec (8 * n) i), (N.ltb_spec i (8 * n)); lia.
Qed.
