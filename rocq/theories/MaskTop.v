(** * MaskTop.v -- the masked AEAD: finalisation, the tag check and the two
    functions of the API. *)
From Coq Require Import Arith Bool NArith ZArith List Lia Btauto Init.Byte.
From Coq Require Import ZifyBool ZifyNat ZifyN.
From Verif Require Import Words WordFacts Spec SpecFacts RoundFacts ModelRef StateRep RefRound RefPrim RefAead RefAeadDec ModelCommon
  ComPrim ComAeadDec ModelWords WordLaws BitExp WordInst WordInstBi ModelMask MaskVal MaskRound MaskPerm MaskArr MaskShares MaskState
  MaskAead MaskDec CMem Contract CMemFacts.
Import ListNotations.
Local Open Scope N_scope.

(** ** The check of 32 bits *)

(** [y]: XOR of the last two words; its even and its odd bits must agree *)
Definition pairs_equal (y : N) : bool := N.land (N.lxor y (N.shiftr y 1)) 0x5555555555555555 =? 0.

Lemma fold_byte r : fits 32 r ->
  let a := N.lor r (shrw r 16) in let a := N.lor a (shrw a 8) in
  (N.land a 0xff =? 0) = (r =? 0).
Proof.
  intros Hr a1 a2.
  assert (T : forall j, j < 8 -> N.testbit (N.land a2 0xff) j =
    N.testbit r j || N.testbit r (j + 16) || (N.testbit r (j + 8) || N.testbit r (j + 8 + 16))).
  { intros j Hj. rewrite N.land_spec. change 0xff with (N.ones 8). rewrite testbit_ones.
    replace (j <? 8) with true by lia. rewrite andb_true_r. unfold a2, a1.
    rewrite !N.lor_spec, !testbit_shrw, !N.lor_spec, !testbit_shrw. reflexivity. }
  destruct (N.eqb_spec r 0) as [->|Hr0]; [reflexivity|].
  apply N.eqb_neq. intros E. apply Hr0. apply (fits_ext 32); [exact Hr|apply fits_0|].
  intros i Hi. rewrite N.bits_0. rewrite E in T.
  assert (C : exists j, j < 8 /\ (i = j \/ i = j + 16 \/ i = j + 8 \/ i = j + 8 + 16)).
  { destruct (N.lt_ge_cases i 8); [exists i; lia|]. destruct (N.lt_ge_cases i 16); [exists (i - 8); lia|].
    destruct (N.lt_ge_cases i 24); [exists (i - 16); lia|]. exists (i - 24). lia. }
  destruct C as (j & Hj & C). specialize (T j Hj). rewrite N.bits_0 in T. symmetry in T.
  apply orb_false_iff in T as [T1 T2]. apply orb_false_iff in T1 as [T1 T1']. apply orb_false_iff in T2 as [T2 T2'].
  destruct C as [->|[->|[->| ->]]]; assumption.
Qed.
(** even and odd bits of a word in the two halves *)
Lemma halves_bit w i : okw w -> i < 32 ->
  N.testbit (wget w 0 0) i = N.testbit (val 1 w) (2 * i) /\ N.testbit (wget w 0 1) i = N.testbit (val 1 w) (2 * i + 1).
Proof.
  intros Hw Hi. unfold val, J. cbn [D]. rewrite !rotr32_0 by apply Hw. unfold cn32. rewrite !testbit_bitperm.
  rewrite !testbit_ofw by apply Hw.
  replace (2 * i <? 64) with true by lia. replace (2 * i + 1 <? 64) with true by lia. cbn [andb].
  assert (C : forallb (fun i => let i := N.of_nat i in (pi32 (2 * i) =? i) && (pi32 (2 * i + 1) =? i + 32)) (seq 0 32) = true)
    by (vm_compute; reflexivity).
  rewrite forallb_forall in C. specialize (C (N.to_nat i) ltac:(apply in_seq; lia)). cbv zeta in C. rewrite N2Nat.id in C.
  apply andb_true_iff in C as [C1 C2]. apply N.eqb_eq in C1, C2. rewrite C1, C2.
  replace (i <? 32) with true by lia. replace (i + 32 <? 32) with false by lia. replace (i + 32 - 32) with i by lia. auto.
Qed.
Lemma mask55_bit i : i < 64 -> N.testbit 0x5555555555555555 i = N.even i.
Proof.
  intros H. assert (C : forallb (fun i => Bool.eqb (N.testbit 0x5555555555555555 (N.of_nat i)) (N.even (N.of_nat i))) (seq 0 64) = true)
    by (vm_compute; reflexivity).
  rewrite forallb_forall in C. specialize (C (N.to_nat i) ltac:(apply in_seq; lia)). rewrite N2Nat.id in C. apply eqb_prop, C.
Qed.
Lemma pairs_equal_spec y : pairs_equal y = true <-> forall i, i < 32 -> N.testbit y (2 * i) = N.testbit y (2 * i + 1).
Proof.
  unfold pairs_equal. rewrite N.eqb_eq. split.
  - intros H i Hi. assert (E := f_equal (fun x => N.testbit x (2 * i)) H). cbv beta in E.
    rewrite N.land_spec, N.lxor_spec, N.shiftr_spec, mask55_bit, N.bits_0 in E by lia.
    replace (N.even (2 * i)) with true in E by (symmetry; apply N.even_spec; exists i; lia).
    destruct (N.testbit y (2 * i)), (N.testbit y (2 * i + 1)); cbn in E; congruence.
  - intros H. apply N.bits_inj. intros j. rewrite N.land_spec, N.lxor_spec, N.shiftr_spec, N.bits_0 by lia.
    destruct (N.lt_ge_cases j 64) as [Hj|Hj].
    + rewrite mask55_bit by exact Hj. destruct (N.even j) eqn:E; [|apply andb_false_r].
      apply N.even_spec in E. destruct E as [i ->]. rewrite H by lia. destruct (N.testbit y (2 * i + 1)); reflexivity.
    + rewrite (fits_bit_high 64 0x5555555555555555 j) by (auto; reflexivity). apply andb_false_r.
Qed.

Section Top.
Variable F : cfg.
Variable R : N -> N.
Hypothesis HF : okcfg F.
Local Notation okM := (okM F HF).
Local Notation okC := (okC F HF).
Local Notation okKEY := (okKEY F HF).
Local Notation okAD := (okAD F HF).
Local Notation okNP := (okNP F HF).
Local Notation leCM := (leCM F HF).
Local Notation leCK := (leCK F HF).
Local Notation leAK := (leAK F HF).
Local Notation leAM := (leAM F HF).
Local Notation leMK := (leMK F HF).
Local Notation le1K := (le1K F HF).

Lemma m_iszero_ok s v : ms (nKEY F) s v ->
  m_iszero F s = if pairs_equal (N.lxor (X3 v) (X4 v)) then 0%Z else (-1)%Z.
Proof.
  intros Hs. destruct (ms_get _ _ _ 3 Hs ltac:(lia)) as [O3 V3]. destruct (ms_get _ _ _ 4 Hs ltac:(lia)) as [O4 V4].
  change (getx v (N.of_nat 3)) with (X3 v) in V3. change (getx v (N.of_nat 4)) with (X4 v) in V4.
  unfold m_iszero. cbv zeta.
  replace (getw (setw (setw s 3 (MREDUCE (getw s 3) (nKEY F) 1)) 4 (MREDUCE (getw (setw s 3 (MREDUCE (getw s 3) (nKEY F) 1)) 4) (nKEY F) 1)) 3)
    with (MREDUCE (getw s 3) (nKEY F) 1) by (destruct s; reflexivity).
  replace (getw (setw (setw s 3 (MREDUCE (getw s 3) (nKEY F) 1)) 4 (MREDUCE (getw (setw s 3 (MREDUCE (getw s 3) (nKEY F) 1)) 4) (nKEY F) 1)) 4)
    with (MREDUCE (getw s 4) (nKEY F) 1) by (destruct s; reflexivity).
  set (a := MREDUCE (getw s 3) (nKEY F) 1). set (b := MREDUCE (getw s 4) (nKEY F) 1).
  assert (Oa : okw a) by (apply okw_MREDUCE, O3). assert (Ob : okw b) by (apply okw_MREDUCE, O4).
  assert (Va : val 1 a = X3 v) by (unfold a; rewrite val_MREDUCE by (auto using okKEY, le1K); exact V3).
  assert (Vb : val 1 b = X4 v) by (unfold b; rewrite val_MREDUCE by (auto using okKEY, le1K); exact V4).
  set (r := N.lxor (N.lxor (wget a 0 0) (wget a 0 1)) (N.lxor (wget b 0 0) (wget b 0 1))).
  assert (Fr : fits 32 r) by (repeat apply fits_lxor; auto).
  pose proof (fold_byte r Fr) as FB. cbv zeta in FB.
  set (q := N.land (N.lor (N.lor r (shrw r 16)) (shrw (N.lor r (shrw r 16)) 8)) 255) in *.
  assert (Er : (r =? 0) = pairs_equal (N.lxor (X3 v) (X4 v))).
  { apply eq_true_iff_eq. rewrite N.eqb_eq, pairs_equal_spec. split.
    - intros E i Hi. assert (Et := f_equal (fun x => N.testbit x i) E). cbv beta in Et. unfold r in Et.
      destruct (halves_bit a i Oa Hi) as [A0 A1]. destruct (halves_bit b i Ob Hi) as [B0 B1].
      rewrite !N.lxor_spec, A0, A1, B0, B1, Va, Vb, N.bits_0 in Et. rewrite !N.lxor_spec.
      destruct (N.testbit (X3 v) (2 * i)), (N.testbit (X4 v) (2 * i)), (N.testbit (X3 v) (2 * i + 1)), (N.testbit (X4 v) (2 * i + 1));
        cbn in *; congruence.
    - intros E. apply (fits_ext 32); [exact Fr|apply fits_0|]. intros i Hi. rewrite N.bits_0. specialize (E i Hi). unfold r.
      destruct (halves_bit a i Oa Hi) as [A0 A1]. destruct (halves_bit b i Ob Hi) as [B0 B1].
      rewrite !N.lxor_spec, A0, A1, B0, B1, Va, Vb. rewrite !N.lxor_spec in E.
      destruct (N.testbit (X3 v) (2 * i)), (N.testbit (X4 v) (2 * i)), (N.testbit (X3 v) (2 * i + 1)), (N.testbit (X4 v) (2 * i + 1));
        cbn in *; congruence. }
  rewrite <- Er, <- FB. assert (Hq : q < 256).
  { unfold q. rewrite N.land_comm. apply (fits_land 8). reflexivity. }
  clearbody q. destruct (N.eqb_spec q 0) as [Eq|Hq0]; [rewrite Eq; reflexivity|].
  replace (Z.shiftr (Z.of_N q - 1) 8) with 0%Z; [reflexivity|].
  rewrite Z.shiftr_div_pow2 by lia. symmetry. apply Z.div_small. change (2 ^ 8)%Z with 256%Z. lia.
Qed.

(** ** Finalisation *)

Lemma m_final_ok M ka s v k0 k1 : ms (nKEY F) s v -> length k0 = 8%nat -> length k1 = 8%nat -> abytes ka (nKEY F) 0 (k0 ++ k1) ->
  exists s', runs (m_final F s ka) M M s' /\ ms (nKEY F) s' (ref_final v (le_num k0) (le_num k1)).
Proof.
  intros Hs K0 K1 Ak. destruct (abytes_16 _ _ _ _ _ K0 K1 Ak) as [Ak0 Ak1]. rewrite N.add_0_l in Ak1.
  destruct (runs_MLOAD M ka _ _ _ okKEY Ak0) as (wk0 & Rk0 & Ok0 & _ & Vk0).
  destruct (runs_MLOAD M ka _ _ _ okKEY Ak1) as (wk1 & Rk1 & Ok1 & _ & Vk1).
  pose proof (aval_len _ _ _ _ okKEY Ak1).
  pose proof (ms_xor _ _ _ _ 2 _ _ okKEY (self _ okKEY) Hs ltac:(lia) Ok0 Vk0) as S1.
  pose proof (ms_xor _ _ _ _ 3 _ _ okKEY (self _ okKEY) S1 ltac:(lia) Ok1 Vk1) as S2.
  pose proof (ms_P12 _ _ _ okKEY S2) as S3.
  pose proof (ms_xor _ _ _ _ 3 _ _ okKEY (self _ okKEY) S3 ltac:(lia) Ok0 Vk0) as S4.
  pose proof (ms_xor _ _ _ _ 4 _ _ okKEY (self _ okKEY) S4 ltac:(lia) Ok1 Vk1) as S5.
  eexists. split; [|exact S5].
  unfold m_final. step; [exact Rk0|]. step; [apply runs_aoff; lia|]. rewrite N.add_0_l. step; [exact Rk1|]. apply runs_ret.
Qed.

Lemma m_settag_ok M s v t o : ms (nKEY F) s v -> o + 4 * N.of_nat (nC F) <= alen t ->
  exists t', runs (m_settag F s t o) M M t' /\ differs (fun j => o <= j) t t' /\
    aout t' (nC F) o (wb (X3 v) ++ wb (X4 v)).
Proof.
  intros Hs Ho.
  destruct (m_store M _ _ t _ _ 3 o okKEY okC leCK Hs) as (t1 & R1 & D1 & A1); [lia|lia|].
  pose proof D1 as (_ & L1 & _).
  destruct (m_store M _ _ t1 _ _ 4 (o + 2 * N.of_nat (nC F)) okKEY okC leCK Hs) as (t2 & R2 & D2 & A2); [lia|lia|].
  exists t2. split; [|split].
  - unfold m_settag. cbv zeta.
    replace (getw (setw (setw s 3 (MREDUCE (getw s 3) (nKEY F) (nC F))) 4 (MREDUCE (getw (setw s 3 (MREDUCE (getw s 3) (nKEY F) (nC F))) 4) (nKEY F) (nC F))) 3)
      with (MREDUCE (getw s 3) (nKEY F) (nC F)) by (destruct s; reflexivity).
    replace (getw (setw (setw s 3 (MREDUCE (getw s 3) (nKEY F) (nC F))) 4 (MREDUCE (getw (setw s 3 (MREDUCE (getw s 3) (nKEY F) (nC F))) 4) (nKEY F) (nC F))) 4)
      with (MREDUCE (getw s 4) (nKEY F) (nC F)) by (destruct s; reflexivity).
    step; [exact R1|]. step; [apply runs_aoff; lia|]. exact R2.
  - eapply differs_sub; [|eapply differs_trans; [exact D1|exact D2]]. cbv beta. lia.
  - apply aout_cons; [eapply aval_differs; [exact D2| |exact A1]; cbv beta; lia|].
    rewrite <- (app_nil_r (wb (X4 v))). apply aout_cons; [exact A2|apply aout_nil].
Qed.

(** the state after the tag check *)
Definition tag_state (v : state) (t0 t1 : N) : state :=
  let z := P8 (St 0 0 0 0 0) in
  let w := P8 (St 0 0 0 (N.lxor (X3 v) t0) (N.lxor (X4 v) t1)) in
  St (X0 w) (X1 w) (X2 w) (N.lxor (X3 w) (X3 z)) (N.lxor (X4 w) (X4 z)).

Lemma m_xortag_ok M s v t o t0 t1 : ms (nKEY F) s v -> length t0 = 8%nat -> length t1 = 8%nat -> abytes t (nC F) o (t0 ++ t1) ->
  exists s', runs (m_xortag F s t o) M M s' /\ ms (nKEY F) s' (tag_state v (le_num t0) (le_num t1)).
Proof.
  intros Hs H0 H1 A. destruct (abytes_16 _ _ _ _ _ H0 H1 A) as [A0 A1].
  destruct (runs_MLOAD M t _ _ _ okC A0) as (w0 & R0 & O0 & _ & V0).
  destruct (runs_MLOAD M t _ _ _ okC A1) as (w1 & R1 & O1 & _ & V1).
  pose proof (aval_len _ _ _ _ okC A1).
  destruct (ms_get _ _ _ 0 Hs ltac:(lia)) as [Q0 _].
  pose proof (ms_set _ _ _ 0 _ _ Hs ltac:(lia) (okw_MREUSE _ 0 (nKEY F) Q0) (val_MREUSE _ _ okKEY Q0)) as S1.
  destruct (ms_get _ _ _ 1 S1 ltac:(lia)) as [Q1 _].
  pose proof (ms_set _ _ _ 1 _ _ S1 ltac:(lia) (okw_MREUSE _ 0 (nKEY F) Q1) (val_MREUSE _ _ okKEY Q1)) as S2.
  destruct (ms_get _ _ _ 2 S2 ltac:(lia)) as [Q2 _].
  pose proof (ms_set _ _ _ 2 _ _ S2 ltac:(lia) (okw_MREUSE _ 0 (nKEY F) Q2) (val_MREUSE _ _ okKEY Q2)) as S3.
  pose proof (ms_xor _ _ _ _ 3 _ _ okKEY leCK S3 ltac:(lia) O0 V0) as S4.
  pose proof (ms_xor _ _ _ _ 4 _ _ okKEY leCK S4 ltac:(lia) O1 V1) as S5.
  pose proof (ms_P8 _ _ _ okKEY S5) as S6.
  pose proof (ms_const0 _ _ _ 3 (nth 0 tag_c 0) okKEY S6 ltac:(lia) eq_refl) as S7.
  pose proof (ms_const1 _ _ _ 3 (nth 1 tag_c 0) okKEY S7 ltac:(lia) eq_refl) as S8.
  pose proof (ms_const0 _ _ _ 4 (nth 2 tag_c 0) okKEY S8 ltac:(lia) eq_refl) as S9.
  pose proof (ms_const1 _ _ _ 4 (nth 3 tag_c 0) okKEY S9 ltac:(lia) eq_refl) as S10.
  eexists. split.
  - unfold m_xortag. cbv zeta. step; [exact R0|]. step; [apply runs_aoff; lia|]. step; [exact R1|]. apply runs_ret.
  - assert (E : forall u v, u = v -> forall s, ms (nKEY F) s u -> ms (nKEY F) s v) by (intros ? ? -> ?; auto).
    eapply E; [|exact S10]. unfold tag_state.
    set (z := P8 (St 0 0 0 0 0)).
    assert (E3 : X3 z = N.lxor (cn32 (ofw LE (nth 0 tag_c 0) 0)) (cn32 (ofw LE 0 (nth 1 tag_c 0)))) by (vm_compute; reflexivity).
    assert (E4 : X4 z = N.lxor (cn32 (ofw LE (nth 2 tag_c 0) 0)) (cn32 (ofw LE 0 (nth 3 tag_c 0)))) by (vm_compute; reflexivity).
    rewrite E3, E4.
    generalize (cn32 (ofw LE (nth 0 tag_c 0) 0)) (cn32 (ofw LE 0 (nth 1 tag_c 0))) (cn32 (ofw LE (nth 2 tag_c 0) 0)) (cn32 (ofw LE 0 (nth 3 tag_c 0))).
    intros c0 c1 c2 c3.
    replace (xorx (xorx (setx (setx (setx v (N.of_nat 0) 0) (N.of_nat 1) 0) (N.of_nat 2) 0) (N.of_nat 3) (le_num t0)) (N.of_nat 4) (le_num t1))
      with (St 0 0 0 (N.lxor (X3 v) (le_num t0)) (N.lxor (X4 v) (le_num t1))) by (destruct v; reflexivity).
    generalize (P8 (St 0 0 0 (N.lxor (X3 v) (le_num t0)) (N.lxor (X4 v) (le_num t1)))). intros w. destruct w as [a0 a1 a2 a3 a4].
    change (St a0 a1 a2 (N.lxor (N.lxor a3 c0) c1) (N.lxor (N.lxor a4 c2) c3) = St a0 a1 a2 (N.lxor a3 (N.lxor c0 c1)) (N.lxor a4 (N.lxor c2 c3))).
    rewrite !N.lxor_assoc. reflexivity.
Qed.

(** ** Changing the level of protection *)

Lemma to_adata s v : ms (nKEY F) s v -> ms (nAD F) (if (nKEY F =? nAD F)%nat then s else m_level_adata F s) v.
Proof.
  intros H. destruct (Nat.eqb_spec (nKEY F) (nAD F)) as [<-|_]; [exact H|].
  apply ms_reduce; auto using okKEY, leAK.
Qed.
Lemma to_encdec s v g : ms (nAD F) s v -> ms (nM F) (fst (if (nAD F =? nM F)%nat then (s, g) else m_level_encdec F R s g)) v.
Proof.
  intros H. destruct (Nat.eqb_spec (nAD F) (nM F)) as [<-|_]; [exact H|]. unfold m_level_encdec.
  assert (G : ms (nM F) (on_words (fun w => MEXPAND w (nAD F) (nM F)) s) v) by (apply ms_expand; auto using okM, leAM).
  destruct (nAD F <? nM F)%nat; [apply ms_refresh; auto using okM|exact G].
Qed.
Lemma to_final s v g : ms (nM F) s v -> ms (nKEY F) (fst (if (nM F =? nKEY F)%nat then (s, g) else m_level_final F R s g)) v.
Proof.
  intros H. destruct (Nat.eqb_spec (nM F) (nKEY F)) as [<-|_]; [exact H|]. unfold m_level_final.
  assert (G : ms (nKEY F) (on_words (fun w => MEXPAND w (nM F) (nKEY F)) s) v) by (apply ms_expand; auto using okKEY, leMK).
  destruct (nM F <? nKEY F)%nat; [apply ms_refresh; auto using okKEY|exact G].
Qed.
End Top.
