(** * AvxRound.v -- the AVX-512 round is the Ascon round on lanes 0 to 4,
    whatever the other lanes hold. *)
From Coq Require Import Arith NArith ZArith List Lia Bool Init.Byte.
From Coq Require Import ZifyBool ZifyNat ZifyN.
From Verif Require Import Words WordFacts Spec SpecFacts RoundFacts CMem ModelRef StateRep RefRound RefPrim
  ModelCommon ModelWords WordLaws WordInst ComPrim ModelAvx.
Import ListNotations.
Local Open Scope N_scope.

Lemma testbit_ternlog a b c imm i :
  N.testbit (ternlog a b c imm) i = (i <? 64) && N.testbit imm
    (4 * N.b2n (N.testbit a i) + 2 * N.b2n (N.testbit b i) + N.b2n (N.testbit c i)).
Proof. unfold ternlog. rewrite testbit_of_bits. reflexivity. Qed.
Lemma fits_ternlog a b c imm : fits 64 (ternlog a b c imm).
Proof. apply (fits_of_bits 64). Qed.

(** 0x96: the sum of the three inputs *)
Lemma ternlog_xor a b c : fits 64 a -> fits 64 b -> fits 64 c ->
  ternlog a b c 0x96 = N.lxor a (N.lxor b c).
Proof.
  intros Ha Hb Hc. apply (fits_ext 64); [apply fits_ternlog|auto using fits_lxor|].
  intros i Hi. rewrite testbit_ternlog, !N.lxor_spec. replace (i <? 64) with true by lia.
  destruct (N.testbit a i), (N.testbit b i), (N.testbit c i); reflexivity.
Qed.
(** 0xd2: a ^ (~b & c) *)
Lemma ternlog_chi a b c : fits 64 a -> fits 64 b -> fits 64 c ->
  ternlog a b c 0xd2 = N.lxor a (N.land (notw 64 b) c).
Proof.
  intros Ha Hb Hc. apply (fits_ext 64); [apply fits_ternlog|auto using fits_lxor, fits_land, fits_notw|].
  intros i Hi. rewrite testbit_ternlog, N.lxor_spec, N.land_spec, testbit_notw. replace (i <? 64) with true by lia.
  destruct (N.testbit a i), (N.testbit b i), (N.testbit c i); reflexivity.
Qed.

Lemma rorv_rotr x n : fits 64 x -> n < 64 ->
  N.lor (shrw x (n mod 64)) (shlw 64 x ((64 - n mod 64) mod 64)) = rotr x n.
Proof.
  intros Hx Hn. rewrite <- ror64_rotr by assumption. unfold ror64.
  rewrite land63. rewrite (N.mod_small n) by exact Hn. reflexivity.
Qed.
Lemma fits_ones64 : fits 64 (N.ones 64).
Proof. reflexivity. Qed.

Definition wfz (z : zmm) : Prop := wf (zx z).

Lemma mkvec_St f : zx (mkvec f) = St (f 0) (f 1) (f 2) (f 3) (f 4).
Proof. reflexivity. Qed.
Lemma lane_mkvec f i : i < 5 -> lane (mkvec f) i = f i.
Proof.
  intros H. assert (E : i = 0 \/ i = 1 \/ i = 2 \/ i = 3 \/ i = 4) by lia.
  destruct E as [->|[->|[->|[->| ->]]]]; reflexivity.
Qed.

(** The five lanes of each instruction of [zROUND]. *)
Lemma zx_tern a b c imm : zx (ternarylogic a b c imm) =
  St (ternlog (X0 (zx a)) (X0 (zx b)) (X0 (zx c)) imm) (ternlog (X1 (zx a)) (X1 (zx b)) (X1 (zx c)) imm)
     (ternlog (X2 (zx a)) (X2 (zx b)) (X2 (zx c)) imm) (ternlog (X3 (zx a)) (X3 (zx b)) (X3 (zx c)) imm)
     (ternlog (X4 (zx a)) (X4 (zx b)) (X4 (zx c)) imm).
Proof. reflexivity. Qed.
Lemma zx_xor1 s : zx (maskz_permutexvar 0x15 (set_epi64 0 0 0 3 0 1 0 4) s) =
  St (X4 (zx s)) 0 (X1 (zx s)) 0 (X3 (zx s)).
Proof. reflexivity. Qed.
Lemma zx_xor2 s : zx (maskz_permutexvar 0x0b (set_epi64 0 0 0 0 2 0 0 4) s) =
  St (X4 (zx s)) (X0 (zx s)) 0 (X2 (zx s)) 0.
Proof. reflexivity. Qed.
Lemma zx_chi1 s : zx (permutexvar (set_epi64 0 0 0 0 4 3 2 1) s) =
  St (X1 (zx s)) (X2 (zx s)) (X3 (zx s)) (X4 (zx s)) (X0 (zx s)).
Proof. reflexivity. Qed.
Lemma zx_chi2 s : zx (permutexvar (set_epi64 0 0 0 1 0 4 3 2) s) =
  St (X2 (zx s)) (X3 (zx s)) (X4 (zx s)) (X0 (zx s)) (X1 (zx s)).
Proof. reflexivity. Qed.
Lemma zx_ror s a4 a3 a2 a1 a0 : wf (zx s) -> a0 < 64 -> a1 < 64 -> a2 < 64 -> a3 < 64 -> a4 < 64 ->
  zx (rorv s (set_epi64 0 0 0 a4 a3 a2 a1 a0)) =
  St (rotr (X0 (zx s)) a0) (rotr (X1 (zx s)) a1) (rotr (X2 (zx s)) a2) (rotr (X3 (zx s)) a3) (rotr (X4 (zx s)) a4).
Proof.
  intros (H0 & H1 & H2 & H3 & H4) ? ? ? ? ?. unfold rorv. rewrite mkvec_St.
  change (lane s 0) with (X0 (zx s)). change (lane s 1) with (X1 (zx s)). change (lane s 2) with (X2 (zx s)).
  change (lane s 3) with (X3 (zx s)). change (lane s 4) with (X4 (zx s)).
  change (lane (set_epi64 0 0 0 a4 a3 a2 a1 a0) 0) with a0. change (lane (set_epi64 0 0 0 a4 a3 a2 a1 a0) 1) with a1.
  change (lane (set_epi64 0 0 0 a4 a3 a2 a1 a0) 2) with a2. change (lane (set_epi64 0 0 0 a4 a3 a2 a1 a0) 3) with a3.
  change (lane (set_epi64 0 0 0 a4 a3 a2 a1 a0) 4) with a4.
  cbv zeta. rewrite !rorv_rotr by assumption. reflexivity.
Qed.

Lemma tern_xor_sigma x a b : fits 64 x -> ternlog x (rotr x a) (rotr x b) 0x96 = sigma x a b.
Proof. intros Hx. rewrite ternlog_xor by auto using fits_rotr. reflexivity. Qed.

Theorem zROUND_ok z c : wf (zx z) -> fits 64 c -> zx (zROUND z c) = round (zx z) c.
Proof.
  destruct z as [[x0 x1 x2 x3 x4] h5 h6 h7]. intros (H0 & H1 & H2 & H3 & H4) Hc.
  cbn [zx X0 X1 X2 X3 X4] in *. set (z := Zm _ _ _ _).
  unfold zROUND. cbv zeta.
  set (a := ternarylogic z (maskz_permutexvar 0x15 _ _) _ 0x96).
  assert (Ea : zx a = St (N.lxor x0 x4) x1 (N.lxor x2 (N.lxor x1 c)) x3 (N.lxor x4 x3)).
  { unfold a. rewrite zx_tern, zx_xor1. cbn [zx z set_epi64 X0 X1 X2 X3 X4].
    rewrite !ternlog_xor by auto using fits_0. rewrite ?N.lxor_0_r. reflexivity. }
  set (y0 := N.lxor x0 x4) in *. set (y2 := N.lxor x2 (N.lxor x1 c)) in *. set (y4 := N.lxor x4 x3) in *.
  assert (G0 : fits 64 y0) by (unfold y0; auto using fits_lxor).
  assert (G2 : fits 64 y2) by (unfold y2; auto using fits_lxor).
  assert (G4 : fits 64 y4) by (unfold y4; auto using fits_lxor).
  set (b := ternarylogic a _ _ 0xd2).
  assert (Eb : zx b = St (N.lxor y0 (N.land (notw 64 x1) y2)) (N.lxor x1 (N.land (notw 64 y2) x3))
     (N.lxor y2 (N.land (notw 64 x3) y4)) (N.lxor x3 (N.land (notw 64 y4) y0)) (N.lxor y4 (N.land (notw 64 y0) x1))).
  { unfold b. rewrite zx_tern, zx_chi1, zx_chi2, Ea. cbn [X0 X1 X2 X3 X4].
    rewrite !ternlog_chi by assumption. reflexivity. }
  set (u0 := N.lxor y0 _) in Eb. set (u1 := N.lxor x1 (N.land _ _)) in Eb. set (u2 := N.lxor y2 (N.land _ _)) in Eb.
  set (u3 := N.lxor x3 _) in Eb. set (u4 := N.lxor y4 (N.land _ _)) in Eb.
  assert (K0 : fits 64 u0) by (unfold u0; auto using fits_lxor, fits_land, fits_notw).
  assert (K1 : fits 64 u1) by (unfold u1; auto using fits_lxor, fits_land, fits_notw).
  assert (K2 : fits 64 u2) by (unfold u2; auto using fits_lxor, fits_land, fits_notw).
  assert (K3 : fits 64 u3) by (unfold u3; auto using fits_lxor, fits_land, fits_notw).
  assert (K4 : fits 64 u4) by (unfold u4; auto using fits_lxor, fits_land, fits_notw).
  set (d := ternarylogic b _ _ 0x96).
  assert (Ed : zx d = St (N.lxor u0 u4) (N.lxor u1 u0) (notw 64 u2) (N.lxor u3 u2) u4).
  { unfold d. rewrite zx_tern, zx_xor2, Eb. cbn [zx set_epi64 X0 X1 X2 X3 X4].
    rewrite !ternlog_xor by auto using fits_0, fits_ones64. rewrite ?N.lxor_0_r, ?N.lxor_0_l. reflexivity. }
  assert (Wd : wf (zx d)) by (rewrite Ed; repeat split; cbn [X0 X1 X2 X3 X4]; auto using fits_lxor, fits_notw).
  rewrite zx_tern, !zx_ror by (auto; reflexivity). rewrite Ed. cbn [X0 X1 X2 X3 X4].
  rewrite !tern_xor_sigma by auto using fits_lxor, fits_notw.
  apply round_intro; unfold u0, u1, u2, u3, u4, y0, y2, y4; clear - H0 H1 H2 H3 H4 Hc; sbox_eq.
Qed.

Lemma zrounds_ok l : forall z, wf (zx z) -> Forall (fits 64) l ->
  wf (zx (fold_left zROUND l z)) /\ zx (fold_left zROUND l z) = fold_left round l (zx z).
Proof.
  induction l as [|c l IH]; intros z Hz Hl; [split; [exact Hz|reflexivity]|].
  inversion Hl as [|? ? Hc Hl']; subst. cbn [fold_left].
  rewrite <- (zROUND_ok z c Hz Hc). apply IH; [|exact Hl'].
  rewrite zROUND_ok by assumption. apply wf_round.
Qed.

(** On lanes 0 to 4 the permutation is that of opt64 (and of the standard). *)
Lemma zP_ok nr z : nr = 12 \/ nr = 8 -> wf (zx z) ->
  wf (zx (zP nr z)) /\ zx (zP nr z) = w_P wo nr (zx z).
Proof.
  intros Hnr Hz.
  assert (E : forall l, Forall (fits 64) l -> fold_left (ROUND_t w64_ROR) l (zx z) = fold_left round l (zx z)).
  { intros l Hl. revert Hz. generalize (zx z). induction Hl as [|c l Hc Hl IH]; intros s Hs; [reflexivity|].
    cbn [fold_left]. destruct (ROUND_t_ok pi64 w64_ROR pi64_lt w64_ROR_ok s c Hs Hc) as [W R].
    change (bitperm pi64) with cn64 in R. rewrite !cs64_id in R by assumption. rewrite cn64_id in R by exact Hc.
    rewrite R. apply IH, wf_round. }
  assert (F : forall l, forallb (fun c => c <? 2 ^ 64) (map w64_RCk l) = true -> Forall (fits 64) (map w64_RCk l)).
  { intros l H. apply Forall_forall. intros c Hc. rewrite forallb_forall in H. apply N.ltb_lt, H, Hc. }
  destruct Hnr as [-> | ->].
  - change (zP 12 z) with (fold_left zROUND (map w64_RCk [0; 1; 2; 3; 4; 5; 6; 7; 8; 9; 10; 11]) z).
    change (w_P wo 12 (zx z)) with (Punrolled (ROUND_t w64_ROR) w64_RCk 12 (zx z)).
    rewrite Punrolled_12, E by (apply F; reflexivity). apply zrounds_ok; [exact Hz|]. apply F; reflexivity.
  - change (zP 8 z) with (fold_left zROUND (map w64_RCk [4; 5; 6; 7; 8; 9; 10; 11]) z).
    change (w_P wo 8 (zx z)) with (Punrolled (ROUND_t w64_ROR) w64_RCk 8 (zx z)).
    rewrite Punrolled_8, E by (apply F; reflexivity). apply zrounds_ok; [exact Hz|]. apply F; reflexivity.
Qed.

(** ** Loads and stores *)

Lemma le_num_zeros n : le_num (zeros n) = 0.
Proof. induction n as [|n IH]; [reflexivity|]. cbn [zeros repeat le_num]. unfold zeros in IH. rewrite IH. reflexivity. Qed.

Lemma zx_vec16 b0 b1 : length b0 = 8%nat -> length b1 = 8%nat ->
  zx (vec_of_bytes ((b0 ++ b1) ++ zeros (64 - length (b0 ++ b1)))) = St (le_num b0) (le_num b1) 0 0 0.
Proof.
  intros H0 H1. rewrite app_length, H0, H1.
  do 8 (destruct b0 as [|? b0]; [discriminate H0|]). destruct b0; [|discriminate H0].
  do 8 (destruct b1 as [|? b1]; [discriminate H1|]). destruct b1; [|discriminate H1].
  reflexivity.
Qed.
Lemma zx_vec8 b : length b = 8%nat -> zx (vec_of_bytes (b ++ zeros (64 - length b))) = St (le_num b) 0 0 0 0.
Proof.
  intros H0. rewrite H0. do 8 (destruct b as [|? b]; [discriminate H0|]). destruct b; [|discriminate H0].
  reflexivity.
Qed.
Lemma zx_vxor a b : zx (vxor a b) =
  St (N.lxor (X0 (zx a)) (X0 (zx b))) (N.lxor (X1 (zx a)) (X1 (zx b))) (N.lxor (X2 (zx a)) (X2 (zx b)))
     (N.lxor (X3 (zx a)) (X3 (zx b))) (N.lxor (X4 (zx a)) (X4 (zx b))).
Proof. reflexivity. Qed.

Lemma word_wo l : length l = 8%nat -> ComPrim.word_of LE wo l = le_num l.
Proof. intros H. unfold ComPrim.word_of. rewrite H. change (8 - 8)%nat with 0%nat. cbn [zeros repeat]. rewrite app_nil_r. reflexivity. Qed.

Lemma zx_xor16 z b0 b1 : length b0 = 8%nat -> length b1 = 8%nat ->
  zx (vxor z (vec_of_bytes ((b0 ++ b1) ++ zeros (64 - length (b0 ++ b1))))) =
  xorx (xorx (zx z) 0 (ComPrim.word_of LE wo b0)) 1 (ComPrim.word_of LE wo b1).
Proof.
  intros H0 H1. rewrite zx_vxor, zx_vec16, !word_wo by assumption. destruct (zx z) as [x0 x1 x2 x3 x4].
  cbn [X0 X1 X2 X3 X4]. rewrite !N.lxor_0_r. reflexivity.
Qed.
Lemma zx_xor8 z b : length b = 8%nat ->
  zx (vxor z (vec_of_bytes (b ++ zeros (64 - length b)))) = xorx (zx z) 0 (ComPrim.word_of LE wo b).
Proof.
  intros H0. rewrite zx_vxor, zx_vec8, !word_wo by assumption. destruct (zx z) as [x0 x1 x2 x3 x4].
  cbn [X0 X1 X2 X3 X4]. rewrite !N.lxor_0_r. reflexivity.
Qed.

Lemma vec_bytes_16 z : firstn 16 (vec_bytes z) = wb (X0 (zx z)) ++ wb (X1 (zx z)).
Proof. reflexivity. Qed.
Lemma vec_bytes_8 z : firstn 8 (vec_bytes z) = wb (X0 (zx z)).
Proof. reflexivity. Qed.
Lemma le_num_wb x : fits 64 x -> le_num (wb x) = x.
Proof. intros H. unfold wb. rewrite le_num_le_bytes. apply trunc_fits, H. Qed.

Lemma zx_blend a b : wf (zx a) -> wf (zx b) ->
  zx (mask_blend 16 a b) = setx (setx (zx a) 0 (X0 (zx b))) 1 (X1 (zx b)).
Proof.
  intros (A0 & A1 & A2 & A3 & A4) (B0 & B1 & _). unfold mask_blend. change (N.to_nat 16) with 16%nat.
  transitivity (St (le_num (wb (X0 (zx b)))) (le_num (wb (X1 (zx b)))) (le_num (wb (X2 (zx a))))
     (le_num (wb (X3 (zx a)))) (le_num (wb (X4 (zx a))))); [reflexivity|].
  rewrite !le_num_wb by assumption. destruct (zx a). reflexivity.
Qed.
