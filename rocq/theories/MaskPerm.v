(** * MaskPerm.v -- the masked permutation computes the permutation. *)
From Coq Require Import Arith Bool NArith ZArith List Lia Btauto Init.Byte.
From Coq Require Import ZifyBool ZifyNat ZifyN.
From Verif Require Import Words WordFacts Spec SpecFacts RoundFacts CMem ModelRef StateRep RefPrim ModelCommon
  ModelWords WordLaws BitExp WordInst WordInstBi ModelMask MaskVal MaskRound.
Import ListNotations.
Local Open Scope N_scope.

Lemma J_lin ns s k : okn ns -> okm s -> (k < 5)%nat ->
  J ns (getw (lin s ns) k) = lin64 k (J ns (getw s k)).
Proof.
  intros H Hs Hk. unfold J. pose proof (D_lin ns s k H Hs ltac:(lia)) as E.
  rewrite lin64_ofw by (auto using fits_D). rewrite <- E. reflexivity.
Qed.

Lemma wf_JS ns s : wf (JS ns s).
Proof. unfold JS, J. repeat split; cbn [X0 X1 X2 X3 X4]; apply fits_ofw; apply fits_D. Qed.

Lemma ROUND_parts s co ce ns :
  ROUND_ s co ce ns =
  let s1 := SBOX (xxor s 2 0 0 ce) 0 ns in
  let s2 := SBOX (xxor s1 2 0 1 co) 1 ns in
  lin (setw s2 5 (MREUSE (getw s2 5) 0 ns)) ns.
Proof. reflexivity. Qed.

Lemma st_ofw x0 x1 x2 x3 x4 z0 z1 z2 z3 z4 :
  fits 32 x0 -> fits 32 x1 -> fits 32 x2 -> fits 32 x3 -> fits 32 x4 ->
  fits 32 z0 -> fits 32 z1 -> fits 32 z2 -> fits 32 z3 -> fits 32 z4 ->
  let X0 := ofw LE x0 z0 in let X1 := ofw LE x1 z1 in let X2 := ofw LE x2 z2 in
  let X3 := ofw LE x3 z3 in let X4 := ofw LE x4 z4 in
  let a0 := N.lxor X0 X4 in let a4 := N.lxor X4 X3 in let a2 := N.lxor X2 X1 in
  N.lxor a0 (N.land (notw 64 X1) a2) = ofw LE (st0 x0 x1 x2 x4) (st0 z0 z1 z2 z4) /\
  N.lxor a2 (N.land (notw 64 X3) a4) = ofw LE (st2 x1 x2 x3 x4) (st2 z1 z2 z3 z4) /\
  N.lxor a4 (N.land (notw 64 a0) X1) = ofw LE (st4 x0 x1 x3 x4) (st4 z0 z1 z3 z4) /\
  N.lxor X1 (N.land (notw 64 a2) X3) = ofw LE (st1 x1 x2 x3) (st1 z1 z2 z3) /\
  N.lxor X3 (N.land (notw 64 a4) a0) = ofw LE (st3 x0 x3 x4) (st3 z0 z3 z4).
Proof.
  cbv zeta. intros. unfold st0, st1, st2, st3, st4, sa0, sa2, sa4.
  assert (L : forall a b, fits 32 a -> fits 32 b -> fits 32 (N.lxor a b)) by (intros; apply fits_lxor; assumption).
  repeat split;
    repeat first [rewrite lxor_ofw by auto using fits_notw, fits_land | rewrite notw_ofw by auto using fits_notw, fits_land
      | rewrite land_ofw by auto using fits_notw, fits_land]; reflexivity.
Qed.
Lemma fits_st x0 x1 x2 x3 x4 : fits 32 x0 -> fits 32 x1 -> fits 32 x2 -> fits 32 x3 -> fits 32 x4 ->
  fits 32 (st0 x0 x1 x2 x4) /\ fits 32 (st1 x1 x2 x3) /\ fits 32 (st2 x1 x2 x3 x4) /\ fits 32 (st3 x0 x3 x4) /\
  fits 32 (st4 x0 x1 x3 x4).
Proof.
  intros. unfold st0, st1, st2, st3, st4, sa0, sa2, sa4.
  repeat split; auto 8 using fits_lxor, fits_notw, fits_land.
Qed.

Lemma mround ns s co ce : okn ns -> okm s -> zero5 ns s -> fits 32 ce -> fits 32 co ->
  let s' := ROUND_ s co ce ns in
  okm s' /\ zero5 ns s' /\ JS ns s' = ROUND_t (bi32_ROR LE) (JS ns s) (ofw LE ce co).
Proof.
  intros H Hs Hz Hce Hco. cbv zeta.
  pose proof (mround_halves ns s co ce H Hs Hz Hce Hco) as M. cbv zeta in M.
  rewrite ROUND_parts. cbv zeta.
  revert M. generalize (SBOX (xxor (SBOX (xxor s 2 0 0 ce) 0 ns) 2 0 1 co) 1 ns). intros s2 [K M].
  pose proof (M 0%nat ltac:(lia)) as (A0 & A1 & A2 & A3 & A4).
  pose proof (M 1%nat ltac:(lia)) as (B0 & B1 & B2 & B3 & B4). clear M.
  assert (K5 : okm (setw s2 5 (MREUSE (getw s2 5) 0 ns))) by (apply okm_setw; [exact K|apply okw_MREUSE, K]).
  assert (E5 : forall i, (i < 2)%nat -> D ns (MREUSE (getw s2 5) 0 ns) i = 0) by (intros; apply D_MREUSE; auto).
  assert (E : forall k, (k < 5)%nat -> getw (setw s2 5 (MREUSE (getw s2 5) 0 ns)) k = getw s2 k).
  { intros k Hk. destruct s2, k as [|[|[|[|[|k]]]]]; try lia; reflexivity. }
  assert (E' : getw (setw s2 5 (MREUSE (getw s2 5) 0 ns)) 5 = MREUSE (getw s2 5) 0 ns) by (destruct s2; reflexivity).
  revert K5 E E'. generalize (setw s2 5 (MREUSE (getw s2 5) 0 ns)). intros s3 K5 E E'.
  split; [apply okm_lin, K5|]. split.
  - pose proof (D_lin ns s3 5 H K5 ltac:(lia)) as W. unfold lin_word in W. rewrite E', !E5 in W by lia.
    unfold zero5. cbn [getw] in W. injection W as W0 W1. split; assumption.
  - unfold JS at 1. pose proof (J_lin ns s3) as L.
    pose proof (L 0%nat H K5 ltac:(lia)) as L0. pose proof (L 1%nat H K5 ltac:(lia)) as L1.
    pose proof (L 2%nat H K5 ltac:(lia)) as L2. pose proof (L 3%nat H K5 ltac:(lia)) as L3.
    pose proof (L 4%nat H K5 ltac:(lia)) as L4. clear L.
    rewrite E in L0, L1, L2, L3, L4 by lia.
    unfold half in *. cbn [getw] in *. rewrite L0, L1, L2, L3, L4. unfold J.
    rewrite A0, A1, A2, A3, A4, B0, B1, B2, B3, B4. clear - Hce Hco.
    unfold ROUND_t, JS. cbv zeta. unfold J.
    pose proof (fits_D ns) as F.
    rewrite (lxor_ofw (D ns (y2 s) 0) (D ns (y2 s) 1) ce co) by auto.
    assert (G0 : fits 32 (N.lxor (D ns (y2 s) 0) ce)) by (apply fits_lxor; auto).
    assert (G1 : fits 32 (N.lxor (D ns (y2 s) 1) co)) by (apply fits_lxor; auto).
    destruct (st_ofw (D ns (y0 s) 0) (D ns (y1 s) 0) (N.lxor (D ns (y2 s) 0) ce) (D ns (y3 s) 0) (D ns (y4 s) 0)
      (D ns (y0 s) 1) (D ns (y1 s) 1) (N.lxor (D ns (y2 s) 1) co) (D ns (y3 s) 1) (D ns (y4 s) 1))
      as (T0 & T2 & T4 & T1 & T3); auto. cbv zeta in T0, T1, T2, T3, T4.
    rewrite T0, T1, T2, T3, T4.
    destruct (fits_st (D ns (y0 s) 0) (D ns (y1 s) 0) (N.lxor (D ns (y2 s) 0) ce) (D ns (y3 s) 0) (D ns (y4 s) 0))
      as (P0 & P1 & P2 & P3 & P4); auto.
    destruct (fits_st (D ns (y0 s) 1) (D ns (y1 s) 1) (N.lxor (D ns (y2 s) 1) co) (D ns (y3 s) 1) (D ns (y4 s) 1))
      as (Q0 & Q1 & Q2 & Q3 & Q4); auto.
    rewrite (lxor_ofw _ _ (st0 _ _ _ _) (st0 _ _ _ _)) by assumption.
    rewrite (lxor_ofw _ _ (st2 _ _ _ _) (st2 _ _ _ _)) by assumption.
    rewrite (lxor_ofw _ _ (st4 _ _ _ _) (st4 _ _ _ _)) by assumption.
    rewrite <- (notw_ofw (st2 _ _ _ _)) by assumption.
    assert (NN : forall x, fits 64 x -> notw 64 (notw 64 x) = x).
    { intros x Hx. apply (fits_ext 64); auto using fits_notw. intros i Hi. rewrite !testbit_notw.
      apply N.ltb_lt in Hi. rewrite Hi. cbn [andb]. apply negb_involutive. }
    unfold lin64. rewrite NN by (apply fits_ofw; assumption). reflexivity.
Qed.

(** ** The permutation *)

Definition mrc (i : nat) : N := ofw LE (nth (2 * i) mconstants 0) (nth (2 * i + 1) mconstants 0).

Lemma MPROUNDS_list fuel : forall i s ns, (i + fuel >= 12)%nat -> (i < 12)%nat ->
  MPROUNDS fuel i s ns =
  fold_left (fun s i => ROUND_ s (nth (2 * i + 1) mconstants 0) (nth (2 * i) mconstants 0) ns) (seq i (12 - i)) s.
Proof.
  induction fuel as [|fuel IH]; intros i s ns Hf Hi; [lia|]. cbn [MPROUNDS].
  destruct (Nat.eqb_spec (S i) 12) as [E|E].
  - replace (12 - i)%nat with 1%nat by lia. reflexivity.
  - rewrite IH by lia. replace (12 - i)%nat with (S (12 - S i)) by lia. reflexivity.
Qed.
Lemma mconst_fits k : fits 32 (nth k mconstants 0).
Proof.
  do 24 (destruct k as [|k]; [reflexivity|]). destruct k; reflexivity.
Qed.
Lemma mrounds l : forall ns s, okn ns -> okm s -> zero5 ns s ->
  let s' := fold_left (fun s i => ROUND_ s (nth (2 * i + 1) mconstants 0) (nth (2 * i) mconstants 0) ns) l s in
  okm s' /\ zero5 ns s' /\ JS ns s' = fold_left (ROUND_t (bi32_ROR LE)) (map mrc l) (JS ns s).
Proof.
  induction l as [|i l IH]; intros ns s H Hs Hz; cbn [fold_left map].
  - repeat split; try assumption; apply Hz.
  - destruct (mround ns s (nth (2 * i + 1) mconstants 0) (nth (2 * i) mconstants 0) H Hs Hz) as (A & B & C);
      try apply mconst_fits.
    change (ofw LE (nth (2 * i) mconstants 0) (nth (2 * i + 1) mconstants 0)) with (mrc i) in C.
    rewrite <- C. apply IH; assumption.
Qed.

(** The masked permutation, on the values, in canonical order. *)
Definition V (ns : nat) (s : mstate) : state := cs cn32 (JS ns s).

Lemma MP_ok nr ns s : nr = 12%nat \/ nr = 8%nat -> okn ns -> okm s -> zero5 ns s ->
  okm (MP s nr ns) /\ zero5 ns (MP s nr ns) /\ V ns (MP s nr ns) = perm nr (V ns s).
Proof.
  intros Hn H Hs Hz. unfold MP. rewrite MPROUNDS_list by (destruct Hn; subst; cbn; lia).
  destruct (mrounds (seq (12 - nr) (12 - (12 - nr))) ns s H Hs Hz) as (A & B & C).
  split; [exact A|]. split; [exact B|]. unfold V. rewrite C.
  assert (HR := ROUND_t_ok pi32 (bi32_ROR LE) pi32_lt bi32_ROR_ok).
  destruct Hn as [->| ->].
  - apply (perm_list cn32 (ROUND_t (bi32_ROR LE))); [exact HR|vm_compute; reflexivity|vm_compute; reflexivity|apply wf_JS].
  - apply (perm_list cn32 (ROUND_t (bi32_ROR LE))); [exact HR|vm_compute; reflexivity|vm_compute; reflexivity|apply wf_JS].
Qed.
