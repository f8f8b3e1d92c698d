(** * MaskShareVal.v -- the sharings of a state stand for it. *)
From Coq Require Import Arith Bool NArith ZArith List Lia Btauto Init.Byte.
From Coq Require Import ZifyBool ZifyNat ZifyN.
From Verif Require Import Words WordFacts Spec SpecFacts RoundFacts CMem ModelRef ModelCommon ModelWords WordLaws BitExp WordInst WordInstBi
  ModelMask SpecShare ModelMaskCode MaskVal MaskRound MaskPerm MaskArr MaskProbe MaskShare.
Import ListNotations.
Local Open Scope N_scope.

Lemma bit_val ns w k : okn ns -> k < 64 -> N.testbit (val ns w) k = word_bit ns w k.
Proof.
  intros H Hk. unfold val, J, cn32. rewrite testbit_bitperm. replace (k <? 64) with true by lia. cbn [andb].
  rewrite testbit_ofw by apply fits_D. unfold pi32.
  pose proof (N.div_mod k 2 ltac:(lia)) as Ek. pose proof (N.mod_lt k 2 ltac:(lia)) as Hm.
  assert (Hd : k / 2 < 32) by (apply N.div_lt_upper_bound; lia).
  assert (Em : k mod 2 = 0 \/ k mod 2 = 1) by lia. destruct Em as [E|E]; rewrite E in *.
  - replace (k / 2 + 32 * 0) with (k / 2) by lia. replace (k / 2 <? 32) with true by lia.
    rewrite bit_D by (assumption || lia). f_equal. lia.
  - replace (k / 2 + 32 * 1 <? 32) with false by lia. replace (k / 2 + 32 * 1 - 32) with (k / 2) by lia.
    rewrite bit_D by (assumption || lia). f_equal. lia.
Qed.
Lemma holds_val ns w x : okn ns -> fits 64 x -> holds ns w x <-> val ns w = x.
Proof.
  intros H Hx. split.
  - intros Hh. apply (fits_ext 64); [apply fits_val|exact Hx|]. intros k Hk. rewrite bit_val by assumption. apply Hh, Hk.
  - intros <- k Hk. symmetry. apply bit_val; assumption.
Qed.
Lemma zero5_holds ns s : okn ns -> zero5 ns s <-> holds ns (y5 s) 0.
Proof.
  intros H. rewrite holds_D by exact H. unfold zero5.
  assert (Z : forall i, of_bits 32 (fun j => N.testbit 0 (2 * j + N.of_nat i)) = 0).
  { intros i. apply N.bits_inj. intros j. rewrite testbit_of_bits, !N.bits_0. apply andb_false_r. }
  split.
  - intros [A B] i Hi. rewrite Z. hcases Hi; assumption.
  - intros A. split; [rewrite (A 0%nat) by lia|rewrite (A 1%nat) by lia]; apply Z.
Qed.
Lemma sharing_V ns S s : okn ns -> wf S -> sharing ns S s <-> All ns s /\ zero5 ns s /\ V ns s = S.
Proof.
  intros H (F0 & F1 & F2 & F3 & F4).
  assert (A : All ns s <-> proper ns (y0 s) /\ proper ns (y1 s) /\ proper ns (y2 s) /\ proper ns (y3 s) /\ proper ns (y4 s) /\ proper ns (y5 s)).
  { rewrite !proper_ok. unfold All. split.
    - intros [Ho Hz]. assert (Hz' : forall k, (k < 6)%nat -> forall d i, (ns <= d < 4)%nat -> (i < 2)%nat -> wget (getw s k) d i = 0) by (intros; apply Hz; assumption).
      split; [split; [apply (Ho 0%nat)|apply (Hz' 0%nat); lia]|].
      split; [split; [apply (Ho 1%nat)|apply (Hz' 1%nat); lia]|].
      split; [split; [apply (Ho 2%nat)|apply (Hz' 2%nat); lia]|].
      split; [split; [apply (Ho 3%nat)|apply (Hz' 3%nat); lia]|].
      split; [split; [apply (Ho 4%nat)|apply (Hz' 4%nat); lia]|].
      split; [apply (Ho 5%nat)|apply (Hz' 5%nat); lia].
    - intros ((A0 & B0) & (A1 & B1) & (A2 & B2) & (A3 & B3) & (A4 & B4) & (A5 & B5)). split.
      + intros k. destruct k as [|[|[|[|[|k]]]]]; assumption.
      + intros k d i Hk Hd Hi. cases6 k; [exact (B0 d i Hd Hi)|exact (B1 d i Hd Hi)|exact (B2 d i Hd Hi)|exact (B3 d i Hd Hi)|exact (B4 d i Hd Hi)|exact (B5 d i Hd Hi)]. }
  unfold sharing. rewrite <- A. rewrite <- (zero5_holds ns s H). rewrite !holds_val by assumption. rewrite V_val.
  destruct S as [x0 x1 x2 x3 x4]. cbn [X0 X1 X2 X3 X4]. split.
  - intros (HA & <- & <- & <- & <- & <- & HZ). auto.
  - intros (HA & HZ & E). assert (Q : forall a b : state, a = b -> X0 a = X0 b /\ X1 a = X1 b /\ X2 a = X2 b /\ X3 a = X3 b /\ X4 a = X4 b) by (intros a b ->; auto).
    apply Q in E. cbn [X0 X1 X2 X3 X4] in E. tauto.
Qed.
