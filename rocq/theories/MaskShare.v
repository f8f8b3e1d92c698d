(** * MaskShare.v -- the sharings of SpecShare.v are those of MaskProbe.v. *)
From Coq Require Import Arith Bool NArith ZArith List Lia Btauto Init.Byte.
From Coq Require Import ZifyBool ZifyNat ZifyN.
From Verif Require Import Words WordFacts Spec SpecFacts RoundFacts CMem ModelRef ModelCommon ModelWords ModelMask SpecShare
  ModelMaskCode MaskVal MaskRound MaskProbe.
Import ListNotations.
Local Open Scope N_scope.

Definition Xof (S : state) (k : nat) : N :=
  match k with 0%nat => X0 S | 1%nat => X1 S | 2%nat => X2 S | 3%nat => X3 S | 4%nat => X4 S | _ => 0 end.
Definition vals_of (S : state) : vals := fun k i => of_bits 32 (fun j => N.testbit (Xof S k) (2 * j + N.of_nat i)).
Lemma vok_vals S : vok (vals_of S).
Proof. intros k i. apply (fits_of_bits 32). Qed.

Lemma half_wget w d i : (d < 4)%nat -> (i < 2)%nat -> half_of (share_of w d) (i =? 1)%nat = wget w d i.
Proof. intros Hd Hi. cases4 d; hcases Hi; reflexivity. Qed.
Lemma bit_D ns w i j : okn ns -> (i < 2)%nat -> j < 32 ->
  N.testbit (D ns w i) j = word_bit ns w (2 * j + N.of_nat i).
Proof.
  intros H Hi Hj. unfold word_bit.
  replace (N.odd (2 * j + N.of_nat i)) with (i =? 1)%nat
    by (rewrite N.odd_add_mul_2 || (rewrite N.add_comm, N.odd_add_mul_2); hcases Hi; reflexivity).
  replace ((2 * j + N.of_nat i) / 2) with j
    by (rewrite N.add_comm, N.mul_comm, N.div_add by lia; hcases Hi; reflexivity).
  assert (E : forall d, (d < 4)%nat -> N.testbit (half_of (share_of w d) (i =? 1)%nat) ((j + 5 * N.of_nat d) mod 32) =
    N.testbit (rotr32 (wget w d i) (5 * N.of_nat d)) j).
  { intros d Hd. rewrite half_wget by assumption. rewrite testbit_rotr32. replace (j <? 32) with true by lia. reflexivity. }
  pose proof (E 0%nat ltac:(lia)) as E0. pose proof (E 1%nat ltac:(lia)) as E1.
  pose proof (E 2%nat ltac:(lia)) as E2. pose proof (E 3%nat ltac:(lia)) as E3.
  ncases H; cbn [seq map fold_right]; rewrite ?E0, ?E1, ?E2, ?E3; unfold D; rewrite ?N.lxor_spec;
  change (5 * N.of_nat 0) with 0; change (5 * N.of_nat 1) with 5; change (5 * N.of_nat 2) with 10; change (5 * N.of_nat 3) with 15;
  btauto.
Qed.
Lemma holds_D ns w x : okn ns ->
  holds ns w x <-> forall i, (i < 2)%nat -> D ns w i = of_bits 32 (fun j => N.testbit x (2 * j + N.of_nat i)).
Proof.
  intros H. split.
  - intros Hh i Hi. apply (fits_ext 32); [apply fits_D|apply (fits_of_bits 32)|]. intros j Hj.
    rewrite bit_D by assumption. rewrite testbit_of_bits. replace (j <? N.of_nat 32) with true by lia. cbn [andb].
    apply Hh. lia.
  - intros Hd k Hk.
    assert (E : exists j i, (i < 2)%nat /\ j < 32 /\ k = 2 * j + N.of_nat i).
    { exists (k / 2), (N.to_nat (k mod 2)). pose proof (N.mod_lt k 2 ltac:(lia)). pose proof (N.div_mod k 2 ltac:(lia)).
      split; [lia|]. split; [apply N.div_lt_upper_bound; lia|]. rewrite N2Nat.id. assumption. }
    destruct E as (j & i & Hi & Hj & ->). rewrite <- bit_D by assumption. rewrite (Hd i Hi), testbit_of_bits.
    replace (j <? N.of_nat 32) with true by lia. reflexivity.
Qed.
Lemma proper_ok ns w : proper ns w <-> okw w /\ forall d i, (ns <= d < 4)%nat -> (i < 2)%nat -> wget w d i = 0.
Proof.
  split.
  - intros H. split.
    + assert (X : forall d i, (d < 4)%nat -> (i < 2)%nat -> fits 32 (wget w d i)).
      { intros d i Hd Hi. destruct (H d (i =? 1)%nat Hd) as [A _]. rewrite half_wget in A by assumption. exact A. }
      open_word w. apply okw_W8.
      repeat split; [apply (X 0 0)%nat|apply (X 0 1)%nat|apply (X 1 0)%nat|apply (X 1 1)%nat
        |apply (X 2 0)%nat|apply (X 2 1)%nat|apply (X 3 0)%nat|apply (X 3 1)%nat]; lia.
    + intros d i Hd Hi. destruct (H d (i =? 1)%nat ltac:(lia)) as [_ A]. rewrite half_wget in A by (assumption || lia). apply A. lia.
  - intros [Ho Hz] d odd Hd.
    assert (E : exists i, (i < 2)%nat /\ odd = (i =? 1)%nat) by (exists (if odd then 1 else 0)%nat; destruct odd; split; (lia || reflexivity)).
    destruct E as (i & Hi & ->). rewrite half_wget by assumption. split; [apply Ho|]. intros L. apply Hz; lia.
Qed.
Lemma sharing_Sh ns S s : okn ns -> sharing ns S s <-> Sh ns (vals_of S) s.
Proof.
  intros H. unfold sharing, Sh, All, veq, vof. split.
  - intros ((P0 & P1 & P2 & P3 & P4 & P5) & H0 & H1 & H2 & H3 & H4 & H5).
    apply proper_ok in P0, P1, P2, P3, P4, P5. split; [split|].
    + intros k. destruct k as [|[|[|[|[|k]]]]]; [apply P0|apply P1|apply P2|apply P3|apply P4|apply P5].
    + intros k d i Hk Hd Hi. cases6 k; [apply P0|apply P1|apply P2|apply P3|apply P4|apply P5]; assumption.
    + intros k i Hk Hi. cases6 k; apply (holds_D ns _ _ H); assumption.
  - intros ((Ho & Hz) & Hv).
    assert (P : forall k, (k < 6)%nat -> proper ns (getw s k)).
    { intros k Hk. apply proper_ok. split; [apply Ho|]. intros d i Hd Hi. apply (Hz k d i); assumption. }
    assert (Q : forall k, (k < 6)%nat -> holds ns (getw s k) (Xof S k)).
    { intros k Hk. apply (holds_D ns _ _ H). intros i Hi. apply (Hv k i); assumption. }
    assert (L : forall k, (k <= 5)%nat -> (k < 6)%nat) by lia.
    pose proof (fun k Hk => P k (L k Hk)) as P'. pose proof (fun k Hk => Q k (L k Hk)) as Q'. clear P Q.
    split; [split; [apply (P' 0)%nat|split; [apply (P' 1)%nat|split; [apply (P' 2)%nat|split; [apply (P' 3)%nat|split; [apply (P' 4)%nat|apply (P' 5)%nat]]]]]; lia|].
    split; [apply (Q' 0)%nat|split; [apply (Q' 1)%nat|split; [apply (Q' 2)%nat|split; [apply (Q' 3)%nat|split; [apply (Q' 4)%nat|apply (Q' 5)%nat]]]]]; lia.
Qed.

(** every state has a sharing *)
Definition plain (S : state) : mstate :=
  let w k := W8 (vals_of S k 0%nat) (vals_of S k 1%nat) 0 0 0 0 0 0 in MS (w 0%nat) (w 1%nat) (w 2%nat) (w 3%nat) (w 4%nat) (w 5%nat).
Lemma Sh_plain ns S : (1 <= ns <= 4)%nat -> Sh ns (vals_of S) (plain S).
Proof.
  intros Hns. pose proof (vok_vals S) as Hv. split; [split|].
  - intros k. destruct k as [|[|[|[|[|k]]]]]; apply okw_W8; repeat split; try apply fits_0; apply Hv.
  - intros k d i Hk Hd Hi. assert (X : d = 1%nat \/ d = 2%nat \/ d = 3%nat) by lia. unfold plain, W8, xget. cbv zeta.
    cases6 k; destruct X as [->|[->| ->]]; hcases Hi; reflexivity.
  - intros k i Hk Hi. unfold vof, plain, W8. cbv zeta. revert Hv. generalize (vals_of S). intros v Hv.
    assert (X : forall x, N.lxor (rotr32 x 0) 0 = rotr32 x 0) by (intros; apply N.lxor_0_r).
    assert (E : ns = 1%nat \/ ns = 2%nat \/ ns = 3%nat \/ ns = 4%nat) by lia.
    destruct E as [->|[->|[->| ->]]]; cases6 k; hcases Hi;
      cbn [D getw y0 y1 y2 y3 y4 y5 wget sget hget m0 m1 m2 m3 h0 h1]; rewrite ?rotr32_zero, ?N.lxor_0_r; apply rotr32_0, Hv.
Qed.
