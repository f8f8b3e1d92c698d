(** * StateRep.v -- five state words as 40 bytes, for any byte encoding of
    a word that commutes with XOR. *)
From Coq Require Import Arith Bool NArith ZArith List Lia Init.Byte.
From Coq Require Import ZifyBool ZifyNat ZifyN.
From Verif Require Import Words WordFacts Spec SpecFacts CMem ModelRef.
Import ListNotations.
Local Open Scope N_scope.

Section Rep.
Variable wb : N -> bytes.
Hypothesis wb_len : forall x, length (wb x) = 8%nat.
Hypothesis wb_xor : forall x y, fits 64 x -> fits 64 y ->
  wb (N.lxor x y) = xor_into (wb x) (wb y).

Definition SB (s : state) : bytes :=
  wb (X0 s) ++ wb (X1 s) ++ wb (X2 s) ++ wb (X3 s) ++ wb (X4 s).

Lemma length_SB s : length (SB s) = 40%nat.
Proof. unfold SB. rewrite !app_length, !wb_len. reflexivity. Qed.

Lemma SB_xor0 s v : wf s -> fits 64 v -> SB (xor0 s v) = xor_at 0 (SB s) (wb v).
Proof.
  intros (H0 & _) Hv. rewrite xor_at_0. unfold SB, xor0. cbn [X0 X1 X2 X3 X4].
  rewrite xor_into_app_l by (rewrite !wb_len; lia). rewrite wb_xor by assumption. reflexivity.
Qed.

Lemma xor_at_skip n S1 S2 off B : length S1 = n -> (n <= off)%nat ->
  xor_at off (S1 ++ S2) B = S1 ++ xor_at (off - n) S2 B.
Proof.
  intros H Hle. unfold xor_at. rewrite firstn_app, skipn_app, H.
  rewrite firstn_all2, skipn_all2 by lia. rewrite <- app_assoc. reflexivity.
Qed.

Lemma SB_xor1 s v : wf s -> fits 64 v -> SB (xor1 s v) = xor_at 8 (SB s) (wb v).
Proof.
  intros (_ & H1 & _) Hv. unfold SB, xor1. cbn [X0 X1 X2 X3 X4].
  rewrite (xor_at_skip 8) by (rewrite ?wb_len; lia). cbn [Nat.sub]. rewrite xor_at_0.
  rewrite xor_into_app_l by (rewrite !wb_len; lia). rewrite wb_xor by assumption. reflexivity.
Qed.
Lemma SB_xor2 s v : wf s -> fits 64 v -> SB (xor2 s v) = xor_at 16 (SB s) (wb v).
Proof.
  intros (_ & _ & H1 & _) Hv. unfold SB, xor2. cbn [X0 X1 X2 X3 X4].
  do 2 rewrite (xor_at_skip 8) by (rewrite ?wb_len; lia). cbn [Nat.sub]. rewrite xor_at_0.
  rewrite xor_into_app_l by (rewrite !wb_len; lia). rewrite wb_xor by assumption. reflexivity.
Qed.
Lemma SB_xor3 s v : wf s -> fits 64 v -> SB (xor3 s v) = xor_at 24 (SB s) (wb v).
Proof.
  intros (_ & _ & _ & H1 & _) Hv. unfold SB, xor3. cbn [X0 X1 X2 X3 X4].
  do 3 rewrite (xor_at_skip 8) by (rewrite ?wb_len; lia). cbn [Nat.sub]. rewrite xor_at_0.
  rewrite xor_into_app_l by (rewrite !wb_len; lia). rewrite wb_xor by assumption. reflexivity.
Qed.
Lemma SB_xor4 s v : wf s -> fits 64 v -> SB (xor4 s v) = xor_at 32 (SB s) (wb v).
Proof.
  intros (_ & _ & _ & _ & H1) Hv. unfold SB, xor4. cbn [X0 X1 X2 X3 X4].
  do 4 rewrite (xor_at_skip 8) by (rewrite ?wb_len; lia). cbn [Nat.sub]. rewrite xor_at_0.
  rewrite wb_xor by assumption. reflexivity.
Qed.

Lemma SB_xorx s i v : wf s -> fits 64 v -> i < 5 ->
  SB (xorx s i v) = xor_at (8 * N.to_nat i) (SB s) (wb v).
Proof.
  intros Hs Hv Hi. unfold xorx.
  assert (i = 0 \/ i = 1 \/ i = 2 \/ i = 3 \/ i = 4) as D by lia.
  destruct D as [->|[->|[->|[->| ->]]]]; cbn [N.eqb Pos.eqb].
  - apply SB_xor0; assumption.
  - apply SB_xor1; assumption.
  - apply SB_xor2; assumption.
  - apply SB_xor3; assumption.
  - apply SB_xor4; assumption.
Qed.

Lemma firstn8_SB s : firstn 8 (SB s) = wb (X0 s).
Proof. unfold SB. apply firstn_app_exact, wb_len. Qed.
Lemma firstn16_SB s : firstn 16 (SB s) = wb (X0 s) ++ wb (X1 s).
Proof. unfold SB. rewrite app_assoc. apply firstn_app_exact. rewrite app_length, !wb_len. reflexivity. Qed.
Lemma skipn24_SB s : skipn 24 (SB s) = wb (X3 s) ++ wb (X4 s).
Proof.
  unfold SB. do 2 rewrite app_assoc. apply skipn_app_exact.
  rewrite !app_length, !wb_len. reflexivity.
Qed.
End Rep.

(** Well-formedness. *)
Lemma wf_xor0 s v : wf s -> fits 64 v -> wf (xor0 s v).
Proof. intros (?&?&?&?&?) ?. repeat split; cbn; auto using fits_lxor. Qed.
Lemma wf_xor1 s v : wf s -> fits 64 v -> wf (xor1 s v).
Proof. intros (?&?&?&?&?) ?. repeat split; cbn; auto using fits_lxor. Qed.
Lemma wf_xor2 s v : wf s -> fits 64 v -> wf (xor2 s v).
Proof. intros (?&?&?&?&?) ?. repeat split; cbn; auto using fits_lxor. Qed.
Lemma wf_xor3 s v : wf s -> fits 64 v -> wf (xor3 s v).
Proof. intros (?&?&?&?&?) ?. repeat split; cbn; auto using fits_lxor. Qed.
Lemma wf_xor4 s v : wf s -> fits 64 v -> wf (xor4 s v).
Proof. intros (?&?&?&?&?) ?. repeat split; cbn; auto using fits_lxor. Qed.
Lemma wf_xorx s i v : wf s -> fits 64 v -> wf (xorx s i v).
Proof.
  intros ? ?. unfold xorx.
  destruct (i =? 0); [apply wf_xor0; auto|]. destruct (i =? 1); [apply wf_xor1; auto|].
  destruct (i =? 2); [apply wf_xor2; auto|]. destruct (i =? 3); [apply wf_xor3; auto|].
  apply wf_xor4; auto.
Qed.
Lemma wf_set0 s v : wf s -> fits 64 v -> wf (set0 s v).
Proof. intros (?&?&?&?&?) ?. repeat split; cbn; auto. Qed.
Lemma wf_set1 s v : wf s -> fits 64 v -> wf (set1 s v).
Proof. intros (?&?&?&?&?) ?. repeat split; cbn; auto. Qed.

(** ** More list facts *)

Lemma xor_at_zeros_app off S k B : (off + k <= length S)%nat ->
  xor_at off S (zeros k ++ B) = xor_at (off + k) S B.
Proof.
  intros H. rewrite xor_at_app by (rewrite length_zeros; exact H).
  rewrite xor_at_zeros, length_zeros. reflexivity.
Qed.

Lemma xor_at_pad_tail off S k b r : (off + k + 1 <= length S)%nat ->
  xor_at off S (zeros k ++ b :: zeros r) = xor_at (off + k) S [b].
Proof.
  intros H. rewrite xor_at_zeros_app by lia. change (b :: zeros r) with ([b] ++ zeros r).
  apply xor_at_app_zeros. cbn [length]. lia.
Qed.

(** Replacing the front of the state is XORing the difference in. *)
Lemma firstn_xor_at n off S B : (n <= off)%nat -> (off <= length S)%nat ->
  firstn n (xor_at off S B) = firstn n S.
Proof.
  intros H H'. unfold xor_at. rewrite firstn_app, firstn_firstn, firstn_length.
  replace (Nat.min n off) with n by lia. replace (n - Nat.min off (length S))%nat with 0%nat by lia.
  rewrite firstn_O, app_nil_r. reflexivity.
Qed.

Lemma skipn_xor_into n S B : (length B <= n)%nat -> skipn n (xor_into S B) = skipn n S.
Proof.
  intros H. apply bytes_ext; [len; reflexivity|]. intros j Hj.
  rewrite !nth_skipn, nth_xor_into. rewrite skipn_length, length_xor_into in Hj.
  rewrite (nth_overflow B) by lia. rewrite bxor_x00_r.
  destruct (Nat.ltb_spec (n + j) (length S)); [reflexivity|lia].
Qed.

Lemma firstn_xor_into n S B : firstn n (xor_into S B) = xor_into (firstn n S) (firstn n B).
Proof.
  apply bytes_ext; [len; reflexivity|]. intros j Hj.
  rewrite firstn_length, length_xor_into in Hj.
  rewrite !nth_firstn, !nth_xor_into, !nth_firstn, firstn_length.
  destruct (Nat.ltb_spec j n), (Nat.ltb_spec j (length S)),
    (Nat.ltb_spec j (Nat.min n (length S))); try lia; reflexivity.
Qed.

Lemma xor_into_comm A B : length A = length B -> xor_into A B = xor_into B A.
Proof.
  intros H. apply bytes_ext; [len; exact H|]. intros j Hj. rewrite !nth_xor_into, H.
  destruct (Nat.ltb_spec j (length B)); [apply bxor_comm|reflexivity].
Qed.
