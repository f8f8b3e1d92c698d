(** * Opt8Round.v -- the byte-oriented permutation is Ascon-p. *)
From Coq Require Import Arith Bool NArith ZArith List Lia Init.Byte.
From Coq Require Import ZifyBool ZifyNat ZifyN.
From Verif Require Import Words WordFacts Spec SpecFacts RoundFacts ModelWords ModelOpt8.
Import ListNotations.
Local Open Scope N_scope.

Lemma explode8 (l : bytes) : length l = 8%nat ->
  exists a b c d e f g h, l = [a; b; c; d; e; f; g; h].
Proof.
  destruct l as [|a [|b [|c [|d [|e [|f [|g [|h [|]]]]]]]]]; try discriminate.
  intros _. repeat eexists.
Qed.

Lemma explode40 (s : bytes) : length s = 40%nat ->
  exists l0 l1 l2 l3 l4, s = l0 ++ l1 ++ l2 ++ l3 ++ l4 /\ length l0 = 8%nat /\ length l1 = 8%nat /\
    length l2 = 8%nat /\ length l3 = 8%nat /\ length l4 = 8%nat.
Proof.
  intros H.
  destruct (split_at 8 s) as (l0 & r0 & -> & H0); [lia|]. rewrite app_length in H.
  destruct (split_at 8 r0) as (l1 & r1 & -> & H1); [lia|]. rewrite app_length in H.
  destruct (split_at 8 r1) as (l2 & r2 & -> & H2); [lia|]. rewrite app_length in H.
  destruct (split_at 8 r2) as (l3 & l4 & -> & H3); [lia|]. rewrite app_length in H.
  exists l0, l1, l2, l3, l4. repeat split; assumption || lia.
Qed.

(** ** Rotation *)

Lemma tb_le_num l i : N.testbit (le_num l) i = bbit (nth (N.to_nat (i / 8)) l x00) (i mod 8).
Proof. apply testbit_le_num. Qed.

Lemma bbit_lo (b : byte) r k : r < 8 -> k < 8 ->
  bbit (n2b (trunc 16 (b2n b * N.shiftl 1 r))) k = (r <=? k) && bbit b (k - r).
Proof.
  intros Hr Hk. rewrite bbit_n2b, testbit_trunc. replace (k <? 8) with true by lia.
  replace (k <? 16) with true by lia. cbn [andb].
  rewrite N.shiftl_1_l, <- N.shiftl_mul_pow2. rewrite testbit_shiftl.
  destruct (r <=? k); reflexivity.
Qed.
Lemma bbit_hi (b : byte) r k : r < 8 -> k < 8 ->
  bbit (n2b (shrw (trunc 16 (b2n b * N.shiftl 1 r)) 8)) k = (k <? r) && bbit b (k + 8 - r).
Proof.
  intros Hr Hk. rewrite bbit_n2b, testbit_shrw, testbit_trunc. replace (k <? 8) with true by lia.
  replace (k + 8 <? 16) with true by lia. cbn [andb].
  rewrite N.shiftl_1_l, <- N.shiftl_mul_pow2. rewrite testbit_shiftl.
  replace (r <=? k + 8) with true by lia. cbn [andb].
  destruct (N.ltb_spec k r); [reflexivity|]. apply (bbit_high b). lia.
Qed.

Lemma lt8 k : k < 8 -> k = 0 \/ k = 1 \/ k = 2 \/ k = 3 \/ k = 4 \/ k = 5 \/ k = 6 \/ k = 7.
Proof. lia. Qed.

Lemma rot_from_bytes (x y : bytes) n : length x = 8%nat -> length y = 8%nat ->
  (forall j k, j < 8 -> k < 8 -> bbit (nth (N.to_nat j) y x00) k =
     bbit (nth (N.to_nat ((8 * j + k + n) mod 64 / 8)) x x00) ((8 * j + k + n) mod 64 mod 8)) ->
  le_num y = rotr (le_num x) n.
Proof.
  intros Hx Hy H. apply (fits_ext 64).
  - replace 64 with (8 * N.of_nat (length y)) by lia. apply fits_le_num.
  - apply fits_rotr.
  - intros i Hi. rewrite testbit_rotr, !tb_le_num. replace (i <? 64) with true by lia. cbn [andb].
    assert (Hj : i / 8 < 8) by (apply N.div_lt_upper_bound; lia).
    assert (Hk : i mod 8 < 8) by (apply N.mod_lt; lia).
    rewrite (H _ _ Hj Hk). rewrite <- (N.div_mod i 8) by discriminate. reflexivity.
Qed.

(** The two bytes [XMUL] makes of one. *)
Definition lo8 (b : byte) (r : N) : byte := n2b (trunc 16 (b2n b * N.shiftl 1 r)).
Definition hi8 (b : byte) (r : N) : byte := n2b (shrw (trunc 16 (b2n b * N.shiftl 1 r)) 8).

Lemma bbit_lo8 b r k : r < 8 -> k < 8 -> bbit (lo8 b r) k = (r <=? k) && bbit b (k - r).
Proof. apply bbit_lo. Qed.
Lemma bbit_hi8 b r k : r < 8 -> k < 8 -> bbit (hi8 b r) k = (k <? r) && bbit b (k + 8 - r).
Proof. apply bbit_hi. Qed.
Lemma nth_bit (l : bytes) i j k k' b : nth (N.to_nat i) l x00 = nth j l x00 ->
  k = k' -> b = bbit (nth j l x00) k' -> b = bbit (nth (N.to_nat i) l x00) k.
Proof. intros -> -> ->. reflexivity. Qed.

Lemma nth_bitl (l : bytes) i k b v : nth (N.to_nat i) l x00 = v ->
  bbit v k = b -> bbit (nth (N.to_nat i) l x00) k = b.
Proof. intros -> <-. reflexivity. Qed.

Ltac bit_case :=
  match goal with |- bbit (nth (N.to_nat ?i) ?l x00) ?k = _ =>
    let i' := eval vm_compute in (N.to_nat i) in
    let v := eval cbv [nth] in (nth i' l x00) in
    apply (nth_bitl l i k _ v); [reflexivity|] end;
  rewrite !bbit_bxor, bbit_x00, bbit_lo8, bbit_hi8 by reflexivity;
  match goal with |- _ = bbit (nth (N.to_nat ?i) ?l x00) ?k =>
    let i' := eval vm_compute in (N.to_nat i) in
    let k' := eval vm_compute in k in
    apply (nth_bit l i i' k k'); [reflexivity|reflexivity|] end;
  cbv [N.leb N.ltb N.compare Pos.compare Pos.compare_cont N.add N.sub Pos.add Pos.succ Pos.add_carry
    Pos.sub_mask Pos.pred_double Pos.double_mask Pos.succ_double_mask Pos.double_pred_mask nth andb];
  match goal with |- _ = ?b => destruct b; reflexivity end.
Ltac rot_cases :=
  apply rot_from_bytes; [reflexivity|reflexivity|];
  let j := fresh "j" in let k := fresh "k" in
  let Hj := fresh in let Hk := fresh in
  intros j k Hj Hk;
  destruct (lt8 j Hj) as [->|[->|[->|[->|[->|[->|[->| ->]]]]]]]; clear Hj;
  (destruct (lt8 k Hk) as [->|[->|[->|[->|[->|[->|[->| ->]]]]]]]); bit_case.

Lemma ROR8_9 x : length x = 8%nat ->
  length (ROR8 x 9) = 8%nat /\ le_num (ROR8 x 9) = rotr (le_num x) 9.
Proof.
  intros H. destruct (explode8 x H) as (b0 & b1 & b2 & b3 & b4 & b5 & b6 & b7 & ->). clear H.
  assert (E : ROR8 [b0; b1; b2; b3; b4; b5; b6; b7] 9 =
    [(bxor (bxor x00 (hi8 b1 7)) (lo8 b2 7)); (bxor (bxor x00 (hi8 b2 7)) (lo8 b3 7)); (bxor (bxor x00 (hi8 b3 7)) (lo8 b4 7)); (bxor (bxor x00 (hi8 b4 7)) (lo8 b5 7)); (bxor (bxor x00 (hi8 b5 7)) (lo8 b6 7)); (bxor (bxor x00 (hi8 b6 7)) (lo8 b7 7)); (bxor (bxor x00 (lo8 b0 7)) (hi8 b7 7)); (bxor (bxor x00 (hi8 b0 7)) (lo8 b1 7))]) by reflexivity.
  rewrite E. split; [reflexivity|]. clear E. rot_cases.
Qed.
Lemma ROR8_19 x : length x = 8%nat ->
  length (ROR8 x 19) = 8%nat /\ le_num (ROR8 x 19) = rotr (le_num x) 19.
Proof.
  intros H. destruct (explode8 x H) as (b0 & b1 & b2 & b3 & b4 & b5 & b6 & b7 & ->). clear H.
  assert (E : ROR8 [b0; b1; b2; b3; b4; b5; b6; b7] 19 =
    [(bxor (bxor x00 (hi8 b2 5)) (lo8 b3 5)); (bxor (bxor x00 (hi8 b3 5)) (lo8 b4 5)); (bxor (bxor x00 (hi8 b4 5)) (lo8 b5 5)); (bxor (bxor x00 (hi8 b5 5)) (lo8 b6 5)); (bxor (bxor x00 (hi8 b6 5)) (lo8 b7 5)); (bxor (bxor x00 (lo8 b0 5)) (hi8 b7 5)); (bxor (bxor x00 (hi8 b0 5)) (lo8 b1 5)); (bxor (bxor x00 (hi8 b1 5)) (lo8 b2 5))]) by reflexivity.
  rewrite E. split; [reflexivity|]. clear E. rot_cases.
Qed.
Lemma ROR8_5 x : length x = 8%nat ->
  length (ROR8 x 5) = 8%nat /\ le_num (ROR8 x 5) = rotr (le_num x) 5.
Proof.
  intros H. destruct (explode8 x H) as (b0 & b1 & b2 & b3 & b4 & b5 & b6 & b7 & ->). clear H.
  assert (E : ROR8 [b0; b1; b2; b3; b4; b5; b6; b7] 5 =
    [(bxor (bxor x00 (hi8 b0 3)) (lo8 b1 3)); (bxor (bxor x00 (hi8 b1 3)) (lo8 b2 3)); (bxor (bxor x00 (hi8 b2 3)) (lo8 b3 3)); (bxor (bxor x00 (hi8 b3 3)) (lo8 b4 3)); (bxor (bxor x00 (hi8 b4 3)) (lo8 b5 3)); (bxor (bxor x00 (hi8 b5 3)) (lo8 b6 3)); (bxor (bxor x00 (hi8 b6 3)) (lo8 b7 3)); (bxor (bxor x00 (lo8 b0 3)) (hi8 b7 3))]) by reflexivity.
  rewrite E. split; [reflexivity|]. clear E. rot_cases.
Qed.
Lemma ROR8_1 x : length x = 8%nat ->
  length (ROR8 x 1) = 8%nat /\ le_num (ROR8 x 1) = rotr (le_num x) 1.
Proof.
  intros H. destruct (explode8 x H) as (b0 & b1 & b2 & b3 & b4 & b5 & b6 & b7 & ->). clear H.
  assert (E : ROR8 [b0; b1; b2; b3; b4; b5; b6; b7] 1 =
    [(bxor (bxor x00 (hi8 b0 7)) (lo8 b1 7)); (bxor (bxor x00 (hi8 b1 7)) (lo8 b2 7)); (bxor (bxor x00 (hi8 b2 7)) (lo8 b3 7)); (bxor (bxor x00 (hi8 b3 7)) (lo8 b4 7)); (bxor (bxor x00 (hi8 b4 7)) (lo8 b5 7)); (bxor (bxor x00 (hi8 b5 7)) (lo8 b6 7)); (bxor (bxor x00 (hi8 b6 7)) (lo8 b7 7)); (bxor (bxor x00 (lo8 b0 7)) (hi8 b7 7))]) by reflexivity.
  rewrite E. split; [reflexivity|]. clear E. rot_cases.
Qed.
Lemma ROR8_34 x : length x = 8%nat ->
  length (ROR8 x 34) = 8%nat /\ le_num (ROR8 x 34) = rotr (le_num x) 34.
Proof.
  intros H. destruct (explode8 x H) as (b0 & b1 & b2 & b3 & b4 & b5 & b6 & b7 & ->). clear H.
  assert (E : ROR8 [b0; b1; b2; b3; b4; b5; b6; b7] 34 =
    [(bxor (bxor x00 (hi8 b4 6)) (lo8 b5 6)); (bxor (bxor x00 (hi8 b5 6)) (lo8 b6 6)); (bxor (bxor x00 (hi8 b6 6)) (lo8 b7 6)); (bxor (bxor x00 (lo8 b0 6)) (hi8 b7 6)); (bxor (bxor x00 (hi8 b0 6)) (lo8 b1 6)); (bxor (bxor x00 (hi8 b1 6)) (lo8 b2 6)); (bxor (bxor x00 (hi8 b2 6)) (lo8 b3 6)); (bxor (bxor x00 (hi8 b3 6)) (lo8 b4 6))]) by reflexivity.
  rewrite E. split; [reflexivity|]. clear E. rot_cases.
Qed.
Lemma ROR8_7 x : length x = 8%nat ->
  length (ROR8 x 7) = 8%nat /\ le_num (ROR8 x 7) = rotr (le_num x) 7.
Proof.
  intros H. destruct (explode8 x H) as (b0 & b1 & b2 & b3 & b4 & b5 & b6 & b7 & ->). clear H.
  assert (E : ROR8 [b0; b1; b2; b3; b4; b5; b6; b7] 7 =
    [(bxor (bxor x00 (hi8 b0 1)) (lo8 b1 1)); (bxor (bxor x00 (hi8 b1 1)) (lo8 b2 1)); (bxor (bxor x00 (hi8 b2 1)) (lo8 b3 1)); (bxor (bxor x00 (hi8 b3 1)) (lo8 b4 1)); (bxor (bxor x00 (hi8 b4 1)) (lo8 b5 1)); (bxor (bxor x00 (hi8 b5 1)) (lo8 b6 1)); (bxor (bxor x00 (hi8 b6 1)) (lo8 b7 1)); (bxor (bxor x00 (lo8 b0 1)) (hi8 b7 1))]) by reflexivity.
  rewrite E. split; [reflexivity|]. clear E. rot_cases.
Qed.
Lemma ROR8_22 x : length x = 8%nat ->
  length (ROR8 x 22) = 8%nat /\ le_num (ROR8 x 22) = rotr (le_num x) 22.
Proof.
  intros H. destruct (explode8 x H) as (b0 & b1 & b2 & b3 & b4 & b5 & b6 & b7 & ->). clear H.
  assert (E : ROR8 [b0; b1; b2; b3; b4; b5; b6; b7] 22 =
    [(bxor (bxor x00 (hi8 b2 2)) (lo8 b3 2)); (bxor (bxor x00 (hi8 b3 2)) (lo8 b4 2)); (bxor (bxor x00 (hi8 b4 2)) (lo8 b5 2)); (bxor (bxor x00 (hi8 b5 2)) (lo8 b6 2)); (bxor (bxor x00 (hi8 b6 2)) (lo8 b7 2)); (bxor (bxor x00 (lo8 b0 2)) (hi8 b7 2)); (bxor (bxor x00 (hi8 b0 2)) (lo8 b1 2)); (bxor (bxor x00 (hi8 b1 2)) (lo8 b2 2))]) by reflexivity.
  rewrite E. split; [reflexivity|]. clear E. rot_cases.
Qed.
Lemma ROR8_39 x : length x = 8%nat ->
  length (ROR8 x 39) = 8%nat /\ le_num (ROR8 x 39) = rotr (le_num x) 39.
Proof.
  intros H. destruct (explode8 x H) as (b0 & b1 & b2 & b3 & b4 & b5 & b6 & b7 & ->). clear H.
  assert (E : ROR8 [b0; b1; b2; b3; b4; b5; b6; b7] 39 =
    [(bxor (bxor x00 (hi8 b4 1)) (lo8 b5 1)); (bxor (bxor x00 (hi8 b5 1)) (lo8 b6 1)); (bxor (bxor x00 (hi8 b6 1)) (lo8 b7 1)); (bxor (bxor x00 (lo8 b0 1)) (hi8 b7 1)); (bxor (bxor x00 (hi8 b0 1)) (lo8 b1 1)); (bxor (bxor x00 (hi8 b1 1)) (lo8 b2 1)); (bxor (bxor x00 (hi8 b2 1)) (lo8 b3 1)); (bxor (bxor x00 (hi8 b3 1)) (lo8 b4 1))]) by reflexivity.
  rewrite E. split; [reflexivity|]. clear E. rot_cases.
Qed.
Lemma ROR8_10 x : length x = 8%nat ->
  length (ROR8 x 10) = 8%nat /\ le_num (ROR8 x 10) = rotr (le_num x) 10.
Proof.
  intros H. destruct (explode8 x H) as (b0 & b1 & b2 & b3 & b4 & b5 & b6 & b7 & ->). clear H.
  assert (E : ROR8 [b0; b1; b2; b3; b4; b5; b6; b7] 10 =
    [(bxor (bxor x00 (hi8 b1 6)) (lo8 b2 6)); (bxor (bxor x00 (hi8 b2 6)) (lo8 b3 6)); (bxor (bxor x00 (hi8 b3 6)) (lo8 b4 6)); (bxor (bxor x00 (hi8 b4 6)) (lo8 b5 6)); (bxor (bxor x00 (hi8 b5 6)) (lo8 b6 6)); (bxor (bxor x00 (hi8 b6 6)) (lo8 b7 6)); (bxor (bxor x00 (lo8 b0 6)) (hi8 b7 6)); (bxor (bxor x00 (hi8 b0 6)) (lo8 b1 6))]) by reflexivity.
  rewrite E. split; [reflexivity|]. clear E. rot_cases.
Qed.

(** ** S-box layer *)

Fixpoint map5 (f : byte -> byte -> byte -> byte -> byte -> byte) (a b c d e : bytes) : bytes :=
  match a, b, c, d, e with
  | x :: a, y :: b, z :: c, u :: d, v :: e => f x y z u v :: map5 f a b c d e
  | _, _, _, _, _ => []
  end.

Lemma length_map5 f a : forall b c d e, length b = length a -> length c = length a ->
  length d = length a -> length e = length a -> length (map5 f a b c d e) = length a.
Proof.
  induction a as [|x a IH]; intros [|y b] [|z c] [|u d] [|v e]; try discriminate; [reflexivity|].
  cbn [length map5]. intros. f_equal. apply IH; lia.
Qed.
Lemma nth_map5 f a : forall b c d e j, length b = length a -> length c = length a ->
  length d = length a -> length e = length a -> (j < length a)%nat ->
  nth j (map5 f a b c d e) x00 = f (nth j a x00) (nth j b x00) (nth j c x00) (nth j d x00) (nth j e x00).
Proof.
  induction a as [|x a IH]; intros [|y b] [|z c] [|u d] [|v e] [|j]; try discriminate; cbn [length map5 nth]; intros;
    try lia; try reflexivity.
  apply IH; lia.
Qed.

Definition g4 (a b c d e : byte) := bxor (bor d (bnot e)) (bxor b c).
Definition g3 (a b c d e : byte) := bxor (bor (bxor d b) (bxor b c)) (bxor a e).
Definition g2 (a b c d e : byte) := bxor (bor (bxor c (bxor a e)) b) (bxor d e).
Definition g1 (a b c d e : byte) := bxor (band b (bnot (bxor a e))) (bxor d e).
Definition g0 (a b c d e : byte) := bor a (bxor d e).
Definition gt (a b c d e : byte) := bxor (bor a (bxor d e)) (bxor b c).

Lemma nonlinear_ok a b c d e : length a = 8%nat -> length b = 8%nat -> length c = 8%nat ->
  length d = 8%nat -> length e = 8%nat ->
  fold_left NONLINEAR_LAYER [0; 1; 2; 3; 4; 5; 6; 7]%nat (a ++ b ++ c ++ d ++ e, zeros 8) =
  (map5 g0 a b c d e ++ map5 g1 a b c d e ++ map5 g2 a b c d e ++ map5 g3 a b c d e ++ map5 g4 a b c d e,
   map5 gt a b c d e).
Proof.
  intros Ha Hb Hc Hd He.
  destruct (explode8 a Ha) as (? & ? & ? & ? & ? & ? & ? & ? & ->).
  destruct (explode8 b Hb) as (? & ? & ? & ? & ? & ? & ? & ? & ->).
  destruct (explode8 c Hc) as (? & ? & ? & ? & ? & ? & ? & ? & ->).
  destruct (explode8 d Hd) as (? & ? & ? & ? & ? & ? & ? & ? & ->).
  destruct (explode8 e He) as (? & ? & ? & ? & ? & ? & ? & ? & ->).
  cbv [map5 g0 g1 g2 g3 g4 gt fold_left NONLINEAR_LAYER setb getb firstn skipn nth app zeros repeat Nat.add Nat.mul].
  reflexivity.
Qed.

Section SBox.
Variables a b c d e : bytes.
Hypotheses (Ha : length a = 8%nat) (Hb : length b = 8%nat) (Hc : length c = 8%nat)
  (Hd : length d = 8%nat) (He : length e = 8%nat).
Let s := St (le_num a) (le_num b) (le_num c) (le_num d) (le_num e).

Lemma fits8 l : length l = 8%nat -> fits 64 (le_num l).
Proof. intros H. replace 64 with (8 * N.of_nat (length l)) by lia. apply fits_le_num. Qed.

Lemma sbox_lane f X sb :
  (forall i, N.testbit X i = (i <? 64) && sb (N.testbit (le_num a) i) (N.testbit (le_num b) i)
     (N.testbit (le_num c) i) (N.testbit (le_num d) i) (N.testbit (le_num e) i)) ->
  (forall x y z u v i, i < 8 -> bbit (f x y z u v) i = sb (bbit x i) (bbit y i) (bbit z i) (bbit u i) (bbit v i)) ->
  le_num (map5 f a b c d e) = X.
Proof.
  intros HX Hf. apply (fits_ext 64).
  - apply fits8. rewrite length_map5; lia.
  - apply fits_testbit. intros i Hi. rewrite HX. replace (i <? 64) with false by lia. reflexivity.
  - intros i Hi. rewrite HX. replace (i <? 64) with true by lia. cbn [andb]. rewrite !tb_le_num.
    assert (Hj : i / 8 < 8) by (apply N.div_lt_upper_bound; lia).
    rewrite nth_map5 by lia. rewrite Hf by (apply N.mod_lt; lia). reflexivity.
Qed.

Ltac lane_tac := intros; unfold g0, g1, g2, g3, g4, gt;
  repeat first [rewrite bbit_bxor | rewrite bbit_bor | rewrite bbit_band | rewrite bbit_bnot by assumption];
  unfold sb0, sb1, sb2, sb3, sb4;
  repeat match goal with |- context [bbit ?x ?i] => destruct (bbit x i) end; reflexivity.

Lemma lane_S0 : le_num (map5 g2 a b c d e) = X0 (pS s).
Proof. apply (sbox_lane g2 _ sb0); [intros i; apply pS_bit0|lane_tac]. Qed.
Lemma lane_S1 : le_num (map5 g3 a b c d e) = X1 (pS s).
Proof. apply (sbox_lane g3 _ sb1); [intros i; apply pS_bit1|lane_tac]. Qed.
Lemma lane_S2 : le_num (map5 g4 a b c d e) = X2 (pS s).
Proof. apply (sbox_lane g4 _ sb2); [intros i; apply pS_bit2|lane_tac]. Qed.
Lemma lane_S3 : le_num (map5 gt a b c d e) = X3 (pS s).
Proof. apply (sbox_lane gt _ sb3); [intros i; apply pS_bit3|lane_tac]. Qed.
Lemma lane_S4 : le_num (map5 g1 a b c d e) = X4 (pS s).
Proof. apply (sbox_lane g1 _ sb4); [intros i; apply pS_bit4|lane_tac]. Qed.
End SBox.

(** ** Linear layer *)

Lemma length_xorl a : forall b, length b = length a -> length (xorl a b) = length a.
Proof. induction a as [|x a IH]; intros [|y b] H; try discriminate; [reflexivity|]. cbn. f_equal. apply IH. inversion H. reflexivity. Qed.
Lemma nth_xorl a : forall b j, length b = length a ->
  nth j (xorl a b) x00 = bxor (nth j a x00) (nth j b x00).
Proof.
  induction a as [|x a IH]; intros [|y b] [|j] H; try discriminate; try reflexivity.
  cbn. apply IH. inversion H. reflexivity.
Qed.
Lemma le_num_xorl a b : length b = length a -> le_num (xorl a b) = N.lxor (le_num a) (le_num b).
Proof.
  intros H. apply N.bits_inj; intro i. rewrite N.lxor_spec, !tb_le_num, nth_xorl by exact H.
  apply bbit_bxor.
Qed.

Lemma lin_lane x d r1 r2 : length x = 8%nat -> (r1 + d) mod 64 = r2 mod 64 ->
  (forall x, length x = 8%nat -> length (ROR8 x d) = 8%nat /\ le_num (ROR8 x d) = rotr (le_num x) d) ->
  (forall x, length x = 8%nat -> length (ROR8 x r1) = 8%nat /\ le_num (ROR8 x r1) = rotr (le_num x) r1) ->
  length (xorl x (ROR8 (xorl x (ROR8 x d)) r1)) = 8%nat /\
  le_num (xorl x (ROR8 (xorl x (ROR8 x d)) r1)) = sigma (le_num x) r1 r2.
Proof.
  intros Hx Hr A B. destruct (A x Hx) as [LA EA].
  assert (L1 : length (xorl x (ROR8 x d)) = 8%nat) by (rewrite length_xorl; lia).
  destruct (B _ L1) as [LB EB]. split; [rewrite length_xorl; lia|].
  rewrite le_num_xorl, EB, le_num_xorl, EA by lia. apply sigma_two, Hr.
Qed.

Lemma le_bytes_8 l x : length l = 8%nat -> le_num l = x -> l = le_bytes 8 x.
Proof. intros H <-. symmetry. apply le_bytes_le_num, H. Qed.

Lemma lane_at l0 l1 l2 l3 l4 : length l0 = 8%nat -> length l1 = 8%nat -> length l2 = 8%nat ->
  length l3 = 8%nat -> length l4 = 8%nat ->
  let s := l0 ++ l1 ++ l2 ++ l3 ++ l4 in
  lane s 0 = l0 /\ lane s 1 = l1 /\ lane s 2 = l2 /\ lane s 3 = l3 /\ lane s 4 = l4.
Proof.
  intros H0 H1 H2 H3 H4 s. unfold lane, s.
  destruct (explode8 l0 H0) as (? & ? & ? & ? & ? & ? & ? & ? & ->).
  destruct (explode8 l1 H1) as (? & ? & ? & ? & ? & ? & ? & ? & ->).
  destruct (explode8 l2 H2) as (? & ? & ? & ? & ? & ? & ? & ? & ->).
  destruct (explode8 l3 H3) as (? & ? & ? & ? & ? & ? & ? & ? & ->).
  destruct (explode8 l4 H4) as (? & ? & ? & ? & ? & ? & ? & ? & ->).
  repeat split; reflexivity.
Qed.

(** Adding the round constant to byte 16. *)
Lemma setb_rc a b c d e C : length a = 8%nat -> length b = 8%nat -> length c = 8%nat ->
  exists c', setb (a ++ b ++ c ++ d ++ e) 16 (bxor (getb (a ++ b ++ c ++ d ++ e) 16) (n2b C)) =
    a ++ b ++ c' ++ d ++ e /\ length c' = 8%nat /\ (fits 8 C -> le_num c' = N.lxor (le_num c) C).
Proof.
  intros Ha Hb Hc.
  destruct (explode8 a Ha) as (? & ? & ? & ? & ? & ? & ? & ? & ->).
  destruct (explode8 b Hb) as (? & ? & ? & ? & ? & ? & ? & ? & ->).
  destruct (explode8 c Hc) as (c0 & c1 & c2 & c3 & c4 & c5 & c6 & c7 & ->).
  exists [bxor c0 (n2b C); c1; c2; c3; c4; c5; c6; c7]. split; [reflexivity|]. split; [reflexivity|].
  intros HC. apply N.bits_inj; intro i. rewrite N.lxor_spec, !tb_le_num.
  destruct (N.ltb_spec i 8) as [H|H].
  - rewrite N.div_small, N.mod_small by exact H. change (N.to_nat 0) with 0%nat. cbn [nth]. rewrite bbit_bxor, bbit_n2b.
    replace (i <? 8) with true by lia. reflexivity.
  - rewrite (fits_bit_high 8 C i HC H), xorb_false_r.
    assert (Hd : 1 <= i / 8) by (apply N.div_le_lower_bound; lia).
    destruct (N.to_nat (i / 8)) as [|n] eqn:E; [lia|]. reflexivity.
Qed.

Lemma ROUND8_ok s C : length s = 40%nat -> fits 8 C ->
  ROUND8 s C = bytes_of_state (round (state_of_bytes s) C).
Proof.
  intros H HC. destruct (explode40 s H) as (a & b & c & d & e & -> & Ha & Hb & Hc & Hd & He).
  unfold ROUND8. destruct (setb_rc a b c d e C Ha Hb Hc) as (c' & -> & Hc' & Ec'). specialize (Ec' HC).
  rewrite nonlinear_ok by assumption.
  set (n0 := map5 g0 a b c' d e). set (n1 := map5 g1 a b c' d e). set (n2 := map5 g2 a b c' d e).
  set (n3 := map5 g3 a b c' d e). set (n4 := map5 g4 a b c' d e). set (nt := map5 gt a b c' d e).
  assert (L0 : length n0 = 8%nat) by (unfold n0; rewrite length_map5; lia).
  assert (L1 : length n1 = 8%nat) by (unfold n1; rewrite length_map5; lia).
  assert (L2 : length n2 = 8%nat) by (unfold n2; rewrite length_map5; lia).
  assert (L3 : length n3 = 8%nat) by (unfold n3; rewrite length_map5; lia).
  assert (L4 : length n4 = 8%nat) by (unfold n4; rewrite length_map5; lia).
  assert (Lt : length nt = 8%nat) by (unfold nt; rewrite length_map5; lia).
  cbn beta iota. unfold LINEAR_LAYER.
  destruct (lane_at n0 n1 n2 n3 n4 L0 L1 L2 L3 L4) as (_ & -> & -> & -> & ->). cbv zeta.
  destruct (lin_lane n2 9 19 28 L2 eq_refl ROR8_9 ROR8_19) as [A0 B0].
  destruct (lin_lane n4 5 1 6 L4 eq_refl ROR8_5 ROR8_1) as [A2 B2].
  destruct (lin_lane n1 34 7 41 L1 eq_refl ROR8_34 ROR8_7) as [A4 B4].
  destruct (lin_lane n3 22 39 61 L3 eq_refl ROR8_22 ROR8_39) as [A1 B1].
  destruct (lin_lane nt 7 10 17 Lt eq_refl ROR8_7 ROR8_10) as [A3 B3].
  pose proof (lane_S0 a b c' d e Ha Hb Hc' Hd He) as Q0. fold n2 in Q0. rewrite Q0 in B0.
  pose proof (lane_S1 a b c' d e Ha Hb Hc' Hd He) as Q1. fold n3 in Q1. rewrite Q1 in B1.
  pose proof (lane_S2 a b c' d e Ha Hb Hc' Hd He) as Q2. fold n4 in Q2. rewrite Q2 in B2.
  pose proof (lane_S3 a b c' d e Ha Hb Hc' Hd He) as Q3. fold nt in Q3. rewrite Q3 in B3.
  pose proof (lane_S4 a b c' d e Ha Hb Hc' Hd He) as Q4. fold n1 in Q4. rewrite Q4 in B4.
  rewrite sigma_comm in B1.
  assert (Es : state_of_bytes (a ++ b ++ c ++ d ++ e) =
    St (le_num a) (le_num b) (le_num c) (le_num d) (le_num e)).
  { unfold state_of_bytes. rewrite word_of_app0 by assumption. rewrite !word_of_appS by assumption.
    rewrite !word_of_app0 by assumption.
    rewrite <- (app_nil_r e) at 1. rewrite word_of_app0 by assumption. reflexivity. }
  rewrite Es. unfold round, bytes_of_state.
  rewrite Ec' in B0, B1, B2, B3, B4.
  rewrite (le_bytes_8 _ _ A0 B0), (le_bytes_8 _ _ A1 B1), (le_bytes_8 _ _ A2 B2), (le_bytes_8 _ _ A3 B3), (le_bytes_8 _ _ A4 B4).
  reflexivity.
Qed.

Lemma length_ROUND8 s C : length s = 40%nat -> fits 8 C -> length (ROUND8 s C) = 40%nat.
Proof. intros H HC. rewrite ROUND8_ok by assumption. apply length_bytes_of_state. Qed.

Lemma fold_left_step {A B} (f : A -> B -> A) x l a : fold_left f (x :: l) a = fold_left f l (f a x).
Proof. reflexivity. Qed.
Lemma fold_left_end {A B} (f : A -> B -> A) a : fold_left f [] a = a.
Proof. reflexivity. Qed.

Lemma rounds_ok cs : Forall (fits 8) cs -> forall s, length s = 40%nat ->
  fold_left ROUND8 cs s = bytes_of_state (fold_left round cs (state_of_bytes s)).
Proof.
  induction 1 as [|C cs HC _ IH]; intros s Hs.
  - rewrite !fold_left_end. symmetry. apply bytes_of_state_of_bytes, Hs.
  - rewrite !fold_left_step. rewrite IH by (apply length_ROUND8; assumption).
    rewrite ROUND8_ok by assumption.
    rewrite (state_of_bytes_of_state (round (state_of_bytes s) C) (wf_round _ _)). reflexivity.
Qed.

(** The loop goes through the round constants in order. *)
Lemma PROUNDS8_12 R s : PROUNDS8 R 16 (w64_START 12) s = fold_left R (skipn 4 round_constants) s.
Proof. reflexivity. Qed.
Lemma PROUNDS8_8 R s : PROUNDS8 R 16 (w64_START 8) s = fold_left R (skipn 8 round_constants) s.
Proof. reflexivity. Qed.

Theorem P8bit_12 s : length s = 40%nat -> P8bit 12 s = p 12 s.
Proof.
  intros H. unfold P8bit. rewrite PROUNDS8_12. apply (rounds_ok (skipn 4 round_constants)); [|exact H].
  repeat constructor.
Qed.
Theorem P8bit_8 s : length s = 40%nat -> P8bit 8 s = p 8 s.
Proof.
  intros H. unfold P8bit. rewrite PROUNDS8_8. apply (rounds_ok (skipn 8 round_constants)); [|exact H].
  repeat constructor.
Qed.
