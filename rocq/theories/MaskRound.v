(** * MaskRound.v -- the masked round and permutation compute the round and
    the permutation on the values the shares stand for. *)
From Coq Require Import Arith Bool NArith ZArith List Lia Btauto Init.Byte.
From Coq Require Import ZifyBool ZifyNat ZifyN.
From Verif Require Import Words WordFacts Spec SpecFacts RoundFacts CMem ModelRef StateRep RefPrim ModelCommon
  ModelWords WordLaws BitExp WordInst WordInstBi ModelMask MaskVal.
Import ListNotations.
Local Open Scope N_scope.

(** ** The two halves of a 64-bit word *)

Lemma testbit_ofw a b i : fits 32 a -> fits 32 b ->
  N.testbit (ofw LE a b) i = if i <? 32 then N.testbit a i else N.testbit b (i - 32).
Proof.
  intros Ha Hb. unfold ofw. rewrite N.lor_spec, testbit_shlw.
  destruct (N.ltb_spec i 32) as [H|H].
  - replace (32 <=? i) with false by lia. rewrite andb_false_r, ?andb_false_l, ?orb_false_r. reflexivity.
  - rewrite (fits_bit_high 32 a i Ha H). replace (32 <=? i) with true by lia. cbn [orb andb].
    destruct (N.ltb_spec i 64) as [H'|H']; [reflexivity|].
    rewrite (fits_bit_high 32 b (i - 32)) by (auto; lia). reflexivity.
Qed.
Lemma fits_ofw a b : fits 32 a -> fits 32 b -> fits 64 (ofw LE a b).
Proof.
  intros Ha Hb. apply fits_testbit. intros i Hi. rewrite testbit_ofw by assumption.
  replace (i <? 32) with false by lia. apply (fits_bit_high 32 b); [exact Hb|lia].
Qed.
Lemma w0_ofw a b : fits 32 a -> fits 32 b -> w0 LE (ofw LE a b) = a.
Proof.
  intros Ha Hb. apply N.bits_inj; intro i. unfold w0. rewrite testbit_trunc, testbit_ofw by assumption.
  destruct (N.ltb_spec i 32) as [H|H]; [reflexivity|]. rewrite (fits_bit_high 32 a i Ha H). reflexivity.
Qed.
Lemma w1_ofw a b : fits 32 a -> fits 32 b -> w1 LE (ofw LE a b) = b.
Proof.
  intros Ha Hb. apply N.bits_inj; intro i. unfold w1. rewrite testbit_shrw, testbit_ofw by assumption.
  replace (i + 32 <? 32) with false by lia. replace (i + 32 - 32) with i by lia. reflexivity.
Qed.
Lemma lxor_ofw a b c d : fits 32 a -> fits 32 b -> fits 32 c -> fits 32 d ->
  N.lxor (ofw LE a b) (ofw LE c d) = ofw LE (N.lxor a c) (N.lxor b d).
Proof.
  intros. apply N.bits_inj; intro i. rewrite N.lxor_spec, !testbit_ofw by (auto using fits_lxor).
  destruct (i <? 32); rewrite N.lxor_spec; reflexivity.
Qed.
Lemma land_ofw a b c d : fits 32 a -> fits 32 b -> fits 32 c -> fits 32 d ->
  N.land (ofw LE a b) (ofw LE c d) = ofw LE (N.land a c) (N.land b d).
Proof.
  intros. apply N.bits_inj; intro i. rewrite N.land_spec, !testbit_ofw by (auto using fits_land).
  destruct (i <? 32); rewrite N.land_spec; reflexivity.
Qed.
Lemma notw_ofw a b : fits 32 a -> fits 32 b -> notw 64 (ofw LE a b) = ofw LE (notw 32 a) (notw 32 b).
Proof.
  intros. apply N.bits_inj; intro i. rewrite testbit_notw, !testbit_ofw by (auto using fits_notw).
  destruct (N.ltb_spec i 32); rewrite testbit_notw; f_equal; lia.
Qed.
(** rotation of the word, from rotations of the halves *)
Lemma ROR_ofw_even a b k : fits 32 a -> fits 32 b -> k < 32 ->
  bi32_ROR LE (ofw LE a b) (2 * k) = ofw LE (rotr32 a k) (rotr32 b k).
Proof.
  intros Ha Hb Hk. unfold bi32_ROR.
  replace (2 * k mod 2 =? 1) with false by (rewrite N.mul_comm, N.mod_mul by lia; reflexivity).
  replace (2 * k / 2) with k by (rewrite N.mul_comm, N.div_mul; lia).
  rewrite w0_ofw, w1_ofw, !ROR32_rotr32 by assumption. reflexivity.
Qed.
Lemma ROR_ofw_odd a b k : fits 32 a -> fits 32 b -> k < 31 ->
  bi32_ROR LE (ofw LE a b) (2 * k + 1) = ofw LE (rotr32 b k) (rotr32 a (k + 1)).
Proof.
  intros Ha Hb Hk. unfold bi32_ROR.
  replace ((2 * k + 1) mod 2 =? 1) with true
    by (rewrite N.add_comm, N.mul_comm, N.mod_add by lia; reflexivity).
  replace ((2 * k + 1 - 1) / 2) with k by (replace (2 * k + 1 - 1) with (k * 2) by lia; rewrite N.div_mul; lia).
  replace ((2 * k + 1 + 1) / 2) with (k + 1) by (replace (2 * k + 1 + 1) with ((k + 1) * 2) by lia; rewrite N.div_mul; lia).
  rewrite w0_ofw, w1_ofw, !ROR32_rotr32 by (assumption || lia). reflexivity.
Qed.

(** ** Masked states *)

Definition okm (s : mstate) : Prop := forall k, okw (getw s k).
(** word [k] stands for this 64-bit word, halves interleaved *)
Definition J (ns : nat) (w : mword) : N := ofw LE (D ns w 0) (D ns w 1).
Definition JS (ns : nat) (s : mstate) : state :=
  St (J ns (y0 s)) (J ns (y1 s)) (J ns (y2 s)) (J ns (y3 s)) (J ns (y4 s)).
(** the spare word stands for 0 *)
Definition zero5 (ns : nat) (s : mstate) : Prop := D ns (y5 s) 0 = 0 /\ D ns (y5 s) 1 = 0.

Lemma getw_setw_same s k v : (k < 6)%nat -> getw (setw s k v) k = v.
Proof. intros H. destruct s. do 6 (destruct k as [|k]; [reflexivity|]). lia. Qed.
Lemma getw_setw_any s k v j : getw (setw s k v) j = v \/ getw (setw s k v) j = getw s j.
Proof. destruct s. destruct k as [|[|[|[|[|k]]]]], j as [|[|[|[|[|j]]]]]; cbn; auto. Qed.
Lemma okm_setw s k v : okm s -> okw v -> okm (setw s k v).
Proof. intros H Hv j. destruct (getw_setw_any s k v j) as [->| ->]; auto. Qed.
Lemma okm_xxor s k d i v : okm s -> fits 32 v -> okm (xxor s k d i v).
Proof. intros H Hv. apply okm_setw; [exact H|]. apply okw_wxor; auto. Qed.
Lemma okm_when b f s : okm s -> (okm s -> okm (f s)) -> okm (when b f s).
Proof. intros H Hf. destruct b; cbn; auto. Qed.

(** ** Affine layers *)

Definition aff1 (s : mstate) (i ns : nat) : mstate :=
  let s := when (1 <=? ns)%nat (fun s => AFFINE1 s i 0) s in
  let s := when (2 <=? ns)%nat (fun s => AFFINE1 s i 1) s in
  let s := when (3 <=? ns)%nat (fun s => AFFINE1 s i 2) s in
  when (4 <=? ns)%nat (fun s => AFFINE1 s i 3) s.
Definition tof (s : mstate) (i ns : nat) : mstate :=
  let s := setw s 5 (MXORBIC (getw s 5) (getw s 4) (getw s 3) i ns) in
  let s := setw s 4 (MXORBIC (getw s 4) (getw s 1) (getw s 0) i ns) in
  let s := setw s 1 (MXORBIC (getw s 1) (getw s 3) (getw s 2) i ns) in
  let s := setw s 3 (MXORBIC (getw s 3) (getw s 0) (getw s 4) i ns) in
  setw s 0 (MXORBIC (getw s 0) (getw s 2) (getw s 1) i ns).
Definition aff2 (s : mstate) (i ns : nat) : mstate :=
  let s := when (1 <=? ns)%nat (fun s => AFFINE2 s i 0) s in
  let s := setw s 2 (wset (getw s 2) 0 i (notw 32 (wget (getw s 2) 0 i))) in
  let s := when (2 <=? ns)%nat (fun s => AFFINE2 s i 1) s in
  let s := when (3 <=? ns)%nat (fun s => AFFINE2 s i 2) s in
  when (4 <=? ns)%nat (fun s => AFFINE2 s i 3) s.
Lemma SBOX_parts s i ns : SBOX s i ns = aff2 (tof (aff1 s i ns) i ns) i ns.
Proof. reflexivity. Qed.

Lemma okm_AFFINE1 s i d : okm s -> okm (AFFINE1 s i d).
Proof.
  intros H. unfold AFFINE1. cbv zeta.
  repeat match goal with |- okm (xxor ?s _ _ _ (wget (getw ?t _) _ _)) =>
    let H := fresh in assert (H : okm s); [|apply okm_xxor; [exact H|apply H]] end. exact H.
Qed.
Lemma okm_AFFINE2 s i d : okm s -> okm (AFFINE2 s i d).
Proof.
  intros H. unfold AFFINE2. cbv zeta.
  repeat match goal with |- okm (xxor ?s _ _ _ (wget (getw ?t _) _ _)) =>
    let H := fresh in assert (H : okm s); [|apply okm_xxor; [exact H|apply H]] end. exact H.
Qed.
Lemma okm_aff1 s i ns : okm s -> okm (aff1 s i ns).
Proof.
  intros H. unfold aff1. cbv zeta. repeat (apply okm_when; [|intros; apply okm_AFFINE1; assumption]). exact H.
Qed.
Lemma okm_aff2 s i ns : okm s -> okm (aff2 s i ns).
Proof.
  intros H. unfold aff2. cbv zeta.
  do 3 (apply okm_when; [|intros; apply okm_AFFINE2; assumption]).
  assert (H1 : okm (when (1 <=? ns)%nat (fun s => AFFINE2 s i 0) s)).
  { apply okm_when; [exact H|intros; apply okm_AFFINE2; assumption]. }
  apply okm_setw; [exact H1|]. apply okw_wset; [apply H1|]. apply fits_notw, H1.
Qed.
Lemma okm_tof s i ns : okm s -> okm (tof s i ns).
Proof.
  intros H. unfold tof. cbv zeta.
  repeat match goal with |- okm (setw ?s _ (MXORBIC (getw ?s ?a) (getw ?s ?b) (getw ?s ?c) _ _)) =>
    let H := fresh in assert (H : okm s); [|apply okm_setw; [exact H|apply okw_MXORBIC; apply H]] end. exact H.
Qed.
Lemma okm_SBOX s i ns : okm s -> okm (SBOX s i ns).
Proof. intros H. rewrite SBOX_parts. apply okm_aff2, okm_tof, okm_aff1, H. Qed.

Ltac cvs := cbv beta iota zeta delta [aff1 aff2 AFFINE1 AFFINE2 xxor getw setw y0 y1 y2 y3 y4 y5 D wset wget wxor sget sset hget hset
  when Nat.leb Nat.ltb andb m0 m1 m2 m3 h0 h1].
Ltac open_state s :=
  destruct s as [[[?x ?x] [?x ?x] [?x ?x] [?x ?x]] [[?x ?x] [?x ?x] [?x ?x] [?x ?x]] [[?x ?x] [?x ?x] [?x ?x] [?x ?x]]
    [[?x ?x] [?x ?x] [?x ?x] [?x ?x]] [[?x ?x] [?x ?x] [?x ?x] [?x ?x]] [[?x ?x] [?x ?x] [?x ?x] [?x ?x]]].

Lemma D_aff1 ns s i : okn ns -> (i < 2)%nat ->
  D ns (y0 (aff1 s i ns)) i = N.lxor (D ns (y0 s) i) (D ns (y4 s) i) /\
  D ns (y1 (aff1 s i ns)) i = D ns (y1 s) i /\
  D ns (y2 (aff1 s i ns)) i = N.lxor (D ns (y2 s) i) (D ns (y1 s) i) /\
  D ns (y3 (aff1 s i ns)) i = D ns (y3 s) i /\
  D ns (y4 (aff1 s i ns)) i = N.lxor (D ns (y4 s) i) (D ns (y3 s) i) /\
  D ns (y5 (aff1 s i ns)) i = D ns (y5 s) i.
Proof.
  intros H Hi. open_state s. ncases H; hcases Hi; cvs; repeat split; try reflexivity; rot_norm; bits_btauto.
Qed.
Lemma D_aff1_other ns s i j : okn ns -> (i < 2)%nat -> j = (1 - i)%nat -> forall k,
  D ns (getw (aff1 s i ns) k) j = D ns (getw s k) j.
Proof.
  intros H Hi Hj k. open_state s. ncases H; hcases Hi; subst j; destruct k as [|[|[|[|[|k]]]]]; cvs; reflexivity.
Qed.
Lemma D_aff2 ns s i : okn ns -> (i < 2)%nat ->
  D ns (y0 (aff2 s i ns)) i = N.lxor (D ns (y0 s) i) (D ns (y4 s) i) /\
  D ns (y1 (aff2 s i ns)) i = N.lxor (D ns (y1 s) i) (D ns (y0 s) i) /\
  D ns (y2 (aff2 s i ns)) i = notw 32 (N.lxor (D ns (y2 s) i) (D ns (y5 s) i)) /\
  D ns (y3 (aff2 s i ns)) i = N.lxor (D ns (y3 s) i) (N.lxor (D ns (y2 s) i) (D ns (y5 s) i)) /\
  D ns (y4 (aff2 s i ns)) i = D ns (y4 s) i.
Proof.
  intros H Hi. open_state s. ncases H; hcases Hi; cvs; repeat split; try reflexivity; rot_norm; bits32.
Qed.
Lemma D_aff2_other ns s i j : okn ns -> (i < 2)%nat -> j = (1 - i)%nat -> forall k,
  D ns (getw (aff2 s i ns) k) j = D ns (getw s k) j.
Proof.
  intros H Hi Hj k. open_state s. ncases H; hcases Hi; subst j; destruct k as [|[|[|[|[|k]]]]]; cvs; reflexivity.
Qed.

Lemma D_tof_other ns s i j : okn ns -> (i < 2)%nat -> j = (1 - i)%nat -> forall k,
  D ns (getw (tof s i ns) k) j = D ns (getw s k) j.
Proof.
  intros H Hi Hj k. destruct s as [a b c d e f]. unfold tof.
  hcases Hi; subst j; destruct k as [|[|[|[|[|k]]]]]; cbn [getw setw y0 y1 y2 y3 y4 y5 Nat.sub]; try reflexivity;
    apply D_MXORBIC_other; exact H.
Qed.

(** ** The S-box layer on one half *)

Section SboxHalf.
Variables (x0 x1 x2 x3 x4 : N).
Definition sa0 := N.lxor x0 x4.
Definition sa2 := N.lxor x2 x1.
Definition sa4 := N.lxor x4 x3.
Definition st0 := N.lxor sa0 (N.land (notw 32 x1) sa2).
Definition st1 := N.lxor x1 (N.land (notw 32 sa2) x3).
Definition st2 := N.lxor sa2 (N.land (notw 32 x3) sa4).
Definition st3 := N.lxor x3 (N.land (notw 32 sa4) sa0).
Definition st4 := N.lxor sa4 (N.land (notw 32 sa0) x1).
End SboxHalf.

Lemma D_SBOX ns s i : okn ns -> (i < 2)%nat -> okm s -> D ns (y5 s) i = 0 ->
  let x0 := D ns (y0 s) i in let x1 := D ns (y1 s) i in let x2 := D ns (y2 s) i in
  let x3 := D ns (y3 s) i in let x4 := D ns (y4 s) i in
  D ns (y0 (SBOX s i ns)) i = N.lxor (st0 x0 x1 x2 x4) (st4 x0 x1 x3 x4) /\
  D ns (y1 (SBOX s i ns)) i = N.lxor (st1 x1 x2 x3) (st0 x0 x1 x2 x4) /\
  D ns (y2 (SBOX s i ns)) i = notw 32 (st2 x1 x2 x3 x4) /\
  D ns (y3 (SBOX s i ns)) i = N.lxor (st3 x0 x3 x4) (st2 x1 x2 x3 x4) /\
  D ns (y4 (SBOX s i ns)) i = st4 x0 x1 x3 x4.
Proof.
  intros H Hi Hs H5. cbv zeta. rewrite SBOX_parts.
  destruct (D_aff1 ns s i H Hi) as (A0 & A1 & A2 & A3 & A4 & A5).
  pose proof (okm_aff1 s i ns Hs) as Hs1. revert A0 A1 A2 A3 A4 A5 Hs1.
  generalize (aff1 s i ns). intros s1 A0 A1 A2 A3 A4 A5 Hs1. rewrite H5 in A5.
  pose proof (okm_tof s1 i ns Hs1) as Hs2.
  destruct (D_aff2 ns (tof s1 i ns) i H Hi) as (B0 & B1 & B2 & B3 & B4).
  assert (T : let z0 := D ns (y0 s1) i in let z1 := D ns (y1 s1) i in let z2 := D ns (y2 s1) i in
    let z3 := D ns (y3 s1) i in let z4 := D ns (y4 s1) i in
    let z5' := N.lxor (D ns (y5 s1) i) (N.land z4 (notw 32 z3)) in
    let z4' := N.lxor z4 (N.land z1 (notw 32 z0)) in
    let z1' := N.lxor z1 (N.land z3 (notw 32 z2)) in
    let z3' := N.lxor z3 (N.land z0 (notw 32 z4')) in
    let z0' := N.lxor z0 (N.land z2 (notw 32 z1')) in
    D ns (y0 (tof s1 i ns)) i = z0' /\ D ns (y1 (tof s1 i ns)) i = z1' /\ D ns (y2 (tof s1 i ns)) i = z2 /\
    D ns (y3 (tof s1 i ns)) i = z3' /\ D ns (y4 (tof s1 i ns)) i = z4' /\ D ns (y5 (tof s1 i ns)) i = z5').
  { cbv zeta. pose proof (Hs1 0%nat) as K0. pose proof (Hs1 1%nat) as K1. pose proof (Hs1 2%nat) as K2.
    pose proof (Hs1 3%nat) as K3. pose proof (Hs1 4%nat) as K4. pose proof (Hs1 5%nat) as K5.
    clear - H Hi K0 K1 K2 K3 K4 K5. destruct s1 as [a b c d e f]. cbn [getw y0 y1 y2 y3 y4 y5] in *.
    unfold tof. cbn [getw setw y0 y1 y2 y3 y4 y5].
    repeat split; rewrite ?D_MXORBIC by (auto using okw_MXORBIC); reflexivity. }
  cbv zeta in T. destruct T as (T0 & T1 & T2 & T3 & T4 & T5).
  rewrite B0, B1, B2, B3, B4, T0, T1, T2, T3, T4, T5, A0, A1, A2, A3, A4, A5.
  unfold st0, st1, st2, st3, st4, sa0, sa2, sa4.
  pose proof (fits_D ns (y0 s) i) as F0. pose proof (fits_D ns (y1 s) i) as F1. pose proof (fits_D ns (y2 s) i) as F2.
  pose proof (fits_D ns (y3 s) i) as F3. pose proof (fits_D ns (y4 s) i) as F4.
  revert F0 F1 F2 F3 F4. generalize (D ns (y0 s) i) (D ns (y1 s) i) (D ns (y2 s) i) (D ns (y3 s) i) (D ns (y4 s) i).
  clear. intros x0 x1 x2 x3 x4 F0 F1 F2 F3 F4.
  repeat split; apply N.bits_inj; intro j;
    repeat (rewrite ?N.lxor_spec, ?N.land_spec, ?testbit_notw, ?N.bits_0);
    (destruct (N.ltb_spec j 32) as [Hj|Hj];
     [|rewrite ?(fits_bit_high 32 x0 j F0 Hj), ?(fits_bit_high 32 x1 j F1 Hj), ?(fits_bit_high 32 x2 j F2 Hj),
        ?(fits_bit_high 32 x3 j F3 Hj), ?(fits_bit_high 32 x4 j F4 Hj)]);
    destruct (N.testbit x0 j), (N.testbit x1 j), (N.testbit x2 j), (N.testbit x3 j), (N.testbit x4 j); reflexivity.
Qed.

(** ** The linear layer *)

Definition lin (s : mstate) (ns : nat) : mstate :=
  let s := when (4 <=? ns)%nat (fun s => LINEAR s 3) s in
  let s := when (3 <=? ns)%nat (fun s => LINEAR s 2) s in
  let s := when (2 <=? ns)%nat (fun s => LINEAR s 1) s in
  when (1 <=? ns)%nat (fun s => LINEAR s 0) s.

Lemma okm_LINEAR s d : okm s -> okm (LINEAR s d).
Proof.
  intros H. unfold LINEAR. cbv zeta.
  repeat match goal with |- okm (xxor _ _ _ _ _) => apply okm_xxor end; try exact H;
    repeat first [apply fits_ROR32 | apply fits_lxor | apply H]; try lia.
Qed.
Lemma okm_lin s ns : okm s -> okm (lin s ns).
Proof. intros H. unfold lin. cbv zeta. repeat (apply okm_when; [|intros; apply okm_LINEAR; assumption]). exact H. Qed.

(** words other than [k] and shares other than [d] are not read for word [k] *)
Definition lin_word (k : nat) (a b : N) : N * N :=
  match k with
  | 0%nat => (N.lxor a (rotr32 (N.lxor b (rotr32 a 5)) 9), N.lxor b (rotr32 (N.lxor a (rotr32 b 4)) 10))
  | 1%nat => (N.lxor a (rotr32 (N.lxor b (rotr32 b 11)) 19), N.lxor b (rotr32 (N.lxor a (rotr32 a 11)) 20))
  | 2%nat => (N.lxor a (rotr32 (N.lxor b (rotr32 a 3)) 0), N.lxor b (rotr32 (N.lxor a (rotr32 b 2)) 1))
  | 3%nat => (N.lxor a (rotr32 (N.lxor a (rotr32 b 3)) 5), N.lxor b (rotr32 (N.lxor b (rotr32 a 4)) 5))
  | 4%nat => (N.lxor a (rotr32 (N.lxor b (rotr32 b 17)) 3), N.lxor b (rotr32 (N.lxor a (rotr32 a 17)) 4))
  | _ => (a, b)
  end.
Definition lin_share (k d : nat) (w : mword) : mword :=
  let '(a, b) := lin_word k (wget w d 0) (wget w d 1) in wset (wset w d 0 a) d 1 b.
Lemma LINEAR_word s d k : okm s -> (k < 6)%nat -> (d < 4)%nat -> getw (LINEAR s d) k = lin_share k d (getw s k).
Proof.
  intros H Hk Hd.
  assert (E : forall k i, ROR32 (wget (getw s k) d i) 4 = rotr32 (wget (getw s k) d i) 4) by (intros; apply ROR32_rotr32; [apply H|lia]).
  pose proof (H 0%nat) as K0. pose proof (H 1%nat) as K1. pose proof (H 2%nat) as K2.
  pose proof (H 3%nat) as K3. pose proof (H 4%nat) as K4. clear H E.
  destruct s as [a0 a1 a2 a3 a4 a5]. cbn [getw y0 y1 y2 y3 y4] in K0, K1, K2, K3, K4.
  unfold lin_share.
  assert (Ed : (d = 0 \/ d = 1 \/ d = 2 \/ d = 3)%nat) by lia.
  destruct k as [|[|[|[|[|k]]]]]; clear Hk Hd;
  destruct Ed as [->|[->|[->| ->]]];
  match goal with |- getw _ ?k = _ =>
    match k with
    | 0%nat => clear K1 K2 K3 K4; open_word a0; open_ok K0
    | 1%nat => clear K0 K2 K3 K4; open_word a1; open_ok K1
    | 2%nat => clear K1 K0 K3 K4; open_word a2; open_ok K2
    | 3%nat => clear K1 K2 K0 K4; open_word a3; open_ok K3
    | 4%nat => clear K1 K2 K3 K0; open_word a4; open_ok K4
    | _ => clear K0 K1 K2 K3 K4; open_word a5
    end end;
  cbv beta iota zeta delta [LINEAR lin_word xxor getw setw y0 y1 y2 y3 y4 y5 wset wget wxor sget sset hget hset m0 m1 m2 m3 h0 h1];
  ror32; reflexivity.
Qed.
Lemma D_lin ns s k : okn ns -> okm s -> (k < 6)%nat ->
  (D ns (getw (lin s ns) k) 0, D ns (getw (lin s ns) k) 1) = lin_word k (D ns (getw s k) 0) (D ns (getw s k) 1).
Proof.
  intros H Hs Hk. ncases H; unfold lin; cbn [when Nat.leb];
  rewrite ?LINEAR_word by (repeat first [assumption | apply okm_LINEAR | lia]).
  all: specialize (Hs k); destruct (getw s k) as [[a0 a1] [b0 b1] [c0 c1] [e0 e1]]; clear Hs; unfold lin_share;
  destruct k as [|[|[|[|[|k]]]]]; clear Hk;
  cbv beta iota zeta delta [lin_word D wset wget wxor sget sset hget hset m0 m1 m2 m3 h0 h1];
  try reflexivity; f_equal; rot_norm; bits_btauto.
Qed.

(** ** The round *)

Lemma D_SBOX_other ns s i j : okn ns -> (i < 2)%nat -> j = (1 - i)%nat -> forall k,
  D ns (getw (SBOX s i ns) k) j = D ns (getw s k) j.
Proof.
  intros H Hi Hj k. rewrite SBOX_parts, (D_aff2_other ns _ i j H Hi Hj), (D_tof_other ns _ i j H Hi Hj).
  apply D_aff1_other; assumption.
Qed.

(** the values of the two halves *)
Definition half (ns : nat) (s : mstate) (i k : nat) : N := D ns (getw s k) i.
Lemma half_xxor_same ns s k i v : okn ns -> (i < 2)%nat -> (k < 6)%nat -> fits 32 v ->
  half ns (xxor s k 0 i v) i k = N.lxor (half ns s i k) v.
Proof.
  intros H Hi Hk Hv. unfold half, xxor. rewrite getw_setw_same by exact Hk. apply D_wxor0; assumption.
Qed.
Lemma half_xxor_word ns s k d i v j k' : (k < 6)%nat -> (k' < 6)%nat -> k' <> k ->
  half ns (xxor s k d i v) j k' = half ns s j k'.
Proof.
  intros Hk Hk' Hne. unfold half, xxor. f_equal. destruct s.
  destruct k as [|[|[|[|[|[|k]]]]]], k' as [|[|[|[|[|[|k']]]]]]; try lia; reflexivity.
Qed.
Lemma half_xxor_other ns s k i v k' : okn ns -> (i < 2)%nat -> (k < 6)%nat -> (k' < 6)%nat ->
  half ns (xxor s k 0 i v) (1 - i) k' = half ns s (1 - i) k'.
Proof.
  intros H Hi Hk Hk'. destruct (Nat.eq_dec k' k) as [->|Hne]; [|apply half_xxor_word; assumption].
  unfold half, xxor. rewrite getw_setw_same by exact Hk.
  destruct (D_wxor0_other ns (getw s k) v H) as [A B]. hcases Hi; assumption.
Qed.

Lemma mround_halves ns s co ce : okn ns -> okm s -> zero5 ns s -> fits 32 ce -> fits 32 co ->
  let s1 := SBOX (xxor s 2 0 0 ce) 0 ns in
  let s2 := SBOX (xxor s1 2 0 1 co) 1 ns in
  okm s2 /\
  forall i, (i < 2)%nat ->
    let x0 := half ns s i 0 in let x1 := half ns s i 1 in
    let x2 := N.lxor (half ns s i 2) (match i with O => ce | _ => co end) in
    let x3 := half ns s i 3 in let x4 := half ns s i 4 in
    half ns s2 i 0 = N.lxor (st0 x0 x1 x2 x4) (st4 x0 x1 x3 x4) /\
    half ns s2 i 1 = N.lxor (st1 x1 x2 x3) (st0 x0 x1 x2 x4) /\
    half ns s2 i 2 = notw 32 (st2 x1 x2 x3 x4) /\
    half ns s2 i 3 = N.lxor (st3 x0 x3 x4) (st2 x1 x2 x3 x4) /\
    half ns s2 i 4 = st4 x0 x1 x3 x4.
Proof.
  intros H Hs [Z0 Z1] Hce Hco s1 s2.
  assert (K1 : okm (xxor s 2 0 0 ce)) by (apply okm_xxor; assumption).
  assert (K2 : okm s1) by (apply okm_SBOX; exact K1).
  assert (K3 : okm (xxor s1 2 0 1 co)) by (apply okm_xxor; assumption).
  assert (K4 : okm s2) by (apply okm_SBOX; exact K3).
  split; [exact K4|]. intros i Hi. cbv zeta. hcases Hi.
  - assert (E : forall k, (k < 6)%nat -> half ns s2 0 k = half ns s1 0 k).
    { intros k Hk. unfold half, s2. rewrite (D_SBOX_other ns _ 1 0) by (auto; lia).
      apply (half_xxor_other ns s1 2 1 co k); lia || assumption. }
    rewrite !E by lia.
    destruct (D_SBOX ns (xxor s 2 0 0 ce) 0 H ltac:(lia) K1) as (B0 & B1 & B2 & B3 & B4).
    { pose proof (half_xxor_word ns s 2 0 0 ce 0 5 ltac:(lia) ltac:(lia) ltac:(lia)) as W.
      unfold half in W. cbn [getw] in W. rewrite W. exact Z0. }
    pose proof (half_xxor_same ns s 2 0 ce H ltac:(lia) ltac:(lia) Hce) as W2.
    pose proof (half_xxor_word ns s 2 0 0 ce 0 0 ltac:(lia) ltac:(lia) ltac:(lia)) as W0.
    pose proof (half_xxor_word ns s 2 0 0 ce 0 1 ltac:(lia) ltac:(lia) ltac:(lia)) as W1.
    pose proof (half_xxor_word ns s 2 0 0 ce 0 3 ltac:(lia) ltac:(lia) ltac:(lia)) as W3.
    pose proof (half_xxor_word ns s 2 0 0 ce 0 4 ltac:(lia) ltac:(lia) ltac:(lia)) as W4.
    unfold half in *. cbn [getw] in *. rewrite W0, W1, W2, W3, W4 in *. repeat split; assumption.
  - assert (E : forall k, (k < 6)%nat -> half ns s1 1 k = half ns s 1 k).
    { intros k Hk. unfold half, s1. rewrite (D_SBOX_other ns _ 0 1) by (auto; lia).
      apply (half_xxor_other ns s 2 0 ce k); lia || assumption. }
    rewrite <- !E by lia.
    destruct (D_SBOX ns (xxor s1 2 0 1 co) 1 H ltac:(lia) K3) as (B0 & B1 & B2 & B3 & B4).
    { pose proof (half_xxor_word ns s1 2 0 1 co 1 5 ltac:(lia) ltac:(lia) ltac:(lia)) as W.
      pose proof (E 5%nat ltac:(lia)) as E5.
      unfold half in W, E5. cbn [getw] in W, E5. rewrite W, E5. exact Z1. }
    pose proof (half_xxor_same ns s1 2 1 co H ltac:(lia) ltac:(lia) Hco) as W2.
    pose proof (half_xxor_word ns s1 2 0 1 co 1 0 ltac:(lia) ltac:(lia) ltac:(lia)) as W0.
    pose proof (half_xxor_word ns s1 2 0 1 co 1 1 ltac:(lia) ltac:(lia) ltac:(lia)) as W1.
    pose proof (half_xxor_word ns s1 2 0 1 co 1 3 ltac:(lia) ltac:(lia) ltac:(lia)) as W3.
    pose proof (half_xxor_word ns s1 2 0 1 co 1 4 ltac:(lia) ltac:(lia) ltac:(lia)) as W4.
    unfold half in *. cbn [getw] in *. rewrite W0, W1, W2, W3, W4 in *. repeat split; assumption.
Qed.

(** the linear layer of ROUND_t on a word given by its halves *)
Definition lin64 (k : nat) (t : N) : N :=
  match k with
  | 0%nat => N.lxor t (bi32_ROR LE (N.lxor t (bi32_ROR LE t 9)) 19)
  | 1%nat => N.lxor t (bi32_ROR LE (N.lxor t (bi32_ROR LE t 22)) 39)
  | 2%nat => notw 64 (N.lxor (notw 64 t) (bi32_ROR LE (N.lxor (notw 64 t) (bi32_ROR LE (notw 64 t) 5)) 1))
  | 3%nat => N.lxor t (bi32_ROR LE (N.lxor t (bi32_ROR LE t 7)) 10)
  | _ => N.lxor t (bi32_ROR LE (N.lxor t (bi32_ROR LE t 34)) 7)
  end.
Lemma lin64_ofw k a b : (k < 5)%nat -> fits 32 a -> fits 32 b ->
  lin64 k (ofw LE a b) = ofw LE (fst (lin_word k a b)) (snd (lin_word k a b)).
Proof.
  intros Hk Ha Hb.
  assert (G : forall x, fits 32 x -> notw 32 (notw 32 x) = x).
  { intros x Hx. apply (fits_ext 32); auto using fits_notw. intros i Hi. rewrite !testbit_notw.
    apply N.ltb_lt in Hi. rewrite Hi. cbn [andb]. apply negb_involutive. }
  destruct k as [|[|[|[|[|k]]]]]; try lia; unfold lin64, lin_word; cbn [fst snd].
  - change 9 with (2 * 4 + 1) at 1. change 19 with (2 * 9 + 1) at 1.
    rewrite ROR_ofw_odd, lxor_ofw, ROR_ofw_odd, lxor_ofw by (repeat first [assumption | apply fits_rotr32 | apply fits_lxor | lia]).
    f_equal; f_equal; rot_norm; bits_btauto.
  - change 22 with (2 * 11) at 1. change 39 with (2 * 19 + 1) at 1.
    rewrite ROR_ofw_even, lxor_ofw, ROR_ofw_odd, lxor_ofw by (repeat first [assumption | apply fits_rotr32 | apply fits_lxor | lia]).
    reflexivity.
  - change 5 with (2 * 2 + 1) at 1. change (bi32_ROR LE ?x 1) with (bi32_ROR LE x (2 * 0 + 1)).
    rewrite notw_ofw, ROR_ofw_odd, lxor_ofw, ROR_ofw_odd, lxor_ofw, notw_ofw by (repeat first [assumption | apply fits_notw | apply fits_rotr32 | apply fits_lxor | lia]).
    rewrite <- (rotr32_0 a Ha), <- (rotr32_0 b Hb). f_equal; rot_norm; bits32.
  - change 7 with (2 * 3 + 1) at 1. change 10 with (2 * 5) at 1.
    rewrite ROR_ofw_odd, lxor_ofw, ROR_ofw_even, lxor_ofw by (repeat first [assumption | apply fits_rotr32 | apply fits_lxor | lia]).
    reflexivity.
  - change 34 with (2 * 17) at 1. change 7 with (2 * 3 + 1) at 1.
    rewrite ROR_ofw_even, lxor_ofw, ROR_ofw_odd, lxor_ofw by (repeat first [assumption | apply fits_rotr32 | apply fits_lxor | lia]).
    reflexivity.
Qed.
