(** * MaskVal.v -- the value a masked word stands for, and the masked word
    operations of word.h on it. *)
From Coq Require Import Arith Bool NArith ZArith List Lia Btauto Init.Byte.
From Coq Require Import ZifyBool ZifyNat ZifyN.
From Verif Require Import Words WordFacts Spec SpecFacts RoundFacts CMem ModelRef ModelCommon ModelWords ModelMask.
Import ListNotations.
Local Open Scope N_scope.

(** ** 32-bit rotation *)

Definition rotr32 (x r : N) : N := of_bits 32 (fun i => N.testbit x ((i + r) mod 32)).

Lemma testbit_rotr32 x r i : N.testbit (rotr32 x r) i = (i <? 32) && N.testbit x ((i + r) mod 32).
Proof. unfold rotr32. rewrite testbit_of_bits. reflexivity. Qed.
Lemma fits_rotr32 x r : fits 32 (rotr32 x r).
Proof. apply (fits_of_bits 32). Qed.
Lemma rotr32_lxor x y r : rotr32 (N.lxor x y) r = N.lxor (rotr32 x r) (rotr32 y r).
Proof.
  apply N.bits_inj; intro i. rewrite N.lxor_spec, !testbit_rotr32, N.lxor_spec.
  destruct (i <? 32); reflexivity.
Qed.
Lemma rotr32_land x y r : rotr32 (N.land x y) r = N.land (rotr32 x r) (rotr32 y r).
Proof.
  apply N.bits_inj; intro i. rewrite N.land_spec, !testbit_rotr32, N.land_spec.
  destruct (i <? 32); reflexivity.
Qed.
Lemma rotr32_lor x y r : rotr32 (N.lor x y) r = N.lor (rotr32 x r) (rotr32 y r).
Proof.
  apply N.bits_inj; intro i. rewrite N.lor_spec, !testbit_rotr32, N.lor_spec.
  destruct (i <? 32); reflexivity.
Qed.
Lemma rotr32_notw x r : rotr32 (notw 32 x) r = notw 32 (rotr32 x r).
Proof.
  apply N.bits_inj; intro i. rewrite testbit_notw, !testbit_rotr32, testbit_notw.
  assert (H : (i + r) mod 32 < 32) by (apply N.mod_lt; lia). apply N.ltb_lt in H. rewrite H.
  destruct (i <? 32); reflexivity.
Qed.
Lemma rotr32_rotr32 x a b : rotr32 (rotr32 x a) b = rotr32 x ((a + b) mod 32).
Proof.
  apply N.bits_inj; intro i. rewrite !testbit_rotr32.
  assert (H : (i + b) mod 32 < 32) by (apply N.mod_lt; lia). apply N.ltb_lt in H. rewrite H.
  cbn [andb]. rewrite N.add_mod_idemp_l, N.add_mod_idemp_r by lia.
  replace (i + b + a) with (i + (a + b)) by lia. reflexivity.
Qed.
Lemma rotr32_0 x : fits 32 x -> rotr32 x 0 = x.
Proof.
  intros H. apply (fits_ext 32); [apply fits_rotr32|exact H|]. intros i Hi.
  rewrite testbit_rotr32, N.add_0_r, N.mod_small by exact Hi.
  apply N.ltb_lt in Hi. rewrite Hi. reflexivity.
Qed.
Lemma rotr32_zero r : rotr32 0 r = 0.
Proof. apply N.bits_inj; intro i. rewrite testbit_rotr32, !N.bits_0. apply andb_false_r. Qed.

Lemma ROR32_rotr32 x n : fits 32 x -> n < 32 -> ROR32 x n = rotr32 x n.
Proof.
  intros Hx Hn. apply N.bits_inj; intro i. unfold ROR32.
  rewrite N.lor_spec, testbit_shrw, testbit_shlw, testbit_rotr32.
  change 31 with (N.ones 5). rewrite N.land_ones. change (2 ^ 5) with 32.
  destruct (N.eq_dec n 0) as [->|Hn0].
  - rewrite N.sub_0_r, N.mod_same, !N.add_0_r, N.sub_0_r by lia. cbn [N.leb].
    destruct (N.ltb_spec i 32) as [H|H].
    + rewrite N.mod_small by exact H. cbn [andb]. replace (0 <=? i) with true by lia.
      cbn [andb]. apply orb_diag.
    + rewrite (fits_bit_high 32 x i Hx H). reflexivity.
  - rewrite (N.mod_small (32 - n)) by lia.
    destruct (N.ltb_spec i 32) as [H|H].
    + destruct (N.leb_spec (32 - n) i) as [H'|H'].
      * rewrite (fits_bit_high 32 x (i + n)) by (auto; lia). cbn [orb andb].
        replace ((i + n) mod 32) with (i - (32 - n)); [reflexivity|].
        apply (N.mod_unique (i + n) 32 1); lia.
      * rewrite N.mod_small by lia. cbn [andb]. apply orb_false_r.
    + rewrite (fits_bit_high 32 x (i + n)) by (auto; lia). reflexivity.
Qed.
Lemma fits_ROR32 x n : fits 32 x -> n < 32 -> fits 32 (ROR32 x n).
Proof. intros H Hn. rewrite ROR32_rotr32 by assumption. apply fits_rotr32. Qed.

(** Normalise nested rotations by constants. *)
Ltac rot_norm :=
  repeat progress (rewrite ?rotr32_lxor, ?rotr32_land, ?rotr32_lor, ?rotr32_notw, ?rotr32_zero);
  repeat (rewrite rotr32_rotr32;
    match goal with |- context [rotr32 ?x ((?a + ?b) mod 32)] =>
      let r := eval vm_compute in ((a + b) mod 32) in change (rotr32 x ((a + b) mod 32)) with (rotr32 x r)
    end;
    repeat progress (rewrite ?rotr32_lxor, ?rotr32_land, ?rotr32_lor, ?rotr32_notw, ?rotr32_zero)).

(** ** Words whose halves are 32-bit values *)

Definition okw (w : mword) : Prop := forall d i, fits 32 (wget w d i).

Lemma wget_wset w d i v d' i' : wget (wset w d i v) d' i' = v \/ wget (wset w d i v) d' i' = wget w d' i'.
Proof.
  destruct w as [a b c e]. unfold wget, wset, sset, sget, hset, hget.
  destruct d as [|[|[|d]]], d' as [|[|[|d']]], i as [|i], i' as [|i']; cbn; auto.
Qed.
Lemma okw_wset w d i v : okw w -> fits 32 v -> okw (wset w d i v).
Proof. intros H Hv d' i'. destruct (wget_wset w d i v d' i') as [->| ->]; auto. Qed.
Lemma okw_wxor w d i v : okw w -> fits 32 v -> okw (wxor w d i v).
Proof. intros H Hv. apply okw_wset; [exact H|]. apply fits_lxor; auto. Qed.
Lemma okw_when b f w : okw w -> (okw w -> okw (f w)) -> okw (when b f w).
Proof. intros H Hf. destruct b; cbn; auto. Qed.

Definition W8 a0 a1 b0 b1 c0 c1 e0 e1 := MW (Sh a0 a1) (Sh b0 b1) (Sh c0 c1) (Sh e0 e1).
Lemma okw_W8 a0 a1 b0 b1 c0 c1 e0 e1 :
  okw (W8 a0 a1 b0 b1 c0 c1 e0 e1) <->
  fits 32 a0 /\ fits 32 a1 /\ fits 32 b0 /\ fits 32 b1 /\ fits 32 c0 /\ fits 32 c1 /\ fits 32 e0 /\ fits 32 e1.
Proof.
  split.
  - intros H. repeat split; [apply (H 0%nat 0%nat)|apply (H 0%nat 1%nat)|apply (H 1%nat 0%nat)|apply (H 1%nat 1%nat)
      |apply (H 2%nat 0%nat)|apply (H 2%nat 1%nat)|apply (H 3%nat 0%nat)|apply (H 3%nat 1%nat)].
  - intros (?&?&?&?&?&?&?&?) d i. destruct d as [|[|[|d]]], i as [|i]; assumption.
Qed.
Ltac open_word w := destruct w as [[?a0 ?a1] [?b0 ?b1] [?c0 ?c1] [?e0 ?e1]].

(** ** Half [i] of the value shared by [w] among [ns] shares: the XOR of
    the shares, share [d] rotated by [5 d] *)

Definition D (ns : nat) (w : mword) (i : nat) : N :=
  match ns with
  | O => 0
  | 1%nat => rotr32 (wget w 0 i) 0
  | 2%nat => N.lxor (rotr32 (wget w 0 i) 0) (rotr32 (wget w 1 i) 5)
  | 3%nat => N.lxor (N.lxor (rotr32 (wget w 0 i) 0) (rotr32 (wget w 1 i) 5)) (rotr32 (wget w 2 i) 10)
  | _ => N.lxor (N.lxor (N.lxor (rotr32 (wget w 0 i) 0) (rotr32 (wget w 1 i) 5)) (rotr32 (wget w 2 i) 10))
           (rotr32 (wget w 3 i) 15)
  end.

Lemma fits_D ns w i : fits 32 (D ns w i).
Proof.
  destruct ns as [|[|[|[|ns]]]]; cbn [D]; repeat apply fits_lxor; try apply fits_rotr32. apply fits_0.
Qed.

(** The permitted numbers of shares. *)
Definition okn (ns : nat) : Prop := (1 <= ns <= 4)%nat.
Lemma okn_cases ns : okn ns -> ns = 1%nat \/ ns = 2%nat \/ ns = 3%nat \/ ns = 4%nat.
Proof. unfold okn. lia. Qed.
Ltac ncases H := apply okn_cases in H; destruct H as [->|[->|[->| ->]]].

(** Equality of 32-bit expressions, bit by bit. *)
Ltac bits_btauto :=
  apply N.bits_inj; intro;
  repeat (rewrite ?N.lxor_spec, ?N.land_spec, ?N.lor_spec, ?testbit_notw, ?N.bits_0);
  btauto.

Ltac unf := cbn [when Nat.leb Nat.ltb andb wget wset wxor sget sset hget hset m0 m1 m2 m3 h0 h1].

Lemma D_MXOR ns a b i : okn ns -> (i < 2)%nat -> D ns (MXOR a b ns) i = N.lxor (D ns a i) (D ns b i).
Proof.
  intros H Hi. open_word a. open_word b.
  assert (E : i = 0%nat \/ i = 1%nat) by lia.
  ncases H; destruct E as [->| ->]; unfold MXOR, D, wxor, wset, wget; unf; rot_norm; bits_btauto.
Qed.

(** The same, knowing that bits beyond 32 of rotated values vanish. *)
Ltac bits32 :=
  apply N.bits_inj;
  let i := fresh "i" in let Hi := fresh "Hi" in
  intro i;
  repeat (rewrite ?N.lxor_spec, ?N.land_spec, ?N.lor_spec, ?testbit_notw, ?N.bits_0);
  destruct (i <? 32) eqn:Hi;
  [ repeat match goal with |- context [N.testbit ?x i] => generalize (N.testbit x i); intro end; btauto
  | rewrite ?testbit_rotr32, ?Hi; btauto ].

Ltac ror32 :=
  repeat match goal with |- context [ROR32 ?x (ROT ?z)] =>
    let r := eval vm_compute in (ROT z) in change (ROR32 x (ROT z)) with (ROR32 x r) end;
  repeat match goal with |- context [ROR32 ?x ?n] =>
    rewrite (ROR32_rotr32 x n) by (solve [assumption | lia | reflexivity
      | repeat first [assumption | apply fits_lxor | apply fits_rotr32 | apply fits_0]]) end.
Ltac open_ok H := apply okw_W8 in H; destruct H as (?&?&?&?&?&?&?&?).

Ltac cv := cbv beta iota zeta delta [MXORBIC EOR_AND_ROR EOR_BIC_ROR EOR_ORR_ROR D wset wget wxor sget sset hget hset
  when Nat.leb Nat.ltb andb m0 m1 m2 m3 h0 h1 MXOR MMIX MREMASK MREDUCE MEXPAND MREUSE].
Ltac hcases H := match type of H with (?i < 2)%nat =>
  let E := fresh in assert (E : i = 0%nat \/ i = 1%nat) by lia; destruct E as [->| ->] end.

Lemma D_MXORBIC ns c a b i : okn ns -> (i < 2)%nat -> okw a -> okw b ->
  D ns (MXORBIC c a b i ns) i = N.lxor (D ns c i) (N.land (D ns a i) (notw 32 (D ns b i))).
Proof.
  intros H Hi Ha Hb. open_word a. open_word b. open_word c.
  open_ok Ha. open_ok Hb.
  ncases H; hcases Hi; cv; ror32; rot_norm; bits32.
Qed.
(** the other half *)
Lemma D_MXORBIC_other ns c a b : okn ns ->
  D ns (MXORBIC c a b 0 ns) 1 = D ns c 1 /\ D ns (MXORBIC c a b 1 ns) 0 = D ns c 0.
Proof.
  intros H. open_word a. open_word b. open_word c. ncases H; cv; split; reflexivity.
Qed.
Lemma fits_gate_and c a b z : okw c -> okw a -> forall i d j k, fits 32 (N.lxor (N.land (wget a j i) (ROR32 (wget b k i) (ROT z))) (wget c d i)).
Proof. intros Hc Ha i d j k. apply fits_lxor; [apply fits_land, Ha|apply Hc]. Qed.
Lemma okw_AND i c d a j b k z : okw c -> okw a -> okw (EOR_AND_ROR i c d a j b k z).
Proof. intros Hc Ha. apply okw_wset; [exact Hc|]. apply fits_lxor; [apply fits_land, Ha|apply Hc]. Qed.
Lemma okw_BIC i c d a j b k z : okw c -> okw a -> okw (EOR_BIC_ROR i c d a j b k z).
Proof. intros Hc Ha. apply okw_wset; [exact Hc|]. apply fits_lxor; [apply fits_land, Ha|apply Hc]. Qed.
Lemma ROT_lt z : ROT z < 32.
Proof.
  unfold ROT. change 31%Z with (Z.ones 5). rewrite Z.land_ones by lia. change (2 ^ 5)%Z with 32%Z.
  pose proof (Z.mod_pos_bound (z * 5) 32 ltac:(lia)). lia.
Qed.
Lemma okw_ORR i c d a j b k z : okw c -> okw a -> okw b -> okw (EOR_ORR_ROR i c d a j b k z).
Proof.
  intros Hc Ha Hb. apply okw_wset; [exact Hc|]. apply fits_lxor; [|apply Hc].
  apply fits_lor; [apply Ha|]. apply fits_ROR32; [apply Hb|apply ROT_lt].
Qed.
Lemma okw_MXORBIC ns c a b i : okw c -> okw a -> okw b -> okw (MXORBIC c a b i ns).
Proof.
  intros Hc Ha Hb. unfold MXORBIC. destruct ns as [|[|[|[|[|ns]]]]]; try exact Hc; cbv zeta;
    repeat first [exact Hc | exact Ha | exact Hb | apply okw_AND | apply okw_BIC | apply okw_ORR].
Qed.
Lemma okw_MXOR ns a b : okw a -> okw b -> okw (MXOR a b ns).
Proof.
  intros Ha Hb. unfold MXOR. cbv zeta.
  repeat (apply okw_when; [|intros; apply okw_wxor; [assumption|apply Hb]]). exact Ha.
Qed.

(** ** Masking operations *)

Lemma okw_MREMASK w r n m : okw w -> okw r -> okw (MREMASK w r n m).
Proof.
  intros Hw Hr. unfold MREMASK. cbv zeta.
  repeat (apply okw_when; [|intros; apply okw_wxor; [assumption|apply fits_ROR32; [apply Hr|apply ROT_lt]]]).
  exact Hw.
Qed.
Lemma okw_MMIX w n : okw w -> okw (MMIX w n).
Proof.
  intros Hw. unfold MMIX. cbv zeta.
  repeat match goal with |- okw (when _ _ _) =>
    apply okw_when; [|let H := fresh in intros H; apply okw_wset; [exact H|apply fits_ROR32; [apply H|lia]]] end.
  exact Hw.
Qed.
Lemma okw_MREUSE w v n : okw w -> okw (MREUSE w v n).
Proof.
  intros Hw. unfold MREUSE. cbv zeta.
  assert (H : okw (MMIX (wset (wset w 0 0 (trunc 32 v)) 0 1 (trunc 32 (shrw v 32))) n)).
  { apply okw_MMIX, okw_wset; [apply okw_wset; [exact Hw|]|]; apply fits_trunc. }
  apply okw_MREMASK; exact H.
Qed.
Lemma fits_draw R g i : fits 32 (hget (draw R g) i).
Proof. destruct i; apply fits_trunc. Qed.
Lemma okw_MRND R g : okw (fst (MRND R g)).
Proof.
  intros d i. unfold MRND, wget. cbn [fst sget m0 m1 m2 m3].
  destruct d as [|[|[|d]]]; try apply fits_draw. destruct i; apply fits_0.
Qed.
Lemma okw_MZERO R g n : okw (fst (MZERO R g n)).
Proof. unfold MZERO, MRND. cbn [fst]. apply okw_MREMASK; apply okw_MMIX, (okw_MRND R g). Qed.
Lemma okw_MREFRESH R g w n : okw w -> okw (fst (MREFRESH R g w n)).
Proof.
  intros H. unfold MREFRESH, MRND. cbn [fst].
  apply okw_MXOR; [apply okw_MREMASK; [exact H|]|]; apply (okw_MRND R g).
Qed.

Lemma D_MREUSE ns w i : okn ns -> (i < 2)%nat -> okw w -> D ns (MREUSE w 0 ns) i = 0.
Proof.
  intros H Hi Hw. open_word w. open_ok Hw.
  ncases H; hcases Hi; cv; change (trunc 32 0) with 0; change (trunc 32 (shrw 0 32)) with 0; ror32; rot_norm; bits32.
Qed.
Lemma D_MZERO R g ns i : okn ns -> (i < 2)%nat -> D ns (fst (MZERO R g ns)) i = 0.
Proof.
  intros H Hi. unfold MZERO. destruct (MRND R g) as [w g'] eqn:E.
  assert (Hw : okw w) by (change w with (fst (w, g')); rewrite <- E; apply okw_MRND).
  unfold MRND in E. inversion E; clear E. destruct (draw R g) as [b0 b1], (draw R (g + 1)) as [c0 c1],
    (draw R (g + 2)) as [e0 e1]. subst w. open_ok Hw. cbn [fst].
  ncases H; hcases Hi; cv; ror32; rot_norm; bits32.
Qed.
Lemma D_MREFRESH R g ns w i : okn ns -> (i < 2)%nat -> okw w -> D ns (fst (MREFRESH R g w ns)) i = D ns w i.
Proof.
  intros H Hi Hw. unfold MREFRESH. destruct (MRND R g) as [r g'] eqn:E.
  assert (Hr : okw r) by (change r with (fst (r, g')); rewrite <- E; apply okw_MRND).
  unfold MRND in E. inversion E; clear E. destruct (draw R g) as [b0 b1], (draw R (g + 1)) as [c0 c1],
    (draw R (g + 2)) as [e0 e1]. subst r. open_word w. open_ok Hr. open_ok Hw. cbn [fst].
  ncases H; hcases Hi; cv; ror32; rot_norm; bits32.
Qed.
(** going from [n] to fewer shares [m] *)
Lemma D_MREDUCE n m w i : okn n -> (1 <= m <= n)%nat -> (i < 2)%nat -> okw w ->
  D m (MREDUCE w n m) i = D n w i.
Proof.
  intros H Hm Hi Hw. open_word w. open_ok Hw.
  assert (E : m = 1%nat \/ m = 2%nat \/ m = 3%nat \/ m = 4%nat) by (unfold okn in H; lia).
  destruct E as [->|[->|[->| ->]]]; ncases H; try lia; hcases Hi; cv; ror32; rot_norm; bits32.
Qed.
(** going from [n] to more shares [m]: the value of the first [n] shares *)
Lemma D_MEXPAND n m w i : okn m -> (1 <= n <= m)%nat -> (i < 2)%nat -> okw w ->
  D m (MEXPAND w n m) i = D n w i.
Proof.
  intros H Hm Hi Hw. open_word w. open_ok Hw.
  assert (E : n = 1%nat \/ n = 2%nat \/ n = 3%nat \/ n = 4%nat) by (unfold okn in H; lia).
  destruct E as [->|[->|[->| ->]]]; ncases H; try lia; hcases Hi; cv; ror32; rot_norm; bits32.
Qed.
(** a constant added to share 0 *)
Lemma D_wxor0 ns w i v : okn ns -> (i < 2)%nat -> fits 32 v -> D ns (wxor w 0 i v) i = N.lxor (D ns w i) v.
Proof.
  intros H Hi Hv. open_word w. rewrite <- (rotr32_0 v Hv) at 2.
  ncases H; hcases Hi; cv; rot_norm; bits_btauto.
Qed.
Lemma D_wxor0_other ns w v : okn ns ->
  D ns (wxor w 0 0 v) 1 = D ns w 1 /\ D ns (wxor w 0 1 v) 0 = D ns w 0.
Proof. intros H. open_word w. ncases H; cv; split; reflexivity. Qed.
Lemma D_not0 ns w i : okn ns -> (i < 2)%nat -> D ns (wset w 0 i (notw 32 (wget w 0 i))) i = notw 32 (D ns w i).
Proof.
  intros H Hi. open_word w. ncases H; hcases Hi; cv; rot_norm; bits32.
Qed.
Lemma D_wset0_other ns w v : okn ns ->
  D ns (wset w 0 0 v) 1 = D ns w 1 /\ D ns (wset w 0 1 v) 0 = D ns w 0.
Proof. intros H. open_word w. ncases H; cv; split; reflexivity. Qed.
