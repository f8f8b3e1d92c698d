(** * MaskProbeLin.v -- the spare word and the linear layer of the masked
    round permute the sharings and compute no value that depends on what is
    shared. *)
From Coq Require Import Arith Bool NArith ZArith List Lia Btauto Init.Byte.
From Coq Require Import ZifyBool ZifyNat ZifyN.
From Verif Require Import Words WordFacts Spec SpecFacts RoundFacts CMem ModelRef ModelCommon ModelWords WordLaws BitExp WordInst WordInstBi
  PermBij ModelMask ModelMaskCode MaskVal MaskRound MaskArr MaskProbe MaskProbeStep MaskProbeRound.
Import ListNotations.
Local Open Scope N_scope.

(** ** The linear layer of one word has order 64 *)

Definition linp (k : nat) (p : N * N) : N * N := lin_word k (fst p) (snd p).
Definition fitp (p : N * N) : Prop := fits 32 (fst p) /\ fits 32 (snd p).
Definition lsig (k : nat) : N * N :=
  match k with 0%nat => (19, 28) | 1%nat => (39, 61) | 2%nat => (1, 6) | 3%nat => (10, 17) | _ => (7, 41) end.

Lemma cn32_inv' x : fits 64 x -> bitperm inv32 (cn32 x) = x.
Proof.
  intros Hx. apply (fits_ext 64); [apply fits_bitperm|exact Hx|]. intros i Hi. unfold cn32.
  rewrite !testbit_bitperm.
  assert (Hp : inv32 i < 64) by (unfold inv32; pose proof (N.mod_lt i 32 ltac:(lia)); assert (i / 32 < 2) by (apply N.div_lt_upper_bound; lia); lia).
  apply N.ltb_lt in Hp. rewrite Hp. replace (i <? 64) with true by lia. cbn [andb].
  replace (pi32 (inv32 i)) with i; [reflexivity|]. symmetry. clear Hp. revert i Hi.
  apply (below_check (fun i => pi32 (inv32 i))). vm_compute. reflexivity.
Qed.

Ltac rot := cbv [In rots]; repeat first [left; reflexivity | right].
Lemma cn_lin k p : (k < 5)%nat -> fitp p ->
  fitp (linp k p) /\ cn32 (ofw LE (fst (linp k p)) (snd (linp k p))) = sigma (cn32 (ofw LE (fst p) (snd p))) (fst (lsig k)) (snd (lsig k)).
Proof.
  intros Hk [Ha Hb]. destruct p as [a b]. cbn [fst snd] in *. split.
  { unfold fitp, linp. cbn [fst snd]. destruct k as [|[|[|[|[|k]]]]]; cbn [lin_word fst snd]; auto 8 using fits_lxor, fits_rotr32. }
  unfold linp. cbn [fst snd]. rewrite <- lin64_ofw by assumption.
  pose proof (fits_ofw a b Ha Hb) as Ht. revert Ht. generalize (ofw LE a b). intros t Ht.
  assert (C := fun t d r1 r2 H => cn_two pi32 (bi32_ROR LE) bi32_ROR_ok t d r1 r2 H).
  destruct k as [|[|[|[|[|k]]]]]; try lia; unfold lin64, lsig; cbn [fst snd].
  - destruct (C t 9 19 28 Ht) as [_ E]; [rot|rot|reflexivity|]. exact E.
  - destruct (C t 22 39 61 Ht) as [_ E]; [rot|rot|reflexivity|]. exact E.
  - destruct (C (notw 64 t) 5 1 6 ltac:(apply fits_notw, Ht)) as [_ E]; [rot|rot|reflexivity|].
    unfold cn32 in *. rewrite bitperm_notw by exact pi32_lt. rewrite E, bitperm_notw by exact pi32_lt.
    rewrite sigma_notw. apply (fits_ext 64); [apply fits_notw, fits_notw, fits_sigma, fits_bitperm|apply fits_sigma, fits_bitperm|].
    intros i Hi. rewrite !testbit_notw. apply N.ltb_lt in Hi. rewrite Hi. cbn [andb]. apply negb_involutive.
  - destruct (C t 7 10 17 Ht) as [_ E]; [rot|rot|reflexivity|]. exact E.
  - destruct (C t 34 7 41 Ht) as [_ E]; [rot|rot|reflexivity|]. exact E.
Qed.

Lemma ofw_inj a b c d : fits 32 a -> fits 32 b -> fits 32 c -> fits 32 d ->
  cn32 (ofw LE a b) = cn32 (ofw LE c d) -> (a, b) = (c, d).
Proof.
  intros Ha Hb Hc Hd E. apply (f_equal (bitperm inv32)) in E. rewrite !cn32_inv' in E by (apply fits_ofw; assumption).
  pose proof (f_equal (w0 LE) E) as E0. pose proof (f_equal (w1 LE) E) as E1.
  rewrite !w0_ofw in E0 by assumption. rewrite !w1_ofw in E1 by assumption. congruence.
Qed.
Lemma iter_lin k n p : (k < 5)%nat -> fitp p ->
  fitp (Nat.iter n (linp k) p) /\
  cn32 (ofw LE (fst (Nat.iter n (linp k) p)) (snd (Nat.iter n (linp k) p))) =
    Nat.iter n (fun x => sigma x (fst (lsig k)) (snd (lsig k))) (cn32 (ofw LE (fst p) (snd p))).
Proof.
  intros Hk Hp. induction n as [|n [IH1 IH2]]; [split; [exact Hp|reflexivity]|].
  cbn [Nat.iter nat_rect]. destruct (cn_lin k _ Hk IH1) as [A B]. split; [exact A|]. unfold Nat.iter in *. rewrite B, IH2. reflexivity.
Qed.
Lemma linp_64 k p : (k < 6)%nat -> fitp p -> Nat.iter 64 (linp k) p = p.
Proof.
  intros Hk Hp. destruct (Nat.eq_dec k 5) as [->|Hne].
  { assert (X : forall n, Nat.iter n (linp 5) p = p).
    { induction n as [|n IH]; [reflexivity|]. cbn [Nat.iter nat_rect]. unfold Nat.iter in IH. rewrite IH. destruct p. reflexivity. }
    apply X. }
  destruct (iter_lin k 64 p ltac:(lia) Hp) as [[A1 A2] B].
  rewrite sigma_64 in B by apply fits_bitperm.
  revert A1 A2 B. generalize (Nat.iter 64 (linp k) p). intros [a b] A1 A2 B. destruct Hp as [P1 P2]. destruct p as [c d].
  apply ofw_inj; assumption.
Qed.

Section Lin.
Variable ns : nat.
Hypothesis Hns : (2 <= ns <= 4)%nat.
Let Hn : okn ns. Proof. unfold okn. lia. Qed.

Definition t_lin (ns : nat) : step := run (map t_LINEAR (rev (seq 0 ns))).
Lemma next_lin s : next (t_lin ns) s = lin s ns.
Proof.
  assert (E : ns = 2%nat \/ ns = 3%nat \/ ns = 4%nat) by lia. unfold t_lin, lin.
  destruct E as [->|[->| ->]]; cbn [seq rev app map when Nat.leb]; rewrite !next_cons, next_nil; reflexivity.
Qed.
Lemma sliced_lin : sliced ns (t_lin ns).
Proof.
  apply sliced_run; [lia|]. apply Forall_forall. intros st Hin. apply in_map_iff in Hin.
  destruct Hin as (d & <- & Hd). apply in_rev, in_seq in Hd. apply (sliced_onshare ns d); [lia|]. apply onshare_LINEAR. lia.
Qed.
Definition pget (s : mstate) (k d : nat) : N * N := (xget s k d 0, xget s k d 1).
Lemma pget_LINEAR s d k d' : okm s -> (k < 6)%nat -> (d < 4)%nat -> (d' < 4)%nat ->
  pget (LINEAR s d) k d' = if (d =? d')%nat then linp k (pget s k d') else pget s k d'.
Proof.
  intros Hs Hk Hd Hd'. unfold pget. rewrite !xget_LINEAR by (assumption || lia).
  destruct (Nat.eqb_spec d d') as [<-|]; [|reflexivity]. unfold linp. cbn [fst snd Nat.eqb].
  destruct (lin_word k (xget s k d 0) (xget s k d 1)); reflexivity.
Qed.
Lemma pget_lin s k d : All ns s -> (k < 6)%nat -> (d < 4)%nat -> pget (lin s ns) k d = linp k (pget s k d).
Proof.
  intros [Hs Hz] Hk Hd.
  assert (Z : (ns <= d)%nat -> linp k (pget s k d) = pget s k d).
  { intros L. unfold pget. rewrite !Hz by lia.
    destruct k as [|[|[|[|[|k]]]]]; reflexivity. }
  assert (E : ns = 2%nat \/ ns = 3%nat \/ ns = 4%nat) by lia. unfold lin.
  destruct E as [E|[E|E]]; rewrite E; cbn [when Nat.leb]; cbv zeta;
    rewrite !pget_LINEAR by (repeat first [assumption | apply okm_LINEAR | lia]);
    cases4 d; cbn [Nat.eqb]; try reflexivity; symmetry; apply Z; lia.
Qed.
Lemma All_lin s : All ns s -> All ns (lin s ns).
Proof. intros H. rewrite <- next_lin. apply sliced_lin, H. Qed.
Lemma pget_xget s k d i : (i < 2)%nat -> xget s k d i = if (i =? 0)%nat then fst (pget s k d) else snd (pget s k d).
Proof. intros Hi. hcases Hi; reflexivity. Qed.
Lemma lin_64 s : All ns s -> Nat.iter 64 (fun s => lin s ns) s = s.
Proof.
  intros HA.
  assert (X : forall n, All ns (Nat.iter n (fun s => lin s ns) s) /\ forall k d, (k < 6)%nat -> (d < 4)%nat ->
    pget (Nat.iter n (fun s => lin s ns) s) k d = Nat.iter n (linp k) (pget s k d)).
  { induction n as [|n [IH1 IH2]]; [split; [exact HA|reflexivity]|].
    cbn [Nat.iter nat_rect]. split; [apply All_lin, IH1|]. intros k d Hk Hd.
    rewrite pget_lin by assumption. f_equal. apply IH2; assumption. }
  apply x_ext. intros k d i Hk Hd Hi. rewrite !pget_xget by assumption.
  rewrite (proj2 (X 64%nat)) by assumption. rewrite linp_64; [reflexivity|exact Hk|]. split; apply (proj1 HA).
Qed.
Lemma All_iter n s : All ns s -> All ns (Nat.iter n (fun s => lin s ns) s).
Proof. intros H. induction n as [|n IH]; [exact H|]. apply All_lin, IH. Qed.

Definition Flin (v : vals) : vals := fun k i =>
  let p := linp k (v k 0%nat, v k 1%nat) in if (i =? 0)%nat then fst p else snd p.
Lemma Good_lin : Good ns (t_lin ns).
Proof.
  pose proof sliced_lin as S. destruct S as ((len & L) & A & PP & KK) eqn:SE.
  exists len, Flin. apply good_blind; [exact Hn|exact L| |intros n _; apply sliced_blind; [lia|exact S]].
  intros v Hv. split.
  { intros k i. unfold Flin. cbv zeta.
    destruct (Nat.lt_ge_cases k 5) as [Hk|Hk].
    - destruct (cn_lin k (v k 0%nat, v k 1%nat) Hk) as [[F1 F2] _]; [split; apply Hv|]. destruct (i =? 0)%nat; assumption.
    - do 5 (destruct k as [|k]; [lia|]). unfold linp. cbn [fst snd lin_word]. destruct (i =? 0)%nat; apply Hv. }
  apply (bij_of ns _ (Nat.iter 63 (fun s => lin s ns)) Flin); [| | | |exact Hv].
  - intros s Ha. rewrite next_lin. split; [apply All_lin, Ha|].
    pose proof (lin_64 s Ha) as E. change 64%nat with (63 + 1)%nat in E. rewrite iter_add in E. exact E.
  - intros s Ha. split; [apply All_iter, Ha|]. rewrite next_lin. exact (lin_64 s Ha).
  - intros s u Ha Hu k j Hk Hj. rewrite next_lin. unfold Flin, vof.
    pose proof (D_lin ns s k Hn (proj1 Ha) Hk) as E. rewrite <- !Hu by (assumption || lia). unfold vof, linp. cbn [fst snd].
    rewrite <- E. hcases Hj; reflexivity.
  - intros u u' Ou Ou' H k j Hk Hj.
    assert (E : linp k (u k 0%nat, u k 1%nat) = linp k (u' k 0%nat, u' k 1%nat)).
    { pose proof (H k 0%nat Hk ltac:(lia)) as H0. pose proof (H k 1%nat Hk ltac:(lia)) as H1. unfold Flin in H0, H1.
      cbv zeta in H0, H1. cbn [Nat.eqb] in H0, H1. revert H0 H1.
      generalize (linp k (u k 0%nat, u k 1%nat)) (linp k (u' k 0%nat, u' k 1%nat)). intros [] []. cbn [fst snd]. congruence. }
    apply (f_equal (Nat.iter 63 (linp k))) in E.
    assert (I : forall p, Nat.iter 63 (linp k) (linp k p) = Nat.iter 64 (linp k) p).
    { intros p. change 64%nat with (63 + 1)%nat. rewrite iter_add. reflexivity. }
    rewrite !I, !linp_64 in E by first [exact Hk | split; apply Ou | split; apply Ou'].
    apply pair_equal_spec in E. destruct E as [E0 E1]. hcases Hj; assumption.
Qed.

(** ** The spare word *)

Ltac cvm := cbv beta iota zeta delta [t_MREUSE run fold_right andthen skip t_zero t_mix t_remask next flat_map app seq Nat.sub fst snd mix_rot
  xget xset xxor getw setw y0 y1 y2 y3 y4 y5 D wset wget wxor sget sset hget hset
  when Nat.leb Nat.ltb andb m0 m1 m2 m3 h0 h1 MMIX MREMASK MREUSE].
Ltac open5 s := destruct s as [?a ?a ?a ?a ?a [[?x ?x] [?x ?x] [?x ?x] [?x ?x]]].
Lemma next_mre s : next (t_MREUSE ns) s = setw s 5 (MREUSE (getw s 5) 0 ns).
Proof.
  assert (E : ns = 2%nat \/ ns = 3%nat \/ ns = 4%nat) by lia. open5 s.
  destruct E as [->|[->| ->]]; cvm; reflexivity.
Qed.
Lemma vals_mre s s' : (forall d i, (1 <= d < ns)%nat -> (i < 2)%nat -> xget s 5 d i = xget s' 5 d i) ->
  fst (t_MREUSE ns s) = fst (t_MREUSE ns s').
Proof.
  intros H. assert (E : ns = 2%nat \/ ns = 3%nat \/ ns = 4%nat) by lia.
  assert (H' : forall d i, (1 <= d < ns)%nat -> (i < 2)%nat -> wget (y5 s) d i = wget (y5 s') d i) by exact H.
  pose proof (fun L => H' 1%nat 0%nat L ltac:(lia)) as A0. pose proof (fun L => H' 1%nat 1%nat L ltac:(lia)) as A1.
  pose proof (fun L => H' 2%nat 0%nat L ltac:(lia)) as B0. pose proof (fun L => H' 2%nat 1%nat L ltac:(lia)) as B1.
  pose proof (fun L => H' 3%nat 0%nat L ltac:(lia)) as C0. pose proof (fun L => H' 3%nat 1%nat L ltac:(lia)) as C1.
  clear H H'. open5 s. open5 s'. cbn [y5 wget sget hget m1 m2 m3 h0 h1] in A0, A1, B0, B1, C0, C1.
  destruct E as [->|[->| ->]]; rewrite ?A0, ?A1, ?B0, ?B1, ?C0, ?C1 by lia; cvm; reflexivity.
Qed.

Definition w5ok (w : mword) : Prop := okw w /\ forall d i, (ns <= d < 4)%nat -> (i < 2)%nat -> wget w d i = 0.
Definition unre (ns : nat) (v : nat -> N) (w : mword) : mword :=
    let u := MW (m0 w) (ModelMask.Sh (rotr32 (wget w 1 0) 25) (rotr32 (wget w 1 1) 25))
      (ModelMask.Sh (rotr32 (wget w 2 0) 19) (rotr32 (wget w 2 1) 19)) (ModelMask.Sh (rotr32 (wget w 3 0) 3) (rotr32 (wget w 3 1) 3)) in
    wset (wset u 0 0 (N.lxor (v 0%nat) (D ns (wset u 0 0 0) 0))) 0 1 (N.lxor (v 1%nat) (D ns (wset u 0 1 0) 1)).
Ltac full x := match goal with H : fits 32 x |- _ => rewrite ?(rotr32_0 x H) end.
Lemma word_ok_cases w : w5ok w -> exists a0 a1 b0 b1 c0 c1 e0 e1,
  w = MW (ModelMask.Sh a0 a1) (ModelMask.Sh b0 b1) (ModelMask.Sh c0 c1) (ModelMask.Sh e0 e1) /\
  (fits 32 a0 /\ fits 32 a1 /\ fits 32 b0 /\ fits 32 b1 /\ fits 32 c0 /\ fits 32 c1 /\ fits 32 e0 /\ fits 32 e1) /\
  (ns = 2%nat /\ c0 = 0 /\ c1 = 0 /\ e0 = 0 /\ e1 = 0 \/ ns = 3%nat /\ e0 = 0 /\ e1 = 0 \/ ns = 4%nat).
Proof.
  intros [Ho Hz]. open_word w. exists a0, a1, b0, b1, c0, c1, e0, e1. split; [reflexivity|].
  pose proof Ho as Ho'. open_ok Ho'. split; [auto 10|].
  pose proof (fun L => Hz 2%nat 0%nat L ltac:(lia)) as A0. pose proof (fun L => Hz 2%nat 1%nat L ltac:(lia)) as A1.
  pose proof (fun L => Hz 3%nat 0%nat L ltac:(lia)) as B0. pose proof (fun L => Hz 3%nat 1%nat L ltac:(lia)) as B1.
  cbn [wget sget hget m0 m1 m2 m3 h0 h1] in A0, A1, B0, B1.
  assert (E : ns = 2%nat \/ ns = 3%nat \/ ns = 4%nat) by lia.
  destruct E as [E|[E|E]].
  - left. rewrite A0, A1, B0, B1 by lia. auto.
  - right. left. rewrite B0, B1 by lia. auto.
  - right. right. exact E.
Qed.

Ltac cvu := cbv beta iota zeta delta [unre D wset wget wxor sget sset hget hset
  when Nat.leb Nat.ltb andb m0 m1 m2 m3 h0 h1 MMIX MREMASK MREUSE];
  change (trunc 32 0) with 0; change (trunc 32 (shrw 0 32)) with 0; rewrite ?N.lxor_0_l.
Ltac rot00 := repeat match goal with |- context [rotr32 ?x 0] => rewrite (rotr32_0 x) by (repeat first [assumption | apply fits_rotr32 | apply fits_lxor | apply fits_0]) end.
Lemma unre_l v w : w5ok w -> (forall i, (i < 2)%nat -> v i = D ns w i) -> unre ns v (MREUSE w 0 ns) = w.
Proof.
  intros Hw Hv. destruct (word_ok_cases w Hw) as (a0 & a1 & b0 & b1 & c0 & c1 & e0 & e1 & Ew & F & C). clear Hw.
  pose proof (Hv 0%nat ltac:(lia)) as V0. pose proof (Hv 1%nat ltac:(lia)) as V1. clear Hv. revert V0 V1. rewrite Ew.
  destruct F as (?&?&?&?&?&?&?&?).
  destruct C as [(En & Ec0 & Ec1 & Ee0 & Ee1)|[(En & Ee0 & Ee1)|En]]; subst c0 c1 e0 e1 || subst e0 e1 || idtac; clear Ew w;
  revert En; generalize ns; intros n ->; unfold unre; cvu; intros V0 V1; rewrite V0, V1; ror32; rot_norm; rot00;
  (f_equal; f_equal; try reflexivity); bits_btauto.
Qed.

Lemma unre_r v w : w5ok w -> (forall i, (i < 2)%nat -> D ns w i = 0) -> (forall i, fits 32 (v i)) ->
  w5ok (unre ns v w) /\ MREUSE (unre ns v w) 0 ns = w /\ forall i, (i < 2)%nat -> D ns (unre ns v w) i = v i.
Proof.
  intros Hw HD Hv. destruct (word_ok_cases w Hw) as (a0 & a1 & b0 & b1 & c0 & c1 & e0 & e1 & Ew & F & C).
  assert (Hh : forall d i, (ns <= d < 4)%nat -> (i < 2)%nat -> wget (unre ns v w) d i = 0).
  { destruct Hw as [_ Hz]. intros d i Hd Hi. pose proof (Hz d i Hd Hi) as Z.
    assert (X : d = 2%nat \/ d = 3%nat) by lia. open_word w.
    destruct X as [->| ->]; hcases Hi; cbv beta iota zeta delta [unre wset sset sget hset wget hget m0 m1 m2 m3 h0 h1] in Z |- *; rewrite Z; apply rotr32_zero. }
  clear Hw. pose proof (HD 0%nat ltac:(lia)) as D0. pose proof (HD 1%nat ltac:(lia)) as D1. clear HD. revert D0 D1 Hh. rewrite Ew.
  pose proof (Hv 0%nat) as V0. pose proof (Hv 1%nat) as V1. revert V0 V1. clear Hv.
  destruct F as (?&?&?&?&?&?&?&?). clear w Ew. intros V0 V1 D0 D1 Hh.
  assert (Ho : okw (unre ns v (MW (ModelMask.Sh a0 a1) (ModelMask.Sh b0 b1) (ModelMask.Sh c0 c1) (ModelMask.Sh e0 e1)))).
  { apply okw_W8. fold (W8). repeat split; repeat first [assumption | apply fits_rotr32 | apply fits_lxor | apply fits_D]. }
  split; [split; [exact Ho|exact Hh]|]. clear Ho Hh.
  split.
  - destruct C as [(En & Ec0 & Ec1 & Ee0 & Ee1)|[(En & Ee0 & Ee1)|En]]; subst c0 c1 e0 e1 || subst e0 e1 || idtac;
    revert D0 D1; revert En; generalize ns; intros n ->; cvu; intros D0 D1; ror32; rot_norm; rot00;
    rewrite (rotr32_0 a0) in D0 by assumption; rewrite (rotr32_0 a1) in D1 by assumption;
    repeat match goal with |- MW _ _ _ _ = MW _ _ _ _ => f_equal | |- ModelMask.Sh _ _ = ModelMask.Sh _ _ => f_equal end; try reflexivity;
    symmetry; apply N.lxor_eq; first [etransitivity; [|exact D0]; bits_btauto|etransitivity; [|exact D1]; bits_btauto].
  - clear D0 D1. intros i Hi.
    destruct C as [(En & Ec0 & Ec1 & Ee0 & Ee1)|[(En & Ee0 & Ee1)|En]]; subst c0 c1 e0 e1 || subst e0 e1 || idtac;
    revert En; generalize ns; intros n ->; hcases Hi; cvu; rot_norm; rewrite ?(rotr32_0 (v 0%nat)), ?(rotr32_0 (v 1%nat)) by assumption;
    bits_btauto.
Qed.
Lemma w5ok_MREUSE w : w5ok w -> w5ok (MREUSE w 0 ns).
Proof.
  intros Hw. split; [apply okw_MREUSE, Hw|].
  destruct (word_ok_cases w Hw) as (a0 & a1 & b0 & b1 & c0 & c1 & e0 & e1 & Ew & F & C). clear Hw. subst w.
  intros d i Hd Hi. assert (X : d = 2%nat \/ d = 3%nat) by lia.
  destruct C as [(En & Ec0 & Ec1 & Ee0 & Ee1)|[(En & Ee0 & Ee1)|En]]; subst c0 c1 e0 e1 || subst e0 e1 || idtac;
  revert Hd; revert En; generalize ns; intros n -> Hd; destruct X as [->| ->]; try lia; hcases Hi; cvu; reflexivity.
Qed.
Lemma w5ok_getw s : All ns s -> w5ok (getw s 5).
Proof. intros [Ho Hz]. split; [apply Ho|]. intros d i Hd Hi. apply (Hz 5%nat d i); [lia|exact Hd|exact Hi]. Qed.
Lemma All_setw5 s w : All ns s -> w5ok w -> All ns (setw s 5 w).
Proof.
  intros [Ho Hz] [Hw Hwz]. split; [apply okm_setw; assumption|]. intros k d i Hk Hd Hi. unfold xget.
  rewrite getw_setw by lia. destruct (Nat.eqb_spec 5 k) as [<-|]; [apply Hwz; assumption|apply Hz; assumption].
Qed.
Lemma setw_setw s k a b : (k < 6)%nat -> setw (setw s k a) k b = setw s k b.
Proof. intros H. destruct s. cases6 k; reflexivity. Qed.
Lemma setw_getw s k : (k < 6)%nat -> setw s k (getw s k) = s.
Proof. intros H. destruct s. cases6 k; reflexivity. Qed.
Definition Fmre (v : vals) : vals := vset (vset v 5 0 0) 5 1 0.
Lemma length_mre s : length (fst (t_MREUSE ns s)) = (2 + 6 * (ns - 1))%nat.
Proof.
  assert (E : ns = 2%nat \/ ns = 3%nat \/ ns = 4%nat) by lia.
  destruct E as [->|[->| ->]]; reflexivity.
Qed.
Lemma Good_mre : Good ns (t_MREUSE ns).
Proof.
  exists (2 + 6 * (ns - 1))%nat, Fmre. apply good_blind; [exact Hn|intros; apply length_mre| |].
  - intros v Hv.
    assert (F5 : forall i, (i < 2)%nat -> Fmre v 5%nat i = 0) by (intros i Hi; hcases Hi; reflexivity).
    assert (Fk : forall k i, k <> 5%nat -> Fmre v k i = v k i).
    { intros k i Hk. unfold Fmre, vset. replace (5 =? k)%nat with false by lia. reflexivity. }
    split.
    { intros k i. unfold Fmre, vset. destruct (_ && _)%bool; [apply fits_0|]. destruct (_ && _)%bool; [apply fits_0|apply Hv]. }
    exists (fun s => setw s 5 (unre ns (v 5%nat) (getw s 5))). split.
    + intros s [HA HV]. pose proof (w5ok_getw s HA) as Hw. rewrite next_mre. split; [split|].
      * apply All_setw5; [exact HA|]. apply w5ok_MREUSE, Hw.
      * intros k i Hk Hi. unfold vof. rewrite getw_setw by lia. destruct (Nat.eqb_spec 5 k) as [<-|Hne].
        -- rewrite F5 by exact Hi. apply D_MREUSE; [exact Hn|exact Hi|apply Hw].
        -- rewrite Fk by lia. apply HV; assumption.
      * rewrite setw_setw, getw_setw by lia. cbn [Nat.eqb]. rewrite unre_l; [apply setw_getw; lia|exact Hw|].
        intros i Hi. symmetry. apply HV; [lia|exact Hi].
    + intros s [HA HV]. pose proof (w5ok_getw s HA) as Hw.
      destruct (unre_r (v 5%nat) (getw s 5) Hw) as (R1 & R2 & R3).
      { intros i Hi. rewrite <- (F5 i Hi). apply HV; [lia|exact Hi]. }
      { apply Hv. }
      split; [split|].
      * apply All_setw5; assumption.
      * intros k i Hk Hi. unfold vof. rewrite getw_setw by lia. destruct (Nat.eqb_spec 5 k) as [<-|Hne].
        -- apply R3, Hi.
        -- rewrite <- Fk by lia. apply HV; assumption.
      * rewrite next_mre, setw_setw, getw_setw by lia. cbn [Nat.eqb]. rewrite R2. apply setw_getw; lia.
  - intros n _. exists (fun _ _ => 0%nat). split; [lia|]. intros s s' _ _ E. unfold probe. f_equal.
    apply vals_mre. intros d i Hd Hi. apply E; lia.
Qed.

End Lin.
