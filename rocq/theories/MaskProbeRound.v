(** * MaskProbeRound.v -- the affine layers, the gates and the linear layer
    permute the sharings and compute no value that depends on what is
    shared. *)
From Coq Require Import Arith Bool NArith ZArith List Lia Btauto Init.Byte.
From Coq Require Import ZifyBool ZifyNat ZifyN.
From Verif Require Import Words WordFacts Spec SpecFacts RoundFacts CMem ModelRef ModelCommon ModelWords WordLaws BitExp WordInst WordInstBi
  PermBij ModelMask ModelMaskCode MaskVal MaskRound MaskProbe MaskProbeStep.
Import ListNotations.
Local Open Scope N_scope.

Definition t_aff1 (ns : nat) (i : nat) : step := run (map (t_AFFINE1 i) (seq 0 ns)).
(** its inverse: the same three additions backwards *)
Definition aff1i (ns : nat) (i : nat) (s : mstate) : mstate :=
  fold_left (fun s d => xxor (xxor (xxor s 4 d i (xget s 3 d i)) 0 d i (N.lxor (xget s 4 d i) (xget s 3 d i))) 2 d i (xget s 1 d i)) (seq 0 ns) s.
Definition t_aff2 (ns : nat) (i : nat) : step := run (t_AFFINE2 i 0 :: t_not i :: map (t_AFFINE2 i) (seq 1 (ns - 1))).
Definition aff2i (ns : nat) (i : nat) (s : mstate) : mstate :=
  fold_left (fun s d =>
    let s := xxor s 3 d i (xget s 2 d i) in let s := xxor s 0 d i (xget s 4 d i) in
    let s := xxor s 1 d i (xget s 0 d i) in xxor s 2 d i (xget s 5 d i)) (seq 0 ns)
  (xset s 2 0 i (notw 32 (xget s 2 0 i))).

Lemma next_cons a l s : next (run (a :: l)) s = next (run l) (next a s).
Proof. reflexivity. Qed.
Lemma next_nil s : next (run []) s = s.
Proof. reflexivity. Qed.
Lemma next_AFFINE1 i d s : next (t_AFFINE1 i d) s = AFFINE1 s i d.
Proof. reflexivity. Qed.
Lemma next_AFFINE2 i d s : next (t_AFFINE2 i d) s = AFFINE2 s i d.
Proof. reflexivity. Qed.

Section Layers.
Variable ns : nat.
Hypothesis Hns : (2 <= ns <= 4)%nat.
Let Hn : okn ns. Proof. unfold okn. lia. Qed.

Ltac ns_cases := let E := fresh in assert (E : ns = 2%nat \/ ns = 3%nat \/ ns = 4%nat) by lia.

(** *** affine layer 1 *)
Lemma next_aff1 i s : next (t_aff1 ns i) s = aff1 s i ns.
Proof.
  assert (E : ns = 2%nat \/ ns = 3%nat \/ ns = 4%nat) by lia. unfold t_aff1, aff1.
  destruct E as [->|[->| ->]]; cbn [seq map when Nat.leb]; rewrite !next_cons, next_nil, !next_AFFINE1; reflexivity.
Qed.
Lemma sliced_aff1 i : (i < 2)%nat -> sliced ns (t_aff1 ns i).
Proof.
  intros Hi. apply sliced_run; [lia|]. apply Forall_forall. intros st Hin. apply in_map_iff in Hin.
  destruct Hin as (d & <- & Hd). apply in_seq in Hd. apply (sliced_onshare ns d); [lia|]. apply onshare_run.
  repeat constructor; apply onshare_eor; lia.
Qed.
Lemma All_aff1i i s : (i < 2)%nat -> All ns s -> All ns (aff1i ns i s).
Proof.
  intros Hi. unfold aff1i. assert (H : forall d, In d (seq 0 ns) -> (d < ns)%nat) by (intros d Hd; apply in_seq in Hd; lia).
  revert s H. generalize (seq 0 ns). induction l as [|d l IH]; intros s H Ha; [exact Ha|].
  cbn [fold_left]. apply IH; [intros; apply H; right; assumption|].
  assert (Hd : (d < ns)%nat) by (apply H; left; reflexivity). pose proof (proj1 Ha) as Ho.
  repeat (apply All_xxor; [lia|exact Hd|lia|exact Hi| |]); try exact Ha;
    repeat apply fits_lxor; apply Ho.
Qed.
Ltac cvx := cbv beta iota zeta delta [aff1i aff1 aff2 AFFINE1 AFFINE2 xget xset xxor getw setw y0 y1 y2 y3 y4 y5 wset wget wxor sget sset hget hset
  when Nat.leb Nat.ltb andb m0 m1 m2 m3 h0 h1 fold_left seq].
Lemma aff1_l i s : (i < 2)%nat -> aff1i ns i (aff1 s i ns) = s.
Proof.
  intros Hi. assert (E : ns = 2%nat \/ ns = 3%nat \/ ns = 4%nat) by lia. open_state s.
  destruct E as [->|[->| ->]]; hcases Hi; cvx; rewrite !lxor_cancel; reflexivity.
Qed.
Lemma aff1_r i s : (i < 2)%nat -> aff1 (aff1i ns i s) i ns = s.
Proof.
  intros Hi. assert (E : ns = 2%nat \/ ns = 3%nat \/ ns = 4%nat) by lia. open_state s.
  destruct E as [->|[->| ->]]; hcases Hi; cvx; rewrite !lxor_cancel; reflexivity.
Qed.
Definition Faff1 (i : nat) (v : vals) : vals := fun k j =>
  if (j =? i)%nat then
    match k with
    | 0%nat => N.lxor (v 0%nat i) (v 4%nat i) | 2%nat => N.lxor (v 2%nat i) (v 1%nat i)
    | 4%nat => N.lxor (v 4%nat i) (v 3%nat i) | _ => v k i
    end
  else v k j.
Lemma lxor_inj_r a b c : N.lxor a c = N.lxor b c -> a = b.
Proof. intros H. rewrite <- (lxor_cancel a c), H. apply lxor_cancel. Qed.
Lemma Good_aff1 i : (i < 2)%nat -> Good ns (t_aff1 ns i).
Proof.
  intros Hi. pose proof (sliced_aff1 i Hi) as S. destruct S as ((len & L) & A & PP & KK) eqn:SE. 
  exists len, (Faff1 i). apply good_blind; [exact Hn|exact L| |intros n _; apply sliced_blind; [lia|exact S]].
  intros v Hv. split.
  { intros k j. unfold Faff1. destruct (j =? i)%nat; [|apply Hv]. destruct k as [|[|[|[|[|k]]]]]; repeat apply fits_lxor; apply Hv. }
  apply (bij_of ns _ (aff1i ns i) (Faff1 i)); [| | | |exact Hv].
  - intros s Ha. split; [apply A, Ha|]. rewrite next_aff1. apply aff1_l, Hi.
  - intros s Ha. split; [apply All_aff1i; assumption|]. rewrite next_aff1. apply aff1_r, Hi.
  - intros s u Ha Hu k j Hk Hj. rewrite next_aff1. unfold vof, Faff1.
    destruct (Nat.eqb_spec j i) as [E|Hne].
    + subst j. destruct (D_aff1 ns s i Hn Hi) as (D0 & D1 & D2 & D3 & D4 & D5).
      cases6 k; cbn [getw]; rewrite ?D0, ?D1, ?D2, ?D3, ?D4, ?D5;
        rewrite <- ?Hu by (assumption || lia); reflexivity.
    + rewrite (D_aff1_other ns s i j Hn Hi) by lia. apply Hu; assumption.
  - intros u u' _ _ H k j Hk Hj. unfold Faff1 in H.
    destruct (Nat.eqb_spec j i) as [E|Hne].
    + subst j. assert (G : forall k, (k < 6)%nat -> _) by (intros k0 Hk0; exact (H k0 i Hk0 Hj)).
      cbv beta in G. rewrite Nat.eqb_refl in G.
      pose proof (G 0%nat ltac:(lia)) as G0. pose proof (G 1%nat ltac:(lia)) as G1. pose proof (G 2%nat ltac:(lia)) as G2.
      pose proof (G 3%nat ltac:(lia)) as G3. pose proof (G 4%nat ltac:(lia)) as G4. pose proof (G 5%nat ltac:(lia)) as G5.
      cbv beta iota in G0, G1, G2, G3, G4, G5. rewrite G3 in G4. apply lxor_inj_r in G4. rewrite G4 in G0. rewrite G1 in G2.
      apply lxor_inj_r in G0, G2. cases6 k; assumption.
    + specialize (H k j Hk Hj). cbv beta in H. replace (j =? i)%nat with false in H by lia. exact H.
Qed.

(** *** affine layer 2 *)
Lemma next_aff2 i s : next (t_aff2 ns i) s = aff2 s i ns.
Proof.
  assert (E : ns = 2%nat \/ ns = 3%nat \/ ns = 4%nat) by lia. unfold t_aff2, aff2.
  destruct E as [->|[->| ->]]; cbn [seq map when Nat.leb Nat.sub]; rewrite !next_cons, next_nil, !next_AFFINE2; reflexivity.
Qed.
Lemma sliced_aff2 i : (i < 2)%nat -> sliced ns (t_aff2 ns i).
Proof.
  intros Hi.
  assert (P : forall d, (d < ns)%nat -> sliced ns (t_AFFINE2 i d)).
  { intros d Hd. apply (sliced_onshare ns d); [lia|]. apply onshare_run. repeat constructor; apply onshare_eor; lia. }
  apply sliced_run; [lia|]. constructor; [apply P; lia|]. constructor; [apply (sliced_onshare ns 0); [lia|apply onshare_not, Hi]|].
  apply Forall_forall. intros st Hin. apply in_map_iff in Hin. destruct Hin as (d & <- & Hd). apply in_seq in Hd. apply P. lia.
Qed.
Lemma All_xset0 k i v s : (k < 6)%nat -> (i < 2)%nat -> fits 32 v -> All ns s -> All ns (xset s k 0 i v).
Proof.
  intros Hk Hi Hv [Ho Hz]. split; [apply okm_xset; assumption|]. intros k' d' i' Hk' Hd' Hi'.
  rewrite xget_xset by lia. replace (0 =? d')%nat with false by lia. rewrite andb_false_r. apply Hz; assumption.
Qed.
Lemma All_aff2i i s : (i < 2)%nat -> All ns s -> All ns (aff2i ns i s).
Proof.
  intros Hi Ha. unfold aff2i.
  assert (Ha' : All ns (xset s 2 0 i (notw 32 (xget s 2 0 i)))) by (apply All_xset0; try assumption; try lia; apply fits_notw, (proj1 Ha)).
  revert Ha'. generalize (xset s 2 0 i (notw 32 (xget s 2 0 i))). clear s Ha. intros s.
  assert (H : forall d, In d (seq 0 ns) -> (d < ns)%nat) by (intros d Hd; apply in_seq in Hd; lia).
  revert s H. generalize (seq 0 ns). induction l as [|d l IH]; intros s H Ha; [exact Ha|].
  cbn [fold_left]. apply IH; [intros; apply H; right; assumption|]. cbv zeta.
  assert (Hd : (d < ns)%nat) by (apply H; left; reflexivity).
  assert (X : forall s k j, All ns s -> (k < 6)%nat -> All ns (xxor s k d i (xget s j d i))).
  { intros u k j Hu Hk. apply All_xxor; try assumption; try lia; apply (proj1 Hu). }
  repeat (apply X; [|lia]). exact Ha.
Qed.
Ltac cvx2 := cbv beta iota zeta delta [aff2i aff2 AFFINE1 AFFINE2 xget xset xxor getw setw y0 y1 y2 y3 y4 y5 wset wget wxor sget sset hget hset
  when Nat.leb Nat.ltb andb m0 m1 m2 m3 h0 h1 fold_left seq].
Ltac oks Hs :=
  pose proof (Hs 2 0 0)%nat; pose proof (Hs 2 0 1)%nat; pose proof (Hs 5 0 0)%nat; pose proof (Hs 5 0 1)%nat.
Lemma aff2_l i s : (i < 2)%nat -> okm s -> aff2i ns i (aff2 s i ns) = s.
Proof.
  intros Hi Hs. oks Hs. assert (E : ns = 2%nat \/ ns = 3%nat \/ ns = 4%nat) by lia. revert H H0 H1 H2. clear Hs. open_state s.
  cbn [getw y2 y5 wget sget hget m0 h0 h1]. intros.
  destruct E as [->|[->| ->]]; hcases Hi; cvx2; rewrite ?notw_notw by (apply fits_lxor; assumption); rewrite !lxor_cancel; reflexivity.
Qed.
Lemma aff2_r i s : (i < 2)%nat -> okm s -> aff2 (aff2i ns i s) i ns = s.
Proof.
  intros Hi Hs. oks Hs. assert (E : ns = 2%nat \/ ns = 3%nat \/ ns = 4%nat) by lia. revert H H0 H1 H2. clear Hs. open_state s.
  cbn [getw y2 y5 wget sget hget m0 h0 h1]. intros.
  destruct E as [->|[->| ->]]; hcases Hi; cvx2; rewrite !lxor_cancel, notw_notw by assumption; reflexivity.
Qed.
Definition Faff2 (i : nat) (v : vals) : vals := fun k j =>
  if (j =? i)%nat then
    match k with
    | 0%nat => N.lxor (v 0%nat i) (v 4%nat i) | 1%nat => N.lxor (v 1%nat i) (v 0%nat i)
    | 2%nat => notw 32 (N.lxor (v 2%nat i) (v 5%nat i)) | 3%nat => N.lxor (v 3%nat i) (N.lxor (v 2%nat i) (v 5%nat i))
    | _ => v k i
    end
  else v k j.
Lemma y5_AFFINE2 s i d : y5 (AFFINE2 s i d) = y5 s.
Proof. destruct s. reflexivity. Qed.
Lemma y5_aff2 s i : y5 (aff2 s i ns) = y5 s.
Proof.
  assert (X : forall s w, y5 (setw s 2 w) = y5 s) by (intros []; reflexivity).
  assert (E : ns = 2%nat \/ ns = 3%nat \/ ns = 4%nat) by lia. unfold aff2.
  destruct E as [->|[->| ->]]; cbn [when Nat.leb]; cbv zeta; rewrite ?y5_AFFINE2, X, y5_AFFINE2; reflexivity.
Qed.
Lemma Good_aff2 i : (i < 2)%nat -> Good ns (t_aff2 ns i).
Proof.
  intros Hi. pose proof (sliced_aff2 i Hi) as S. destruct S as ((len & L) & A & PP & KK) eqn:SE.
  exists len, (Faff2 i). apply good_blind; [exact Hn|exact L| |intros n _; apply sliced_blind; [lia|exact S]].
  intros v Hv. split.
  { intros k j. unfold Faff2. destruct (j =? i)%nat; [|apply Hv].
    destruct k as [|[|[|[|[|k]]]]]; try apply fits_notw; repeat apply fits_lxor; apply Hv. }
  apply (bij_of ns _ (aff2i ns i) (Faff2 i)); [| | | |exact Hv].
  - intros s Ha. split; [apply A, Ha|]. rewrite next_aff2. apply aff2_l; [exact Hi|apply Ha].
  - intros s Ha. split; [apply All_aff2i; assumption|]. rewrite next_aff2. apply aff2_r; [exact Hi|apply Ha].
  - intros s u Ha Hu k j Hk Hj. rewrite next_aff2. unfold vof, Faff2.
    destruct (Nat.eqb_spec j i) as [E|Hne].
    + subst j. destruct (D_aff2 ns s i Hn Hi) as (D0 & D1 & D2 & D3 & D4).
      cases6 k; cbn [getw]; rewrite ?D0, ?D1, ?D2, ?D3, ?D4, ?y5_aff2;
        rewrite <- ?Hu by (assumption || lia); reflexivity.
    + rewrite (D_aff2_other ns s i j Hn Hi) by lia. apply Hu; assumption.
  - intros u u' Ou Ou' H k j Hk Hj. unfold Faff2 in H.
    destruct (Nat.eqb_spec j i) as [E|Hne].
    + subst j. assert (G : forall k, (k < 6)%nat -> _) by (intros k0 Hk0; exact (H k0 i Hk0 Hj)).
      cbv beta in G. rewrite Nat.eqb_refl in G.
      pose proof (G 0%nat ltac:(lia)) as G0. pose proof (G 1%nat ltac:(lia)) as G1. pose proof (G 2%nat ltac:(lia)) as G2.
      pose proof (G 3%nat ltac:(lia)) as G3. pose proof (G 4%nat ltac:(lia)) as G4. pose proof (G 5%nat ltac:(lia)) as G5.
      cbv beta iota in G0, G1, G2, G3, G4, G5.
      apply (f_equal (notw 32)) in G2. rewrite !notw_notw in G2 by (apply fits_lxor; auto). rewrite G2 in G3. apply lxor_inj_r in G3.
      rewrite G5 in G2. apply lxor_inj_r in G2. rewrite G4 in G0. apply lxor_inj_r in G0. rewrite G0 in G1. apply lxor_inj_r in G1.
      cases6 k; assumption.
    + specialize (H k j Hk Hj). cbv beta in H. replace (j =? i)%nat with false in H by lia. exact H.
Qed.

(** *** gates *)
Section Gate.
Variables c a b i : nat.
Hypothesis Hc : (c < 6)%nat.
Hypothesis Ha : (a < 6)%nat.
Hypothesis Hb : (b < 6)%nat.
Hypothesis Hca : c <> a.
Hypothesis Hcb : c <> b.
Hypothesis Hab : a <> b.
Hypothesis Hi : (i < 2)%nat.
Definition gop_ok (g : gop) : Prop := (g_dst g < ns)%nat /\ (g_j g < ns)%nat /\ (g_k g < ns)%nat.
Lemma gate_ok : Forall gop_ok (gate ns).
Proof.
  assert (E : ns = 2%nat \/ ns = 3%nat \/ ns = 4%nat) by lia.
  unfold gop_ok. destruct E as [->|[->| ->]]; repeat constructor.
Qed.
(** what the line adds to the share *)
Definition g_val (g : gop) (s : mstate) : N :=
  let '(a, b) := if g_sw g then (b, a) else (a, b) in
  g_op g (xget s a (g_j g) i) (ROR32 (xget s b (g_k g) i) (ROT (g_imm g))).
Lemma fits_g_val g s : okm s -> fits 32 (g_val g s).
Proof.
  intros Hs. assert (X : forall k d, fits 32 (xget s k d i)) by (intros; apply Hs).
  assert (Y : forall k d z, fits 32 (ROR32 (xget s k d i) (ROT z))) by (intros; apply fits_ROR32; [apply X|apply ROT_lt]).
  unfold g_val. destruct (g_sw g), g; cbn [g_op g_j g_k g_imm]; auto using fits_land, fits_lor.
Qed.
Lemma next_gop g s : next (t_gop c a b i g) s = xset s c (g_dst g) i (N.lxor (g_val g s) (xget s c (g_dst g) i)).
Proof. unfold next, t_gop, g_val. destruct (g_sw g); reflexivity. Qed.
Lemma All_gop g s : gop_ok g -> All ns s -> All ns (next (t_gop c a b i g) s).
Proof.
  intros (Hg & _) HA. rewrite next_gop. change (xset s c (g_dst g) i (N.lxor (g_val g s) (xget s c (g_dst g) i))) with
    (xset s c (g_dst g) i (N.lxor (g_val g s) (xget s c (g_dst g) i))). rewrite N.lxor_comm.
  apply (All_xxor ns s c (g_dst g) i (g_val g s)); auto; [lia|]. apply fits_g_val, HA.
Qed.
Lemma words_gop g s k : (k < 6)%nat -> k <> c -> getw (next (t_gop c a b i g) s) k = getw s k.
Proof.
  intros Hk Hne. rewrite next_gop. unfold xset. rewrite getw_setw by assumption.
  replace (c =? k)%nat with false by lia. reflexivity.
Qed.
Lemma g_val_words g s s' : (forall k, (k < 6)%nat -> k <> c -> getw s k = getw s' k) -> g_val g s = g_val g s'.
Proof. intros H. unfold g_val, xget. destruct (g_sw g); rewrite !H by (assumption || lia); reflexivity. Qed.
(** what a list of lines adds to share [d] *)
Fixpoint gsum (l : list gop) (d : nat) (s : mstate) : N :=
  match l with [] => 0 | g :: l => N.lxor (if (g_dst g =? d)%nat then g_val g s else 0) (gsum l d s) end.
Lemma fits_gsum l d s : okm s -> fits 32 (gsum l d s).
Proof.
  intros Hs. induction l as [|g l IH]; [apply fits_0|]. cbn [gsum]. apply fits_lxor; [|exact IH].
  destruct (_ =? _)%nat; [apply fits_g_val, Hs|apply fits_0].
Qed.
Lemma gsum_words l d s s' : (forall k, (k < 6)%nat -> k <> c -> getw s k = getw s' k) -> gsum l d s = gsum l d s'.
Proof. intros H. induction l as [|g l IH]; [reflexivity|]. cbn [gsum]. rewrite IH, (g_val_words g s s' H). reflexivity. Qed.

Definition t_gops (l : list gop) : step := run (map (t_gop c a b i) l).
Lemma gops_state l : Forall gop_ok l -> forall s, All ns s ->
  All ns (next (t_gops l) s) /\
  (forall k, (k < 6)%nat -> k <> c -> getw (next (t_gops l) s) k = getw s k) /\
  forall d j, (d < 4)%nat -> (j < 2)%nat ->
    xget (next (t_gops l) s) c d j = if (i =? j)%nat then N.lxor (xget s c d j) (gsum l d s) else xget s c d j.
Proof.
  induction 1 as [|g l Hg Hl IH]; intros s HA.
  - cbn. split; [exact HA|]. split; [reflexivity|]. intros d j Hd Hj. rewrite N.lxor_0_r. destruct (i =? j)%nat; reflexivity.
  - pose proof (All_gop g s Hg HA) as HA1. destruct (IH _ HA1) as (I1 & I2 & I3).
    change (next (t_gops (g :: l)) s) with (next (t_gops l) (next (t_gop c a b i g) s)).
    split; [exact I1|]. split.
    + intros k Hk Hne. rewrite I2 by assumption. apply words_gop; assumption.
    + intros d j Hd Hj. rewrite I3 by assumption. cbn [gsum].
      rewrite (gsum_words l d (next (t_gop c a b i g) s) s) by (intros; apply words_gop; assumption).
      destruct Hg as (Hg & _). rewrite next_gop, xget_xset by (assumption || lia).
      rewrite Nat.eqb_refl. cbn [andb].
      destruct (Nat.eqb_spec (g_dst g) d) as [Ed|Ed], (Nat.eqb_spec i j) as [Ej|Ej]; cbn [andb];
        try reflexivity; rewrite ?N.lxor_0_l; try reflexivity.
      subst j. rewrite Ed, (N.lxor_comm (g_val g s)), N.lxor_assoc. reflexivity.
Qed.
Lemma gops_twice l s : Forall gop_ok l -> All ns s -> next (t_gops l) (next (t_gops l) s) = s.
Proof.
  intros Hl HA. destruct (gops_state l Hl s HA) as (I1 & I2 & I3). destruct (gops_state l Hl _ I1) as (J1 & J2 & J3).
  apply x_ext. intros k d j Hk Hd Hj. destruct (Nat.eq_dec k c) as [->|Hne].
  - rewrite J3, I3 by assumption. rewrite (gsum_words l d _ s I2).
    destruct (i =? j)%nat; [apply lxor_cancel|reflexivity].
  - unfold xget. rewrite J2, I2 by assumption. reflexivity.
Qed.
Definition gopw (g : gop) (wc wa wb : mword) : mword :=
  match g with
  | And d sw j k z => if sw then EOR_AND_ROR i wc d wb j wa k z else EOR_AND_ROR i wc d wa j wb k z
  | Bic d sw j k z => if sw then EOR_BIC_ROR i wc d wb j wa k z else EOR_BIC_ROR i wc d wa j wb k z
  | Orr d sw j k z => if sw then EOR_ORR_ROR i wc d wb j wa k z else EOR_ORR_ROR i wc d wa j wb k z
  end.
Lemma gate_MXORBIC wc wa wb : fold_left (fun w g => gopw g w wa wb) (gate ns) wc = MXORBIC wc wa wb i ns.
Proof.
  assert (E : ns = 2%nat \/ ns = 3%nat \/ ns = 4%nat) by lia.
  destruct E as [->|[->| ->]]; cbn [gate fold_left gopw]; unfold MXORBIC; cbv zeta; reflexivity.
Qed.
Lemma word_gop g s : getw (next (t_gop c a b i g) s) c = gopw g (getw s c) (getw s a) (getw s b).
Proof.
  rewrite next_gop. unfold xset. rewrite getw_setw by assumption. rewrite Nat.eqb_refl. destruct g as [d [|]|d [|]|d [|]]; reflexivity.
Qed.
Lemma word_gops l : forall s, getw (next (t_gops l) s) c = fold_left (fun w g => gopw g w (getw s a) (getw s b)) l (getw s c).
Proof.
  induction l as [|g l IH]; intros s; [reflexivity|].
  change (next (t_gops (g :: l)) s) with (next (t_gops l) (next (t_gop c a b i g) s)). rewrite IH, word_gop.
  rewrite !words_gop by (assumption || congruence). reflexivity.
Qed.
Lemma next_gate s : next (t_gops (gate ns)) s = setw s c (MXORBIC (getw s c) (getw s a) (getw s b) i ns).
Proof.
  apply s_ext. intros k Hk. rewrite getw_setw by assumption. destruct (Nat.eqb_spec c k) as [<-|Hne].
  - rewrite word_gops. apply gate_MXORBIC.
  - generalize (gate ns). intros l. revert s. induction l as [|g l IH]; intros s; [reflexivity|].
    change (next (t_gops (g :: l)) s) with (next (t_gops l) (next (t_gop c a b i g) s)). rewrite IH. apply words_gop; congruence.
Qed.
(** the values *)
Lemma length_gops l s : length (fst (t_gops l s)) = (3 * length l)%nat.
Proof.
  revert s. induction l as [|g l IH]; intros s; [reflexivity|].
  change (t_gops (g :: l)) with (andthen (t_gop c a b i g) (t_gops l)). unfold andthen. cbn [fst length].
  rewrite app_length, IH. unfold t_gop. destruct (g_sw g); cbn [fst length]; lia.
Qed.
(** either one share of [a] and one of [b] determine the value, or it is the
    sum of a share of [c] and something that does not depend on [c] *)
Definition two_shares (q : mstate -> N) : Prop :=
  exists j k, (j < ns)%nat /\ (k < ns)%nat /\ forall s s', xget s a j i = xget s' a j i -> xget s b k i = xget s' b k i -> q s = q s'.
Definition masked (q : mstate -> N) : Prop :=
  exists d G, (d < ns)%nat /\ fresh_sum ns c d i G /\ forall s, All ns s -> q s = N.lxor (xget s c d i) (G s).
Lemma gops_probe l : Forall gop_ok l -> forall n, (n < 3 * length l)%nat ->
  two_shares (probe (t_gops l) n) \/ masked (probe (t_gops l) n).
Proof.
  induction 1 as [|g l Hg Hl IH]; intros n Hlt; [cbn in Hlt; lia|].
  pose proof Hg as (G1 & G2 & G3).
  assert (P : forall n s, (n < 3)%nat -> probe (t_gops (g :: l)) n s = nth n (fst (t_gop c a b i g s)) 0).
  { intros m s Hm. unfold probe. change (t_gops (g :: l)) with (andthen (t_gop c a b i g) (t_gops l)). unfold andthen. cbn [fst].
    apply app_nth1. unfold t_gop. destruct (g_sw g); exact Hm. }
  assert (P' : forall n s, probe (t_gops (g :: l)) (3 + n) s = probe (t_gops l) n (next (t_gop c a b i g) s)).
  { intros m s. unfold probe, next. change (t_gops (g :: l)) with (andthen (t_gop c a b i g) (t_gops l)). unfold andthen. cbn [fst].
    assert (L : length (fst (t_gop c a b i g s)) = 3%nat) by (unfold t_gop; destruct (g_sw g); reflexivity).
    rewrite app_nth2, L by (rewrite L; lia). f_equal. lia. }
  assert (N : n = 0%nat \/ n = 1%nat \/ n = 2%nat \/ exists m, n = (3 + m)%nat /\ (m < 3 * length l)%nat).
  { cbn [length] in Hlt. destruct n as [|[|[|m]]]; auto. right. right. right. exists m. lia. }
  destruct N as [->|[->|[->|(m & -> & Hm)]]].
  - left. exists (if g_sw g then g_k g else g_j g), (if g_sw g then g_j g else g_k g).
    split; [destruct (g_sw g); assumption|]. split; [destruct (g_sw g); assumption|].
    intros s s' E1 E2. rewrite !P by lia. unfold t_gop. destruct (g_sw g); cbn [fst nth]; rewrite ?E1, ?E2; reflexivity.
  - left. exists (if g_sw g then g_k g else g_j g), (if g_sw g then g_j g else g_k g).
    split; [destruct (g_sw g); assumption|]. split; [destruct (g_sw g); assumption|].
    intros s s' E1 E2. rewrite !P by lia. unfold t_gop. destruct (g_sw g); cbn [fst nth]; rewrite ?E1, ?E2; reflexivity.
  - right. exists (g_dst g), (g_val g). split; [exact G1|]. split.
    + split; [intros s HA; apply fits_g_val, HA|]. intros s s' _ _ H. apply g_val_words, H.
    + intros s HA. rewrite P by lia. unfold t_gop, g_val. destruct (g_sw g); cbn [fst nth]; apply N.lxor_comm.
  - destruct (IH m Hm) as [(j & k & Hj & Hk & H)|(d & G & Hd & (HG1 & HG2) & H)].
    + left. exists j, k. split; [exact Hj|]. split; [exact Hk|]. intros s s' E1 E2. rewrite !P'. apply H;
        unfold xget; rewrite !words_gop by (assumption || congruence); assumption.
    + right. exists d, (fun s => N.lxor (if (g_dst g =? d)%nat then g_val g s else 0) (G (next (t_gop c a b i g) s))).
      split; [exact Hd|]. split; [split|].
      * intros s HA. apply fits_lxor; [destruct (_ =? _)%nat; [apply fits_g_val, HA|apply fits_0]|].
        apply HG1, All_gop; assumption.
      * intros s s' HA HA' E. rewrite (g_val_words g s s' E). f_equal. apply HG2; try (apply All_gop; assumption).
        intros k Hk Hne. rewrite !words_gop by assumption. apply E; assumption.
      * intros s HA. rewrite P', H by (apply All_gop; assumption).
        assert (X : xget (next (t_gop c a b i g) s) c d i =
          N.lxor (xget s c d i) (if (g_dst g =? d)%nat then g_val g s else 0)).
        { rewrite next_gop, xget_xset by (assumption || lia). rewrite !Nat.eqb_refl. cbn [andb]. rewrite andb_true_r.
          destruct (Nat.eqb_spec (g_dst g) d) as [->|Hne]; [apply N.lxor_comm|symmetry; apply N.lxor_0_r]. }
        rewrite X. apply N.lxor_assoc.
Qed.
Definition Fgate (v : vals) : vals := vset v c i (N.lxor (v c i) (N.land (v a i) (notw 32 (v b i)))).
Lemma Good_gate : Good ns (t_gops (gate ns)).
Proof.
  exists (3 * length (gate ns))%nat, Fgate. split; [intros; apply length_gops|].
  split.
  - intros v Hv. split.
    { intros k j. unfold Fgate, vset. destruct (_ && _)%bool; [apply fits_lxor; [apply Hv|apply fits_land, Hv]|apply Hv]. }
    apply (bij_of ns _ (next (t_gops (gate ns))) Fgate); [| | | |exact Hv].
    1,2: intros s HA; (split; [apply (gops_state _ gate_ok s HA)|apply gops_twice; [exact gate_ok|exact HA]]).
    + intros s u HA Hu k j Hk Hj. rewrite next_gate. unfold Fgate, vset, vof. rewrite getw_setw by assumption.
      destruct (Nat.eqb_spec c k) as [<-|Hne]; [|apply Hu; assumption].
      destruct (Nat.eqb_spec i j) as [<-|Hne]; cbn [andb].
      * rewrite D_MXORBIC by (try assumption; apply (proj1 HA)). rewrite <- !Hu by assumption. reflexivity.
      * destruct (D_MXORBIC_other ns (getw s c) (getw s a) (getw s b) Hn) as [X Y].
        assert (E : (i = 0 /\ j = 1 \/ i = 1 /\ j = 0)%nat) by lia.
        rewrite <- Hu by assumption. unfold vof. destruct E as [[-> ->]|[-> ->]]; [exact X|exact Y].
    + intros u u' _ _ H k j Hk Hj. unfold Fgate, vset in H.
      assert (G : forall k j, (k < 6)%nat -> (j < 2)%nat -> k <> c \/ j <> i -> u k j = u' k j).
      { intros k0 j0 Hk0 Hj0 Hne. specialize (H k0 j0 Hk0 Hj0). cbv beta in H.
        replace ((c =? k0) && (i =? j0))%nat with false in H by lia. exact H. }
      destruct (Nat.eq_dec k c) as [->|Hne]; [|apply G; auto].
      destruct (Nat.eq_dec j i) as [->|Hne]; [|apply G; auto].
      specialize (H c i Hc Hi). cbv beta in H. rewrite !Nat.eqb_refl in H. cbn [andb] in H.
      rewrite (G a i), (G b i) in H by (auto; left; congruence). apply lxor_inj_r in H. exact H.
  - intros n Hlt v v' Hv Hv'. destruct (gops_probe _ gate_ok n Hlt) as [(j & k & Hj & Hk & H)|(d & G & Hd & HG & H)].
    + apply coup_blind; auto.
      exists (fun k' _ => if (k' =? a)%nat then (match j with O => 1 | _ => 0 end)%nat else (match k with O => 1 | _ => 0 end)%nat).
      split; [intros k' i'; destruct (k' =? a)%nat, j, k; lia|].
      intros s s' _ _ E. apply H.
      * apply E; try assumption. rewrite Nat.eqb_refl. destruct j; lia.
      * apply E; try assumption. replace (b =? a)%nat with false by lia. destruct k; lia.
    + apply (coup_fresh ns c d i G v v'); assumption.
Qed.
End Gate.
End Layers.
