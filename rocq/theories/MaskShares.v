(** * MaskShares.v -- masking the inputs and unmasking the outputs
    (shares.c): the buffers stand for the caller's bytes. *)
From Coq Require Import Arith Bool NArith ZArith List Lia Btauto Init.Byte.
From Coq Require Import ZifyBool ZifyNat ZifyN.
From Verif Require Import Words WordFacts Spec SpecFacts RoundFacts ModelRef StateRep RefRound RefPrim RefAead ModelCommon
  ModelWords WordLaws BitExp WordInst WordInstBi ModelMask MaskVal MaskRound MaskPerm MaskArr CMem Contract CMemFacts.
Import ListNotations.
Local Open Scope N_scope.

Ltac step := eapply runs_bind.

(** ** Masking *)

(** the first [n] of [ns] shares *)
Definition avaln (a : arr) (ns n : nat) (o x : N) : Prop :=
  exists f : nat -> N, x = sumrot f n /\
  forall d, (d < n)%nat -> fits 64 (f d) /\ acell a (o + N.of_nat d) (trunc 32 (f d)) /\
    acell a (o + N.of_nat d + N.of_nat ns) (shrw (f d) 32).

Lemma rotr_0 x : fits 64 x -> rotr x 0 = x.
Proof.
  intros H. apply (fits_ext 64); [apply fits_rotr|exact H|]. intros i Hi.
  rewrite testbit_rotr, N.add_0_r, N.mod_small by exact Hi. apply N.ltb_lt in Hi. rewrite Hi. reflexivity.
Qed.
Definition upd0 (f : nat -> N) (v : N) : nat -> N := fun d => match d with O => N.lxor (f O) v | _ => f d end.
Lemma sumrot_upd0 f v n : (0 < n)%nat -> fits 64 v -> sumrot (upd0 f v) n = N.lxor (sumrot f n) v.
Proof.
  intros Hn Hv. destruct n as [|n]; [lia|]. clear Hn. induction n as [|n IH].
  - cbn [sumrot upd0]. change (10 * N.of_nat 0) with 0. rewrite rotr_lxor, (rotr_0 v Hv), N.lxor_assoc. reflexivity.
  - cbn [sumrot] in *. rewrite IH. cbn [upd0]. rewrite !N.lxor_assoc. f_equal. rewrite (N.lxor_comm v), <- N.lxor_assoc.
    reflexivity.
Qed.

Lemma trunc_lxor n a b : trunc n (N.lxor a b) = N.lxor (trunc n a) (trunc n b).
Proof.
  apply N.bits_inj; intro i. rewrite N.lxor_spec, !testbit_trunc, N.lxor_spec. destruct (i <? n); reflexivity.
Qed.
Lemma shrw_lxor a b n : shrw (N.lxor a b) n = N.lxor (shrw a n) (shrw b n).
Proof. apply N.bits_inj; intro i. rewrite N.lxor_spec, !testbit_shrw, N.lxor_spec. reflexivity. Qed.
Lemma trunc_shrw32 x : fits 64 x -> trunc 32 (shrw x 32) = shrw x 32.
Proof.
  intros H. apply (fits_ext 32); [apply fits_trunc|apply fits_shrw32, H|]. intros i Hi.
  rewrite testbit_trunc. replace (i <? 32) with true by lia. reflexivity.
Qed.
Lemma trunc_idem32 x : trunc 32 (trunc 64 x) = trunc 32 x.
Proof.
  apply N.bits_inj; intro i. rewrite !testbit_trunc. destruct (N.ltb_spec i 32); [|reflexivity].
  replace (i <? 64) with true by lia. reflexivity.
Qed.

Lemma runs_gs_xor M ns j x a y : (0 < ns)%nat -> fits 64 x ->
  avaln a ns ns (j * N.of_nat ns) y ->
  exists b, runs (gs_xor (N.of_nat ns) j x a) M M b /\
    differs (fun i => i = j * N.of_nat ns \/ i = j * N.of_nat ns + N.of_nat ns) a b /\
    avaln b ns ns (j * N.of_nat ns) (N.lxor y x).
Proof.
  intros Hns Hx (f & -> & Hf). set (o := j * N.of_nat ns) in *.
  destruct (Hf 0%nat Hns) as (F & C0 & C1). replace (o + N.of_nat 0) with o in C0, C1 by lia.
  assert (Lc : forall i v, acell a i v -> i < alen a).
  { intros i v [E _]. unfold alen. assert (nth_error (a_cells a) (N.to_nat i) <> None) by congruence.
    apply nth_error_Some in H. lia. }
  destruct (runs_aset M a o (N.lxor (trunc 32 (f 0%nat)) (trunc 32 x))) as (b & R1 & D1 & E1);
    [eapply Lc, C0|apply fits_lxor; apply fits_trunc|].
  assert (C1' : acell b (o + N.of_nat ns) (shrw (f 0%nat) 32)) by (eapply acell_differs; [exact D1|cbv beta; lia|exact C1]).
  destruct (runs_aset M b (o + N.of_nat ns) (N.lxor (shrw (f 0%nat) 32) (trunc 32 (shrw x 32)))) as (c & R2 & D2 & E2);
    [destruct D1 as (_ & -> & _); eapply Lc, C1|apply fits_lxor; [apply fits_shrw32, F|apply fits_trunc]|].
  exists c. split; [|split].
  - unfold gs_xor.
    replace ((j + 0) * N.of_nat ns + 0) with o by (unfold o; lia).
    replace ((j + 1) * N.of_nat ns + 0) with (o + N.of_nat ns) by (unfold o; lia).
    step; [apply runs_aget, C0|]. step; [exact R1|]. step; [apply runs_aget, C1'|]. exact R2.
  - eapply differs_trans; eassumption.
  - exists (upd0 f x). split; [symmetry; apply sumrot_upd0; assumption|].
    intros d Hd. destruct (Hf d Hd) as (Fd & Cd0 & Cd1). destruct d as [|d]; cbn [upd0].
    + replace (o + N.of_nat 0) with o by lia. split; [apply fits_lxor; assumption|].
      rewrite trunc_lxor, shrw_lxor, <- (trunc_shrw32 x Hx).
      split; [eapply acell_differs; [exact D2|cbv beta; lia|exact E1]|exact E2].
    + split; [exact Fd|]. split; (eapply acell_differs; [exact D2|cbv beta; lia|]; eapply acell_differs; [exact D1|cbv beta; lia|]; assumption).
Qed.

Section Gen.
Variable R : N -> N.

Lemma runs_gs_share M ns i d a g : (1 <= d)%nat -> (d < ns)%nat -> okn ns ->
  i * N.of_nat ns + 2 * N.of_nat ns <= alen a ->
  avaln a ns d (i * N.of_nat ns) 0 ->
  exists b, runs (gs_share R (N.of_nat ns) i (N.of_nat d) (a, g)) M M (b, g + 1) /\
    differs (fun j => i * N.of_nat ns <= j /\ j < i * N.of_nat ns + 2 * N.of_nat ns) a b /\
    avaln b ns (S d) (i * N.of_nat ns) 0.
Proof.
  intros Hd Hdn Hok Ho (f & E0 & Hf). set (o := i * N.of_nat ns) in *.
  set (rnd := trunc 64 (R g)). assert (Fr : fits 64 rnd) by apply fits_trunc.
  assert (Er : w64_ROR rnd (ROT (2 * Z.of_N (N.of_nat d))) = rotr rnd (10 * N.of_nat d)).
  { rewrite ror64_any by (auto; pose proof (ROT_lt (2 * Z.of_N (N.of_nat d))); lia). f_equal.
    assert (Hc : d = 1%nat \/ d = 2%nat \/ d = 3%nat) by (unfold okn in Hok; lia).
    destruct Hc as [->|[->| ->]]; reflexivity. }
  set (rr := rotr rnd (10 * N.of_nat d)) in *. assert (Frr : fits 64 rr) by apply fits_rotr.
  destruct (Hf 0%nat ltac:(lia)) as (F & C0 & C1). replace (o + N.of_nat 0) with o in C0, C1 by lia.
  assert (L : forall P a b, differs P a b -> alen b = alen a) by (intros P ? ? (_ & H & _); exact H).
  destruct (runs_aset M a (o + N.of_nat d) (trunc 32 rnd)) as (a1 & R1 & D1 & E1); [lia|apply fits_trunc|].
  destruct (runs_aset M a1 (o + N.of_nat ns + N.of_nat d) (shrw rnd 32)) as (a2 & R2 & D2 & E2);
    [rewrite (L _ _ _ D1); lia|apply fits_shrw32, Fr|].
  assert (C0' : acell a2 o (trunc 32 (f 0%nat))) by (eapply acell_differs; [exact D2|cbv beta; lia|]; eapply acell_differs; [exact D1|cbv beta; lia|exact C0]).
  destruct (runs_aset M a2 o (N.lxor (trunc 32 (f 0%nat)) (trunc 32 rr))) as (a3 & R3 & D3 & E3);
    [rewrite (L _ _ _ D2), (L _ _ _ D1); lia|apply fits_lxor; apply fits_trunc|].
  assert (C1' : acell a3 (o + N.of_nat ns) (shrw (f 0%nat) 32)).
  { eapply acell_differs; [exact D3|cbv beta; lia|]. eapply acell_differs; [exact D2|cbv beta; lia|]. eapply acell_differs; [exact D1|cbv beta; lia|exact C1]. }
  destruct (runs_aset M a3 (o + N.of_nat ns) (N.lxor (shrw (f 0%nat) 32) (trunc 32 (shrw rr 32)))) as (a4 & R4 & D4 & E4);
    [rewrite (L _ _ _ D3), (L _ _ _ D2), (L _ _ _ D1); lia|apply fits_lxor; [apply fits_shrw32, F|apply fits_trunc]|].
  exists a4. split; [|split].
  - unfold gs_share. cbv zeta. fold rnd. rewrite Er. rewrite (trunc_shrw32 rnd Fr).
    replace ((i + 0) * N.of_nat ns + N.of_nat d) with (o + N.of_nat d) by (unfold o; lia).
    replace ((i + 1) * N.of_nat ns + N.of_nat d) with (o + N.of_nat ns + N.of_nat d) by (unfold o; lia).
    replace ((i + 0) * N.of_nat ns + 0) with o by (unfold o; lia).
    replace ((i + 1) * N.of_nat ns + 0) with (o + N.of_nat ns) by (unfold o; lia).
    step; [exact R1|]. step; [exact R2|]. step; [apply runs_aget, C0'|]. step; [exact R3|].
    step; [apply runs_aget, C1'|]. step; [exact R4|]. apply runs_ret.
  - eapply differs_sub; [|eapply differs_trans; [exact D1|eapply differs_trans; [exact D2|eapply differs_trans; [exact D3|exact D4]]]].
    cbv beta. intros j. lia.
  - exists (fun k => if Nat.eqb k d then rnd else upd0 f rr k). split.
    + cbn [sumrot]. rewrite Nat.eqb_refl. fold rr.
      rewrite (sumrot_ext _ (upd0 f rr) d).
      * rewrite sumrot_upd0, <- E0, N.lxor_0_l, N.lxor_nilpotent by (auto; lia). reflexivity.
      * intros k Hk. replace (Nat.eqb k d) with false by lia. reflexivity.
    + intros k Hk. destruct (Nat.eqb_spec k d) as [->|Hne].
      * split; [exact Fr|]. replace (o + N.of_nat d + N.of_nat ns) with (o + N.of_nat ns + N.of_nat d) by lia.
        split.
        -- eapply acell_differs; [exact D4|cbv beta; lia|]. eapply acell_differs; [exact D3|cbv beta; lia|].
           eapply acell_differs; [exact D2|cbv beta; lia|]. exact E1.
        -- eapply acell_differs; [exact D4|cbv beta; lia|]. eapply acell_differs; [exact D3|cbv beta; lia|]. exact E2.
      * destruct (Hf k ltac:(lia)) as (Fk & K0 & K1). destruct k as [|k]; cbn [upd0].
        -- replace (o + N.of_nat 0) with o by lia. split; [apply fits_lxor; assumption|].
           rewrite trunc_lxor, shrw_lxor, <- (trunc_shrw32 rr Frr).
           split; [eapply acell_differs; [exact D4|cbv beta; lia|exact E3]|exact E4].
        -- split; [exact Fk|]. split;
             (eapply acell_differs; [exact D4|cbv beta; lia|]; eapply acell_differs; [exact D3|cbv beta; lia|];
              eapply acell_differs; [exact D2|cbv beta; lia|]; eapply acell_differs; [exact D1|cbv beta; lia|]; assumption).
Qed.

Lemma runs_gs_shares M ns i k : forall d a g, (1 <= d)%nat -> (d + k = ns)%nat -> okn ns ->
  i * N.of_nat ns + 2 * N.of_nat ns <= alen a ->
  avaln a ns d (i * N.of_nat ns) 0 ->
  exists b g', runs (for_loop k (N.of_nat d) (gs_share R (N.of_nat ns) i) (a, g)) M M (b, g') /\
    differs (fun j => i * N.of_nat ns <= j /\ j < i * N.of_nat ns + 2 * N.of_nat ns) a b /\
    avaln b ns ns (i * N.of_nat ns) 0.
Proof.
  induction k as [|k IH]; intros d a g Hd Hk Hok Ho Ha.
  - exists a, g. split; [apply runs_for_O|]. split; [apply differs_refl|]. replace ns with d at 2 by lia. exact Ha.
  - destruct (runs_gs_share M ns i d a g Hd ltac:(lia) Hok Ho Ha) as (b & R1 & D1 & A1).
    destruct (IH (S d) b (g + 1)) as (c & g' & R2 & D2 & A2); [lia|lia|exact Hok|destruct D1 as (_ & -> & _); exact Ho|exact A1|].
    exists c, g'. split; [|split; [|exact A2]].
    + eapply runs_for_S; [exact R1|]. replace (N.of_nat d + 1) with (N.of_nat (S d)) by lia. exact R2.
    + eapply differs_sub; [|eapply differs_trans; [exact D1|exact D2]]. cbv beta. intros j. lia.
Qed.

Lemma runs_gs_random M ns j a g : okn ns ->
  2 * j * N.of_nat ns + 2 * N.of_nat ns <= alen a ->
  exists b g', runs (gs_random R (N.of_nat ns) j (a, g)) M M (b, g') /\
    differs (fun i => 2 * j * N.of_nat ns <= i /\ i < 2 * j * N.of_nat ns + 2 * N.of_nat ns) a b /\
    avaln b ns ns (2 * j * N.of_nat ns) 0.
Proof.
  intros Hok Ho. set (o := 2 * j * N.of_nat ns) in *. assert (H1 : (1 <= ns)%nat) by apply Hok.
  destruct (runs_aset M a o 0) as (a1 & R1 & D1 & E1); [lia|apply fits_0|].
  destruct (runs_aset M a1 (o + N.of_nat ns) 0) as (a2 & R2 & D2 & E2); [destruct D1 as (_ & -> & _); lia|apply fits_0|].
  destruct (runs_gs_shares M ns (2 * j) (ns - 1) 1 a2 g) as (b & g' & R3 & D3 & A3); [lia|lia|exact Hok| | |].
  { destruct D2 as (_ & -> & _), D1 as (_ & -> & _). exact Ho. }
  { fold o. exists (fun _ => 0). split; [reflexivity|]. intros d Hd. assert (d = 0%nat) by lia. subst d.
    replace (o + N.of_nat 0) with o by lia.
    split; [apply fits_0|]. split; [|exact E2].
    eapply acell_differs; [exact D2|cbv beta; lia|]. exact E1. }
  exists b, g'. split; [|split].
  - unfold gs_random. cbv zeta.
    replace ((2 * j + 0) * N.of_nat ns + 0) with o by (unfold o; lia).
    replace ((2 * j + 1) * N.of_nat ns + 0) with (o + N.of_nat ns) by (unfold o; lia).
    step; [exact R1|]. step; [exact R2|]. replace (N.to_nat (N.of_nat ns - 1)) with (ns - 1)%nat by lia. exact R3.
  - eapply differs_sub; [|eapply differs_trans; [exact D1|eapply differs_trans; [exact D2|exact D3]]].
    cbv beta. fold o. intros i. lia.
  - exact A3.
Qed.

Lemma runs_gs_randoms M ns k : forall j a g, okn ns -> 2 * N.of_nat ns * (j + N.of_nat k) <= alen a ->
  exists b g', runs (for_loop k j (gs_random R (N.of_nat ns)) (a, g)) M M (b, g') /\
    differs (fun i => 2 * N.of_nat ns * j <= i /\ i < 2 * N.of_nat ns * (j + N.of_nat k)) a b /\
    forall i, j <= i -> i < j + N.of_nat k -> aval b ns (2 * N.of_nat ns * i) 0.
Proof.
  induction k as [|k IH]; intros j a g Hok Ho.
  - exists a, g. split; [apply runs_for_O|]. split; [apply differs_refl|lia].
  - destruct (runs_gs_random M ns j a g Hok) as (b & g1 & R1 & D1 & A1); [lia|].
    destruct (IH (j + 1) b g1 Hok) as (c & g2 & R2 & D2 & A2); [destruct D1 as (_ & -> & _); lia|].
    exists c, g2. split; [eapply runs_for_S; [exact R1|exact R2]|]. split.
    + eapply differs_sub; [|eapply differs_trans; [exact D1|exact D2]]. cbv beta. intros i. lia.
    + intros i Hi Hi2. destruct (N.eq_dec i j) as [->|Hne]; [|apply A2; lia].
      eapply aval_differs; [exact D2| |]; [cbv beta; lia|].
      replace (2 * N.of_nat ns * j) with (2 * j * N.of_nat ns) by lia. exact A1.
Qed.

(** ** The caller's bytes *)

(** word [j] of the bytes [b] *)
Definition wordn (b : bytes) (j : nat) : N := le_num (firstn 8 (skipn (8 * j) b)).
Definition nwords (n : nat) : nat := ((n + 7) / 8)%nat.
Definition abytes (a : arr) (ns : nat) (o : N) (b : bytes) : Prop :=
  forall j, (j < nwords (length b))%nat -> aval a ns (o + 2 * N.of_nat ns * N.of_nat j) (wordn b j).

Lemma NUM_WORDS_len l : len l < 2 ^ 60 -> NUM_WORDS (len l) = 2 * N.of_nat (nwords (length l)).
Proof.
  intros H. unfold NUM_WORDS, nwords.
  assert (E : forall x, x < 2 ^ 64 -> trunc 64 x = x).
  { intros x Hx. unfold trunc. rewrite N.land_ones. apply N.mod_small, Hx. }
  rewrite (E (len l + 7)) by lia.
  replace (N.of_nat ((length l + 7) / 8)) with ((len l + 7) / 8).
  - rewrite E; [lia|]. assert ((len l + 7) / 8 <= len l + 7) by (apply N.div_le_upper_bound; lia). lia.
  - unfold len. change 7 with (N.of_nat 7) at 1. change 8 with (N.of_nat 8).
    rewrite <- Nat2N.inj_add, <- Nat2N.inj_div. reflexivity.
Qed.

Lemma runs_gs_words M ns data l k : okn ns -> readable M data l -> (8 * k <= length l)%nat -> data <> 0 \/ k = 0%nat ->
  forall i a, (8 * (i + k) <= length l)%nat ->
  (forall j, (i <= j)%nat -> (j < i + k)%nat -> aval a ns (2 * N.of_nat ns * N.of_nat j) 0) ->
  exists b, runs (for_loop k (N.of_nat i) (gs_word LE (N.of_nat ns) data) a) M M b /\
    differs (fun c => 2 * N.of_nat ns * N.of_nat i <= c /\ c < 2 * N.of_nat ns * N.of_nat (i + k)) a b /\
    forall j, (i <= j)%nat -> (j < i + k)%nat -> aval b ns (2 * N.of_nat ns * N.of_nat j) (wordn l j).
Proof.
  intros Hok Rd _. induction k as [|k IH]; intros Hdat i a Hl Ha.
  - exists a. split; [apply runs_for_O|]. split; [apply differs_refl|lia].
  - assert (Hd : data <> 0) by (destruct Hdat; [assumption|lia]). clear Hdat.
    assert (E : l = firstn (8 * i) l ++ (firstn 8 (skipn (8 * i) l) ++ skipn 8 (skipn (8 * i) l)))
      by (rewrite !firstn_skipn; reflexivity).
    assert (L8 : length (firstn 8 (skipn (8 * i) l)) = 8%nat) by (rewrite firstn_length, skipn_length; lia).
    pose proof Rd as Rd0. rewrite E in Rd0. apply readable_app in Rd0 as [_ Rd1]. apply readable_app in Rd1 as [Rd1 _].
    replace (len (firstn (8 * i) l)) with (N.of_nat i * 8) in Rd1 by (unfold len; rewrite firstn_length; lia).
    pose proof (readable_bound _ _ _ Rd) as Hbd. unfold len in Hbd.
    specialize (Ha i ltac:(lia) ltac:(lia)) as Ha0.
    destruct (runs_gs_xor M ns (2 * N.of_nat i) (wordn l i) a 0) as (b & R1 & D1 & A1);
      [apply Hok|unfold wordn; apply fits_le_num8; lia|replace (2 * N.of_nat i * N.of_nat ns) with (2 * N.of_nat ns * N.of_nat i) by lia; exact Ha0|].
    replace (2 * N.of_nat i * N.of_nat ns) with (2 * N.of_nat ns * N.of_nat i) in * by lia.
    assert (H1 : (1 <= ns)%nat) by apply Hok.
    destruct (IH (or_introl Hd) (S i) b) as (c & R2 & D2 & A2); [lia| |].
    { intros j Hj Hj2. eapply aval_differs; [exact D1| |apply Ha; lia]. cbv beta. intros c Hc Hc2 C. nia. }
    exists c. split; [|split].
    + eapply runs_for_S.
      * unfold gs_word. step; [apply runs_padd; [lia|intros _; exact Hd]|].
        step; [apply runs_memcpy_in; [exact Rd1|unfold len; lia|lia]|].
        change (U64LE LE (from_host LE (firstn 8 (skipn (8 * i) l)))) with (wordn l i). exact R1.
      * replace (N.of_nat i + 1) with (N.of_nat (S i)) by lia. exact R2.
    + eapply differs_sub; [|eapply differs_trans; [exact D1|exact D2]]. cbv beta. intros j. nia.
    + intros j Hj Hj2. destruct (Nat.eq_dec j i) as [->|Hne].
      * eapply aval_differs; [exact D2| |exact A1]. cbv beta. intros c' Hc Hc2 C. nia.
      * apply A2; lia.
Qed.

Lemma gs_bytes_loop M data l1 l2 : forall l, readable M data (l1 ++ l ++ l2) -> (length l1 mod 8 = 0)%nat -> (length (l ++ l2) <= 8)%nat ->
  runs (for_loop (length l2) (len (l1 ++ l)) (gs_byte data) (le_num l)) M M (le_num (l ++ l2)).
Proof.
  induction l2 as [|b l2 IH]; intros l Rd Hm Hl; cbn [length].
  - rewrite app_nil_r. apply runs_for_O.
  - rewrite app_length in Hl. cbn [length] in Hl.
    assert (Em : len (l1 ++ l) mod 8 = len l).
    { unfold len. rewrite app_length. change 8 with (N.of_nat 8). rewrite <- Nat2N.inj_mod. f_equal.
      rewrite Nat.add_mod, Hm by lia. cbn [Nat.add]. rewrite Nat.mod_mod by lia. apply Nat.mod_small. lia. }
    eapply runs_for_S.
    + unfold gs_byte. step.
      * apply runs_ld with (l := l1 ++ l ++ b :: l2) (i := length (l1 ++ l)); [exact Rd|].
        rewrite !app_length. cbn [length]. lia.
      * rewrite app_assoc, app_nth2, Nat.sub_diag by lia. cbn [nth]. rewrite Em.
        assert (E : N.lxor (le_num l) (shlw 64 (b2n b) (len l * 8)) = N.lor (le_num l) (SETBYTE (b2n b) (len l))).
        { unfold SETBYTE. rewrite (N.mul_comm (len l)). apply N.bits_inj; intro i. rewrite N.lxor_spec, N.lor_spec.
          destruct (N.ltb_spec i (8 * len l)) as [H|H].
          - rewrite testbit_shlw. replace (8 * len l <=? i) with false by lia. rewrite ?andb_false_r, ?orb_false_r, ?xorb_false_r. reflexivity.
          - replace (N.testbit (le_num l) i) with false; [destruct (N.testbit _ i); reflexivity|].
            symmetry. rewrite testbit_le_num, nth_overflow, bbit_x00; [reflexivity|].
            assert (len l <= i / 8) by (apply N.div_le_lower_bound; lia). unfold len in *. lia. }
        rewrite E, le_num_snoc by lia. apply runs_ret.
    + replace (len (l1 ++ l) + 1) with (len (l1 ++ (l ++ [b]))) by (rewrite !len_app; change (len [b]) with 1; lia).
      replace (l ++ b :: l2) with ((l ++ [b]) ++ l2) in * by (rewrite <- app_assoc; reflexivity).
      apply IH; [exact Rd|exact Hm|]. rewrite !app_length. cbn [length]. lia.
Qed.

Lemma generate_ok M ns g a data l : okn ns -> readable M data l -> len l < 2 ^ 60 ->
  2 * N.of_nat ns * N.of_nat (nwords (length l)) <= alen a ->
  exists b g', runs (generate_shares R LE g a ns data (len l)) M M (b, g') /\
    differs (fun i => i < 2 * N.of_nat ns * N.of_nat (nwords (length l))) a b /\ abytes b ns 0 l.
Proof.
  intros Hok Rd Hlen Ha. assert (H1 : (1 <= ns)%nat) by apply Hok.
  destruct (runs_gs_randoms M ns (nwords (length l)) 0 a g Hok) as (a1 & g1 & R1 & D1 & A1); [lia|].
  assert (Lw : (8 * (length l / 8) <= length l)%nat) by (apply Nat.mul_div_le; lia).
  assert (Ln : (length l / 8 <= nwords (length l))%nat) by (apply Nat.div_le_mono; lia).
  assert (Ed : len l / 8 = N.of_nat (length l / 8)).
  { unfold len. change 8 with (N.of_nat 8). rewrite <- Nat2N.inj_div. reflexivity. }
  destruct (runs_gs_words M ns data l (length l / 8) Hok Rd Lw) with (i := 0%nat) (a := a1) as (a2 & R2 & D2 & A2).
  { destruct (Nat.eq_dec (length l / 8) 0) as [->|Hne]; [right; reflexivity|left].
    apply Rd. intros ->. cbn in Hne. lia. }
  { lia. }
  { intros j _ Hj. replace (2 * N.of_nat ns * N.of_nat j) with (2 * N.of_nat ns * (N.of_nat j)) by lia. apply A1; lia. }
  cbn [Nat.add] in *.
  pose proof (Nat.div_mod (length l) 8 ltac:(lia)) as EM. pose proof (Nat.mod_upper_bound (length l) 8 ltac:(lia)) as UM.
  set (q := (length l / 8)%nat) in *. set (r := (length l mod 8)%nat) in *.
  assert (Hd12 : differs (fun i => i < 2 * N.of_nat ns * N.of_nat (nwords (length l))) a a2).
  { eapply differs_sub; [|eapply differs_trans; [exact D1|exact D2]]. cbv beta. intros i. nia. }
  assert (Step : forall (K : C (arr * N)) out, runs K M M out ->
    (if negb (len l / 8 * 8 =? len l) then runs (x <- for_loop (N.to_nat (len l - len l / 8 * 8)) (len l / 8 * 8) (gs_byte data) 0 ;;
        a <- gs_xor (N.of_nat ns) (2 * (len l / 8)) (U64LE LE x) a2 ;; ret (a, g1)) M M out else out = (a2, g1)) ->
    runs (generate_shares R LE g a ns data (len l)) M M out).
  { intros K out _ HK. unfold generate_shares. cbv zeta. rewrite NUM_WORDS_len by exact Hlen.
    replace (N.to_nat (2 * N.of_nat (nwords (length l)) / 2)) with (nwords (length l))
      by (rewrite N.mul_comm, N.div_mul by lia; lia).
    step; [exact R1|]. cbv beta iota.
    replace (N.to_nat (len l / 8)) with q by (rewrite Ed; lia).
    step; [exact R2|]. step; [apply runs_branch|].
    destruct (negb (len l / 8 * 8 =? len l)); [exact HK|]. rewrite HK. apply runs_ret. }
  destruct (Nat.eq_dec r 0) as [Hr|Hr].
  - exists a2, g1. split; [|split; [exact Hd12|]].
    + apply (Step (ret (a2, g1))); [apply runs_ret|].
      replace (len l / 8 * 8 =? len l) with true by (rewrite Ed; unfold len; lia). reflexivity.
    + intros j Hj. rewrite N.add_0_l. apply A2; [lia|].
      assert (nwords (length l) = q); [|lia]. unfold nwords. rewrite EM, Hr. 
      replace (8 * q + 0 + 7)%nat with (7 + q * 8)%nat by lia. rewrite Nat.div_add by lia. reflexivity.
  - assert (En : nwords (length l) = S q).
    { unfold nwords. rewrite EM. replace (8 * q + r + 7)%nat with ((r - 1) + (S q) * 8)%nat by lia.
      rewrite Nat.div_add by lia. rewrite Nat.div_small by lia. reflexivity. }
    assert (E : l = firstn (8 * q) l ++ [] ++ skipn (8 * q) l) by (cbn [app]; rewrite firstn_skipn; reflexivity).
    assert (L1 : length (firstn (8 * q) l) = (8 * q)%nat) by (rewrite firstn_length; lia).
    assert (L2 : length (skipn (8 * q) l) = r) by (rewrite skipn_length; lia).
    pose proof Rd as Rd'. rewrite E in Rd'.
    pose proof (gs_bytes_loop M data (firstn (8 * q) l) (skipn (8 * q) l) [] Rd') as RB.
    cbn [app] in RB. rewrite app_nil_r, L1, L2 in RB.
    specialize (RB ltac:(rewrite Nat.mul_comm; apply Nat.mod_mul; lia) ltac:(lia)).
    replace (len (firstn (8 * q) l)) with (N.of_nat q * 8) in RB by (unfold len; lia). change (le_num []) with 0 in RB.
    assert (A0 : aval a2 ns (2 * N.of_nat ns * N.of_nat q) 0).
    { eapply aval_differs; [exact D2| |apply A1; lia]. cbv beta. intros i. nia. }
    destruct (runs_gs_xor M ns (2 * N.of_nat q) (le_num (skipn (8 * q) l)) a2 0) as (a3 & R3 & D3 & A3);
      [lia|apply fits_le_num8; lia|replace (2 * N.of_nat q * N.of_nat ns) with (2 * N.of_nat ns * N.of_nat q) by lia; exact A0|].
    replace (2 * N.of_nat q * N.of_nat ns) with (2 * N.of_nat ns * N.of_nat q) in * by lia.
    exists a3, g1. split; [|split].
    + apply (Step (ret (a3, g1))); [apply runs_ret|].
      replace (len l / 8 * 8 =? len l) with false by (rewrite Ed; unfold len; lia). cbn [negb].
      rewrite Ed. replace (N.to_nat (len l - N.of_nat q * 8)) with r by (unfold len; lia).
      step; [exact RB|]. change (U64LE LE (le_num (skipn (8 * q) l))) with (le_num (skipn (8 * q) l)).
      step; [exact R3|]. apply runs_ret.
    + eapply differs_sub; [|eapply differs_trans; [exact Hd12|exact D3]]. cbv beta. rewrite En. intros i. nia.
    + intros j Hj. rewrite N.add_0_l. destruct (Nat.eq_dec j q) as [->|Hne].
      * unfold wordn. rewrite firstn_all2 by lia. exact A3.
      * eapply aval_differs; [exact D3| |apply A2; lia]. cbv beta. intros i. nia.
Qed.
End Gen.

(** Reading the bytes block by block. *)
Lemma abytes_cons a ns o B r : length B = 8%nat -> abytes a ns o (B ++ r) ->
  aval a ns o (le_num B) /\ abytes a ns (o + 2 * N.of_nat ns) r.
Proof.
  intros HB H.
  assert (En : nwords (length (B ++ r)) = S (nwords (length r))).
  { rewrite app_length, HB. unfold nwords. replace (8 + length r + 7)%nat with (length r + 7 + 1 * 8)%nat by lia.
    rewrite Nat.div_add by lia. lia. }
  split.
  - specialize (H 0%nat ltac:(lia)). rewrite N.mul_0_r, N.add_0_r in H. unfold wordn in H.
    change (8 * 0)%nat with 0%nat in H. rewrite skipn_O, firstn_app, HB, Nat.sub_diag, firstn_O, app_nil_r, firstn_all2 in H by lia. exact H.
  - intros j Hj. specialize (H (S j) ltac:(lia)). unfold wordn in *.
    replace (8 * S j)%nat with (length B + 8 * j)%nat in H by lia.
    rewrite skipn_app, skipn_all2 in H by lia. replace (length B + 8 * j - length B)%nat with (8 * j)%nat in H by lia.
    cbn [app] in H. replace (o + 2 * N.of_nat ns + 2 * N.of_nat ns * N.of_nat j) with (o + 2 * N.of_nat ns * N.of_nat (S j)) by lia.
    exact H.
Qed.
Lemma abytes_short a ns o r : r <> [] -> (length r <= 8)%nat -> abytes a ns o r -> aval a ns o (le_num r).
Proof.
  intros Hn Hl H. assert ((0 < length r)%nat) by (destruct r; [congruence|cbn; lia]).
  specialize (H 0%nat). rewrite N.mul_0_r, N.add_0_r in H. unfold wordn in H. change (8 * 0)%nat with 0%nat in H. rewrite skipn_O in H.
  rewrite firstn_all2 in H by exact Hl. apply H. unfold nwords. apply Nat.div_str_pos. lia.
Qed.

(** ** Unmasking *)

(** words from acell [o] on whose first bytes are [b] *)
Inductive aout (a : arr) (ns : nat) : N -> bytes -> Prop :=
| aout_last o r x : (length r < 8)%nat -> (r <> [] -> aval a ns o x) -> r = firstn (length r) (wb x) -> aout a ns o r
| aout_cons o r x : aval a ns o x -> aout a ns (o + 2 * N.of_nat ns) r -> aout a ns o (wb x ++ r).

Lemma aout_nil a ns o : aout a ns o [].
Proof. apply (aout_last _ _ _ _ 0); [cbn; lia|congruence|reflexivity]. Qed.
Lemma aout_inv8 a ns o b : (8 <= length b)%nat -> aout a ns o b ->
  exists x r, b = wb x ++ r /\ aval a ns o x /\ aout a ns (o + 2 * N.of_nat ns) r.
Proof. intros H A. inversion A; subst; [lia|]. eauto. Qed.
Lemma aout_inv_short a ns o b : b <> [] -> (length b < 8)%nat -> aout a ns o b ->
  exists x, b = firstn (length b) (wb x) /\ aval a ns o x.
Proof.
  intros Hn H A. inversion A; subst; [exists x; auto|]. rewrite app_length, wb_len in H. lia.
Qed.
Lemma aout_differs P a b ns o l : differs P a b -> (forall i, o <= i -> i < o + 2 * N.of_nat ns * N.of_nat (nwords (length l)) -> ~ P i) ->
  aout a ns o l -> aout b ns o l.
Proof.
  intros HD HP A. induction A as [o r x Hl Hx Hr|o r x Hx HA IH].
  - apply (aout_last _ _ _ _ x); auto. intros Hn. eapply aval_differs; [exact HD| |apply Hx, Hn].
    intros i Hi Hi2. apply HP; [exact Hi|]. assert ((1 <= nwords (length r))%nat); [|nia].
    unfold nwords. apply Nat.div_str_pos. destruct r; [congruence|cbn [length]; lia].
  - assert (En : nwords (length (wb x ++ r)) = S (nwords (length r))).
    { rewrite app_length, wb_len. unfold nwords. replace (8 + length r + 7)%nat with (length r + 7 + 1 * 8)%nat by lia.
      rewrite Nat.div_add by lia. lia. }
    rewrite En in HP. apply aout_cons.
    + eapply aval_differs; [exact HD| |exact Hx]. intros i Hi Hi2. apply HP; nia.
    + apply IH. intros i Hi Hi2. apply HP; nia.
Qed.

Lemma cs_share_loop M ns i a f k : okn ns -> forall d x, (d + k = ns)%nat ->
  (forall d, (d < ns)%nat -> fits 64 (f d) /\ acell a (2 * i * N.of_nat ns + N.of_nat d) (trunc 32 (f d)) /\
    acell a (2 * i * N.of_nat ns + N.of_nat d + N.of_nat ns) (shrw (f d) 32)) ->
  x = sumrot f d ->
  runs (for_loop k (N.of_nat d) (cs_share (N.of_nat ns) i a) x) M M (sumrot f ns).
Proof.
  intros Hok. induction k as [|k IH]; intros d x Hd Hf ->.
  - replace d with ns by lia. apply runs_for_O.
  - destruct (Hf d ltac:(lia)) as (F & C0 & C1). eapply runs_for_S.
    + unfold cs_share.
      replace ((2 * i + 0) * N.of_nat ns + N.of_nat d) with (2 * i * N.of_nat ns + N.of_nat d) by lia.
      replace ((2 * i + 1) * N.of_nat ns + N.of_nat d) with (2 * i * N.of_nat ns + N.of_nat d + N.of_nat ns) by lia.
      step; [apply runs_aget, C0|]. step; [apply runs_aget, C1|]. rewrite join_halves by exact F.
      rewrite ror64_any by (auto; pose proof (ROT_lt (2 * Z.of_N (N.of_nat d))); lia).
      apply runs_ret.
    + replace (N.of_nat d + 1) with (N.of_nat (S d)) by lia. apply IH; [lia|exact Hf|].
      cbn [sumrot]. f_equal. f_equal.
      assert (Hc : d = 0%nat \/ d = 1%nat \/ d = 2%nat \/ d = 3%nat) by (unfold okn in Hok; lia).
      destruct Hc as [->|[->|[->| ->]]]; reflexivity.
Qed.
Lemma cs_word_val M ns i a x : okn ns -> aval a ns (2 * N.of_nat ns * i) x ->
  runs (for_loop ns 0 (cs_share (N.of_nat ns) i a) 0) M M x.
Proof.
  intros Hok (f & -> & Hf). apply (cs_share_loop M ns i a f ns Hok 0%nat 0); [lia| |reflexivity].
  intros d Hd. replace (2 * i * N.of_nat ns) with (2 * N.of_nat ns * i) by lia. apply Hf, Hd.
Qed.

Lemma cs_words M ns data a k : okn ns -> forall i M1 b, (8 * k <= length b)%nat -> aout a ns (2 * N.of_nat ns * i) b ->
  writable M1 (data + 8 * i) (len b) -> (k = 0%nat \/ data <> 0) ->
  M = M1 ->
  exists l r, b = l ++ r /\ length l = (8 * k)%nat /\ aout a ns (2 * N.of_nat ns * (i + N.of_nat k)) r /\
    runs (for_loop k i (cs_word LE (N.of_nat ns) a data) tt) M1 (write M1 (data + 8 * i) l) tt.
Proof.
  intros Hok. revert M. induction k as [|k IH]; intros M i M1 b Hl A W Hd HM.
  - exists [], b. split; [reflexivity|]. split; [reflexivity|]. split; [rewrite N.add_0_r; exact A|]. apply runs_for_O.
  - assert (Hd' : data <> 0) by (destruct Hd; [lia|assumption]).
    destruct (aout_inv8 a ns _ b ltac:(lia) A) as (x & r & -> & Hx & Ar).
    rewrite len_app in W. replace (len (wb x)) with 8 in W by (unfold len; rewrite wb_len; reflexivity).
    pose proof (writable_bound _ _ _ W) as Hb.
    destruct (writable_split _ _ _ _ W) as [W8 Wr].
    rewrite app_length, wb_len in Hl.
    destruct (IH (write M1 (data + 8 * i) (wb x)) (i + 1) (write M1 (data + 8 * i) (wb x)) r) as (l & r' & -> & Ll & A' & Rl);
      [lia|replace (2 * N.of_nat ns * (i + 1)) with (2 * N.of_nat ns * i + 2 * N.of_nat ns) by lia; exact Ar
      |apply writable_write; replace (data + 8 * (i + 1)) with (data + 8 * i + 8) by lia; exact Wr|right; exact Hd'|reflexivity|].
    exists (wb x ++ l), r'. split; [rewrite app_assoc; reflexivity|].
    split; [rewrite app_length, wb_len; lia|]. split.
    + replace (i + N.of_nat (S k)) with (i + 1 + N.of_nat k) by lia. exact A'.
    + rewrite write_app. replace (len (wb x)) with 8 by (unfold len; rewrite wb_len; reflexivity).
      eapply runs_for_S.
      * unfold cs_word. rewrite Nat2N.id. step; [apply cs_word_val; [exact Hok|exact Hx]|]. cbv zeta.
        step; [apply runs_padd; [lia|intros _; exact Hd']|].
        change (to_host LE 8 (U64LE LE x)) with (wb x). replace (i * 8) with (8 * i) by lia.
        apply runs_memcpy_out; [|lia]. replace (len (wb x)) with 8 by (unfold len; rewrite wb_len; reflexivity). exact W8.
      * replace (data + 8 * i + 8) with (data + 8 * (i + 1)) by lia. exact Rl.
Qed.

Lemma cs_bytes_loop data x q k : forall i M, i + N.of_nat k <= 8 -> writable M (data + 8 * q + i) (N.of_nat k) -> data <> 0 ->
  8 * q + i + N.of_nat k < 2 ^ 64 ->
  runs (for_loop k (8 * q + i) (cs_byte data x) tt) M (write M (data + 8 * q + i) (le_bytes k (N.shiftr x (8 * i)))) tt.
Proof.
  induction k as [|k IH]; intros i M Hi W Hd Hb; cbn [le_bytes write]; [apply runs_for_O|].
  pose proof (writable_bound _ _ _ W) as Hbw.
  assert (Em : (8 * q + i) mod 8 = i).
  { rewrite N.add_comm, N.mul_comm, N.mod_add by lia. apply N.mod_small. lia. }
  eapply runs_for_S.
  - unfold cs_byte. rewrite Em. unfold st. step; [apply runs_padd; [lia|auto]|].
    apply runs_stb; [lia|]. apply W; lia.
  - replace (data + (8 * q + i)) with (data + 8 * q + i) by lia.
    replace (8 * q + i + 1) with (8 * q + (i + 1)) by lia.
    rewrite N.shiftr_shiftr. replace (8 * i + 8) with (8 * (i + 1)) by lia.
    replace (data + 8 * q + i + 1) with (data + 8 * q + (i + 1)) by lia.
    replace (n2b (N.shiftr x (8 * i))) with (n2b (shrw x (i * 8))) by (unfold shrw; f_equal; f_equal; lia).
    apply IH; [lia| |exact Hd|lia].
    change (upd M (data + 8 * q + i) (n2b (shrw x (i * 8)))) with (write M (data + 8 * q + i) [n2b (shrw x (i * 8))]).
    apply writable_write.
    replace (N.of_nat (S k)) with (1 + N.of_nat k) in W by lia.
    destruct (writable_split _ _ _ _ W) as [_ W']. replace (data + 8 * q + (i + 1)) with (data + 8 * q + i + 1) by lia. exact W'.
Qed.

(** the buffer from cell [off] on *)
Definition ashift (a : arr) (off : N) : arr := Arr (a_base a + 4 * off) (skipn (N.to_nat off) (a_cells a)).
Lemma nth_error_skip {A} (l : list A) n i : nth_error (skipn n l) i = nth_error l (n + i).
Proof. revert l. induction n as [|n IH]; intros [|x l]; cbn [skipn Nat.add nth_error]; auto. destruct i; reflexivity. Qed.
Lemma nth_error_firstn_lt {A} (l : list A) n i : (i < n)%nat -> nth_error (firstn n l) i = nth_error l i.
Proof. revert l i. induction n as [|n IH]; intros [|x l] [|i] H; cbn [firstn nth_error]; auto; try lia. apply IH. lia. Qed.
Lemma acell_shift a off i v : acell a (off + i) v -> acell (ashift a off) i v.
Proof.
  intros [H F]. split; [|exact F]. cbn [a_cells ashift]. rewrite nth_error_skip.
  replace (N.to_nat off + N.to_nat i)%nat with (N.to_nat (off + i)) by lia. exact H.
Qed.
Lemma aval_shift a ns off o x : aval a ns (off + o) x -> aval (ashift a off) ns o x.
Proof.
  intros (f & -> & Hf). exists f. split; [reflexivity|]. intros d Hd. destruct (Hf d Hd) as (F & C0 & C1).
  split; [exact F|]. split; apply acell_shift; [rewrite N.add_assoc; exact C0|].
  rewrite !N.add_assoc. exact C1.
Qed.
Lemma aout_shift a ns off b : forall o, aout a ns (off + o) b -> aout (ashift a off) ns o b.
Proof.
  intros o H. remember (off + o) as q eqn:E. revert o E. induction H as [q r x Hl Hx Hr|q r x Hx HA IH]; intros o ->.
  - apply (aout_last _ _ _ _ x); auto. intros Hn. apply aval_shift, Hx, Hn.
  - apply aout_cons; [apply aval_shift, Hx|]. apply IH. lia.
Qed.

Lemma combine_ok M data a off ns b : okn ns -> aout a ns off b -> writable M data (len b) -> (b = [] \/ data <> 0) ->
  len b < 2 ^ 63 ->
  runs (combine_shares LE data (len b) a off ns) M (write M data b) tt.
Proof.
  intros Hok A W Hd Hlt. unfold combine_shares. cbv zeta. fold (ashift a off).
  assert (A' : aout (ashift a off) ns (2 * N.of_nat ns * 0) b) by (apply aout_shift; rewrite N.mul_0_r, N.add_0_r; exact A).
  set (q := (length b / 8)%nat). assert (Eq : len b / 8 = N.of_nat q).
  { unfold len, q. rewrite Nat2N.inj_div. reflexivity. }
  pose proof (Nat.div_mod (length b) 8 ltac:(lia)) as Hdm. fold q in Hdm.
  pose proof (Nat.mod_upper_bound (length b) 8 ltac:(lia)) as Hr.
  set (r := (length b mod 8)%nat) in *. clearbody q r.
  rewrite Eq, Nat2N.id.
  assert (Hd' : q = 0%nat \/ data <> 0) by (destruct Hd as [-> | ?]; [left; cbn [length] in Hdm; lia|right; assumption]).
  destruct (cs_words M ns data (ashift a off) q Hok 0 M b) as (l & t & Eb & Ll & At & Rl);
    [lia|exact A'|rewrite N.mul_0_r, N.add_0_r; exact W|exact Hd'|reflexivity|].
  rewrite N.mul_0_r, N.add_0_r in Rl. rewrite N.add_0_l in At.
  step; [exact Rl|]. step; [apply runs_branch|].
  assert (Lt : length t = r).
  { assert (HH : length b = (length l + length t)%nat) by (rewrite Eb; apply app_length). lia. }
  destruct (N.eqb_spec (N.of_nat q * 8) (len b)) as [E|E]; cbn [negb].
  - assert (Er : r = 0%nat) by (unfold len in E; lia). rewrite Er in Lt.
    destruct t; [|discriminate]. rewrite Eb, app_nil_r. apply runs_ret.
  - assert (Er : r <> 0%nat) by (unfold len in E; lia).
    assert (Hn : t <> []) by (destruct t; [cbn [length] in Lt; lia|congruence]).
    destruct (aout_inv_short _ _ _ t Hn ltac:(lia) At) as (x & Ex & Hx).
    step; [apply cs_word_val; [exact Hok|exact Hx]|]. change (U64LE LE x) with x.
    replace (N.to_nat (len b - N.of_nat q * 8)) with r by (unfold len; lia).
    assert (Hd0 : data <> 0) by (destruct Hd as [-> | ?]; [cbn [length] in Hdm; lia|assumption]).
    assert (Elen : len b = len l + len t) by (rewrite Eb at 1; apply len_app).
    assert (Ell : len l = 8 * N.of_nat q) by (unfold len; lia).
    rewrite Elen in W. destruct (writable_split _ _ _ _ W) as [Wl Wt]. rewrite Ell in Wt.
    pose proof (cs_bytes_loop data x (N.of_nat q) r 0 (write M data l)) as HB.
    rewrite !N.add_0_r, N.mul_0_r, N.shiftr_0_r in HB.
    replace (N.of_nat q * 8) with (8 * N.of_nat q) by lia.
    replace (write M data b) with (write (write M data l) (data + 8 * N.of_nat q) (le_bytes r x)).
    + apply HB; [lia| |exact Hd0|unfold len in Hlt; lia].
      apply writable_write. replace (N.of_nat r) with (len t) by (unfold len; lia). exact Wt.
    + rewrite Eb, write_app, Ell. f_equal. rewrite Ex, Lt. unfold wb.
      rewrite <- firstn_le_bytes by lia. reflexivity.
Qed.

(** [generate_shares] from a cell on *)
Lemma generate_at_ok R M ns g a off data l : okn ns -> readable M data l -> len l < 2 ^ 60 ->
  off + 2 * N.of_nat ns * N.of_nat (nwords (length l)) <= alen a ->
  exists b g', runs (generate_shares_at R LE g a off ns data (len l)) M M (b, g') /\
    differs (fun i => off <= i) a b /\ abytes b ns off l.
Proof.
  intros Hok Rd Hl Ha.
  destruct (generate_ok R M ns g (ashift a off) data l Hok Rd Hl) as (b & g' & Rb & Db & Ab).
  { unfold alen, ashift in *. cbn [a_cells]. rewrite skipn_length. lia. }
  exists (Arr (a_base a) (firstn (N.to_nat off) (a_cells a) ++ a_cells b)), g'.
  assert (Lf : length (firstn (N.to_nat off) (a_cells a)) = N.to_nat off) by (rewrite firstn_length; unfold alen in Ha; lia).
  assert (HC : forall i v, acell b i v -> acell (Arr (a_base a) (firstn (N.to_nat off) (a_cells a) ++ a_cells b)) (off + i) v).
  { intros i v [H F]. split; [|exact F]. cbn [a_cells]. rewrite nth_error_app2 by lia. rewrite Lf, <- H. f_equal. lia. }
  split; [|split].
  - unfold generate_shares_at. fold (ashift a off). step; [exact Rb|]. apply runs_ret.
  - destruct Db as (B0 & B1 & B2). unfold differs. cbn [a_cells a_base]. split; [reflexivity|]. split.
    + unfold alen in *. cbn [a_cells]. rewrite app_length, Lf. unfold ashift in B1. cbn [a_cells] in B1. rewrite skipn_length in B1. lia.
    + intros i Hi. rewrite nth_error_app1 by lia. apply nth_error_firstn_lt. lia.
  - intros j Hj. destruct (Ab j Hj) as (f & Ef & Hf). exists f. split; [exact Ef|]. intros d Hd.
    destruct (Hf d Hd) as (F & C0 & C1). split; [exact F|]. rewrite N.add_0_l in C0, C1.
    split; [rewrite <- N.add_assoc|rewrite <- !N.add_assoc]; apply HC; [exact C0|rewrite N.add_assoc; exact C1].
Qed.
