(** * XtCore.v -- ascon_core of ModelXt.v. *)
From Coq Require Import Bool Arith NArith ZArith List Lia Init.Byte Strings.Byte ZifyBool ZifyNat ZifyN.
From Verif Require Import Words WordFacts Spec SpecFacts Spec12 Spec12Facts StateRep Asm ModelRv ModelXt CMem Contract CMemFacts RvFacts RvRound RvMode RvWords RvInst RvLaws RvCore XtSpec XtFacts XtHash XtAead XtMode.
Import ListNotations.
Local Open Scope N_scope.
Local Strategy 1000 [rev8f].
Local Notation P := ascon128a_v12.
Local Notation wdx := (Wd_xor be_num hi_n lo_n rv32b ascon128a_v12 laws_rv32b).

(** ** Key, separation bit *)
Definition KG (g : regs) (k : bytes) : Prop := exists k0 k1, k = k0 ++ k1 /\ BW g 10 11 k0 /\ BW g 12 13 k1.
Lemma KG_keep l g g' k : except l g g' -> forallb (fun i => negb (memb i l)) [10; 11; 12; 13]%nat = true -> KG g k -> KG g' k.
Proof.
  intros E H (k0 & k1 & -> & H0 & H1). cbn [forallb] in H.
  apply andb_prop in H. destruct H as [A H]. apply andb_prop in H. destruct H as [B H]. apply andb_prop in H. destruct H as [C H].
  apply andb_prop in H. destruct H as [D _]. apply negb_true_iff in A, B, C, D.
  exists k0, k1. split; [reflexivity|]. split.
  - destruct H0 as (L & X & Y). split; [exact L|]. rewrite (E 10%nat A), (E 11%nat B). split; assumption.
  - destruct H1 as (L & X & Y). split; [exact L|]. rewrite (E 12%nat C), (E 13%nat D). split; assumption.
Qed.
Lemma key34 r g S k : BS r S -> KG g k -> BS (fst (sx (xt_key 22 23 24 25) (r, g))) (xor_at 24 S k).
Proof.
  intros (a0 & a1 & a2 & a3 & a4 & -> & [H0 H1 H2 H3 H4]) (k0 & k1 & -> & (Z0 & A0 & B0) & (Z1 & A1 & B1)).
  exists a0, a1, a2, (xor_into a3 k0), (xor_into a4 k1). split.
  - apply cat_xor24; [apply H0|apply H1|apply H2|apply H3|exact Z0].
  - constructor; [exact H0|exact H1|exact H2| |].
    + apply (wdx r 22 23 _ a3 k0 (g 10%nat) (g 11%nat))%nat; try assumption; reflexivity.
    + apply (wdx r 24 25 _ a4 k1 (g 12%nat) (g 13%nat))%nat; try assumption; reflexivity.
Qed.
Lemma key23 r g S k : BS r S -> KG g k -> BS (fst (sx (xt_key 20 21 22 23) (r, g))) (xor_at 16 S k).
Proof.
  intros (a0 & a1 & a2 & a3 & a4 & -> & [H0 H1 H2 H3 H4]) (k0 & k1 & -> & (Z0 & A0 & B0) & (Z1 & A1 & B1)).
  exists a0, a1, (xor_into a2 k0), (xor_into a3 k1), a4. split.
  - apply cat_xor16; [apply H0|apply H1|apply H2|apply H3|exact Z0|exact Z1].
  - constructor; [exact H0|exact H1| | |exact H4].
    + apply (wdx r 20 21 _ a2 k0 (g 10%nat) (g 11%nat))%nat; try assumption; reflexivity.
    + apply (wdx r 22 23 _ a3 k1 (g 12%nat) (g 13%nat))%nat; try assumption; reflexivity.
Qed.
(** Two states: in the registers, and with the part on the stack *)
Lemma BS_regs l r r' S : except l r r' -> forallb (fun i => negb (memb i l)) sregs = true -> BS r S -> BS r' S.
Proof. intros E H. exact (SS_except be_num hi_n lo_n r r' l S E H). Qed.
Lemma sep_val r S : BS r S -> BS (setr (setr r 6 1) 25 (N.lxor (r 25%nat) 1)) (xor_at 39 S [sep_of P]).
Proof.
  intros (a0 & a1 & a2 & a3 & a4 & -> & [H0 H1 H2 H3 H4]).
  set (q := fun i : nat => if Nat.eqb i 28 then hi be_num hi_n [x00; x00; x00; x00; x00; x00; x00; x01] else lo be_num lo_n [x00; x00; x00; x00; x00; x00; x00; x01]).
  assert (L4 : length a4 = 8%nat) by apply H4.
  assert (E : xor_at 7 a4 [sep_of P] = xor_into a4 [x00; x00; x00; x00; x00; x00; x00; x01]).
  { clear - L4. do 9 (destruct a4 as [|? a4]; [try discriminate L4|]); [|discriminate L4].
    unfold xor_at. cbn [firstn skipn app xor_into]. rewrite !bxor_x00_r. reflexivity. }
  exists a0, a1, a2, a3, (xor_at 7 a4 [sep_of P]). split.
  - unfold cat5.
    replace (a0 ++ a1 ++ a2 ++ a3 ++ a4) with ((a0 ++ a1 ++ a2 ++ a3) ++ a4) by (rewrite <- !app_assoc; reflexivity).
    assert (Lx : length (a0 ++ a1 ++ a2 ++ a3) = 32%nat) by (rewrite !app_length; destruct H0, H1, H2, H3; lia).
    rewrite (xor_at_skip 32) by (try exact Lx; lia). rewrite <- !app_assoc. reflexivity.
  - constructor; [exact H0|exact H1|exact H2|exact H3|]. rewrite E.
    apply (wdx r 24 25 _ a4 [x00; x00; x00; x00; x00; x00; x00; x01] 0 1)%nat; try assumption; try reflexivity.
    unfold setr. cbn [Nat.eqb]. rewrite N.lxor_0_r. reflexivity.
Qed.

Section core.
Variable lab : N -> N.
Hypothesis Hlab : forall n, fits 32 (lab n).
Variable F : N.
Notation frm := (frame F 96 4).
Notation inv := (XtMode.inv F).
Notation xpre := (XtMode.xpre F).

(** ascon_permute_noload called *)
Lemma xnoload_ok K (a : bool) ln r g S M : oks 96 4 K (stores xt_state) = true ->
  frm K g M -> r 2%nat = F -> rok r -> BS r S -> r 6%nat = (if a then 0xf0 else 0xb4) -> r 30%nat = N.of_nat (rounds_of a) ->
  exists r' g' M', runs (call 1 (lab ln) (permute_noload xt_round xt_state) r) M M' r' /\ frm (grows K (stores xt_state)) g' M' /\
    near F 96 M M' /\ except (sregs ++ [1; 6; 28; 29; 30]%nat) r r' /\ except slots g g' /\ rok r' /\ r' 2%nat = F /\
    BS r' (p_be (rounds_of a) S).
Proof.
  intros HK HF H2 Hr HS H6 H30.
  set (r1 := setr r 1 (lab ln)).
  assert (Hr1 : rok r1) by (apply rok_set; [exact Hr|discriminate|apply Hlab]).
  assert (E1 : except [1]%nat r r1) by (unfold r1; exs).
  assert (HS1 : BS r1 S) by (apply (BS_regs [1]%nat r r1 S E1); [reflexivity|exact HS]).
  destruct (permute_noload_ok F 96 4 K xt_round xt_state a r1 g (ldstate be_num S) M check_xt HK HF H2 Hr1
    (SS_W _ _ _ _ _ HS1) H6 H30) as (r2 & M2 & R2 & W2 & Hr2 & E2 & F2 & N2).
  set (g2 := snd (sx (stores xt_state) (r2, g))) in *.
  exists r2, g2, M2. split; [|split; [exact F2|split; [exact N2|split; [|split; [|split; [exact Hr2|split]]]]]].
  - apply st_call; [exact R2|]. rewrite (E2 1%nat eq_refl). reflexivity.
  - apply except_trans with r1; [apply (except_sub [1]%nat); [reflexivity|exact E1]|].
    apply (except_sub (sregs ++ [6; 28; 29; 30]%nat)); [reflexivity|exact E2].
  - unfold g2. exs.
  - rewrite (E2 2%nat eq_refl). exact H2.
  - apply W_BS; [exact W2|exact (BS_len _ _ HS)].
Qed.

(** ** Initialisation, l.370-434 *)
Definition KS : list nat := [16; 17; 19; 20; 21; 23]%nat.
Definition KA : list nat := 16%nat :: 17%nat :: KC.
Definition sv : list ins := [s32i 1 2 92; s32i 6 2 76; s32i 30 2 80; s32i 28 2 84; s32i 29 2 64; s32i 8 2 68].
Definition kv : list ins := [s32i 28 2 40; s32i 29 2 44; s32i 24 2 48; s32i 25 2 52; mov 18 28; mov 19 29; mov 20 24; mov 21 25; mov 6 9].
Definition iv12 : list ins := [mov 22 28; mov 23 29; movi 8 0x80800c08; movi 9 0] ++ xt_perm true.
Lemma init_ok r M kp k n : rok r -> r 2%nat = F + 112 -> F + 120 < 2 ^ 32 -> writable M F 96 ->
  readable M (F + 112) (le_bytes 4 kp) -> fits 32 kp ->
  readable M kp k -> length k = 16%nat -> kp + 16 < 2 ^ 32 -> disjoint F 96 kp 16 ->
  readable M (r 9%nat) n -> length n = 16%nat -> r 9%nat + 16 < 2 ^ 32 -> disjoint F 96 (r 9%nat) 16 ->
  exists r' g M', runs (xt_core_init lab r) M M' r' /\ inv KA r' g M' (d_init P k n) /\ BS r' (d_init P k n) /\ near F 96 M M' /\ KG g k /\
    g 19%nat = r 6%nat /\ g 20%nat = r 30%nat /\ g 21%nat = r 28%nat /\ g 16%nat = r 29%nat /\ g 17%nat = r 8%nat /\ g 23%nat = r 1%nat.
Proof.
  intros Hr H2 Hb Hw Qp Fp Qk Lk Bk Dk Qn Ln Bn Dn.
  destruct (split16 n Ln) as (n0 & n1 & -> & N0 & N1). destruct (split16 k Lk) as (k0 & k1 & -> & K0 & K1).
  set (r1 := setr r 2 F).
  assert (Hr1 : rok r1) by (apply rok_set; [exact Hr|discriminate|unfold fits; lia]).
  assert (F0 : frm [] (fun _ => 0) M).
  { constructor; [intros j HK; discriminate HK|intros j; apply fits_0|exact Hw|lia]. }
  destruct (sx_ok F 96 4 sv [] eq_refl r1 (fun _ => 0) M F0 eq_refl Hr1) as (M1 & R1 & F1 & N1' & _ & _).
  change (fst (sx sv (r1, fun _ : nat => 0))) with r1 in R1. set (g1 := snd (sx sv (r1, fun _ => 0))) in *.
  set (K1' := grows [] sv) in F1.
  set (r2 := setr r1 6 kp).
  assert (Hr2 : rok r2) by (apply rok_set; [exact Hr1|discriminate|exact Fp]).
  assert (R2 : runs (exec [l32i 6 2 112] r1) M1 M1 r2).
  { apply (st_lu 6 2 112 (le_bytes 4 kp) _ _ _ _ _ (F + 112)); [reflexivity|lia| |apply length_le_bytes|].
    - apply (near_readable F 96 M); [exact N1'|exact Qp| |lia]. unfold disjoint. lia.
    - rewrite le_num_4 by exact Fp. apply st_nil. }
  destruct (load_ok lab Hlab 6 385 r2 M1 k0 k1 Hr2) as (r3 & R3 & T0 & T1 & Hr3 & E3).
  { change (r2 6%nat) with kp. apply (near_readable F 96 M); [exact N1'|exact Qk|unfold len; rewrite Lk; exact Dk|lia]. }
  { exact K0. } { exact K1. } { exact Bk. } { reflexivity. }
  assert (H23 : r3 2%nat = F) by (rewrite (E3 2%nat eq_refl); reflexivity).
  destruct (sx_ok F 96 4 kv K1' eq_refl r3 g1 M1 F1 H23 Hr3) as (M4 & R4 & F4 & N4 & Hr4 & H24).
  set (r4 := fst (sx kv (r3, g1))) in *. set (g4 := snd (sx kv (r3, g1))) in *. set (K4 := grows K1' kv) in *.
  assert (E46 : r4 6%nat = r 9%nat) by (change (r4 6%nat) with (r3 9%nat); exact (E3 9%nat eq_refl)).
  assert (N04 : near F 96 M M4) by (apply near_trans with M1; assumption).
  destruct (load_ok lab Hlab 6 404 r4 M4 n0 n1 Hr4) as (r5 & R5 & U0 & U1 & Hr5 & E5).
  { rewrite E46. apply (near_readable F 96 M); [exact N04|exact Qn|unfold len; rewrite Ln; exact Dn|lia]. }
  { exact N0. } { exact N1. } { rewrite E46. exact Bn. } { reflexivity. }
  assert (H25 : r5 2%nat = F) by (rewrite (E5 2%nat eq_refl); exact H24).
  destruct (sx_ok F 96 4 iv12 K4 eq_refl r5 g4 M4 F4 H25 Hr5) as (M6 & R6 & F6 & N6 & Hr6 & H26).
  set (r6 := fst (sx iv12 (r5, g4))) in *. change (snd (sx iv12 (r5, g4))) with g4 in F6. change (grows K4 iv12) with K4 in F6.
  destruct (l_iv be_num hi_n lo_n rv32b P laws_rv32b) as (I1 & I2 & I3).
  assert (HS6 : BS r6 (iv_of P ++ (k0 ++ k1) ++ n0 ++ n1)).
  { exists (iv_of P), k0, k1, n0, n1. split; [unfold cat5; rewrite <- app_assoc; reflexivity|].
    constructor.
    - split; [exact I3|split; [exact I1|exact I2]].
    - destruct T0 as (L & X & Y). split; [exact L|].
      change (r6 18%nat) with (r5 18%nat). change (r6 19%nat) with (r5 19%nat). rewrite (E5 18%nat eq_refl), (E5 19%nat eq_refl). split; [exact X|exact Y].
    - destruct T1 as (L & X & Y). split; [exact L|].
      change (r6 20%nat) with (r5 20%nat). change (r6 21%nat) with (r5 21%nat). rewrite (E5 20%nat eq_refl), (E5 21%nat eq_refl). split; [exact X|exact Y].
    - exact U0.
    - exact U1. }
  assert (HK4 : KG g4 (k0 ++ k1)) by (exists k0, k1; split; [reflexivity|]; split; [exact T0|exact T1]).
  destruct (xnoload_ok K4 true 415 r6 g4 _ M6 eq_refl F6 H26 Hr6 HS6 eq_refl eq_refl) as (r7 & g7 & M7 & R7 & F7 & N7 & E7 & G7 & Hr7 & H27 & HS7).
  change (rounds_of true) with 12%nat in HS7.
  assert (HK7 : KG g7 (k0 ++ k1)) by (apply (KG_keep slots g4 g7 _ G7); [reflexivity|exact HK4]).
  set (K7 := grows K4 (stores xt_state)) in *.
  destruct (sx_ok F 96 4 (xt_key 22 23 24 25) K7 eq_refl r7 g7 M7 F7 H27 Hr7) as (M8 & R8 & F8 & N8 & Hr8 & H28).
  pose proof (key34 r7 g7 _ _ HS7 HK7) as HS8. set (r8 := fst (sx (xt_key 22 23 24 25) (r7, g7))) in *.
  change (snd (sx (xt_key 22 23 24 25) (r7, g7))) with g7 in F8.
  destruct (sx_ok F 96 4 (stores xt_state) (grows K7 (xt_key 22 23 24 25)) eq_refl r8 g7 M8 F8 H28 Hr8) as (M9 & R9 & F9 & N9 & _ & _).
  rewrite stores_fst in R9. pose proof (BS_stored r8 g7 _ HS8) as HS9.
  set (g9 := snd (sx (stores xt_state) (r8, g7))) in *.
  assert (G9 : except slots g7 g9) by (unfold g9; exs).
  assert (G49 : except slots g4 g9) by (apply except_trans with g7; assumption).
  exists r8, g9, M9. split; [|split; [|split; [exact HS8|split; [|split]]]].
  - unfold xt_core_init.
    apply st_then with (M1 := M1) (r1 := r2).
    { apply st_op; [reflexivity|]. cbn [fev]. rewrite H2, trunc_sub by lia. replace (F + 112 - 112) with F by lia.
      apply (st_app sv [l32i 6 2 112] _ _ M1 _ r1); assumption. }
    apply st_then with (M1 := M1) (r1 := r3); [exact R3|]. apply st_then with (M1 := M4) (r1 := r4); [exact R4|].
    apply st_then with (M1 := M4) (r1 := r5); [exact R5|]. apply st_then with (M1 := M6) (r1 := r6); [exact R6|].
    apply st_then with (M1 := M7) (r1 := r7); [exact R7|]. apply st_then with (M1 := M8) (r1 := r8); [exact R8|exact R9].
  - constructor; [|exact H28|exact Hr8|exact HS9]. apply (frame_sub _ _ _ _ KA) in F9; [exact F9|reflexivity].
  - apply near_trans with M4; [exact N04|]. apply near_trans with M6; [exact N6|]. apply near_trans with M7; [exact N7|].
    apply near_trans with M8; assumption.
  - apply (KG_keep slots g4 g9 _ G49); [reflexivity|exact HK4].
  - rewrite (G49 19%nat eq_refl), (G49 20%nat eq_refl), (G49 21%nat eq_refl), (G49 16%nat eq_refl), (G49 17%nat eq_refl), (G49 23%nat eq_refl).
    split; [reflexivity|]. split; [reflexivity|]. split; [reflexivity|]. split; [reflexivity|]. split; reflexivity.
Qed.

(** ** Associated data, l.436-451 *)
Definition adload : list ins := [l32i 21 2 64; movi 23 0; s32i 23 2 72].
Definition sepcode : list ins := [movi 6 1; xor 25 25 6; s32i 25 2 36].
Definition gad : list nat := 18%nat :: gtmp.
Lemma x4l_eq r g S : BS (mx r g) S -> BS r S -> r 25%nat = g 9%nat.
Proof.
  intros A B. pose proof (SS_W _ _ _ _ _ A) as [_ _ _ _ _ _ _ _ _ EA]. pose proof (SS_W _ _ _ _ _ B) as [_ _ _ _ _ _ _ _ _ EB].
  rewrite EB. symmetry. exact EA.
Qed.
Lemma sep_mx r g S : BS (mx r g) S -> r 25%nat = g 9%nat ->
  BS (mx (fst (sx sepcode (r, g))) (snd (sx sepcode (r, g)))) (xor_at 39 S [sep_of P]).
Proof.
  intros H E. pose proof (sep_val (mx r g) S H) as X.
  change (mx r g 25%nat) with (g 9%nat) in X. rewrite <- E in X. revert X. apply BS_ext. intros i.
  change (fst (sx sepcode (r, g))) with (setr (setr r 6 1) 25 (N.lxor (r 25%nat) 1)).
  change (snd (sx sepcode (r, g))) with (setr g 9 (N.lxor (r 25%nat) 1)).
  rewrite mx_val. unfold setr. rewrite mx_val.
  destruct (Nat.eqb_spec i 25) as [->|]; [reflexivity|]. destruct (Nat.eqb_spec i 24) as [->|]; [reflexivity|].
  destruct (Nat.eqb_spec i 23) as [->|]; [reflexivity|]. destruct (Nat.eqb_spec i 22) as [->|]; [reflexivity|].
  destruct (Nat.eqb_spec i 21) as [->|]; [reflexivity|]. destruct (Nat.eqb_spec i 20) as [->|]; [reflexivity|]. reflexivity.
Qed.
Lemma ad_ok r g M S k ad : inv KA r g M S -> BS r S -> KG g k ->
  readable M (g 16%nat) ad -> g 16%nat + len ad < 2 ^ 32 -> disjoint F 96 (g 16%nat) (len ad) -> g 17%nat = len ad ->
  exists r' g' M', runs (xt_core_ad lab r) M M' r' /\ inv KC r' g' M' (d_ad P S ad) /\ near F 96 M M' /\ except gad g g'.
Proof.
  intros HI HS HK Qa Ba Da La. pose proof HI as [HF H2 Hr HSm].
  destruct (sx_ok F 96 4 [l32i 22 2 68] KA eq_refl r g M HF H2 Hr) as (M1 & R1 & F1 & N1 & Hr1 & H21).
  set (r1 := fst (sx [l32i 22 2 68] (r, g))) in *. change (snd (sx [l32i 22 2 68] (r, g))) with g in F1.
  change (grows KA [l32i 22 2 68]) with KA in F1.
  assert (E1 : except [22]%nat r r1) by exs.
  assert (I1 : inv KA r1 g M1 S).
  { constructor; [exact F1|exact H21|exact Hr1|]. apply (BS_keep [22]%nat [] r r1 g g S E1 (except_refl _ _)); [reflexivity|reflexivity|exact HSm]. }
  set (S2 := match ad with [] => S | _ => perm_of P 8 (d_absorb P (length ad) S ad) end).
  assert (X : exists r2 g2 M2, runs (cond (beqz 22) skip
    (exec adload >>> call 1 (lab 442) (xt_duplex lab) >>> exec (xt_perm false) >>> call 1 (lab 446) (permute xt_round xt_state)) r1) M1 M2 r2 /\
    inv KC r2 g2 M2 S2 /\ r2 25%nat = g2 9%nat /\ near F 96 M1 M2 /\ except gad g g2).
  { assert (C : beqz 22 r1 = (len ad =? 0)) by (unfold beqz; rewrite <- La; reflexivity).
    destruct ad as [|b ad'].
    - exists r1, g, M1. split; [apply st_cond; rewrite C; apply st_skip|].
      split; [apply (inv_sub F KA); [reflexivity|exact I1]|]. split; [|split; [apply near_refl|apply except_refl]].
      rewrite (E1 25%nat eq_refl). exact (x4l_eq r g S HSm HS).
    - set (ad := b :: ad') in *.
      assert (C' : beqz 22 r1 = false) by (rewrite C; unfold ad; rewrite len_cons; apply N.eqb_neq; lia).
      destruct (sx_ok F 96 4 adload KA eq_refl r1 g M1 F1 H21 Hr1) as (M2 & R2 & F2 & N2 & Hr2 & H22).
      set (r2 := fst (sx adload (r1, g))) in *. set (g2 := snd (sx adload (r1, g))) in *.
      assert (E2 : except [21; 23]%nat r1 r2) by exs.
      assert (G2 : except [18]%nat g g2) by exs.
      set (r3 := setr r2 1 (lab 442)).
      assert (Hr3 : rok r3) by (apply rok_set; [exact Hr2|discriminate|apply Hlab]).
      assert (E3 : except [1; 21; 23]%nat r1 r3).
      { apply except_trans with r2; [apply (except_sub [21; 23]%nat); [reflexivity|exact E2]|].
        unfold r3. apply except_set; [reflexivity|apply except_refl]. }
      assert (I3 : inv KM r3 g2 M2 S).
      { constructor; [|exact H22|exact Hr3|].
        - apply (frame_sub _ _ _ _ KM) in F2; [exact F2|reflexivity].
        - apply (BS_keep [1; 21; 23]%nat [18]%nat r1 r3 g g2 S E3 G2); [reflexivity|reflexivity|exact (i_s _ _ _ _ _ _ I1)]. }
      assert (N02 : near F 96 M M2) by (apply near_trans with M1; assumption).
      destruct (duplex_ok lab Hlab F Ab ad r3 g2 S M2 I3) as (r4 & g4 & M4 & R4 & I4 & N4 & _ & _ & G4 & E41).
      { constructor.
        - change (r3 21%nat) with (g 16%nat). apply (near_readable F 96 M); [exact N02|exact Qa|exact Da|lia].
        - exact Ba.
        - exact Da.
        - change (r3 22%nat) with (g 17%nat). exact La.
        - reflexivity.
        - reflexivity.
        - congruence. }
      cbn [wout] in N4.
      set (r5 := fst (sx (xt_perm false) (r4, g4))).
      destruct (sx_ok F 96 4 (xt_perm false) KD eq_refl r4 g4 M4 (i_f _ _ _ _ _ _ I4) (i_2 _ _ _ _ _ _ I4) (i_r _ _ _ _ _ _ I4)) as (M5 & R5 & F5 & N5 & Hr5 & H25).
      fold r5 in R5, Hr5, H25. change (snd (sx (xt_perm false) (r4, g4))) with g4 in F5. change (grows KD (xt_perm false)) with KD in F5.
      assert (E5 : except [6; 30]%nat r4 r5) by (unfold r5; exs).
      assert (I5 : inv KD r5 g4 M5 (d_absorb P (length ad) S ad)).
      { constructor; [exact F5|exact H25|exact Hr5|].
        apply (BS_keep [6; 30]%nat [] r4 r5 g4 g4 _ E5 (except_refl _ _)); [reflexivity|reflexivity|exact (i_s _ _ _ _ _ _ I4)]. }
      destruct (xperm_ok lab Hlab F KD false 446 r5 g4 M5 _ eq_refl I5 eq_refl eq_refl) as (r6 & g6 & M6 & R6 & I6 & N6 & E6 & G6 & HS6).
      exists r6, g6, M6. split; [|split; [apply (inv_sub F KD); [reflexivity|exact I6]|split; [|split]]].
      + apply st_cond. rewrite C'. apply st_then with (M1 := M2) (r1 := r2); [exact R2|].
        apply st_then with (M1 := M4) (r1 := r4); [apply st_call; [exact R4|]; rewrite E41; reflexivity|].
        apply st_then with (M1 := M5) (r1 := r5); [exact R5|exact R6].
      + exact (x4l_eq r6 g6 _ (i_s _ _ _ _ _ _ I6) HS6).
      + apply near_trans with M2; [exact N2|]. apply near_trans with M4; [exact N4|]. apply near_trans with M5; assumption.
      + apply except_trans with g2; [apply (except_sub [18]%nat); [reflexivity|exact G2]|].
        apply except_trans with g4; [apply (except_sub gtmp); [reflexivity|exact G4]|apply (except_sub slots); [reflexivity|exact G6]]. }
  destruct X as (r2 & g2 & M2 & R2 & I2 & E25 & N2 & G2).
  destruct (sx_ok F 96 4 sepcode KC eq_refl r2 g2 M2 (i_f _ _ _ _ _ _ I2) (i_2 _ _ _ _ _ _ I2) (i_r _ _ _ _ _ _ I2)) as (M3 & R3 & F3 & N3 & Hr3 & H23).
  pose proof (sep_mx r2 g2 S2 (i_s _ _ _ _ _ _ I2) E25) as HS3.
  set (r3 := fst (sx sepcode (r2, g2))) in *. set (g3 := snd (sx sepcode (r2, g2))) in *.
  assert (G3 : except gad g2 g3) by exs.
  exists r3, g3, M3. split; [|split; [|split]].
  - unfold xt_core_ad. apply st_then with (M1 := M1) (r1 := r1); [exact R1|].
    apply st_then with (M1 := M2) (r1 := r2); [exact R2|exact R3].
  - constructor; [|exact H23|exact Hr3|exact HS3]. apply (frame_sub _ _ _ _ KC) in F3; [exact F3|reflexivity].
  - apply near_trans with M1; [exact N1|]. apply near_trans with M2; assumption.
  - apply except_trans with g2; assumption.
Qed.

(** ** The text, l.453-496 *)
Definition tload : list ins := [l32i 20 2 76; l32i 21 2 80; l32i 22 2 84].
Definition tsave : list ins := [s32i 20 2 60; s32i 21 2 64] ++ loads xt_state.
Definition tkey : list ins := xt_key 20 21 22 23 ++ xt_perm true.
Lemma text_ok m r g M S k l x : m <> Ab -> inv KC r g M S -> KG g k ->
  readable M (F + 116) (n2b (marg m) :: x) -> F + 120 < 2 ^ 32 ->
  readable M (g 20%nat) l -> g 20%nat + len l < 2 ^ 32 -> disjoint F 96 (g 20%nat) (len l) -> g 21%nat = len l ->
  writable M (g 19%nat) (len l) -> g 19%nat + len l < 2 ^ 32 -> disjoint F 96 (g 19%nat) (len l) ->
  disjoint (g 19%nat) (len l) (g 20%nat) (len l) ->
  let '(S1, out) := dd P m (length l) S l in
  exists r' g' M', runs (xt_core_text lab r) M M' r' /\ frm KD g' M' /\ r' 2%nat = F /\ rok r' /\
    BS r' (xor_at 24 (perm_of P 12 (xor_at 16 S1 k)) k) /\ near F 96 (write M (g 19%nat) out) M' /\
    (exists K', frm K' g' M' /\ subl [15; 16; 18; 23]%nat K' = true) /\
    g' 15%nat = g 19%nat + len l /\ g' 16%nat = g 20%nat + len l /\ g' 18%nat = mdv m /\ g' 23%nat = g 23%nat.
Proof.
  intros Hm HI HK Qm Bm Qi Bi Di Li Wo Bo Do Dio. pose proof HI as [HF H2 Hr HS].
  destruct (sx_ok F 96 4 tload KC eq_refl r g M HF H2 Hr) as (M1 & R1 & F1 & N1 & Hr1 & H21).
  set (r1 := fst (sx tload (r, g))) in *. change (snd (sx tload (r, g))) with g in F1. change (grows KC tload) with KC in F1.
  set (r2 := setr (setr (setr r1 23 (b2n (n2b (marg m)))) 23 (shlw 32 (b2n (n2b (marg m))) 24)) 23 (mdv m)).
  assert (Hr2 : rok r2).
  { unfold r2. apply rok_set; [|discriminate|destruct m; reflexivity]. apply rok_set; [|discriminate|apply fits_shlw].
    apply rok_set; [exact Hr1|discriminate|]. pose proof (b2n_lt (n2b (marg m))). unfold fits. lia. }
  destruct (readable_tail _ _ _ _ Qm) as [Qm1 _].
  assert (R2 : runs (exec [l8ui 23 2 116; slli 23 23 24; srai 23 23 24] r1) M1 M1 r2).
  { apply (st_lbu 23 2 116 (n2b (marg m)) _ _ _ _ _ (F + 116)); [replace (r1 2%nat) with F by (symmetry; exact H21); reflexivity|lia| |].
    - apply (near_readable F 96 M); [exact N1|exact Qm1| |lia]. unfold disjoint. lia.
    - apply st_op; [reflexivity|]. apply st_fn. cbn [fev].
      change (setr r1 23 (b2n (n2b (marg m))) 23%nat) with (b2n (n2b (marg m))).
      change (setr (setr r1 23 (b2n (n2b (marg m)))) 23 (shlw 32 (b2n (n2b (marg m))) 24) 23%nat) with (shlw 32 (b2n (n2b (marg m))) 24).
      replace (if N.testbit (shlw 32 (b2n (n2b (marg m))) 24) 31 then _ else _) with (mdv m); [apply st_nil|].
      destruct m; [congruence|reflexivity|reflexivity]. }
  assert (H22 : r2 2%nat = F) by exact H21.
  destruct (sx_ok F 96 4 [s32i 23 2 72] KC eq_refl r2 g M1 F1 H22 Hr2) as (M3 & R3 & F3 & N3 & _ & _).
  change (fst (sx [s32i 23 2 72] (r2, g))) with r2 in R3. set (g3 := snd (sx [s32i 23 2 72] (r2, g))) in *.
  change (grows KC [s32i 23 2 72]) with KM in F3.
  assert (G3 : except [18]%nat g g3) by exs.
  set (r4 := setr r2 1 (lab 460)).
  assert (Hr4 : rok r4) by (apply rok_set; [exact Hr2|discriminate|apply Hlab]).
  assert (E4 : except [1; 20; 21; 22; 23]%nat r r4) by exs.
  assert (I4 : inv KM r4 g3 M3 S).
  { constructor; [exact F3|exact H22|exact Hr4|].
    apply (BS_keep [1; 20; 21; 22; 23]%nat [18]%nat r r4 g g3 S E4 G3); [reflexivity|reflexivity|exact HS]. }
  assert (N03 : near F 96 M M3) by (apply near_trans with M1; assumption).
  destruct (duplex_ok lab Hlab F m l r4 g3 S M3 I4) as (r5 & g5 & M5 & R5 & I5 & N5 & P20 & P21 & G5 & E51).
  { constructor.
    - change (r4 21%nat) with (g 20%nat). apply (near_readable F 96 M); [exact N03|exact Qi|exact Di|lia].
    - exact Bi.
    - exact Di.
    - exact Li.
    - reflexivity.
    - reflexivity.
    - intros _. change (r4 20%nat) with (g 19%nat). change (r4 21%nat) with (g 20%nat). split; [|split; [exact Bo|split; [exact Dio|exact Do]]].
      apply (near_writable F 96 M); [exact N03|exact Wo]. }
  specialize (P20 Hm). change (r4 20%nat) with (g 19%nat) in *. change (r4 21%nat) with (g 20%nat) in *. change (r4 1%nat) with (lab 460) in E51.
  destruct (dd P m (length l) S l) as [S1 out]. cbn [fst snd] in *.
  replace (wout m M3 (g 19%nat) out) with (write M3 (g 19%nat) out) in N5 by (destruct m; [congruence|reflexivity|reflexivity]).
  pose proof I5 as [F5 H25 Hr5 HS5].
  destruct (sx_ok F 96 4 tsave KD eq_refl r5 g5 M5 F5 H25 Hr5) as (M6 & R6 & F6 & N6 & Hr6 & H26).
  set (r6 := fst (sx tsave (r5, g5))) in *. set (g6 := snd (sx tsave (r5, g5))) in *.
  change (grows KD tsave) with (16 :: 15 :: KD)%nat in F6. set (KE := (16 :: 15 :: KD)%nat) in *.
  assert (HS6 : BS r6 S1) by (apply (BS_ext (mx r5 g5)); [reflexivity|exact HS5]).
  assert (G56 : except [15; 16]%nat g5 g6) by exs.
  assert (HK6 : KG g6 k).
  { apply (KG_keep [15; 16]%nat g5 g6 k G56); [reflexivity|]. apply (KG_keep gtmp g3 g5 k G5); [reflexivity|].
    apply (KG_keep [18]%nat g g3 k G3); [reflexivity|exact HK]. }
  destruct (sx_ok F 96 4 tkey KE eq_refl r6 g6 M6 F6 H26 Hr6) as (M7 & R7 & F7 & N7 & Hr7 & H27).
  set (r7 := fst (sx tkey (r6, g6))) in *. change (snd (sx tkey (r6, g6))) with g6 in F7. change (grows KE tkey) with KE in F7.
  assert (HS7 : BS r7 (xor_at 16 S1 k)).
  { apply (BS_regs [6; 30]%nat (fst (sx (xt_key 20 21 22 23) (r6, g6))) r7); [exs|reflexivity|]. apply key23; assumption. }
  destruct (xnoload_ok KE true 485 r7 g6 _ M7 eq_refl F7 H27 Hr7 HS7 eq_refl eq_refl) as (r8 & g8 & M8 & R8 & F8 & N8 & E8 & G8 & Hr8 & H28 & HS8).
  change (rounds_of true) with 12%nat in HS8.
  assert (HK8 : KG g8 k) by (apply (KG_keep slots g6 g8 k G8); [reflexivity|exact HK6]).
  set (KF := grows KE (stores xt_state)) in *.
  destruct (sx_ok F 96 4 (xt_key 22 23 24 25) KF eq_refl r8 g8 M8 F8 H28 Hr8) as (M9 & R9 & F9 & N9 & Hr9 & H29).
  pose proof (key34 r8 g8 _ k HS8 HK8) as HS9.
  set (r9 := fst (sx (xt_key 22 23 24 25) (r8, g8))) in *. change (snd (sx (xt_key 22 23 24 25) (r8, g8))) with g8 in F9.
  change (grows KF (xt_key 22 23 24 25)) with KF in F9.
  exists r9, g8, M9. split; [|split; [|split; [exact H29|split; [exact Hr9|split; [exact HS9|split; [|split; [|split; [|split; [|split]]]]]]]]].
  - unfold xt_core_text.
    change ([l32i 20 2 76; l32i 21 2 80; l32i 22 2 84; l8ui 23 2 116; slli 23 23 24; srai 23 23 24; s32i 23 2 72])
      with (tload ++ [l8ui 23 2 116; slli 23 23 24; srai 23 23 24] ++ [s32i 23 2 72]).
    change ([s32i 20 2 60; s32i 21 2 64] ++ loads xt_state ++ xt_key 20 21 22 23 ++ xt_perm true) with (tsave ++ tkey).
    apply st_then with (M1 := M3) (r1 := r2).
    { apply st_app with (M1 := M1) (r1 := r1); [exact R1|]. apply st_app with (M1 := M1) (r1 := r2); [exact R2|exact R3]. }
    apply st_then with (M1 := M5) (r1 := r5); [apply st_call; [exact R5|exact E51]|].
    apply st_then with (M1 := M7) (r1 := r7); [apply st_app with (M1 := M6) (r1 := r6); assumption|].
    apply st_then with (M1 := M8) (r1 := r8); [exact R8|exact R9].
  - apply (frame_sub _ _ _ _ KD) in F9; [exact F9|reflexivity].
  - apply near_trans with (write M3 (g 19%nat) out); [apply near_write; exact N03|]. apply near_trans with M5; [exact N5|].
    apply near_trans with M6; [exact N6|]. apply near_trans with M7; [exact N7|]. apply near_trans with M8; assumption.
  - exists KF. split; [exact F9|reflexivity].
  - rewrite (G8 15%nat eq_refl). change (g6 15%nat) with (r5 20%nat). exact P20.
  - rewrite (G8 16%nat eq_refl). change (g6 16%nat) with (r5 21%nat). exact P21.
  - rewrite (G8 18%nat eq_refl), (G56 18%nat eq_refl), (G5 18%nat eq_refl). reflexivity.
  - rewrite (G8 23%nat eq_refl), (G56 23%nat eq_refl), (G5 23%nat eq_refl), (G3 23%nat eq_refl). reflexivity.
Qed.
End core.
