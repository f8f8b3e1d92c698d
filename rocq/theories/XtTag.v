(** * XtTag.v -- the tag, and ascon_core as a whole, of ModelXt.v. *)
From Coq Require Import Bool Arith NArith ZArith List Lia Init.Byte Strings.Byte ZifyBool ZifyNat ZifyN.
From Verif Require Import Words WordFacts Spec SpecFacts Spec12 Spec12Facts StateRep Asm ModelRv ModelXt CMem Contract CMemFacts RvFacts RvRound RvMode RvWords RvInst RvLaws RvCore RvTop XtSpec XtFacts XtHash XtAead XtMode XtCore.
Import ListNotations.
Local Open Scope N_scope.
Local Strategy 1000 [rev8f].
Local Notation P := ascon128a_v12.
Local Notation fold16 := (foldx be_num hi_n lo_n).

Ltac rks := repeat (apply rok_op; [|discriminate|reflexivity]); assumption.
Ltac ops := repeat (apply st_op; [reflexivity|]); apply st_nil.

Section tag.
Variable lab : N -> N.
Hypothesis Hlab : forall n, fits 32 (lab n).
Variable F : N.
Notation frm := (frame F 96 4).
Definition KT : list nat := [15; 16; 18; 23]%nat.

(** ** The tag, l.498-545 *)
Definition tagEn : code :=
  exec [mov 28 22; mov 29 23] >>> call 1 (lab 534) xt_rev8 >>>
  exec [l32i 6 2 60; s32i 28 6 0; s32i 29 6 4; s32i 24 6 8; s32i 25 6 12; movi 6 0].
Lemma tagEn_ok r g M S : frm KT g M -> r 2%nat = F -> rok r -> BS r S ->
  writable M (g 15%nat) 16 -> g 15%nat + 16 < 2 ^ 32 -> disjoint F 96 (g 15%nat) 16 ->
  exists r' M', runs (tagEn r) M M' r' /\ frm KT g M' /\ near F 96 (write M (g 15%nat) (skipn 24 S)) M' /\
    r' 2%nat = F /\ rok r' /\ r' 6%nat = 0.
Proof.
  intros HF H2 Hr HS Hw Hb Hd. pose proof HS as (a0 & a1 & a2 & a3 & a4 & -> & [H0 H1 H2' H3 H4]).
  rewrite skip24 by (try apply H0; try apply H1; apply H2').
  assert (L3 : length a3 = 8%nat) by apply H3. assert (L4 : length a4 = 8%nat) by apply H4.
  set (r1 := setr (setr r 28 (r 22%nat)) 29 (r 23%nat)).
  assert (Hr1 : rok r1) by (unfold r1; repeat (apply rok_set; [|discriminate|apply Hr]); exact Hr).
  destruct (rev8_ok (lab 534) r1 M (Hlab _) Hr1) as (r2 & R2 & V28 & V29 & V24 & V25 & Hr2 & E2).
  assert (H22 : r2 2%nat = F) by (rewrite (E2 2%nat eq_refl); exact H2).
  destruct (sx_ok F 96 4 [l32i 6 2 60] KT eq_refl r2 g M HF H22 Hr2) as (M3 & R3 & F3 & N3 & Hr3 & H23).
  set (r3 := fst (sx [l32i 6 2 60] (r2, g))) in *. change (snd (sx [l32i 6 2 60] (r2, g))) with g in F3.
  change (grows KT [l32i 6 2 60]) with KT in F3.
  assert (V6 : r3 6%nat = g 15%nat) by reflexivity.
  set (T := le_bytes 4 (r3 28%nat) ++ le_bytes 4 (r3 29%nat) ++ le_bytes 4 (r3 24%nat) ++ le_bytes 4 (r3 25%nat)).
  assert (ET : T = a3 ++ a4).
  { unfold T. change (r3 28%nat) with (r2 28%nat). change (r3 29%nat) with (r2 29%nat).
    change (r3 24%nat) with (r2 24%nat). change (r3 25%nat) with (r2 25%nat). rewrite V28, V29, V24, V25.
    change (r1 28%nat) with (r 22%nat). change (r1 29%nat) with (r 23%nat).
    change (r1 24%nat) with (r 24%nat). change (r1 25%nat) with (r 25%nat).
    rewrite app_assoc, (rev_bytes r 22 23 a3 H3), (rev_bytes r 24 25 a4 H4). reflexivity. }
  assert (L16 : len (a3 ++ a4) = 16) by (unfold len; rewrite app_length, L3, L4; reflexivity).
  exists (setr r3 6 0), (write M3 (g 15%nat) (a3 ++ a4)). split; [|split; [|split; [|split; [exact H23|split]]]].
  - unfold tagEn. apply st_then with (M1 := M) (r1 := r1); [ops|].
    apply st_then with (M1 := M) (r1 := r2); [exact R2|].
    change [l32i 6 2 60; s32i 28 6 0; s32i 29 6 4; s32i 24 6 8; s32i 25 6 12; movi 6 0]
      with ([l32i 6 2 60] ++ [s32i 28 6 0; s32i 29 6 4; s32i 24 6 8; s32i 25 6 12; movi 6 0]).
    apply st_app with (M1 := M3) (r1 := r3); [exact R3|].
    apply (store4_ok lab Hlab F 28 29 24 25 6 [movi 6 0] r3 M3);
      [change (writable M3 (g 15%nat) 16); apply (near_writable F 96 M); assumption|change (g 15%nat + 16 < 2 ^ 32); exact Hb|].
    fold T. rewrite ET. change (r3 6%nat) with (g 15%nat). ops.
  - apply frame_out; [exact F3|rewrite L16; exact Hd].
  - apply near_write. exact N3.
  - apply rok_set; [exact Hr3|discriminate|apply fits_0].
  - reflexivity.
Qed.
Definition tagDe : code :=
  exec [mov 8 24; mov 9 25; l32i 6 2 64] >>> xt_load lab 6 513 >>>
  exec [xor 6 22 28; xor 30 23 29; xor 6 6 30; xor 30 8 24; xor 6 6 30; xor 30 9 25; xor 6 6 30] >>>
  cond (beqz 6) (exec [movi 6 0]) (exec [movi 6 (neg 1)]).
Lemma tagDe_ok r g M S T : frm KT g M -> r 2%nat = F -> rok r -> BS r S ->
  readable M (g 16%nat) T -> length T = 16%nat -> g 16%nat + 16 < 2 ^ 32 -> disjoint F 96 (g 16%nat) 16 ->
  exists r' M', runs (tagDe r) M M' r' /\ frm KT g M' /\ near F 96 M M' /\
    r' 2%nat = F /\ rok r' /\ r' 6%nat = (if fold16 (xor_into (skipn 24 S) T) =? 0 then 0 else 0xffffffff).
Proof.
  intros HF H2 Hr HS HT LT Hb Hd. pose proof HS as (a0 & a1 & a2 & a3 & a4 & -> & [H0 H1 H2' H3 H4]).
  rewrite skip24 by (try apply H0; try apply H1; apply H2').
  destruct (split16 T LT) as (t0 & t1 & -> & T0 & T1).
  destruct (sx_ok F 96 4 [mov 8 24; mov 9 25; l32i 6 2 64] KT eq_refl r g M HF H2 Hr) as (M1 & R1 & F1 & N1 & Hr1 & H21).
  set (r1 := fst (sx [mov 8 24; mov 9 25; l32i 6 2 64] (r, g))) in *.
  change (snd (sx [mov 8 24; mov 9 25; l32i 6 2 64] (r, g))) with g in F1.
  change (grows KT [mov 8 24; mov 9 25; l32i 6 2 64]) with KT in F1.
  assert (V6 : r1 6%nat = g 16%nat) by reflexivity.
  destruct (load_ok lab Hlab 6 513 r1 M1 t0 t1 Hr1) as (r2 & R2 & W0 & W1 & Hr2 & E2).
  { rewrite V6. apply (near_readable F 96 M); [exact N1|exact HT|unfold len; rewrite LT; exact Hd|lia]. }
  { exact T0. } { exact T1. } { rewrite V6. exact Hb. } { reflexivity. }
  assert (E22 := E2 22%nat eq_refl). assert (E23 := E2 23%nat eq_refl). assert (E8 := E2 8%nat eq_refl). assert (E9 := E2 9%nat eq_refl).
  change (r1 22%nat) with (r 22%nat) in E22. change (r1 23%nat) with (r 23%nat) in E23.
  change (r1 8%nat) with (r 24%nat) in E8. change (r1 9%nat) with (r 25%nat) in E9.
  destruct W0 as (_ & X0 & Y0). destruct W1 as (_ & X1 & Y1). destruct H3 as (A3 & X3 & Y3). destruct H4 as (A4 & X4 & Y4).
  set (fx := fold16 (xor_into (a3 ++ a4) (t0 ++ t1))).
  assert (EF : fx = N.lxor (N.lxor (N.lxor (N.lxor (r2 22%nat) (r2 28%nat)) (N.lxor (r2 23%nat) (r2 29%nat))) (N.lxor (r2 8%nat) (r2 24%nat)))
                     (N.lxor (r2 9%nat) (r2 25%nat))).
  { unfold fx, foldx. rewrite xor_into_app2 by lia.
    rewrite (firstn_app_exact 8), (skipn_app_exact 8) by (rewrite length_xor_into; exact A3).
    rewrite !(hi_xor be_num hi_n lo_n rv32b P laws_rv32b), !(lo_xor be_num hi_n lo_n rv32b P laws_rv32b) by assumption.
    rewrite E22, E23, E8, E9, X0, Y0, X1, Y1, X3, Y3, X4, Y4. rewrite !N.lxor_assoc. reflexivity. }
  assert (X : exists r3, runs (exec [xor 6 22 28; xor 30 23 29; xor 6 6 30; xor 30 8 24; xor 6 6 30; xor 30 9 25; xor 6 6 30] r2) M1 M1 r3 /\
     r3 6%nat = fx /\ rok r3 /\ except [6; 30]%nat r2 r3).
  { eexists. split; [ops|]. split; [rewrite EF; reflexivity|]. split; [rks|exs]. }
  destruct X as (r3 & R3 & V3 & Hr3 & E3).
  exists (setr r3 6 (if fx =? 0 then 0 else 0xffffffff)), M1.
  split; [|split; [exact F1|split; [exact N1|split; [|split; [|reflexivity]]]]].
  - unfold tagDe. apply st_then with (M1 := M1) (r1 := r1); [exact R1|].
    apply st_then with (M1 := M1) (r1 := r2); [exact R2|]. apply st_then with (M1 := M1) (r1 := r3); [exact R3|].
    apply st_cond. unfold beqz. rewrite V3. destruct (fx =? 0); ops.
  - change (r3 2%nat = F). rewrite (E3 2%nat eq_refl), (E2 2%nat eq_refl). exact H21.
  - apply rok_set; [exact Hr3|discriminate|destruct (fx =? 0); reflexivity].
Qed.

(** ** ascon_core *)
(** What ascon_core demands at its start: key pointer and mode are in
    memory at the stack pointer of the caller. *)
Record xcpre (m : md) (r : regs) (M : mem) (kp : N) (k n ad l T x : bytes) : Prop := {
  c_rok : rok r; c_m : m <> Ab; c_sp : r 2%nat = F + 112; c_fb : F + 120 < 2 ^ 32; c_fw : writable M F 96;
  c_kp : readable M (F + 112) (le_bytes 4 kp); c_kpf : fits 32 kp; c_md : readable M (F + 116) (n2b (marg m) :: x);
  c_n : readable M (r 9%nat) n; c_nl : length n = 16%nat; c_nb : r 9%nat + 16 < 2 ^ 32; c_fn : disjoint F 96 (r 9%nat) 16;
  c_k : readable M kp k; c_kl : length k = 16%nat; c_kb : kp + 16 < 2 ^ 32; c_fk : disjoint F 96 kp 16;
  c_a : readable M (r 29%nat) ad; c_ab : r 29%nat + len ad < 2 ^ 32; c_al : r 8%nat = len ad; c_fa : disjoint F 96 (r 29%nat) (len ad);
  c_i : readable M (r 30%nat) l; c_ib : r 30%nat + len l < 2 ^ 32; c_il : r 28%nat = len l; c_fi : disjoint F 96 (r 30%nat) (len l);
  c_o : writable M (r 6%nat) (room m l); c_ob : r 6%nat + room m l < 2 ^ 32;
  c_oi : disjoint (r 6%nat) (len l) (r 30%nat) (len l); c_fo : disjoint F 96 (r 6%nat) (room m l);
  c_t : m = De -> readable M (r 30%nat + len l) T /\ length T = 16%nat /\ r 30%nat + len l + 16 < 2 ^ 32 /\
    disjoint (r 6%nat) (len l) (r 30%nat + len l) 16 /\ disjoint F 96 (r 30%nat + len l) 16
}.
Lemma core_ok m r M kp k n ad l T x : xcpre m r M kp k n ad l T x ->
  let '(S1, out) := dd P m (length l) (d_ad P (d_init P k n) ad) l in
  exists r' M', runs (xt_core lab r) M M' r' /\ near F 96 (ideal m M (r 6%nat) out (d_tag P k S1)) M' /\
    r' 1%nat = r 1%nat /\ r' 6%nat = verdict be_num hi_n lo_n m (d_tag P k S1) T.
Proof.
  intros [Hr Hm Hsp Fb Fw Qp Fp Qm Qn Ln Bn Dn Qk Lk Bk Dk Qa Ba La Da Qi Bi Li Di Wo Bo Doi Do Ht].
  assert (Wo' : writable M (r 6%nat) (len l)).
  { destruct m; [congruence| |exact Wo]. apply (writable_split M (r 6%nat) (len l) 16). exact Wo. }
  assert (Rl : len l <= room m l) by (clear; destruct m; cbn [room]; lia).
  assert (Bo' : r 6%nat + len l < 2 ^ 32) by (clear - Bo Rl; lia).
  assert (Do' : disjoint F 96 (r 6%nat) (len l)) by (clear - Do Rl; unfold disjoint in *; lia).
  assert (Lsnd := dd_snd_length P m (d_ad P (d_init P k n) ad) l Hm).
  destruct (init_ok lab Hlab F r M kp k n Hr Hsp Fb Fw Qp Fp Qk Lk Bk Dk Qn Ln Bn Dn)
    as (r1 & g1 & M1 & R1 & I1 & HS1 & N1 & K1 & V19 & V20 & V21 & V16 & V17 & V23).
  destruct (ad_ok lab Hlab F r1 g1 M1 (d_init P k n) k ad I1 HS1 K1) as (r2 & g2 & M2 & R2 & I2 & N2 & G2).
  { rewrite V16. apply (near_readable F 96 M); [exact N1|exact Qa|exact Da|lia]. }
  { rewrite V16. exact Ba. } { rewrite V16. exact Da. } { rewrite V17. exact La. }
  assert (N02 : near F 96 M M2) by (apply near_trans with M1; assumption).
  assert (E19 : g2 19%nat = r 6%nat) by (rewrite (G2 19%nat eq_refl); exact V19).
  assert (E20 : g2 20%nat = r 30%nat) by (rewrite (G2 20%nat eq_refl); exact V20).
  assert (E21 : g2 21%nat = r 28%nat) by (rewrite (G2 21%nat eq_refl); exact V21).
  assert (E23 : g2 23%nat = r 1%nat) by (rewrite (G2 23%nat eq_refl); exact V23).
  assert (K2 : KG g2 k) by (apply (KG_keep (18%nat :: gtmp) g1 g2 k G2); [reflexivity|exact K1]).
  assert (X := text_ok lab Hlab F m r2 g2 M2 _ k l x Hm I2 K2).
  rewrite E19, E20, E21 in X.
  specialize (X ltac:(apply (near_readable F 96 M); [exact N02|exact Qm|unfold disjoint; lia|lia]) Fb).
  specialize (X ltac:(apply (near_readable F 96 M); [exact N02|exact Qi|exact Di|lia]) Bi Di Li).
  specialize (X ltac:(apply (near_writable F 96 M); [exact N02|exact Wo']) Bo' Do' Doi).
  destruct (dd P m (length l) (d_ad P (d_init P k n) ad) l) as [S1 out] eqn:Ed. cbn [snd] in Lsnd.
  assert (Lo : len out = len l) by (unfold len; rewrite Lsnd; reflexivity).
  destruct X as (r3 & g3 & M3 & R3 & F3 & H32 & Hr3 & HS3 & N3 & (K' & F3' & SK) & W15 & W16 & W18 & W23).
  assert (F3T : frm KT g3 M3) by (apply (frame_sub _ _ _ K'); [exact SK|exact F3']).
  assert (N03 : near F 96 (write M (r 6%nat) out) M3) by (apply near_trans with (write M2 (r 6%nat) out); [apply near_write; exact N02|exact N3]).
  assert (Etag : skipn 24 (xor_at 24 (perm_of P 12 (xor_at 16 S1 k)) k) = d_tag P k S1).
  { unfold xor_at at 1. apply skipn_app_exact. apply firstn_length_le. rewrite (l_plen be_num hi_n lo_n rv32b P laws_rv32b). lia. }
  destruct (sx_ok F 96 4 [l32i 6 2 72] KT eq_refl r3 g3 M3 F3T H32 Hr3) as (M4 & R4 & F4 & N4 & Hr4 & H42).
  set (r4 := fst (sx [l32i 6 2 72] (r3, g3))) in *. change (snd (sx [l32i 6 2 72] (r3, g3))) with g3 in F4.
  change (grows KT [l32i 6 2 72]) with KT in F4.
  assert (HS4 : BS r4 (xor_at 24 (perm_of P 12 (xor_at 16 S1 k)) k)).
  { apply (BS_regs [6]%nat r3 r4); [unfold r4; exs|reflexivity|exact HS3]. }
  assert (N04 : near F 96 (write M (r 6%nat) out) M4) by (apply near_trans with M3; assumption).
  assert (C4 : bgez 6 r4 = match m with De => false | _ => true end) by (apply bgez_mode; exact W18).
  assert (Y : exists r5 M5, runs (cond (bgez 6) tagEn tagDe r4) M4 M5 r5 /\ frm KT g3 M5 /\
    near F 96 (ideal m M (r 6%nat) out (d_tag P k S1)) M5 /\ r5 2%nat = F /\ rok r5 /\
    r5 6%nat = verdict be_num hi_n lo_n m (d_tag P k S1) T).
  { assert (Dm : m = En \/ m = De) by (destruct m; [congruence|left; reflexivity|right; reflexivity]).
    destruct Dm as [->| ->].
    - cbn [room] in *. destruct (writable_split M (r 6%nat) (len l) 16 Wo) as [_ Wt].
      destruct (tagEn_ok r4 g3 M4 _ F4 H42 Hr4 HS4) as (r5 & M5 & R5 & F5 & N5 & H52 & Hr5 & V6).
      { rewrite W15. apply (near_writable F 96 (write M (r 6%nat) out)); [exact N04|]. apply writable_write. exact Wt. }
      { rewrite W15. clear - Bo; lia. }
      { rewrite W15. clear - Do; unfold disjoint in *; lia. }
      rewrite Etag, W15 in N5.
      exists r5, M5. split; [apply st_cond; rewrite C4; exact R5|]. split; [exact F5|]. split; [|split; [exact H52|split; [exact Hr5|exact V6]]].
      unfold ideal. rewrite write_app, Lo. apply near_trans with (write M4 (r 6%nat + len l) (d_tag P k S1)); [|exact N5].
      apply near_write. exact N04.
    - destruct (Ht eq_refl) as (QT & LT & BT & DT & FT).
      assert (L16 : len T = 16) by (unfold len; rewrite LT; reflexivity).
      destruct (tagDe_ok r4 g3 M4 _ T F4 H42 Hr4 HS4) as (r5 & M5 & R5 & F5 & N5 & H52 & Hr5 & V6).
      { rewrite W16. apply (near_readable F 96 (write M (r 6%nat) out)); [exact N04| |rewrite L16; exact FT|lia].
        apply readable_write_disjoint; [exact QT|rewrite Lo, L16; exact DT]. }
      { exact LT. } { rewrite W16. exact BT. } { rewrite W16. exact FT. }
      rewrite Etag in V6.
      exists r5, M5. split; [apply st_cond; rewrite C4; exact R5|]. split; [exact F5|]. split; [|split; [exact H52|split; [exact Hr5|exact V6]]].
      unfold ideal. apply near_trans with M4; assumption. }
  destruct Y as (r5 & M5 & R5 & F5 & N5 & H52 & Hr5 & V5).
  destruct (sx_ok F 96 4 [l32i 1 2 92] KT eq_refl r5 g3 M5 F5 H52 Hr5) as (M6 & R6 & F6 & N6 & _ & _).
  exists (fst (sx [l32i 1 2 92] (r5, g3))), M6. split; [|split; [|split]].
  - unfold xt_core. apply st_then with (M1 := M1) (r1 := r1); [exact R1|].
    apply st_then with (M1 := M2) (r1 := r2); [exact R2|]. apply st_then with (M1 := M3) (r1 := r3); [exact R3|].
    unfold xt_core_tag. apply st_then with (M1 := M4) (r1 := r4); [exact R4|].
    apply st_then with (M1 := M5) (r1 := r5); [exact R5|exact R6].
  - apply near_trans with M5; assumption.
  - change (g3 23%nat = r 1%nat). rewrite W23. exact E23.
  - exact V5.
Qed.
End tag.
