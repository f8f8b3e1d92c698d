(** * XtHash.v -- the hash functions of ModelXt.v. *)
From Coq Require Import Bool Arith NArith ZArith List Lia Init.Byte Strings.Byte ZifyBool ZifyNat ZifyN.
From Verif Require Import Words WordFacts Spec SpecFacts Spec12 Asm ModelRv ModelXt CMem Contract CMemFacts RvFacts RvRound RvMode RvWords RvInst RvLaws XtSpec XtFacts.
Import ListNotations.
Local Open Scope N_scope.
Local Strategy 1000 [rev8f].

Notation BW := (Wd be_num hi_n lo_n).
Notation BS := (SS be_num hi_n lo_n).

Lemma BS_ext r r' S : (forall i, r' i = r i) -> BS r S -> BS r' S.
Proof.
  intros E H. apply (SS_except be_num hi_n lo_n r r' [] S); [intros i _; apply E|reflexivity|exact H].
Qed.
Lemma W_BS n r S : W hi_n lo_n r (perm n (ldstate be_num S)) -> length S = 40%nat -> BS r (p_be n S).
Proof. intros H L. apply W_SS; [apply length_p_be|]. rewrite be_pst by exact L. exact H. Qed.

(** ** Reversal *)
Lemma rev8_half_ok a r M : fits 32 a -> rok r ->
  exists r', runs (call 1 a xh_rev8_half r) M M r' /\ r' 28%nat = rev8f (r 28%nat) /\ r' 29%nat = rev8f (r 29%nat) /\ rok r' /\
    except [1; 6; 28; 29]%nat r r'.
Proof.
  intros Ha Hr. set (r0 := setr r 1 a).
  assert (Hr0 : rok r0) by (apply rok_set; [exact Hr|discriminate|exact Ha]).
  destruct (xrev8_ok 28 28 r0 M Hr0) as (r1 & R1 & V1 & E1 & Hr1); [discriminate|lia|discriminate|].
  destruct (xrev8_ok 29 29 r1 M Hr1) as (r2 & R2 & V2 & E2 & Hr2); [discriminate|lia|discriminate|].
  exists r2. split; [|split; [|split; [|split; [exact Hr2|]]]].
  - apply st_call.
    + unfold xh_rev8_half. apply st_app with (M1 := M) (r1 := r1); assumption.
    + rewrite (E2 1%nat eq_refl), (E1 1%nat eq_refl). reflexivity.
  - rewrite (E2 28%nat eq_refl), V1. reflexivity.
  - rewrite V2, (E1 29%nat eq_refl). reflexivity.
  - apply except_trans with r0; [unfold r0; exs|]. apply except_trans with r1.
    + apply (except_sub [6; 28]%nat); [reflexivity|exact E1].
    + apply (except_sub [6; 29]%nat); [reflexivity|exact E2].
Qed.

(** 8 bytes at [p] into t0 *)
Lemma load8_ok a b r M l : fits 32 a -> rok r -> readable M (r b) l -> length l = 8%nat -> r b + 8 < 2 ^ 32 ->
  memb b [0; 1; 6; 28; 29]%nat = false ->
  exists r', runs ((exec [l32i 28 b 0; l32i 29 b 4] >>> call 1 a xh_rev8_half) r) M M r' /\ BW r' 28 29 l /\ rok r' /\
    except [1; 6; 28; 29]%nat r r'.
Proof.
  intros Ha Hr HR L Hb Hm.
  destruct (split44 l L) as (El & L1 & L2). set (l1 := firstn 4 l) in *. set (l2 := skipn 4 l) in *.
  assert (HR' := HR). rewrite El in HR'. destruct (readable_app M (r b) l1 l2 HR') as [Q1 Q2].
  set (r1 := setr (setr r 28 (le_num l1)) 29 (le_num l2)).
  assert (Hr1 : rok r1).
  { unfold r1. repeat (apply rok_set; [|discriminate|]); [exact Hr|apply fits_le4, L1|apply fits_le4, L2]. }
  destruct (rev8_half_ok a r1 M Ha Hr1) as (r2 & R2 & V1 & V2 & Hr2 & E2).
  pose proof (be_To l L) as T. fold l1 l2 in T.
  change (r1 28%nat) with (le_num l1) in V1. change (r1 29%nat) with (le_num l2) in V2.
  exists r2. split; [|split; [|split; [exact Hr2|]]].
  - apply st_then with (M1 := M) (r1 := r1); [|exact R2].
    apply (st_lu 28 b 0 l1 _ _ _ _ _ (r b)); [lia|lia|exact Q1|exact L1|].
    assert (NB : setr r 28 (le_num l1) b = r b).
    { unfold setr. destruct (Nat.eqb_spec b 28) as [->|]; [discriminate Hm|reflexivity]. }
    apply (st_lu 29 b 4 l2 _ _ _ _ _ (r b + 4)); [rewrite NB; reflexivity|lia| |exact L2|apply st_nil].
    unfold len in Q2. rewrite L1 in Q2. exact Q2.
  - split; [exact L|]. unfold hi, lo. rewrite V1, V2. injection T as T1 T2. split; assumption.
  - apply except_trans with r1; [unfold r1; exs|exact E2].
Qed.

Lemma rev_bytes r h l a : BW r h l a -> le_bytes 4 (rev8f (r h)) ++ le_bytes 4 (rev8f (r l)) = a.
Proof.
  intros (L & A & B). destruct (split44 a L) as (Ea & H1 & H2). rewrite A, B. unfold hi, lo.
  pose proof (be_From a L) as E. injection E as -> ->. rewrite !le_bytes_le_num by assumption. symmetry. exact Ea.
Qed.
Lemma store2_ok x y b l r M M' r' : writable M (r b) 8 -> r b + 8 < 2 ^ 32 ->
  runs (exec l r) (write M (r b) (le_bytes 4 (r x) ++ le_bytes 4 (r y))) M' r' ->
  runs (exec (s32i x b 0 :: s32i y b 4 :: l) r) M M' r'.
Proof.
  intros Hw Hb H. destruct (writable_split M (r b) 4 4 Hw) as [W1 W2].
  apply (st_su x b 0 _ _ _ _ _ (r b)); [lia|lia|exact W1|].
  apply (st_su y b 4 _ _ _ _ _ (r b + 4)); [lia|lia|apply writable_write; exact W2|].
  rewrite write_app in H. unfold len in H. rewrite length_le_bytes in H. exact H.
Qed.
Lemma frame_buf F n lo K g M : frame F n lo K g M -> 4 * N.of_nat lo <= n -> writable M F (4 * N.of_nat lo).
Proof.
  intros HF Hn. pose proof (f_w HF) as W. replace n with (4 * N.of_nat lo + (n - 4 * N.of_nat lo)) in W by lia.
  apply (writable_split _ _ _ _ W).
Qed.

Section hash.
Variable lab : N -> N.
Hypothesis Hlab : forall n, fits 32 (lab n).
Variable F : N.
(** Slots: output pointer; x2l, x3h of the state; output length; return address *)
Notation KH := [2; 5; 6; 9; 11]%nat.
Notation KH' := [8; 3; 2; 5; 6; 9; 11]%nat.
Notation frm := (frame F 48 2 KH).
Notation mh := (mrg xh_state).

Lemma mh_val r g i : mh r g i = if Nat.eqb i 22 then g 6%nat else if Nat.eqb i 21 then g 5%nat else r i.
Proof. reflexivity. Qed.
Lemma mh_except l r r' g g' : except l r r' -> g' 5%nat = g 5%nat -> g' 6%nat = g 6%nat -> except l (mh r g) (mh r' g').
Proof.
  intros E H5 H6 i Hi. rewrite !mh_val, H5, H6. destruct (Nat.eqb i 22); [reflexivity|]. destruct (Nat.eqb i 21); [reflexivity|].
  apply E, Hi.
Qed.
(** XOR of a block into x0 *)
Lemma xor0_ok r g S l M : rok r -> BS (mh r g) S -> BW r 28 29 l ->
  exists r', runs (exec [xor 8 8 28; xor 9 9 29] r) M M r' /\ BS (mh r' g) (xor_into S l) /\ rok r' /\ except [8; 9]%nat r r'.
Proof.
  intros Hr (a0 & a1 & a2 & a3 & a4 & -> & [H0 H1 H2 H3 H4]) (L & A & B).
  eexists. split; [|split; [|split]].
  - do 2 (apply st_op; [reflexivity|]). apply st_nil.
  - exists (xor_into a0 l), a1, a2, a3, a4. split.
    + unfold cat5. rewrite xor_into_app_l by (destruct H0; lia). reflexivity.
    + constructor; [|exact H1|exact H2|exact H3|exact H4].
      apply (Wd_xor be_num hi_n lo_n rv32b ascon128a_v12 laws_rv32b (mh r g) 8 9 _ a0 l (r 28%nat) (r 29%nat));
        try assumption; reflexivity.
  - repeat (apply rok_op; [|discriminate|reflexivity]). exact Hr.
  - exs.
Qed.

(** l.233-242, l.287-296 *)
Lemma step_ok ln r g S M : frm g M -> r 2%nat = F -> rok r -> BS (mh r g) S -> r 21%nat + 8 < 2 ^ 32 -> 8 <= r 22%nat ->
  exists r' g' M', runs (xh_step lab ln r) M M' r' /\ frm g' M' /\ near F 48 M M' /\ rok r' /\ r' 2%nat = F /\
    BS (mh r' g') (p_be 12 S) /\ r' 21%nat = r 21%nat + 8 /\ r' 22%nat = r 22%nat - 8 /\
    g' 2%nat = g 2%nat /\ g' 9%nat = g 9%nat /\ g' 11%nat = g 11%nat.
Proof.
  intros HF H2 Hr HS Hb Hl.
  destruct (sx_ok F 48 2 ([s32i 21 2 12; s32i 22 2 32] ++ PB) KH eq_refl r g M HF H2 Hr) as (M1 & R1 & F1 & N1 & Hr1 & H21).
  set (x1 := sx ([s32i 21 2 12; s32i 22 2 32] ++ PB) (r, g)) in *.
  set (r1 := fst x1) in *. set (g1 := snd x1) in *.
  assert (E1 : except [6; 30]%nat r r1) by exs.
  set (r2 := setr r1 1 (lab ln)).
  assert (Hr2 : rok r2) by (apply rok_set; [exact Hr1|discriminate|apply Hlab]).
  assert (HS2 : BS (mh r2 g1) S).
  { apply (SS_except _ _ _ (mh r g) _ [1; 6; 30]%nat); [|reflexivity|exact HS].
    apply mh_except; [|reflexivity|reflexivity]. apply except_set; [reflexivity|]. apply (except_sub [6; 30]%nat); [reflexivity|exact E1]. }
  assert (L : length S = 40%nat) by exact (SS_length _ _ _ _ _ HS).
  destruct (permute_ok F 48 2 KH' xh_round xh_state true r2 g1 (ldstate be_num S) M1 check_xh eq_refl eq_refl eq_refl F1 H21 Hr2
    (SS_W _ _ _ _ _ HS2) eq_refl eq_refl) as (r3 & M3 & R3 & W3 & Hr3 & E3 & F3 & N3).
  set (g3 := snd (sx (stores xh_state) (r3, g1))) in *.
  assert (HS3 : BS (mh r3 g3) (p_be 12 S)).
  { apply (BS_ext r3); [|apply W_BS; [exact W3|exact L]].
    intros i. rewrite mh_val. change (g3 6%nat) with (r3 22%nat). change (g3 5%nat) with (r3 21%nat).
    destruct (Nat.eqb_spec i 22) as [->|]; [reflexivity|]. destruct (Nat.eqb_spec i 21) as [->|]; reflexivity. }
  assert (H23 : r3 2%nat = F) by (rewrite (E3 2%nat eq_refl); exact H21).
  set (fin := [l32i 21 2 12; l32i 22 2 32; addi 21 21 8; addi 22 22 (neg 8)]).
  destruct (sx_ok F 48 2 fin KH' eq_refl r3 g3 M3 F3 H23 Hr3) as (M4 & R4 & F4 & N4 & Hr4 & H24).
  set (x4 := sx fin (r3, g3)) in *. set (r4 := fst x4) in *.
  change (snd x4) with g3 in F4. apply (frame_sub _ _ _ _ KH) in F4; [|reflexivity].
  exists r4, g3, M4.
  split; [|split; [exact F4|split; [|split; [exact Hr4|split; [exact H24|split; [|split; [|split; [|repeat split]]]]]]]].
  - unfold xh_step. apply st_then with (M1 := M1) (r1 := r1); [exact R1|].
    apply st_then with (M1 := M3) (r1 := r3); [|exact R4].
    apply st_call; [exact R3|]. rewrite (E3 1%nat eq_refl). reflexivity.
  - apply near_trans with M1; [exact N1|]. apply near_trans with M3; assumption.
  - apply (SS_except _ _ _ (mh r3 g3) _ []); [|reflexivity|exact HS3].
    intros i _. rewrite !mh_val. destruct (Nat.eqb_spec i 22) as [->|D1]; [reflexivity|].
    destruct (Nat.eqb_spec i 21) as [->|D2]; [reflexivity|].
    change (r4 i) with (setr (setr (setr (setr r3 21 (g3 3%nat)) 22 (g3 8%nat)) 21 (trunc 32 (g3 3%nat + 8))) 22 (trunc 32 (g3 8%nat + neg 8)) i).
    unfold setr. apply Nat.eqb_neq in D1, D2. rewrite D1, D2. reflexivity.
  - change (r4 21%nat) with (trunc 32 (r 21%nat + 8)). apply trunc_add, Hb.
  - change (r4 22%nat) with (trunc 32 (r 22%nat + neg 8)). apply trunc_sub; [exact Hl|apply Hr|lia].
Qed.

(** ** Absorbing: l.224-245 *)
Definition abody : code :=
  exec [l32i 28 21 0; l32i 29 21 4] >>> call 1 (lab 228) xh_rev8_half >>> exec [xor 8 8 28; xor 9 9 29] >>> xh_step lab 237.
Lemma then_assoc (f g h : code) r M M' r' : runs (((f >>> g) >>> h) r) M M' r' -> runs ((f >>> g >>> h) r) M M' r'.
Proof.
  intros (t & H). revert H. unfold andthen, runs, bind.
  destruct (f r M) as [t1 M1 q1|]; [|discriminate]. destruct (g q1 M1) as [t2 M2 q2|]; [|discriminate].
  destruct (h q2 M2) as [t3 M3 q3|]; [|discriminate]. intros H. injection H as <- <- <-. eexists. reflexivity.
Qed.
Lemma abody_ok r g S b l M : frm g M -> r 2%nat = F -> rok r -> BS (mh r g) S -> readable M (r 21%nat) (b ++ l) ->
  length b = 8%nat -> r 21%nat + len (b ++ l) < 2 ^ 32 -> disjoint F 48 (r 21%nat) (len (b ++ l)) -> r 22%nat = len (b ++ l) ->
  exists r' g' M', runs (abody r) M M' r' /\ frm g' M' /\ near F 48 M M' /\ rok r' /\ r' 2%nat = F /\
    BS (mh r' g') (p_be 12 (xor_into S b)) /\ r' 21%nat = r 21%nat + 8 /\ r' 22%nat = len l /\ readable M' (r 21%nat + 8) l /\
    g' 2%nat = g 2%nat /\ g' 9%nat = g 9%nat /\ g' 11%nat = g 11%nat.
Proof.
  intros HF H2 Hr HS HR Lb Hb Hd H22.
  assert (Lb' : len b = 8) by (unfold len; lia). rewrite len_app in *.
  destruct (readable_app M _ _ _ HR) as [Rb Rl]. rewrite Lb' in *.
  destruct (load8_ok (lab 228) 21 r M b (Hlab _) Hr Rb Lb) as (r1 & R1 & V1 & Hr1 & E1); [lia|reflexivity|].
  assert (HS1 : BS (mh r1 g) S).
  { apply (SS_except _ _ _ (mh r g) _ [1; 6; 28; 29]%nat); [|reflexivity|exact HS]. apply mh_except; [exact E1|reflexivity|reflexivity]. }
  destruct (xor0_ok r1 g S b M Hr1 HS1 V1) as (r2 & R2 & HS2 & Hr2 & E2).
  assert (E : except [1; 6; 28; 29; 8; 9]%nat r r2).
  { apply except_trans with r1; [apply (except_sub [1; 6; 28; 29]%nat); [reflexivity|exact E1]|].
    apply (except_sub [8; 9]%nat); [reflexivity|exact E2]. }
  destruct (step_ok 237 r2 g (xor_into S b) M HF) as (r3 & g3 & M3 & R3 & F3 & N3 & Hr3 & H23 & HS3 & P3 & Q3 & G2 & G9 & G11).
  { rewrite (E 2%nat eq_refl). exact H2. }
  { exact Hr2. }
  { exact HS2. }
  { rewrite (E 21%nat eq_refl). lia. }
  { rewrite (E 22%nat eq_refl), H22. lia. }
  rewrite (E 21%nat eq_refl) in P3. rewrite (E 22%nat eq_refl), H22 in Q3.
  exists r3, g3, M3. split; [|split; [exact F3|split; [exact N3|split; [exact Hr3|split; [exact H23|split; [exact HS3|split; [exact P3|split; [|split; [|split; [exact G2|split; [exact G9|exact G11]]]]]]]]]]].
  - unfold abody. apply then_assoc. apply st_then with (M1 := M) (r1 := r1); [exact R1|].
    apply st_then with (M1 := M) (r1 := r2); [exact R2|exact R3].
  - rewrite Q3. lia.
  - apply (near_readable F 48 M); [exact N3|exact Rl| |lia]. unfold disjoint in *. lia.
Qed.
Lemma aloop_ok : forall n l f r g S M, (length l <= n)%nat -> (length l < f)%nat -> frm g M -> r 2%nat = F -> rok r ->
  BS (mh r g) S -> readable M (r 21%nat) l -> r 21%nat + len l < 2 ^ 32 -> disjoint F 48 (r 21%nat) (len l) -> r 22%nat = len l ->
  exists tail S' r' g' M', runs (while f (bgeui 22 8) (fun r => r <- abody r ;; exec [] r) r) M M' r' /\
    (forall k, (length l <= k)%nat -> h12_absorb k S l = xor_into S' (tail ++ [x80])) /\ (length tail < 8)%nat /\
    frm g' M' /\ near F 48 M M' /\ rok r' /\ r' 2%nat = F /\ BS (mh r' g') S' /\ readable M' (r' 21%nat) tail /\
    r' 21%nat + len tail < 2 ^ 32 /\ disjoint F 48 (r' 21%nat) (len tail) /\ r' 22%nat = len tail /\
    g' 2%nat = g 2%nat /\ g' 9%nat = g 9%nat /\ g' 11%nat = g 11%nat.
Proof.
  induction n as [|n IH]; intros l f r g S M Hn Hf HF H2 Hr HS HR Hb Hd H22; (destruct f as [|f]; [lia|]);
    destruct (Nat.ltb_spec (length l) 8) as [C|C].
  1, 3: (exists l, S, r, g, M; split; [apply runs_while_end; unfold bgeui; rewrite H22; unfold len; lia|];
    split; [intros [|k] _; cbn [h12_absorb]; [reflexivity|replace (Nat.ltb (length l) 8) with true by (symmetry; apply Nat.ltb_lt, C); reflexivity]|];
    split; [exact C|]; split; [exact HF|]; split; [apply near_refl|]; split; [exact Hr|]; split; [exact H2|]; split; [exact HS|];
    split; [exact HR|]; split; [exact Hb|]; split; [exact Hd|]; split; [exact H22|]; repeat split).
  { lia. }
  set (b := firstn 8 l). set (l' := skipn 8 l).
  assert (El : l = b ++ l') by (symmetry; apply firstn_skipn).
  assert (Lb : length b = 8%nat) by (apply firstn_length_le; exact C).
  assert (Ll : length l = (8 + length l')%nat) by (rewrite El, app_length, Lb; reflexivity).
  pose proof HR as HR0. pose proof Hb as Hb0. pose proof Hd as Hd0. pose proof H22 as H220.
  rewrite El in HR0, Hb0, Hd0, H220.
  destruct (abody_ok r g S b l' M HF H2 Hr HS HR0 Lb Hb0 Hd0 H220) as
    (r1 & g1 & M1 & R1 & F1 & N1 & Hr1 & H21 & HS1 & P1 & Q1 & RR1 & A2 & A9 & A11).
  destruct (IH l' f r1 g1 (p_be 12 (xor_into S b)) M1) as
    (tail & S' & r2 & g2 & M2 & R2 & HA & Ht & F2 & N2 & Hr2 & H22' & HS2 & RR2 & Hb2 & Hd2 & Q2 & B2 & B9 & B11);
    try assumption; try lia.
  { rewrite P1. exact RR1. }
  { rewrite P1. unfold len in *. lia. }
  { rewrite P1. unfold disjoint, len in *. lia. }
  exists tail, S', r2, g2, M2. split; [|split; [|split; [exact Ht|split; [exact F2|split; [apply near_trans with M1; assumption|
    split; [exact Hr2|split; [exact H22'|split; [exact HS2|split; [exact RR2|split; [exact Hb2|split; [exact Hd2|split; [exact Q2|]]]]]]]]]]]].
  - apply runs_while_step with (s1 := r1) (M1 := M1); [unfold bgeui; rewrite H22; unfold len; lia| |exact R2].
    eapply runs_bind; [exact R1|apply st_nil].
  - intros [|k] Hk; [lia|]. cbn [h12_absorb]. replace (Nat.ltb (length l) 8) with false by (symmetry; apply Nat.ltb_ge, C).
    fold b l'. apply HA. lia.
  - split; [congruence|]. split; congruence.
Qed.
(** ** The last block: l.247-267 *)
Lemma last_ok r g S t M : frm g M -> r 2%nat = F -> rok r -> BS (mh r g) S -> readable M (r 21%nat) t -> (length t < 8)%nat ->
  r 21%nat + len t < 2 ^ 32 -> disjoint F 48 (r 21%nat) (len t) -> r 22%nat = len t ->
  exists r' M', runs (xh_last lab r) M M' r' /\ frm g M' /\ near F 8 M M' /\ rok r' /\ r' 2%nat = F /\
    BS (mh r' g) (xor_into S (t ++ [x80])).
Proof.
  intros HF H2 Hr HS Rt Ht Hb Hd H22.
  assert (FB := f_b HF). assert (W8 : writable M F 8) by exact (frame_buf F 48 2 KH g M HF ltac:(lia)).
  assert (F0 : F <> 0) by (apply W8; discriminate).
  set (r1 := setr (setr (setr r 6 0) 6 F) 30 (r 21%nat)).
  set (M1 := write M F (zeros 8)).
  assert (Hr1 : rok r1).
  { unfold r1. repeat (apply rok_set; [|discriminate|]); [exact Hr|apply fits_0|rewrite <- H2; apply Hr|apply Hr]. }
  assert (R1 : runs (exec [movi 6 0; s32i 6 2 0; s32i 6 2 4; mov 6 2; mov 30 21] r) M M1 r1).
  { apply st_op; [reflexivity|]. cbn [fev]. apply store2_ok.
    - change (setr r 6 0 2%nat) with (r 2%nat). rewrite H2. exact W8.
    - change (setr r 6 0 2%nat) with (r 2%nat). lia.
    - change (setr r 6 0 2%nat) with (r 2%nat). rewrite H2.
      change (le_bytes 4 (setr r 6 0 6%nat) ++ le_bytes 4 (setr r 6 0 6%nat)) with (zeros 8). fold M1.
      apply st_op; [reflexivity|]. cbn [fev]. change (setr r 6 0 2%nat) with (r 2%nat). rewrite H2.
      apply st_op; [reflexivity|]. apply st_nil. }
  assert (N1 : near F 8 M M1) by (apply near_frame; [lia|]; unfold len; rewrite length_zeros; lia).
  destruct (pad_ok F 8 (lab 255) t r1 M1 (Hlab _) Hr1) as (r2 & M2 & R2 & Q2 & N2 & Hr2 & E2).
  { exact H2. }
  { reflexivity. }
  { exact Ht. }
  { apply readable_write_self; [unfold len; rewrite length_zeros; lia|intros _; exact F0]. }
  { apply writable_write. exact W8. }
  { lia. }
  { change (r1 30%nat) with (r 21%nat). apply readable_write_disjoint; [exact Rt|]. unfold disjoint, len in *. rewrite length_zeros. lia. }
  { exact Hb. }
  { change (r1 30%nat) with (r 21%nat). unfold disjoint in *. lia. }
  { exact H22. }
  set (bl := t ++ [x80] ++ zeros (8 - 1 - length t)) in *.
  assert (Lbl : length bl = 8%nat) by (unfold bl; rewrite !app_length, length_zeros; cbn [length]; lia).
  assert (E12 : except [1; 6; 30; 28; 29]%nat r r2).
  { apply except_trans with r1; [unfold r1; exs|exact E2]. }
  assert (H22' : r2 2%nat = F) by (rewrite (E12 2%nat eq_refl); exact H2).
  destruct (load8_ok (lab 265) 2 r2 M2 bl (Hlab _) Hr2) as (r3 & R3 & V3 & Hr3 & E3).
  { rewrite H22'. exact Q2. }
  { exact Lbl. }
  { rewrite H22'. lia. }
  { reflexivity. }
  assert (E13 : except [1; 6; 30; 28; 29]%nat r r3).
  { apply except_trans with r2; [exact E12|]. apply (except_sub [1; 6; 28; 29]%nat); [reflexivity|exact E3]. }
  assert (HS3 : BS (mh r3 g) S).
  { apply (SS_except _ _ _ (mh r g) _ [1; 6; 30; 28; 29]%nat); [|reflexivity|exact HS]. apply mh_except; [exact E13|reflexivity|reflexivity]. }
  destruct (xor0_ok r3 g S bl M2 Hr3 HS3 V3) as (r4 & R4 & HS4 & Hr4 & E4).
  assert (N : near F 8 M M2) by (apply near_trans with M1; assumption).
  exists r4, M2. split; [|split; [|split; [exact N|split; [exact Hr4|split; [|]]]]].
  - unfold xh_last. apply st_then with (M1 := M1) (r1 := r1); [exact R1|].
    apply then_assoc. apply st_then with (M1 := M2) (r1 := r2); [exact R2|].
    apply then_assoc. apply st_then with (M1 := M2) (r1 := r3); [exact R3|exact R4].
  - apply (frame_near_low F 48 2 KH g M M2 HF). exact N.
  - rewrite (E4 2%nat eq_refl), (E13 2%nat eq_refl). exact H2.
  - assert (L40 := SS_length _ _ _ _ _ HS). unfold bl in HS4. rewrite app_assoc in HS4.
    rewrite xor_into_app_zeros in HS4 by (rewrite app_length; cbn [length]; lia). exact HS4.
Qed.

(** l.269-276 *)
Lemma final_ok r g S M : frm g M -> r 2%nat = F -> rok r -> BS (mh r g) S ->
  exists r' g' M', runs (xh_final lab r) M M' r' /\ frm g' M' /\ near F 48 M M' /\ rok r' /\ r' 2%nat = F /\
    BS (mh r' g') (p_be 12 S) /\ r' 21%nat = g 2%nat /\ r' 22%nat = g 9%nat /\ g' 11%nat = g 11%nat.
Proof.
  intros HF H2 Hr HS.
  destruct (sx_ok F 48 2 PB KH eq_refl r g M HF H2 Hr) as (M1 & R1 & F1 & N1 & Hr1 & H21).
  set (r1 := fst (sx PB (r, g))) in *. change (snd (sx PB (r, g))) with g in F1. change (grows KH PB) with KH in F1.
  assert (E1 : except [6; 30]%nat r r1) by exs.
  set (r2 := setr r1 1 (lab 272)).
  assert (Hr2 : rok r2) by (apply rok_set; [exact Hr1|discriminate|apply Hlab]).
  assert (HS2 : BS (mh r2 g) S).
  { apply (SS_except _ _ _ (mh r g) _ [1; 6; 30]%nat); [|reflexivity|exact HS].
    apply mh_except; [|reflexivity|reflexivity]. apply except_set; [reflexivity|]. apply (except_sub [6; 30]%nat); [reflexivity|exact E1]. }
  assert (L : length S = 40%nat) by exact (SS_length _ _ _ _ _ HS).
  destruct (permute_ok F 48 2 KH xh_round xh_state true r2 g (ldstate be_num S) M1 check_xh eq_refl eq_refl eq_refl F1 H21 Hr2
    (SS_W _ _ _ _ _ HS2) eq_refl eq_refl) as (r3 & M3 & R3 & W3 & Hr3 & E3 & F3 & N3).
  set (g3 := snd (sx (stores xh_state) (r3, g))) in *.
  assert (HS3 : BS (mh r3 g3) (p_be 12 S)).
  { apply (BS_ext r3); [|apply W_BS; [exact W3|exact L]].
    intros i. rewrite mh_val. change (g3 6%nat) with (r3 22%nat). change (g3 5%nat) with (r3 21%nat).
    destruct (Nat.eqb_spec i 22) as [->|]; [reflexivity|]. destruct (Nat.eqb_spec i 21) as [->|]; reflexivity. }
  assert (H23 : r3 2%nat = F) by (rewrite (E3 2%nat eq_refl); exact H21).
  set (fin := [l32i 21 2 8; l32i 22 2 36]).
  destruct (sx_ok F 48 2 fin KH eq_refl r3 g3 M3 F3 H23 Hr3) as (M4 & R4 & F4 & N4 & Hr4 & H24).
  set (x4 := sx fin (r3, g3)) in *. set (r4 := fst x4) in *.
  change (snd x4) with g3 in F4. change (grows KH fin) with KH in F4.
  exists r4, g3, M4.
  split; [|split; [exact F4|split; [|split; [exact Hr4|split; [exact H24|split; [|split; [reflexivity|split; reflexivity]]]]]]].
  - unfold xh_final. apply st_then with (M1 := M1) (r1 := r1); [exact R1|].
    apply st_then with (M1 := M3) (r1 := r3); [|exact R4].
    apply st_call; [exact R3|]. rewrite (E3 1%nat eq_refl). reflexivity.
  - apply near_trans with M1; [exact N1|]. apply near_trans with M3; assumption.
  - apply (SS_except _ _ _ (mh r3 g3) _ []); [|reflexivity|exact HS3].
    intros i _. rewrite !mh_val. destruct (Nat.eqb_spec i 22) as [->|D1]; [reflexivity|].
    destruct (Nat.eqb_spec i 21) as [->|D2]; [reflexivity|].
    change (r4 i) with (setr (setr r3 21 (g3 2%nat)) 22 (g3 9%nat) i).
    unfold setr. apply Nat.eqb_neq in D1, D2. rewrite D1, D2. reflexivity.
Qed.

(** ** Squeezing: l.278-299 *)
Definition sbody : code :=
  exec [mov 28 8; mov 29 9] >>> call 1 (lab 282) xh_rev8_half >>> exec [s32i 28 21 0; s32i 29 21 4] >>> xh_step lab 291.
(** The first 8 bytes of the state in memory format in t0 *)
Lemma take0_ok a r g S M : fits 32 a -> rok r -> BS (mh r g) S ->
  exists r', runs ((exec [mov 28 8; mov 29 9] >>> call 1 a xh_rev8_half) r) M M r' /\ rok r' /\
    le_bytes 4 (r' 28%nat) ++ le_bytes 4 (r' 29%nat) = firstn 8 S /\ except [1; 6; 28; 29]%nat r r'.
Proof.
  intros Ha Hr (a0 & a1 & a2 & a3 & a4 & -> & [H0 _ _ _ _]).
  set (r1 := setr (setr r 28 (r 8%nat)) 29 (r 9%nat)).
  assert (Hr1 : rok r1) by (unfold r1; repeat (apply rok_set; [|discriminate|apply Hr]); exact Hr).
  destruct (rev8_half_ok a r1 M Ha Hr1) as (r2 & R2 & V1 & V2 & Hr2 & E2).
  exists r2. split; [|split; [exact Hr2|split]].
  - apply st_then with (M1 := M) (r1 := r1); [|exact R2]. do 2 (apply st_op; [reflexivity|]). apply st_nil.
  - rewrite V1, V2. unfold cat5. rewrite (firstn_app_exact 8) by apply H0.
    change (r1 28%nat) with (r 8%nat). change (r1 29%nat) with (r 9%nat). exact (rev_bytes r 8 9 a0 H0).
  - apply except_trans with r1; [unfold r1; exs|exact E2].
Qed.
Lemma sbody_ok r g S n M : frm g M -> r 2%nat = F -> rok r -> BS (mh r g) S -> writable M (r 21%nat) n -> 8 <= n ->
  r 21%nat + n < 2 ^ 32 -> disjoint F 48 (r 21%nat) n -> r 22%nat = n ->
  exists r' g' M', runs (sbody r) M M' r' /\ frm g' M' /\ near F 48 (write M (r 21%nat) (firstn 8 S)) M' /\ rok r' /\ r' 2%nat = F /\
    BS (mh r' g') (p_be 12 S) /\ r' 21%nat = r 21%nat + 8 /\ r' 22%nat = n - 8 /\ g' 11%nat = g 11%nat.
Proof.
  intros HF H2 Hr HS Hw Hn Hb Hd H22.
  destruct (take0_ok (lab 282) r g S M (Hlab _) Hr HS) as (r1 & R1 & Hr1 & V1 & E1).
  set (M1 := write M (r 21%nat) (firstn 8 S)).
  assert (L40 := SS_length _ _ _ _ _ HS).
  assert (L8 : len (firstn 8 S) = 8) by (unfold len; rewrite firstn_length_le by lia; reflexivity).
  assert (R2 : runs (exec [s32i 28 21 0; s32i 29 21 4] r1) M M1 r1).
  { apply store2_ok.
    - rewrite (E1 21%nat eq_refl). replace n with (8 + (n - 8)) in Hw by lia. apply (writable_split _ _ _ _ Hw).
    - rewrite (E1 21%nat eq_refl). lia.
    - rewrite (E1 21%nat eq_refl), V1. apply st_nil. }
  assert (F1 : frm g M1) by (apply frame_out; [exact HF|rewrite L8; unfold disjoint in *; lia]).
  assert (HS1 : BS (mh r1 g) S).
  { apply (SS_except _ _ _ (mh r g) _ [1; 6; 28; 29]%nat); [|reflexivity|exact HS]. apply mh_except; [exact E1|reflexivity|reflexivity]. }
  destruct (step_ok 291 r1 g S M1 F1) as (r3 & g3 & M3 & R3 & F3 & N3 & Hr3 & H23 & HS3 & P3 & Q3 & _ & _ & G11).
  { rewrite (E1 2%nat eq_refl). exact H2. }
  { exact Hr1. }
  { exact HS1. }
  { rewrite (E1 21%nat eq_refl). lia. }
  { rewrite (E1 22%nat eq_refl). lia. }
  rewrite (E1 21%nat eq_refl) in P3. rewrite (E1 22%nat eq_refl), H22 in Q3.
  exists r3, g3, M3. split; [|split; [exact F3|split; [exact N3|split; [exact Hr3|split; [exact H23|split; [exact HS3|split; [exact P3|split; [exact Q3|exact G11]]]]]]]].
  unfold sbody. apply then_assoc. apply st_then with (M1 := M) (r1 := r1); [exact R1|].
  apply st_then with (M1 := M1) (r1 := r1); [exact R2|exact R3].
Qed.
Lemma sloop_ok : forall n f r g S M, (n < f)%nat -> frm g M -> r 2%nat = F -> rok r ->
  BS (mh r g) S -> writable M (r 21%nat) (N.of_nat n) -> r 21%nat + N.of_nat n < 2 ^ 32 -> disjoint F 48 (r 21%nat) (N.of_nat n) ->
  r 22%nat = N.of_nat n ->
  exists out m S' r' g' M', runs (while f (bgeui 22 8) (fun r => r <- sbody r ;; exec [] r) r) M M' r' /\
    (forall k, (n <= k)%nat -> h12_squeeze k n S = out ++ firstn m S') /\ (m < 8)%nat /\ n = (length out + m)%nat /\
    frm g' M' /\ near F 48 (write M (r 21%nat) out) M' /\ rok r' /\ r' 2%nat = F /\ BS (mh r' g') S' /\
    r' 21%nat = r 21%nat + len out /\ r' 22%nat = N.of_nat m /\ g' 11%nat = g 11%nat.
Proof.
  induction n as [n IH] using lt_wf_ind. intros f r g S M Hf HF H2 Hr HS Hw Hb Hd H22. destruct f as [|f]; [lia|].
  destruct (Nat.ltb_spec n 8) as [C|C].
  { exists [], n, S, r, g, M. split; [apply runs_while_end; unfold bgeui; rewrite H22; lia|].
    split; [intros [|k] _; cbn [h12_squeeze]; [reflexivity|replace (Nat.ltb n 8) with true by (symmetry; apply Nat.ltb_lt, C); reflexivity]|].
    split; [exact C|]. split; [reflexivity|]. split; [exact HF|]. split; [apply near_refl|]. split; [exact Hr|]. split; [exact H2|].
    split; [exact HS|]. split; [rewrite len_nil; lia|]. split; [exact H22|reflexivity]. }
  destruct (sbody_ok r g S (N.of_nat n) M HF H2 Hr HS Hw ltac:(lia) Hb Hd H22) as
    (r1 & g1 & M1 & R1 & F1 & N1 & Hr1 & H21 & HS1 & P1 & Q1 & A11).
  assert (L40 := SS_length _ _ _ _ _ HS).
  assert (L8 : length (firstn 8 S) = 8%nat) by (apply firstn_length_le; lia).
  assert (L8' : len (firstn 8 S) = 8) by (unfold len; rewrite L8; reflexivity).
  replace (N.of_nat n) with (8 + N.of_nat (n - 8)) in Hw by lia. destruct (writable_split _ _ _ _ Hw) as [_ Hw2].
  destruct (IH (n - 8)%nat ltac:(lia) f r1 g1 (p_be 12 S) M1) as
    (out & m & S' & r2 & g2 & M2 & R2 & HA & Hm & Hn & F2 & N2 & Hr2 & H22' & HS2 & P2 & Q2 & B11);
    try assumption; try lia.
  { rewrite P1. apply (near_writable F 48 (write M (r 21%nat) (firstn 8 S))); [exact N1|]. apply writable_write, Hw2. }
  { rewrite P1. unfold disjoint in *. lia. }
  exists (firstn 8 S ++ out), m, S', r2, g2, M2. split; [|split; [|split; [exact Hm|split; [rewrite app_length; lia|split; [exact F2|split; [|
    split; [exact Hr2|split; [exact H22'|split; [exact HS2|split; [|split; [exact Q2|congruence]]]]]]]]]]].
  - apply runs_while_step with (s1 := r1) (M1 := M1); [unfold bgeui; rewrite H22; lia| |exact R2].
    eapply runs_bind; [exact R1|apply st_nil].
  - intros [|k] Hk; [lia|]. cbn [h12_squeeze]. replace (Nat.ltb n 8) with false by (symmetry; apply Nat.ltb_ge, C).
    rewrite HA by lia. apply app_assoc.
  - rewrite write_app, L8'. apply near_trans with (write M1 (r 21%nat + 8) out); [apply near_write; exact N1|].
    rewrite P1 in N2. exact N2.
  - rewrite P2, P1, len_app, L8'. lia.
Qed.

(** ** The rest of the output, and the return: l.301-320 *)
Lemma xend_ok r g S m M : frm g M -> r 2%nat = F -> rok r -> BS (mh r g) S -> writable M (r 21%nat) (N.of_nat m) -> (m < 8)%nat ->
  r 21%nat + N.of_nat m < 2 ^ 32 -> disjoint F 48 (r 21%nat) (N.of_nat m) -> r 22%nat = N.of_nat m ->
  exists r' M', runs (xh_end lab r) M M' r' /\ near F 48 (write M (r 21%nat) (firstn m S)) M' /\ r' 1%nat = g 11%nat /\ r' 6%nat = 0.
Proof.
  intros HF H2 Hr HS Hw Hm Hb Hd H22.
  assert (FB := f_b HF). assert (W8 : writable M F 8) by exact (frame_buf F 48 2 KH g M HF ltac:(lia)).
  assert (F0 : F <> 0) by (apply W8; discriminate).
  assert (L40 := SS_length _ _ _ _ _ HS).
  set (r0 := setr r 6 0). set (M1 := write M F (zeros 8)).
  assert (Hr0 : rok r0) by (apply rok_set; [exact Hr|discriminate|apply fits_0]).
  assert (HS0 : BS (mh r0 g) S).
  { apply (SS_except _ _ _ (mh r g) _ [6]%nat); [|reflexivity|exact HS]. apply mh_except; [unfold r0; exs|reflexivity|reflexivity]. }
  destruct (take0_ok (lab 309) r0 g S M1 (Hlab _) Hr0 HS0) as (r1 & R1 & Hr1 & V1 & E1).
  assert (E01 : except [1; 6; 28; 29]%nat r r1) by (apply except_trans with r0; [unfold r0; exs|exact E1]).
  assert (N1 : near F 8 M M1) by (apply near_frame; [lia|]; unfold len; rewrite length_zeros; lia).
  set (o := firstn m S).
  assert (Eo : firstn 8 S = o ++ skipn m (firstn 8 S)).
  { unfold o. rewrite <- (firstn_skipn m (firstn 8 S)) at 1. rewrite firstn_firstn. do 2 f_equal. lia. }
  assert (Lo : len o = N.of_nat m) by (unfold o, len; rewrite firstn_length_le by lia; reflexivity).
  set (M2 := write M1 F (firstn 8 S)).
  assert (L8 : len (firstn 8 S) = 8) by (unfold len; rewrite firstn_length_le by lia; reflexivity).
  assert (N2 : near F 8 M M2) by (apply near_trans with M1; [exact N1|]; apply near_frame; lia).
  assert (E12 : r1 2%nat = F) by (rewrite (E01 2%nat eq_refl); exact H2).
  set (r2 := setr (setr r1 6 (r 21%nat)) 30 F).
  assert (Hr2 : rok r2).
  { unfold r2. repeat (apply rok_set; [|discriminate|]); [exact Hr1|apply Hr|rewrite <- H2; apply Hr]. }
  assert (R2 : runs (exec [s32i 28 2 0; s32i 29 2 4; mov 6 21; mov 30 2] r1) M1 M2 r2).
  { apply store2_ok.
    - rewrite E12. apply writable_write. exact W8.
    - rewrite E12. lia.
    - rewrite E12, V1. apply st_op; [reflexivity|]. apply st_op; [reflexivity|]. cbn [fev].
      change (setr r1 6 (r1 21%nat) 2%nat) with (r1 2%nat). rewrite E12, (E01 21%nat eq_refl). apply st_nil. }
  destruct (xmemcpy_ok (lab 315) o r2 M2 (Hlab _) Hr2) as (r3 & R3 & Hr3 & E3); rewrite ?Lo.
  { change (r2 30%nat) with F. assert (Q : readable M2 F (o ++ skipn m (firstn 8 S))).
    { rewrite <- Eo. apply readable_write_self; [lia|intros _; exact F0]. }
    apply (readable_app _ _ _ _ Q). }
  { change (r2 6%nat) with (r 21%nat). apply (near_writable F 8 M); assumption. }
  { change (r2 6%nat) with (r 21%nat). change (r2 30%nat) with F. unfold disjoint in *. lia. }
  { exact Hb. }
  { change (r2 30%nat) with F. lia. }
  { change (r2 22%nat) with (r1 22%nat). rewrite (E01 22%nat eq_refl). exact H22. }
  { lia. }
  change (r2 6%nat) with (r 21%nat) in R3.
  set (M3 := write M2 (r 21%nat) o) in *.
  assert (F3 : frm g M3).
  { apply frame_out; [|rewrite Lo; exact Hd]. apply (frame_near_low F 48 2 KH g M M2 HF). exact N2. }
  assert (H23 : r3 2%nat = F) by (rewrite (E3 2%nat eq_refl); exact E12).
  destruct (sx_ok F 48 2 [movi 6 0; l32i 1 2 44] KH eq_refl r3 g M3 F3 H23 Hr3) as (M4 & R4 & F4 & N4 & Hr4 & H24).
  exists (fst (sx [movi 6 0; l32i 1 2 44] (r3, g))), M4. split; [|split; [|split; reflexivity]].
  - unfold xh_end. change [movi 6 0; s32i 6 2 0; s32i 6 2 4; mov 28 8; mov 29 9] with ([movi 6 0; s32i 6 2 0; s32i 6 2 4] ++ [mov 28 8; mov 29 9]).
    assert (R0 : runs (exec [movi 6 0; s32i 6 2 0; s32i 6 2 4] r) M M1 r0).
    { apply st_op; [reflexivity|]. cbn [fev]. fold r0. change (r 2%nat) with (r0 2%nat) in H2. apply store2_ok.
      - rewrite H2. exact W8.
      - rewrite H2. lia.
      - rewrite H2. apply st_nil. }
    assert (R1' : runs ((exec ([movi 6 0; s32i 6 2 0; s32i 6 2 4] ++ [mov 28 8; mov 29 9]) >>> call 1 (lab 309) xh_rev8_half) r) M M1 r1).
    { destruct R1 as (t1 & R1). unfold andthen, bind in R1. destruct (exec [mov 28 8; mov 29 9] r0 M1) as [t2 Ma q|] eqn:Eq; [|discriminate].
      apply st_then with (M1 := Ma) (r1 := q); [apply st_app with (M1 := M1) (r1 := r0); [exact R0|exists t2; exact Eq]|].
      destruct (call 1 (lab 309) xh_rev8_half q Ma) as [t3 Mb q'|] eqn:Eq'; [|discriminate]. injection R1 as _ <- <-. exists t3. exact Eq'. }
    apply then_assoc. apply st_then with (M1 := M1) (r1 := r1); [exact R1'|].
    apply st_then with (M1 := M2) (r1 := r2); [exact R2|]. apply st_then with (M1 := M3) (r1 := r3); [exact R3|exact R4].
  - apply near_trans with M3; [|exact N4]. apply near_write. apply (near_wider F 8 48); [lia|exact N2].
Qed.
(** ** The whole function *)
Variables (iv : list N) (S0 : bytes).
Hypothesis Hivok : oks 48 2 [] (tl (xh_init iv)) = true.
Hypothesis HS0 : length S0 = 40%nat.
Hypothesis Hiv : let s := ldstate be_num S0 in
  iv = [half hi_n (X0 s); half lo_n (X0 s); half hi_n (X1 s); half lo_n (X1 s); half hi_n (X2 s); half lo_n (X2 s);
        half hi_n (X3 s); half lo_n (X3 s); half hi_n (X4 s); half lo_n (X4 s)].

Lemma init_ok r M l n : rok r -> r 2%nat = F + 64 -> writable M F 48 -> r 6%nat + n < 2 ^ 32 -> r 30%nat = n ->
  r 29%nat = len l ->
  exists r' g M', runs (exec (xh_init iv) r) M M' r' /\ frm g M' /\ near F 48 M M' /\ rok r' /\ r' 2%nat = F /\
    BS (mh r' g) S0 /\ r' 21%nat = r 28%nat /\ r' 22%nat = len l /\ g 2%nat = r 6%nat /\ g 9%nat = n /\ g 11%nat = r 1%nat.
Proof.
  intros Hr H2 Hw Hb H30 H29.
  set (r1 := setr r 2 F).
  assert (B : F + 64 < 2 ^ 32) by (rewrite <- H2; apply Hr).
  assert (Hr1 : rok r1) by (apply rok_set; [exact Hr|discriminate|unfold fits; lia]).
  assert (F0 : frame F 48 2 [] (fun _ => 0) M).
  { constructor; [intros j HK; discriminate HK|intros j; apply fits_0|exact Hw|lia]. }
  destruct (sx_ok F 48 2 (tl (xh_init iv)) [] Hivok r1 (fun _ => 0) M F0 eq_refl Hr1) as (M1 & R1 & F1 & N1 & Hr2 & H22).
  set (x := sx (tl (xh_init iv)) (r1, fun _ => 0)) in *. set (r2 := fst x) in *. set (g := snd x) in *.
  apply (frame_sub _ _ _ _ KH) in F1; [|reflexivity].
  exists r2, g, M1. split; [|split; [exact F1|split; [exact N1|split; [exact Hr2|split; [exact H22|split; [|
    split; [reflexivity|split; [exact H29|split; [reflexivity|split; [exact H30|reflexivity]]]]]]]]]].
  - unfold xh_init. apply st_op; [reflexivity|]. cbn [fev]. rewrite H2, trunc_sub by lia. replace (F + 64 - 64) with F by lia. exact R1.
  - apply W_SS; [exact HS0|]. cbv zeta in Hiv. set (s := ldstate be_num S0) in *.
    constructor; [change (nth 0 iv 0 = half hi_n (X0 s))|change (nth 1 iv 0 = half lo_n (X0 s))|
      change (nth 2 iv 0 = half hi_n (X1 s))|change (nth 3 iv 0 = half lo_n (X1 s))|
      change (nth 4 iv 0 = half hi_n (X2 s))|change (nth 5 iv 0 = half lo_n (X2 s))|
      change (nth 6 iv 0 = half hi_n (X3 s))|change (nth 7 iv 0 = half lo_n (X3 s))|
      change (nth 8 iv 0 = half hi_n (X4 s))|change (nth 9 iv 0 = half lo_n (X4 s))]; rewrite Hiv; reflexivity.
Qed.
Lemma core_ok r M l n : rok r -> r 2%nat = F + 64 -> writable M F 48 -> r 30%nat = N.of_nat n -> r 29%nat = len l ->
  readable M (r 28%nat) l -> writable M (r 6%nat) (N.of_nat n) -> r 28%nat + len l < 2 ^ 32 -> r 6%nat + N.of_nat n < 2 ^ 32 ->
  disjoint F 48 (r 28%nat) (len l) -> disjoint F 48 (r 6%nat) (N.of_nat n) ->
  exists r' M', runs (xh_core lab iv r) M M' r' /\ near F 48 (write M (r 6%nat) (h12_squeeze n n (p_be 12 (h12_absorb (length l) S0 l)))) M' /\
    r' 1%nat = r 1%nat /\ r' 6%nat = 0.
Proof.
  intros Hr H2 Hw H30 H29 Hrd Hwr Bi Bo Di Do.
  destruct (init_ok r M l (N.of_nat n) Hr H2 Hw Bo H30 H29) as (r1 & g1 & M1 & R1 & F1 & N1 & Hr1 & H21 & HS1 & P1 & Q1 & G2 & G9 & G11).
  destruct (aloop_ok (length l) l (Datatypes.S (N.to_nat (r1 22%nat))) r1 g1 S0 M1) as
    (tail & S2 & r2 & g2 & M2 & R2 & HA & Ht & F2 & N2 & Hr2 & H22 & HS2 & RR2 & B2 & D2 & Q2 & A2 & A9 & A11);
    try assumption; try (rewrite ?P1, ?Q1; unfold len in *; lia).
  { rewrite P1. apply (near_readable F 48 M); [exact N1|exact Hrd|exact Di|lia]. }
  { rewrite P1. exact Di. }
  destruct (last_ok r2 g2 S2 tail M2 F2 H22 Hr2 HS2 RR2 Ht B2 D2 Q2) as (r3 & M3 & R3 & F3 & N3 & Hr3 & H23 & HS3).
  destruct (final_ok r3 g2 _ M3 F3 H23 Hr3 HS3) as (r4 & g4 & M4 & R4 & F4 & N4 & Hr4 & H24 & HS4 & P4 & Q4 & B11).
  rewrite A2, G2 in P4. rewrite A9, G9 in Q4.
  assert (N14 : near F 48 M M4).
  { apply near_trans with M1; [exact N1|]. apply near_trans with M2; [exact N2|].
    apply near_trans with M3; [apply (near_wider F 8 48); [lia|exact N3]|exact N4]. }
  destruct (sloop_ok n (Datatypes.S (N.to_nat (r4 22%nat))) r4 g4 _ M4 ltac:(rewrite Q4; lia) F4 H24 Hr4 HS4) as
    (out & m & S5 & r5 & g5 & M5 & R5 & HO & Hm & Hn & F5 & N5 & Hr5 & H25 & HS5 & P5 & Q5 & C11).
  { rewrite P4. apply (near_writable F 48 M); assumption. }
  { rewrite P4. exact Bo. }
  { rewrite P4. exact Do. }
  { exact Q4. }
  rewrite P4 in P5, N5.
  assert (Ln : N.of_nat n = len out + N.of_nat m) by (unfold len; lia).
  rewrite Ln in Hwr, Bo, Do. destruct (writable_split _ _ _ _ Hwr) as [_ Hw2].
  destruct (xend_ok r5 g5 S5 m M5 F5 H25 Hr5 HS5) as (r6 & M6 & R6 & N6 & E1 & E6).
  { rewrite P5. apply (near_writable F 48 (write M4 (r 6%nat) out)); [exact N5|]. apply writable_write.
    apply (near_writable F 48 M); assumption. }
  { exact Hm. }
  { rewrite P5. lia. }
  { rewrite P5. unfold disjoint in *. lia. }
  { exact Q5. }
  exists r6, M6. split; [|split; [|split; [congruence|exact E6]]].
  - unfold xh_core. apply st_then with (M1 := M1) (r1 := r1); [exact R1|].
    apply st_then with (M1 := M2) (r1 := r2); [unfold xh_absorb, loop; eapply runs_bind; [apply st_nil|exact R2]|].
    apply st_then with (M1 := M3) (r1 := r3); [exact R3|]. apply st_then with (M1 := M4) (r1 := r4); [exact R4|].
    apply st_then with (M1 := M5) (r1 := r5); [unfold xh_squeeze, loop; eapply runs_bind; [apply st_nil|exact R5]|exact R6].
  - rewrite HA by lia. rewrite HO by lia. rewrite write_app. rewrite P5 in N6.
    apply near_trans with (write M5 (r 6%nat + len out) (firstn m S5)); [|exact N6]. apply near_write.
    apply near_trans with (write M4 (r 6%nat) out); [apply near_write; exact N14|exact N5].
Qed.
End hash.

Theorem xt_hash_ok lab iv S0 r M out inp l n : oks 48 2 [] (tl (xh_init iv)) = true -> length S0 = 40%nat ->
  (let s := ldstate be_num S0 in
   iv = [half hi_n (X0 s); half lo_n (X0 s); half hi_n (X1 s); half lo_n (X1 s); half hi_n (X2 s); half lo_n (X2 s);
         half hi_n (X3 s); half lo_n (X3 s); half hi_n (X4 s); half lo_n (X4 s)]) ->
  xt_hash_pre lab r M out inp (N.of_nat n) l ->
  xt_returns 48 r (xt_hash lab iv r (N.of_nat n) out inp (len l)) M
    (write M out (h12_squeeze n n (p_be 12 (h12_absorb (length l) S0 l)))) 0%Z.
Proof.
  intros H1 H2 H3 [[V0 Vr Vl Vs Vw] Hi Ho [Bi Di] [Bo Do]].
  set (F := r 2%nat - (48 + 16)) in *.
  assert (Hr : rok r) by (split; [exact V0|exact Vr]).
  set (r0 := setr (setr (setr (setr (setr r 6 out) 30 (N.of_nat n)) 28 inp) 29 (trunc 32 (len l))) 1 (r 1%nat)).
  assert (Ll : trunc 32 (len l) = len l) by (apply trunc_fits; unfold fits; lia).
  assert (Hr0 : rok r0).
  { unfold r0. repeat (apply rok_set; [|discriminate|]); [exact Hr| | | | |apply Hr]; unfold fits; try lia; apply fits_trunc. }
  destruct (core_ok lab Vl F iv S0 H1 H2 H3 r0 M l n Hr0) as (r' & M' & R & N & E1 & E6); try assumption.
  { change (r0 2%nat) with (r 2%nat). unfold F. lia. }
  { reflexivity. }
  change (r0 6%nat) with out in N. exists M'. split.
  - unfold xt_hash. eapply runs_bind.
    + apply st_call; [exact R|exact E1].
    + rewrite E6. apply runs_ret.
  - apply N.
Qed.
