(** * RefAeadDec.v -- the reference AEAD: complete encryption and decryption. *)
From Coq Require Import Arith Bool NArith ZArith List Lia Init.Byte Strings.Byte.
From Coq Require Import ZifyBool ZifyNat ZifyN.
From Verif Require Import Words WordFacts Spec SpecFacts CMem Contract CMemFacts ModelRef
  StateRep RefRound RefPrim RefAead.
Import ListNotations.
Local Open Scope N_scope.

(** ** Finalisation and encryption *)

Lemma ref_final_ok s k0 k1 : wf s -> length k0 = 8%nat -> length k1 = 8%nat ->
  wf (ref_final s (le_num k0) (le_num k1)) /\
  wb (X3 (ref_final s (le_num k0) (le_num k1))) ++ wb (X4 (ref_final s (le_num k0) (le_num k1))) =
  aead_tag (k0 ++ k1) (xs s).
Proof.
  intros Hs H0 H1. unfold ref_final.
  set (s1 := xor3 (xor2 s (le_num k0)) (le_num k1)).
  assert (W1 : wf s1) by (apply wf_xor3; [apply wf_xor2; auto|]; apply fits_le_num8; lia).
  assert (W2 : wf (xor4 (xor3 (P12 s1) (le_num k0)) (le_num k1))).
  { apply wf_xor4; [apply wf_xor3; [apply wf_P12, W1|]|]; apply fits_le_num8; lia. }
  split; [exact W2|].
  rewrite <- (skipn24_SB wb wb_len). change (SB wb) with xs.
  change (xor4 (xor3 (P12 s1) (le_num k0)) (le_num k1))
    with (xorx (xorx (P12 s1) 3 (le_num k0)) 4 (le_num k1)).
  rewrite !xs_load; try lia; [|apply wf_P12, W1|apply (wf_xorx _ 3); [apply wf_P12, W1|apply fits_le_num8; lia]].
  rewrite xs_P12 by exact W1. unfold s1.
  change (xor3 (xor2 s (le_num k0)) (le_num k1)) with (xorx (xorx s 2 (le_num k0)) 3 (le_num k1)).
  rewrite !xs_load; try lia; [|exact Hs|apply (wf_xorx _ 2); [exact Hs|apply fits_le_num8; lia]].
  unfold aead_tag.
  change (8 * N.to_nat 4)%nat with (24 + 8)%nat. change (8 * N.to_nat 3)%nat with 24%nat.
  rewrite (xor_at_app 16) by (rewrite length_xs, app_length || rewrite length_xs; lia). rewrite H0.
  set (S := p 12 _).
  assert (HS : length S = 40%nat) by apply length_p.
  rewrite <- H0, <- xor_at_app by lia. unfold xor_at.
  rewrite skipn_app_exact by (rewrite firstn_length; lia). reflexivity.
Qed.

Theorem ref_encrypt_ok e M c clen m ad nsec npub k kb nb adb mb :
  is16 kb -> is16 nb ->
  readable M k kb -> readable M npub nb -> readable M ad adb -> readable M m mb ->
  writable M c (len mb + 16) -> writable M clen 8 ->
  disjoint clen 8 k 16 -> disjoint clen 8 npub 16 -> disjoint clen 8 ad (len adb) ->
  disjoint clen 8 m (len mb) ->
  no_overtake c m (len mb) ->
  runs (crypto_aead_encrypt e c clen m (len mb) ad (len adb) nsec npub k) M
    (write (write M clen (to_host e 8 (len mb + 16))) c (aead_encrypt kb nb adb mb)) 0%Z.
Proof.
  intros Hk Hn Rk Rn Ra Rm Wc Wcl Dk Dn Da Dm Hno.
  pose proof (writable_bound _ _ _ Wc) as Hbw.
  set (M1 := write M clen (to_host e 8 (len mb + 16))).
  assert (Lh : len (to_host e 8 (len mb + 16)) = 8) by (unfold len at 1; rewrite length_to_host; reflexivity).
  assert (Lk : len kb = 16) by (apply (len_eq kb 16), Hk).
  assert (Ln : len nb = 16) by (apply (len_eq nb 16), Hn).
  assert (Rk1 : readable M1 k kb) by (apply readable_write_disjoint; [exact Rk|rewrite Lh, Lk; exact Dk]).
  assert (Rn1 : readable M1 npub nb) by (apply readable_write_disjoint; [exact Rn|rewrite Lh, Ln; exact Dn]).
  assert (Ra1 : readable M1 ad adb) by (apply readable_write_disjoint; [exact Ra|rewrite Lh; exact Da]).
  assert (Rm1 : readable M1 m mb) by (apply readable_write_disjoint; [exact Rm|rewrite Lh; exact Dm]).
  assert (Wc1 : writable M1 c (len mb + 16)) by (apply writable_write, Wc).
  destruct (ref_init_ok M1 npub k kb nb Hk Hn Rk1 Rn1) as (k0 & k1 & s0 & -> & H0 & H1 & W0 & Rn0 & E0).
  destruct (ref_adata_ok M1 s0 ad adb W0 Ra1) as (s1 & W1 & Ws1 & E1).
  destruct (writable_split _ _ _ _ Wc1) as (Wm & Wt).
  destruct (ref_enc_ok M1 s1 c m mb Ws1 Rm1 Wm Hno) as (s2 & cf & E2 & W2 & Hcf & Rn2).
  destruct (ref_final_ok s2 k0 k1 W2 H0 H1) as (W3 & E3).
  set (s3 := ref_final s2 (le_num k0) (le_num k1)) in *.
  unfold crypto_aead_encrypt.
  eapply runs_bind; [apply runs_store_ull; exact Wcl|].
  unfold CRYPTO_ABYTES. rewrite add64_small by lia. fold M1.
  eapply runs_bind; [exact Rn0|]. cbn beta iota.
  eapply runs_bind; [exact W1|].
  eapply runs_bind; [exact Rn2|]. cbn beta iota zeta. fold s3.
  destruct (writable_split _ _ 8 8 Wt) as (Wt1 & Wt2).
  eapply runs_bind; [apply runs_STOREBYTES, writable_write, Wt1|].
  eapply runs_bind; [eapply runs_padd_writable; [apply writable_write, writable_write, Wt|lia]|].
  eapply runs_bind; [apply runs_STOREBYTES, writable_write, writable_write, Wt2|].
  replace (write M1 c (aead_encrypt (k0 ++ k1) nb adb mb)) with
    (write (write (write M1 c (firstn (length mb) cf)) (c + len mb) (le_bytes (N.to_nat 8) (X3 s3)))
       (c + len mb + 8) (le_bytes (N.to_nat 8) (X4 s3))); [apply runs_ret|].
  unfold aead_encrypt. rewrite <- E0, <- E1, E2, <- E3.
  change (N.to_nat 8) with 8%nat. fold (wb (X3 s3)) (wb (X4 s3)).
  rewrite !write_app, len_wb.
  replace (len (firstn (length mb) cf)) with (len mb); [reflexivity|].
  unfold len. rewrite firstn_length. lia.
Qed.

(** ** Decryption *)

Lemma dec_blocks_short f S c : (length c < 16)%nat ->
  dec_blocks f S c = (xor_at (length c) (c ++ skipn (length c) S) [x01], xor_into c S).
Proof.
  intros H. destruct f; [reflexivity|]. cbn [dec_blocks].
  replace (length c <? 16)%nat with true by lia. reflexivity.
Qed.

Lemma dec_blocks_step f S B c : length B = 16%nat ->
  dec_blocks (Datatypes.S f) S (B ++ c) =
  (let '(S2, m) := dec_blocks f (p 8 (B ++ skipn 16 S)) c in (S2, xor_into B S ++ m)).
Proof.
  intros H. cbn [dec_blocks]. rewrite app_length, H.
  replace (16 + length c <? 16)%nat with false by lia.
  rewrite firstn_app_exact, skipn_app_exact by exact H. reflexivity.
Qed.

Lemma dec_blocks_fuel f : forall f' S c, (length c <= 16 * f)%nat -> (length c <= 16 * f')%nat ->
  dec_blocks f S c = dec_blocks f' S c.
Proof.
  induction f as [|f IH]; intros f' S c H H'.
  - assert (length c = 0)%nat by lia. rewrite !dec_blocks_short by lia. reflexivity.
  - destruct (Nat.lt_ge_cases (length c) 16) as [L|L].
    + rewrite !dec_blocks_short by lia. reflexivity.
    + destruct f' as [|f']; [lia|]. destruct (split_at 16 c) as (B & c' & -> & HB); [lia|].
      rewrite app_length in *.
      rewrite !dec_blocks_step by exact HB. rewrite (IH f') by lia. reflexivity.
Qed.

Lemma xor_into_firstn_r A S : xor_into A (firstn (length A) S) = xor_into A S.
Proof.
  apply bytes_ext; [len; reflexivity|]. intros j Hj. rewrite length_xor_into in Hj.
  rewrite !nth_xor_into, nth_firstn. destruct (Nat.ltb_spec j (length A)); [reflexivity|lia].
Qed.

(** The plaintext written for a block of ciphertext. *)
Lemma xor_into_block A S : (length A <= length S)%nat ->
  xor_into A S = firstn (length A) (xor_into S A).
Proof.
  intros H. rewrite <- xor_into_firstn_r, firstn_xor_into, firstn_all.
  apply xor_into_comm. rewrite firstn_length. lia.
Qed.

Lemma xs_set01 s b0 b1 : length b0 = 8%nat -> length b1 = 8%nat ->
  xs (set1 (set0 s (le_num b0)) (le_num b1)) = (b0 ++ b1) ++ skipn 16 (xs s).
Proof.
  intros H0 H1. unfold xs, SB, set1, set0. cbn [X0 X1 X2 X3 X4].
  rewrite !wb_le_num8 by assumption. rewrite (app_assoc (wb (X0 s))).
  rewrite skipn_app_exact by (rewrite app_length, !wb_len; reflexivity).
  rewrite <- app_assoc. reflexivity.
Qed.

Lemma ref_dec_body_ok M s m c B l t : wf s -> length B = 16%nat -> readable M c (B ++ l ++ t) ->
  writable M m (len (B ++ l)) ->
  exists s', runs (ref_dec_body (s, m, c, len (B ++ l))) M
      (write M m (xor_into B (xs s))) (s', m + 16, c + 16, len l) /\ wf s' /\
    xs s' = p 8 (B ++ skipn 16 (xs s)).
Proof.
  intros Hs HB R Wr. pose proof (readable_bound _ _ _ R) as Hbd.
  assert (Hlen : len (B ++ l) = 16 + len l) by (rewrite len_app, (len_eq B 16 HB); lia).
  assert (Hlen' : len (B ++ l ++ t) = 16 + len l + len t) by (rewrite !len_app, (len_eq B 16 HB); lia).
  destruct (split_len 8 B) as (b0 & b1 & -> & H0 & L0); [unfold len; lia|].
  rewrite app_length in HB. assert (H1 : length b1 = 8%nat) by lia.
  assert (R' := R). rewrite <- app_assoc in R'.
  destruct (readable_app _ _ _ _ R') as (R0 & R12). rewrite L0 in R12.
  destruct (readable_app _ _ _ _ R12) as (R1 & _).
  rewrite Hlen, Hlen' in *. change (16 + len l) with (8 + 8 + len l) in Wr.
  destruct (writable_split _ _ _ _ Wr) as (W16 & _).
  destruct (writable_split _ _ _ _ W16) as (W1 & W2).
  set (s1 := set1 (set0 s (le_num b0)) (le_num b1)).
  assert (Ws1 : wf s1) by (apply wf_set1; [apply wf_set0; auto|]; apply fits_le_num8; lia).
  exists (P8 s1). split; [|split].
  - unfold ref_dec_body.
    eapply runs_bind; [apply runs_LOADBYTES with (l := b0); [exact R0|unfold len; lia|lia]|].
    eapply runs_bind; [eapply runs_padd_readable; [exact R|lia]|].
    eapply runs_bind; [apply runs_LOADBYTES with (l := b1); [exact R1|unfold len; lia|lia]|].
    eapply runs_bind; [apply runs_STOREBYTES; exact W1|].
    eapply runs_bind; [eapply runs_padd_writable; [exact (writable_write _ _ _ _ _ Wr)|lia]|].
    eapply runs_bind; [apply runs_STOREBYTES; apply writable_write; exact W2|].
    eapply runs_bind; [eapply runs_padd_writable; [exact (writable_write _ _ _ _ _ (writable_write _ _ _ _ _ Wr))|unfold ASCON_128A_RATE; lia]|].
    eapply runs_bind; [apply runs_padd; [unfold ASCON_128A_RATE; lia|intros _; eapply readable_nonnull; [exact R|lia]]|].
    rewrite sub64_small by (unfold ASCON_128A_RATE; lia). unfold ASCON_128A_RATE.
    replace (16 + len l - 16) with (len l) by lia.
    change (N.to_nat 8) with 8%nat.
    replace (xor_into (b0 ++ b1) (xs s)) with
      (wb (N.lxor (X0 s) (le_num b0)) ++ wb (N.lxor (X1 s) (le_num b1))).
    { rewrite write_app, len_wb. apply runs_ret. }
    rewrite xor_into_block by (rewrite length_xs, app_length; lia).
    rewrite <- xs_block by (auto; lia). rewrite app_length, HB.
    change (8 + 8)%nat with 16%nat. rewrite firstn16_xs. reflexivity.
  - apply wf_P8, Ws1.
  - rewrite xs_P8 by exact Ws1. unfold s1. rewrite xs_set01 by lia. reflexivity.
Qed.

Lemma ref_dec_while f : forall M s m c l t, wf s -> readable M c (l ++ t) -> writable M m (len l) ->
  no_overtake m c (len (l ++ t)) -> (N.to_nat (len l / 16) < f)%nat ->
  exists s' ms r, runs (while f mcond ref_dec_body (s, m, c, len l)) M (write M m ms)
      (s', m + len ms, c + len ms, len r) /\
    wf s' /\ (length r < 16)%nat /\ length l = (length ms + length r)%nat /\
    readable (write M m ms) (c + len ms) (r ++ t) /\
    no_overtake (m + len ms) (c + len ms) (len (r ++ t)) /\
    dec_blocks (length l) (xs s) l =
      (let '(S2, m2) := dec_blocks (length r) (xs s') r in (S2, ms ++ m2)).
Proof.
  induction f as [|f IH]; intros M s m c l t Hs R Wr Hno Hf; [lia|].
  destruct (N.leb_spec 16 (len l)) as [H|H].
  - destruct (split_len 16 l) as (B & l' & -> & HB & LB); [exact H|]. change (N.of_nat 16) with 16 in LB.
    rewrite <- app_assoc in R, Hno.
    destruct (ref_dec_body_ok M s m c B l' t Hs HB R Wr) as (s1 & Rn & W1 & E1).
    set (mb := xor_into B (xs s)) in *.
    assert (Hmb : length mb = 16%nat) by (unfold mb; rewrite length_xor_into; exact HB).
    assert (Lmb : len mb = 16) by (apply (len_eq mb 16 Hmb)).
    destruct (readable_app _ _ _ _ R) as (_ & R').
    assert (R2 : readable (write M m mb) (c + 16) (l' ++ t)).
    { rewrite LB in R'. apply readable_write_disjoint; [exact R'|]. rewrite <- LB.
      apply no_overtake_disjoint; [exact Hno|lia]. }
    rewrite len_app, LB in Wr. destruct (writable_split _ _ _ _ Wr) as (_ & Wr').
    destruct (IH (write M m mb) s1 (m + 16) (c + 16) l' t W1 R2) as
      (s2 & ms & r & Rn2 & W2 & Hr & Hl & Rr & Hno2 & E2).
    { apply writable_write, Wr'. }
    { rewrite <- LB. apply no_overtake_step, Hno. }
    { eapply (div16_step f B l'); [lia|exact LB|exact Hf]. }
    assert (Ew : write (write M m mb) (m + 16) ms = write M m (mb ++ ms))
      by (rewrite write_app, Lmb; reflexivity).
    rewrite Ew in Rn2, Rr.
    replace (m + 16 + len ms) with (m + len (mb ++ ms)) in * by (rewrite len_app; lia).
    replace (c + 16 + len ms) with (c + len (mb ++ ms)) in * by (rewrite len_app; lia).
    exists s2, (mb ++ ms), r.
    split; [|split; [exact W2|split; [exact Hr|split; [|split; [exact Rr|split; [exact Hno2|]]]]]].
    + eapply runs_while_step; [|exact Rn|exact Rn2].
      unfold mcond, ASCON_128A_RATE. lia.
    + rewrite !app_length. lia.
    + rewrite app_length, HB. change (16 + length l')%nat with (Datatypes.S (15 + length l')).
      rewrite dec_blocks_step by exact HB. rewrite <- E1.
      rewrite (dec_blocks_fuel (15 + length l') (length l')) by lia. rewrite E2.
      fold mb. destruct (dec_blocks (length r) (xs s2) r) as [S2 m2]. rewrite app_assoc. reflexivity.
  - exists s, [], l. rewrite len_nil, !N.add_0_r. cbn [write].
    split; [|split; [exact Hs|split; [unfold len in H; lia|split; [reflexivity|split; [exact R|split; [exact Hno|]]]]]].
    + apply runs_while_end. unfold mcond, ASCON_128A_RATE. lia.
    + destruct (dec_blocks _ _ _); reflexivity.
Qed.

(** CLEARBYTES *)
Lemma testbit_clear k : forall i x j, fits 64 x -> i + N.of_nat k <= 8 ->
  N.testbit (clearbytes_loop k i x) j =
  N.testbit x j && negb ((8 * i <=? j) && (j <? 8 * (i + N.of_nat k))).
Proof.
  induction k as [|k IH]; intros i x j Hx Hk.
  - cbn [clearbytes_loop]. replace (j <? 8 * (i + N.of_nat 0)) with (j <? 8 * i) by (f_equal; lia).
    destruct (N.leb_spec (8 * i) j), (N.ltb_spec j (8 * i)); try lia; cbn; rewrite andb_true_r; reflexivity.
  - cbn [clearbytes_loop]. rewrite IH; [|apply fits_land, Hx|lia].
    rewrite N.land_spec. unfold SETBYTE. rewrite testbit_notw, testbit_shlw.
    replace (N.testbit 255 (j - 8 * i)) with (j - 8 * i <? 8) by (rewrite <- testbit_ones; reflexivity).
    destruct (N.testbit x j) eqn:Ex; [|reflexivity].
    assert (j < 64).
    { destruct (N.lt_ge_cases j 64) as [L|L]; [exact L|]. rewrite (fits_bit_high 64 x j Hx L) in Ex. discriminate. }
    replace (j <? 64) with true by lia. cbn [andb].
    destruct (N.leb_spec (8 * i) j), (N.ltb_spec (j - 8 * i) 8), (N.leb_spec (8 * (i + 1)) j),
      (N.ltb_spec j (8 * (i + 1 + N.of_nat k))), (N.ltb_spec j (8 * (i + N.of_nat (S k))));
      try lia; reflexivity.
Qed.

Lemma fits_CLEARBYTES x n : fits 64 x -> n <= 8 -> fits 64 (CLEARBYTES x n).
Proof.
  intros Hx Hn. apply fits_testbit. intros i Hi. unfold CLEARBYTES.
  rewrite testbit_clear by (auto; lia). rewrite (fits_bit_high 64 x i Hx Hi). reflexivity.
Qed.

Lemma wb_clear_or x l : fits 64 x -> (length l <= 8)%nat ->
  wb (N.lor (CLEARBYTES x (len l)) (le_num l)) = l ++ skipn (length l) (wb x).
Proof.
  intros Hx Hl. apply bytes_ext.
  { rewrite app_length, skipn_length, !wb_len. lia. }
  intros j Hj. rewrite wb_len in Hj. apply byte_ext. intros i Hi.
  unfold wb. rewrite bbit_nth_le_bytes by (auto; lia).
  rewrite N.lor_spec. unfold CLEARBYTES. rewrite testbit_clear by (auto; unfold len; lia).
  rewrite testbit_le_num, nth_app, nth_skipn.
  assert (Eq : (8 * N.of_nat j + i) / 8 = N.of_nat j) by (symmetry; apply (N.div_unique _ 8 _ i); lia).
  assert (Er : (8 * N.of_nat j + i) mod 8 = i) by (symmetry; apply (N.mod_unique _ 8 (N.of_nat j)); lia).
  rewrite Eq, Er, Nat2N.id.
  destruct (Nat.ltb_spec j (length l)) as [H|H].
  - replace ((8 * 0 <=? 8 * N.of_nat j + i) &&
      (8 * N.of_nat j + i <? 8 * (0 + N.of_nat (N.to_nat (len l))))) with true by (unfold len; lia).
    cbn [negb]. rewrite andb_false_r. reflexivity.
  - replace ((8 * 0 <=? 8 * N.of_nat j + i) &&
      (8 * N.of_nat j + i <? 8 * (0 + N.of_nat (N.to_nat (len l))))) with false by (unfold len; lia).
    cbn [negb]. rewrite andb_true_r, (nth_overflow l) by lia. rewrite bbit_x00, orb_false_r.
    replace (length l + (j - length l))%nat with j by lia. rewrite bbit_nth_le_bytes by (auto; lia). reflexivity.
Qed.

Lemma skipn_xs0 s n : (n <= 8)%nat ->
  skipn n (xs s) = skipn n (wb (X0 s)) ++ wb (X1 s) ++ wb (X2 s) ++ wb (X3 s) ++ wb (X4 s).
Proof.
  intros H. unfold xs, SB. rewrite skipn_app, wb_len.
  replace (n - 8)%nat with 0%nat by lia. reflexivity.
Qed.
Lemma skipn_xs1 s n : (n <= 8)%nat ->
  skipn (8 + n) (xs s) = skipn n (wb (X1 s)) ++ wb (X2 s) ++ wb (X3 s) ++ wb (X4 s).
Proof.
  intros H. rewrite <- skipn_skipn. unfold xs, SB. rewrite (skipn_app_exact 8) by apply wb_len.
  rewrite skipn_app, wb_len. replace (n - 8)%nat with 0%nat by lia. reflexivity.
Qed.

Lemma ref_dec_ok M s m c l t : wf s -> readable M c (l ++ t) -> writable M m (len l) ->
  no_overtake m c (len (l ++ t)) ->
  exists s' mb, dec_blocks (length l) (xs s) l = (xs s', mb) /\ wf s' /\ length mb = length l /\
    readable (write M m mb) (c + len l) t /\
    runs (ref_dec s m c (len l)) M (write M m mb) (s', c + len l).
Proof.
  intros Hs R Wr Hno. pose proof (readable_bound _ _ _ R) as Hbd. rewrite len_app in Hbd.
  pose proof (writable_bound _ _ _ Wr) as Hbw.
  destruct (ref_dec_while (fuel (len l) 16) M s m c l t Hs R Wr Hno) as
    (s1 & ms & r & Rn & W1 & Hr & Hl & Rr & Hno2 & E1); [unfold fuel; lia|].
  assert (Ll : len l = len ms + len r) by (unfold len; lia).
  rewrite (dec_blocks_short _ _ r) in E1 by exact Hr.
  assert (Wr' : writable (write M m ms) (m + len ms) (len r)).
  { rewrite Ll in Wr. apply writable_split in Wr. apply writable_write, Wr. }
  assert (Hnull : len l <> 0 -> m <> 0 /\ c <> 0).
  { intros Hz. split; [|eapply readable_nonnull; [exact R|rewrite len_app; lia]].
    destruct Wr as (_ & Hn & _). apply Hn, Hz. }
  destruct (readable_app _ _ _ _ Rr) as (Rr1 & Rr2).
  set (S2 := xor_at (length r) (r ++ skipn (length r) (xs s1)) [x01]) in *.
  assert (exists s2, wf s2 /\ xs s2 = S2 /\
    runs (if 8 <=? len r then
    c0 <- LOADBYTES (c + len ms) 8 ;;
    cp8 <- padd (c + len ms) 8 ;; c1 <- LOADBYTES cp8 (sub64 (len r) 8) ;;
    STOREBYTES (m + len ms) (N.lxor (X0 s1) c0) 8 ;;;
    m8 <- padd (m + len ms) 8 ;; STOREBYTES m8 (N.lxor (X1 s1) c1) (sub64 (len r) 8) ;;;
    let s := set0 s1 c0 in
    let s := set1 s (CLEARBYTES (X1 s) (sub64 (len r) 8)) in
    let s := set1 s (N.lor (X1 s) c1) in
    ret (xor1 s (PAD (sub64 (len r) 8)))
  else
    c0 <- LOADBYTES (c + len ms) (len r) ;;
    STOREBYTES (m + len ms) (N.lxor (X0 s1) c0) (len r) ;;;
    let s := set0 s1 (CLEARBYTES (X0 s1) (len r)) in
    let s := set0 s (N.lor (X0 s) c0) in
    ret (xor0 s (PAD (len r)))) (write M m ms)
      (write (write M m ms) (m + len ms) (xor_into r (xs s1))) s2)
    as (s2 & W2 & E2 & Rn2).
  { pose proof (readable_bound _ _ _ Rr1) as Hbr. destruct W1 as (F0 & F1 & F2 & F3 & F4).
    assert (W1 : wf s1) by (repeat split; assumption).
    destruct (N.leb_spec 8 (len r)) as [H8|H8].
    - destruct (split_len 8 r) as (b0 & b1 & -> & H0 & L0); [lia|]. change (N.of_nat 8) with 8 in L0.
      rewrite app_length in Hr. assert (H1 : (length b1 < 8)%nat) by lia.
      destruct (readable_app _ _ _ _ Rr1) as (R0 & R1). rewrite L0 in R1.
      rewrite len_app, L0 in Wr'. destruct (writable_split _ _ _ _ Wr') as (Wa & Wb).
      set (sy := set1 (set1 (set0 s1 (le_num b0)) (CLEARBYTES (X1 s1) (len b1)))
                    (N.lor (CLEARBYTES (X1 s1) (len b1)) (le_num b1))).
      assert (Wsy : wf sy).
      { apply wf_set1; [apply wf_set1; [apply wf_set0; [exact W1|apply fits_le_num8; lia]|]|].
        - apply fits_CLEARBYTES; [exact F1|unfold len; lia].
        - apply fits_lor; [apply fits_CLEARBYTES; [exact F1|unfold len; lia]|apply fits_le_num8; lia]. }
      assert (Esy : xs sy = (b0 ++ b1) ++ skipn (length (b0 ++ b1)) (xs s1)).
      { unfold sy, xs, SB, set1, set0. cbn [X0 X1 X2 X3 X4].
        rewrite wb_le_num8 by exact H0. rewrite wb_clear_or by (auto; lia).
        rewrite app_length, H0. change (wb (X0 s1) ++ wb (X1 s1) ++ wb (X2 s1) ++ wb (X3 s1) ++ wb (X4 s1)) with (xs s1).
        rewrite skipn_xs1 by lia. rewrite <- !app_assoc. reflexivity. }
      exists (xor1 sy (PAD (len b1))). split; [|split].
      + apply wf_xor1; [exact Wsy|apply fits_PAD].
      + etransitivity; [apply (xs_PAD sy 1 (len b1)); [exact Wsy|lia|unfold len; lia]|].
        rewrite Esy. unfold S2. rewrite to_nat_len, app_length, H0. reflexivity.
      + eapply runs_bind; [apply runs_LOADBYTES with (l := b0); [exact R0|unfold len; lia|lia]|].
        eapply runs_bind; [eapply runs_padd_readable; [exact Rr1|lia]|].
        rewrite sub64_small by lia.
        replace (len (b0 ++ b1) - 8) with (len b1) by (rewrite len_app; lia).
        eapply runs_bind; [apply runs_LOADBYTES with (l := b1); [exact R1|unfold len; lia|lia]|].
        eapply runs_bind; [apply runs_STOREBYTES; exact Wa|].
        eapply runs_bind; [eapply runs_padd_writable; [exact (writable_write _ _ _ _ _ Wr')|lia]|].
        eapply runs_bind; [apply runs_STOREBYTES; apply writable_write; exact Wb|].
        rewrite to_nat_len. change (N.to_nat 8) with 8%nat.
        replace (xor_into (b0 ++ b1) (xs s1)) with
          (wb (N.lxor (X0 s1) (le_num b0)) ++ le_bytes (length b1) (N.lxor (X1 s1) (le_num b1))).
        * rewrite write_app, len_wb. apply runs_ret.
        * rewrite xor_into_block by (rewrite length_xs, app_length; lia).
          rewrite <- xs_block by (auto; lia). rewrite app_length, H0, firstn_xs1 by lia.
          rewrite firstn_le_bytes by lia. reflexivity.
    - assert (H1 : (length r < 8)%nat) by (unfold len in H8; lia).
      set (sy := set0 (set0 s1 (CLEARBYTES (X0 s1) (len r)))
                    (N.lor (CLEARBYTES (X0 s1) (len r)) (le_num r))).
      assert (Wsy : wf sy).
      { apply wf_set0; [apply wf_set0; [exact W1|]|].
        - apply fits_CLEARBYTES; [exact F0|unfold len; lia].
        - apply fits_lor; [apply fits_CLEARBYTES; [exact F0|unfold len; lia]|apply fits_le_num8; lia]. }
      assert (Esy : xs sy = r ++ skipn (length r) (xs s1)).
      { unfold sy, xs, SB, set0. cbn [X0 X1 X2 X3 X4]. rewrite wb_clear_or by (auto; lia).
        change (wb (X0 s1) ++ wb (X1 s1) ++ wb (X2 s1) ++ wb (X3 s1) ++ wb (X4 s1)) with (xs s1).
        rewrite skipn_xs0 by lia. rewrite <- !app_assoc. reflexivity. }
      exists (xor0 sy (PAD (len r))). split; [|split].
      + apply wf_xor0; [exact Wsy|apply fits_PAD].
      + etransitivity; [apply (xs_PAD sy 0 (len r)); [exact Wsy|lia|unfold len; lia]|].
        rewrite Esy. unfold S2. rewrite to_nat_len. reflexivity.
      + eapply runs_bind; [apply runs_LOADBYTES with (l := r); [exact Rr1|reflexivity|lia]|].
        eapply runs_bind; [apply runs_STOREBYTES; exact Wr'|].
        rewrite to_nat_len.
        replace (xor_into r (xs s1)) with (le_bytes (length r) (N.lxor (X0 s1) (le_num r))).
        * apply runs_ret.
        * rewrite xor_into_block by (rewrite length_xs; lia).
          rewrite <- xs_block0 by (auto; lia). rewrite firstn_xs0 by lia.
          rewrite firstn_le_bytes by lia. reflexivity. }
  exists s2, (ms ++ xor_into r (xs s1)).
  assert (Ew : write M m (ms ++ xor_into r (xs s1)) =
    write (write M m ms) (m + len ms) (xor_into r (xs s1))) by apply write_app.
  split; [rewrite E2; exact E1|]. split; [exact W2|]. split; [rewrite app_length, length_xor_into; lia|].
  split.
  - rewrite Ew. replace (c + len l) with (c + len ms + len r) by lia.
    apply readable_write_disjoint; [exact Rr2|].
    apply no_overtake_disjoint; [exact Hno2|]. unfold len. rewrite length_xor_into. lia.
  - rewrite Ew. unfold ref_dec.
    eapply runs_bind; [exact Rn|]. cbn beta iota.
    apply runs_bind with (M1 := write M m ms) (a := (8 <=? len r)); [apply runs_branch|].
    eapply runs_bind; [exact Rn2|]. cbn beta.
    eapply runs_bind; [apply runs_padd; [|intros Hz; assert (len l <> 0) by lia; specialize (Hnull H); lia]|].
    { lia. }
    eapply runs_bind; [apply runs_padd; [|intros Hz; assert (len l <> 0) by lia; specialize (Hnull H); lia]|].
    { lia. }
    replace (c + len ms + len r) with (c + len l) by lia. apply runs_ret.
Qed.

(** ** Tag comparison *)

Lemma lor_zero a b : N.lor a b = 0 <-> a = 0 /\ b = 0.
Proof. split; [apply N.lor_eq_0_iff|intros (-> & ->); reflexivity]. Qed.

Lemma lxor_b2n_zero a b : N.lxor (b2n a) (b2n b) = 0 <-> a = b.
Proof. rewrite N.lxor_eq_0_iff. split; [apply b2n_inj|intros ->; reflexivity]. Qed.

(** The value the comparison loops accumulate. *)
Fixpoint diff_acc (r : N) (a t : bytes) : N :=
  match a, t with
  | x :: a', y :: t' => diff_acc (N.lor r (N.lxor (b2n x) (b2n y))) a' t'
  | _, _ => r
  end.

Lemma diff_acc_zero a : forall t r, length a = length t -> (diff_acc r a t = 0 <-> r = 0 /\ a = t).
Proof.
  induction a as [|x a IH]; intros [|y t] r H; try discriminate; cbn [diff_acc].
  - tauto.
  - cbn [length] in H. rewrite IH by lia. rewrite lor_zero, lxor_b2n_zero.
    split; [intros ((? & ->) & ->); auto|intros (? & E); inversion E; auto].
Qed.

Lemma diff_acc_lt a : forall t r, fits 8 r -> fits 8 (diff_acc r a t).
Proof.
  induction a as [|x a IH]; intros [|y t] r H; cbn [diff_acc]; try exact H.
  apply IH. apply fits_lor; [exact H|]. apply fits_lxor; apply fits_b2n.
Qed.

Lemma verdict_ok r : fits 8 r -> verdict r = if r =? 0 then 0%Z else (-1)%Z.
Proof.
  intros H. unfold fits in H. change (2 ^ 8) with 256 in H. unfold verdict.
  destruct (N.eqb_spec r 0) as [->|Hr]; [reflexivity|].
  rewrite Z.shiftr_div_pow2 by lia. rewrite Z.div_small by lia. reflexivity.
Qed.

Lemma diff_loop_go M a t1 t2 l1 l2 r : readable M a (l1 ++ l2) -> length l1 = length t1 ->
  length l2 = length t2 ->
  runs (for_loop (length t2) (len l1)
    (fun i r => b <- ld a i ;;
       ret (N.lor r (N.lxor (b2n b) (b2n (nth (N.to_nat i) (t1 ++ t2) x00))))) r) M M
   (diff_acc r l2 t2).
Proof.
  revert t1 l1 l2 r; induction t2 as [|y t2 IH]; intros t1 l1 l2 r R H1 H2.
  - destruct l2; [|discriminate]. cbn [length diff_acc]. apply runs_for_O.
  - destruct l2 as [|x l2]; [discriminate|]. cbn [length] in *. cbn [diff_acc].
    eapply runs_for_S.
    + eapply runs_bind.
      * apply runs_ld with (l := l1 ++ x :: l2); [exact R|]. rewrite app_length. cbn [length]. lia.
      * rewrite to_nat_len, app_nth2, Nat.sub_diag by lia.
        rewrite H1, app_nth2, Nat.sub_diag by lia. cbn [nth]. apply runs_ret.
    + replace (len l1 + 1) with (len (l1 ++ [x])) by (rewrite len_app; reflexivity).
      replace (t1 ++ y :: t2) with ((t1 ++ [y]) ++ t2) by (rewrite <- app_assoc; reflexivity).
      apply (IH (t1 ++ [y]) (l1 ++ [x]) l2).
      * rewrite <- app_assoc. exact R.
      * rewrite !app_length. cbn [length]. lia.
      * lia.
Qed.

Lemma runs_diff_loop M a t l : readable M a l -> length l = length t ->
  runs (diff_loop a t) M M (diff_acc 0 l t).
Proof. intros R H. apply (diff_loop_go M a [] t [] l 0); auto. Qed.

Lemma verdict_diff l t : length l = length t ->
  verdict (diff_acc 0 l t) = (if list_eq_dec Byte.byte_eq_dec t l then 0 else -1)%Z.
Proof.
  intros H. rewrite verdict_ok by (apply diff_acc_lt, fits_0).
  pose proof (diff_acc_zero l t 0 H) as Hz.
  destruct (list_eq_dec Byte.byte_eq_dec t l) as [E|E].
  - replace (diff_acc 0 l t) with 0; [reflexivity|]. symmetry. apply Hz. auto.
  - destruct (N.eqb_spec (diff_acc 0 l t) 0) as [Z|Z]; [|reflexivity].
    apply Hz in Z. destruct Z as (_ & Z). congruence.
Qed.

(** ** Decryption, complete *)

Theorem ref_decrypt_short e M m mlen nsec c clen ad adlen npub k :
  clen < 16 -> runs (crypto_aead_decrypt e m mlen nsec c clen ad adlen npub k) M M (-1)%Z.
Proof.
  intros H. unfold crypto_aead_decrypt, CRYPTO_ABYTES.
  eapply runs_bind; [apply runs_branch|]. replace (clen <? 16) with true by lia. apply runs_ret.
Qed.

Theorem ref_decrypt_ok e M m mlen nsec c ad npub k kb nb adb body tag mb t :
  is16 kb -> is16 nb -> is16 tag ->
  readable M k kb -> readable M npub nb -> readable M ad adb -> readable M c (body ++ tag) ->
  writable M m (len body) -> writable M mlen 8 ->
  disjoint mlen 8 k 16 -> disjoint mlen 8 npub 16 -> disjoint mlen 8 ad (len adb) ->
  disjoint mlen 8 c (len (body ++ tag)) ->
  no_overtake m c (len (body ++ tag)) ->
  aead_open kb nb adb body = (mb, t) ->
  runs (crypto_aead_decrypt e m mlen nsec c (len (body ++ tag)) ad (len adb) npub k) M
    (write (write M mlen (to_host e 8 (len body))) m mb)
    (if list_eq_dec Byte.byte_eq_dec t tag then 0 else -1)%Z
  /\ length mb = length body /\ is16 t.
Proof.
  intros Hk Hn Ht Rk Rn Ra Rc Wm Wml Dk Dn Da Dc Hno Hopen.
  pose proof (readable_bound _ _ _ Rc) as Hbd.
  set (M1 := write M mlen (to_host e 8 (len body))).
  assert (Lh : len (to_host e 8 (len body)) = 8) by (unfold len at 1; rewrite length_to_host; reflexivity).
  assert (Lk : len kb = 16) by (apply (len_eq kb 16), Hk).
  assert (Ln : len nb = 16) by (apply (len_eq nb 16), Hn).
  assert (Lt : len tag = 16) by (apply (len_eq tag 16), Ht).
  assert (Rk1 : readable M1 k kb) by (apply readable_write_disjoint; [exact Rk|rewrite Lh, Lk; exact Dk]).
  assert (Rn1 : readable M1 npub nb) by (apply readable_write_disjoint; [exact Rn|rewrite Lh, Ln; exact Dn]).
  assert (Ra1 : readable M1 ad adb) by (apply readable_write_disjoint; [exact Ra|rewrite Lh; exact Da]).
  assert (Rc1 : readable M1 c (body ++ tag)) by (apply readable_write_disjoint; [exact Rc|rewrite Lh; exact Dc]).
  assert (Wm1 : writable M1 m (len body)) by (apply writable_write, Wm).
  destruct (ref_init_ok M1 npub k kb nb Hk Hn Rk1 Rn1) as (k0 & k1 & s0 & -> & H0 & H1 & W0 & Rn0 & E0).
  destruct (ref_adata_ok M1 s0 ad adb W0 Ra1) as (s1 & W1 & Ws1 & E1).
  destruct (ref_dec_ok M1 s1 m c body tag Ws1 Rc1 Wm1 Hno) as (s2 & mb' & E2 & W2 & Hmb & Rt & Rn2).
  destruct (ref_final_ok s2 k0 k1 W2 H0 H1) as (W3 & E3).
  set (s3 := ref_final s2 (le_num k0) (le_num k1)) in *.
  unfold aead_open in Hopen. rewrite <- E0, <- E1, E2 in Hopen. inversion Hopen; subst mb t. clear Hopen.
  assert (L16 : is16 (aead_tag (k0 ++ k1) (xs s2))).
  { unfold is16. rewrite <- E3, app_length, !wb_len. reflexivity. }
  split; [|split; [exact Hmb|exact L16]].
  unfold crypto_aead_decrypt, CRYPTO_ABYTES.
  eapply runs_bind; [apply runs_branch|].
  assert (Lb : len (body ++ tag) = len body + 16) by (rewrite len_app; lia).
  replace (len (body ++ tag) <? 16) with false by lia.
  eapply runs_bind; [apply runs_store_ull; exact Wml|].
  rewrite sub64_small by lia. replace (len (body ++ tag) - 16) with (len body) by lia. fold M1.
  eapply runs_bind; [exact Rn0|]. cbn beta iota.
  eapply runs_bind; [exact W1|].
  eapply runs_bind; [exact Rn2|]. cbn beta iota zeta. fold s3.
  rewrite !STOREBYTES_local_eq. fold (wb (X3 s3)) (wb (X4 s3)). rewrite E3.
  eapply runs_bind; [apply runs_diff_loop; [exact Rt|rewrite L16; exact Ht]|].
  rewrite verdict_diff by (rewrite L16; exact Ht). apply runs_ret.
Qed.
