(** * Opt8Dec.v -- the byte-oriented AEAD refines the specification: decryption. *)
From Coq Require Import Arith Bool NArith ZArith List Lia Init.Byte.
From Coq Require Import ZifyBool ZifyNat ZifyN.
From Verif Require Import Words WordFacts Spec SpecFacts CMem Contract CMemFacts ModelRef
  StateRep RefRound RefPrim RefAead RefAeadDec ModelCommon ComAead ModelOpt8 Opt8Prim Opt8Aead.
Import ListNotations.
Local Open Scope N_scope.

Section Opt8Dec.
Variable P : N -> bytes -> bytes.
Hypothesis HP : conforming P.

Ltac step := eapply runs_bind.

Definition dcond8 : bytes * ptr * ptr * N -> bool := fun '(_, _, _, clen) => 16 <=? clen.

Lemma dec2_ok M s m c b0 b1 t : length s = 40%nat -> length b0 = 8%nat -> (length b1 <= 8)%nat ->
  readable M c (b0 ++ b1 ++ t) -> writable M m (len (b0 ++ b1)) -> no_overtake m c (len (b0 ++ b1 ++ t)) ->
  exists M1, runs (DECRYPT s 0 m c 8) M M1 (put 0 s b0) /\
    runs (DECRYPT (put 0 s b0) 8 (m + 8) (c + 8) (len b1)) M1
      (write M m (xor_into (b0 ++ b1) s)) ((b0 ++ b1) ++ skipn (length (b0 ++ b1)) s).
Proof.
  intros Hs H0 H1 R W Hno. assert (L0 : len b0 = 8) by (apply (len_eq b0 8 H0)).
  destruct (readable_app _ _ _ _ R) as (R0 & R12).
  pose proof (no_overtake_disjoint _ _ _ _ 8 Hno ltac:(lia)) as D. rewrite L0 in R12, D.
  rewrite len_app, L0 in W. destruct (writable_split _ _ _ _ W) as (Wa & Wb).
  set (c0 := xor_into (cut 0 8 s) b0).
  assert (Lc : length c0 = 8%nat) by (unfold c0; rewrite length_xor_into; apply length_cut; lia).
  assert (Lc' : len c0 = 8) by (apply (len_eq c0 8 Lc)).
  exists (write M m c0). split.
  - unfold c0. rewrite <- H0. apply (decrypt_ok M s 0 m c b0 8); [exact R0|lia|exact Wa| |lia].
    revert Hno. unfold no_overtake. rewrite len_app. lia.
  - assert (R1 : readable (write M m c0) (c + 8) b1).
    { apply (readable_app _ _ b1 t). apply readable_write_disjoint; [exact R12|]. rewrite Lc'. exact D. }
    rewrite <- (dec_out s b0 b1) by lia. rewrite write_app, H0. fold c0. rewrite Lc'.
    rewrite <- put_0. rewrite <- (put_app 0 s b0 b1) by lia. rewrite H0.
    apply (decrypt_ok (write M m c0) (put 0 s b0) 8 (m + 8) (c + 8) b1 (len b1)); [exact R1|reflexivity| | |].
    + apply writable_write, Wb.
    + revert Hno. unfold no_overtake. rewrite !len_app. lia.
    + rewrite length_put by lia. change (N.to_nat 8) with 8%nat. lia.
Qed.

Lemma dec_body_ok M s m c B l t : length s = 40%nat -> length B = 16%nat -> readable M c (B ++ l ++ t) ->
  writable M m (len (B ++ l)) -> no_overtake m c (len (B ++ l ++ t)) ->
  runs (o8_dec_body P (s, m, c, len (B ++ l))) M (write M m (xor_into B s))
    (p 8 (B ++ skipn 16 s), m + 16, c + 16, len l).
Proof.
  intros Hs HB R Wr Hno. pose proof (readable_bound _ _ _ R) as Hbd.
  pose proof (writable_bound _ _ _ Wr) as Hbw.
  assert (Hlen : len (B ++ l) = 16 + len l) by (rewrite len_app, (len_eq B 16 HB); lia).
  assert (Hlen' : len (B ++ l ++ t) = 16 + len (l ++ t)) by (rewrite len_app, (len_eq B 16 HB); lia).
  assert (Nc : c <> 0) by (eapply readable_nonnull; [exact R|lia]).
  assert (Nm : m <> 0) by (apply Wr; lia).
  assert (HB' := HB).
  destruct (split_len 8 B) as (b0 & b1 & -> & H0 & L0); [unfold len; lia|]. change (N.of_nat 8) with 8 in L0.
  rewrite app_length in HB. assert (H1 : length b1 = 8%nat) by lia.
  assert (L1 : len b1 = 8) by (apply (len_eq b1 8 H1)).
  assert (R' := R). rewrite <- app_assoc in R', Hno.
  assert (W16 : writable M m (len (b0 ++ b1))).
  { rewrite len_app in Wr. apply (writable_split _ _ _ _ Wr). }
  destruct (dec2_ok M s m c b0 b1 (l ++ t) Hs H0 ltac:(lia) R' W16 Hno) as (M1 & Ra & Rb).
  rewrite L1, HB' in Rb. unfold o8_dec_body.
  step; [exact Ra|].
  step; [apply runs_padd; [lia|intros _; exact Nm]|].
  step; [apply runs_padd; [lia|intros _; exact Nc]|].
  step; [exact Rb|].
  rewrite (P8_ok P HP) by (rewrite app_length, skipn_length; lia).
  step; [apply runs_padd; [lia|intros _; exact Nm]|].
  step; [apply runs_padd; [lia|intros _; exact Nc]|].
  rewrite sub64_small by lia. rewrite Hlen. replace (16 + len l - 16) with (len l) by lia.
  apply runs_ret.
Qed.

Lemma dec_while f : forall M s m c l t, length s = 40%nat -> readable M c (l ++ t) -> writable M m (len l) ->
  no_overtake m c (len (l ++ t)) -> (N.to_nat (len l / 16) < f)%nat ->
  exists s' ms r, runs (while f dcond8 (o8_dec_body P) (s, m, c, len l)) M (write M m ms)
      (s', m + len ms, c + len ms, len r) /\
    length s' = 40%nat /\ (length r < 16)%nat /\ length l = (length ms + length r)%nat /\
    readable (write M m ms) (c + len ms) (r ++ t) /\
    no_overtake (m + len ms) (c + len ms) (len (r ++ t)) /\
    dec_blocks (length l) s l =
      (let '(S2, m2) := dec_blocks (length r) s' r in (S2, ms ++ m2)).
Proof.
  induction f as [|f IH]; intros M s m c l t Hs R Wr Hno Hf; [lia|].
  destruct (N.leb_spec 16 (len l)) as [H|H].
  - destruct (split_len 16 l) as (B & l' & -> & HB & LB); [exact H|]. change (N.of_nat 16) with 16 in LB.
    rewrite <- app_assoc in R, Hno.
    pose proof (dec_body_ok M s m c B l' t Hs HB R Wr Hno) as Rn.
    set (mb := xor_into B s) in *.
    assert (Hmb : length mb = 16%nat) by (unfold mb; rewrite length_xor_into; exact HB).
    assert (Lmb : len mb = 16) by (apply (len_eq mb 16 Hmb)).
    destruct (readable_app _ _ _ _ R) as (_ & R').
    assert (R2 : readable (write M m mb) (c + 16) (l' ++ t)).
    { rewrite LB in R'. apply readable_write_disjoint; [exact R'|]. rewrite <- LB.
      apply no_overtake_disjoint; [exact Hno|lia]. }
    rewrite len_app, LB in Wr. destruct (writable_split _ _ _ _ Wr) as (_ & Wr').
    destruct (IH (write M m mb) (p 8 (B ++ skipn 16 s)) (m + 16) (c + 16) l' t (length_p _ _) R2) as
      (s2 & ms & r & Rn2 & W2 & Hr & Hl & Rr & Hno2 & E2).
    { apply writable_write, Wr'. }
    { rewrite <- LB. apply no_overtake_step, Hno. }
    { eapply (div16_step f B l'); [lia|exact LB|exact Hf]. }
    assert (Ew : write (write M m mb) (m + 16) ms = write M m (mb ++ ms))
      by (rewrite write_app, Lmb; reflexivity).
    rewrite Ew in Rn2, Rr.
    replace (m + 16 + len ms) with (m + len (mb ++ ms)) in * by (rewrite len_app; lia).
    replace (c + 16 + len ms) with (c + len (mb ++ ms)) in * by (rewrite len_app; lia).
    exists s2, (mb ++ ms), r.
    split; [|split; [exact W2|split; [exact Hr|split; [|split; [exact Rr|split; [exact Hno2|]]]]]].
    + eapply runs_while_step; [|exact Rn|exact Rn2].
      unfold dcond8. lia.
    + rewrite !app_length. lia.
    + rewrite app_length, HB. change (16 + length l')%nat with (Datatypes.S (15 + length l')).
      rewrite dec_blocks_step by exact HB.
      rewrite (dec_blocks_fuel (15 + length l') (length l')) by lia. rewrite E2.
      fold mb. destruct (dec_blocks (length r) s2 r) as [S2 m2]. rewrite app_assoc. reflexivity.
  - exists s, [], l. rewrite len_nil, !N.add_0_r. cbn [write].
    split; [|split; [exact Hs|split; [unfold len in H; lia|split; [reflexivity|split; [exact R|split; [exact Hno|]]]]]].
    + apply runs_while_end. unfold dcond8. lia.
    + destruct (dec_blocks _ _ _); reflexivity.
Qed.

Lemma decrypt_data_ok M s m c l t : length s = 40%nat -> readable M c (l ++ t) -> writable M m (len l) ->
  no_overtake m c (len (l ++ t)) ->
  exists s' mb, dec_blocks (length l) s l = (s', mb) /\ length s' = 40%nat /\ length mb = length l /\
    readable (write M m mb) (c + len l) t /\
    runs (o8_decrypt P s m c (len l)) M (write M m mb) s'.
Proof.
  intros Hs R Wr Hno. pose proof (readable_bound _ _ _ R) as Hbd. rewrite len_app in Hbd.
  pose proof (writable_bound _ _ _ Wr) as Hbw.
  destruct (dec_while (fuel (len l) 16) M s m c l t Hs R Wr Hno) as
    (s1 & ms & r & Rn & W1 & Hr & Hl & Rr & Hno2 & E1); [unfold fuel; lia|].
  assert (Ll : len l = len ms + len r) by (unfold len; lia).
  rewrite (dec_blocks_short _ _ r) in E1 by exact Hr.
  assert (Wr' : writable (write M m ms) (m + len ms) (len r)).
  { rewrite Ll in Wr. apply writable_split in Wr. apply writable_write, Wr. }
  destruct (readable_app _ _ _ _ Rr) as (Rr1 & Rr2).
  set (S2 := xor_at (length r) (r ++ skipn (length r) s1) [x01]) in *.
  assert (LS : length (r ++ skipn (length r) s1) = 40%nat) by (rewrite app_length, skipn_length; lia).
  assert (HS2 : length S2 = 40%nat) by (unfold S2; rewrite length_xor_at; lia).
  exists S2, (ms ++ xor_into r s1). split; [exact E1|]. split; [exact HS2|].
  split; [rewrite app_length, length_xor_into; lia|].
  rewrite write_app.
  set (M1 := write M m ms) in *. set (m1 := m + len ms) in *. set (c1 := c + len ms) in *.
  split.
  { replace (c + len l) with (c1 + len r) by (unfold c1; lia).
    apply readable_write_disjoint; [exact Rr2|].
    apply no_overtake_disjoint; [exact Hno2|]. unfold len. rewrite length_xor_into. lia. }
  unfold o8_decrypt. step; [exact Rn|]. cbn beta iota. step; [apply runs_branch|].
  pose proof (readable_bound _ _ _ Rr1) as Hbr. pose proof (writable_bound _ _ _ Wr') as Hbr'.
  destruct (N.leb_spec 8 (len r)) as [H8|H8]; cbn beta iota.
  - assert (Nc : c1 <> 0) by (eapply readable_nonnull; [exact Rr1|lia]).
    assert (Nm : m1 <> 0) by (apply Wr'; lia).
    destruct (split_len 8 r) as (b0 & b1 & -> & H0 & L0); [lia|]. change (N.of_nat 8) with 8 in L0.
    rewrite app_length in Hr. assert (H1 : (length b1 < 8)%nat) by lia.
    assert (R' : readable M1 c1 (b0 ++ b1 ++ t)) by (rewrite app_assoc; exact Rr).
    assert (Hno' : no_overtake m1 c1 (len (b0 ++ b1 ++ t))) by (rewrite app_assoc; exact Hno2).
    destruct (dec2_ok M1 s1 m1 c1 b0 b1 t W1 H0 ltac:(lia) R' Wr' Hno') as (M2 & Ra & Rb).
    step.
    { step; [exact Ra|].
      step; [apply runs_padd; [lia|intros _; exact Nm]|].
      step; [apply runs_padd; [lia|intros _; exact Nc]|].
      rewrite sub64_small by lia.
      replace (len (b0 ++ b1) - 8) with (len b1) by (rewrite len_app; lia). apply runs_ret. }
    cbn beta iota. change (8 * 1) with 8.
    step; [exact Rb|]. unfold S2.
    replace (length (b0 ++ b1)) with (8 * N.to_nat 1 + N.to_nat (len b1))%nat at 2
      by (rewrite to_nat_len, app_length, H0; reflexivity).
    apply xorb8_ok; [reflexivity|apply len_lt8, H1|exact LS].
  - assert (H1 : (length r < 8)%nat) by (unfold len in H8; lia).
    step; [apply runs_ret|]. cbn beta iota.
    step; [apply (decrypt_ok M1 s1 (8 * 0) m1 c1 r (len r)); [exact Rr1|reflexivity|exact Wr'| |lia]|].
    { revert Hno2. unfold no_overtake. rewrite len_app. lia. }
    change (N.to_nat (8 * 0)) with 0%nat. rewrite put_0.
    replace (xor_into (cut 0 (length r) s1) r) with (xor_into r s1).
    2:{ rewrite <- (xor_into_firstn_r r s1). unfold cut. cbn [skipn]. apply xor_into_comm.
        rewrite firstn_length. lia. }
    unfold S2.
    replace (xor_at (length r) (r ++ skipn (length r) s1) [x01]) with
      (xor_at (8 * N.to_nat 0 + N.to_nat (len r)) (r ++ skipn (length r) s1) [x01]) by (rewrite to_nat_len; reflexivity).
    apply xorb8_ok; [reflexivity|exact H8|exact LS].
Qed.

Theorem o8_decrypt_short M m mlen nsec c clen ad adlen npub k :
  clen < 16 -> runs (o8_aead_decrypt LE P m mlen nsec c clen ad adlen npub k) M M (-1)%Z.
Proof.
  intros H. unfold o8_aead_decrypt, CRYPTO_ABYTES.
  step; [apply runs_branch|]. replace (clen <? 16) with true by lia. apply runs_ret.
Qed.

Theorem o8_decrypt_ok M m mlen nsec c ad npub k kb nb adb body tag mb t :
  is16 kb -> is16 nb -> is16 tag ->
  readable M k kb -> readable M npub nb -> readable M ad adb -> readable M c (body ++ tag) ->
  writable M m (len body) -> writable M mlen 8 ->
  disjoint mlen 8 k 16 -> disjoint mlen 8 npub 16 -> disjoint mlen 8 ad (len adb) ->
  disjoint mlen 8 c (len (body ++ tag)) ->
  no_overtake m c (len (body ++ tag)) ->
  aead_open kb nb adb body = (mb, t) ->
  runs (o8_aead_decrypt LE P m mlen nsec c (len (body ++ tag)) ad (len adb) npub k) M
    (write (write M mlen (to_host LE 8 (len body))) m mb)
    (if list_eq_dec Byte.byte_eq_dec t tag then 0 else -1)%Z
  /\ length mb = length body /\ is16 t.
Proof.
  intros Hk Hn Ht Rk Rn Ra Rc Wm Wml Dk Dn Da Dc Hno Hopen.
  pose proof (readable_bound _ _ _ Rc) as Hbd.
  set (M1 := write M mlen (to_host LE 8 (len body))).
  assert (Lh : len (to_host LE 8 (len body)) = 8) by (unfold len at 1; rewrite length_to_host; reflexivity).
  assert (Lk : len kb = 16) by (apply (len_eq kb 16), Hk).
  assert (Ln : len nb = 16) by (apply (len_eq nb 16), Hn).
  assert (Lt : len tag = 16) by (apply (len_eq tag 16), Ht).
  assert (Lb : len (body ++ tag) = len body + 16) by (rewrite len_app; lia).
  assert (Rk1 : readable M1 k kb) by (apply readable_write_disjoint; [exact Rk|rewrite Lh, Lk; exact Dk]).
  assert (Rn1 : readable M1 npub nb) by (apply readable_write_disjoint; [exact Rn|rewrite Lh, Ln; exact Dn]).
  assert (Ra1 : readable M1 ad adb) by (apply readable_write_disjoint; [exact Ra|rewrite Lh; exact Da]).
  assert (Rc1 : readable M1 c (body ++ tag)) by (apply readable_write_disjoint; [exact Rc|rewrite Lh; exact Dc]).
  assert (Wm1 : writable M1 m (len body)) by (apply writable_write, Wm).
  assert (Fb : fits 64 (len body)) by (unfold fits; lia).
  assert (Rl : readable M1 mlen (to_host LE 8 (len body))).
  { apply readable_write_self; [rewrite Lh; apply (writable_bound _ _ _ Wml)|]. intros _. apply Wml. discriminate. }
  pose proof (loadkey_ok M1 k kb Hk Rk1) as Rnk.
  pose proof (initaead_ok P HP M1 npub kb nb Hk Hn Rn1) as Rn0.
  pose proof (adata_ok P HP M1 _ ad adb (length_aead_init kb nb) Ra1) as W1.
  unfold aead_open in Hopen.
  set (s1 := aead_ad (aead_init kb nb) adb) in *.
  assert (Ls1 : length s1 = 40%nat) by (apply length_aead_ad, length_aead_init).
  destruct (decrypt_data_ok M1 s1 m c body tag Ls1 Rc1 Wm1 Hno) as (s2 & mb' & E2 & W2 & Hmb & Rt & Rn2).
  destruct (final_ok P HP (write M1 m mb') s2 kb W2 Hk) as (s3 & Rn3 & W3 & E3).
  rewrite E2 in Hopen. inversion Hopen; subst mb t. clear Hopen.
  split; [|split; [exact Hmb|apply length_aead_tag, W2]].
  unfold o8_aead_decrypt, CRYPTO_ABYTES.
  step; [apply runs_branch|].
  replace (len (body ++ tag) <? 16) with false by lia.
  step; [apply runs_store_ull; exact Wml|].
  rewrite sub64_small by lia. replace (len (body ++ tag) - 16) with (len body) by lia. fold M1.
  step; [apply runs_load_ull; [exact Rl|exact Fb]|].
  step; [eapply runs_padd_readable; [exact Rc1|lia]|].
  step; [apply runs_load_ull; [exact Rl|exact Fb]|].
  unfold o8_ascon_aead_decrypt.
  step; [exact Rnk|].
  step; [exact Rn0|].
  step; [exact W1|].
  step; [exact Rn2|].
  step; [exact Rn3|].
  rewrite <- E3. apply verify_ok; [exact W3|exact Ht|exact Rt].
Qed.
End Opt8Dec.
