(** * LowDec.v -- the size-optimised AEAD refines the specification: decryption
    and the complete functions. *)
From Coq Require Import Arith Bool NArith ZArith List Lia Init.Byte Strings.Byte.
From Coq Require Import ZifyBool ZifyNat ZifyN.
From Verif Require Import Words WordFacts Spec SpecFacts CMem Contract CMemFacts ModelRef
  StateRep RefRound RefPrim RefAead RefAeadDec ModelCommon WordLaws ComPrim ComAead ComAeadDec ComHash ModelLow LowAead.
Import ListNotations.
Local Open Scope N_scope.

Section LowDec.
Variables (e : endian) (o : wordops) (cn : N -> N).
Hypothesis L : word_laws cn e o.
Variables (strict hb : bool).
Notation vs := (ComPrim.vs cn).
Notation word := (ComPrim.word_of e o).
Notation body_ok := (LowAead.body_ok e o cn L strict hb).

Ltac step := eapply runs_bind.

Lemma dec2_ok M s tmp m c B l t f : wf s -> length B = 16%nat -> readable M c (B ++ l ++ t) ->
  writable M m (len (B ++ l)) -> no_overtake m c (len (B ++ l ++ t)) ->
  (N.to_nat (len (B ++ l) / 8) < f)%nat ->
  exists s' tmp' f', (N.to_nat (len l / 8) < f')%nat /\ wf s' /\ vs s' = p 8 (B ++ skipn 16 (vs s)) /\
   forall M' v,
   runs (while f' ucond (update_body e o strict hb ASCON_DECRYPT) (s', 0, tmp', c + 16, m + 16, len l))
     (write M m (xor_into B (vs s))) M' v ->
   runs (while f ucond (update_body e o strict hb ASCON_DECRYPT) (s, 0, tmp, c, m, len (B ++ l))) M M' v.
Proof.
  intros Hs HB R Wr Hno Hf. pose proof (readable_bound _ _ _ R) as Hbd.
  pose proof (writable_bound _ _ _ Wr) as Hbw.
  assert (Hlen : len (B ++ l) = 16 + len l) by (rewrite len_app, (len_eq B 16 HB); lia).
  assert (Hlen' : len (B ++ l ++ t) = 16 + len l + len t) by (rewrite !len_app, (len_eq B 16 HB); lia).
  assert (Hm0 : m <> 0) by (apply Wr; lia).
  destruct (split_len 8 B) as (b0 & b1 & -> & H0 & L0); [unfold len; lia|]. change (N.of_nat 8) with 8 in L0.
  rewrite app_length in HB. assert (H1 : length b1 = 8%nat) by lia.
  assert (R' := R). rewrite <- app_assoc in R'.
  destruct (readable_app _ _ _ _ R') as (R0 & R12).
  assert (D : disjoint m 8 (c + len b0) (len (b1 ++ l ++ t))).
  { apply no_overtake_disjoint; [rewrite <- app_assoc in Hno; exact Hno|lia]. }
  rewrite L0 in R12, D.
  rewrite Hlen, Hlen' in *. assert (Wr2 := Wr). change (16 + len l) with (8 + 8 + len l) in Wr2.
  destruct (writable_split _ _ _ _ Wr2) as (W16 & _).
  destruct (writable_split _ _ _ _ W16) as (Wa & Wb).
  destruct (div8_fuel (16 + len l) f) as (f1 & -> & Hf1); [lia|exact Hf|].
  destruct (div8_fuel (16 + len l - 8) f1) as (f2 & -> & Hf2); [lia|exact Hf1|].
  destruct (rate16 hb ASCON_DECRYPT) as (Er & En); [destruct hb; reflexivity|].
  set (s1 := xorx s 0 (word b0)).
  set (s1' := setx s1 0 (word b0)).
  set (s2 := xorx s1' 1 (word b1)).
  set (s3 := setx s2 1 (word b1)).
  assert (Fb0 : fits 64 (word b0)) by (apply (fits_word_of e o cn L); lia).
  assert (Fb1 : fits 64 (word b1)) by (apply (fits_word_of e o cn L); lia).
  assert (W1 : wf s1) by (apply (wf_word e o cn L); [exact Hs|lia]).
  assert (W1' : wf s1') by (apply wf_setx; assumption).
  assert (W2 : wf s2) by (apply (wf_word e o cn L); [exact W1'|lia]).
  assert (W3 : wf s3) by (apply wf_setx; assumption).
  assert (E3 : vs s3 = (b0 ++ b1) ++ skipn 16 (vs s)) by (apply (vs_set01 e o cn L); assumption).
  set (M1 := write M m (wb (cn (X0 s1)))).
  assert (R1 : readable M1 (c + 8) b1).
  { eapply (readable_app _ _ b1 (l ++ t)). apply readable_write_disjoint; [exact R12|]. rewrite len_wb. exact D. }
  pose proof (body_ok M ASCON_DECRYPT s 0 tmp c m (16 + len l) b0 eq_refl R0 H0 ltac:(lia) ltac:(lia) Hs
    (fun _ => Wa) ltac:(lia) (fun _ => Hm0)) as S1.
  pose proof (body_ok M1 ASCON_DECRYPT s1' 1 (word b0) (c + 8) (m + 8) (16 + len l - 8) b1 eq_refl R1 H1
    ltac:(lia) ltac:(lia) W1' (fun _ => writable_write _ _ _ _ _ Wb) ltac:(lia) (fun _ => ltac:(lia))) as S2.
  cbn zeta in S1, S2. rewrite Er in S1, S2. rewrite En in S2.
  exists (w_P o 8 s3), (word b1), f2.
  split; [replace (len l) with (16 + len l - 8 - 8) by lia; exact Hf2|].
  split; [apply (wf_wP8 e o cn L), W3|]. split.
  { rewrite (vs_P8 e o cn L) by exact W3. rewrite E3. reflexivity. }
  intros M' v K.
  eapply runs_while_step; [unfold ucond; lia|exact S1|].
  eapply runs_while_step; [unfold ucond; lia|exact S2|].
  replace (16 + len l - 8 - 8) with (len l) by lia.
  replace (m + 8 + 8) with (m + 16) by lia. replace (c + 8 + 8) with (c + 16) by lia.
  replace (xor_into (b0 ++ b1) (vs s)) with (wb (cn (X0 s1)) ++ wb (cn (X1 s2))) in K.
  { rewrite write_app, len_wb in K. exact K. }
  rewrite xor_into_block by (rewrite length_vs, app_length; lia).
  rewrite <- (vs_block e o cn L) by lia. rewrite app_length, HB.
  change (8 + 8)%nat with 16%nat. unfold ComPrim.vs. rewrite firstn16_xs.
  destruct s as [x0 x1 x2 x3 x4]. reflexivity.
Qed.

Lemma dec_loop k : forall M s tmp m c l t f, wf s -> readable M c (l ++ t) -> writable M m (len l) ->
  no_overtake m c (len (l ++ t)) ->
  (N.to_nat (len l / 8) < f)%nat -> (N.to_nat (len l / 16) < k)%nat ->
  exists s' tmp' ms r f', (N.to_nat (len r / 8) < f')%nat /\ wf s' /\ (length r < 16)%nat /\
    length l = (length ms + length r)%nat /\
    readable (write M m ms) (c + len ms) (r ++ t) /\
    no_overtake (m + len ms) (c + len ms) (len (r ++ t)) /\
    dec_blocks (length l) (vs s) l =
      (let '(S2, m2) := dec_blocks (length r) (vs s') r in (S2, ms ++ m2)) /\
    forall M' v,
    runs (while f' ucond (update_body e o strict hb ASCON_DECRYPT) (s', 0, tmp', c + len ms, m + len ms, len r))
      (write M m ms) M' v ->
    runs (while f ucond (update_body e o strict hb ASCON_DECRYPT) (s, 0, tmp, c, m, len l)) M M' v.
Proof.
  induction k as [|k IH]; intros M s tmp m c l t f Hs R Wr Hno Hf Hk; [lia|].
  destruct (N.leb_spec 16 (len l)) as [H|H].
  - destruct (split_len 16 l) as (B & l' & -> & HB & LB); [exact H|]. change (N.of_nat 16) with 16 in LB.
    rewrite <- app_assoc in R, Hno.
    destruct (dec2_ok M s tmp m c B l' t f Hs HB R Wr Hno Hf) as (s1 & tmp1 & f1 & F1 & W1 & E1 & K1).
    set (mb := xor_into B (vs s)) in *.
    assert (Hmb : length mb = 16%nat) by (unfold mb; rewrite length_xor_into; exact HB).
    assert (Lmb : len mb = 16) by (apply (len_eq mb 16 Hmb)).
    destruct (readable_app _ _ _ _ R) as (_ & R').
    assert (R2 : readable (write M m mb) (c + 16) (l' ++ t)).
    { rewrite LB in R'. apply readable_write_disjoint; [exact R'|]. rewrite <- LB.
      apply no_overtake_disjoint; [exact Hno|lia]. }
    rewrite len_app, LB in Wr. destruct (writable_split _ _ _ _ Wr) as (_ & Wr').
    destruct (IH (write M m mb) s1 tmp1 (m + 16) (c + 16) l' t f1 W1 R2) as
      (s2 & tmp2 & ms & r & f2 & F2 & W2 & Hr & Hl & Rr & Hno2 & E2 & K2).
    { apply writable_write, Wr'. }
    { rewrite <- LB. apply no_overtake_step, Hno. }
    { exact F1. }
    { eapply (div16_step k B l'); [lia|exact LB|exact Hk]. }
    assert (Ew : write (write M m mb) (m + 16) ms = write M m (mb ++ ms))
      by (rewrite write_app, Lmb; reflexivity).
    rewrite Ew in Rr, K2.
    replace (m + 16 + len ms) with (m + len (mb ++ ms)) in * by (rewrite len_app; lia).
    replace (c + 16 + len ms) with (c + len (mb ++ ms)) in * by (rewrite len_app; lia).
    exists s2, tmp2, (mb ++ ms), r, f2.
    split; [exact F2|split; [exact W2|split; [exact Hr|split; [|split; [exact Rr|split; [exact Hno2|split]]]]]].
    + rewrite !app_length. lia.
    + rewrite app_length, HB. change (16 + length l')%nat with (Datatypes.S (15 + length l')).
      rewrite dec_blocks_step by exact HB. rewrite <- E1.
      rewrite (dec_blocks_fuel (15 + length l') (length l')) by lia. rewrite E2.
      fold mb. destruct (dec_blocks (length r) (vs s2) r) as [S2 m2]. rewrite app_assoc. reflexivity.
    + intros M' v K. apply K1, K2, K.
  - exists s, tmp, [], l, f. rewrite len_nil, !N.add_0_r. cbn [write].
    split; [exact Hf|split; [exact Hs|split; [unfold len in H; lia|split; [reflexivity|split; [exact R|split; [exact Hno|split]]]]]].
    + destruct (dec_blocks _ _ _); reflexivity.
    + auto.
Qed.

Lemma low_decrypt_data_ok M s m c l t : wf s -> readable M c (l ++ t) -> writable M m (len l) ->
  no_overtake m c (len (l ++ t)) -> m <> 0 -> c <> 0 ->
  exists s' mb, dec_blocks (length l) (vs s) l = (vs s', mb) /\ wf s' /\ length mb = length l /\
    readable (write M m mb) (c + len l) t /\
    runs (ascon_update e o strict hb s m c (len l) ASCON_DECRYPT) M (write M m mb) s'.
Proof.
  intros Hs R Wr Hno Hm0 Hc0. pose proof (readable_bound _ _ _ R) as Hbd. rewrite len_app in Hbd.
  pose proof (writable_bound _ _ _ Wr) as Hbw.
  destruct (dec_loop (S (N.to_nat (len l / 16))) M s 0 m c l t (fuel (len l) 8) Hs R Wr Hno) as
    (s1 & tmp & ms & r & f & F & W1 & Hr & Hl & Rr & Hno2 & E1 & K); [unfold fuel; lia|lia|].
  assert (Ll : len l = len ms + len r) by (unfold len; lia).
  rewrite (dec_blocks_short _ _ r) in E1 by exact Hr.
  assert (Wr' : writable (write M m ms) (m + len ms) (len r)).
  { rewrite Ll in Wr. apply writable_split in Wr. apply writable_write, Wr. }
  destruct (readable_app _ _ _ _ Rr) as (Rr1 & Rr2).
  set (S2 := xor_at (length r) (r ++ skipn (length r) (vs s1)) [x01]) in *.
  set (M1 := write M m ms) in *. set (m1 := m + len ms) in *. set (c1 := c + len ms) in *.
  assert (Hm1 : m1 <> 0) by (unfold m1; lia). assert (Hc1 : c1 <> 0) by (unfold c1; lia).
  assert (X : exists s2, wf s2 /\ vs s2 = S2 /\
    exists M2 v, runs (while f ucond (update_body e o strict hb ASCON_DECRYPT) (s1, 0, tmp, c1, m1, len r)) M1 M2 v /\
    runs (utail e o hb ASCON_DECRYPT v) M2 (write M1 m1 (xor_into r (vs s1))) s2).
  { pose proof (readable_bound _ _ _ Rr1) as Hbr. pose proof (writable_bound _ _ _ Wr') as Hbr'.
    pose proof (wf_cs e o cn L s1) as Wc1.
    destruct (N.leb_spec 8 (len r)) as [H8|H8].
    - destruct (split_len 8 r) as (b0 & b1 & -> & H0 & L0); [lia|]. change (N.of_nat 8) with 8 in L0.
      rewrite app_length in Hr. assert (H1 : (length b1 < 8)%nat) by lia.
      destruct (readable_app _ _ _ _ Rr1) as (R0 & R1).
      assert (Hno3 : no_overtake m1 c1 (len (b0 ++ b1 ++ t))) by (rewrite app_assoc; exact Hno2).
      pose proof (no_overtake_disjoint _ _ _ _ 8 Hno3 ltac:(lia)) as D.
      rewrite L0 in R1, D.
      assert (Lr : len (b0 ++ b1) = 8 + len b1) by (rewrite len_app; lia).
      rewrite Lr in Wr'. destruct (writable_split _ _ _ _ Wr') as (Wa & Wb).
      destruct (rate16 hb ASCON_DECRYPT) as (Er & En); [destruct hb; reflexivity|].
      set (s0 := xorx s1 0 (word b0)).
      assert (W0 : wf s0) by (apply (wf_word e o cn L); [exact W1|lia]).
      set (s0' := setx s0 0 (word b0)).
      assert (W0' : wf s0') by (apply wf_setx; [exact W0|apply (fits_word_of e o cn L); lia]).
      assert (E0' : cs cn s0' = setx (cs cn s1) 0 (le_num b0)).
      { unfold s0', s0. rewrite cs_xset, (cn_word_of e o cn L) by lia. reflexivity. }
      pose proof (body_ok M1 ASCON_DECRYPT s1 0 tmp c1 m1 (len (b0 ++ b1)) b0 eq_refl R0 H0 H8 ltac:(lia) W1
        (fun _ => Wa) ltac:(lia) (fun _ => Hm1)) as S1.
      cbn zeta in S1. rewrite Er in S1.
      set (M2 := write M1 m1 (wb (cn (X0 s0)))).
      assert (R1' : readable M2 (c1 + 8) b1).
      { apply readable_write_disjoint; [exact R1|rewrite len_wb].
        revert D. unfold disjoint. rewrite len_app. lia. }
      destruct (utail_ok e o cn L hb M2 ASCON_DECRYPT s0' 1 (word b0) (c1 + 8) (m1 + 8) b1 eq_refl R1' H1 ltac:(lia) W0')
        as (s3 & Rn3 & W3 & E3).
      { intros _. split; [apply writable_write, Wb|lia]. }
      destruct (div8_fuel _ _ H8 F) as (f1 & -> & Hf1).
      destruct f1 as [|f1]; [lia|].
      exists s3. split; [exact W3|]. split.
      { unfold ComPrim.vs, S2. rewrite E3, E0'. unfold ComPrim.vs. rewrite <- xs_dlast1 by assumption.
        destruct (cs cn s1). reflexivity. }
      eexists M2, _. split.
      { eapply runs_while_step; [unfold ucond; lia|exact S1|].
        rewrite Lr. replace (8 + len b1 - 8) with (len b1) by lia.
        apply runs_while_end. unfold ucond. apply len_lt8 in H1. lia. }
      rewrite xor_into_block by (rewrite length_vs, app_length; lia).
      rewrite <- (vs_block e o cn L) by lia. fold s0. rewrite app_length, H0.
      unfold ComPrim.vs. rewrite firstn_xs1 by lia.
      replace (X0 (cs cn (xorx s0 1 (word b1)))) with (cn (X0 s0)) by (destruct s0; reflexivity).
      replace (X1 (cs cn (xorx s0 1 (word b1)))) with (cn (getx (xorx s0' 1 (word b1)) 1)) by (destruct s0; reflexivity).
      rewrite write_app, len_wb. exact Rn3.
    - assert (H1 : (length r < 8)%nat) by (unfold len in H8; lia).
      destruct (utail_ok e o cn L hb M1 ASCON_DECRYPT s1 0 tmp c1 m1 r eq_refl Rr1 H1 Hc1 W1) as (s3 & Rn3 & W3 & E3).
      { intros _. split; [exact Wr'|exact Hm1]. }
      destruct f as [|f]; [lia|].
      exists s3. split; [exact W3|]. split.
      { unfold ComPrim.vs, S2. rewrite E3. apply xs_dlast0; assumption. }
      eexists M1, _. split.
      { apply runs_while_end. unfold ucond. lia. }
      rewrite xor_into_block by (rewrite length_vs; lia).
      rewrite <- (vs_word0 e o cn L) by lia.
      unfold ComPrim.vs. rewrite firstn_xs0 by lia. exact Rn3. }
  destruct X as (s2 & W2 & E2 & M2 & v & Rn1 & Rn2).
  exists s2, (ms ++ xor_into r (vs s1)).
  assert (Ew : write M m (ms ++ xor_into r (vs s1)) = write M1 m1 (xor_into r (vs s1))) by apply write_app.
  split; [rewrite E2; exact E1|]. split; [exact W2|]. split; [rewrite app_length, length_xor_into; lia|].
  split.
  - rewrite Ew. replace (c + len l) with (c1 + len r) by (unfold c1; lia).
    apply readable_write_disjoint; [exact Rr2|].
    apply no_overtake_disjoint; [exact Hno2|]. unfold len. rewrite length_xor_into. lia.
  - rewrite Ew. eapply update_split; [apply K; exact Rn1|exact Rn2].
Qed.

(** ** The complete functions *)

Lemma low_ad_ok M s ad adb : wf s -> readable M ad adb -> (strict = true -> len adb < 8) ->
  exists s1, runs (b <- branch (negb (len adb =? 0)) ;;
      if b : bool then s <- ascon_update e o strict hb s NULL ad (len adb) ASCON_ABSORB ;; ret (w_P o 8 s)
      else ret s) M M s1 /\ wf s1 /\ vs (xorx s1 4 (w_dsep o)) = aead_ad (vs s) adb.
Proof.
  intros Hs R Hst. destruct (N.eq_dec (len adb) 0) as [E|E].
  - apply len_0 in E. subst adb. exists s. split; [|split; [exact Hs|]].
    + step; [apply runs_branch|]. rewrite len_nil. apply runs_ret.
    + rewrite (vs_dsep e o cn L). reflexivity.
  - destruct (low_adata_ok e o cn L strict hb M s ad adb Hs R E Hst) as (s1 & Rn & W1 & E1).
    exists (w_P o 8 s1). split; [|split; [apply (wf_wP8 e o cn L), W1|]].
    + step; [apply runs_branch|]. replace (len adb =? 0) with false by lia. cbn [negb].
      step; [exact Rn|]. apply runs_ret.
    + rewrite (vs_dsep e o cn L), E1. destruct adb; [rewrite len_nil in E; lia|reflexivity].
Qed.

Lemma low_tag_eq s : wf s -> low_tag e o s = wb (cn (X3 s)) ++ wb (cn (X4 s)).
Proof.
  intros H. unfold low_tag. destruct H as (_ & _ & _ & H3 & H4).
  rewrite (l_out _ _ _ L _ H3), (l_out _ _ _ L _ H4). reflexivity.
Qed.

Theorem low_encrypt_ok M c clen m ad nsec npub k kb nb adb mb :
  is16 kb -> is16 nb ->
  readable M k kb -> readable M npub nb -> readable M ad adb -> readable M m mb ->
  writable M c (len mb + 16) -> writable M clen 8 ->
  disjoint clen 8 k 16 -> disjoint clen 8 npub 16 -> disjoint clen 8 ad (len adb) ->
  disjoint clen 8 m (len mb) ->
  no_overtake c m (len mb) -> m <> 0 -> (strict = true -> len adb < 8) ->
  runs (low_aead_encrypt e o strict hb c clen m (len mb) ad (len adb) nsec npub k) M
    (write (write M clen (to_host e 8 (len mb + 16))) c (aead_encrypt kb nb adb mb)) 0%Z.
Proof.
  intros Hk Hn Rk Rn Ra Rm Wc Wcl Dk Dn Da Dm Hno Hm0 Hst.
  pose proof (writable_bound _ _ _ Wc) as Hbw.
  set (M1 := write M clen (to_host e 8 (len mb + 16))).
  assert (Lh : len (to_host e 8 (len mb + 16)) = 8) by (unfold len at 1; rewrite length_to_host; reflexivity).
  assert (Lk : len kb = 16) by (apply (len_eq kb 16), Hk).
  assert (Ln : len nb = 16) by (apply (len_eq nb 16), Hn).
  assert (Rk1 : readable M1 k kb) by (apply readable_write_disjoint; [exact Rk|rewrite Lh, Lk; exact Dk]).
  assert (Rn1 : readable M1 npub nb) by (apply readable_write_disjoint; [exact Rn|rewrite Lh, Ln; exact Dn]).
  assert (Ra1 : readable M1 ad adb) by (apply readable_write_disjoint; [exact Ra|rewrite Lh; exact Da]).
  assert (Rm1 : readable M1 m mb) by (apply readable_write_disjoint; [exact Rm|rewrite Lh; exact Dm]).
  assert (Wc1 : writable M1 c (len mb + 16)) by (apply writable_write, Wc).
  assert (Hc0 : c <> 0) by (apply Wc; lia).
  unfold is16 in Hk.
  destruct (split_len 8 kb) as (k0 & k1 & -> & H0 & L0); [lia|].
  rewrite app_length in Hk. assert (H1 : length k1 = 8%nat) by lia.
  pose proof (loadkey_ok e o M1 k k0 k1 H0 H1 Rk1) as Rnk.
  destruct (initaead_ok e o cn L M1 npub k0 k1 nb H0 H1 Hn Rn1) as (s0 & Rn0 & W0 & E0).
  destruct (low_ad_ok M1 s0 ad adb W0 Ra1 Hst) as (s1 & Rn1' & Ws1 & E1).
  destruct (writable_split _ _ _ _ Wc1) as (Wm & Wt).
  assert (Wd : wf (xorx s1 4 (w_dsep o))) by (apply (wf_dsep e o cn L), Ws1).
  destruct (low_encrypt_data_ok e o cn L strict hb M1 (xorx s1 4 (w_dsep o)) c m mb Wd Rm1 Wm Hno Hm0 Hc0)
    as (s2 & cf & E2 & W2 & Hcf & Rn2).
  destruct (final_ok e o cn L s2 k0 k1 W2 H0 H1) as (W3 & E3).
  set (s3 := ascon_final o s2 (word k0, word k1)) in *.
  assert (Et : low_tag e o s3 = aead_tag (k0 ++ k1) (vs s2)) by (rewrite low_tag_eq by exact W3; exact E3).
  assert (L16 : length (low_tag e o s3) = 16%nat) by (rewrite low_tag_eq by exact W3; rewrite app_length, !wb_len; reflexivity).
  unfold low_aead_encrypt.
  step; [apply runs_store_ull; exact Wcl|].
  unfold CRYPTO_ABYTES. rewrite add64_small by lia. fold M1.
  step; [eapply runs_padd_writable; [exact Wc1|lia]|].
  unfold ascon_aead.
  step; [exact Rnk|].
  step; [exact Rn0|].
  eapply runs_bind2; [exact tt|exact Rn1'|].
  cbn zeta.
  step; [exact Rn2|]. fold s3.
  step; [apply runs_branch|].
  change (ASCON_ENCRYPT =? ASCON_ENCRYPT) with true. cbn beta iota.
  step; [apply copy_ok; [exact L16|apply writable_write, Wt]|].
  unfold aead_encrypt. rewrite <- E0, <- E1, E2, Et.
  rewrite write_app.
  replace (len (firstn (length mb) cf)) with (len mb)
    by (unfold len; rewrite firstn_length; lia).
  apply runs_ret.
Qed.

Theorem low_decrypt_short M m mlen nsec c clen ad adlen npub k :
  clen < 16 -> runs (low_aead_decrypt e o strict hb m mlen nsec c clen ad adlen npub k) M M (-1)%Z.
Proof.
  intros H. unfold low_aead_decrypt, CRYPTO_ABYTES.
  step; [apply runs_branch|]. replace (clen <? 16) with true by lia. apply runs_ret.
Qed.

Theorem low_decrypt_ok M m mlen nsec c ad npub k kb nb adb body tag mb t :
  is16 kb -> is16 nb -> is16 tag ->
  readable M k kb -> readable M npub nb -> readable M ad adb -> readable M c (body ++ tag) ->
  writable M m (len body) -> writable M mlen 8 ->
  disjoint mlen 8 k 16 -> disjoint mlen 8 npub 16 -> disjoint mlen 8 ad (len adb) ->
  disjoint mlen 8 c (len (body ++ tag)) ->
  no_overtake m c (len (body ++ tag)) -> m <> 0 -> (strict = true -> len adb < 8) ->
  aead_open kb nb adb body = (mb, t) ->
  runs (low_aead_decrypt e o strict hb m mlen nsec c (len (body ++ tag)) ad (len adb) npub k) M
    (write (write M mlen (to_host e 8 (len body))) m mb)
    (if list_eq_dec Byte.byte_eq_dec t tag then 0 else -1)%Z
  /\ length mb = length body /\ is16 t.
Proof.
  intros Hk Hn Ht Rk Rn Ra Rc Wm Wml Dk Dn Da Dc Hno Hm0 Hst Hopen.
  pose proof (readable_bound _ _ _ Rc) as Hbd.
  set (M1 := write M mlen (to_host e 8 (len body))).
  assert (Lh : len (to_host e 8 (len body)) = 8) by (unfold len at 1; rewrite length_to_host; reflexivity).
  assert (Lk : len kb = 16) by (apply (len_eq kb 16), Hk).
  assert (Ln : len nb = 16) by (apply (len_eq nb 16), Hn).
  assert (Lt : len tag = 16) by (apply (len_eq tag 16), Ht).
  assert (Lb : len (body ++ tag) = len body + 16) by (rewrite len_app; lia).
  assert (Rk1 : readable M1 k kb) by (apply readable_write_disjoint; [exact Rk|rewrite Lh, Lk; exact Dk]).
  assert (Rn1 : readable M1 npub nb) by (apply readable_write_disjoint; [exact Rn|rewrite Lh, Ln; exact Dn]).
  assert (Ra1 : readable M1 ad adb) by (apply readable_write_disjoint; [exact Ra|rewrite Lh; exact Da]).
  assert (Rc1 : readable M1 c (body ++ tag)) by (apply readable_write_disjoint; [exact Rc|rewrite Lh; exact Dc]).
  assert (Wm1 : writable M1 m (len body)) by (apply writable_write, Wm).
  assert (Hc0 : c <> 0) by (eapply readable_nonnull; [exact Rc|lia]).
  assert (Fb : fits 64 (len body)) by (unfold fits; lia).
  assert (Rl : readable M1 mlen (to_host e 8 (len body))).
  { apply readable_write_self; [rewrite Lh; apply (writable_bound _ _ _ Wml)|]. intros _. apply Wml. discriminate. }
  unfold is16 in Hk.
  destruct (split_len 8 kb) as (k0 & k1 & -> & H0 & L0); [lia|].
  rewrite app_length in Hk. assert (H1 : length k1 = 8%nat) by lia.
  pose proof (loadkey_ok e o M1 k k0 k1 H0 H1 Rk1) as Rnk.
  destruct (initaead_ok e o cn L M1 npub k0 k1 nb H0 H1 Hn Rn1) as (s0 & Rn0 & W0 & E0).
  destruct (low_ad_ok M1 s0 ad adb W0 Ra1 Hst) as (s1 & Rn1' & Ws1 & E1).
  assert (Wd : wf (xorx s1 4 (w_dsep o))) by (apply (wf_dsep e o cn L), Ws1).
  destruct (low_decrypt_data_ok M1 (xorx s1 4 (w_dsep o)) m c body tag Wd Rc1 Wm1 Hno Hm0 Hc0)
    as (s2 & mb' & E2 & W2 & Hmb & Rt & Rn2).
  destruct (final_ok e o cn L s2 k0 k1 W2 H0 H1) as (W3 & E3).
  set (s3 := ascon_final o s2 (word k0, word k1)) in *.
  unfold aead_open in Hopen. rewrite <- E0, <- E1, E2 in Hopen. inversion Hopen; subst mb t. clear Hopen.
  assert (Et : low_tag e o s3 = aead_tag (k0 ++ k1) (vs s2)) by (rewrite low_tag_eq by exact W3; exact E3).
  assert (L16 : is16 (aead_tag (k0 ++ k1) (vs s2))).
  { unfold is16. rewrite <- E3, app_length, !wb_len. reflexivity. }
  split; [|split; [exact Hmb|exact L16]].
  unfold low_aead_decrypt, CRYPTO_ABYTES.
  step; [apply runs_branch|].
  replace (len (body ++ tag) <? 16) with false by lia.
  step; [apply runs_store_ull; exact Wml|].
  rewrite sub64_small by lia. replace (len (body ++ tag) - 16) with (len body) by lia. fold M1.
  step; [apply runs_load_ull; [exact Rl|exact Fb]|].
  step; [eapply runs_padd_readable; [exact Rc1|lia]|].
  step; [apply runs_load_ull; [exact Rl|exact Fb]|].
  unfold ascon_aead.
  step; [exact Rnk|].
  step; [exact Rn0|].
  eapply runs_bind2; [exact tt|exact Rn1'|].
  cbn zeta.
  step; [exact Rn2|]. fold s3.
  step; [apply runs_branch|].
  change (ASCON_DECRYPT =? ASCON_ENCRYPT) with false. cbn beta iota.
  rewrite Et.
  step; [apply runs_diff_loop; [exact Rt|rewrite L16; exact Ht]|].
  rewrite verdict_diff by (rewrite L16; exact Ht). apply runs_ret.
Qed.
End LowDec.
