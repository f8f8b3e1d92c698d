(** * AvxAead.v -- the AVX-512 AEAD refines the specification. *)
From Coq Require Import Arith Bool NArith ZArith List Lia Init.Byte Strings.Byte.
From Coq Require Import ZifyBool ZifyNat ZifyN.
From Verif Require Import Words WordFacts Spec SpecFacts CMem Contract CMemFacts ApiSpec ModelRef
  StateRep RefRound RefPrim RefAead RefAeadDec ModelCommon ModelWords WordLaws WordInst ComPrim ComAead ComAeadDec
  ModelAvx AvxRound.
Import ListNotations.
Local Open Scope N_scope.

Local Notation L := (opt64_laws LE : word_laws cn64 LE wo).
Local Notation vs := (ComPrim.vs cn64).
Local Notation word := (ComPrim.word_of LE wo).

Local Ltac step := eapply runs_bind.
Local Ltac ld R := step; [apply (runs_wLOAD LE wo); [exact R|lia]|].

Lemma runs_maskz_loadu M q l n : readable M q l -> n = len l -> 0 < n ->
  runs (maskz_loadu n q) M M (vec_of_bytes (l ++ zeros (64 - length l))).
Proof.
  intros R -> Hn. unfold maskz_loadu.
  step; [apply runs_memcpy_in; [exact R|reflexivity|eapply readable_nonnull; [exact R|lia]]|]. apply runs_ret.
Qed.
Lemma length_vec_bytes z : length (vec_bytes z) = 64%nat.
Proof. reflexivity. Qed.
Lemma runs_mask_storeu M q z n : writable M q n -> 0 < n -> n <= 64 ->
  runs (mask_storeu n q z) M (write M q (firstn (N.to_nat n) (vec_bytes z))) tt.
Proof.
  intros W Hn Hn'. unfold mask_storeu.
  apply runs_memcpy_out; [|apply W; lia].
  replace (len (firstn (N.to_nat n) (vec_bytes z))) with n; [exact W|].
  unfold len. rewrite firstn_length, length_vec_bytes. lia.
Qed.

Lemma wf_vs_xs s : wf s -> vs s = xs s.
Proof. intros H. unfold ComPrim.vs. rewrite cs64_id by exact H. reflexivity. Qed.

Lemma zP12_ok z : wf (zx z) -> wf (zx (zP 12 z)) /\ vs (zx (zP 12 z)) = p 12 (vs (zx z)).
Proof.
  intros Hz. destruct (zP_ok 12 z (or_introl eq_refl) Hz) as [W E]. split; [exact W|].
  rewrite E. apply (vs_P12 LE wo cn64 L), Hz.
Qed.
Lemma zP8_ok z : wf (zx z) -> wf (zx (zP 8 z)) /\ vs (zx (zP 8 z)) = p 8 (vs (zx z)).
Proof.
  intros Hz. destruct (zP_ok 8 z (or_intror eq_refl) Hz) as [W E]. split; [exact W|].
  rewrite E. apply (vs_P8 LE wo cn64 L), Hz.
Qed.

(** ** Initialisation *)

Lemma z_initaead_ok u M npub k0 k1 nb : length k0 = 8%nat -> length k1 = 8%nat -> is16 nb ->
  readable M npub nb ->
  exists z, runs (z_initaead u (word k0, word k1) npub) M M z /\ wf (zx z) /\
    vs (zx z) = aead_init (k0 ++ k1) nb.
Proof.
  intros H0 H1 Hn Rn. unfold is16 in Hn.
  destruct (split_len 8 nb) as (n0 & n1 & -> & Hn0 & Ln0); [unfold len; lia|].
  rewrite app_length in Hn. assert (Hn1 : length n1 = 8%nat) by lia.
  destruct (readable_app _ _ _ _ Rn) as (Rn0 & Rn1). rewrite Ln0 in Rn1.
  set (s0 := St (c_aead wo) (word k0) (word k1) (word n0) (word n1)).
  assert (W0 : wf s0).
  { unfold s0. split; [apply (l_aead _ _ _ L)|]. repeat split; apply (fits_word_of LE wo cn64 L); lia. }
  set (z0 := withx u s0). assert (Wz0 : wf (zx z0)) by exact W0.
  destruct (zP12_ok z0 Wz0) as [W1 E1].
  assert (W2 : wf (xorx (zx (zP 12 z0)) 3 (word k0))) by (apply (wf_word LE wo cn64 L); [exact W1|lia]).
  eexists. split; [|split].
  - unfold z_initaead. cbn beta iota. ld Rn0.
    step; [eapply runs_padd_readable; [exact Rn|rewrite len_app, Ln0; lia]|].
    ld Rn1. cbn zeta. fold s0. fold z0. apply runs_ret.
  - cbn [zx withx]. apply (wf_word LE wo cn64 L); [exact W2|lia].
  - cbn [zx withx]. rewrite !(vs_word LE wo cn64 L) by lia. rewrite E1.
    unfold z0. cbn [zx withx]. unfold s0, ComPrim.vs, cs. cbn [X0 X1 X2 X3 X4].
    rewrite !(cn_word_of LE wo cn64 L) by lia.
    destruct (l_aead _ _ _ L) as [_ Ea].
    rewrite xs_St, Ea, !wb_le_num8 by lia.
    unfold aead_init. rewrite xor_at_app by (rewrite length_p; lia). rewrite H0.
    rewrite <- app_assoc. reflexivity.
Qed.

(** ** Associated data *)

Definition zacond : zmm * ptr * N -> bool := fun '(_, _, adlen) => 16 <=? adlen.

Lemma z_block z B : wf (zx z) -> length B = 16%nat ->
  let z1 := vxor z (vec_of_bytes (B ++ zeros (64 - length B))) in
  wf (zx z1) /\ vs (zx z1) = xor_into (vs (zx z)) B /\
  firstn 16 (vec_bytes z1) = firstn 16 (xor_into (vs (zx z)) B).
Proof.
  intros Hz HB. destruct (split_len 8 B) as (b0 & b1 & -> & H0 & L0); [unfold len; lia|].
  rewrite app_length in HB. assert (H1 : length b1 = 8%nat) by lia. cbv zeta.
  set (z1 := vxor z _).
  assert (E : zx z1 = xorx (xorx (zx z) 0 (word b0)) 1 (word b1)) by (apply zx_xor16; assumption).
  assert (W : wf (zx z1)) by (rewrite E; apply (wf_blockw LE wo cn64 L); auto; lia).
  assert (V : vs (zx z1) = xor_into (vs (zx z)) (b0 ++ b1)) by (rewrite E; apply (vs_block LE wo cn64 L); lia).
  split; [exact W|]. split; [exact V|]. rewrite <- V, wf_vs_xs by exact W.
  rewrite firstn16_xs. apply vec_bytes_16.
Qed.

Lemma z_ad_body_ok M z ad B l : wf (zx z) -> length B = 16%nat -> readable M ad (B ++ l) ->
  exists z', runs (z_ad_body (z, ad, len (B ++ l))) M M (z', ad + 16, len l) /\ wf (zx z') /\
    vs (zx z') = p 8 (xor_into (vs (zx z)) B).
Proof.
  intros Hz HB R. pose proof (readable_bound _ _ _ R) as Hbd.
  assert (LB : len B = 16) by (apply (len_eq B 16 HB)).
  assert (Hlen : len (B ++ l) = 16 + len l) by (rewrite len_app; lia).
  destruct (readable_app _ _ _ _ R) as (R0 & _).
  destruct (z_block z B Hz HB) as (W & V & _). cbv zeta in *. set (z1 := vxor z _) in *.
  destruct (zP8_ok z1 W) as [W2 E2].
  exists (zP 8 z1). split; [|split; [exact W2|rewrite E2, V; reflexivity]].
  unfold z_ad_body. step; [apply runs_maskz_loadu; [exact R0|lia|lia]|]. fold z1.
  step; [eapply runs_padd_readable; [exact R|lia]|].
  rewrite sub64_small by lia. rewrite Hlen. replace (16 + len l - 16) with (len l) by lia.
  apply runs_ret.
Qed.

Lemma z_ad_while f : forall M z ad l, wf (zx z) -> readable M ad l ->
  (N.to_nat (len l / 16) < f)%nat ->
  exists z' ad' r, runs (while f zacond z_ad_body (z, ad, len l)) M M (z', ad', len r) /\
    wf (zx z') /\ (length r < 16)%nat /\ readable M ad' r /\
    absorb 8 (vs (zx z)) (chunks 16 (pad 16 l)) = absorb 8 (vs (zx z')) (chunks 16 (pad 16 r)).
Proof.
  induction f as [|f IH]; intros M s ad l Hs R Hf; [lia|].
  destruct (N.leb_spec 16 (len l)) as [H|H].
  - destruct (split_len 16 l) as (B & l' & -> & HB & LB); [exact H|].
    destruct (z_ad_body_ok M s ad B l' Hs HB R) as (s1 & Rn & W1 & E1).
    destruct (readable_app _ _ _ _ R) as (_ & R').  rewrite LB in R'.
    destruct (IH M s1 (ad + 16) l' W1 R') as (s2 & ad2 & r & Rn2 & W2 & Hr & Rr & E2).
    { eapply (div16_step f B l'); [lia|exact LB|exact Hf]. }
    exists s2, ad2, r. split; [|split; [exact W2|split; [exact Hr|split; [exact Rr|]]]].
    + eapply runs_while_step; [|exact Rn|exact Rn2].
      unfold zacond. lia.
    + rewrite chunks_pad_full by (auto; lia). rewrite absorb_cons, <- E1. exact E2.
  - exists s, ad, l. split; [|split; [exact Hs|split; [unfold len in H; lia|split; [exact R|reflexivity]]]].
    apply runs_while_end. unfold zacond. lia.
Qed.

Lemma z_adata_ok M z ad l : wf (zx z) -> readable M ad l ->
  exists z', runs (z_adata z ad (len l)) M M z' /\ wf (zx z') /\ vs (zx z') = aead_ad (vs (zx z)) l.
Proof.
  intros Hs R. pose proof (readable_bound _ _ _ R) as Hbd. unfold z_adata.
  destruct (N.eq_dec (len l) 0) as [E|E].
  - apply len_0 in E. subst l. eexists. split; [|split].
    + step; [apply runs_branch|]. rewrite len_nil. cbn [N.eqb negb].
      step; [apply runs_ret|]. apply runs_ret.
    + apply (wf_dsep LE wo cn64 L), Hs.
    + cbn [zx withx]. rewrite (vs_dsep LE wo cn64 L). reflexivity.
  - destruct (z_ad_while (fuel (len l) 16) M z ad l Hs R) as (s1 & ad1 & r & Rn & W1 & Hr & Rr & E1).
    { unfold fuel. lia. }
    destruct (ad_last_ok LE wo cn64 L M (zx s1) ad1 r W1 Rr Hr) as (s2 & Rn2 & W2 & E2).
    destruct (zP8_ok (withx s1 s2) W2) as [W3 E3]. cbn [zx withx] in E3.
    eexists. split; [|split].
    + step; [apply runs_branch|]. replace (len l =? 0) with false by lia. cbn [negb].
      step; [|apply runs_ret].
      step; [exact Rn|]. cbn beta iota. step; [exact Rn2|]. apply runs_ret.
    + apply (wf_dsep LE wo cn64 L), W3.
    + cbn [zx withx]. rewrite (vs_dsep LE wo cn64 L).
      change (zx (zP 8 {| zx := s2; z5 := z5 s1; z6 := z6 s1; z7 := z7 s1 |})) with (zx (zP 8 (withx s1 s2))).
      rewrite E3.
      rewrite (absorb_last _ (vs (zx s1)) r 16) in E1 by (rewrite ?(length_vs cn64); lia).
      rewrite E2, <- E1. unfold aead_ad.
      destruct l; [rewrite len_nil in E; congruence|reflexivity].
Qed.

(** ** Plaintext *)

Definition zecond : zmm * ptr * ptr * N -> bool := fun '(_, _, _, mlen) => 16 <=? mlen.

Lemma z_enc_body_ok M z m c B l : wf (zx z) -> length B = 16%nat -> readable M m (B ++ l) ->
  writable M c (len (B ++ l)) ->
  exists z', runs (z_enc_body (z, m, c, len (B ++ l))) M
      (write M c (firstn 16 (xor_into (vs (zx z)) B))) (z', m + 16, c + 16, len l) /\ wf (zx z') /\
    vs (zx z') = p 8 (xor_into (vs (zx z)) B).
Proof.
  intros Hz HB R Wr. pose proof (readable_bound _ _ _ R) as Hbd.
  assert (LB : len B = 16) by (apply (len_eq B 16 HB)).
  assert (Hlen : len (B ++ l) = 16 + len l) by (rewrite len_app; lia).
  destruct (readable_app _ _ _ _ R) as (R0 & _).
  rewrite Hlen in *. destruct (writable_split _ _ _ _ Wr) as (W16 & _).
  destruct (z_block z B Hz HB) as (W & V & B16). cbv zeta in *. set (z1 := vxor z _) in *.
  destruct (zP8_ok z1 W) as [W2 E2].
  exists (zP 8 z1). split; [|split; [exact W2|rewrite E2, V; reflexivity]].
  unfold z_enc_body. step; [apply runs_maskz_loadu; [exact R0|lia|lia]|]. fold z1.
  rewrite <- B16.
  step; [apply runs_mask_storeu; [exact W16|lia|lia]|].
  step; [apply runs_padd; [lia|intros _; eapply readable_nonnull; [exact R|lia]]|].
  step; [eapply runs_padd_writable; [exact (writable_write _ _ _ _ _ Wr)|lia]|].
  rewrite sub64_small by lia. replace (16 + len l - 16) with (len l) by lia.
  apply runs_ret.
Qed.

Lemma z_enc_while f : forall M s m c l, wf (zx s) -> readable M m l -> writable M c (len l) ->
  no_overtake c m (len l) -> (N.to_nat (len l / 16) < f)%nat ->
  exists s' ct r, runs (while f zecond z_enc_body (s, m, c, len l)) M (write M c ct)
      (s', m + len ct, c + len ct, len r) /\
    wf (zx s') /\ (length r < 16)%nat /\ length l = (length ct + length r)%nat /\
    readable (write M c ct) (m + len ct) r /\ no_overtake (c + len ct) (m + len ct) (len r) /\
    enc_blocks (vs (zx s)) (chunks 16 (pad 16 l)) =
      (let '(S2, c2) := enc_blocks (vs (zx s')) (chunks 16 (pad 16 r)) in (S2, ct ++ c2)).
Proof.
  induction f as [|f IH]; intros M s m c l Hs R Wr Hno Hf; [lia|].
  destruct (N.leb_spec 16 (len l)) as [H|H].
  - destruct (split_len 16 l) as (B & l' & -> & HB & LB); [exact H|]. change (N.of_nat 16) with 16 in LB.
    destruct (z_enc_body_ok M s m c B l' Hs HB R Wr) as (s1 & Rn & W1 & E1).
    set (cb := firstn 16 (xor_into (vs (zx s)) B)) in *.
    assert (Hcb : length cb = 16%nat) by (unfold cb; len; rewrite (length_vs cn64); lia).
    assert (Lcb : len cb = 16) by (apply (len_eq cb 16 Hcb)).
    destruct (readable_app _ _ _ _ R) as (_ & R').
    assert (R2 : readable (write M c cb) (m + 16) l').
    { rewrite LB in R'. apply readable_write_disjoint; [exact R'|]. rewrite <- LB.
      apply no_overtake_disjoint; [exact Hno|lia]. }
    rewrite len_app, LB in Wr. destruct (writable_split _ _ _ _ Wr) as (_ & Wr').
    destruct (IH (write M c cb) s1 (m + 16) (c + 16) l' W1 R2) as
      (s2 & ct & r & Rn2 & W2 & Hr & Hl & Rr & Hno2 & E2).
    { apply writable_write, Wr'. }
    { rewrite <- LB. apply no_overtake_step, Hno. }
    { eapply (div16_step f B l'); [lia|exact LB|exact Hf]. }
    assert (Ew : write (write M c cb) (c + 16) ct = write M c (cb ++ ct))
      by (rewrite write_app, Lcb; reflexivity).
    rewrite Ew in Rn2, Rr.
    replace (m + 16 + len ct) with (m + len (cb ++ ct)) in * by (rewrite len_app; lia).
    replace (c + 16 + len ct) with (c + len (cb ++ ct)) in * by (rewrite len_app; lia).
    exists s2, (cb ++ ct), r.
    split; [|split; [exact W2|split; [exact Hr|split; [|split; [exact Rr|split; [exact Hno2|]]]]]].
    + eapply runs_while_step; [|exact Rn|].
      { unfold zecond. lia. }
      exact Rn2.
    + rewrite !app_length. lia.
    + rewrite chunks_pad_full by (auto; lia).
      rewrite enc_blocks_cons by (apply chunks_pad_not_nil; lia). cbn zeta. rewrite <- E1, E2.
      fold cb. destruct (enc_blocks (vs (zx s2)) _) as [S2 c2]. rewrite app_assoc. reflexivity.
  - exists s, [], l. rewrite len_nil, !N.add_0_r. cbn [write].
    split; [|split; [exact Hs|split; [unfold len in H; lia|split; [reflexivity|split; [exact R|split; [exact Hno|]]]]]].
    + apply runs_while_end. unfold zecond. lia.
    + destruct (enc_blocks _ _); reflexivity.
Qed.

Lemma z_encrypt_ok M s c m l : wf (zx s) -> readable M m l -> writable M c (len l) ->
  no_overtake c m (len l) ->
  exists s' cf, enc_blocks (vs (zx s)) (chunks 16 (pad 16 l)) = (vs (zx s'), cf) /\ wf (zx s') /\
    (length l <= length cf)%nat /\
    runs (z_encrypt s c m (len l)) M (write M c (firstn (length l) cf)) s'.
Proof.
  intros Hs R Wr Hno. pose proof (readable_bound _ _ _ R) as Hbd.
  pose proof (writable_bound _ _ _ Wr) as Hbw.
  destruct (z_enc_while (fuel (len l) 16) M s m c l Hs R Wr Hno) as
    (s1 & ct & r & Rn & W1 & Hr & Hl & Rr & Hno2 & E1); [unfold fuel; lia|].
  assert (Ll : len l = len ct + len r) by (unfold len; lia).
  rewrite (enc_blocks_last _ r) in E1 by (rewrite ?(length_vs cn64); lia).
  assert (Wr' : writable (write M c ct) (c + len ct) (len r)).
  { rewrite Ll in Wr. apply writable_split in Wr. apply writable_write, Wr. }
  set (S2 := xor_at (length r) (xor_into (vs (zx s1)) r) [x01]) in *.
  assert (HS2 : length S2 = 40%nat).
  { unfold S2. rewrite length_xor_at; rewrite length_xor_into, (length_vs cn64); lia. }
  assert (Hct : firstn (length l) (ct ++ firstn 16 S2) = ct ++ firstn (length r) S2).
  { rewrite Hl, firstn_app, firstn_all2 by lia. f_equal.
    replace (length ct + length r - length ct)%nat with (length r) by lia.
    rewrite firstn_firstn. replace (Nat.min (length r) 16) with (length r) by lia. reflexivity. }
  set (M1 := write M c ct) in *. set (m1 := m + len ct) in *. set (c1 := c + len ct) in *.
  destruct (enc_last_ok LE wo cn64 L M1 (zx s1) m1 c1 r W1 Rr Wr' Hno2 Hr) as (s2 & W2 & E2 & Rn2).
  exists (withx s1 s2), (ct ++ firstn 16 S2). split; [|split; [exact W2|split]].
  - cbn [zx withx]. rewrite E2. exact E1.
  - rewrite app_length, firstn_length. lia.
  - rewrite Hct, write_app. unfold z_encrypt.
    step; [exact Rn|]. cbn beta iota. step; [exact Rn2|]. apply runs_ret.
Qed.

(** ** Ciphertext *)

Lemma z_dec_body_ok M z m c B l t : wf (zx z) -> length B = 16%nat -> readable M c (B ++ l ++ t) ->
  writable M m (len (B ++ l)) ->
  exists z', runs (z_dec_body (z, m, c, len (B ++ l))) M
      (write M m (xor_into B (vs (zx z)))) (z', m + 16, c + 16, len l) /\ wf (zx z') /\
    vs (zx z') = p 8 (B ++ skipn 16 (vs (zx z))).
Proof.
  intros Hz HB R Wr. pose proof (readable_bound _ _ _ R) as Hbd.
  assert (LB : len B = 16) by (apply (len_eq B 16 HB)).
  assert (Hlen : len (B ++ l) = 16 + len l) by (rewrite len_app; lia).
  assert (Hlen' : len (B ++ l ++ t) = 16 + len l + len t) by (rewrite !len_app; lia).
  destruct (readable_app _ _ _ _ R) as (R0 & _).
  rewrite Hlen, Hlen' in *. destruct (writable_split _ _ _ _ Wr) as (W16 & _).
  destruct (z_block z B Hz HB) as (W & V & B16). cbv zeta in *.
  set (t0 := vec_of_bytes (B ++ zeros (64 - length B))) in *. set (z1 := vxor z t0) in *.
  assert (Et : wf (zx t0) /\ vs (zx (mask_blend 16 z1 t0)) = B ++ skipn 16 (vs (zx z)) /\
     wf (zx (mask_blend 16 z1 t0))).
  { destruct (split_len 8 B) as (b0 & b1 & -> & H0 & L0); [unfold len; lia|].
    rewrite app_length in HB. assert (H1 : length b1 = 8%nat) by lia.
    assert (T : zx t0 = St (le_num b0) (le_num b1) 0 0 0) by (apply zx_vec16; assumption).
    assert (Fb0 : fits 64 (le_num b0)) by (apply fits_le_num8; lia).
    assert (Fb1 : fits 64 (le_num b1)) by (apply fits_le_num8; lia).
    assert (Wt : wf (zx t0)) by (rewrite T; repeat split; auto using fits_0).
    split; [exact Wt|]. rewrite (zx_blend z1 t0 W Wt), T. cbn [X0 X1].
    split.
    - unfold z1, t0. rewrite (zx_xor16 z b0 b1) by assumption.
      replace (setx (setx _ 0 _) 1 _) with
        (setx (xorx (setx (xorx (zx z) 0 (word b0)) 0 (word b0)) 1 (word b1)) 1 (word b1)).
      { apply (vs_set01 LE wo cn64 L); assumption. }
      rewrite !word_wo by assumption. destruct (zx z). reflexivity.
    - repeat apply wf_setx; assumption. }
  destruct Et as (Wt & Vt & Wb). set (z2 := mask_blend 16 z1 t0) in *.
  destruct (zP8_ok z2 Wb) as [W2 E2].
  exists (zP 8 z2). split; [|split; [exact W2|rewrite E2, Vt; reflexivity]].
  unfold z_dec_body. step; [apply runs_maskz_loadu; [exact R0|lia|lia]|]. fold t0. fold z1.
  replace (xor_into B (vs (zx z))) with (firstn 16 (vec_bytes z1)).
  2:{ rewrite B16, (xor_into_block B) by (rewrite (length_vs cn64); lia). rewrite HB. reflexivity. }
  step; [apply runs_mask_storeu; [exact W16|lia|lia]|]. cbn zeta. fold z2.
  step; [eapply runs_padd_writable; [exact (writable_write _ _ _ _ _ Wr)|lia]|].
  step; [apply runs_padd; [lia|intros _; eapply readable_nonnull; [exact R|lia]]|].
  rewrite sub64_small by lia. replace (16 + len l - 16) with (len l) by lia.
  apply runs_ret.
Qed.

Lemma z_dec_while f : forall M s m c l t, wf (zx s) -> readable M c (l ++ t) -> writable M m (len l) ->
  no_overtake m c (len (l ++ t)) -> (N.to_nat (len l / 16) < f)%nat ->
  exists s' ms r, runs (while f zecond z_dec_body (s, m, c, len l)) M (write M m ms)
      (s', m + len ms, c + len ms, len r) /\
    wf (zx s') /\ (length r < 16)%nat /\ length l = (length ms + length r)%nat /\
    readable (write M m ms) (c + len ms) (r ++ t) /\
    no_overtake (m + len ms) (c + len ms) (len (r ++ t)) /\
    dec_blocks (length l) (vs (zx s)) l =
      (let '(S2, m2) := dec_blocks (length r) (vs (zx s')) r in (S2, ms ++ m2)).
Proof.
  induction f as [|f IH]; intros M s m c l t Hs R Wr Hno Hf; [lia|].
  destruct (N.leb_spec 16 (len l)) as [H|H].
  - destruct (split_len 16 l) as (B & l' & -> & HB & LB); [exact H|]. change (N.of_nat 16) with 16 in LB.
    rewrite <- app_assoc in R, Hno.
    destruct (z_dec_body_ok M s m c B l' t Hs HB R Wr) as (s1 & Rn & W1 & E1).
    set (mb := xor_into B (vs (zx s))) in *.
    assert (Hmb : length mb = 16%nat) by (unfold mb; rewrite length_xor_into; exact HB).
    assert (Lmb : len mb = 16) by (apply (len_eq mb 16 Hmb)).
    destruct (readable_app _ _ _ _ R) as (_ & R').
    assert (R2 : readable (write M m mb) (c + 16) (l' ++ t)).
    { rewrite LB in R'. apply readable_write_disjoint; [exact R'|]. rewrite <- LB.
      apply no_overtake_disjoint; [exact Hno|lia]. }
    rewrite len_app, LB in Wr. destruct (writable_split _ _ _ _ Wr) as (_ & Wr').
    destruct (IH (write M m mb) s1 (m + 16) (c + 16) l' t W1 R2) as
      (s2 & ms & r & Rn2 & W2 & Hr & Hl & Rr & Hno2 & E2).
    { apply writable_write, Wr'. }
    { rewrite <- LB. apply no_overtake_step, Hno. }
    { eapply (div16_step f B l'); [lia|exact LB|exact Hf]. }
    assert (Ew : write (write M m mb) (m + 16) ms = write M m (mb ++ ms))
      by (rewrite write_app, Lmb; reflexivity).
    rewrite Ew in Rn2, Rr.
    replace (m + 16 + len ms) with (m + len (mb ++ ms)) in * by (rewrite len_app; lia).
    replace (c + 16 + len ms) with (c + len (mb ++ ms)) in * by (rewrite len_app; lia).
    exists s2, (mb ++ ms), r.
    split; [|split; [exact W2|split; [exact Hr|split; [|split; [exact Rr|split; [exact Hno2|]]]]]].
    + eapply runs_while_step; [|exact Rn|exact Rn2].
      unfold zecond. lia.
    + rewrite !app_length. lia.
    + rewrite app_length, HB. change (16 + length l')%nat with (Datatypes.S (15 + length l')).
      rewrite dec_blocks_step by exact HB. rewrite <- E1.
      rewrite (dec_blocks_fuel (15 + length l') (length l')) by lia. rewrite E2.
      fold mb. destruct (dec_blocks (length r) (vs (zx s2)) r) as [S2 m2]. rewrite app_assoc. reflexivity.
  - exists s, [], l. rewrite len_nil, !N.add_0_r. cbn [write].
    split; [|split; [exact Hs|split; [unfold len in H; lia|split; [reflexivity|split; [exact R|split; [exact Hno|]]]]]].
    + apply runs_while_end. unfold zecond. lia.
    + destruct (dec_blocks _ _ _); reflexivity.
Qed.

Lemma z_decrypt_ok M s m c l t : wf (zx s) -> readable M c (l ++ t) -> writable M m (len l) ->
  no_overtake m c (len (l ++ t)) ->
  exists s' mb, dec_blocks (length l) (vs (zx s)) l = (vs (zx s'), mb) /\ wf (zx s') /\ length mb = length l /\
    readable (write M m mb) (c + len l) t /\
    runs (z_decrypt s m c (len l)) M (write M m mb) s'.
Proof.
  intros Hs R Wr Hno. pose proof (readable_bound _ _ _ R) as Hbd. rewrite len_app in Hbd.
  pose proof (writable_bound _ _ _ Wr) as Hbw.
  destruct (z_dec_while (fuel (len l) 16) M s m c l t Hs R Wr Hno) as
    (s1 & ms & r & Rn & W1 & Hr & Hl & Rr & Hno2 & E1); [unfold fuel; lia|].
  assert (Ll : len l = len ms + len r) by (unfold len; lia).
  rewrite (dec_blocks_short _ _ r) in E1 by exact Hr.
  assert (Wr' : writable (write M m ms) (m + len ms) (len r)).
  { rewrite Ll in Wr. apply writable_split in Wr. apply writable_write, Wr. }
  destruct (readable_app _ _ _ _ Rr) as (Rr1 & Rr2).
  set (M1 := write M m ms) in *. set (m1 := m + len ms) in *. set (c1 := c + len ms) in *.
  destruct (dec_last_ok LE wo cn64 L M1 (zx s1) m1 c1 r t W1 Rr Wr' Hno2 Hr) as (s2 & W2 & E2 & Rn2).
  exists (withx s1 s2), (ms ++ xor_into r (vs (zx s1))).
  assert (Ew : write M m (ms ++ xor_into r (vs (zx s1))) =
    write M1 m1 (xor_into r (vs (zx s1)))) by apply write_app.
  split; [cbn [zx withx]; rewrite E2; exact E1|]. split; [exact W2|]. split; [rewrite app_length, length_xor_into; lia|].
  split.
  - rewrite Ew. replace (c + len l) with (c1 + len r) by (unfold c1; lia).
    apply readable_write_disjoint; [exact Rr2|].
    apply no_overtake_disjoint; [exact Hno2|]. unfold len. rewrite length_xor_into. lia.
  - rewrite Ew. unfold z_decrypt.
    step; [exact Rn|]. cbn beta iota. step; [exact Rn2|]. apply runs_ret.
Qed.

(** ** Finalisation *)

Lemma z_final_ok z k0 k1 : wf (zx z) -> length k0 = 8%nat -> length k1 = 8%nat ->
  zx (z_final z (word k0, word k1)) = ascon_final wo (zx z) (word k0, word k1).
Proof.
  intros Hz H0 H1. unfold z_final, ascon_final. cbn beta iota zeta.
  set (s1 := xorx (xorx (zx z) 2 (word k0)) 3 (word k1)).
  assert (W1 : wf s1) by (repeat (apply (wf_word LE wo cn64 L); [|lia]); exact Hz).
  destruct (zP_ok 12 (withx z s1) (or_introl eq_refl) W1) as [_ E]. cbn [zx withx] in *.
  change (zx (zP 12 {| zx := s1; z5 := z5 z; z6 := z6 z; z7 := z7 z |})) with (zx (zP 12 (withx z s1))).
  rewrite E. reflexivity.
Qed.

Theorem avx_encrypt_ok u M c clen m ad nsec npub k kb nb adb mb :
  is16 kb -> is16 nb ->
  readable M k kb -> readable M npub nb -> readable M ad adb -> readable M m mb ->
  writable M c (len mb + 16) -> writable M clen 8 ->
  disjoint clen 8 k 16 -> disjoint clen 8 npub 16 -> disjoint clen 8 ad (len adb) ->
  disjoint clen 8 m (len mb) ->
  no_overtake c m (len mb) ->
  runs (avx_aead_encrypt u c clen m (len mb) ad (len adb) nsec npub k) M
    (write (write M clen (to_host LE 8 (len mb + 16))) c (aead_encrypt kb nb adb mb)) 0%Z.
Proof.
  intros Hk Hn Rk Rn Ra Rm Wc Wcl Dk Dn Da Dm Hno.
  pose proof (writable_bound _ _ _ Wc) as Hbw.
  set (M1 := write M clen (to_host LE 8 (len mb + 16))).
  assert (Lh : len (to_host LE 8 (len mb + 16)) = 8) by (unfold len at 1; rewrite length_to_host; reflexivity).
  assert (Lk : len kb = 16) by (apply (len_eq kb 16), Hk).
  assert (Ln : len nb = 16) by (apply (len_eq nb 16), Hn).
  assert (Rk1 : readable M1 k kb) by (apply readable_write_disjoint; [exact Rk|rewrite Lh, Lk; exact Dk]).
  assert (Rn1 : readable M1 npub nb) by (apply readable_write_disjoint; [exact Rn|rewrite Lh, Ln; exact Dn]).
  assert (Ra1 : readable M1 ad adb) by (apply readable_write_disjoint; [exact Ra|rewrite Lh; exact Da]).
  assert (Rm1 : readable M1 m mb) by (apply readable_write_disjoint; [exact Rm|rewrite Lh; exact Dm]).
  assert (Wc1 : writable M1 c (len mb + 16)) by (apply writable_write, Wc).
  unfold is16 in Hk.
  destruct (split_len 8 kb) as (k0 & k1 & -> & H0 & L0); [lia|].
  rewrite app_length in Hk. assert (H1 : length k1 = 8%nat) by lia.
  pose proof (loadkey_ok LE wo M1 k k0 k1 H0 H1 Rk1) as Rnk.
  destruct (z_initaead_ok u M1 npub k0 k1 nb H0 H1 Hn Rn1) as (s0 & Rn0 & W0 & E0).
  destruct (z_adata_ok M1 s0 ad adb W0 Ra1) as (s1 & W1 & Ws1 & E1).
  destruct (writable_split _ _ _ _ Wc1) as (Wm & Wt).
  destruct (z_encrypt_ok M1 s1 c m mb Ws1 Rm1 Wm Hno) as (s2 & cf & E2 & W2 & Hcf & Rn2).
  destruct (final_ok LE wo cn64 L (zx s2) k0 k1 W2 H0 H1) as (W3 & E3).
  rewrite <- z_final_ok in W3, E3 by assumption.
  set (s3 := zx (z_final s2 (word k0, word k1))) in *.
  assert (F3 : fits 64 (X3 s3)) by apply W3. assert (F4 : fits 64 (X4 s3)) by apply W3.
  unfold avx_aead_encrypt.
  step; [apply runs_store_ull; exact Wcl|].
  unfold CRYPTO_ABYTES. rewrite add64_small by lia. fold M1.
  step; [eapply runs_padd_writable; [exact Wc1|lia]|].
  unfold z_aead_encrypt.
  step; [exact Rnk|].
  step; [exact Rn0|].
  step; [exact W1|].
  step; [exact Rn2|]. cbn zeta. fold s3.
  destruct (writable_split _ _ 8 8 Wt) as (Wt1 & Wt2).
  assert (Nt : c + len mb <> 0) by (apply Wt; discriminate).
  assert (Nt2 : c + len mb + 8 <> 0) by lia.
  unfold ascon_gettag.
  step; [|apply runs_ret].
  step; [apply (runs_wSTOREBYTES LE wo cn64 L); [apply writable_write, Wt1|reflexivity || lia|exact Nt|exact F3]|].
  step; [eapply runs_padd_writable; [apply writable_write, writable_write, Wt|lia]|].
  replace (write M1 c (aead_encrypt (k0 ++ k1) nb adb mb)) with
    (write (write (write M1 c (firstn (length mb) cf)) (c + len mb) (firstn (N.to_nat 8) (wb (cn64 (X3 s3)))))
       (c + len mb + 8) (firstn (N.to_nat 8) (wb (cn64 (X4 s3))))).
  { apply (runs_wSTOREBYTES LE wo cn64 L); [apply writable_write, writable_write, Wt2|lia|exact Nt2|exact F4]. }
  unfold aead_encrypt. rewrite <- E0, <- E1, E2, <- E3.
  rewrite !firstn_wb8.
  rewrite !write_app, len_wb.
  replace (len (firstn (length mb) cf)) with (len mb); [reflexivity|].
  unfold len. rewrite firstn_length. lia.
Qed.

Theorem avx_decrypt_short u M m mlen nsec c clen ad adlen npub k :
  clen < 16 -> runs (avx_aead_decrypt u m mlen nsec c clen ad adlen npub k) M M (-1)%Z.
Proof.
  intros H. unfold avx_aead_decrypt, CRYPTO_ABYTES.
  step; [apply runs_branch|]. replace (clen <? 16) with true by lia. apply runs_ret.
Qed.

Theorem avx_decrypt_ok u M m mlen nsec c ad npub k kb nb adb body tag mb t :
  is16 kb -> is16 nb -> is16 tag ->
  readable M k kb -> readable M npub nb -> readable M ad adb -> readable M c (body ++ tag) ->
  writable M m (len body) -> writable M mlen 8 ->
  disjoint mlen 8 k 16 -> disjoint mlen 8 npub 16 -> disjoint mlen 8 ad (len adb) ->
  disjoint mlen 8 c (len (body ++ tag)) ->
  no_overtake m c (len (body ++ tag)) ->
  aead_open kb nb adb body = (mb, t) ->
  runs (avx_aead_decrypt u m mlen nsec c (len (body ++ tag)) ad (len adb) npub k) M
    (write (write M mlen (to_host LE 8 (len body))) m mb)
    (if list_eq_dec Byte.byte_eq_dec t tag then 0 else -1)%Z
  /\ length mb = length body /\ is16 t.
Proof.
  intros Hk Hn Ht Rk Rn Ra Rc Wm Wml Dk Dn Da Dc Hno Hopen.
  pose proof (readable_bound _ _ _ Rc) as Hbd.
  set (M1 := write M mlen (to_host LE 8 (len body))).
  assert (Lh : len (to_host LE 8 (len body)) = 8) by (unfold len at 1; rewrite length_to_host; reflexivity).
  assert (Lk : len kb = 16) by (apply (len_eq kb 16), Hk).
  assert (Ln : len nb = 16) by (apply (len_eq nb 16), Hn).
  assert (Lt : len tag = 16) by (apply (len_eq tag 16), Ht).
  assert (Lb : len (body ++ tag) = len body + 16) by (rewrite len_app; lia).
  assert (Rk1 : readable M1 k kb) by (apply readable_write_disjoint; [exact Rk|rewrite Lh, Lk; exact Dk]).
  assert (Rn1 : readable M1 npub nb) by (apply readable_write_disjoint; [exact Rn|rewrite Lh, Ln; exact Dn]).
  assert (Ra1 : readable M1 ad adb) by (apply readable_write_disjoint; [exact Ra|rewrite Lh; exact Da]).
  assert (Rc1 : readable M1 c (body ++ tag)) by (apply readable_write_disjoint; [exact Rc|rewrite Lh; exact Dc]).
  assert (Wm1 : writable M1 m (len body)) by (apply writable_write, Wm).
  assert (Fb : fits 64 (len body)) by (unfold fits; lia).
  assert (Rl : readable M1 mlen (to_host LE 8 (len body))).
  { apply readable_write_self; [rewrite Lh; apply (writable_bound _ _ _ Wml)|]. intros _. apply Wml. discriminate. }
  unfold is16 in Hk.
  destruct (split_len 8 kb) as (k0 & k1 & -> & H0 & L0); [lia|].
  rewrite app_length in Hk. assert (H1 : length k1 = 8%nat) by lia.
  pose proof (loadkey_ok LE wo M1 k k0 k1 H0 H1 Rk1) as Rnk.
  destruct (z_initaead_ok u M1 npub k0 k1 nb H0 H1 Hn Rn1) as (s0 & Rn0 & W0 & E0).
  destruct (z_adata_ok M1 s0 ad adb W0 Ra1) as (s1 & W1 & Ws1 & E1).
  destruct (z_decrypt_ok M1 s1 m c body tag Ws1 Rc1 Wm1 Hno) as (s2 & mb' & E2 & W2 & Hmb & Rt & Rn2).
  destruct (final_ok LE wo cn64 L (zx s2) k0 k1 W2 H0 H1) as (W3 & E3).
  rewrite <- z_final_ok in W3, E3 by assumption.
  set (s3 := zx (z_final s2 (word k0, word k1))) in *.
  unfold aead_open in Hopen. rewrite <- E0, <- E1, E2 in Hopen. inversion Hopen; subst mb t. clear Hopen.
  assert (L16 : is16 (aead_tag (k0 ++ k1) (vs (zx s2)))).
  { unfold is16. rewrite <- E3, app_length, !wb_len. reflexivity. }
  split; [|split; [exact Hmb|exact L16]].
  unfold avx_aead_decrypt, CRYPTO_ABYTES.
  step; [apply runs_branch|].
  replace (len (body ++ tag) <? 16) with false by lia.
  step; [apply runs_store_ull; exact Wml|].
  rewrite sub64_small by lia. replace (len (body ++ tag) - 16) with (len body) by lia. fold M1.
  step; [apply runs_load_ull; [exact Rl|exact Fb]|].
  step; [eapply runs_padd_readable; [exact Rc1|lia]|].
  step; [apply runs_load_ull; [exact Rl|exact Fb]|].
  unfold z_aead_decrypt.
  step; [exact Rnk|].
  step; [exact Rn0|].
  step; [exact W1|].
  step; [exact Rn2|]. cbn zeta. fold s3.
  rewrite <- E3. apply (verify_ok LE wo cn64 L); [exact W3|exact Ht|exact Rt].
Qed.
