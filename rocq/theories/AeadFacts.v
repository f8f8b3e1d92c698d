(** * AeadFacts.v -- consequences of the specification of the AEAD. *)
From Coq Require Import Arith Bool NArith ZArith List Lia Init.Byte Strings.Byte.
From Coq Require Import ZifyBool ZifyNat ZifyN.
From Verif Require Import Words WordFacts Spec SpecFacts CMem Contract StateRep RefAead RefAeadDec.
Import ListNotations.

Lemma xor_into_self_cancel B S : length B <= length S ->
  xor_into (firstn (length B) (xor_into S B)) S = B.
Proof.
  intros H. apply bytes_ext; [len; lia|]. intros j Hj.
  rewrite length_xor_into, firstn_length, length_xor_into in Hj.
  rewrite nth_xor_into, nth_firstn, nth_xor_into, firstn_length, length_xor_into.
  destruct (Nat.ltb_spec j (length B)), (Nat.ltb_spec j (length S)),
    (Nat.ltb_spec j (Nat.min (length B) (length S))); try lia.
  rewrite (bxor_comm (nth j S x00)). apply bxor_cancel.
Qed.

Lemma firstn_xor_keep B S : length B <= length S ->
  firstn (length B) (xor_into S B) ++ skipn (length B) S = xor_into S B.
Proof.
  intros H. rewrite <- (skipn_xor_into (length B) S B) by lia. apply firstn_skipn.
Qed.

Lemma xor_into_block_back B S : length B <= length S ->
  xor_into S (xor_into B S) = B ++ skipn (length B) S.
Proof.
  intros H. apply bytes_ext; [len; lia|]. intros j Hj. rewrite length_xor_into in Hj.
  rewrite nth_xor_into, nth_xor_into, nth_app, nth_skipn.
  destruct (Nat.ltb_spec j (length S)), (Nat.ltb_spec j (length B)); try lia.
  - rewrite (bxor_comm (nth j B x00)), <- bxor_assoc, bxor_self, bxor_x00_l. reflexivity.
  - rewrite bxor_x00_r. f_equal. lia.
Qed.

(** Decrypting what was encrypted. *)
Lemma dec_enc_blocks m : forall S S1 c, length S = 40 ->
  enc_blocks S (chunks 16 (pad 16 m)) = (S1, c) ->
  length m <= length c /\
  dec_blocks (length m) S (firstn (length m) c) = (S1, m).
Proof.
  remember (length m) as n eqn:Hn. revert m Hn.
  induction n as [n IH] using lt_wf_ind. intros m Hn S S1 c HS E.
  destruct (Nat.lt_ge_cases n 16) as [H|H].
  - rewrite enc_blocks_last in E by lia. apply pair_equal_spec in E; destruct E as [<- <-].
    rewrite <- Hn. split; [rewrite firstn_length, length_xor_at; rewrite length_xor_into; lia|].
    rewrite firstn_firstn, Nat.min_l by lia.
    rewrite firstn_xor_at by (rewrite ?length_xor_into; lia).
    assert (Hc : length (firstn n (xor_into S m)) = n) by (rewrite firstn_length, length_xor_into; lia).
    rewrite dec_blocks_short, Hc by lia. subst n.
    rewrite firstn_xor_keep, xor_into_self_cancel by lia. reflexivity.
  - destruct (split_at 16 m) as (B & m' & -> & HB); [lia|]. rewrite app_length in Hn.
    rewrite chunks_pad_full, enc_blocks_cons in E by (auto; try apply chunks_pad_not_nil; lia).
    cbn zeta in E. destruct (enc_blocks (p 8 (xor_into S B)) (chunks 16 (pad 16 m'))) as [S2 c2] eqn:E2.
    apply pair_equal_spec in E; destruct E as [<- <-].
    destruct (IH (length m') ltac:(lia) m' eq_refl _ _ _ (length_p _ _) E2) as (Hl & D).
    assert (HF : length (firstn 16 (xor_into S B)) = 16) by (rewrite firstn_length, length_xor_into; lia).
    split; [rewrite app_length; lia|].
    rewrite firstn_app, HF, firstn_all2 by lia.
    replace (n - 16) with (length m') by lia.
    replace n with (Datatypes.S (15 + length m')) by lia.
    rewrite dec_blocks_step by exact HF.
    pose proof (firstn_xor_keep B S ltac:(lia)) as K. rewrite HB in K. rewrite K.
    rewrite (dec_blocks_fuel (15 + length m') (length m')) by (rewrite firstn_length; lia).
    rewrite D. pose proof (xor_into_self_cancel B S ltac:(lia)) as C. rewrite HB in C. rewrite C. reflexivity.
Qed.

(** Encrypting what was decrypted. *)
Lemma enc_dec_blocks c : forall S S1 m, length S = 40 ->
  dec_blocks (length c) S c = (S1, m) ->
  length m = length c /\
  exists cf, enc_blocks S (chunks 16 (pad 16 m)) = (S1, cf) /\ firstn (length m) cf = c.
Proof.
  remember (length c) as n eqn:Hn. revert c Hn.
  induction n as [n IH] using lt_wf_ind. intros c Hn S S1 m HS E.
  destruct (Nat.lt_ge_cases n 16) as [H|H].
  - rewrite dec_blocks_short in E by lia. apply pair_equal_spec in E; destruct E as [<- <-].
    assert (Hm : length (xor_into c S) = n) by (rewrite length_xor_into; lia).
    split; [exact Hm|]. rewrite enc_blocks_last by lia. rewrite Hm.
    rewrite xor_into_block_back by lia. rewrite <- Hn.
    eexists. split; [reflexivity|].
    rewrite firstn_firstn, Nat.min_l by lia.
    rewrite firstn_xor_at by (rewrite ?app_length, ?skipn_length; lia).
    subst n. apply firstn_app_exact. reflexivity.
  - destruct (split_at 16 c) as (B & c' & -> & HB); [lia|]. rewrite app_length in Hn.
    replace n with (Datatypes.S (15 + length c')) in E by lia.
    rewrite dec_blocks_step in E by exact HB.
    rewrite (dec_blocks_fuel (15 + length c') (length c')) in E by lia.
    destruct (dec_blocks (length c') (p 8 (B ++ skipn 16 S)) c') as [S2 m2] eqn:E2.
    apply pair_equal_spec in E; destruct E as [<- <-].
    destruct (IH (length c') ltac:(lia) c' eq_refl _ _ _ (length_p _ _) E2) as (Hl & cf & D & F).
    assert (HX : length (xor_into B S) = 16) by (rewrite length_xor_into; exact HB).
    split; [rewrite app_length; lia|].
    rewrite chunks_pad_full, enc_blocks_cons by (auto; try apply chunks_pad_not_nil; lia).
    cbn zeta. rewrite xor_into_block_back, HB by lia. rewrite D.
    eexists. split; [reflexivity|].
    rewrite (firstn_app_exact 16 B) by exact HB.
    rewrite app_length, HX, firstn_app, HB, firstn_all2 by lia.
    replace (16 + length m2 - 16) with (length m2) by lia. rewrite F. reflexivity.
Qed.

Lemma length_aead_init k n : length (aead_init k n) = 40.
Proof. unfold aead_init. rewrite length_xor_at; rewrite length_p; lia. Qed.
Lemma length_aead_ad S ad : length S = 40 -> length (aead_ad S ad) = 40.
Proof.
  intros H. unfold aead_ad.
  assert (E : length (match ad with [] => S | _ => absorb 8 S (chunks 16 (pad 16 ad)) end) = 40).
  { destruct ad; [exact H|apply length_absorb, H]. }
  rewrite length_xor_at; rewrite E; lia.
Qed.
Lemma length_aead_tag k S : length (aead_tag k S) = 16.
Proof. unfold aead_tag. rewrite length_xor_into, skipn_length, length_p. reflexivity. Qed.

(** Ciphertext body and tag. *)
Lemma aead_encrypt_open k n ad m : exists body tag,
  aead_encrypt k n ad m = body ++ tag /\ length body = length m /\ length tag = 16 /\
  aead_open k n ad body = (m, tag).
Proof.
  unfold aead_encrypt, aead_open. set (S := aead_ad (aead_init k n) ad).
  assert (HS : length S = 40) by (apply length_aead_ad, length_aead_init).
  destruct (enc_blocks S (chunks 16 (pad 16 m))) as [S1 c] eqn:E.
  destruct (dec_enc_blocks m S S1 c HS E) as (Hl & D).
  assert (Hf : length (firstn (length m) c) = length m) by (rewrite firstn_length; lia).
  exists (firstn (length m) c), (aead_tag k S1).
  split; [reflexivity|]. split; [exact Hf|]. split; [apply length_aead_tag|].
  rewrite Hf, D. reflexivity.
Qed.

Lemma aead_open_encrypt k n ad body m t : aead_open k n ad body = (m, t) ->
  length m = length body /\ length t = 16 /\ aead_encrypt k n ad m = body ++ t.
Proof.
  unfold aead_encrypt, aead_open. set (S := aead_ad (aead_init k n) ad).
  assert (HS : length S = 40) by (apply length_aead_ad, length_aead_init).
  destruct (dec_blocks (length body) S body) as [S1 m'] eqn:E. intros H. inversion H; subst m' t; clear H.
  destruct (enc_dec_blocks body S S1 m HS E) as (Hl & cf & D & F).
  split; [exact Hl|]. split; [apply length_aead_tag|]. rewrite D, F. reflexivity.
Qed.

Theorem length_aead_encrypt k n ad m : length (aead_encrypt k n ad m) = length m + 16.
Proof.
  destruct (aead_encrypt_open k n ad m) as (b & t & -> & H1 & H2 & _). rewrite app_length. lia.
Qed.

Theorem aead_roundtrip k n ad m : aead_decrypt k n ad (aead_encrypt k n ad m) = Some m.
Proof.
  destruct (aead_encrypt_open k n ad m) as (b & t & -> & H1 & H2 & H3).
  unfold aead_decrypt. rewrite app_length, H2.
  replace (length b + 16 <? 16) with false by lia.
  replace (length b + 16 - 16) with (length b) by lia.
  rewrite firstn_app_exact, skipn_app_exact by reflexivity. rewrite H3.
  destruct (list_eq_dec Byte.byte_eq_dec t t); congruence.
Qed.

Theorem aead_decrypt_only_encryptions k n ad ct m :
  aead_decrypt k n ad ct = Some m -> ct = aead_encrypt k n ad m.
Proof.
  unfold aead_decrypt. destruct (length ct <? 16); [discriminate|].
  destruct (aead_open k n ad (firstn (length ct - 16) ct)) as [m' t] eqn:E.
  destruct (list_eq_dec Byte.byte_eq_dec t (skipn (length ct - 16) ct)) as [Et|]; [|discriminate].
  intros H. inversion H; subst m'; clear H.
  destruct (aead_open_encrypt _ _ _ _ _ _ E) as (_ & _ & ->). rewrite Et, firstn_skipn. reflexivity.
Qed.

Theorem aead_encrypt_inj k n ad m1 m2 :
  aead_encrypt k n ad m1 = aead_encrypt k n ad m2 -> m1 = m2.
Proof.
  intros H. pose proof (aead_roundtrip k n ad m1) as H1. rewrite H, aead_roundtrip in H1. congruence.
Qed.

(** The ciphertext of a prefix: streaming structure. *)
Lemma enc_blocks_prefix m1 : forall m2 S S1 c1 S2 c2, length S = 40 ->
  enc_blocks S (chunks 16 (pad 16 m1)) = (S1, c1) ->
  enc_blocks S (chunks 16 (pad 16 (m1 ++ m2))) = (S2, c2) ->
  firstn (length m1) c1 = firstn (length m1) c2.
Proof.
  remember (length m1) as n eqn:Hn. revert m1 Hn.
  induction n as [n IH] using lt_wf_ind. intros m1 Hn m2 S S1 c1 S2 c2 HS E1 E2.
  destruct (Nat.lt_ge_cases n 16) as [H|H].
  - rewrite enc_blocks_last in E1 by lia. apply pair_equal_spec in E1; destruct E1 as [<- <-].
    rewrite firstn_firstn, Nat.min_l, firstn_xor_at, firstn_xor_into by (rewrite ?length_xor_into; lia).
    assert (Hgen : firstn n c2 = firstn n (xor_into S (m1 ++ m2))).
    { destruct (Nat.lt_ge_cases (length (m1 ++ m2)) 16) as [L|L].
      - rewrite enc_blocks_last in E2 by lia. apply pair_equal_spec in E2; destruct E2 as [<- <-].
        rewrite app_length in *.
        rewrite firstn_firstn, Nat.min_l, firstn_xor_at by (rewrite ?length_xor_into; lia). reflexivity.
      - destruct (split_at 16 (m1 ++ m2)) as (B & m' & EB & HB); [lia|]. rewrite EB in E2 |- *.
        rewrite chunks_pad_full, enc_blocks_cons in E2 by (auto; try apply chunks_pad_not_nil; lia).
        cbn zeta in E2. destruct (enc_blocks (p 8 (xor_into S B)) _) as [S3 c3].
        apply pair_equal_spec in E2; destruct E2 as [<- <-]. rewrite firstn_app.
        rewrite firstn_length, length_xor_into, firstn_firstn, Nat.min_l by lia.
        replace (n - Nat.min 16 (length S)) with 0 by lia. rewrite firstn_O, app_nil_r.
        rewrite !firstn_xor_into. f_equal. rewrite firstn_app.
        replace (n - length B) with 0 by lia. rewrite firstn_O, app_nil_r. reflexivity. }
    rewrite Hgen, firstn_xor_into. f_equal.
    rewrite firstn_app, Hn, Nat.sub_diag, firstn_O, app_nil_r. reflexivity.
  - destruct (split_at 16 m1) as (B & m1' & -> & HB); [lia|]. rewrite app_length in Hn.
    rewrite <- app_assoc in E2.
    rewrite chunks_pad_full, enc_blocks_cons in E1, E2 by (auto; try apply chunks_pad_not_nil; lia).
    cbn zeta in E1, E2.
    destruct (enc_blocks (p 8 (xor_into S B)) (chunks 16 (pad 16 m1'))) as [T1 d1] eqn:F1.
    destruct (enc_blocks (p 8 (xor_into S B)) (chunks 16 (pad 16 (m1' ++ m2)))) as [T2 d2] eqn:F2.
    apply pair_equal_spec in E1; destruct E1 as [<- <-]. apply pair_equal_spec in E2; destruct E2 as [<- <-]. subst n.
    rewrite !firstn_app. f_equal. rewrite firstn_length, length_xor_into.
    replace (length B + length m1' - Nat.min 16 (length S)) with (length m1') by lia.
    apply (IH (length m1') ltac:(lia) m1' eq_refl m2 _ _ _ _ _ (length_p _ _) F1 F2).
Qed.

Theorem aead_prefix k n ad m1 m2 :
  firstn (length m1) (aead_encrypt k n ad (m1 ++ m2)) =
  firstn (length m1) (aead_encrypt k n ad m1).
Proof.
  unfold aead_encrypt. set (S := aead_ad (aead_init k n) ad).
  assert (HS : length S = 40) by (apply length_aead_ad, length_aead_init).
  destruct (enc_blocks S (chunks 16 (pad 16 m1))) as [S1 c1] eqn:E1.
  destruct (enc_blocks S (chunks 16 (pad 16 (m1 ++ m2)))) as [S2 c2] eqn:E2.
  pose proof (enc_blocks_prefix m1 m2 S S1 c1 S2 c2 HS E1 E2) as P.
  destruct (dec_enc_blocks _ S S1 c1 HS E1) as (L1 & _).
  destruct (dec_enc_blocks _ S S2 c2 HS E2) as (L2 & _). rewrite app_length in *.
  rewrite !firstn_app, !firstn_firstn, !firstn_length.
  replace (length m1 - Nat.min (length m1 + length m2) (length c2)) with 0 by lia.
  replace (length m1 - Nat.min (length m1) (length c1)) with 0 by lia.
  rewrite !firstn_O, !app_nil_r.
  rewrite !Nat.min_l by lia. symmetry; exact P.
Qed.

(** ** Padding *)

Lemma pad_inj r m1 m2 : pad r m1 = pad r m2 -> m1 = m2.
Proof.
  unfold pad. generalize (r - 1 - length m1 mod r) as a, (r - 1 - length m2 mod r) as b.
  intros a b H. apply (f_equal (@rev _)) in H. rewrite !rev_app_distr in H. cbn [rev] in H.
  unfold zeros in H.
  assert (R : forall n, rev (repeat x00 n) = repeat x00 n).
  { induction n as [|n IH]; [reflexivity|]. cbn [repeat rev]. rewrite IH. symmetry. apply repeat_cons. }
  rewrite !R, <- !app_assoc in H. cbn [app] in H.
  enough (E : forall x y : bytes, forall a b, repeat x00 a ++ x01 :: x = repeat x00 b ++ x01 :: y -> x = y).
  { apply E in H. apply (f_equal (@rev _)) in H. rewrite !rev_involutive in H. subst. reflexivity. }
  clear H. intros x y a'. induction a' as [|a' IH]; intros [|b'] H; cbn [repeat app] in H.
  - inversion H; reflexivity.
  - inversion H.
  - inversion H.
  - inversion H. eapply IH; eassumption.
Qed.

Lemma chunks_inj r l1 l2 : 0 < r -> chunks r l1 = chunks r l2 -> l1 = l2.
Proof. intros Hr H. rewrite <- (concat_chunks r l1), H by exact Hr. apply concat_chunks, Hr. Qed.

Theorem padded_blocks_inj r m1 m2 : 0 < r ->
  chunks r (pad r m1) = chunks r (pad r m2) -> m1 = m2.
Proof. intros Hr H. apply chunks_inj in H; [|exact Hr]. eapply pad_inj; exact H. Qed.

(** ** Output streams *)

Theorem squeeze_prefix n n' r rnd S : 0 < r -> r <= length S -> r <= 40 -> n <= n' ->
  squeeze n r rnd S = firstn n (squeeze n' r rnd S).
Proof.
  intros Hr HS H40 H. unfold squeeze. rewrite firstn_firstn, Nat.min_l by exact H.
  pose proof (squeeze_fuel n r Hr). pose proof (squeeze_fuel n' r Hr).
  apply firstn_squeeze_blocks; auto; lia.
Qed.

Lemma length_hash_init iv : length (hash_init iv) = 40.
Proof. apply length_p. Qed.

Theorem xof_prefix m n n' : n <= n' -> xof128 m n = firstn n (xof128 m n').
Proof.
  intros H. apply squeeze_prefix; try lia. rewrite length_absorb; [lia|apply length_p].
Qed.
Theorem cxof_prefix m cs n n' : n <= n' -> cxof128 m cs n = firstn n (cxof128 m cs n').
Proof.
  intros H. apply squeeze_prefix; try lia. rewrite length_absorb; [lia|]. apply length_absorb, length_hash_init.
Qed.
Lemma length_prf_absorb bs : forall S, length S = 40 -> length (prf_absorb S bs) = 40.
Proof.
  induction bs as [|B bs IH]; intros S HS; [exact HS|].
  destruct bs; cbn [prf_absorb]; [apply length_p|]. apply IH, length_p.
Qed.
Theorem prf_gen_prefix iv k m n n' : n <= n' -> prf_gen iv k m n = firstn n (prf_gen iv k m n').
Proof.
  intros H. apply squeeze_prefix; try lia. rewrite length_prf_absorb; [lia|apply length_p].
Qed.
Theorem prf_short_prefix k m n n' : n <= n' -> prf_short k m n = firstn n (prf_short k m n').
Proof. intros H. unfold prf_short. rewrite firstn_firstn, Nat.min_l by exact H. reflexivity. Qed.
