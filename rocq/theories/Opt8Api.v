(** * Opt8Api.v -- the byte-oriented implementations meet the API
    contracts on little-endian hosts, for any permutation code [P] that
    computes the permutation. *)
From Coq Require Import Bool Arith NArith ZArith List Lia Init.Byte Strings.Byte ZifyBool ZifyNat ZifyN.
From Verif Require Import Words WordFacts Spec SpecFacts CMem Contract CMemFacts ApiSpec AeadFacts ApiFacts
  ModelRef RefPrim RefHash ModelCommon ModelWords WordInst ModelOpt8 Opt8Round Opt8Prim Opt8Aead Opt8Dec Opt8Hash Opt8Prf Opt8Low.
Import ListNotations.
Local Open Scope N_scope.

Lemma P8bit_conforming : conforming P8bit.
Proof. intros s H. split; [apply P8bit_12, H|apply P8bit_8, H]. Qed.

Section Opt8.
Variable P : N -> bytes -> bytes.
Hypothesis HP : conforming P.

Lemma o8_encrypt_conforms : encrypt_conforms LE (Demands false false false) (o8_aead_encrypt LE P).
Proof.
  intros M c clen m ad nsec npub k mb adb nb kb []. destruct ep_ov as [ep_ov _]. apply returns_runs, (o8_encrypt_ok P HP); assumption.
Qed.
Lemma o8_decrypt_conforms : decrypt_conforms LE (Demands false false false) (o8_aead_decrypt LE P).
Proof.
  intros M m mlen nsec c ad npub k ct adb nb kb mb t [] O. destruct dp_ov as [dp_ov _]. cbn [no_overlap overlap_rule] in *.
  destruct (ct_split ct dp_len) as (E & L1 & L2).
  pose proof (o8_decrypt_ok P HP M m mlen nsec c ad npub k kb nb adb (ct_body ct) (ct_tag ct) mb t) as H.
  rewrite <- E, L1 in H. apply returns_runs, H; assumption.
Qed.
Lemma o8_low_encrypt_conforms hr : encrypt_conforms LE (Demands false false false) (o8_low_aead_encrypt LE P true hr false).
Proof.
  intros M c clen m ad nsec npub k mb adb nb kb Pre.
  destruct Pre as []. destruct ep_ov as [ep_ov _].
  apply returns_runs, low_encrypt_sim; [|apply (o8_encrypt_ok P HP); assumption].
  pose proof (readable_bound _ _ _ ep_ad). lia.
Qed.
Lemma o8_low_decrypt_conforms hr : decrypt_conforms LE (Demands false false false) (o8_low_aead_decrypt LE P true hr false).
Proof.
  intros M m mlen nsec c ad npub k ct adb nb kb mb t [] O. destruct dp_ov as [dp_ov _]. cbn [no_overlap overlap_rule] in *.
  destruct (ct_split ct dp_len) as (E & L1 & L2).
  pose proof (o8_decrypt_ok P HP M m mlen nsec c ad npub k kb nb adb (ct_body ct) (ct_tag ct) mb t) as H.
  rewrite <- E, L1 in H. apply returns_runs, low_decrypt_sim.
  - pose proof (readable_bound _ _ _ dp_ad). lia.
  - apply H; assumption.
Qed.

Lemma o8_hash256_conforms : hash_conforms (Demands false false false) hash256 32 (o8_hash_hash256 LE P opt8_hpad).
Proof. intros M out inp l R W _. apply returns_runs, (o8_hash256_ok P HP); assumption. Qed.
Lemma o8_xof128_conforms : hash_conforms (Demands false false false) (fun l => xof128 l 64) 64 (o8_hash_xof128 LE P opt8_hpad).
Proof. intros M out inp l R W _. apply returns_runs, (o8_xof128_ok P HP); assumption. Qed.
Lemma o8_low_hash256_conforms ar : hash_conforms (Demands false false false) hash256 32 (o8_low_hash256 LE P ar true false).
Proof.
  intros M out inp l R W _. apply returns_runs.
  apply (o8_low_xof_ok P HP ar w64_HASH_IV iv_hash256 32); [apply hash_iv_ok|exact R|exact W|reflexivity].
Qed.
Lemma o8_low_xof128_conforms ar : hash_conforms (Demands false false false) (fun l => xof128 l 64) 64 (o8_low_xof128 LE P ar true false).
Proof.
  intros M out inp l R W _. apply returns_runs.
  apply (o8_low_xof_ok P HP ar w64_XOF_IV iv_xof128 64); [apply xof_iv_ok|exact R|exact W|reflexivity].
Qed.

(** ... with any padding *)
Lemma o8_hash_like_conforms hpad padf (H : pads8 hpad padf) iv IV n : xs iv = hash_init IV ->
  hash_conforms (Demands false false false) (fun l => squeeze (N.to_nat n) 8 12 (absorb 12 (hash_init IV) (chunks 8 (padf l)))) n
    (fun out inp inlen => o8_xof LE P hpad iv out n inp inlen).
Proof. intros E M out inp l R W _. apply returns_runs, (o8_xof_ok P HP hpad padf H iv IV n); assumption. Qed.
Lemma o8_auth_like_conforms hpad dpos padf absf (H : pads32 hpad dpos padf absf) IV iv CB : le_bytes 8 IV = iv ->
  auth_conforms (prf_like padf absf iv) None CB (o8_auth LE P hpad dpos IV CB).
Proof.
  intros Hiv M out inp l k kb Hk Rk Ri W _. apply returns_runs, (o8_prf_like P HP hpad dpos padf absf H); auto. lia.
Qed.
Lemma o8_prf_like_conforms hpad dpos padf absf (H : pads32 hpad dpos padf absf) IV iv CB : le_bytes 8 IV = iv ->
  prf_conforms (Demands false false false) (prf_like padf absf iv) None CB (o8_prf LE P hpad dpos IV CB).
Proof.
  intros Hiv. split.
  - intros M out n inp l k kb Hk Rk Ri [W Hn0] _ Hn. apply returns_runs, (o8_prf_like P HP hpad dpos padf absf H); assumption.
  - intros M out n inp inlen k [G|G]; [cbn in G; tauto|].
    unfold o8_prf, bind, branch. replace (CB <? n) with true by lia.
    eexists. split; [reflexivity|]. repeat constructor. eexists; reflexivity.
Qed.
Lemma o8_verify_like_conforms hpad dpos padf absf (H : pads32 hpad dpos padf absf) IV iv CB : le_bytes 8 IV = iv ->
  verify_conforms (prf_like padf absf iv) None CB (o8_auth_verify LE P hpad dpos IV CB).
Proof.
  intros Hiv. split.
  - intros M sp h hb inp l k kb Hk Hh Rk Ri Rh F _.
    destruct (o8_verify_like P HP hpad dpos padf absf H IV iv CB M sp h hb inp l k kb) as (M' & (t & Hr) & E); try assumption.
    exists t, M'. split; [|exact E]. replace (N.to_nat CB) with (length hb); [exact Hr|]. unfold len in Hh. lia.
  - intros M sp h inp inlen k G. cbn in G. tauto.
Qed.

Lemma o8_prf_conforms IV iv CB : le_bytes 8 IV = iv ->
  prf_conforms (Demands false false false) (prf_gen iv) None CB (o8_prf LE P opt8_hpad opt8_dpos IV CB).
Proof.
  intros Hiv. split.
  - intros M out n inp l k kb Hk Rk Ri [W Hn0] _ Hn. apply returns_runs, (o8_prf_ok P HP); assumption.
  - intros M out n inp inlen k [H|H]; [cbn in H; tauto|].
    unfold o8_prf, bind, branch. replace (CB <? n) with true by lia.
    eexists. split; [reflexivity|]. repeat constructor. eexists; reflexivity.
Qed.
Lemma o8_auth_conforms IV iv CB : le_bytes 8 IV = iv ->
  auth_conforms (prf_gen iv) None CB (o8_auth LE P opt8_hpad opt8_dpos IV CB).
Proof.
  intros Hiv M out inp l k kb Hk Rk Ri W _. apply returns_runs, (o8_prf_ok P HP); auto. lia.
Qed.
Lemma o8_verify_conforms IV iv CB : le_bytes 8 IV = iv ->
  verify_conforms (prf_gen iv) None CB (o8_auth_verify LE P opt8_hpad opt8_dpos IV CB).
Proof.
  intros Hiv. split.
  - intros M sp h hb inp l k kb Hk Hh Rk Ri Rh F _.
    destruct (o8_verify_ok P HP IV iv CB M sp h hb inp l k kb) as (M' & (t & Hr) & E); try assumption.
    exists t, M'. split; [|exact E]. replace (N.to_nat CB) with (length hb); [exact Hr|]. unfold len in Hh. lia.
  - intros M sp h inp inlen k H. cbn in H. tauto.
Qed.
Lemma o8_prfs_conforms : prf_conforms (Demands false false false) prf_short (Some 16) 16 (o8_prfs LE P).
Proof.
  split.
  - intros M out n inp l k kb Hk Rk Ri [W _] Hi Hn. apply returns_runs, (o8_prfs_ok P HP); assumption.
  - intros M out n inp inlen k H. cbn [below] in H. unfold o8_prfs, bind, branch.
    destruct (16 <? inlen) eqn:E1.
    + eexists. split; [reflexivity|]. repeat constructor. eexists; reflexivity.
    + replace (16 <? n) with true by lia.
      eexists. split; [reflexivity|]. repeat constructor; eexists; reflexivity.
Qed.
Lemma o8_prfs_auth_conforms : auth_conforms prf_short (Some 16) 16 (o8_prfs_auth LE P).
Proof.
  intros M out inp l k kb Hk Rk Ri W Hi. apply returns_runs, (o8_prfs_ok P HP); try assumption. lia.
Qed.
Lemma o8_prfs_verify_conforms : verify_conforms prf_short (Some 16) 16 (o8_prfs_verify LE P).
Proof.
  split.
  - intros M sp h hb inp l k kb Hk Hh Rk Ri Rh F Hi.
    destruct (o8_prfs_verify_ok P HP M sp h hb inp l k kb) as (M' & (t & Hr) & E); try assumption.
    { unfold is16, len in *. lia. }
    exists t, M'. split; [exact Hr|exact E].
  - intros M sp h inp inlen k H. cbn [below] in H. unfold o8_prfs_verify, bind, branch.
    replace (16 <? inlen) with true by lia. eexists. split; [reflexivity|]. repeat constructor. eexists; reflexivity.
Qed.
End Opt8.

Lemma o8_decrypt_rejects_short e P : decrypt_rejects_short (o8_aead_decrypt e P).
Proof.
  intros M m mlen nsec c clen ad adlen npub k H. unfold o8_aead_decrypt, CRYPTO_ABYTES, bind, branch.
  replace (clen <? 16) with true by lia. reflexivity.
Qed.
Lemma o8_low_decrypt_rejects_short e P ar hr st : decrypt_rejects_short (o8_low_aead_decrypt e P ar hr st).
Proof.
  intros M m mlen nsec c clen ad adlen npub k H. unfold o8_low_aead_decrypt, CRYPTO_ABYTES, bind, branch.
  replace (clen <? 16) with true by lia. reflexivity.
Qed.
