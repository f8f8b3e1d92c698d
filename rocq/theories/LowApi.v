(** * LowApi.v -- the size-optimised implementations meet the API contracts. *)
From Coq Require Import Bool Arith NArith ZArith List Lia Init.Byte Strings.Byte ZifyBool ZifyNat ZifyN.
From Verif Require Import Words WordFacts Spec SpecFacts CMem Contract CMemFacts ApiSpec AeadFacts ApiFacts
  ModelRef RefPrim ModelCommon WordLaws ComPrim ComAead ModelLow LowAead LowDec LowHash.
Import ListNotations.
Local Open Scope N_scope.

Section Low.
Variable e : endian.
Variable o : wordops.
Variable cn : N -> N.
Hypothesis L : word_laws cn e o.
Variable hb : bool.

Lemma low_encrypt_conforms : encrypt_conforms e (Demands true false false) (low_aead_encrypt e o false hb).
Proof.
  intros M c clen m ad nsec npub k mb adb nb kb []. destruct ep_ov as [ep_ov _]. apply returns_runs, (low_encrypt_ok e o cn L); try assumption.
  - apply ep_nm. reflexivity.
  - discriminate.
Qed.
Lemma low_decrypt_conforms : decrypt_conforms e (Demands true false false) (low_aead_decrypt e o false hb).
Proof.
  intros M m mlen nsec c ad npub k ct adb nb kb mb t [] O. destruct dp_ov as [dp_ov _]. cbn [no_overlap overlap_rule no_null] in *.
  destruct (ct_split ct dp_len) as (E & L1 & L2).
  destruct (low_decrypt_ok e o cn L false hb M m mlen nsec c ad npub k kb nb adb (ct_body ct) (ct_tag ct) mb t) as (H & _);
    rewrite <- ?E, ?L1; try assumption; try discriminate.
  { apply dp_nm. reflexivity. }
  rewrite <- E, L1 in H. apply returns_runs, H.
Qed.
Lemma low_hash256_conforms : hash_conforms (Demands true false false) hash256 32
  (fun out inp n => low_xof e o false true (c_hash o) out 32 inp n).
Proof.
  intros M out inp l R W Hn. destruct (l_hash _ _ _ L) as [W0 E0].
  assert (Hp : 0 < 32) by lia.
  assert (Hi : inp <> 0) by (apply Hn; reflexivity).
  apply returns_runs.
  exact (low_xof_ok e o cn L false (c_hash o) iv_hash256 32 M out inp l W0 E0 Hp R W Hi (fun H => match diff_false_true H with end)).
Qed.
Lemma low_xof128_conforms : hash_conforms (Demands true false false) (fun l => xof128 l 64) 64 (low_hash_xof128 e o false true).
Proof.
  intros M out inp l R W Hn. destruct (l_xof _ _ _ L) as [W0 E0].
  assert (Hp : 0 < 64) by lia.
  assert (Hi : inp <> 0) by (apply Hn; reflexivity).
  apply returns_runs.
  exact (low_xof_ok e o cn L false (c_xof o) iv_xof128 64 M out inp l W0 E0 Hp R W Hi (fun H => match diff_false_true H with end)).
Qed.
End Low.

Lemma low_decrypt_rejects_short e o st hb : decrypt_rejects_short (low_aead_decrypt e o st hb).
Proof.
  intros M m mlen nsec c clen ad adlen npub k H. unfold low_aead_decrypt, CRYPTO_ABYTES, bind, branch.
  replace (clen <? 16) with true by lia. reflexivity.
Qed.
