(** * RefApi.v -- the reference implementation meets the API contracts. *)
From Coq Require Import Bool Arith NArith ZArith List Lia Init.Byte Strings.Byte ZifyBool ZifyNat ZifyN.
From Verif Require Import Words WordFacts Spec SpecFacts CMem Contract CMemFacts ApiSpec AeadFacts ApiFacts
  ModelRef RefPrim RefAead RefAeadDec RefHash RefPrf RefPrfs.
Import ListNotations.
Local Open Scope N_scope.

Lemma ref_encrypt_conforms e : encrypt_conforms e (Demands false false false) (crypto_aead_encrypt e).
Proof.
  intros M c clen m ad nsec npub k mb adb nb kb []. destruct ep_ov as [ep_ov _]. apply returns_runs, ref_encrypt_ok; assumption.
Qed.

Lemma ref_decrypt_conforms e : decrypt_conforms e (Demands false false false) (crypto_aead_decrypt e).
Proof.
  intros M m mlen nsec c ad npub k ct adb nb kb mb t [] O. destruct dp_ov as [dp_ov _]. cbn [no_overlap overlap_rule] in *.
  destruct (ct_split ct dp_len) as (E & L1 & L2).
  destruct (ref_decrypt_ok e M m mlen nsec c ad npub k kb nb adb (ct_body ct) (ct_tag ct) mb t) as (H & _);
    rewrite <- ?E, ?L1; try assumption.
  rewrite <- E, L1 in H. apply returns_runs, H.
Qed.

Lemma ref_decrypt_rejects_short e : decrypt_rejects_short (crypto_aead_decrypt e).
Proof.
  intros M m mlen nsec c clen ad adlen npub k H. unfold crypto_aead_decrypt, CRYPTO_ABYTES, bind, branch.
  replace (clen <? 16) with true by lia. reflexivity.
Qed.

Lemma ref_hash256_conforms : hash_conforms (Demands false false false) hash256 32 crypto_hash_hash256.
Proof. intros M out inp l R W _. apply returns_runs, ref_hash256_ok; assumption. Qed.
Lemma ref_xof128_conforms : hash_conforms (Demands false false false) (fun l => xof128 l 64) 64 crypto_hash_xof128.
Proof. intros M out inp l R W _. apply returns_runs, ref_xof128_ok; assumption. Qed.
Lemma ref_cxof_conforms : cxof_conforms crypto_cxof.
Proof. intros M out n inp l cs cb R Rc W H. apply returns_runs, ref_cxof_ok; assumption. Qed.

Lemma ref_prf_gen_conforms IV CB : fits 64 IV ->
  prf_conforms (Demands false false false) (prf_gen (wb IV)) None CB (ref_prf IV CB).
Proof.
  intros HIV. split.
  - intros M out n inp l k kb Hk Rk Ri [W _] _ Hn. apply returns_runs, ref_prf_ok; assumption.
  - intros M out n inp inlen k [H|H]; [cbn in H; tauto|].
    unfold ref_prf, bind, branch. replace (CB <? n) with true by lia.
    eexists. split; [reflexivity|]. repeat constructor. eexists; reflexivity.
Qed.
Lemma ref_auth_gen_conforms IV CB : fits 64 IV ->
  auth_conforms (prf_gen (wb IV)) None CB (ref_auth IV CB).
Proof. intros HIV M out inp l k kb Hk Rk Ri W _. apply returns_runs, ref_prf_ok; try assumption. lia. Qed.
Lemma ref_verify_gen_conforms IV CB : fits 64 IV ->
  verify_conforms (prf_gen (wb IV)) None CB (ref_auth_verify IV CB).
Proof.
  intros HIV. split.
  - intros M sp h hb inp l k kb Hk Hh Rk Ri Rh F _.
    destruct (ref_verify_ok IV CB M sp h hb inp l k kb) as (M' & (t & Hr) & E); try assumption.
    exists t, M'. split; [|exact E]. replace (N.to_nat CB) with (length hb); [exact Hr|]. unfold len in Hh. lia.
  - intros M sp h inp inlen k H. cbn in H. tauto.
Qed.

Lemma ref_prfs_conforms : prf_conforms (Demands false false false) prf_short (Some 16) 16 crypto_prf_prfs.
Proof.
  split.
  - intros M out n inp l k kb Hk Rk Ri [W _] Hi Hn. apply returns_runs, ref_prfs_ok; assumption.
  - intros M out n inp inlen k H. cbn [below] in H. unfold crypto_prf_prfs, bind, branch.
    destruct (16 <? inlen) eqn:E1.
    + eexists. split; [reflexivity|]. repeat constructor. eexists; reflexivity.
    + replace (16 <? n) with true by lia.
      eexists. split; [reflexivity|]. repeat constructor; eexists; reflexivity.
Qed.
Lemma ref_prfs_auth_conforms : auth_conforms prf_short (Some 16) 16 crypto_auth_prfs.
Proof. intros M out inp l k kb Hk Rk Ri W Hi. apply returns_runs, ref_prfs_auth_ok; assumption. Qed.
Lemma ref_prfs_verify_conforms : verify_conforms prf_short (Some 16) 16 crypto_auth_verify_prfs.
Proof.
  split.
  - intros M sp h hb inp l k kb Hk Hh Rk Ri Rh F Hi.
    destruct (ref_prfs_verify_ok M sp h hb inp l k kb) as (M' & (t & Hr) & E); try assumption.
    { unfold is16, len in *. lia. }
    exists t, M'. split; [exact Hr|exact E].
  - intros M sp h inp inlen k H. cbn [below] in H. unfold crypto_auth_verify_prfs, bind, branch.
    replace (16 <? inlen) with true by lia. eexists. split; [reflexivity|]. repeat constructor. eexists; reflexivity.
Qed.
