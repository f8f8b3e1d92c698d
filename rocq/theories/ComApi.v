(** * ComApi.v -- the optimised family meets the API contracts, for any
    word representation that satisfies [word_laws]. *)
From Coq Require Import Bool Arith NArith ZArith List Lia Init.Byte Strings.Byte ZifyBool ZifyNat ZifyN.
From Verif Require Import Words WordFacts Spec SpecFacts CMem Contract CMemFacts ApiSpec AeadFacts ApiFacts
  ModelRef RefPrim ModelCommon WordLaws ComPrim ComAead ComAeadDec ComHash ComPrf.
Import ListNotations.
Local Open Scope N_scope.

Section Family.
Variable e : endian.
Variable o : wordops.
Variable cn : N -> N.
Hypothesis L : word_laws cn e o.

Lemma com_encrypt_conforms : encrypt_conforms e (Demands false false false) (com_aead_encrypt e o).
Proof.
  intros M c clen m ad nsec npub k mb adb nb kb []. destruct ep_ov as [ep_ov _]. apply returns_runs, (com_encrypt_ok e o cn L); assumption.
Qed.
Lemma com_decrypt_conforms : decrypt_conforms e (Demands false false false) (com_aead_decrypt e o).
Proof.
  intros M m mlen nsec c ad npub k ct adb nb kb mb t [] O. destruct dp_ov as [dp_ov _]. cbn [no_overlap overlap_rule] in *.
  destruct (ct_split ct dp_len) as (E & L1 & L2).
  destruct (com_decrypt_ok e o cn L M m mlen nsec c ad npub k kb nb adb (ct_body ct) (ct_tag ct) mb t) as (H & _);
    rewrite <- ?E, ?L1; try assumption.
  rewrite <- E, L1 in H. apply returns_runs, H.
Qed.
Lemma com_hash256_conforms : hash_conforms (Demands true false false) hash256 32 (com_hash_hash256 e o).
Proof. intros M out inp l R W Hn. apply returns_runs, (com_hash256_ok e o cn L); try assumption; apply Hn; reflexivity. Qed.
Lemma com_xof128_conforms : hash_conforms (Demands true false false) (fun l => xof128 l 64) 64 (com_hash_xof128 e o).
Proof. intros M out inp l R W Hn. apply returns_runs, (com_xof128_ok e o cn L); try assumption; apply Hn; reflexivity. Qed.

Lemma com_prf_conforms IV iv CB : fits 64 IV /\ wb (cn IV) = iv ->
  prf_conforms (Demands true false false) (prf_gen iv) None CB (com_prf e o IV CB).
Proof.
  intros [HIV Hiv]. split.
  - intros M out n inp l k kb Hk Rk Ri [W Hn0] _ Hn. apply returns_runs, (com_prf_ok e o cn L); try assumption.
    apply Hn0. reflexivity.
  - intros M out n inp inlen k [H|H]; [cbn in H; tauto|].
    unfold com_prf, bind, branch. replace (CB <? n) with true by lia.
    eexists. split; [reflexivity|]. repeat constructor. eexists; reflexivity.
Qed.
Lemma com_auth_conforms IV iv CB : 0 < CB -> fits 64 IV /\ wb (cn IV) = iv ->
  auth_conforms (prf_gen iv) None CB (com_auth e o IV CB).
Proof.
  intros H0 [HIV Hiv] M out inp l k kb Hk Rk Ri W _. apply returns_runs, (com_prf_ok e o cn L); auto; [lia|].
  destruct W as (_ & Wn & _). apply Wn. lia.
Qed.
Lemma com_verify_conforms IV iv CB : fits 64 IV /\ wb (cn IV) = iv ->
  verify_conforms (prf_gen iv) None CB (com_auth_verify e o IV CB).
Proof.
  intros [HIV Hiv]. split.
  - intros M sp h hb inp l k kb Hk Hh Rk Ri Rh F _.
    destruct (com_verify_ok e o cn L IV iv CB M sp h hb inp l k kb) as (M' & (t & Hr) & E); try assumption.
    exists t, M'. split; [|exact E]. replace (N.to_nat CB) with (length hb); [exact Hr|]. unfold len in Hh. lia.
  - intros M sp h inp inlen k H. cbn in H. tauto.
Qed.
Lemma com_prfs_conforms : prf_conforms (Demands false false false) prf_short (Some 16) 16 (com_prfs e o).
Proof.
  split.
  - intros M out n inp l k kb Hk Rk Ri [W _] Hi Hn. apply returns_runs, (com_prfs_ok e o cn L); assumption.
  - intros M out n inp inlen k H. cbn [below] in H. unfold com_prfs, bind, branch.
    destruct (16 <? inlen) eqn:E1.
    + eexists. split; [reflexivity|]. repeat constructor. eexists; reflexivity.
    + replace (16 <? n) with true by lia.
      eexists. split; [reflexivity|]. repeat constructor; eexists; reflexivity.
Qed.
Lemma com_prfs_auth_conforms : auth_conforms prf_short (Some 16) 16 (com_prfs_auth e o).
Proof.
  intros M out inp l k kb Hk Rk Ri W Hi. apply returns_runs, (com_prfs_ok e o cn L); try assumption. lia.
Qed.
Lemma com_prfs_verify_conforms : verify_conforms prf_short (Some 16) 16 (com_prfs_verify e o).
Proof.
  split.
  - intros M sp h hb inp l k kb Hk Hh Rk Ri Rh F Hi.
    destruct (com_prfs_verify_ok e o cn L M sp h hb inp l k kb) as (M' & (t & Hr) & E); try assumption.
    { unfold is16, len in *. lia. }
    exists t, M'. split; [exact Hr|exact E].
  - intros M sp h inp inlen k H. cbn [below] in H. unfold com_prfs_verify, bind, branch.
    replace (16 <? inlen) with true by lia. eexists. split; [reflexivity|]. repeat constructor. eexists; reflexivity.
Qed.
End Family.

Lemma com_decrypt_rejects_short e o : decrypt_rejects_short (com_aead_decrypt e o).
Proof.
  intros M m mlen nsec c clen ad adlen npub k H. unfold com_aead_decrypt, CRYPTO_ABYTES, bind, branch.
  replace (clen <? 16) with true by lia. reflexivity.
Qed.
