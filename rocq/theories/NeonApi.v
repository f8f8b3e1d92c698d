(** * NeonApi.v -- the NEON AEAD meets the contract of ApiSpec.v. *)
From Coq Require Import Bool Arith NArith ZArith List Lia Init.Byte Strings.Byte ZifyBool ZifyNat ZifyN.
From Verif Require Import Words WordFacts Spec SpecFacts CMem Contract CMemFacts ApiSpec AeadFacts ApiFacts
  ModelRef ModelCommon ModelNeon NeonAead.
Import ListNotations.
Local Open Scope N_scope.

Lemma neon_encrypt_conforms u : encrypt_conforms LE (Demands false false true) (neon_aead_encrypt u).
Proof.
  intros M c clen m ad nsec npub k mb adb nb kb []. destruct ep_ov as [ep_ov _]. apply returns_runs, neon_encrypt_ok; assumption.
Qed.
Lemma neon_decrypt_conforms u : decrypt_conforms LE (Demands false false true) (neon_aead_decrypt u).
Proof.
  intros M m mlen nsec c ad npub k ct adb nb kb mb t [] O. destruct dp_ov as [dp_ov _]. cbn [no_overlap overlap_rule blocks32] in *.
  destruct (ct_split ct dp_len) as (E & L1 & L2).
  destruct (neon_decrypt_ok u M m mlen nsec c ad npub k kb nb adb (ct_body ct) (ct_tag ct) mb t) as (H & _);
    rewrite <- ?E, ?L1; try assumption.
  rewrite <- E, L1 in H. apply returns_runs, H.
Qed.
Lemma neon_decrypt_rejects_short u : decrypt_rejects_short (neon_aead_decrypt u).
Proof.
  intros M m mlen nsec c clen ad adlen npub k H. unfold neon_aead_decrypt, CRYPTO_ABYTES, bind, branch.
  replace (clen <? 16) with true by lia. reflexivity.
Qed.
