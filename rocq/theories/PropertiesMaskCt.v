(** * PropertiesMaskCt.v -- C49: branches and addresses of the masked
    implementation depend on pointers and lengths only, not on the data and
    not on the random words. *)
From Coq Require Import Bool Arith NArith ZArith List Lia Init.Byte ZifyBool ZifyNat ZifyN.
From Verif Require Import Words WordFacts Spec SpecFacts SpecMask CMem Contract CMemFacts Ct ApiSpec AeadFacts ApiFacts
  ModelRef ModelMask MaskAead MaskTop MaskApi Impls ImplsOk Demo PropertiesLow
  PropertiesMask MaskCt Contract.
Import ListNotations.
Local Open Scope N_scope.

(** Two runs of the same build, with the same pointers, lengths and places of
    the share buffers, from any two memories and with any two tapes of random
    words: if both finish, they have shown the same branches and addresses.
    For decryption this holds whatever the two verdicts are. *)
Theorem C49_encrypt_constant_time : forall F e H R1 R2 c clen m mlen ad adlen nsec npub k M1 M2 t1 t2 M1' M2' r1 r2,
  masked_encrypt F R1 e H c clen m mlen ad adlen nsec npub k M1 = Done t1 M1' r1 ->
  masked_encrypt F R2 e H c clen m mlen ad adlen nsec npub k M2 = Done t2 M2' r2 -> t1 = t2.
Proof. intros until 1. intros E2. apply (ct_masked_encrypt F R1 R2 e H c clen m mlen ad adlen nsec npub k _ _ _ _ _ _ _ _ H0 E2). Qed.
Print Assumptions C49_encrypt_constant_time.
Theorem C49_decrypt_constant_time : forall F e H R1 R2 m mlen nsec c clen ad adlen npub k M1 M2 t1 t2 M1' M2' r1 r2,
  masked_decrypt F R1 e H m mlen nsec c clen ad adlen npub k M1 = Done t1 M1' r1 ->
  masked_decrypt F R2 e H m mlen nsec c clen ad adlen npub k M2 = Done t2 M2' r2 -> t1 = t2.
Proof. intros until 1. intros E2. apply (ct_masked_decrypt F R1 R2 e H m mlen nsec c clen ad adlen npub k _ _ _ _ _ _ _ _ H0 E2). Qed.
Print Assumptions C49_decrypt_constant_time.

(** With valid buffers both do finish. *)
Theorem C49_encrypt_trace : forall F H R1 R2 c clen m ad nsec npub k M1 M2 mb1 mb2 adb1 adb2 nb1 nb2 kb1 kb2,
  supported F ->
  masked_encrypt_pre M1 c clen m ad npub k mb1 adb1 nb1 kb1 -> masked_encrypt_pre M2 c clen m ad npub k mb2 adb2 nb2 kb2 ->
  len mb1 = len mb2 -> len adb1 = len adb2 ->
  exists t M1' M2',
    masked_encrypt F R1 LE H c clen m (len mb1) ad (len adb1) nsec npub k M1 = Done t M1' 0%Z /\
    masked_encrypt F R2 LE H c clen m (len mb2) ad (len adb2) nsec npub k M2 = Done t M2' 0%Z.
Proof.
  intros F H R1 R2 c clen m ad nsec npub k M1 M2 mb1 mb2 adb1 adb2 nb1 nb2 kb1 kb2 HF P1 P2 Em Ea.
  destruct (C38_masked_encrypt F R1 H M1 c clen m ad nsec npub k _ _ _ _ HF P1) as (t1 & M1' & E1 & _).
  destruct (C38_masked_encrypt F R2 H M2 c clen m ad nsec npub k _ _ _ _ HF P2) as (t2 & M2' & E2 & _).
  pose proof E2 as E. rewrite <- Em, <- Ea in E. pose proof (C49_encrypt_constant_time _ _ _ _ _ _ _ _ _ _ _ _ _ _ _ _ _ _ _ _ _ _ E1 E).
  subst. exists t2, M1', M2'. auto.
Qed.
Print Assumptions C49_encrypt_trace.
Theorem C49_decrypt_trace : forall F H R1 R2 m mlen nsec c ad npub k M1 M2 ct1 ct2 adb1 adb2 nb1 nb2 kb1 kb2,
  supported F ->
  masked_decrypt_pre M1 m mlen c ad npub k ct1 adb1 nb1 kb1 -> masked_decrypt_pre M2 m mlen c ad npub k ct2 adb2 nb2 kb2 ->
  len ct1 = len ct2 -> len adb1 = len adb2 ->
  exists t M1' M2' r1 r2,
    masked_decrypt F R1 LE H m mlen nsec c (len ct1) ad (len adb1) npub k M1 = Done t M1' r1 /\
    masked_decrypt F R2 LE H m mlen nsec c (len ct2) ad (len adb2) npub k M2 = Done t M2' r2.
Proof.
  intros F H R1 R2 m mlen nsec c ad npub k M1 M2 ct1 ct2 adb1 adb2 nb1 nb2 kb1 kb2 HF P1 P2 Ec Ea.
  destruct (aead_open kb1 nb1 adb1 (ct_body ct1)) as [mb1 g1] eqn:O1.
  destruct (aead_open kb2 nb2 adb2 (ct_body ct2)) as [mb2 g2] eqn:O2.
  destruct (C38_masked_decrypt F R1 H M1 m mlen nsec c ad npub k _ _ _ _ _ _ HF P1 O1) as (r1 & (t1 & M1' & E1 & _) & _).
  destruct (C38_masked_decrypt F R2 H M2 m mlen nsec c ad npub k _ _ _ _ _ _ HF P2 O2) as (r2 & (t2 & M2' & E2 & _) & _).
  pose proof E2 as E. rewrite <- Ec, <- Ea in E. pose proof (C49_decrypt_constant_time _ _ _ _ _ _ _ _ _ _ _ _ _ _ _ _ _ _ _ _ _ _ E1 E).
  subst. exists t2, M1', M2', r1, r2. auto.
Qed.
Print Assumptions C49_decrypt_trace.

(** A case: a genuine ciphertext, which is accepted, and the same with one
    bit of the tag flipped, which is rejected: the traces are the same, for
    the shipped numbers of shares and any random words. *)
Theorem C49_case : forall H R1 R2, exists t M1' M2',
  masked_decrypt default_cfg R1 LE H 0x2000 0x2100 0 0x1300 36 0x1200 (len demo_ad) 0x1100 0x1000 (dec_mem demo_ct) = Done t M1' 0%Z /\
  masked_decrypt default_cfg R2 LE H 0x2000 0x2100 0 0x1300 36 0x1200 (len demo_ad) 0x1100 0x1000 (dec_mem demo_flipped) = Done t M2' (-1)%Z.
Proof.
  intros H R1 R2.
  assert (HF : supported default_cfg) by (pose proof supported_configurations as S; inversion S; assumption).
  destruct C38_hypotheses_met as (_ & _ & P1). destruct C39_hypotheses_met as (d & tag & _ & Ht & Ec & _ & Ef & _ & P2).
  assert (E : demo_ct = aead_encrypt demo_key demo_nonce demo_ad demo_msg) by (vm_compute; reflexivity).
  destruct (C38_masked_roundtrip default_cfg R1 H _ 0x2000 0x2100 0 0x1300 0x1200 0x1100 0x1000 _ _ _ _ _ HF P1 E) as (t1 & M1' & E1 & _).
  rewrite Ef in P2.
  destruct (C39_single_bit_rejected default_cfg R2 H _ 0x2000 0x2100 0 0x1300 0x1200 0x1100 0x1000 _ _ _ _ _ _ 77 HF
    ltac:(lia) (eq_trans Ec E) Ht P2) as (t2 & M2' & E2).
  rewrite <- Ef in E2. change (len demo_ct) with 36 in E1. change (len demo_flipped) with 36 in E2.
  pose proof (C49_decrypt_constant_time _ _ _ _ _ _ _ _ _ _ _ _ _ _ _ _ _ _ _ _ _ _ E1 E2). subst.
  exists t2, M1', M2'. auto.
Qed.
Print Assumptions C49_case.
