(** * ImplsOk.v -- every registered implementation meets its contract. *)
From Coq Require Import Bool Arith NArith ZArith List Lia Init.Byte Strings.Byte ZifyBool ZifyNat ZifyN.
From Verif Require Import Words WordFacts Spec SpecFacts CMem Contract CMemFacts ApiSpec AeadFacts ApiFacts
  Ct ModelRef RefApi RefPrf RefPrfs RefCt
  ModelCommon ModelWords WordLaws WordInst WordInstBi ComCt ComApi ModelLow LowCt LowApi ModelOpt8 ModelArm AsmArmFacts ModelAvr AvrFacts Opt8Aead Opt8Low Opt8Ct Opt8Api ModelEsp32 Esp32Ct Esp32Api ModelAvx AvxCt AvxHash ModelNeon NeonRound NeonCt NeonApi Impls.
Import ListNotations.
Local Open Scope N_scope.

Lemma word_laws_ok w e : word_host w e = true -> exists cn, word_laws cn e (word_ops w e).
Proof.
  destruct w; cbn [word_host word_ops]; intros H.
  - exists cn64. apply opt64_laws.
  - exists cn64. apply opt32_laws.
  - destruct e; [|discriminate]. exists cn32. apply bi32_laws.
  - destruct e; [|discriminate]. exists cn32. apply bi32_lowreg_laws.
  - destruct e; [|discriminate]. exists cn8. apply bi8_laws.
  - destruct e; [|discriminate]. exists cn64. apply armv6_laws.
  - destruct e; [|discriminate]. exists cn64. apply armv6m_laws.
  - destruct e; [|discriminate]. exists cn64. apply armv7m_laws.
  - destruct e; [|discriminate]. exists cn64. apply armv7m_small_laws.
  - destruct e; [|discriminate]. exists cn32. apply bi32_armv6_laws.
  - destruct e; [|discriminate]. exists cn32. apply bi32_armv6m_laws.
  - destruct e; [|discriminate]. exists cn32. apply bi32_armv7m_laws.
  - destruct e; [|discriminate]. exists cn32. apply bi32_armv7m_small_laws.
Qed.
Lemma low_laws_ok w e : low_host w e = true -> exists cn, word_laws cn e (low_ops w e).
Proof.
  destruct w; cbn [low_host low_ops]; intros H.
  - exists cn64. apply opt64_lowsize_laws.
  - exists cn64. apply opt32_lowsize_laws.
  - destruct e; [|discriminate]. exists cn32. apply bi32_lowsize_laws.
  - destruct e; [|discriminate]. exists cn64. apply armv6_lowsize_laws.
  - destruct e; [|discriminate]. exists cn64. apply armv6m_lowsize_laws.
  - destruct e; [|discriminate]. exists cn64. apply armv7m_small_laws.
Qed.

Lemma le_only_LE e : le_only e = true -> e = LE.
Proof. destruct e; [reflexivity|discriminate]. Qed.
Lemma opt8_MAC_IV_ok : le_bytes 8 opt8_MAC_IV = iv_mac.
Proof. reflexivity. Qed.
Lemma opt8_PRF_IV_ok : le_bytes 8 opt8_PRF_IV = iv_prf.
Proof. reflexivity. Qed.

Lemma byte_P_conforming w : conforming (byte_P w).
Proof. destruct w; [apply P8bit_conforming|apply avr_P_conforming]. Qed.

Lemma encrypt_ok i e : aead_host i e = true -> encrypt_conforms e (aead_demands i) (encrypt_of i e).
Proof.
  destruct i as [|w|w|w|w|w|w| |u|u]; intros H; [apply ref_encrypt_conforms| | | | | | |apply esp_encrypt_conforms| |].
  - destruct (word_laws_ok w e H) as (cn & L). apply (com_encrypt_conforms e _ cn L).
  - destruct (low_laws_ok w e H) as (cn & L). apply (low_encrypt_conforms e _ cn L).
  - destruct (low_laws_ok w e H) as (cn & L). apply (low_encrypt_conforms e _ cn L).
  - apply le_only_LE in H as ->. apply (o8_encrypt_conforms _ (byte_P_conforming w)).
  - apply le_only_LE in H as ->. apply (o8_low_encrypt_conforms _ (byte_P_conforming w)).
  - apply le_only_LE in H as ->. apply (o8_low_encrypt_conforms _ (byte_P_conforming w)).
  - apply le_only_LE in H as ->. apply avx_encrypt_conforms.
  - apply le_only_LE in H as ->. apply neon_encrypt_conforms.
Qed.
Lemma decrypt_ok i e : aead_host i e = true -> decrypt_conforms e (aead_demands i) (decrypt_of i e).
Proof.
  destruct i as [|w|w|w|w|w|w| |u|u]; intros H; [apply ref_decrypt_conforms| | | | | | |apply esp_decrypt_conforms| |].
  - destruct (word_laws_ok w e H) as (cn & L). apply (com_decrypt_conforms e _ cn L).
  - destruct (low_laws_ok w e H) as (cn & L). apply (low_decrypt_conforms e _ cn L).
  - destruct (low_laws_ok w e H) as (cn & L). apply (low_decrypt_conforms e _ cn L).
  - apply le_only_LE in H as ->. apply (o8_decrypt_conforms _ (byte_P_conforming w)).
  - apply le_only_LE in H as ->. apply (o8_low_decrypt_conforms _ (byte_P_conforming w)).
  - apply le_only_LE in H as ->. apply (o8_low_decrypt_conforms _ (byte_P_conforming w)).
  - apply le_only_LE in H as ->. apply avx_decrypt_conforms.
  - apply le_only_LE in H as ->. apply neon_decrypt_conforms.
Qed.
Lemma decrypt_short_ok i e : short_stores_mlen i = false -> decrypt_rejects_short (decrypt_of i e).
Proof. destruct i; intros H; [apply ref_decrypt_rejects_short|apply com_decrypt_rejects_short|apply low_decrypt_rejects_short|apply low_decrypt_rejects_short
  |apply o8_decrypt_rejects_short|apply o8_low_decrypt_rejects_short|apply o8_low_decrypt_rejects_short|discriminate|apply avx_decrypt_rejects_short|apply neon_decrypt_rejects_short]. Qed.
Lemma decrypt_short_0_ok i e : short_stores_mlen i = true -> decrypt_rejects_short_0 e (decrypt_of i e).
Proof. destruct i; intros H; try discriminate. apply esp_decrypt_rejects_short. Qed.
Lemma hash_ok i a e : hash_host i e = true -> hash_conforms (hash_demands i) (hash_fun a) (hash_len a) (hash_of i a e).
Proof.
  destruct i as [|w|w|w|w|w|w| | |u]; intros H.
  - destruct a; [apply ref_hash256_conforms|apply ref_xof128_conforms].
  - destruct (word_laws_ok w e H) as (cn & L).
    destruct a; [apply (com_hash256_conforms e _ cn L)|apply (com_xof128_conforms e _ cn L)].
  - destruct (low_laws_ok w e H) as (cn & L).
    destruct a; [apply (com_hash256_conforms e _ cn L)|apply (com_xof128_conforms e _ cn L)].
  - destruct (low_laws_ok w e H) as (cn & L).
    destruct a; [apply (low_hash256_conforms e _ cn L)|apply (low_xof128_conforms e _ cn L)].
  - destruct w; [|discriminate]. apply le_only_LE in H as ->.
    destruct a; [apply (o8_hash256_conforms _ P8bit_conforming)|apply (o8_xof128_conforms _ P8bit_conforming)].
  - apply le_only_LE in H as ->.
    destruct a; [apply (o8_low_hash256_conforms _ (byte_P_conforming w))|apply (o8_low_xof128_conforms _ (byte_P_conforming w))].
  - apply le_only_LE in H as ->.
    destruct a; [apply (o8_low_hash256_conforms _ (byte_P_conforming w))|apply (o8_low_xof128_conforms _ (byte_P_conforming w))].
  - destruct a; [apply esp_hash256_conforms|apply esp_xof128_conforms].
  - destruct a; [apply avx_hash256_conforms|apply avx_xof128_conforms].
  - destruct a; [apply (com_hash256_conforms LE _ cn64 (neon_laws u LE))|apply (com_xof128_conforms LE _ cn64 (neon_laws u LE))].
Qed.
Lemma prf_ok i a e : key_host i a e = true -> prf_conforms (key_demands i a) (key_fun a) (key_inmax a) (key_outmax a) (prf_of i a e).
Proof.
  destruct i as [|w|w]; intros H.
  - destruct a; [apply ref_prf_gen_conforms, fits_MAC_IV|apply ref_prf_gen_conforms, fits_PRF_IV|].
    apply ref_prfs_conforms.
  - destruct (word_laws_ok w e H) as (cn & L). destruct a.
    + apply (com_prf_conforms e _ cn L), (l_mac _ _ _ L).
    + apply (com_prf_conforms e _ cn L), (l_prf _ _ _ L).
    + apply (com_prfs_conforms e _ cn L).
  - destruct a; (destruct w; cbn [key_host] in H; [apply le_only_LE in H as ->|try discriminate; apply le_only_LE in H as ->]).
    + apply (o8_prf_conforms _ P8bit_conforming), opt8_MAC_IV_ok.
    + apply (o8_prf_conforms _ P8bit_conforming), opt8_PRF_IV_ok.
    + apply (o8_prfs_conforms _ P8bit_conforming).
    + apply (o8_prfs_conforms _ avr_P_conforming).
Qed.
Lemma auth_ok i a e : key_host i a e = true -> auth_conforms (key_fun a) (key_inmax a) (key_outmax a) (auth_of i a e).
Proof.
  destruct i as [|w|w]; intros H.
  - destruct a; [apply ref_auth_gen_conforms, fits_MAC_IV|apply ref_auth_gen_conforms, fits_PRF_IV|].
    apply ref_prfs_auth_conforms.
  - destruct (word_laws_ok w e H) as (cn & L). destruct a.
    + apply (com_auth_conforms e _ cn L); [reflexivity|apply (l_mac _ _ _ L)].
    + apply (com_auth_conforms e _ cn L); [reflexivity|apply (l_prf _ _ _ L)].
    + apply (com_prfs_auth_conforms e _ cn L).
  - destruct a; (destruct w; cbn [key_host] in H; [apply le_only_LE in H as ->|try discriminate; apply le_only_LE in H as ->]).
    + apply (o8_auth_conforms _ P8bit_conforming), opt8_MAC_IV_ok.
    + apply (o8_auth_conforms _ P8bit_conforming), opt8_PRF_IV_ok.
    + apply (o8_prfs_auth_conforms _ P8bit_conforming).
    + apply (o8_prfs_auth_conforms _ avr_P_conforming).
Qed.
Lemma verify_ok i a e : key_host i a e = true -> verify_conforms (key_fun a) (key_inmax a) (key_outmax a) (verify_of i a e).
Proof.
  destruct i as [|w|w]; intros H.
  - destruct a; [apply ref_verify_gen_conforms, fits_MAC_IV|apply ref_verify_gen_conforms, fits_PRF_IV|].
    apply ref_prfs_verify_conforms.
  - destruct (word_laws_ok w e H) as (cn & L). destruct a.
    + apply (com_verify_conforms e _ cn L), (l_mac _ _ _ L).
    + apply (com_verify_conforms e _ cn L), (l_prf _ _ _ L).
    + apply (com_prfs_verify_conforms e _ cn L).
  - destruct a; (destruct w; cbn [key_host] in H; [apply le_only_LE in H as ->|try discriminate; apply le_only_LE in H as ->]).
    + apply (o8_verify_conforms _ P8bit_conforming), opt8_MAC_IV_ok.
    + apply (o8_verify_conforms _ P8bit_conforming), opt8_PRF_IV_ok.
    + apply (o8_prfs_verify_conforms _ P8bit_conforming).
    + apply (o8_prfs_verify_conforms _ avr_P_conforming).
Qed.

(** Constant time. *)
Lemma encrypt_ct i e c clen m mlen ad adlen nsec npub k :
  ct any (encrypt_of i e c clen m mlen ad adlen nsec npub k) (encrypt_of i e c clen m mlen ad adlen nsec npub k).
Proof. destruct i; [apply ct_ref_encrypt|apply ct_com_encrypt|apply ct_low_encrypt|apply ct_low_encrypt
  |apply ct_o8_encrypt|apply ct_o8_low_encrypt|apply ct_o8_low_encrypt|apply ct_esp_encrypt|apply ct_avx_encrypt|apply ct_neon_encrypt]. Qed.
Lemma decrypt_ct i e m mlen nsec c clen ad adlen npub k :
  (no_overlap (aead_demands i) = true -> disjoint mlen 8 m (clen - 16)) ->
  ct any (decrypt_of i e m mlen nsec c clen ad adlen npub k) (decrypt_of i e m mlen nsec c clen ad adlen npub k).
Proof. destruct i; intros D; [apply ct_ref_decrypt|apply ct_com_decrypt|apply ct_low_decrypt|apply ct_low_decrypt
  |apply ct_o8_decrypt|apply ct_o8_low_decrypt|apply ct_o8_low_decrypt|apply ct_esp_decrypt, D; reflexivity|apply ct_avx_decrypt|apply ct_neon_decrypt]. Qed.
Lemma hash_ct i a e out inp n : ct any (hash_of i a e out inp n) (hash_of i a e out inp n).
Proof. destruct i, a; cbn [hash_of com_hash]; try (generalize (word_ops w e); intros o); try (generalize (low_ops w e); intros o); try (generalize (neon_ops u LE); intros o); 
  [apply ct_ref_hash|apply ct_ref_hash|apply ct_com_xof|apply ct_com_xof|apply ct_com_xof|apply ct_com_xof
  |apply ct_low_xof|apply ct_low_xof|unfold o8_hash_hash256; apply ct_o8_xof|unfold o8_hash_xof128; apply ct_o8_xof|apply ct_o8_low_xof|apply ct_o8_low_xof|apply ct_o8_low_xof|apply ct_o8_low_xof|apply ct_esp_hash|apply ct_esp_hash|apply ct_avx_xof|apply ct_avx_xof|apply ct_com_xof|apply ct_com_xof]. Qed.
Lemma prf_ct i a e out n inp inlen k : ct any (prf_of i a e out n inp inlen k) (prf_of i a e out n inp inlen k).
Proof. destruct i, a; [apply ct_ref_prf|apply ct_ref_prf|apply ct_ref_prfs|apply ct_com_prf|apply ct_com_prf|apply ct_com_prfs
  |apply ct_o8_prf|apply ct_o8_prf|apply ct_o8_prfs]. Qed.
Lemma auth_ct i a e out inp inlen k : ct any (auth_of i a e out inp inlen k) (auth_of i a e out inp inlen k).
Proof. destruct i, a; [apply ct_ref_prf|apply ct_ref_prf|apply ct_ref_prfs|apply ct_com_prf|apply ct_com_prf|apply ct_com_prfs
  |apply ct_o8_prf|apply ct_o8_prf|apply ct_o8_prfs]. Qed.
Lemma verify_ct i a e sp h inp inlen k : ct any (verify_of i a e sp h inp inlen k) (verify_of i a e sp h inp inlen k).
Proof.
  destruct i, a; [apply ct_ref_verify|apply ct_ref_verify|apply ct_ref_prfs_verify
                 |apply ct_com_verify|apply ct_com_verify|apply ct_com_prfs_verify
                 |apply ct_o8_auth_verify|apply ct_o8_auth_verify|apply ct_o8_prfs_verify].
Qed.

(** Termination. *)
Lemma encrypt_term i e c clen m mlen ad adlen nsec npub k : mlen < aead_maxlen i -> adlen < aead_maxlen i ->
  post top (encrypt_of i e c clen m mlen ad adlen nsec npub k).
Proof. destruct i; [apply post_ref_encrypt|apply post_com_encrypt|apply post_low_encrypt|apply post_low_encrypt
  |apply (post_o8_encrypt _ _ (fun n => n))|apply (post_o8_low_encrypt _ _ (fun n => n))|apply (post_o8_low_encrypt _ _ (fun n => n))|intros _ _; apply post_esp_encrypt|apply post_avx_encrypt|apply post_neon_encrypt]. Qed.
Lemma decrypt_term i e m mlen nsec c clen ad adlen npub k : clen < aead_maxlen i -> adlen < aead_maxlen i ->
  post top (decrypt_of i e m mlen nsec c clen ad adlen npub k).
Proof. destruct i; intros Hc; [apply post_ref_decrypt|apply post_com_decrypt|apply post_low_decrypt|apply post_low_decrypt
  |apply (post_o8_decrypt _ _ (fun n => n))|apply (post_o8_low_decrypt _ _ (fun n => n))|apply (post_o8_low_decrypt _ _ (fun n => n))|intros _; apply post_esp_decrypt|apply post_avx_decrypt|apply post_neon_decrypt; exact (N.lt_trans _ _ (2 ^ 32 + 16) Hc eq_refl)]. Qed.
Lemma hash_term i a e out inp n : n < 2 ^ 64 -> post top (hash_of i a e out inp n).
Proof. intros H. destruct i, a; cbn [hash_of com_hash]; try (generalize (word_ops w e); intros o); try (generalize (low_ops w e); intros o); try (generalize (neon_ops u LE); intros o);
  [apply post_ref_hash|apply post_ref_hash|apply post_com_xof|apply post_com_xof|apply post_com_xof|apply post_com_xof
  |apply post_low_xof|apply post_low_xof|unfold o8_hash_hash256; apply post_o8_xof|unfold o8_hash_xof128; apply post_o8_xof|apply (post_o8_low_xof _ _ (fun n => n))|apply (post_o8_low_xof _ _ (fun n => n))|apply (post_o8_low_xof _ _ (fun n => n))|apply (post_o8_low_xof _ _ (fun n => n))|apply post_esp_hash|apply post_esp_hash|apply post_avx_xof|apply post_avx_xof|apply post_com_xof|apply post_com_xof];
  try exact H; reflexivity. Qed.
Lemma prf_term i a e out n inp inlen k : n < 2 ^ 64 -> inlen < 2 ^ 64 -> post top (prf_of i a e out n inp inlen k).
Proof.
  intros H1 H2. destruct i, a; [apply post_ref_prf; assumption|apply post_ref_prf; assumption|apply post_ref_prfs
    |apply post_com_prf; assumption|apply post_com_prf; assumption|apply post_com_prfs
    |apply post_o8_prf; assumption|apply post_o8_prf; assumption|apply post_o8_prfs].
Qed.
Lemma auth_term i a e out inp inlen k : inlen < 2 ^ 64 -> post top (auth_of i a e out inp inlen k).
Proof.
  intros H2. destruct i, a; [apply post_ref_prf; (assumption || reflexivity)
    |apply post_ref_prf; (assumption || reflexivity)|apply post_ref_prfs
    |apply post_com_prf; (assumption || reflexivity)
    |apply post_com_prf; (assumption || reflexivity)|apply post_com_prfs
    |apply post_o8_prf; (assumption || reflexivity)
    |apply post_o8_prf; (assumption || reflexivity)|apply post_o8_prfs].
Qed.
Lemma verify_term i a e sp h inp inlen k : inlen < 2 ^ 64 -> post top (verify_of i a e sp h inp inlen k).
Proof.
  intros H2. destruct i, a; [apply post_ref_verify; (assumption || reflexivity)
    |apply post_ref_verify; (assumption || reflexivity)|apply post_ref_prfs_verify
    |apply post_com_verify; (assumption || reflexivity)
    |apply post_com_verify; (assumption || reflexivity)|apply post_com_prfs_verify
    |apply post_o8_auth_verify; (assumption || reflexivity)
    |apply post_o8_auth_verify; (assumption || reflexivity)|apply post_o8_prfs_verify].
Qed.

(** ** Derived facts, in the form the property theorems need *)

Lemma enc_facts i e M c clen m ad nsec npub k mb adb nb kb :
  aead_host i e = true ->
  encrypt_pre (aead_demands i) M c clen m ad npub k mb adb nb kb ->
  exists t M', encrypt_of i e c clen m (len mb) ad (len adb) nsec npub k M = Done t M' 0%Z /\
    readable M' c (aead_encrypt kb nb adb mb) /\
    (forall a, outside c (len mb + 16) a -> outside clen 8 a -> M' a = M a) /\
    (disjoint clen 8 c (len mb + 16) -> runs (load_ull e clen) M' M' (len mb + 16)).
Proof. intros H. apply enc_result, encrypt_ok, H. Qed.

Lemma dec_facts i e M m mlen nsec c ad npub k ct adb nb kb :
  aead_host i e = true ->
  decrypt_pre (aead_demands i) M m mlen c ad npub k ct adb nb kb ->
  exists t M' r mb,
    decrypt_of i e m mlen nsec c (len ct) ad (len adb) npub k M = Done t M' r /\
    (r = match aead_decrypt kb nb adb ct with Some _ => 0 | None => -1 end)%Z /\
    mb = fst (aead_open kb nb adb (ct_body ct)) /\ len mb = len ct - 16 /\
    (forall m0, aead_decrypt kb nb adb ct = Some m0 -> m0 = mb) /\
    readable M' m mb /\
    (forall a, outside m (len ct - 16) a -> outside mlen 8 a -> M' a = M a) /\
    (disjoint mlen 8 m (len ct - 16) -> runs (load_ull e mlen) M' M' (len ct - 16)).
Proof. intros H. apply dec_result, decrypt_ok, H. Qed.

(** C02 *)
Lemma dec_spec i e M m mlen nsec c ad npub k ct adb nb kb :
  aead_host i e = true ->
  decrypt_pre (aead_demands i) M m mlen c ad npub k ct adb nb kb ->
  exists t M' r,
    decrypt_of i e m mlen nsec c (len ct) ad (len adb) npub k M = Done t M' r /\
    match aead_decrypt kb nb adb ct with
    | Some mb => r = 0%Z /\ readable M' m mb
    | None => r = (-1)%Z
    end.
Proof.
  intros H P. destruct (dec_facts i e M m mlen nsec c ad npub k ct adb nb kb H P)
    as (t & M' & r & mb & R & Er & _ & _ & Em & Rm & _).
  exists t, M', r. split; [exact R|]. destruct (aead_decrypt kb nb adb ct) as [m0|]; [|exact Er].
  split; [exact Er|]. rewrite (Em m0 eq_refl). exact Rm.
Qed.

(** C03 *)
Lemma enc_dec i j e e' M c clen m ad nsec npub k mb adb nb kb :
  aead_host i e = true -> aead_host j e' = true ->
  encrypt_pre (aead_demands i) M c clen m ad npub k mb adb nb kb ->
  exists t M' ct,
    encrypt_of i e c clen m (len mb) ad (len adb) nsec npub k M = Done t M' 0%Z /\
    readable M' c ct /\ len ct = len mb + 16 /\
    forall M2 m2 mlen2 nsec2 c2 ad2 npub2 k2,
    decrypt_pre (aead_demands j) M2 m2 mlen2 c2 ad2 npub2 k2 ct adb nb kb ->
    exists t2 M2',
      decrypt_of j e' m2 mlen2 nsec2 c2 (len mb + 16) ad2 (len adb) npub2 k2 M2 = Done t2 M2' 0%Z /\
      readable M2' m2 mb /\
      (disjoint mlen2 8 m2 (len mb) -> runs (load_ull e' mlen2) M2' M2' (len mb)).
Proof.
  intros H H' P. destruct (enc_facts i e M c clen m ad nsec npub k mb adb nb kb H P) as (t & M' & R & Rc & _).
  exists t, M', (aead_encrypt kb nb adb mb).
  assert (L : len (aead_encrypt kb nb adb mb) = len mb + 16).
  { unfold len. rewrite length_aead_encrypt. lia. }
  split; [exact R|]. split; [exact Rc|]. split; [exact L|].
  intros M2 m2 mlen2 nsec2 c2 ad2 npub2 k2 P2.
  destruct (dec_facts j e' M2 m2 mlen2 nsec2 c2 ad2 npub2 k2 _ adb nb kb H' P2)
    as (t2 & M2' & r & m' & R2 & Er & _ & Lm & Em & Rm & _ & Rl).
  rewrite aead_roundtrip in Er. specialize (Em mb (aead_roundtrip kb nb adb mb)). subst m'.
  rewrite L in R2, Rl. replace (len mb + 16 - 16) with (len mb) in Rl by lia.
  exists t2, M2'. rewrite <- Er. auto.
Qed.

(** C04 *)
Lemma wrong_tag i e M1 M2 m1 m2 l1 l2 c1 c2 ad1 ad2 n1 n2 k1 k2 ns1 ns2 body tag tag' adb nb kb t1 M1' :
  aead_host i e = true -> tag' <> tag -> is16 tag -> is16 tag' ->
  decrypt_pre (aead_demands i) M1 m1 l1 c1 ad1 n1 k1 (body ++ tag) adb nb kb ->
  decrypt_pre (aead_demands i) M2 m2 l2 c2 ad2 n2 k2 (body ++ tag') adb nb kb ->
  decrypt_of i e m1 l1 ns1 c1 (len (body ++ tag)) ad1 (len adb) n1 k1 M1 = Done t1 M1' 0%Z ->
  exists t2 M2', decrypt_of i e m2 l2 ns2 c2 (len (body ++ tag')) ad2 (len adb) n2 k2 M2 = Done t2 M2' (-1)%Z.
Proof.
  intros H N T T' P1 P2 R1.
  destruct (dec_facts i e M1 m1 l1 ns1 c1 ad1 n1 k1 _ adb nb kb H P1) as (u1 & N1 & r1 & b1 & Q1 & E1 & _).
  destruct (dec_facts i e M2 m2 l2 ns2 c2 ad2 n2 k2 _ adb nb kb H P2) as (u2 & N2 & r2 & b2 & Q2 & E2 & _).
  exists u2, N2. rewrite Q2. f_equal. rewrite R1 in Q1. injection Q1 as _ _ Er1. rewrite <- Er1 in E1.
  pose proof (dp_len _ _ _ _ _ _ _ _ _ _ _ _ P1) as L1. pose proof (dp_len _ _ _ _ _ _ _ _ _ _ _ _ P2) as L2.
  rewrite aead_decrypt_unfold in E1, E2 by assumption.
  rewrite ct_body_app, ct_tag_app in E1 by assumption. rewrite ct_body_app, ct_tag_app in E2 by assumption.
  destruct (aead_open kb nb adb body) as [m0 t0].
  destruct (list_eq_dec Byte.byte_eq_dec t0 tag) as [->|]; [|discriminate].
  destruct (list_eq_dec Byte.byte_eq_dec tag tag'); [congruence|]. exact E2.
Qed.

(** C05 *)
Lemma accepted_is_encryption i j e e' M m mlen nsec c ad npub k ct adb nb kb t M' :
  aead_host i e = true -> aead_host j e' = true ->
  decrypt_pre (aead_demands i) M m mlen c ad npub k ct adb nb kb ->
  decrypt_of i e m mlen nsec c (len ct) ad (len adb) npub k M = Done t M' 0%Z ->
  exists mb, readable M' m mb /\ len mb = len ct - 16 /\
  forall M2 c2 clen2 m2 ad2 nsec2 npub2 k2,
    encrypt_pre (aead_demands j) M2 c2 clen2 m2 ad2 npub2 k2 mb adb nb kb ->
    exists t2 M2', encrypt_of j e' c2 clen2 m2 (len mb) ad2 (len adb) nsec2 npub2 k2 M2 = Done t2 M2' 0%Z /\
      readable M2' c2 ct.
Proof.
  intros H H' P R.
  destruct (dec_facts i e M m mlen nsec c ad npub k ct adb nb kb H P)
    as (t1 & M1 & r & mb & Q & Er & _ & Lm & Em & Rm & _).
  rewrite R in Q. injection Q as _ EM Er1. rewrite <- Er1 in Er. subst M1.
  destruct (aead_decrypt kb nb adb ct) as [m0|] eqn:D; [|discriminate].
  specialize (Em m0 eq_refl). subst m0.
  exists mb. split; [exact Rm|]. split; [exact Lm|]. intros M2 c2 clen2 m2 ad2 nsec2 npub2 k2 P2.
  destruct (enc_facts j e' M2 c2 clen2 m2 ad2 nsec2 npub2 k2 mb adb nb kb H' P2) as (t2 & M2' & R2 & Rc & _).
  exists t2, M2'. split; [exact R2|]. rewrite (aead_decrypt_only_encryptions kb nb adb ct mb D). exact Rc.
Qed.

(** Two readable buffers at one place are equal. *)
Lemma readable_det M q l1 l2 : readable M q l1 -> readable M q l2 -> length l1 = length l2 -> l1 = l2.
Proof.
  intros (_ & _ & H1) (_ & _ & H2) L. apply nth_ext with (d := x00) (d' := x00); [exact L|].
  intros n Hn. specialize (H1 n Hn). rewrite L in Hn. specialize (H2 n Hn). congruence.
Qed.

(** C05, injectivity *)
Lemma encryption_injective i j e e' M1 c1 l1 m1 a1 s1 n1 k1 mb1 M2 c2 l2 m2 a2 s2 n2 k2 mb2 adb nb kb t1 t2 M1' M2' ct :
  aead_host i e = true -> aead_host j e' = true ->
  encrypt_pre (aead_demands i) M1 c1 l1 m1 a1 n1 k1 mb1 adb nb kb ->
  encrypt_pre (aead_demands j) M2 c2 l2 m2 a2 n2 k2 mb2 adb nb kb ->
  encrypt_of i e c1 l1 m1 (len mb1) a1 (len adb) s1 n1 k1 M1 = Done t1 M1' 0%Z ->
  encrypt_of j e' c2 l2 m2 (len mb2) a2 (len adb) s2 n2 k2 M2 = Done t2 M2' 0%Z ->
  readable M1' c1 ct -> readable M2' c2 ct -> len ct = len mb1 + 16 -> len mb2 = len mb1 ->
  mb1 = mb2.
Proof.
  intros H H' P1 P2 R1 R2 C1 C2 L L'.
  destruct (enc_facts i e M1 c1 l1 m1 a1 s1 n1 k1 mb1 adb nb kb H P1) as (u1 & N1 & Q1 & D1 & _).
  destruct (enc_facts j e' M2 c2 l2 m2 a2 s2 n2 k2 mb2 adb nb kb H' P2) as (u2 & N2 & Q2 & D2 & _).
  rewrite R1 in Q1. rewrite R2 in Q2. injection Q1 as _ EM1. injection Q2 as _ EM2. subst N1 N2.
  apply (aead_encrypt_inj kb nb adb). unfold len in *.
  rewrite <- (readable_det _ _ _ _ C1 D1) by (rewrite length_aead_encrypt; lia).
  apply (readable_det _ _ _ _ C2 D2). rewrite length_aead_encrypt. lia.
Qed.

(** Hash *)
Lemma hash_facts i a e M out inp l :
  hash_host i e = true -> readable M inp l -> writable M out (hash_len a) ->
  null_rule (no_null (hash_demands i)) inp ->
  exists t M', hash_of i a e out inp (len l) M = Done t M' 0%Z /\
    readable M' out (hash_fun a l) /\ len (hash_fun a l) = hash_len a /\
    forall b, outside out (hash_len a) b -> M' b = M b.
Proof.
  intros H R W Nn. destruct (hash_ok i a e H M out inp l R W Nn) as (t & M' & Hr & E).
  assert (L : len (hash_fun a l) = hash_len a).
  { unfold len. destruct a; cbn [hash_fun hash_len]; unfold hash256, xof128, hash_sponge;
      (rewrite length_squeeze; [reflexivity|lia| |lia]); (rewrite length_absorb; [lia|apply length_hash_init]). }
  exists t, M'. split; [exact Hr|]. split; [|split; [exact L|]].
  - eapply readable_ext; [exact E|]. destruct W as (Wb & Wn & _). apply readable_write_self; [lia|].
    intros _. apply Wn. destruct a; discriminate.
  - intros b Hb. rewrite E. apply write_outside. rewrite L. exact Hb.
Qed.

(** ** Keyed functions *)
Lemma length_key_fun a kb l n : is16 kb -> (n <= N.to_nat (key_outmax a))%nat ->
  length (key_fun a kb l n) = n.
Proof.
  intros Hk Hn. destruct a; cbn [key_fun].
  - apply length_prf_gen.
  - apply length_prf_gen.
  - apply length_prf_short; [exact Hk|exact Hn].
Qed.

Lemma prf_facts i a e M out n inp l k kb :
  key_host i a e = true -> is16 kb -> readable M k kb -> readable M inp l -> out_room (key_demands i a) M out n ->
  below (key_inmax a) (len l) -> n <= key_outmax a ->
  exists t M', prf_of i a e out n inp (len l) k M = Done t M' 0%Z /\
    readable M' out (key_fun a kb l (N.to_nat n)) /\ len (key_fun a kb l (N.to_nat n)) = n /\
    forall b, outside out n b -> M' b = M b.
Proof.
  intros H Hk Rk Ri W Hb Hn.
  destruct (proj1 (prf_ok i a e H) M out n inp l k kb Hk Rk Ri W Hb Hn) as (t & M' & Hr & E).
  assert (L : len (key_fun a kb l (N.to_nat n)) = n).
  { unfold len. rewrite length_key_fun; [lia|exact Hk|lia]. }
  exists t, M'. split; [exact Hr|]. split; [|split; [exact L|]].
  - eapply readable_ext; [exact E|]. destruct W as [(Wb & Wn & _) _]. apply readable_write_self; [lia|].
    intros Hne. apply Wn. intros ->. apply Hne. apply len_0. exact L.
  - intros b Hb'. rewrite E. apply write_outside. rewrite L. exact Hb'.
Qed.

Lemma auth_facts i a e M out inp l k kb :
  key_host i a e = true -> is16 kb -> readable M k kb -> readable M inp l -> writable M out (key_outmax a) ->
  below (key_inmax a) (len l) ->
  exists t M', auth_of i a e out inp (len l) k M = Done t M' 0%Z /\
    readable M' out (key_fun a kb l (N.to_nat (key_outmax a))) /\
    len (key_fun a kb l (N.to_nat (key_outmax a))) = key_outmax a /\
    forall b, outside out (key_outmax a) b -> M' b = M b.
Proof.
  intros H Hk Rk Ri W Hb.
  destruct (auth_ok i a e H M out inp l k kb Hk Rk Ri W Hb) as (t & M' & Hr & E).
  set (n := key_outmax a) in *.
  assert (L : len (key_fun a kb l (N.to_nat n)) = n).
  { unfold len. rewrite length_key_fun; [lia|exact Hk|lia]. }
  exists t, M'. split; [exact Hr|]. split; [|split; [exact L|]].
  - eapply readable_ext; [exact E|]. destruct W as (Wb & Wn & _). apply readable_write_self; [lia|].
    intros _. apply Wn. subst n. destruct a; discriminate.
  - intros b Hb'. rewrite E. apply write_outside. rewrite L. exact Hb'.
Qed.

(** Verification accepts exactly what crypto_auth (of any implementation) produces. *)
Lemma verify_facts i j a e e' M sp h hb inp l k kb :
  key_host i a e = true -> key_host j a e' = true ->
  is16 kb -> len hb = key_outmax a ->
  readable M k kb -> readable M inp l -> readable M h hb -> free_cells M sp (key_outmax a) ->
  below (key_inmax a) (len l) ->
  exists t M' r, verify_of i a e sp h inp (len l) k M = Done t M' r /\
    (forall b, M' b = M b) /\ (r = 0 \/ r = -1)%Z /\
    forall M2 out2 inp2 k2, readable M2 k2 kb -> readable M2 inp2 l -> writable M2 out2 (key_outmax a) ->
    exists t2 M2', auth_of j a e' out2 inp2 (len l) k2 M2 = Done t2 M2' 0%Z /\
      (r = 0%Z <-> readable M2' out2 hb).
Proof.
  intros H H' Hk Lh Rk Ri Rh F Hb.
  destruct (proj1 (verify_ok i a e H) M sp h hb inp l k kb Hk Lh Rk Ri Rh F Hb) as (t & M' & Hr & E).
  eexists t, M', _. split; [exact Hr|]. split; [exact E|]. split.
  { destruct (list_eq_dec _ _ _); auto. }
  intros M2 out2 inp2 k2 Rk2 Ri2 W2.
  destruct (auth_facts j a e' M2 out2 inp2 l k2 kb H' Hk Rk2 Ri2 W2 Hb) as (t2 & M2' & Hr2 & R2 & L2 & _).
  exists t2, M2'. split; [exact Hr2|].
  destruct (list_eq_dec Byte.byte_eq_dec (key_fun a kb l (N.to_nat (key_outmax a))) hb) as [Eq|Ne].
  - rewrite Eq in R2. tauto.
  - split; [discriminate|]. intros R3. exfalso. apply Ne. apply (readable_det _ _ _ _ R2 R3).
    unfold len in *. lia.
Qed.
