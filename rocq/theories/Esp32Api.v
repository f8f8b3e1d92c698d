(** * Esp32Api.v -- the ESP32 implementation meets the API contracts (with a
    64-bit unsigned long; see PropertiesEsp.v for other widths). *)
From Coq Require Import Bool Arith NArith ZArith List Lia Init.Byte Strings.Byte ZifyBool ZifyNat ZifyN.
From Verif Require Import Words WordFacts Spec SpecFacts CMem Contract CMemFacts ApiSpec AeadFacts ApiFacts
  ModelRef ModelCommon ModelWords ModelEsp32 Esp32Aead Esp32Dec Esp32Hash.
Import ListNotations.
Local Open Scope N_scope.

(** With the lengths that [unsigned long] can hold, and either lax null
    arithmetic or less than one block of associated data. *)
Lemma esp_encrypt_pre_ok e strict ul M c clen m ad nsec npub k mb adb nb kb no_ov :
  encrypt_pre (Demands true no_ov false) M c clen m ad npub k mb adb nb kb ->
  len mb < 2 ^ ul -> len adb < 2 ^ ul -> len adb < 16 \/ strict = false ->
  returns (esp_aead_encrypt e strict ul c clen m (len mb) ad (len adb) nsec npub k) M
    (write (write M clen (to_host e 8 (len mb + 16))) c (aead_encrypt kb nb adb mb)) 0%Z.
Proof.
  intros [] Um Ua Hs. destruct ep_ov as [Hno _]. apply returns_runs, esp_encrypt_ok; try assumption.
  apply ep_nm. reflexivity.
Qed.

Lemma esp_decrypt_pre_ok e strict ul M m mlen nsec c ad npub k ct adb nb kb mb t :
  decrypt_pre (Demands true true false) M m mlen c ad npub k ct adb nb kb ->
  len ct < 2 ^ ul + 16 -> len adb < 2 ^ ul -> len adb < 16 \/ strict = false ->
  aead_open kb nb adb (ct_body ct) = (mb, t) ->
  returns (esp_aead_decrypt e strict ul m mlen nsec c (len ct) ad (len adb) npub k) M
    (write (write M mlen (to_host e 8 (len ct - 16))) m mb)
    (if list_eq_dec Byte.byte_eq_dec t (ct_tag ct) then 0 else -1)%Z.
Proof.
  intros [] Uc Ua Hs O. cbn [no_overlap no_null] in *. destruct dp_ov as [Hno Hd]. specialize (Hd eq_refl).
  destruct (ct_split ct dp_len) as (E & L1 & L2).
  destruct (esp_decrypt_ok e strict ul M m mlen nsec c ad npub k kb nb adb (ct_body ct) (ct_tag ct) mb t) as (H & _);
    rewrite <- ?E, ?L1; try assumption.
  - apply dp_dm. reflexivity.
  - apply dp_nm. reflexivity.
  - cbv zeta. pose proof (N.mod_le (len ct - 16) 16 ltac:(lia)). revert Hd. unfold disjoint.
    generalize dependent ((len ct - 16) mod 16). intros; lia.
  - lia.
  - rewrite <- E, L1 in H. apply returns_runs, H.
Qed.

Lemma esp_encrypt_conforms e : encrypt_conforms e (Demands true true false) (esp_aead_encrypt e false 64).
Proof.
  intros M c clen m ad nsec npub k mb adb nb kb P. apply (esp_encrypt_pre_ok e false 64 _ _ _ _ _ _ _ _ _ _ _ _ true); auto.
  - destruct (ep_m _ _ _ _ _ _ _ _ _ _ _ _ P). lia.
  - destruct (ep_ad _ _ _ _ _ _ _ _ _ _ _ _ P). lia.
Qed.
Lemma esp_decrypt_conforms e : decrypt_conforms e (Demands true true false) (esp_aead_decrypt e false 64).
Proof.
  intros M m mlen nsec c ad npub k ct adb nb kb mb t P O. apply (esp_decrypt_pre_ok e false 64 _ _ _ _ _ _ _ _ _ _ nb kb); auto.
  - destruct (dp_c _ _ _ _ _ _ _ _ _ _ _ _ P). lia.
  - destruct (dp_ad _ _ _ _ _ _ _ _ _ _ _ _ P). lia.
Qed.
Lemma esp_decrypt_rejects_short e strict ul : decrypt_rejects_short_0 e (esp_aead_decrypt e strict ul).
Proof. intros M m mlen nsec c clen ad adlen npub k H W. apply esp_decrypt_short; assumption. Qed.

Lemma esp_hash256_conforms e : hash_conforms (Demands true false false) hash256 32 (esp_hash e 64 w64_HASH_IV 32).
Proof.
  intros M out inp l R W Hn. apply returns_runs, esp_hash256_ok; try assumption.
  - apply Hn. reflexivity.
  - lia.
  - destruct R. lia.
Qed.
Lemma esp_xof128_conforms e : hash_conforms (Demands true false false) (fun l => xof128 l 64) 64 (esp_hash e 64 w64_XOF_IV 64).
Proof.
  intros M out inp l R W Hn. apply returns_runs, esp_xof128_ok; try assumption.
  - apply Hn. reflexivity.
  - lia.
  - destruct R. lia.
Qed.
