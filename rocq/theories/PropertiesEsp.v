(** * PropertiesEsp.v -- the ESP32 implementation (C41).

    [esp_aead_encrypt e strict ul], [esp_aead_decrypt e strict ul] and
    [esp_hash e ul iv n] are the directories esp32 on a host of byte order
    [e] whose [unsigned long] has [ul] bits; with [ul = 64] and
    [strict = false] they are also the registered [AEAD_esp32] and
    [HASH_esp32], about which all general theorems hold. *)
From Coq Require Import Bool Arith NArith ZArith List Lia Init.Byte Strings.Byte ZifyBool ZifyNat ZifyN.
From Verif Require Import Words WordFacts Spec SpecFacts SpecFast CMem Contract CMemFacts ApiSpec AeadFacts ApiFacts
  ModelRef ModelCommon ModelWords ModelEsp32 Esp32Aead Esp32Dec Esp32Hash Esp32Api Esp32Long
  Impls ImplsOk Demo PropertiesLow.
Import ListNotations.
Local Open Scope N_scope.

(** ** C41 Inside its contract the ESP32 code equals the other implementations *)

(** The same return value and the same memory as any implementation, when
    the buffers meet the demands of both.  *)
Theorem C41_encrypt_same_effect : forall j e M c clen m ad nsec npub k mb adb nb kb,
  aead_host j e = true ->
  encrypt_pre (Demands true true (blocks32 (aead_demands j))) M c clen m ad npub k mb adb nb kb ->
  same_effect (encrypt_of AEAD_esp32 e c clen m (len mb) ad (len adb) nsec npub k)
              (encrypt_of j e c clen m (len mb) ad (len adb) nsec npub k) M.
Proof.
  intros j e M c clen m ad nsec npub k mb adb nb kb Hj P.
  eapply same_effect_returns; apply encrypt_ok with (nb := nb) (kb := kb); try assumption; try reflexivity.
  - revert P. apply encrypt_pre_le. repeat split. discriminate.
  - revert P. apply encrypt_pre_le. repeat split. exact (fun H => H).
Qed.
Print Assumptions C41_encrypt_same_effect.
Theorem C41_decrypt_same_effect : forall j e M m mlen nsec c ad npub k ct adb nb kb,
  aead_host j e = true ->
  decrypt_pre (Demands true true (blocks32 (aead_demands j))) M m mlen c ad npub k ct adb nb kb ->
  same_effect (decrypt_of AEAD_esp32 e m mlen nsec c (len ct) ad (len adb) npub k)
              (decrypt_of j e m mlen nsec c (len ct) ad (len adb) npub k) M.
Proof.
  intros j e M m mlen nsec c ad npub k ct adb nb kb Hj P.
  destruct (aead_open kb nb adb (ct_body ct)) as [mb t] eqn:O.
  eapply same_effect_returns.
  - apply (decrypt_ok AEAD_esp32 e eq_refl) with (nb := nb) (kb := kb) (mb := mb) (t := t); [|exact O].
    revert P. apply decrypt_pre_le. repeat split. discriminate.
  - apply (decrypt_ok j e Hj) with (nb := nb) (kb := kb) (mb := mb) (t := t); [|exact O].
    revert P. apply decrypt_pre_le. repeat split. exact (fun H => H).
Qed.
Print Assumptions C41_decrypt_same_effect.
Theorem C41_hash_same_effect : forall j a e M out inp l,
  hash_host j e = true -> readable M inp l -> writable M out (hash_len a) -> inp <> NULL ->
  same_effect (hash_of HASH_esp32 a e out inp (len l)) (hash_of j a e out inp (len l)) M.
Proof.
  intros j a e M out inp l Hj R W Hn.
  eapply same_effect_returns; apply hash_ok; try assumption; try reflexivity; intros _; exact Hn.
Qed.
Print Assumptions C41_hash_same_effect.

(** The contract for an [unsigned long] of any width [ul]: lengths that it
    can hold.  Encryption also works in place (and with c below m); under
    the strict reading of null-pointer arithmetic the associated data must
    be shorter than a block. *)
Theorem C41_encrypt_any_width : forall e strict ul M c clen m ad nsec npub k mb adb nb kb,
  encrypt_pre (Demands true false false) M c clen m ad npub k mb adb nb kb ->
  len mb < 2 ^ ul -> len adb < 2 ^ ul -> len adb < 16 \/ strict = false ->
  returns (esp_aead_encrypt e strict ul c clen m (len mb) ad (len adb) nsec npub k) M
    (write (write M clen (to_host e 8 (len mb + 16))) c (aead_encrypt kb nb adb mb)) 0%Z.
Proof. intros until kb. intros P. apply (esp_encrypt_pre_ok _ _ _ _ _ _ _ _ _ _ _ _ _ _ _ false), P. Qed.
Print Assumptions C41_encrypt_any_width.
Theorem C41_decrypt_any_width : forall e strict ul M m mlen nsec c ad npub k ct adb nb kb mb t,
  decrypt_pre (Demands true true false) M m mlen c ad npub k ct adb nb kb ->
  len ct < 2 ^ ul + 16 -> len adb < 2 ^ ul -> len adb < 16 \/ strict = false ->
  aead_open kb nb adb (ct_body ct) = (mb, t) ->
  returns (esp_aead_decrypt e strict ul m mlen nsec c (len ct) ad (len adb) npub k) M
    (write (write M mlen (to_host e 8 (len ct - 16))) m mb)
    (if list_eq_dec Byte.byte_eq_dec t (ct_tag ct) then 0 else -1)%Z.
Proof. exact esp_decrypt_pre_ok. Qed.
Print Assumptions C41_decrypt_any_width.
Theorem C41_hash_any_width : forall e ul M out inp l,
  readable M inp l -> inp <> NULL -> 32 <= ul -> len l < 2 ^ ul ->
  (writable M out 32 -> returns (esp_hash e ul w64_HASH_IV 32 out inp (len l)) M (write M out (hash256 l)) 0%Z) /\
  (writable M out 64 -> returns (esp_hash e ul w64_XOF_IV 64 out inp (len l)) M (write M out (xof128 l 64)) 0%Z).
Proof.
  intros e ul M out inp l R Hn Hu Hl. split; intros W; apply returns_runs; [apply esp_hash256_ok|apply esp_xof128_ok]; assumption.
Qed.
Print Assumptions C41_hash_any_width.
Example C41_hypotheses_met : forall no_ov,
  encrypt_pre (Demands true no_ov false) demo_enc 0x2000 0x2100 0x1300 0x1200 0x1100 0x1000 demo_msg demo_ad demo_nonce demo_key /\
  encrypt_pre (Demands true false false) demo_inplace 0x1300 0x2100 0x1300 0x1200 0x1100 0x1000 demo_msg demo_ad demo_nonce demo_key /\
  decrypt_pre (Demands true true false) (dec_mem demo_ct) 0x2000 0x2100 0x1300 0x1200 0x1100 0x1000 demo_ct demo_ad demo_nonce demo_key /\
  decrypt_pre (Demands true true false) (dec_mem demo_bad) 0x2000 0x2100 0x1300 0x1200 0x1100 0x1000 demo_bad demo_ad demo_nonce demo_key /\
  len demo_ct < 2 ^ 32 + 16 /\ len demo_ad < 16 /\ aead_host (AEAD_word W_bi32) LE = true /\
  readable demo_hash 0x1300 demo_msg /\ writable demo_hash 0x2000 64.
Proof.
  intros no_ov. split; [apply demo_enc_pre|]. split; [apply demo_inplace_pre; reflexivity|]. split; [apply demo_dec_pre|].
  split; [apply demo_bad_pre|]. split; [vm_compute; reflexivity|]. split; [vm_compute; reflexivity|]. split; [reflexivity|].
  split; [apply demo_hash_in|apply demo_hash_out].
Qed.

(** ** C41 Decryption in place (m = c)

    correct if the text consists of whole blocks; *)
Theorem C41_inplace_whole_blocks : forall e strict ul M buf mlen nsec ad npub k ct adb nb kb,
  16 <= len ct -> (len ct - 16) mod 16 = 0 ->
  is16 kb -> is16 nb -> readable M k kb -> readable M npub nb -> readable M ad adb ->
  readable M buf ct -> writable M buf (len ct - 16) -> writable M mlen 8 ->
  disjoint mlen 8 k 16 -> disjoint mlen 8 npub 16 -> disjoint mlen 8 ad (len adb) ->
  disjoint mlen 8 buf (len ct) ->
  len ct < 2 ^ ul + 16 -> len adb < 2 ^ ul -> len adb < 16 \/ strict = false ->
  exists t M' r, esp_aead_decrypt e strict ul buf mlen nsec buf (len ct) ad (len adb) npub k M = Done t M' r /\
    match aead_decrypt kb nb adb ct with
    | Some mb => r = 0%Z /\ readable M' buf mb
    | None => r = (-1)%Z
    end.
Proof.
  intros e strict ul M buf mlen nsec ad npub k ct adb nb kb Hl Hm Hk Hn Rk Rn Ra Rc W Wl Dk Dn Da Dc Uc Ua Hs.
  destruct (ct_split ct Hl) as (E & L1 & L2).
  rewrite aead_decrypt_unfold by exact Hl.
  destruct (aead_open kb nb adb (ct_body ct)) as [mb t] eqn:O.
  pose proof (esp_decrypt_inplace e strict ul M buf mlen nsec ad npub k kb nb adb (ct_body ct) (ct_tag ct) mb t) as H.
  rewrite <- E, L1 in H.
  assert (Hmod : (length (ct_body ct) mod 16 = 0)%nat).
  { apply Nnat.Nat2N.inj. rewrite Nnat.Nat2N.inj_mod. change (N.of_nat (length (ct_body ct))) with (len (ct_body ct)).
    rewrite L1. exact Hm. }
  assert (Lm : length mb = length (ct_body ct)) by apply (aead_open_encrypt _ _ _ _ _ _ O).
  destruct H as (tr & Hr); try assumption; [lia|].
  replace (open_reread (skipn (length (ct_body ct) - length (ct_body ct) mod 16) mb) kb nb adb (ct_body ct)) with t in Hr.
  2:{ rewrite Hmod, Nat.sub_0_r. rewrite skipn_all2 by lia.
      pose proof (open_reread_same kb nb adb (ct_body ct) mb t O) as Q. rewrite Hmod, Nat.sub_0_r, skipn_all2 in Q by lia.
      symmetry. exact Q. }
  exists tr. eexists. eexists. split; [exact Hr|].
  destruct (list_eq_dec Byte.byte_eq_dec t (ct_tag ct)); [|reflexivity].
  split; [reflexivity|].
  apply readable_write_self.
  - unfold len. rewrite Lm. fold (len (ct_body ct)). rewrite L1. apply (writable_bound _ _ _ W).
  - intros Hne. apply W. intros H0. apply Hne. apply length_zero_iff_nil. rewrite Lm. unfold len in *. lia.
Qed.
Print Assumptions C41_inplace_whole_blocks.
(** otherwise not: the call writes the right text but compares the tag with
    one computed from the last block of the plaintext, which has replaced
    the last block of the ciphertext; *)
Theorem C41_inplace_partial_block : forall e strict ul M buf mlen nsec ad npub k kb nb adb body tag mb t,
  is16 kb -> is16 nb -> is16 tag ->
  readable M k kb -> readable M npub nb -> readable M ad adb -> readable M buf (body ++ tag) ->
  writable M buf (len body) -> writable M mlen 8 ->
  disjoint mlen 8 k 16 -> disjoint mlen 8 npub 16 -> disjoint mlen 8 ad (len adb) ->
  disjoint mlen 8 buf (len (body ++ tag)) ->
  len body < 2 ^ ul -> len adb < 2 ^ ul -> len adb < 16 \/ strict = false ->
  aead_open kb nb adb body = (mb, t) ->
  (** [S]: the state after the body; [r]: the bytes of the last block *)
  let S := fst (dec_blocks (length body) (aead_ad (aead_init kb nb) adb) body) in
  let r := (length body mod 16)%nat in
  runs (esp_aead_decrypt e strict ul buf mlen nsec buf (len (body ++ tag)) ad (len adb) npub k) M
    (write (write M mlen (to_host e 8 (len body))) buf mb)
    (if list_eq_dec Byte.byte_eq_dec (aead_tag kb (skipn (length mb - r) mb ++ skipn r S)) tag then 0 else -1)%Z.
Proof.
  intros e strict ul M buf mlen nsec ad npub k kb nb adb body tag mb t.
  intros H1 H2 H3 H4 H5 H6 H7 H8 H9 H10 H11 H12 H13 H14 H15 H16 O.
  pose proof (esp_decrypt_inplace e strict ul M buf mlen nsec ad npub k kb nb adb body tag mb t
    H1 H2 H3 H4 H5 H6 H7 H8 H9 H10 H11 H12 H13 H14 H15 H16 O) as H.
  assert (Lm : length mb = length body) by apply (aead_open_encrypt _ _ _ _ _ _ O).
  unfold open_reread, reread in H. rewrite skipn_length, Lm in H.
  pose proof (Nat.mod_le (length body) 16 ltac:(lia)).
  replace (length body - (length body - length body mod 16))%nat with (length body mod 16)%nat in H by lia.
  cbv zeta. rewrite Lm. exact H.
Qed.
Print Assumptions C41_inplace_partial_block.
(** so that valid ciphertexts are rejected.  Here 20 bytes of text, in
    place: rejected; the same ciphertext into another buffer: accepted. *)
Definition inplace_mem : mem := mem_of
  [ROdata 0x1000 demo_key; ROdata 0x1100 demo_nonce; ROdata 0x1200 demo_ad; RWdata 0x1300 demo_ct; RWfree 0x2100 8].
Theorem C41_inplace_refuted : forall e,
  aead_decrypt demo_key demo_nonce demo_ad demo_ct = Some demo_msg /\
  readable inplace_mem 0x1300 demo_ct /\ writable inplace_mem 0x1300 (len demo_ct) /\
  (exists t M', esp_aead_decrypt e false 32 0x1300 0x2100 0 0x1300 (len demo_ct) 0x1200 (len demo_ad) 0x1100 0x1000 inplace_mem
     = Done t M' (-1)%Z) /\
  (exists t M', esp_aead_decrypt e false 32 0x2000 0x2100 0 0x1300 (len demo_ct) 0x1200 (len demo_ad) 0x1100 0x1000 (dec_mem demo_ct)
     = Done t M' 0%Z).
Proof.
  intros e. split; [rewrite demo_ct_ok; apply aead_roundtrip|].
  assert (Rc : readable inplace_mem 0x1300 demo_ct) by (apply readableb_ok; vm_compute; reflexivity).
  assert (Wc : writable inplace_mem 0x1300 (len demo_ct)) by (apply writableb_ok; vm_compute; reflexivity).
  split; [exact Rc|]. split; [exact Wc|]. split.
  - assert (L16 : 16 <= len demo_ct) by (vm_compute; discriminate).
    destruct (ct_split demo_ct L16) as (E & L1 & L2).
    destruct (aead_open demo_key demo_nonce demo_ad (ct_body demo_ct)) as [mb t] eqn:O.
    destruct (esp_decrypt_inplace e false 32 inplace_mem 0x1300 0x2100 0 0x1200 0x1100 0x1000 demo_key demo_nonce demo_ad
      (ct_body demo_ct) (ct_tag demo_ct) mb t) as (tr & Hr); rewrite <- ?E, ?L1;
      [reflexivity|reflexivity|exact L2
      |apply readableb_ok; vm_compute; reflexivity|apply readableb_ok; vm_compute; reflexivity
      |apply readableb_ok; vm_compute; reflexivity|exact Rc
      |apply writableb_ok; vm_compute; reflexivity|apply writableb_ok; vm_compute; reflexivity
      |apply disjointb_ok; vm_compute; reflexivity|apply disjointb_ok; vm_compute; reflexivity
      |apply disjointb_ok; vm_compute; reflexivity|apply disjointb_ok; vm_compute; reflexivity
      |vm_compute; reflexivity|vm_compute; reflexivity|right; reflexivity|exact O|].
    rewrite <- E in Hr. exists tr. eexists.
    destruct (list_eq_dec Byte.byte_eq_dec _ _) as [Q|]; [exfalso|exact Hr].
    assert (Em : mb = fst (aead_open demo_key demo_nonce demo_ad (ct_body demo_ct))) by (rewrite O; reflexivity).
    rewrite Em, f_aead_open in Q. revert Q. vm_compute. discriminate.
  - destruct (aead_open demo_key demo_nonce demo_ad (ct_body demo_ct)) as [mb t] eqn:O.
    destruct (C41_decrypt_any_width e false 32 (dec_mem demo_ct) 0x2000 0x2100 0 0x1300 0x1200 0x1100 0x1000
      demo_ct demo_ad demo_nonce demo_key mb t) as (tr & M' & Hr & _); auto.
    + apply demo_dec_pre.
    + vm_compute; reflexivity.
    + vm_compute; reflexivity.
    + exists tr, M'. rewrite Hr.
      assert (Et : t = snd (aead_open demo_key demo_nonce demo_ad (ct_body demo_ct))) by (rewrite O; reflexivity).
      destruct (list_eq_dec Byte.byte_eq_dec t (ct_tag demo_ct)) as [|N]; [reflexivity|].
      exfalso. apply N. rewrite Et, f_aead_open. vm_compute. reflexivity.
Qed.
Print Assumptions C41_inplace_refuted.

(** ** C41 Lengths that [unsigned long] cannot hold

    On hosts where it is narrower than [unsigned long long] (32 bits on
    64-bit Windows) lengths wrap around: associated data beyond the wrapped
    length is not authenticated, *)
Theorem C41_long_ad_ignored : forall e strict ul M c clen m ad nsec npub k mb ad1 adlen nb kb,
  encrypt_pre (Demands true false false) M c clen m ad npub k mb ad1 nb kb ->
  adlen mod 2 ^ ul = len ad1 -> ad1 <> [] ->
  len mb < 2 ^ ul -> len ad1 < 16 \/ strict = false ->
  returns (esp_aead_encrypt e strict ul c clen m (len mb) ad adlen nsec npub k) M
    (write (write M clen (to_host e 8 (len mb + 16))) c (aead_encrypt kb nb ad1 mb)) 0%Z.
Proof.
  intros e strict ul M c clen m ad nsec npub k mb ad1 adlen nb kb P Ha Hne Hm Hs.
  assert (La : len ad1 < 2 ^ ul) by (rewrite <- Ha; apply N.mod_upper_bound; lia).
  assert (L0 : len ad1 <> 0) by (destruct ad1; [congruence|rewrite len_cons; lia]).
  destruct (C41_encrypt_any_width e strict ul M c clen m ad nsec npub k mb ad1 nb kb P Hm La Hs) as (t & M' & H & E).
  exists t, M'. split; [|exact E]. rewrite <- H. apply esp_encrypt_adlen.
  - rewrite Ha. symmetry. apply N.mod_small, La.
  - intros ->. rewrite N.mod_0_l in Ha by lia. congruence.
  - exact L0.
Qed.
Print Assumptions C41_long_ad_ignored.
(** plaintext beyond it is neither encrypted nor authenticated (in place it
    stays in the output as it is), *)
Theorem C41_long_text_not_encrypted : forall e strict ul M c clen m mlen ad nsec npub k mb adb nb kb,
  encrypt_pre (Demands true false false) M c clen m ad npub k mb adb nb kb ->
  writable M c (mlen + 16) -> mlen mod 2 ^ ul = len mb ->
  len adb < 2 ^ ul -> len adb < 16 \/ strict = false ->
  exists t M', esp_aead_encrypt e strict ul c clen m mlen ad (len adb) nsec npub k M = Done t M' 0%Z /\
    forall a, c + len mb <= a -> a < c + mlen -> outside clen 8 a -> M' a = M a.
Proof.
  intros e strict ul M c clen m mlen ad nsec npub k mb adb nb kb [] W Hm Ha Hs. destruct ep_ov as [ep_ov _].
  destruct (esp_encrypt_long e strict ul M c clen m mlen ad nsec npub k kb nb adb mb) as (t & H); auto.
  exists t. eexists. split; [exact H|]. intros a H1 H2 H3.
  rewrite !write_outside; [reflexivity| | |]; unfold outside, len in *.
  - rewrite length_to_host. exact H3.
  - rewrite firstn_length. lia.
  - lia.
Qed.
Print Assumptions C41_long_text_not_encrypted.
(** and a message has the digest of its prefix: a collision. *)
Theorem C41_long_hash_collision : forall e ul M out inp l1 l2,
  readable M inp (l1 ++ l2) -> inp <> NULL -> 32 <= ul -> len (l1 ++ l2) mod 2 ^ ul = len l1 ->
  (writable M out 32 -> returns (esp_hash e ul w64_HASH_IV 32 out inp (len (l1 ++ l2))) M (write M out (hash256 l1)) 0%Z) /\
  (writable M out 64 -> returns (esp_hash e ul w64_XOF_IV 64 out inp (len (l1 ++ l2))) M (write M out (xof128 l1 64)) 0%Z).
Proof.
  intros e ul M out inp l1 l2 R Hn Hu Hm. destruct (readable_app _ _ _ _ R) as (R1 & _).
  assert (H1 : len l1 < 2 ^ ul) by (rewrite <- Hm; apply N.mod_upper_bound; lia).
  split; intros W.
  - destruct (C41_hash_any_width e ul M out inp l1 R1 Hn Hu H1) as (H & _). destruct (H W) as (t & M' & Hr & E).
    exists t, M'. split; [|exact E]. rewrite esp_hash_trunc, Hm. exact Hr.
  - destruct (C41_hash_any_width e ul M out inp l1 R1 Hn Hu H1) as (_ & H). destruct (H W) as (t & M' & Hr & E).
    exists t, M'. split; [|exact E]. rewrite esp_hash_trunc, Hm. exact Hr.
Qed.
Print Assumptions C41_long_hash_collision.
(** The hypotheses can be met: 2^32 + 3 wraps to 3, for instance. *)
Lemma padding_exists : forall n, n <> 0 -> exists l : bytes, len l = n /\ l <> [].
Proof.
  intros n Hn. exists (zeros (N.to_nat n)). assert (L : len (zeros (N.to_nat n)) = n).
  { unfold len, zeros. rewrite repeat_length, Nnat.N2Nat.id. reflexivity. }
  split; [exact L|]. intros H. rewrite H in L. apply Hn. rewrite <- L. reflexivity.
Qed.
Example C41_long_hypotheses_met : (2 ^ 32 + 3) mod 2 ^ 32 = len demo_ad /\
  exists l2, len (demo_msg ++ l2) mod 2 ^ 32 = len demo_msg /\ l2 <> [].
Proof.
  split; [vm_compute; reflexivity|]. destruct (padding_exists (2 ^ 32)) as (l2 & L & Hne); [discriminate|].
  exists l2. split; [|exact Hne]. rewrite len_app, L. vm_compute. reflexivity.
Qed.

(** ** C41 Null-pointer arithmetic: under the strict reading, encryption
    with a block or more of associated data is undefined (core.c l.63 steps
    the null pointer passed by l.198). *)
Theorem C41_strict_long_ad_undefined : forall e ul M c clen m ad nsec npub k mb adb nb kb,
  encrypt_pre (Demands true true false) M c clen m ad npub k mb adb nb kb ->
  16 <= len adb -> len adb < 2 ^ ul ->
  esp_aead_encrypt e true ul c clen m (len mb) ad (len adb) nsec npub k M = Bad ErrNull.
Proof. intros e ul M c clen m ad nsec npub k mb adb nb kb [] H1 H2. apply (esp_encrypt_null e ul M c clen m (len mb) ad nsec npub k kb nb adb); assumption. Qed.
Print Assumptions C41_strict_long_ad_undefined.
Example C41_strict_hypotheses_met :
  exists adb, 16 <= len adb /\ len adb < 2 ^ 32 /\ encrypt_pre (Demands true true false)
    (mem_of [ROdata 0x1000 demo_key; ROdata 0x1100 demo_nonce; ROdata 0x1200 adb; ROdata 0x1300 demo_msg;
             RWfree 0x2000 36; RWfree 0x2100 8])
    0x2000 0x2100 0x1300 0x1200 0x1100 0x1000 demo_msg adb demo_nonce demo_key.
Proof.
  exists (count 48 19). split; [vm_compute; discriminate|]. split; [vm_compute; reflexivity|].
  apply encrypt_preb_ok. vm_compute. reflexivity.
Qed.
