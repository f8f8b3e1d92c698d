(** * Properties.v -- the property theorems.

    Only statements (proofs are one line each, from lemmas elsewhere), the
    assumptions they rest on, and examples showing that their hypotheses
    are met.  Vocabulary: [Contract.v] (buffers), [ApiSpec.v] (the
    contracts [encrypt_pre], [decrypt_pre]), [Spec.v] (the algorithms),
    [Impls.v] (which implementations [i] ranges over). *)
From Coq Require Import Bool Arith NArith ZArith List Lia Init.Byte Strings.Byte.
From Verif Require Import Words Spec CMem Contract ApiSpec AeadFacts ApiFacts PermBij SepFacts Ct
  ModelRef RefApi Impls ImplsOk Demo PropFacts.
Import ListNotations.
Local Open Scope N_scope.

(** ** C01 AEAD encryption conforms to Ascon-AEAD128 *)
Theorem C01_encrypt_conforms : forall i e M c clen m ad nsec npub k mb adb nb kb,
  aead_host i e = true ->
  encrypt_pre (aead_demands i) M c clen m ad npub k mb adb nb kb ->
  exists t M',
    encrypt_of i e c clen m (len mb) ad (len adb) nsec npub k M = Done t M' 0%Z /\
    readable M' c (aead_encrypt kb nb adb mb) /\
    length (aead_encrypt kb nb adb mb) = (length mb + 16)%nat.
Proof. exact C01_proof. Qed.
Print Assumptions C01_encrypt_conforms.
Example C01_hypotheses_met : forall i e, aead_host i e = true ->
  encrypt_pre (aead_demands i) demo_enc 0x2000 0x2100 0x1300 0x1200 0x1100 0x1000
    demo_msg demo_ad demo_nonce demo_key.
Proof. intros i e _. destruct (aead_demands i). apply demo_enc_pre. Qed.

(** ** C02 AEAD decryption conforms to Ascon-AEAD128 *)
Theorem C02_decrypt_conforms : forall i e M m mlen nsec c ad npub k ct adb nb kb,
  aead_host i e = true ->
  decrypt_pre (aead_demands i) M m mlen c ad npub k ct adb nb kb ->
  exists t M' r,
    decrypt_of i e m mlen nsec c (len ct) ad (len adb) npub k M = Done t M' r /\
    match aead_decrypt kb nb adb ct with
    | Some mb => r = 0%Z /\ readable M' m mb
    | None => r = (-1)%Z
    end.
Proof. exact dec_spec. Qed.
Print Assumptions C02_decrypt_conforms.
Example C02_hypotheses_met : forall i e, aead_host i e = true ->
  decrypt_pre (aead_demands i) (dec_mem demo_ct) 0x2000 0x2100 0x1300 0x1200 0x1100 0x1000
    demo_ct demo_ad demo_nonce demo_key /\
  decrypt_pre (aead_demands i) (dec_mem demo_bad) 0x2000 0x2100 0x1300 0x1200 0x1100 0x1000
    demo_bad demo_ad demo_nonce demo_key /\
  aead_decrypt demo_key demo_nonce demo_ad demo_ct = Some demo_msg /\
  aead_decrypt demo_key demo_nonce demo_ad demo_bad = None.
Proof.
  intros i e _. destruct (aead_demands i). split; [apply demo_dec_pre|]. split; [apply demo_bad_pre|].
  split; [rewrite demo_ct_ok; apply aead_roundtrip|apply demo_bad_rejected].
Qed.

(** ** C03 Decryption inverts encryption (implementation [i] encrypts, [j]
    decrypts, possibly on hosts of different byte order) *)
Theorem C03_roundtrip : forall i j e e' M c clen m ad nsec npub k mb adb nb kb,
  aead_host i e = true -> aead_host j e' = true ->
  encrypt_pre (aead_demands i) M c clen m ad npub k mb adb nb kb ->
  exists t M' ct,
    encrypt_of i e c clen m (len mb) ad (len adb) nsec npub k M = Done t M' 0%Z /\
    readable M' c ct /\ len ct = len mb + 16 /\
    forall M2 m2 mlen2 nsec2 c2 ad2 npub2 k2,
    decrypt_pre (aead_demands j) M2 m2 mlen2 c2 ad2 npub2 k2 ct adb nb kb ->
    exists t2 M2',
      decrypt_of j e' m2 mlen2 nsec2 c2 (len mb + 16) ad2 (len adb) npub2 k2 M2 = Done t2 M2' 0%Z /\
      readable M2' m2 mb /\
      (disjoint mlen2 8 m2 (len mb) -> runs (load_ull e' mlen2) M2' M2' (len mb)).
Proof. exact enc_dec. Qed.
Print Assumptions C03_roundtrip.

(** ** C04 A wrong tag is always rejected *)
Theorem C04_wrong_tag_rejected :
  forall i e M1 M2 m1 m2 l1 l2 c1 c2 ad1 ad2 n1 n2 k1 k2 ns1 ns2 body tag tag' adb nb kb t1 M1',
  aead_host i e = true -> tag' <> tag -> is16 tag -> is16 tag' ->
  decrypt_pre (aead_demands i) M1 m1 l1 c1 ad1 n1 k1 (body ++ tag) adb nb kb ->
  decrypt_pre (aead_demands i) M2 m2 l2 c2 ad2 n2 k2 (body ++ tag') adb nb kb ->
  decrypt_of i e m1 l1 ns1 c1 (len (body ++ tag)) ad1 (len adb) n1 k1 M1 = Done t1 M1' 0%Z ->
  exists t2 M2', decrypt_of i e m2 l2 ns2 c2 (len (body ++ tag')) ad2 (len adb) n2 k2 M2 = Done t2 M2' (-1)%Z.
Proof. exact wrong_tag. Qed.
Print Assumptions C04_wrong_tag_rejected.
Example C04_hypotheses_met : forall i e, aead_host i e = true -> exists body tag tag' t1 M1',
  tag' <> tag /\ is16 tag /\ is16 tag' /\
  decrypt_pre (aead_demands i) (dec_mem (body ++ tag)) 0x2000 0x2100 0x1300 0x1200 0x1100 0x1000
    (body ++ tag) demo_ad demo_nonce demo_key /\
  decrypt_pre (aead_demands i) (dec_mem (body ++ tag')) 0x2000 0x2100 0x1300 0x1200 0x1100 0x1000
    (body ++ tag') demo_ad demo_nonce demo_key /\
  decrypt_of i e 0x2000 0x2100 0 0x1300 (len (body ++ tag)) 0x1200 (len demo_ad) 0x1100 0x1000 (dec_mem (body ++ tag))
    = Done t1 M1' 0%Z.
Proof. exact C04_met. Qed.

(** ** C05 Accepted ciphertexts are exactly the encryptions of their plaintext *)
Theorem C05_accepted_is_encryption : forall i j e e' M m mlen nsec c ad npub k ct adb nb kb t M',
  aead_host i e = true -> aead_host j e' = true ->
  decrypt_pre (aead_demands i) M m mlen c ad npub k ct adb nb kb ->
  decrypt_of i e m mlen nsec c (len ct) ad (len adb) npub k M = Done t M' 0%Z ->
  exists mb, readable M' m mb /\ len mb = len ct - 16 /\
  forall M2 c2 clen2 m2 ad2 nsec2 npub2 k2,
    encrypt_pre (aead_demands j) M2 c2 clen2 m2 ad2 npub2 k2 mb adb nb kb ->
    exists t2 M2', encrypt_of j e' c2 clen2 m2 (len mb) ad2 (len adb) nsec2 npub2 k2 M2 = Done t2 M2' 0%Z /\
      readable M2' c2 ct.
Proof. exact accepted_is_encryption. Qed.
Print Assumptions C05_accepted_is_encryption.
Theorem C05_encryption_injective :
  forall i j e e' M1 c1 l1 m1 a1 s1 n1 k1 mb1 M2 c2 l2 m2 a2 s2 n2 k2 mb2 adb nb kb t1 t2 M1' M2' ct,
  aead_host i e = true -> aead_host j e' = true ->
  encrypt_pre (aead_demands i) M1 c1 l1 m1 a1 n1 k1 mb1 adb nb kb ->
  encrypt_pre (aead_demands j) M2 c2 l2 m2 a2 n2 k2 mb2 adb nb kb ->
  encrypt_of i e c1 l1 m1 (len mb1) a1 (len adb) s1 n1 k1 M1 = Done t1 M1' 0%Z ->
  encrypt_of j e' c2 l2 m2 (len mb2) a2 (len adb) s2 n2 k2 M2 = Done t2 M2' 0%Z ->
  readable M1' c1 ct -> readable M2' c2 ct -> len ct = len mb1 + 16 -> len mb2 = len mb1 ->
  mb1 = mb2.
Proof. exact encryption_injective. Qed.
Print Assumptions C05_encryption_injective.

(** ** C06 Too-short ciphertexts are rejected without side effects: the
    trace holds one branch and no memory access, the memory is the same,
    for arbitrary (also invalid) pointers.  esp32 alone sets *mlen to 0
    first: there mlen must be valid, and nothing else is written *)
Theorem C06_short_ciphertext : forall i e, short_stores_mlen i = false ->
  forall M m mlen nsec c clen ad adlen npub k, clen < 16 ->
  decrypt_of i e m mlen nsec c clen ad adlen npub k M = Done [EBranch true] M (-1)%Z.
Proof. exact decrypt_short_ok. Qed.
Print Assumptions C06_short_ciphertext.
Theorem C06_short_ciphertext_esp32 : forall i e, short_stores_mlen i = true ->
  forall M m mlen nsec c clen ad adlen npub k, clen < 16 -> writable M mlen 8 ->
  exists t, decrypt_of i e m mlen nsec c clen ad adlen npub k M =
    Done t (write M mlen (to_host e 8 0)) (-1)%Z.
Proof. exact decrypt_short_0_ok. Qed.
Print Assumptions C06_short_ciphertext_esp32.
Example C06_hypotheses_met : 15 < 16 /\ short_stores_mlen (AEAD_word W_bi32) = false /\
  short_stores_mlen AEAD_esp32 = true /\ writable demo_enc 0x2100 8.
Proof.
  split; [reflexivity|]. split; [reflexivity|]. split; [reflexivity|].
  apply (ep_clen _ _ _ _ _ _ _ _ _ _ _ _ (demo_enc_pre (aead_demands AEAD_esp32))).
Qed.

(** ** C07 Return codes *)
Theorem C07_return_codes :
  (forall i e M c clen m ad nsec npub k mb adb nb kb, aead_host i e = true ->
     encrypt_pre (aead_demands i) M c clen m ad npub k mb adb nb kb ->
     exists t M', encrypt_of i e c clen m (len mb) ad (len adb) nsec npub k M = Done t M' 0%Z) /\
  (forall i e M m mlen nsec c ad npub k ct adb nb kb, aead_host i e = true ->
     decrypt_pre (aead_demands i) M m mlen c ad npub k ct adb nb kb ->
     exists t M' r, decrypt_of i e m mlen nsec c (len ct) ad (len adb) npub k M = Done t M' r /\
       (r = 0 \/ r = -1)%Z) /\
  (forall i a e M out inp l, hash_host i e = true -> readable M inp l -> writable M out (hash_len a) ->
     null_rule (no_null (hash_demands i)) inp ->
     exists t M', hash_of i a e out inp (len l) M = Done t M' 0%Z) /\
  (forall i a e M out inp l k kb, key_host i a e = true -> is16 kb ->
     readable M k kb -> readable M inp l -> writable M out (key_outmax a) -> below (key_inmax a) (len l) ->
     exists t M', auth_of i a e out inp (len l) k M = Done t M' 0%Z) /\
  (forall i a e M sp h hb inp l k kb, key_host i a e = true -> is16 kb -> len hb = key_outmax a ->
     readable M k kb -> readable M inp l -> readable M h hb -> free_cells M sp (key_outmax a) ->
     below (key_inmax a) (len l) ->
     exists t M' r, verify_of i a e sp h inp (len l) k M = Done t M' r /\ (r = 0 \/ r = -1)%Z).
Proof. exact C07_proof. Qed.
Print Assumptions C07_return_codes.
Example C07_hypotheses_met : forall a, 
  readable demo_mac 0x1000 demo_key /\ is16 demo_key /\ readable demo_mac 0x1300 demo_short /\
  below (key_inmax a) (len demo_short) /\ writable demo_mac 0x2000 (key_outmax a) /\
  readable demo_mac 0x1200 (firstn (N.to_nat (key_outmax a)) demo_tag) /\
  free_cells demo_mac 0x4000 (key_outmax a).
Proof. exact C07_met. Qed.

(** ** C08 Output lengths *)
Theorem C08_output_lengths :
  (forall i e M c clen m ad nsec npub k mb adb nb kb, aead_host i e = true ->
     encrypt_pre (aead_demands i) M c clen m ad npub k mb adb nb kb ->
     disjoint clen 8 c (len mb + 16) ->
     exists t M', encrypt_of i e c clen m (len mb) ad (len adb) nsec npub k M = Done t M' 0%Z /\
       runs (load_ull e clen) M' M' (len mb + 16)) /\
  (forall i e M m mlen nsec c ad npub k ct adb nb kb, aead_host i e = true ->
     decrypt_pre (aead_demands i) M m mlen c ad npub k ct adb nb kb ->
     disjoint mlen 8 m (len ct - 16) ->
     exists t M' r, decrypt_of i e m mlen nsec c (len ct) ad (len adb) npub k M = Done t M' r /\
       runs (load_ull e mlen) M' M' (len ct - 16)).
Proof. exact C08_proof. Qed.
Print Assumptions C08_output_lengths.
Example C08_hypotheses_met : disjoint 0x2100 8 0x2000 (len demo_msg + 16).
Proof. apply disjointb_ok. reflexivity. Qed.

(** ** C09 Memory safety: no call goes wrong.  [Bad] covers reading a cell
    that is inaccessible or uninitialised, writing one that is not
    writable, NULL dereference or offset, leaving the address space.  The
    memory is arbitrary outside the stated buffers, so in particular
    everything else may be inaccessible. *)
Theorem C09_memory_safety :
  (forall i e M c clen m ad nsec npub k mb adb nb kb err, aead_host i e = true ->
     encrypt_pre (aead_demands i) M c clen m ad npub k mb adb nb kb ->
     encrypt_of i e c clen m (len mb) ad (len adb) nsec npub k M <> Bad err) /\
  (forall i e M m mlen nsec c ad npub k ct adb nb kb err, aead_host i e = true ->
     decrypt_pre (aead_demands i) M m mlen c ad npub k ct adb nb kb ->
     decrypt_of i e m mlen nsec c (len ct) ad (len adb) npub k M <> Bad err) /\
  (forall i a e M out inp l err, hash_host i e = true -> readable M inp l -> writable M out (hash_len a) ->
     null_rule (no_null (hash_demands i)) inp ->
     hash_of i a e out inp (len l) M <> Bad err) /\
  (forall i a e M out n inp l k kb err, key_host i a e = true -> is16 kb ->
     readable M k kb -> readable M inp l -> out_room (key_demands i a) M out n -> below (key_inmax a) (len l) ->
     n <= key_outmax a -> prf_of i a e out n inp (len l) k M <> Bad err) /\
  (forall i a e M sp h hb inp l k kb err, key_host i a e = true -> is16 kb -> len hb = key_outmax a ->
     readable M k kb -> readable M inp l -> readable M h hb -> free_cells M sp (key_outmax a) ->
     below (key_inmax a) (len l) -> verify_of i a e sp h inp (len l) k M <> Bad err).
Proof. exact C09_proof. Qed.
Print Assumptions C09_memory_safety.
Example C09_everything_else_inaccessible : demo_enc 0x1310 = RO x30 /\ demo_enc 0x1314 = NoAccess /\
  demo_enc 0x2023 = RW None /\ demo_enc 0x2024 = NoAccess /\ demo_enc 0x12ff = NoAccess.
Proof. vm_compute. auto. Qed.

(** ** C10 Only the outputs are written *)
Theorem C10_frame :
  (forall i e M c clen m ad nsec npub k mb adb nb kb, aead_host i e = true ->
     encrypt_pre (aead_demands i) M c clen m ad npub k mb adb nb kb ->
     exists t M', encrypt_of i e c clen m (len mb) ad (len adb) nsec npub k M = Done t M' 0%Z /\
       forall a, outside c (len mb + 16) a -> outside clen 8 a -> M' a = M a) /\
  (forall i e M m mlen nsec c ad npub k ct adb nb kb, aead_host i e = true ->
     decrypt_pre (aead_demands i) M m mlen c ad npub k ct adb nb kb ->
     exists t M' r, decrypt_of i e m mlen nsec c (len ct) ad (len adb) npub k M = Done t M' r /\
       forall a, outside m (len ct - 16) a -> outside mlen 8 a -> M' a = M a) /\
  (forall i a e M out inp l, hash_host i e = true -> readable M inp l -> writable M out (hash_len a) ->
     null_rule (no_null (hash_demands i)) inp ->
     exists t M', hash_of i a e out inp (len l) M = Done t M' 0%Z /\
       forall b, outside out (hash_len a) b -> M' b = M b) /\
  (forall i a e M out n inp l k kb, key_host i a e = true -> is16 kb ->
     readable M k kb -> readable M inp l -> out_room (key_demands i a) M out n -> below (key_inmax a) (len l) ->
     n <= key_outmax a ->
     exists t M', prf_of i a e out n inp (len l) k M = Done t M' 0%Z /\
       forall b, outside out n b -> M' b = M b) /\
  (forall i a e M sp h hb inp l k kb, key_host i a e = true -> is16 kb -> len hb = key_outmax a ->
     readable M k kb -> readable M inp l -> readable M h hb -> free_cells M sp (key_outmax a) ->
     below (key_inmax a) (len l) ->
     exists t M' r, verify_of i a e sp h inp (len l) k M = Done t M' r /\ forall b, M' b = M b).
Proof. exact C10_proof. Qed.
Print Assumptions C10_frame.

(** ** C11 Overlapping buffers: in place, and any output not starting
    inside the input *)
Theorem C11_inplace_encrypt : forall i e M buf clen ad nsec npub k mb adb nb kb,
  aead_host i e = true -> no_overlap (aead_demands i) = false ->
  is16 kb -> is16 nb -> readable M k kb -> readable M npub nb -> readable M ad adb ->
  readable M buf mb -> writable M buf (len mb + 16) -> writable M clen 8 ->
  disjoint clen 8 k 16 -> disjoint clen 8 npub 16 -> disjoint clen 8 ad (len adb) ->
  disjoint clen 8 buf (len mb) ->
  (no_null (aead_demands i) = true -> ad <> NULL) ->
  block_rule (blocks32 (aead_demands i)) ad (len adb) -> block_rule (blocks32 (aead_demands i)) buf (len mb) ->
  exists t M', encrypt_of i e buf clen buf (len mb) ad (len adb) nsec npub k M = Done t M' 0%Z /\
    readable M' buf (aead_encrypt kb nb adb mb).
Proof. exact C11_enc_proof. Qed.
Print Assumptions C11_inplace_encrypt.
Theorem C11_inplace_decrypt : forall i e M buf mlen ad nsec npub k ct adb nb kb,
  aead_host i e = true -> no_overlap (aead_demands i) = false -> 16 <= len ct ->
  is16 kb -> is16 nb -> readable M k kb -> readable M npub nb -> readable M ad adb ->
  readable M buf ct -> writable M buf (len ct - 16) -> writable M mlen 8 ->
  disjoint mlen 8 k 16 -> disjoint mlen 8 npub 16 -> disjoint mlen 8 ad (len adb) ->
  disjoint mlen 8 buf (len ct) ->
  (no_null (aead_demands i) = true -> ad <> NULL) ->
  block_rule (blocks32 (aead_demands i)) ad (len adb) -> block_rule (blocks32 (aead_demands i)) buf (len ct - 16) ->
  exists t M' r, decrypt_of i e buf mlen nsec buf (len ct) ad (len adb) npub k M = Done t M' r /\
    match aead_decrypt kb nb adb ct with
    | Some mb => r = 0%Z /\ readable M' buf mb
    | None => r = (-1)%Z
    end.
Proof. exact C11_dec_proof. Qed.
Print Assumptions C11_inplace_decrypt.
Example C11_hypotheses_met :
  encrypt_pre (Demands true false false) demo_inplace 0x1300 0x2100 0x1300 0x1200 0x1100 0x1000
    demo_msg demo_ad demo_nonce demo_key.
Proof. apply demo_inplace_pre. reflexivity. Qed.

(** ** C12 Zero-length inputs need no valid buffer *)
Theorem C12_null_buffers :
  (forall i e M c clen nsec npub k nb kb, aead_host i e = true -> no_null (aead_demands i) = false ->
     is16 kb -> is16 nb -> readable M k kb -> readable M npub nb -> writable M c 16 -> writable M clen 8 ->
     disjoint clen 8 k 16 -> disjoint clen 8 npub 16 ->
     exists t M', encrypt_of i e c clen NULL 0 NULL 0 nsec npub k M = Done t M' 0%Z /\
       readable M' c (aead_encrypt kb nb [] [])) /\
  (forall i e M mlen nsec c npub k tag nb kb, aead_host i e = true -> no_null (aead_demands i) = false ->
     is16 kb -> is16 nb -> is16 tag -> readable M k kb -> readable M npub nb -> readable M c tag ->
     writable M mlen 8 -> disjoint mlen 8 k 16 -> disjoint mlen 8 npub 16 -> disjoint mlen 8 c 16 ->
     exists t M' r, decrypt_of i e NULL mlen nsec c 16 NULL 0 npub k M = Done t M' r /\
       (r = 0%Z <-> tag = aead_encrypt kb nb [] [])) /\
  (forall i a e M out, hash_host i e = true -> no_null (hash_demands i) = false ->
     writable M out (hash_len a) ->
     exists t M', hash_of i a e out NULL 0 M = Done t M' 0%Z /\ readable M' out (hash_fun a [])) /\
  (forall i a e M out n k kb, key_host i a e = true -> is16 kb -> readable M k kb ->
     out_room (key_demands i a) M out n -> n <= key_outmax a ->
     exists t M', prf_of i a e out n NULL 0 k M = Done t M' 0%Z /\
       readable M' out (key_fun a kb [] (N.to_nat n))).
Proof. exact C12_proof. Qed.
Print Assumptions C12_null_buffers.
Example C12_some_implementation : exists i, no_null (aead_demands i) = false.
Proof. exists AEAD_ref. reflexivity. Qed.

(** ** C13, C14 Ascon-Hash256 and Ascon-XOF128 conformance *)
Theorem C13_hash256 : forall i e M out inp l,
  hash_host i e = true -> readable M inp l -> writable M out 32 ->
  null_rule (no_null (hash_demands i)) inp ->
  exists t M', hash_of i Hash256 e out inp (len l) M = Done t M' 0%Z /\
    readable M' out (hash256 l) /\ len (hash256 l) = 32.
Proof. exact C13_proof. Qed.
Print Assumptions C13_hash256.
Theorem C14_xof128 : forall i e M out inp l,
  hash_host i e = true -> readable M inp l -> writable M out 64 ->
  null_rule (no_null (hash_demands i)) inp ->
  exists t M', hash_of i Xof128 e out inp (len l) M = Done t M' 0%Z /\
    readable M' out (xof128 l 64) /\ len (xof128 l 64) = 64.
Proof. exact C14_proof. Qed.
Print Assumptions C14_xof128.
Example C13_hypotheses_met : readable demo_hash 0x1300 demo_msg /\ writable demo_hash 0x2000 64.
Proof. split; [apply demo_hash_in|apply demo_hash_out]. Qed.

(** ** C15 Ascon-CXOF128 conformance (the length field counts bits in 64
    bits, so a customization string has less than 2^61 bytes) *)
Theorem C15_cxof128 : forall M out n inp l cs cb,
  readable M inp l -> readable M cs cb -> writable M out n -> len cb < 2 ^ 61 ->
  exists t M', crypto_cxof out n inp (len l) cs (len cb) M = Done t M' 0%Z /\
    readable M' out (cxof128 l cb (N.to_nat n)) /\
    (forall b, outside out n b -> M' b = M b).
Proof. exact C15_proof. Qed.
Print Assumptions C15_cxof128.
Theorem C15_hash_is_empty_customization : forall M out inp l,
  readable M inp l -> writable M out 64 ->
  exists t M', crypto_hash_cxof128 out inp (len l) M = Done t M' 0%Z /\
    readable M' out (cxof128 l [] 64).
Proof. exact C15_hash_proof. Qed.
Print Assumptions C15_hash_is_empty_customization.
Example C15_hypotheses_met : readable demo_mac 0x1300 demo_msg /\ readable demo_mac 0x1000 demo_key /\
  writable demo_mac 0x2000 50 /\ len demo_key < 2 ^ 61.
Proof. split; [apply demo_mac_in|]. split; [apply demo_mac_k|]. split; [apply demo_mac_out|]; reflexivity || discriminate. Qed.

(** ** C16 Shorter outputs are prefixes of longer ones *)
Theorem C16_prf_prefix : forall i j a e e' M1 M2 o1 o2 n1 n2 in1 in2 l k1 k2 kb,
  key_host i a e = true -> key_host j a e' = true -> is16 kb -> below (key_inmax a) (len l) ->
  n1 <= n2 -> n2 <= key_outmax a ->
  readable M1 k1 kb -> readable M1 in1 l -> out_room (key_demands i a) M1 o1 n1 ->
  readable M2 k2 kb -> readable M2 in2 l -> out_room (key_demands j a) M2 o2 n2 ->
  exists t1 t2 M1' M2' out,
    prf_of i a e o1 n1 in1 (len l) k1 M1 = Done t1 M1' 0%Z /\
    prf_of j a e' o2 n2 in2 (len l) k2 M2 = Done t2 M2' 0%Z /\
    len out = n2 /\ readable M2' o2 out /\ readable M1' o1 (firstn (N.to_nat n1) out).
Proof. exact C16_prf_proof. Qed.
Print Assumptions C16_prf_prefix.
Theorem C16_cxof_prefix : forall M1 M2 o1 o2 n1 n2 in1 in2 l cs1 cs2 cb,
  len cb < 2 ^ 61 -> n1 <= n2 ->
  readable M1 cs1 cb -> readable M1 in1 l -> writable M1 o1 n1 ->
  readable M2 cs2 cb -> readable M2 in2 l -> writable M2 o2 n2 ->
  exists t1 t2 M1' M2' out,
    crypto_cxof o1 n1 in1 (len l) cs1 (len cb) M1 = Done t1 M1' 0%Z /\
    crypto_cxof o2 n2 in2 (len l) cs2 (len cb) M2 = Done t2 M2' 0%Z /\
    len out = n2 /\ readable M2' o2 out /\ readable M1' o1 (firstn (N.to_nat n1) out).
Proof. exact C16_cxof_proof. Qed.
Print Assumptions C16_cxof_prefix.
Theorem C16_xof_prefix : forall m n n', (n <= n')%nat -> xof128 m n = firstn n (xof128 m n').
Proof. exact xof_prefix. Qed.
Print Assumptions C16_xof_prefix.

(** ** C17, C18, C19 MAC, PRF, PRFshort conformance *)
Theorem C17_mac : forall i e M out inp l k kb,
  key_host i Mac e = true -> is16 kb -> readable M k kb -> readable M inp l -> writable M out 16 ->
  exists t M', auth_of i Mac e out inp (len l) k M = Done t M' 0%Z /\
    readable M' out (mac kb l 16) /\ length (mac kb l 16) = 16%nat.
Proof. exact C17_proof. Qed.
Print Assumptions C17_mac.
Theorem C18_prf : forall i e M out n inp l k kb,
  key_host i Prf e = true -> is16 kb -> readable M k kb -> readable M inp l ->
  out_room (key_demands i Prf) M out n -> n <= 64 ->
  exists t M', prf_of i Prf e out n inp (len l) k M = Done t M' 0%Z /\
    readable M' out (prf kb l (N.to_nat n)) /\ len (prf kb l (N.to_nat n)) = n.
Proof. exact C18_proof. Qed.
Print Assumptions C18_prf.
Theorem C18_auth_is_64_bytes : forall i e M out inp l k kb,
  key_host i Prf e = true -> is16 kb -> readable M k kb -> readable M inp l -> writable M out 64 ->
  exists t M', auth_of i Prf e out inp (len l) k M = Done t M' 0%Z /\ readable M' out (prf kb l 64).
Proof. exact C18_auth_proof. Qed.
Print Assumptions C18_auth_is_64_bytes.
Theorem C19_prf_short : forall i e M out n inp l k kb,
  key_host i PrfShort e = true -> is16 kb -> readable M k kb -> readable M inp l ->
  out_room (key_demands i PrfShort) M out n -> (length l <= 16)%nat -> n <= 16 ->
  exists t M', prf_of i PrfShort e out n inp (len l) k M = Done t M' 0%Z /\
    readable M' out (prf_short kb l (N.to_nat n)) /\ len (prf_short kb l (N.to_nat n)) = n.
Proof. exact C19_proof. Qed.
Print Assumptions C19_prf_short.

(** ** C20 Length limits are enforced without side effects: the trace has
    branches only (no memory access), the memory is unchanged, pointers
    are arbitrary *)
Theorem C20_limits :
  (forall i a e M out n inp inlen k, key_host i a e = true ->
     ~ below (key_inmax a) inlen \/ key_outmax a < n ->
     exists t, prf_of i a e out n inp inlen k M = Done t M (-1)%Z /\
       Forall (fun ev => exists b, ev = EBranch b) t) /\
  (forall i a e M sp h inp inlen k, key_host i a e = true -> ~ below (key_inmax a) inlen ->
     exists t, verify_of i a e sp h inp inlen k M = Done t M (-1)%Z /\
       Forall (fun ev => exists b, ev = EBranch b) t).
Proof. exact C20_proof. Qed.
Print Assumptions C20_limits.
Example C20_hypotheses_met : ~ below (key_inmax PrfShort) 17 /\ key_outmax Mac < 17.
Proof. split; [intros H; apply H; reflexivity|reflexivity]. Qed.

(** ** C21 Tag verification is exact (against crypto_auth of any
    implementation [j]) *)
Theorem C21_verify_exact : forall i j a e e' M sp h hb inp l k kb,
  key_host i a e = true -> key_host j a e' = true ->
  is16 kb -> len hb = key_outmax a ->
  readable M k kb -> readable M inp l -> readable M h hb -> free_cells M sp (key_outmax a) ->
  below (key_inmax a) (len l) ->
  exists t M' r, verify_of i a e sp h inp (len l) k M = Done t M' r /\
    (forall b, M' b = M b) /\ (r = 0 \/ r = -1)%Z /\
    forall M2 out2 inp2 k2, readable M2 k2 kb -> readable M2 inp2 l -> writable M2 out2 (key_outmax a) ->
    exists t2 M2', auth_of j a e' out2 inp2 (len l) k2 M2 = Done t2 M2' 0%Z /\
      (r = 0%Z <-> readable M2' out2 hb).
Proof. exact verify_facts. Qed.
Print Assumptions C21_verify_exact.

(** ** C22 All implementations agree *)
Theorem C22_encrypt_agree : forall i j e e' M1 M2 c1 c2 l1 l2 m1 m2 a1 a2 s1 s2 n1 n2 k1 k2 mb adb nb kb,
  aead_host i e = true -> aead_host j e' = true ->
  encrypt_pre (aead_demands i) M1 c1 l1 m1 a1 n1 k1 mb adb nb kb ->
  encrypt_pre (aead_demands j) M2 c2 l2 m2 a2 n2 k2 mb adb nb kb ->
  exists t1 t2 M1' M2' ct,
    encrypt_of i e c1 l1 m1 (len mb) a1 (len adb) s1 n1 k1 M1 = Done t1 M1' 0%Z /\
    encrypt_of j e' c2 l2 m2 (len mb) a2 (len adb) s2 n2 k2 M2 = Done t2 M2' 0%Z /\
    len ct = len mb + 16 /\ readable M1' c1 ct /\ readable M2' c2 ct.
Proof. exact C22_enc_proof. Qed.
Print Assumptions C22_encrypt_agree.
Theorem C22_decrypt_agree : forall i j e e' M1 M2 m1 m2 l1 l2 s1 s2 c1 c2 a1 a2 n1 n2 k1 k2 ct adb nb kb,
  aead_host i e = true -> aead_host j e' = true ->
  decrypt_pre (aead_demands i) M1 m1 l1 c1 a1 n1 k1 ct adb nb kb ->
  decrypt_pre (aead_demands j) M2 m2 l2 c2 a2 n2 k2 ct adb nb kb ->
  exists t1 t2 M1' M2' r mb,
    decrypt_of i e m1 l1 s1 c1 (len ct) a1 (len adb) n1 k1 M1 = Done t1 M1' r /\
    decrypt_of j e' m2 l2 s2 c2 (len ct) a2 (len adb) n2 k2 M2 = Done t2 M2' r /\
    len mb = len ct - 16 /\ readable M1' m1 mb /\ readable M2' m2 mb.
Proof. exact C22_dec_proof. Qed.
Print Assumptions C22_decrypt_agree.
Theorem C22_hash_agree : forall i j a e e' M1 M2 o1 o2 in1 in2 l,
  hash_host i e = true -> hash_host j e' = true ->
  readable M1 in1 l -> writable M1 o1 (hash_len a) -> null_rule (no_null (hash_demands i)) in1 ->
  readable M2 in2 l -> writable M2 o2 (hash_len a) -> null_rule (no_null (hash_demands j)) in2 ->
  exists t1 t2 M1' M2' d,
    hash_of i a e o1 in1 (len l) M1 = Done t1 M1' 0%Z /\ hash_of j a e' o2 in2 (len l) M2 = Done t2 M2' 0%Z /\
    len d = hash_len a /\ readable M1' o1 d /\ readable M2' o2 d.
Proof. exact C22_hash_proof. Qed.
Print Assumptions C22_hash_agree.
Theorem C22_prf_agree : forall i j a e e' M1 M2 o1 o2 n in1 in2 l k1 k2 kb,
  key_host i a e = true -> key_host j a e' = true -> is16 kb -> below (key_inmax a) (len l) -> n <= key_outmax a ->
  readable M1 k1 kb -> readable M1 in1 l -> out_room (key_demands i a) M1 o1 n ->
  readable M2 k2 kb -> readable M2 in2 l -> out_room (key_demands j a) M2 o2 n ->
  exists t1 t2 M1' M2' d,
    prf_of i a e o1 n in1 (len l) k1 M1 = Done t1 M1' 0%Z /\
    prf_of j a e' o2 n in2 (len l) k2 M2 = Done t2 M2' 0%Z /\
    len d = n /\ readable M1' o1 d /\ readable M2' o2 d.
Proof. exact C22_prf_proof. Qed.
Print Assumptions C22_prf_agree.

(** ** C24 The permutation is a bijection of the 40-byte states *)
Theorem C24_bijection : forall rnd,
  (forall S1 S2, length S1 = 40%nat -> length S2 = 40%nat -> p rnd S1 = p rnd S2 -> S1 = S2) /\
  (forall S, length S = 40%nat -> exists S', length S' = 40%nat /\ p rnd S' = S).
Proof. exact C24_proof. Qed.
Print Assumptions C24_bijection.

(** ** C28 Branches and addresses do not depend on secrets: two runs with
    the same pointers and lengths, from any two memories (so any keys,
    messages, tags), show the same branch outcomes and addresses.  (esp32
    rereads *mlen to index the tag, so there the plaintext must not be
    written over *mlen.) *)
Theorem C28_constant_time :
  (forall i e c clen m mlen ad adlen nsec npub k M1 M2 t1 t2 M1' M2' r1 r2,
     encrypt_of i e c clen m mlen ad adlen nsec npub k M1 = Done t1 M1' r1 ->
     encrypt_of i e c clen m mlen ad adlen nsec npub k M2 = Done t2 M2' r2 -> t1 = t2) /\
  (forall i e m mlen nsec c clen ad adlen npub k M1 M2 t1 t2 M1' M2' r1 r2,
     (no_overlap (aead_demands i) = true -> disjoint mlen 8 m (clen - 16)) ->
     decrypt_of i e m mlen nsec c clen ad adlen npub k M1 = Done t1 M1' r1 ->
     decrypt_of i e m mlen nsec c clen ad adlen npub k M2 = Done t2 M2' r2 -> t1 = t2) /\
  (forall i a e out inp n M1 M2 t1 t2 M1' M2' r1 r2,
     hash_of i a e out inp n M1 = Done t1 M1' r1 -> hash_of i a e out inp n M2 = Done t2 M2' r2 -> t1 = t2) /\
  (forall i a e out n inp inlen k M1 M2 t1 t2 M1' M2' r1 r2,
     prf_of i a e out n inp inlen k M1 = Done t1 M1' r1 ->
     prf_of i a e out n inp inlen k M2 = Done t2 M2' r2 -> t1 = t2) /\
  (forall i a e sp h inp inlen k M1 M2 t1 t2 M1' M2' r1 r2,
     verify_of i a e sp h inp inlen k M1 = Done t1 M1' r1 ->
     verify_of i a e sp h inp inlen k M2 = Done t2 M2' r2 -> t1 = t2).
Proof. exact C28_proof. Qed.
Print Assumptions C28_constant_time.
(** The two decryptions of [C02_hypotheses_met] (accepted and rejected)
    are such a pair: same pointers and lengths, different results. *)

(** ** C30 Padding is injective; associated data is separated from the
    message: the steps applied to the initial state determine both *)
Theorem C30_padding_injective : forall r m1 m2, (0 < r)%nat ->
  chunks r (pad r m1) = chunks r (pad r m2) -> m1 = m2.
Proof. exact padded_blocks_inj. Qed.
Print Assumptions C30_padding_injective.
Theorem C30_ad_message_separated : forall ad1 m1 ad2 m2,
  encrypt_steps ad1 m1 = encrypt_steps ad2 m2 -> ad1 = ad2 /\ m1 = m2.
Proof. exact encrypt_steps_inj. Qed.
Print Assumptions C30_ad_message_separated.
Theorem C30_steps_determine_tag : forall k n ad m,
  skipn (length m) (aead_encrypt k n ad m) =
  aead_tag k (fold_left do_step (encrypt_steps ad m) (aead_init k n)).
Proof. exact encrypt_by_steps. Qed.
Print Assumptions C30_steps_determine_tag.
Example C30_example : encrypt_steps [x61] [] <> encrypt_steps [] [x61].
Proof. intros H. apply encrypt_steps_inj in H. destruct H; discriminate. Qed.

(** ** C31 Algorithms are domain separated: their states after the first
    permutation differ, whatever the 32 remaining bytes (key, nonce, zeros) *)
Theorem C31_domain_separation : forall a b r1 r2, valid_alg a -> valid_alg b -> a <> b ->
  length r1 = 32%nat -> length r2 = 32%nat -> p 12 (iv_of a ++ r1) <> p 12 (iv_of b ++ r2).
Proof. exact init_states_distinct. Qed.
Print Assumptions C31_domain_separation.
Example C31_hypotheses_met : valid_alg (A_prfs 3) /\ valid_alg (A_prfs 4) /\ A_prfs 3 <> A_prfs 4 /\
  length (demo_key ++ demo_nonce) = 32%nat.
Proof. cbn. repeat split; try lia. discriminate. Qed.

(** ** C32 Calls are pure functions of their inputs: same input bytes,
    any addresses, any other memory contents (so any earlier calls), any
    previous contents of the output buffers: same output bytes *)
Theorem C32_pure : 
  (forall i e M1 M2 c1 c2 l1 l2 m1 m2 a1 a2 s1 s2 n1 n2 k1 k2 mb adb nb kb, aead_host i e = true ->
     encrypt_pre (aead_demands i) M1 c1 l1 m1 a1 n1 k1 mb adb nb kb ->
     encrypt_pre (aead_demands i) M2 c2 l2 m2 a2 n2 k2 mb adb nb kb ->
     exists t1 t2 M1' M2' ct,
       encrypt_of i e c1 l1 m1 (len mb) a1 (len adb) s1 n1 k1 M1 = Done t1 M1' 0%Z /\
       encrypt_of i e c2 l2 m2 (len mb) a2 (len adb) s2 n2 k2 M2 = Done t2 M2' 0%Z /\
       len ct = len mb + 16 /\ readable M1' c1 ct /\ readable M2' c2 ct) /\
  (forall i e M1 M2 m1 m2 l1 l2 s1 s2 c1 c2 a1 a2 n1 n2 k1 k2 ct adb nb kb, aead_host i e = true ->
     decrypt_pre (aead_demands i) M1 m1 l1 c1 a1 n1 k1 ct adb nb kb ->
     decrypt_pre (aead_demands i) M2 m2 l2 c2 a2 n2 k2 ct adb nb kb ->
     exists t1 t2 M1' M2' r mb,
       decrypt_of i e m1 l1 s1 c1 (len ct) a1 (len adb) n1 k1 M1 = Done t1 M1' r /\
       decrypt_of i e m2 l2 s2 c2 (len ct) a2 (len adb) n2 k2 M2 = Done t2 M2' r /\
       len mb = len ct - 16 /\ readable M1' m1 mb /\ readable M2' m2 mb) /\
  (forall i a e M1 M2 o1 o2 in1 in2 l, hash_host i e = true ->
     readable M1 in1 l -> writable M1 o1 (hash_len a) -> null_rule (no_null (hash_demands i)) in1 ->
     readable M2 in2 l -> writable M2 o2 (hash_len a) -> null_rule (no_null (hash_demands i)) in2 ->
     exists t1 t2 M1' M2' d,
       hash_of i a e o1 in1 (len l) M1 = Done t1 M1' 0%Z /\ hash_of i a e o2 in2 (len l) M2 = Done t2 M2' 0%Z /\
       len d = hash_len a /\ readable M1' o1 d /\ readable M2' o2 d).
Proof. exact C32_proof. Qed.
Print Assumptions C32_pure.

(** ** C33 Calls terminate, for all arguments whatsoever (valid buffers or
    not): the loops never run longer than their length argument allows *)
Theorem C33_termination :
  (forall i e c clen m mlen ad adlen nsec npub k M, mlen < aead_maxlen i -> adlen < aead_maxlen i ->
     encrypt_of i e c clen m mlen ad adlen nsec npub k M <> Bad ErrFuel) /\
  (forall i e m mlen nsec c clen ad adlen npub k M, clen < aead_maxlen i -> adlen < aead_maxlen i ->
     decrypt_of i e m mlen nsec c clen ad adlen npub k M <> Bad ErrFuel) /\
  (forall i a e out inp n M, n < 2 ^ 64 -> hash_of i a e out inp n M <> Bad ErrFuel) /\
  (forall i a e out n inp inlen k M, n < 2 ^ 64 -> inlen < 2 ^ 64 ->
     prf_of i a e out n inp inlen k M <> Bad ErrFuel) /\
  (forall i a e sp h inp inlen k M, inlen < 2 ^ 64 ->
     verify_of i a e sp h inp inlen k M <> Bad ErrFuel).
Proof. exact C33_proof. Qed.
Print Assumptions C33_termination.

(** ** C34 Unverified plaintext is released: every implementation leaves
    the full candidate plaintext in m. *)
Theorem C34_no_release_refuted : forall i e, aead_host i e = true ->
  exists M m mlen nsec c ad npub k ct adb nb kb t M' mb,
    decrypt_pre (aead_demands i) M m mlen c ad npub k ct adb nb kb /\
    aead_decrypt kb nb adb ct = None /\
    decrypt_of i e m mlen nsec c (len ct) ad (len adb) npub k M = Done t M' (-1)%Z /\
    readable M' m mb /\ mb <> [] /\
    (* [mb] is the plaintext whose encryption agrees with [ct] but for the last byte *)
    firstn 35 ct = firstn 35 (aead_encrypt kb nb adb mb).
Proof. exact C34_proof. Qed.
Print Assumptions C34_no_release_refuted.
Theorem C34_always_released : forall i e M m mlen nsec c ad npub k ct adb nb kb t M',
  aead_host i e = true ->
  decrypt_pre (aead_demands i) M m mlen c ad npub k ct adb nb kb ->
  decrypt_of i e m mlen nsec c (len ct) ad (len adb) npub k M = Done t M' (-1)%Z ->
  readable M' m (fst (aead_open kb nb adb (ct_body ct))).
Proof. exact C34_always_proof. Qed.
Print Assumptions C34_always_released.

(** ** C35 Streaming: ciphertexts of plaintexts with a common prefix share
    the ciphertext prefix (any byte length), and the body has the length
    of the plaintext *)
Theorem C35_stream_prefix : forall i j e e' M1 M2 c1 c2 l1 l2 m1 m2 a1 a2 s1 s2 n1 n2 k1 k2 pre x y adb nb kb,
  aead_host i e = true -> aead_host j e' = true ->
  encrypt_pre (aead_demands i) M1 c1 l1 m1 a1 n1 k1 (pre ++ x) adb nb kb ->
  encrypt_pre (aead_demands j) M2 c2 l2 m2 a2 n2 k2 (pre ++ y) adb nb kb ->
  exists t1 t2 M1' M2' ct,
    encrypt_of i e c1 l1 m1 (len (pre ++ x)) a1 (len adb) s1 n1 k1 M1 = Done t1 M1' 0%Z /\
    encrypt_of j e' c2 l2 m2 (len (pre ++ y)) a2 (len adb) s2 n2 k2 M2 = Done t2 M2' 0%Z /\
    len ct = len pre /\ readable M1' c1 ct /\ readable M2' c2 ct.
Proof. exact C35_proof. Qed.
Print Assumptions C35_stream_prefix.
