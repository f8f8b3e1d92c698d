(** * PropFacts.v -- proofs of the statements in [Properties.v]. *)
From Coq Require Import Bool Arith NArith ZArith List Lia Init.Byte Strings.Byte ZifyBool ZifyNat ZifyN.
From Verif Require Import Words WordFacts Spec SpecFacts CMem Contract CMemFacts ApiSpec AeadFacts ApiFacts PermBij SepFacts Ct
  ModelRef RefApi Impls ImplsOk Demo.
Import ListNotations.
Local Open Scope N_scope.

Lemma C01_proof i e M c clen m ad nsec npub k mb adb nb kb :
  aead_host i e = true ->
  encrypt_pre (aead_demands i) M c clen m ad npub k mb adb nb kb ->
  exists t M',
    encrypt_of i e c clen m (len mb) ad (len adb) nsec npub k M = Done t M' 0%Z /\
    readable M' c (aead_encrypt kb nb adb mb) /\
    length (aead_encrypt kb nb adb mb) = (length mb + 16)%nat.
Proof.
  intros H P. destruct (enc_facts i e M c clen m ad nsec npub k mb adb nb kb H P) as (t & M' & R & Rc & _).
  exists t, M'. split; [exact R|]. split; [exact Rc|apply length_aead_encrypt].
Qed.

Lemma demo_bad_split : exists body tag tag', demo_ct = body ++ tag /\ demo_bad = body ++ tag' /\
  is16 tag /\ is16 tag' /\ tag' <> tag.
Proof.
  exists (firstn 20 demo_ct), (skipn 20 demo_ct), (skipn 20 demo_bad).
  split; [symmetry; apply firstn_skipn|]. split.
  - vm_compute. reflexivity.
  - split; [vm_compute; reflexivity|]. split; [vm_compute; reflexivity|]. vm_compute. discriminate.
Qed.
Lemma C04_met i e : aead_host i e = true -> exists body tag tag' t1 M1',
  tag' <> tag /\ is16 tag /\ is16 tag' /\
  decrypt_pre (aead_demands i) (dec_mem (body ++ tag)) 0x2000 0x2100 0x1300 0x1200 0x1100 0x1000
    (body ++ tag) demo_ad demo_nonce demo_key /\
  decrypt_pre (aead_demands i) (dec_mem (body ++ tag')) 0x2000 0x2100 0x1300 0x1200 0x1100 0x1000
    (body ++ tag') demo_ad demo_nonce demo_key /\
  decrypt_of i e 0x2000 0x2100 0 0x1300 (len (body ++ tag)) 0x1200 (len demo_ad) 0x1100 0x1000 (dec_mem (body ++ tag))
    = Done t1 M1' 0%Z.
Proof.
  intros H. destruct demo_bad_split as (b & t & t' & E1 & E2 & T & T' & N).
  assert (P : decrypt_pre (aead_demands i) (dec_mem demo_ct) 0x2000 0x2100 0x1300 0x1200 0x1100 0x1000
    demo_ct demo_ad demo_nonce demo_key) by (destruct (aead_demands i); apply demo_dec_pre).
  assert (P' : decrypt_pre (aead_demands i) (dec_mem demo_bad) 0x2000 0x2100 0x1300 0x1200 0x1100 0x1000
    demo_bad demo_ad demo_nonce demo_key) by (destruct (aead_demands i); apply demo_bad_pre).
  destruct (dec_spec i e _ _ _ 0 _ _ _ _ _ _ _ _ H P) as (u & M' & r & R & E).
  assert (D : aead_decrypt demo_key demo_nonce demo_ad demo_ct = Some demo_msg) by (rewrite demo_ct_ok; apply aead_roundtrip).
  rewrite D in E. destruct E as [-> _].
  exists b, t, t', u, M'. rewrite <- E1, <- E2. auto 10.
Qed.

Lemma C07_proof :
  (forall i e M c clen m ad nsec npub k mb adb nb kb, aead_host i e = true ->
     encrypt_pre (aead_demands i) M c clen m ad npub k mb adb nb kb ->
     exists t M', encrypt_of i e c clen m (len mb) ad (len adb) nsec npub k M = Done t M' 0%Z) /\
  (forall i e M m mlen nsec c ad npub k ct adb nb kb, aead_host i e = true ->
     decrypt_pre (aead_demands i) M m mlen c ad npub k ct adb nb kb ->
     exists t M' r, decrypt_of i e m mlen nsec c (len ct) ad (len adb) npub k M = Done t M' r /\
       (r = 0 \/ r = -1)%Z) /\
  (forall i a e M out inp l, hash_host i e = true -> readable M inp l -> writable M out (hash_len a) ->
     null_rule (no_null (hash_demands i)) inp ->
     exists t M', hash_of i a e out inp (len l) M = Done t M' 0%Z) /\
  (forall i a e M out inp l k kb, key_host i a e = true -> is16 kb ->
     readable M k kb -> readable M inp l -> writable M out (key_outmax a) -> below (key_inmax a) (len l) ->
     exists t M', auth_of i a e out inp (len l) k M = Done t M' 0%Z) /\
  (forall i a e M sp h hb inp l k kb, key_host i a e = true -> is16 kb -> len hb = key_outmax a ->
     readable M k kb -> readable M inp l -> readable M h hb -> free_cells M sp (key_outmax a) ->
     below (key_inmax a) (len l) ->
     exists t M' r, verify_of i a e sp h inp (len l) k M = Done t M' r /\ (r = 0 \/ r = -1)%Z).
Proof.
  split; [|split; [|split; [|split]]].
  - intros i e M c clen m ad nsec npub k mb adb nb kb H P.
    destruct (enc_facts i e M c clen m ad nsec npub k mb adb nb kb H P) as (t & M' & R & _). eauto.
  - intros i e M m mlen nsec c ad npub k ct adb nb kb H P.
    destruct (dec_spec i e M m mlen nsec c ad npub k ct adb nb kb H P) as (t & M' & r & R & E).
    exists t, M', r. split; [exact R|]. destruct (aead_decrypt kb nb adb ct); tauto.
  - intros i a e M out inp l H R W Nn. destruct (hash_facts i a e M out inp l H R W Nn) as (t & M' & Hr & _). eauto.
  - intros i a e M out inp l k kb H Hk Rk Ri W Hb.
    destruct (auth_facts i a e M out inp l k kb H Hk Rk Ri W Hb) as (t & M' & Hr & _). eauto.
  - intros i a e M sp h hb inp l k kb H Hk Lh Rk Ri Rh F Hb.
    destruct (verify_facts i i a e e M sp h hb inp l k kb H H Hk Lh Rk Ri Rh F Hb) as (t & M' & r & Hr & _ & Hv & _).
    eauto.
Qed.
Lemma C07_met a :
  readable demo_mac 0x1000 demo_key /\ is16 demo_key /\ readable demo_mac 0x1300 demo_short /\
  below (key_inmax a) (len demo_short) /\ writable demo_mac 0x2000 (key_outmax a) /\
  readable demo_mac 0x1200 (firstn (N.to_nat (key_outmax a)) demo_tag) /\
  free_cells demo_mac 0x4000 (key_outmax a).
Proof.
  split; [apply demo_mac_k|]. split; [apply demo_key_len|]. split; [apply demo_mac_short|].
  split; [destruct a; vm_compute; auto; discriminate|].
  split; [apply demo_mac_out; destruct a; discriminate|].
  split; [apply demo_mac_h; destruct a; vm_compute; lia|apply demo_mac_free; destruct a; discriminate].
Qed.

Lemma C08_proof :
  (forall i e M c clen m ad nsec npub k mb adb nb kb, aead_host i e = true ->
     encrypt_pre (aead_demands i) M c clen m ad npub k mb adb nb kb ->
     disjoint clen 8 c (len mb + 16) ->
     exists t M', encrypt_of i e c clen m (len mb) ad (len adb) nsec npub k M = Done t M' 0%Z /\
       runs (load_ull e clen) M' M' (len mb + 16)) /\
  (forall i e M m mlen nsec c ad npub k ct adb nb kb, aead_host i e = true ->
     decrypt_pre (aead_demands i) M m mlen c ad npub k ct adb nb kb ->
     disjoint mlen 8 m (len ct - 16) ->
     exists t M' r, decrypt_of i e m mlen nsec c (len ct) ad (len adb) npub k M = Done t M' r /\
       runs (load_ull e mlen) M' M' (len ct - 16)).
Proof.
  split.
  - intros i e M c clen m ad nsec npub k mb adb nb kb H P D.
    destruct (enc_facts i e M c clen m ad nsec npub k mb adb nb kb H P) as (t & M' & R & _ & _ & L).
    exists t, M'. split; [exact R|]. apply L, D.
  - intros i e M m mlen nsec c ad npub k ct adb nb kb H P D.
    destruct (dec_facts i e M m mlen nsec c ad npub k ct adb nb kb H P)
      as (t & M' & r & mb & R & _ & _ & _ & _ & _ & _ & L).
    exists t, M', r. split; [exact R|]. apply L, D.
Qed.

Lemma done_not_bad {A} (o : outcome A) t M v err : o = Done t M v -> o <> Bad err.
Proof. intros ->. discriminate. Qed.

Lemma C09_proof :
  (forall i e M c clen m ad nsec npub k mb adb nb kb err, aead_host i e = true ->
     encrypt_pre (aead_demands i) M c clen m ad npub k mb adb nb kb ->
     encrypt_of i e c clen m (len mb) ad (len adb) nsec npub k M <> Bad err) /\
  (forall i e M m mlen nsec c ad npub k ct adb nb kb err, aead_host i e = true ->
     decrypt_pre (aead_demands i) M m mlen c ad npub k ct adb nb kb ->
     decrypt_of i e m mlen nsec c (len ct) ad (len adb) npub k M <> Bad err) /\
  (forall i a e M out inp l err, hash_host i e = true -> readable M inp l -> writable M out (hash_len a) ->
     null_rule (no_null (hash_demands i)) inp ->
     hash_of i a e out inp (len l) M <> Bad err) /\
  (forall i a e M out n inp l k kb err, key_host i a e = true -> is16 kb ->
     readable M k kb -> readable M inp l -> out_room (key_demands i a) M out n -> below (key_inmax a) (len l) ->
     n <= key_outmax a -> prf_of i a e out n inp (len l) k M <> Bad err) /\
  (forall i a e M sp h hb inp l k kb err, key_host i a e = true -> is16 kb -> len hb = key_outmax a ->
     readable M k kb -> readable M inp l -> readable M h hb -> free_cells M sp (key_outmax a) ->
     below (key_inmax a) (len l) -> verify_of i a e sp h inp (len l) k M <> Bad err).
Proof.
  split; [|split; [|split; [|split]]].
  - intros i e M c clen m ad nsec npub k mb adb nb kb err H P.
    destruct (enc_facts i e M c clen m ad nsec npub k mb adb nb kb H P) as (t & M' & R & _).
    apply (done_not_bad _ _ _ _ _ R).
  - intros i e M m mlen nsec c ad npub k ct adb nb kb err H P.
    destruct (dec_spec i e M m mlen nsec c ad npub k ct adb nb kb H P) as (t & M' & r & R & _).
    apply (done_not_bad _ _ _ _ _ R).
  - intros i a e M out inp l err H R W Nn. destruct (hash_facts i a e M out inp l H R W Nn) as (t & M' & Hr & _).
    apply (done_not_bad _ _ _ _ _ Hr).
  - intros i a e M out n inp l k kb err H Hk Rk Ri W Hb Hn.
    destruct (prf_facts i a e M out n inp l k kb H Hk Rk Ri W Hb Hn) as (t & M' & Hr & _).
    apply (done_not_bad _ _ _ _ _ Hr).
  - intros i a e M sp h hb inp l k kb err H Hk Lh Rk Ri Rh F Hb.
    destruct (verify_facts i i a e e M sp h hb inp l k kb H H Hk Lh Rk Ri Rh F Hb) as (t & M' & r & Hr & _).
    apply (done_not_bad _ _ _ _ _ Hr).
Qed.

Lemma C10_proof :
  (forall i e M c clen m ad nsec npub k mb adb nb kb, aead_host i e = true ->
     encrypt_pre (aead_demands i) M c clen m ad npub k mb adb nb kb ->
     exists t M', encrypt_of i e c clen m (len mb) ad (len adb) nsec npub k M = Done t M' 0%Z /\
       forall a, outside c (len mb + 16) a -> outside clen 8 a -> M' a = M a) /\
  (forall i e M m mlen nsec c ad npub k ct adb nb kb, aead_host i e = true ->
     decrypt_pre (aead_demands i) M m mlen c ad npub k ct adb nb kb ->
     exists t M' r, decrypt_of i e m mlen nsec c (len ct) ad (len adb) npub k M = Done t M' r /\
       forall a, outside m (len ct - 16) a -> outside mlen 8 a -> M' a = M a) /\
  (forall i a e M out inp l, hash_host i e = true -> readable M inp l -> writable M out (hash_len a) ->
     null_rule (no_null (hash_demands i)) inp ->
     exists t M', hash_of i a e out inp (len l) M = Done t M' 0%Z /\
       forall b, outside out (hash_len a) b -> M' b = M b) /\
  (forall i a e M out n inp l k kb, key_host i a e = true -> is16 kb ->
     readable M k kb -> readable M inp l -> out_room (key_demands i a) M out n -> below (key_inmax a) (len l) ->
     n <= key_outmax a ->
     exists t M', prf_of i a e out n inp (len l) k M = Done t M' 0%Z /\
       forall b, outside out n b -> M' b = M b) /\
  (forall i a e M sp h hb inp l k kb, key_host i a e = true -> is16 kb -> len hb = key_outmax a ->
     readable M k kb -> readable M inp l -> readable M h hb -> free_cells M sp (key_outmax a) ->
     below (key_inmax a) (len l) ->
     exists t M' r, verify_of i a e sp h inp (len l) k M = Done t M' r /\ forall b, M' b = M b).
Proof.
  split; [|split; [|split; [|split]]].
  - intros i e M c clen m ad nsec npub k mb adb nb kb H P.
    destruct (enc_facts i e M c clen m ad nsec npub k mb adb nb kb H P) as (t & M' & R & _ & F & _). eauto.
  - intros i e M m mlen nsec c ad npub k ct adb nb kb H P.
    destruct (dec_facts i e M m mlen nsec c ad npub k ct adb nb kb H P)
      as (t & M' & r & mb & R & _ & _ & _ & _ & _ & F & _). eauto.
  - intros i a e M out inp l H R W Nn.
    destruct (hash_facts i a e M out inp l H R W Nn) as (t & M' & Hr & _ & _ & F). eauto.
  - intros i a e M out n inp l k kb H Hk Rk Ri W Hb Hn.
    destruct (prf_facts i a e M out n inp l k kb H Hk Rk Ri W Hb Hn) as (t & M' & Hr & _ & _ & F). eauto.
  - intros i a e M sp h hb inp l k kb H Hk Lh Rk Ri Rh F Hb.
    destruct (verify_facts i i a e e M sp h hb inp l k kb H H Hk Lh Rk Ri Rh F Hb) as (t & M' & r & Hr & G & _). eauto.
Qed.

Lemma C11_enc_proof i e M buf clen ad nsec npub k mb adb nb kb :
  aead_host i e = true -> no_overlap (aead_demands i) = false ->
  is16 kb -> is16 nb -> readable M k kb -> readable M npub nb -> readable M ad adb ->
  readable M buf mb -> writable M buf (len mb + 16) -> writable M clen 8 ->
  disjoint clen 8 k 16 -> disjoint clen 8 npub 16 -> disjoint clen 8 ad (len adb) ->
  disjoint clen 8 buf (len mb) ->
  (no_null (aead_demands i) = true -> ad <> NULL) ->
  block_rule (blocks32 (aead_demands i)) ad (len adb) -> block_rule (blocks32 (aead_demands i)) buf (len mb) ->
  exists t M', encrypt_of i e buf clen buf (len mb) ad (len adb) nsec npub k M = Done t M' 0%Z /\
    readable M' buf (aead_encrypt kb nb adb mb).
Proof.
  intros H Hno Hk Hn Rk Rn Ra Rm W Wc Dk Dn Da Dm Nad Bad Bb.
  destruct (enc_facts i e M buf clen buf ad nsec npub k mb adb nb kb H) as (t & M' & R & Rc & _); eauto.
  constructor; auto.
  - rewrite Hno. split; [left; lia|discriminate].
  - intros _. apply W. lia.
Qed.
Lemma C11_dec_proof i e M buf mlen ad nsec npub k ct adb nb kb :
  aead_host i e = true -> no_overlap (aead_demands i) = false -> 16 <= len ct ->
  is16 kb -> is16 nb -> readable M k kb -> readable M npub nb -> readable M ad adb ->
  readable M buf ct -> writable M buf (len ct - 16) -> writable M mlen 8 ->
  disjoint mlen 8 k 16 -> disjoint mlen 8 npub 16 -> disjoint mlen 8 ad (len adb) ->
  disjoint mlen 8 buf (len ct) ->
  (no_null (aead_demands i) = true -> ad <> NULL) ->
  block_rule (blocks32 (aead_demands i)) ad (len adb) -> block_rule (blocks32 (aead_demands i)) buf (len ct - 16) ->
  exists t M' r, decrypt_of i e buf mlen nsec buf (len ct) ad (len adb) npub k M = Done t M' r /\
    match aead_decrypt kb nb adb ct with
    | Some mb => r = 0%Z /\ readable M' buf mb
    | None => r = (-1)%Z
    end.
Proof.
  intros H Hno Hl Hk Hn Rk Rn Ra Rm W Wc Dk Dn Da Dm Nad Bad Bb.
  apply dec_spec; [exact H|]. constructor; auto.
  - rewrite Hno. split; [left; lia|discriminate].
  - intros _. apply Rm. intros ->. revert Hl. cbv. congruence.
  - rewrite Hno. discriminate.
Qed.

Lemma readable_null M : readable M NULL [].
Proof. apply readable_nil. reflexivity. Qed.
Lemma writable_null M : writable M NULL 0.
Proof. split; [reflexivity|]. split; [congruence|]. unfold NULL. intros; lia. Qed.

Lemma block_rule_nil b p : block_rule b p 0.
Proof. intros _. split; [reflexivity|lia]. Qed.

Lemma C12_proof :
  (forall i e M c clen nsec npub k nb kb, aead_host i e = true -> no_null (aead_demands i) = false ->
     is16 kb -> is16 nb -> readable M k kb -> readable M npub nb -> writable M c 16 -> writable M clen 8 ->
     disjoint clen 8 k 16 -> disjoint clen 8 npub 16 ->
     exists t M', encrypt_of i e c clen NULL 0 NULL 0 nsec npub k M = Done t M' 0%Z /\
       readable M' c (aead_encrypt kb nb [] [])) /\
  (forall i e M mlen nsec c npub k tag nb kb, aead_host i e = true -> no_null (aead_demands i) = false ->
     is16 kb -> is16 nb -> is16 tag -> readable M k kb -> readable M npub nb -> readable M c tag ->
     writable M mlen 8 -> disjoint mlen 8 k 16 -> disjoint mlen 8 npub 16 -> disjoint mlen 8 c 16 ->
     exists t M' r, decrypt_of i e NULL mlen nsec c 16 NULL 0 npub k M = Done t M' r /\
       (r = 0%Z <-> tag = aead_encrypt kb nb [] [])) /\
  (forall i a e M out, hash_host i e = true -> no_null (hash_demands i) = false ->
     writable M out (hash_len a) ->
     exists t M', hash_of i a e out NULL 0 M = Done t M' 0%Z /\ readable M' out (hash_fun a [])) /\
  (forall i a e M out n k kb, key_host i a e = true -> is16 kb -> readable M k kb ->
     out_room (key_demands i a) M out n -> n <= key_outmax a ->
     exists t M', prf_of i a e out n NULL 0 k M = Done t M' 0%Z /\
       readable M' out (key_fun a kb [] (N.to_nat n))).
Proof.
  split; [|split; [|split]].
  - intros i e M c clen nsec npub k nb kb H Hn Hk Hn' Rk Rn W Wc Dk Dn.
    destruct (enc_facts i e M c clen NULL NULL nsec npub k [] [] nb kb H) as (t & M' & R & Rc & _).
    + constructor; auto using readable_null, block_rule_nil; try (right; left; reflexivity).
      * split; [right; right; reflexivity|left; reflexivity].
      * rewrite Hn. intros X; discriminate X.
      * rewrite Hn. intros X; discriminate X.
    + eauto.
  - intros i e M mlen nsec c npub k tag nb kb H Hn Hk Hn' Ht Rk Rn Rc W Dk Dn Dc.
    assert (L : len tag = 16) by (apply len_nat in Ht; exact Ht).
    destruct (dec_spec i e M NULL mlen nsec c NULL npub k tag [] nb kb H) as (t & M' & r & R & E).
    + constructor; auto using readable_null; rewrite ?L; try lia; auto using writable_null, block_rule_nil.
      * right; left; reflexivity.
      * split; [left; unfold NULL; lia|left; reflexivity].
      * rewrite Hn. intros X; discriminate X.
      * rewrite Hn. intros X; discriminate X.
      * intros _. right; left. reflexivity.
    + rewrite L in R. exists t, M', r. split; [exact R|].
      destruct (aead_decrypt kb nb [] tag) as [m0|] eqn:D.
      * destruct E as [-> _]. apply aead_decrypt_only_encryptions in D.
        assert (m0 = []).
        { apply (f_equal (@length _)) in D. rewrite length_aead_encrypt in D. unfold is16 in Ht.
          destruct m0; [reflexivity|cbn in D; lia]. }
        subst m0. tauto.
      * subst r. split; [discriminate|]. intros ->. rewrite aead_roundtrip in D. discriminate.
  - intros i a e M out H Hn W.
    destruct (hash_facts i a e M out NULL [] H) as (t & M' & R & Rc & _); auto using readable_null.
    + rewrite Hn. intros X; discriminate X.
    + eauto.
  - intros i a e M out n k kb H Hk Rk W Hn.
    destruct (prf_facts i a e M out n NULL [] k kb H) as (t & M' & R & Rc & _); auto using readable_null.
    + destruct a; vm_compute; auto; discriminate.
    + eauto.
Qed.

Lemma C13_proof i e M out inp l :
  hash_host i e = true -> readable M inp l -> writable M out 32 ->
  null_rule (no_null (hash_demands i)) inp ->
  exists t M', hash_of i Hash256 e out inp (len l) M = Done t M' 0%Z /\
    readable M' out (hash256 l) /\ len (hash256 l) = 32.
Proof.
  intros H R W Nn. destruct (hash_facts i Hash256 e M out inp l H R W Nn) as (t & M' & Hr & Ro & L & _). eauto.
Qed.
Lemma C14_proof i e M out inp l :
  hash_host i e = true -> readable M inp l -> writable M out 64 ->
  null_rule (no_null (hash_demands i)) inp ->
  exists t M', hash_of i Xof128 e out inp (len l) M = Done t M' 0%Z /\
    readable M' out (xof128 l 64) /\ len (xof128 l 64) = 64.
Proof.
  intros H R W Nn. destruct (hash_facts i Xof128 e M out inp l H R W Nn) as (t & M' & Hr & Ro & L & _). eauto.
Qed.

Lemma len_cxof l cb n : len (cxof128 l cb (N.to_nat n)) = n.
Proof.
  unfold len, cxof128, hash_sponge. rewrite length_squeeze; [lia|lia| |lia].
  rewrite length_absorb; [lia|]. apply length_absorb, length_hash_init.
Qed.
Lemma C15_proof M out n inp l cs cb :
  readable M inp l -> readable M cs cb -> writable M out n -> len cb < 2 ^ 61 ->
  exists t M', crypto_cxof out n inp (len l) cs (len cb) M = Done t M' 0%Z /\
    readable M' out (cxof128 l cb (N.to_nat n)) /\
    (forall b, outside out n b -> M' b = M b).
Proof.
  intros R Rc W H. destruct (ref_cxof_conforms M out n inp l cs cb R Rc W H) as (t & M' & Hr & E).
  exists t, M'. split; [exact Hr|]. pose proof (len_cxof l cb n) as L. split.
  - eapply readable_ext; [exact E|]. destruct W as (Wb & Wn & _). apply readable_write_self; [lia|].
    intros Hne. apply Wn. intros ->. apply Hne, len_0, L.
  - intros b Hb. rewrite E. apply write_outside. rewrite L. exact Hb.
Qed.
Lemma C15_hash_proof M out inp l :
  readable M inp l -> writable M out 64 ->
  exists t M', crypto_hash_cxof128 out inp (len l) M = Done t M' 0%Z /\
    readable M' out (cxof128 l [] 64).
Proof.
  intros R W. destruct (C15_proof M out 64 inp l NULL [] R (readable_null M) W) as (t & M' & Hr & Ro & _);
    [reflexivity|]. exists t, M'. split; [exact Hr|exact Ro].
Qed.

Lemma key_fun_prefix a kb l n n' : (n <= n')%nat -> key_fun a kb l n = firstn n (key_fun a kb l n').
Proof. intros H. destruct a; [apply prf_gen_prefix, H|apply prf_gen_prefix, H|apply prf_short_prefix, H]. Qed.

Lemma C16_prf_proof i j a e e' M1 M2 o1 o2 n1 n2 in1 in2 l k1 k2 kb :
  key_host i a e = true -> key_host j a e' = true -> is16 kb -> below (key_inmax a) (len l) ->
  n1 <= n2 -> n2 <= key_outmax a ->
  readable M1 k1 kb -> readable M1 in1 l -> out_room (key_demands i a) M1 o1 n1 ->
  readable M2 k2 kb -> readable M2 in2 l -> out_room (key_demands j a) M2 o2 n2 ->
  exists t1 t2 M1' M2' out,
    prf_of i a e o1 n1 in1 (len l) k1 M1 = Done t1 M1' 0%Z /\
    prf_of j a e' o2 n2 in2 (len l) k2 M2 = Done t2 M2' 0%Z /\
    len out = n2 /\ readable M2' o2 out /\ readable M1' o1 (firstn (N.to_nat n1) out).
Proof.
  intros H H' Hk Hb Hn Hn' Rk1 Ri1 W1 Rk2 Ri2 W2.
  destruct (prf_facts i a e M1 o1 n1 in1 l k1 kb H Hk Rk1 Ri1 W1 Hb) as (t1 & M1' & R1 & O1 & _); [lia|].
  destruct (prf_facts j a e' M2 o2 n2 in2 l k2 kb H' Hk Rk2 Ri2 W2 Hb Hn') as (t2 & M2' & R2 & O2 & L2 & _).
  exists t1, t2, M1', M2', (key_fun a kb l (N.to_nat n2)).
  rewrite <- key_fun_prefix by lia. auto.
Qed.
Lemma C16_cxof_proof M1 M2 o1 o2 n1 n2 in1 in2 l cs1 cs2 cb :
  len cb < 2 ^ 61 -> n1 <= n2 ->
  readable M1 cs1 cb -> readable M1 in1 l -> writable M1 o1 n1 ->
  readable M2 cs2 cb -> readable M2 in2 l -> writable M2 o2 n2 ->
  exists t1 t2 M1' M2' out,
    crypto_cxof o1 n1 in1 (len l) cs1 (len cb) M1 = Done t1 M1' 0%Z /\
    crypto_cxof o2 n2 in2 (len l) cs2 (len cb) M2 = Done t2 M2' 0%Z /\
    len out = n2 /\ readable M2' o2 out /\ readable M1' o1 (firstn (N.to_nat n1) out).
Proof.
  intros Hc Hn Rk1 Ri1 W1 Rk2 Ri2 W2.
  destruct (C15_proof M1 o1 n1 in1 l cs1 cb) as (t1 & M1' & R1 & O1 & _); auto.
  destruct (C15_proof M2 o2 n2 in2 l cs2 cb) as (t2 & M2' & R2 & O2 & _); auto.
  exists t1, t2, M1', M2', (cxof128 l cb (N.to_nat n2)).
  rewrite <- cxof_prefix by lia. rewrite len_cxof. auto.
Qed.

Lemma C17_proof i e M out inp l k kb :
  key_host i Mac e = true -> is16 kb -> readable M k kb -> readable M inp l -> writable M out 16 ->
  exists t M', auth_of i Mac e out inp (len l) k M = Done t M' 0%Z /\
    readable M' out (mac kb l 16) /\ length (mac kb l 16) = 16%nat.
Proof.
  intros H Hk Rk Ri W. destruct (auth_facts i Mac e M out inp l k kb H Hk Rk Ri W I) as (t & M' & R & O & L & _).
  exists t, M'. split; [exact R|]. split; [exact O|]. apply (length_key_fun Mac); [exact Hk|]. vm_compute. lia.
Qed.
Lemma C18_proof i e M out n inp l k kb :
  key_host i Prf e = true -> is16 kb -> readable M k kb -> readable M inp l ->
  out_room (key_demands i Prf) M out n -> n <= 64 ->
  exists t M', prf_of i Prf e out n inp (len l) k M = Done t M' 0%Z /\
    readable M' out (prf kb l (N.to_nat n)) /\ len (prf kb l (N.to_nat n)) = n.
Proof.
  intros H Hk Rk Ri W Hn. destruct (prf_facts i Prf e M out n inp l k kb H Hk Rk Ri W I Hn) as (t & M' & R & O & L & _).
  eauto.
Qed.
Lemma C18_auth_proof i e M out inp l k kb :
  key_host i Prf e = true -> is16 kb -> readable M k kb -> readable M inp l -> writable M out 64 ->
  exists t M', auth_of i Prf e out inp (len l) k M = Done t M' 0%Z /\ readable M' out (prf kb l 64).
Proof.
  intros H Hk Rk Ri W. destruct (auth_facts i Prf e M out inp l k kb H Hk Rk Ri W I) as (t & M' & R & O & _).
  eauto.
Qed.
Lemma C19_proof i e M out n inp l k kb :
  key_host i PrfShort e = true -> is16 kb -> readable M k kb -> readable M inp l ->
  out_room (key_demands i PrfShort) M out n -> (length l <= 16)%nat -> n <= 16 ->
  exists t M', prf_of i PrfShort e out n inp (len l) k M = Done t M' 0%Z /\
    readable M' out (prf_short kb l (N.to_nat n)) /\ len (prf_short kb l (N.to_nat n)) = n.
Proof.
  intros H Hk Rk Ri W Hl Hn.
  destruct (prf_facts i PrfShort e M out n inp l k kb H Hk Rk Ri W) as (t & M' & R & O & L & _); [|exact Hn|eauto].
  cbn [key_inmax below]. unfold len. lia.
Qed.

Lemma C20_proof :
  (forall i a e M out n inp inlen k, key_host i a e = true ->
     ~ below (key_inmax a) inlen \/ key_outmax a < n ->
     exists t, prf_of i a e out n inp inlen k M = Done t M (-1)%Z /\
       Forall (fun ev => exists b, ev = EBranch b) t) /\
  (forall i a e M sp h inp inlen k, key_host i a e = true -> ~ below (key_inmax a) inlen ->
     exists t, verify_of i a e sp h inp inlen k M = Done t M (-1)%Z /\
       Forall (fun ev => exists b, ev = EBranch b) t).
Proof.
  split.
  - intros i a e M out n inp inlen k H. apply (proj2 (prf_ok i a e H)).
  - intros i a e M sp h inp inlen k H. apply (proj2 (verify_ok i a e H)).
Qed.

Lemma C22_enc_proof i j e e' M1 M2 c1 c2 l1 l2 m1 m2 a1 a2 s1 s2 n1 n2 k1 k2 mb adb nb kb :
  aead_host i e = true -> aead_host j e' = true ->
  encrypt_pre (aead_demands i) M1 c1 l1 m1 a1 n1 k1 mb adb nb kb ->
  encrypt_pre (aead_demands j) M2 c2 l2 m2 a2 n2 k2 mb adb nb kb ->
  exists t1 t2 M1' M2' ct,
    encrypt_of i e c1 l1 m1 (len mb) a1 (len adb) s1 n1 k1 M1 = Done t1 M1' 0%Z /\
    encrypt_of j e' c2 l2 m2 (len mb) a2 (len adb) s2 n2 k2 M2 = Done t2 M2' 0%Z /\
    len ct = len mb + 16 /\ readable M1' c1 ct /\ readable M2' c2 ct.
Proof.
  intros H H' P1 P2.
  destruct (enc_facts i e M1 c1 l1 m1 a1 s1 n1 k1 mb adb nb kb H P1) as (t1 & M1' & R1 & C1 & _).
  destruct (enc_facts j e' M2 c2 l2 m2 a2 s2 n2 k2 mb adb nb kb H' P2) as (t2 & M2' & R2 & C2 & _).
  exists t1, t2, M1', M2', (aead_encrypt kb nb adb mb). repeat split; auto; try apply C1; try apply C2.
  unfold len. rewrite length_aead_encrypt. lia.
Qed.
Lemma C22_dec_proof i j e e' M1 M2 m1 m2 l1 l2 s1 s2 c1 c2 a1 a2 n1 n2 k1 k2 ct adb nb kb :
  aead_host i e = true -> aead_host j e' = true ->
  decrypt_pre (aead_demands i) M1 m1 l1 c1 a1 n1 k1 ct adb nb kb ->
  decrypt_pre (aead_demands j) M2 m2 l2 c2 a2 n2 k2 ct adb nb kb ->
  exists t1 t2 M1' M2' r mb,
    decrypt_of i e m1 l1 s1 c1 (len ct) a1 (len adb) n1 k1 M1 = Done t1 M1' r /\
    decrypt_of j e' m2 l2 s2 c2 (len ct) a2 (len adb) n2 k2 M2 = Done t2 M2' r /\
    len mb = len ct - 16 /\ readable M1' m1 mb /\ readable M2' m2 mb.
Proof.
  intros H H' P1 P2.
  destruct (dec_facts i e M1 m1 l1 s1 c1 a1 n1 k1 ct adb nb kb H P1) as (t1 & M1' & r1 & b1 & R1 & E1 & F1 & L1 & _ & G1 & _).
  destruct (dec_facts j e' M2 m2 l2 s2 c2 a2 n2 k2 ct adb nb kb H' P2) as (t2 & M2' & r2 & b2 & R2 & E2 & F2 & L2 & _ & G2 & _).
  exists t1, t2, M1', M2', r1, b1. split; [exact R1|]. split; [rewrite R2; congruence|].
  split; [exact L1|]. split; [exact G1|]. rewrite F1, <- F2. exact G2.
Qed.
Lemma C22_hash_proof i j a e e' M1 M2 o1 o2 in1 in2 l :
  hash_host i e = true -> hash_host j e' = true ->
  readable M1 in1 l -> writable M1 o1 (hash_len a) -> null_rule (no_null (hash_demands i)) in1 ->
  readable M2 in2 l -> writable M2 o2 (hash_len a) -> null_rule (no_null (hash_demands j)) in2 ->
  exists t1 t2 M1' M2' d,
    hash_of i a e o1 in1 (len l) M1 = Done t1 M1' 0%Z /\ hash_of j a e' o2 in2 (len l) M2 = Done t2 M2' 0%Z /\
    len d = hash_len a /\ readable M1' o1 d /\ readable M2' o2 d.
Proof.
  intros H H' R1 W1 N1 R2 W2 N2.
  destruct (hash_facts i a e M1 o1 in1 l H R1 W1 N1) as (t1 & M1' & E1 & D1 & L & _).
  destruct (hash_facts j a e' M2 o2 in2 l H' R2 W2 N2) as (t2 & M2' & E2 & D2 & _).
  exists t1, t2, M1', M2', (hash_fun a l). auto 10.
Qed.
Lemma C22_prf_proof i j a e e' M1 M2 o1 o2 n in1 in2 l k1 k2 kb :
  key_host i a e = true -> key_host j a e' = true -> is16 kb -> below (key_inmax a) (len l) -> n <= key_outmax a ->
  readable M1 k1 kb -> readable M1 in1 l -> out_room (key_demands i a) M1 o1 n ->
  readable M2 k2 kb -> readable M2 in2 l -> out_room (key_demands j a) M2 o2 n ->
  exists t1 t2 M1' M2' d,
    prf_of i a e o1 n in1 (len l) k1 M1 = Done t1 M1' 0%Z /\
    prf_of j a e' o2 n in2 (len l) k2 M2 = Done t2 M2' 0%Z /\
    len d = n /\ readable M1' o1 d /\ readable M2' o2 d.
Proof.
  intros H H' Hk Hb Hn Rk1 Ri1 W1 Rk2 Ri2 W2.
  destruct (prf_facts i a e M1 o1 n in1 l k1 kb H Hk Rk1 Ri1 W1 Hb Hn) as (t1 & M1' & R1 & O1 & L & _).
  destruct (prf_facts j a e' M2 o2 n in2 l k2 kb H' Hk Rk2 Ri2 W2 Hb Hn) as (t2 & M2' & R2 & O2 & _).
  exists t1, t2, M1', M2', (key_fun a kb l (N.to_nat n)). auto 10.
Qed.

Lemma C24_proof rnd :
  (forall S1 S2, length S1 = 40%nat -> length S2 = 40%nat -> p rnd S1 = p rnd S2 -> S1 = S2) /\
  (forall S, length S = 40%nat -> exists S', length S' = 40%nat /\ p rnd S' = S).
Proof.
  split; [apply p_inj|]. intros S H. exists (p_inv rnd S). split; [apply length_p_inv|apply p_inv_r, H].
Qed.

Lemma ct_trace {A} (c : C A) M1 M2 t1 t2 M1' M2' v1 v2 :
  ct any c c -> c M1 = Done t1 M1' v1 -> c M2 = Done t2 M2' v2 -> t1 = t2.
Proof. intros H E1 E2. apply (H _ _ _ _ _ _ _ _ E1 E2). Qed.
Lemma C28_proof :
  (forall i e c clen m mlen ad adlen nsec npub k M1 M2 t1 t2 M1' M2' r1 r2,
     encrypt_of i e c clen m mlen ad adlen nsec npub k M1 = Done t1 M1' r1 ->
     encrypt_of i e c clen m mlen ad adlen nsec npub k M2 = Done t2 M2' r2 -> t1 = t2) /\
  (forall i e m mlen nsec c clen ad adlen npub k M1 M2 t1 t2 M1' M2' r1 r2,
     (no_overlap (aead_demands i) = true -> disjoint mlen 8 m (clen - 16)) ->
     decrypt_of i e m mlen nsec c clen ad adlen npub k M1 = Done t1 M1' r1 ->
     decrypt_of i e m mlen nsec c clen ad adlen npub k M2 = Done t2 M2' r2 -> t1 = t2) /\
  (forall i a e out inp n M1 M2 t1 t2 M1' M2' r1 r2,
     hash_of i a e out inp n M1 = Done t1 M1' r1 -> hash_of i a e out inp n M2 = Done t2 M2' r2 -> t1 = t2) /\
  (forall i a e out n inp inlen k M1 M2 t1 t2 M1' M2' r1 r2,
     prf_of i a e out n inp inlen k M1 = Done t1 M1' r1 ->
     prf_of i a e out n inp inlen k M2 = Done t2 M2' r2 -> t1 = t2) /\
  (forall i a e sp h inp inlen k M1 M2 t1 t2 M1' M2' r1 r2,
     verify_of i a e sp h inp inlen k M1 = Done t1 M1' r1 ->
     verify_of i a e sp h inp inlen k M2 = Done t2 M2' r2 -> t1 = t2).
Proof.
  split; [|split; [|split; [|split]]]; [intros until 2|intros until 3|intros until 2..];
    (eapply ct_trace; [|eassumption|eassumption]).
  - apply encrypt_ct.
  - apply decrypt_ct. assumption.
  - apply hash_ct.
  - apply prf_ct.
  - apply verify_ct.
Qed.

Lemma C32_proof : 
  (forall i e M1 M2 c1 c2 l1 l2 m1 m2 a1 a2 s1 s2 n1 n2 k1 k2 mb adb nb kb, aead_host i e = true ->
     encrypt_pre (aead_demands i) M1 c1 l1 m1 a1 n1 k1 mb adb nb kb ->
     encrypt_pre (aead_demands i) M2 c2 l2 m2 a2 n2 k2 mb adb nb kb ->
     exists t1 t2 M1' M2' ct,
       encrypt_of i e c1 l1 m1 (len mb) a1 (len adb) s1 n1 k1 M1 = Done t1 M1' 0%Z /\
       encrypt_of i e c2 l2 m2 (len mb) a2 (len adb) s2 n2 k2 M2 = Done t2 M2' 0%Z /\
       len ct = len mb + 16 /\ readable M1' c1 ct /\ readable M2' c2 ct) /\
  (forall i e M1 M2 m1 m2 l1 l2 s1 s2 c1 c2 a1 a2 n1 n2 k1 k2 ct adb nb kb, aead_host i e = true ->
     decrypt_pre (aead_demands i) M1 m1 l1 c1 a1 n1 k1 ct adb nb kb ->
     decrypt_pre (aead_demands i) M2 m2 l2 c2 a2 n2 k2 ct adb nb kb ->
     exists t1 t2 M1' M2' r mb,
       decrypt_of i e m1 l1 s1 c1 (len ct) a1 (len adb) n1 k1 M1 = Done t1 M1' r /\
       decrypt_of i e m2 l2 s2 c2 (len ct) a2 (len adb) n2 k2 M2 = Done t2 M2' r /\
       len mb = len ct - 16 /\ readable M1' m1 mb /\ readable M2' m2 mb) /\
  (forall i a e M1 M2 o1 o2 in1 in2 l, hash_host i e = true ->
     readable M1 in1 l -> writable M1 o1 (hash_len a) -> null_rule (no_null (hash_demands i)) in1 ->
     readable M2 in2 l -> writable M2 o2 (hash_len a) -> null_rule (no_null (hash_demands i)) in2 ->
     exists t1 t2 M1' M2' d,
       hash_of i a e o1 in1 (len l) M1 = Done t1 M1' 0%Z /\ hash_of i a e o2 in2 (len l) M2 = Done t2 M2' 0%Z /\
       len d = hash_len a /\ readable M1' o1 d /\ readable M2' o2 d).
Proof.
  split; [|split].
  - intros. eapply C22_enc_proof; eassumption.
  - intros. eapply C22_dec_proof; eassumption.
  - intros. eapply C22_hash_proof; eassumption.
Qed.

Lemma post_nofuel {A} (Q : A -> Prop) c M : post Q c -> c M <> Bad ErrFuel.
Proof. intros H. specialize (H M). destruct (c M); congruence. Qed.
Lemma C33_proof :
  (forall i e c clen m mlen ad adlen nsec npub k M, mlen < aead_maxlen i -> adlen < aead_maxlen i ->
     encrypt_of i e c clen m mlen ad adlen nsec npub k M <> Bad ErrFuel) /\
  (forall i e m mlen nsec c clen ad adlen npub k M, clen < aead_maxlen i -> adlen < aead_maxlen i ->
     decrypt_of i e m mlen nsec c clen ad adlen npub k M <> Bad ErrFuel) /\
  (forall i a e out inp n M, n < 2 ^ 64 -> hash_of i a e out inp n M <> Bad ErrFuel) /\
  (forall i a e out n inp inlen k M, n < 2 ^ 64 -> inlen < 2 ^ 64 ->
     prf_of i a e out n inp inlen k M <> Bad ErrFuel) /\
  (forall i a e sp h inp inlen k M, inlen < 2 ^ 64 ->
     verify_of i a e sp h inp inlen k M <> Bad ErrFuel).
Proof.
  split; [|split; [|split; [|split]]]; intros; eapply post_nofuel.
  - apply encrypt_term; assumption.
  - apply decrypt_term; assumption.
  - apply hash_term; assumption.
  - apply prf_term; assumption.
  - apply verify_term; assumption.
Qed.

Lemma C34_proof i e : aead_host i e = true ->
  exists M m mlen nsec c ad npub k ct adb nb kb t M' mb,
    decrypt_pre (aead_demands i) M m mlen c ad npub k ct adb nb kb /\
    aead_decrypt kb nb adb ct = None /\
    decrypt_of i e m mlen nsec c (len ct) ad (len adb) npub k M = Done t M' (-1)%Z /\
    readable M' m mb /\ mb <> [] /\
    firstn 35 ct = firstn 35 (aead_encrypt kb nb adb mb).
Proof.
  intros H.
  assert (P' : decrypt_pre (aead_demands i) (dec_mem demo_bad) 0x2000 0x2100 0x1300 0x1200 0x1100 0x1000
    demo_bad demo_ad demo_nonce demo_key) by (destruct (aead_demands i); apply demo_bad_pre).
  destruct (dec_facts i e _ _ _ 0 _ _ _ _ _ _ _ _ H P') as (t & M' & r & mb & R & Er & Em & _ & _ & Rm & _).
  rewrite demo_bad_rejected in Er. rewrite demo_bad_open in Em. subst r mb.
  do 8 eexists. exists demo_bad, demo_ad, demo_nonce, demo_key, t, M', demo_msg.
  split; [exact P'|]. split; [apply demo_bad_rejected|]. split; [exact R|]. split; [exact Rm|].
  split; [discriminate|]. vm_compute. reflexivity.
Qed.
Lemma C34_always_proof i e M m mlen nsec c ad npub k ct adb nb kb t M' :
  aead_host i e = true ->
  decrypt_pre (aead_demands i) M m mlen c ad npub k ct adb nb kb ->
  decrypt_of i e m mlen nsec c (len ct) ad (len adb) npub k M = Done t M' (-1)%Z ->
  readable M' m (fst (aead_open kb nb adb (ct_body ct))).
Proof.
  intros H P R. destruct (dec_facts i e M m mlen nsec c ad npub k ct adb nb kb H P)
    as (t1 & M1 & r & mb & Q & _ & Em & _ & _ & Rm & _).
  rewrite R in Q. injection Q as _ <- _. subst mb. exact Rm.
Qed.

Lemma readable_firstn M q l n : readable M q l -> readable M q (firstn n l).
Proof. intros H. rewrite <- (firstn_skipn n l) in H. apply readable_app in H. apply H. Qed.
Lemma C35_proof i j e e' M1 M2 c1 c2 l1 l2 m1 m2 a1 a2 s1 s2 n1 n2 k1 k2 pre x y adb nb kb :
  aead_host i e = true -> aead_host j e' = true ->
  encrypt_pre (aead_demands i) M1 c1 l1 m1 a1 n1 k1 (pre ++ x) adb nb kb ->
  encrypt_pre (aead_demands j) M2 c2 l2 m2 a2 n2 k2 (pre ++ y) adb nb kb ->
  exists t1 t2 M1' M2' ct,
    encrypt_of i e c1 l1 m1 (len (pre ++ x)) a1 (len adb) s1 n1 k1 M1 = Done t1 M1' 0%Z /\
    encrypt_of j e' c2 l2 m2 (len (pre ++ y)) a2 (len adb) s2 n2 k2 M2 = Done t2 M2' 0%Z /\
    len ct = len pre /\ readable M1' c1 ct /\ readable M2' c2 ct.
Proof.
  intros H H' P1 P2.
  destruct (enc_facts i e M1 c1 l1 m1 a1 s1 n1 k1 _ adb nb kb H P1) as (t1 & M1' & R1 & C1 & _).
  destruct (enc_facts j e' M2 c2 l2 m2 a2 s2 n2 k2 _ adb nb kb H' P2) as (t2 & M2' & R2 & C2 & _).
  exists t1, t2, M1', M2', (firstn (length pre) (aead_encrypt kb nb adb pre)).
  split; [exact R1|]. split; [exact R2|]. split; [|split].
  - unfold len. rewrite firstn_length, length_aead_encrypt. lia.
  - rewrite <- (aead_prefix kb nb adb pre x). apply readable_firstn, C1.
  - rewrite <- (aead_prefix kb nb adb pre y). apply readable_firstn, C2.
Qed.
