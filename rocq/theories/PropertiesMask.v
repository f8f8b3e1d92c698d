(** * PropertiesMask.v -- the masked implementation
    crypto_aead/asconaead128/protected_bi32_armv6_leveled (C38, C39).

    [masked_encrypt F R e H] and [masked_decrypt F R e H] are its
    crypto_aead_encrypt and crypto_aead_decrypt, built with the numbers of
    shares [F], drawing the random words [R 0, R 1, ...] and receiving the
    buffers of its calls of malloc at the addresses [H].  [e = LE]: the code
    is for little-endian ARM. *)
From Coq Require Import Bool Arith NArith ZArith List Lia Init.Byte Strings.Byte ZifyBool ZifyNat ZifyN.
From Verif Require Import Words WordFacts Spec SpecFacts SpecMask CMem Contract CMemFacts ApiSpec AeadFacts ApiFacts
  ModelRef RefPrim StateRep RefAead ModelMask MaskAead MaskTop MaskApi Impls ImplsOk Demo PropertiesLow Contract.
Import ListNotations.
Local Open Scope N_scope.

(** The configurations the header accepts: config.h l.21-35, and between one
    and four shares of everything. *)
Definition supported (F : cfg) : Prop :=
  (nM F <= nKEY F)%nat /\ (nC F <= nM F)%nat /\ (nAD F <= nM F)%nat /\ (nNPUB F <= nKEY F)%nat /\
  Forall (fun n => 1 <= n <= 4)%nat [nM F; nC F; nAD F; nNPUB F; nKEY F].
Lemma supported_okcfg F : supported F -> okcfg F.
Proof.
  intros (H1 & H2 & H3 & H4 & H). unfold okcfg.
  repeat match goal with H : Forall _ (_ :: _) |- _ => inversion H; clear H; subst end. lia.
Qed.
(** The shipped one (api.h: two shares of the key, one of everything else),
    second-order protection of everything, and leveled ones are among them. *)
Example supported_configurations : Forall supported [default_cfg; Cfg 2 2 2 2 2; Cfg 3 3 3 3 3; Cfg 4 4 4 4 4; Cfg 2 1 1 2 3; Cfg 3 1 2 1 4].
Proof. repeat (constructor; [repeat split; cbn; try lia; repeat (constructor; [lia|]); constructor|]). constructor. Qed.

(** The buffers: as for the other implementations, except that anything may
    overlap (all input is read before any output is written); lengths below
    2^60. *)
Record masked_encrypt_pre (M : mem) (c clen m ad npub k : ptr) (mb adb nb kb : bytes) : Prop := {
  me_klen : is16 kb;  me_nlen : is16 nb;
  me_k : readable M k kb;  me_n : readable M npub nb;
  me_ad : readable M ad adb;  me_m : readable M m mb;
  me_c : writable M c (len mb + 16);  me_clen : writable M clen 8;
  me_la : len adb < 2 ^ 60;  me_lm : len mb + 16 < 2 ^ 60
}.
Record masked_decrypt_pre (M : mem) (m mlen c ad npub k : ptr) (ct adb nb kb : bytes) : Prop := {
  md_len : 16 <= len ct;
  md_klen : is16 kb;  md_nlen : is16 nb;
  md_k : readable M k kb;  md_n : readable M npub nb;
  md_ad : readable M ad adb;  md_c : readable M c ct;
  md_m : writable M m (len ct - 16);  md_mlen : writable M mlen 8;
  md_la : len adb < 2 ^ 60;  md_lc : len ct < 2 ^ 60
}.

(** ** C38 Whatever the randomness: encryption is Ascon-AEAD128 *)
Theorem C38_masked_encrypt : forall F R H M c clen m ad nsec npub k mb adb nb kb,
  supported F -> masked_encrypt_pre M c clen m ad npub k mb adb nb kb ->
  returns (masked_encrypt F R LE H c clen m (len mb) ad (len adb) nsec npub k) M
    (write (write M clen (to_host LE 8 (len mb + 16))) c (aead_encrypt kb nb adb mb)) 0%Z.
Proof.
  intros F R H M c clen m ad nsec npub k mb adb nb kb HF []. apply returns_runs, masked_encrypt_ok; auto using supported_okcfg.
Qed.
Print Assumptions C38_masked_encrypt.

(** and decryption writes the plaintext of the ciphertext body, with the
    verdict of C39, *)
Theorem C38_masked_decrypt : forall F R H M m mlen nsec c ad npub k ct adb nb kb mb t,
  supported F -> masked_decrypt_pre M m mlen c ad npub k ct adb nb kb ->
  aead_open kb nb adb (ct_body ct) = (mb, t) ->
  exists r,
  returns (masked_decrypt F R LE H m mlen nsec c (len ct) ad (len adb) npub k) M
    (write (write M mlen (to_host LE 8 (len ct - 16))) m mb) r /\
  (r = 0%Z \/ r = (-1)%Z) /\
  (r = 0%Z <-> check_passes (xor_into t (ct_tag ct))).
Proof.
  intros F R H M m mlen nsec c ad npub k ct adb nb kb mb t HF [] E.
  destruct (ct_split ct md_len0) as (Hct & Hb & Ht). rewrite Hct in md_c0.
  pose proof (masked_decrypt_ok F R (supported_okcfg F HF) H M m mlen nsec c ad npub k kb nb adb (ct_body ct) (ct_tag ct)
    md_klen0 md_nlen0 Ht md_k0 md_n0 md_ad0 md_c0) as G.
  rewrite <- Hct, Hb, E in G. cbn [fst snd] in G. specialize (G md_m0 md_mlen0 md_la0 ltac:(lia)).
  eexists. split; [apply returns_runs, G|]. unfold check_passes. rewrite <- pairs_equal_spec.
  destruct (pairs_equal (check_bits (xor_into t (ct_tag ct)))); split; auto; split; congruence.
Qed.
Print Assumptions C38_masked_decrypt.

Lemma xor_self a : xor_into a a = repeat x00 (length a).
Proof.
  induction a as [|x a IH]; [reflexivity|]. cbn. rewrite IH. f_equal. unfold bxor. rewrite N.lxor_nilpotent. reflexivity.
Qed.
Lemma check_zero : check_passes (repeat x00 16).
Proof.
  unfold check_passes, check_bits. change (repeat x00 24 ++ repeat x00 16) with (repeat x00 40). rewrite N.lxor_nilpotent.
  intros i _. rewrite !N.bits_0. reflexivity.
Qed.
Lemma check_same t : length t = 16%nat -> check_passes (xor_into t t).
Proof. intros H. rewrite xor_self, H. apply check_zero. Qed.

(** so that every genuine ciphertext is accepted and decrypts to its
    plaintext; the masks used for encryption and for decryption, and even
    the numbers of shares, are independent. *)
Theorem C38_masked_roundtrip : forall F R H M m mlen nsec c ad npub k ct adb nb kb mb,
  supported F -> masked_decrypt_pre M m mlen c ad npub k ct adb nb kb ->
  ct = aead_encrypt kb nb adb mb ->
  returns (masked_decrypt F R LE H m mlen nsec c (len ct) ad (len adb) npub k) M
    (write (write M mlen (to_host LE 8 (len mb))) m mb) 0%Z.
Proof.
  intros F R H M m mlen nsec c ad npub k ct adb nb kb mb HF P E.
  destruct (aead_encrypt_open kb nb adb mb) as (b & t & Ect & Hb & Ht & O). rewrite Ect in E.
  assert (E1 : aead_open kb nb adb (ct_body ct) = (mb, t)) by (rewrite E, ct_body_app by exact Ht; exact O).
  destruct (C38_masked_decrypt F R H M m mlen nsec c ad npub k ct adb nb kb mb t HF P E1) as (r & G & _ & V).
  rewrite E, ct_tag_app in V by exact Ht. destruct V as [_ V]. rewrite V in G by (apply check_same, Ht).
  replace (len ct - 16) with (len mb) in G; [exact G|]. rewrite E, len_app. unfold len. rewrite Hb, Ht. lia.
Qed.
Print Assumptions C38_masked_roundtrip.

(** Seen from outside, encryption has the same effect as each of the other
    implementations, *)
Theorem C38_encrypt_same_effect : forall F R H j M c clen m ad nsec npub k mb adb nb kb,
  supported F -> aead_host j LE = true ->
  encrypt_pre (Demands true true (blocks32 (aead_demands j))) M c clen m ad npub k mb adb nb kb -> len adb < 2 ^ 60 -> len mb + 16 < 2 ^ 60 ->
  same_effect (masked_encrypt F R LE H c clen m (len mb) ad (len adb) nsec npub k)
              (encrypt_of j LE c clen m (len mb) ad (len adb) nsec npub k) M.
Proof.
  intros F R H j M c clen m ad nsec npub k mb adb nb kb HF Hj P La Lm.
  eapply same_effect_returns.
  - apply C38_masked_encrypt with (nb := nb) (kb := kb); [exact HF|]. destruct P. constructor; assumption.
  - apply encrypt_ok with (nb := nb) (kb := kb); [exact Hj|]. revert P. apply encrypt_pre_le. repeat split. exact (fun H => H).
Qed.
Print Assumptions C38_encrypt_same_effect.
(** and so has decryption unless it accepts and the other one does not. *)
Theorem C38_decrypt_same_effect : forall F R H j M m mlen nsec c ad npub k ct adb nb kb,
  supported F -> aead_host j LE = true ->
  decrypt_pre (Demands true true (blocks32 (aead_demands j))) M m mlen c ad npub k ct adb nb kb -> len adb < 2 ^ 60 -> len ct < 2 ^ 60 ->
  exists t1 t2 M1 M2 r1 r2,
    masked_decrypt F R LE H m mlen nsec c (len ct) ad (len adb) npub k M = Done t1 M1 r1 /\
    decrypt_of j LE m mlen nsec c (len ct) ad (len adb) npub k M = Done t2 M2 r2 /\
    (forall a, M1 a = M2 a) /\ (r1 = r2 \/ r1 = 0%Z /\ r2 = (-1)%Z).
Proof.
  intros F R H j M m mlen nsec c ad npub k ct adb nb kb HF Hj P La Lc.
  destruct (aead_open kb nb adb (ct_body ct)) as [mb t] eqn:O.
  destruct (C38_masked_decrypt F R H M m mlen nsec c ad npub k ct adb nb kb mb t HF) as (r1 & (t1 & M1 & G1 & E1) & B & V).
  { destruct P. constructor; assumption. } { exact O. }
  destruct (decrypt_ok j LE Hj M m mlen nsec c ad npub k ct adb nb kb mb t) as (t2 & M2 & G2 & E2); [|exact O|].
  { revert P. apply decrypt_pre_le. repeat split. exact (fun H => H). }
  exists t1, t2, M1, M2, r1. eexists. split; [exact G1|]. split; [exact G2|]. split; [intros a; rewrite E1, E2; reflexivity|].
  destruct (list_eq_dec Byte.byte_eq_dec t (ct_tag ct)) as [Et|_].
  - left. apply V. rewrite <- Et. apply check_same.
    destruct (ct_split ct) as (_ & _ & L); [apply P|]. rewrite Et. exact L.
  - destruct B as [->| ->]; [right; auto|left; reflexivity].
Qed.
Print Assumptions C38_decrypt_same_effect.

(** Fewer than 16 bytes: -1, with no access to memory and for arbitrary
    pointer values. *)
Theorem C38_masked_short : forall F R H, decrypt_rejects_short (masked_decrypt F R LE H).
Proof.
  intros F R H M m mlen nsec c clen ad adlen npub k Hc. unfold masked_decrypt.
  replace (clen <? 16) with true by lia. reflexivity.
Qed.
Print Assumptions C38_masked_short.

(** The hypotheses can be met, also in place. *)
Example C38_hypotheses_met :
  masked_encrypt_pre demo_enc 0x2000 0x2100 0x1300 0x1200 0x1100 0x1000 demo_msg demo_ad demo_nonce demo_key /\
  masked_encrypt_pre demo_inplace 0x1300 0x2100 0x1300 0x1200 0x1100 0x1000 demo_msg demo_ad demo_nonce demo_key /\
  masked_decrypt_pre (dec_mem demo_ct) 0x2000 0x2100 0x1300 0x1200 0x1100 0x1000 demo_ct demo_ad demo_nonce demo_key.
Proof.
  assert (L : len demo_ct = 36) by (vm_compute; reflexivity).
  destruct (demo_enc_pre (Demands false false false)). destruct (demo_inplace_pre (Demands false false false) eq_refl). destruct (demo_dec_pre (Demands false false false)).
  split; [|split]; constructor; try assumption; try (rewrite L; lia); vm_compute; reflexivity.
Qed.

(** ** C39 The tag check compares 32 bits, not 128 *)

(** The verdict depends on the difference of the tags only, and on that only
    through 32 bits: *)
Theorem C39_verdict : forall F R H M m mlen nsec c ad npub k ct adb nb kb mb t,
  supported F -> masked_decrypt_pre M m mlen c ad npub k ct adb nb kb ->
  aead_open kb nb adb (ct_body ct) = (mb, t) ->
  (exists tr M', masked_decrypt F R LE H m mlen nsec c (len ct) ad (len adb) npub k M = Done tr M' 0%Z) <->
    (forall i, i < 32 ->
      N.testbit (check_bits (xor_into t (ct_tag ct))) (2 * i) = N.testbit (check_bits (xor_into t (ct_tag ct))) (2 * i + 1)).
Proof.
  intros F R H M m mlen nsec c ad npub k ct adb nb kb mb t HF P O.
  destruct (C38_masked_decrypt F R H M m mlen nsec c ad npub k ct adb nb kb mb t HF P O) as (r & (tr & M' & G & _) & _ & V).
  rewrite G. split.
  - intros (tr' & M2 & E). inversion E; subst r. apply V. reflexivity.
  - intros E. exists tr, M'. apply V in E. congruence.
Qed.
Print Assumptions C39_verdict.
(** it never rejects the right tag, *)
Theorem C39_rejection_is_sound : forall F R H M m mlen nsec c ad npub k ct adb nb kb tr M' r,
  supported F -> masked_decrypt_pre M m mlen c ad npub k ct adb nb kb ->
  masked_decrypt F R LE H m mlen nsec c (len ct) ad (len adb) npub k M = Done tr M' r -> r <> 0%Z ->
  r = (-1)%Z /\ aead_decrypt kb nb adb ct = None.
Proof.
  intros F R H M m mlen nsec c ad npub k ct adb nb kb tr M' r HF P G Hr.
  destruct (aead_open kb nb adb (ct_body ct)) as [mb t] eqn:O.
  destruct (C38_masked_decrypt F R H M m mlen nsec c ad npub k ct adb nb kb mb t HF P O) as (r' & (tr' & M1 & G' & _) & B & V).
  rewrite G in G'. inversion G'; subst r'. split; [destruct B; congruence|].
  destruct P. rewrite aead_decrypt_unfold by assumption. rewrite O.
  destruct (list_eq_dec Byte.byte_eq_dec t (ct_tag ct)) as [Et|_]; [|reflexivity].
  exfalso. apply Hr, V. rewrite <- Et. apply check_same. rewrite Et. apply ct_split. assumption.
Qed.
Print Assumptions C39_rejection_is_sound.

(** Three 16-byte masks, the first one non-zero in four bytes only. *)
Definition forgery_masks : list bytes :=
  map (fun x => le_bytes 8 x ++ repeat x00 8) [0x68a234f6; 0x31527e7dc; 0x34e98836c].
Lemma forgery_masks_pass : Forall check_passes forgery_masks.
Proof.
  assert (E : forallb (fun d => pairs_equal (check_bits d)) forgery_masks = true) by (vm_compute; reflexivity).
  rewrite forallb_forall in E. apply Forall_forall. intros d Hd. unfold check_passes. rewrite <- pairs_equal_spec. apply E, Hd.
Qed.
Lemma xor_cancel a d : length a = length d -> xor_into a (xor_into a d) = d.
Proof.
  revert d. induction a as [|x a IH]; intros [|y d] H; try discriminate; [reflexivity|]. cbn in *.
  rewrite IH by lia. f_equal. unfold bxor. rewrite b2n_n2b.
  replace (trunc 8 (N.lxor (b2n x) (b2n y))) with (N.lxor (b2n x) (b2n y)).
  - rewrite <- N.lxor_assoc, N.lxor_nilpotent, N.lxor_0_l. apply n2b_b2n.
  - symmetry. apply trunc_fits, fits_lxor; apply fits_b2n.
Qed.

Lemma app_inj_len {A} (a c b d : list A) : length a = length c -> a ++ b = c ++ d -> a = c /\ b = d.
Proof.
  revert c. induction a as [|x a IH]; intros [|y c] L E; try discriminate; [auto|].
  cbn in *. injection E as -> E. destruct (IH c ltac:(lia) E) as [-> ->]. auto.
Qed.
Lemma app_inj_tail_len {A} (a b c d : list A) : a ++ b = c ++ d -> length b = length d -> a = c /\ b = d.
Proof.
  intros E L. apply app_inj_len; [|exact E].
  apply (f_equal (@length A)) in E. rewrite !app_length in E. lia.
Qed.

(** Forgeries without knowledge of the key: XOR one of the masks to the tag
    of any ciphertext, and the masked implementation accepts the result for
    every key, nonce, associated data, message and randomness; Ascon-AEAD128
    (and every other implementation) rejects it. *)
Theorem C39_forgery : forall F R H M m mlen nsec c ad npub k body tag adb nb kb mb d,
  supported F -> In d forgery_masks ->
  body ++ tag = aead_encrypt kb nb adb mb -> is16 tag ->
  masked_decrypt_pre M m mlen c ad npub k (body ++ xor_into tag d) adb nb kb ->
  returns (masked_decrypt F R LE H m mlen nsec c (len (body ++ xor_into tag d)) ad (len adb) npub k) M
    (write (write M mlen (to_host LE 8 (len mb))) m mb) 0%Z /\
  aead_decrypt kb nb adb (body ++ xor_into tag d) = None.
Proof.
  intros F R H M m mlen nsec c ad npub k body tag adb nb kb mb d HF Hd E Ht P.
  assert (Ld : length d = 16%nat) by (unfold forgery_masks in Hd; repeat (destruct Hd as [<-|Hd]; [reflexivity|]); destruct Hd).
  assert (Nd : d <> repeat x00 16).
  { unfold forgery_masks in Hd. repeat (destruct Hd as [<-|Hd]; [vm_compute; discriminate|]). destruct Hd. }
  assert (Lx : length (xor_into tag d) = 16%nat) by (rewrite length_xor_into; exact Ht).
  destruct (aead_encrypt_open kb nb adb mb) as (b & t & Ect & Hb & Ht' & O). rewrite Ect in E.
  apply app_inj_tail_len in E; [|unfold is16 in Ht; lia]. destruct E as [-> ->].
  assert (E1 : aead_open kb nb adb (ct_body (b ++ xor_into t d)) = (mb, t)) by (rewrite ct_body_app by exact Lx; exact O).
  destruct (C38_masked_decrypt F R H M m mlen nsec c ad npub k _ adb nb kb mb t HF P E1) as (r & G & _ & V).
  rewrite ct_tag_app, xor_cancel in V by (exact Lx || lia). split.
  - destruct V as [_ V]. rewrite V in G by (pose proof forgery_masks_pass as Q; rewrite Forall_forall in Q; apply Q, Hd).
    replace (len (b ++ xor_into t d) - 16) with (len mb) in G; [exact G|]. rewrite len_app. unfold len. rewrite Hb, Lx. lia.
  - rewrite aead_decrypt_unfold by (rewrite len_app; unfold len; rewrite Lx; lia). rewrite E1, ct_tag_app by exact Lx.
    destruct (list_eq_dec Byte.byte_eq_dec t (xor_into t d)) as [Et|_]; [|reflexivity]. exfalso. apply Nd.
    rewrite <- (xor_cancel t d) by lia. rewrite <- Et, xor_self, Ht'. reflexivity.
Qed.
Print Assumptions C39_forgery.

(** A change of a single bit of the tag, however, is always noticed. *)
Definition one_bit (i : nat) : bytes := le_bytes 16 (2 ^ N.of_nat i).
Lemma one_bit_detected i : (i < 128)%nat -> pairs_equal (check_bits (one_bit i)) = false.
Proof.
  intros Hi.
  set (f i := let x := if (i <? 64)%nat then (2 ^ N.of_nat i, 0) else (0, 2 ^ N.of_nat (i - 64)) in
    pairs_equal (let w := P8 (St 0 0 0 (fst x) (snd x)) in let z := P8 (St 0 0 0 0 0) in
      N.lxor (N.lxor (X3 w) (X4 w)) (N.lxor (X3 z) (X4 z)))).
  assert (C : forallb (fun i => negb (f i)) (seq 0 128) = true) by (vm_compute; reflexivity).
  rewrite forallb_forall in C. specialize (C i ltac:(apply in_seq; lia)). apply negb_true_iff in C.
  rewrite <- C. unfold f. f_equal. clear C f. cbv zeta.
  set (x := if (i <? 64)%nat then (2 ^ N.of_nat i, 0) else (0, 2 ^ N.of_nat (i - 64))).
  assert (F : fits 64 (fst x) /\ fits 64 (snd x)).
  { unfold x, fits. destruct (Nat.ltb_spec i 64); cbn [fst snd]; split; try reflexivity; apply N.pow_lt_mono_r; lia. }
  assert (E : one_bit i = wb (fst x) ++ wb (snd x)).
  { assert (C : forallb (fun i => let x := if (i <? 64)%nat then (2 ^ N.of_nat i, 0) else (0, 2 ^ N.of_nat (i - 64)) in
      beq (one_bit i) (wb (fst x) ++ wb (snd x))) (seq 0 128) = true) by (vm_compute; reflexivity).
    rewrite forallb_forall in C. specialize (C i ltac:(apply in_seq; lia)). apply beq_eq in C. exact C. }
  rewrite E. clearbody x. unfold check_bits.
  change (repeat x00 24 ++ wb (fst x) ++ wb (snd x)) with (xs (St 0 0 0 (fst x) (snd x))).
  change (repeat x00 40) with (xs (St 0 0 0 0 0)).
  assert (Wd : wf (St 0 0 0 (fst x) (snd x))) by (repeat split; try apply fits_0; apply F).
  assert (Wz : wf (St 0 0 0 0 0)) by (repeat split; apply fits_0).
  rewrite <- !xs_P8 by assumption. rewrite !last_words_xs by (apply wf_P8; assumption). reflexivity.
Qed.
Theorem C39_single_bit_rejected : forall F R H M m mlen nsec c ad npub k body tag adb nb kb mb i,
  supported F -> (i < 128)%nat ->
  body ++ tag = aead_encrypt kb nb adb mb -> is16 tag ->
  masked_decrypt_pre M m mlen c ad npub k (body ++ xor_into tag (one_bit i)) adb nb kb ->
  exists tr M', masked_decrypt F R LE H m mlen nsec c (len (body ++ xor_into tag (one_bit i))) ad (len adb) npub k M = Done tr M' (-1)%Z.
Proof.
  intros F R H M m mlen nsec c ad npub k body tag adb nb kb mb i HF Hi E Ht P.
  assert (Ld : length (one_bit i) = 16%nat) by (apply length_le_bytes).
  assert (Lx : length (xor_into tag (one_bit i)) = 16%nat) by (rewrite length_xor_into; exact Ht).
  destruct (aead_encrypt_open kb nb adb mb) as (b & t & Ect & Hb & Ht' & O). rewrite Ect in E.
  apply app_inj_tail_len in E; [|unfold is16 in Ht; lia]. destruct E as [-> ->].
  assert (E1 : aead_open kb nb adb (ct_body (b ++ xor_into t (one_bit i))) = (mb, t)) by (rewrite ct_body_app by exact Lx; exact O).
  destruct (C38_masked_decrypt F R H M m mlen nsec c ad npub k _ adb nb kb mb t HF P E1) as (r & (tr & M' & G & _) & B & V).
  rewrite ct_tag_app, xor_cancel in V by (exact Lx || lia).
  exists tr, M'. destruct B as [-> | ->]; [|exact G]. exfalso. destruct V as [V _]. specialize (V eq_refl).
  unfold check_passes in V. rewrite <- pairs_equal_spec in V. rewrite (one_bit_detected i Hi) in V. discriminate.
Qed.
Print Assumptions C39_single_bit_rejected.

(** The hypotheses can be met. *)
Definition demo_forged : bytes := Eval vm_compute in firstn 20 demo_ct ++ xor_into (skipn 20 demo_ct) (nth 0 forgery_masks []).
Definition demo_flipped : bytes := Eval vm_compute in firstn 20 demo_ct ++ xor_into (skipn 20 demo_ct) (one_bit 77).
Example C39_hypotheses_met : exists d tag,
  In d forgery_masks /\ is16 tag /\ firstn 20 demo_ct ++ tag = demo_ct /\
  demo_forged = firstn 20 demo_ct ++ xor_into tag d /\ demo_flipped = firstn 20 demo_ct ++ xor_into tag (one_bit 77) /\
  masked_decrypt_pre (dec_mem demo_forged) 0x2000 0x2100 0x1300 0x1200 0x1100 0x1000 demo_forged demo_ad demo_nonce demo_key /\
  masked_decrypt_pre (dec_mem demo_flipped) 0x2000 0x2100 0x1300 0x1200 0x1100 0x1000 demo_flipped demo_ad demo_nonce demo_key.
Proof.
  exists (nth 0 forgery_masks []), (skipn 20 demo_ct). split; [left; reflexivity|]. split; [vm_compute; reflexivity|].
  split; [apply firstn_skipn|]. split; [vm_compute; reflexivity|]. split; [vm_compute; reflexivity|].
  split; constructor; try (apply readableb_ok; vm_compute; reflexivity); try (apply writableb_ok; vm_compute; reflexivity);
    vm_compute; congruence.
Qed.
