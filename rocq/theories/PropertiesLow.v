(** * PropertiesLow.v -- the size-optimised implementations (C37), and
    where the code needs more from its caller or its host than the API
    says (C12, C27).

    [AEAD_low w] and [AEAD_comb w], [HASH_low w] and [HASH_comb w] are the
    *_lowsize directories (Impls.v); their code is in ModelLow.v.
    [AEAD_byte_low w], [AEAD_byte_comb w], [HASH_byte_low w], [HASH_byte_comb w] are
    the opt8_lowsize and avr_lowsize directories; their code is in ModelOpt8.v. *)
From Coq Require Import Bool Arith NArith ZArith List Lia Init.Byte Strings.Byte ZifyBool ZifyNat ZifyN.
From Verif Require Import Words WordFacts Spec SpecFacts SpecFast CMem Contract CMemFacts ApiSpec ApiFacts ModelRef StateRep
  ModelCommon ModelWords WordLaws ModelLow LowAead LowDec LowHash Impls ImplsOk Refuted Demo
  PropertiesWords PropFacts.
Import ListNotations.
Local Open Scope N_scope.

(** The size-optimised directories and the others. *)
Definition low_dir (i : aead_impl) : Prop :=
  match i with AEAD_low _ | AEAD_comb _ | AEAD_byte_low _ | AEAD_byte_comb _ => True | _ => False end.
Definition regular_dir (i : aead_impl) : Prop :=
  match i with AEAD_ref | AEAD_word _ | AEAD_byte _ => True | _ => False end. (* esp32: PropertiesEsp.v *)
Definition low_hash_dir (i : hash_impl) : Prop :=
  match i with HASH_low _ | HASH_comb _ | HASH_byte_low _ | HASH_byte_comb _ => True | _ => False end.
Definition regular_hash_dir (i : hash_impl) : Prop :=
  match i with HASH_ref | HASH_word _ | HASH_byte _ => True | _ => False end.

(** Two calls from the same memory return the same value and leave the same
    memory behind. *)
Definition same_effect (c1 c2 : C Z) (M : mem) : Prop :=
  exists t1 t2 M1 M2 r, c1 M = Done t1 M1 r /\ c2 M = Done t2 M2 r /\ forall a, M1 a = M2 a.

Lemma encrypt_pre_any i M c clen m ad npub k mb adb nb kb : low_dir i \/ regular_dir i ->
  encrypt_pre (Demands true false false) M c clen m ad npub k mb adb nb kb ->
  encrypt_pre (aead_demands i) M c clen m ad npub k mb adb nb kb.
Proof. intros D []. destruct i; try (destruct D as [[]|[]]; fail); constructor; try assumption; discriminate. Qed.
Lemma decrypt_pre_any i M m mlen c ad npub k ct adb nb kb : low_dir i \/ regular_dir i ->
  decrypt_pre (Demands true false false) M m mlen c ad npub k ct adb nb kb ->
  decrypt_pre (aead_demands i) M m mlen c ad npub k ct adb nb kb.
Proof. intros D []. destruct i; try (destruct D as [[]|[]]; fail); constructor; try assumption; discriminate. Qed.
Lemma same_effect_returns c1 c2 M M' r : returns c1 M M' r -> returns c2 M M' r -> same_effect c1 c2 M.
Proof.
  intros (t1 & M1 & H1 & E1) (t2 & M2 & H2 & E2). exists t1, t2, M1, M2, r.
  split; [exact H1|]. split; [exact H2|]. intros a. rewrite E1, E2. reflexivity.
Qed.

(** ** C37 The size-optimised code equals the regular code *)
Theorem C37_encrypt_same_effect : forall i j e M c clen m ad nsec npub k mb adb nb kb,
  low_dir i -> regular_dir j -> aead_host i e = true -> aead_host j e = true ->
  encrypt_pre (Demands true false false) M c clen m ad npub k mb adb nb kb ->
  same_effect (encrypt_of i e c clen m (len mb) ad (len adb) nsec npub k)
              (encrypt_of j e c clen m (len mb) ad (len adb) nsec npub k) M.
Proof.
  intros i j e M c clen m ad nsec npub k mb adb nb kb Di Dj Hi Hj P.
  eapply same_effect_returns; apply encrypt_ok; try assumption; (eapply encrypt_pre_any; [|exact P]); auto.
Qed.
Print Assumptions C37_encrypt_same_effect.
Theorem C37_decrypt_same_effect : forall i j e M m mlen nsec c ad npub k ct adb nb kb,
  low_dir i -> regular_dir j -> aead_host i e = true -> aead_host j e = true ->
  decrypt_pre (Demands true false false) M m mlen c ad npub k ct adb nb kb ->
  same_effect (decrypt_of i e m mlen nsec c (len ct) ad (len adb) npub k)
              (decrypt_of j e m mlen nsec c (len ct) ad (len adb) npub k) M.
Proof.
  intros i j e M m mlen nsec c ad npub k ct adb nb kb Di Dj Hi Hj P.
  destruct (aead_open kb nb adb (ct_body ct)) as [mb t] eqn:O.
  eapply same_effect_returns.
  - apply (decrypt_ok i e Hi) with (nb := nb) (kb := kb) (mb := mb) (t := t); [eapply decrypt_pre_any; [|exact P]; auto|exact O].
  - apply (decrypt_ok j e Hj) with (nb := nb) (kb := kb) (mb := mb) (t := t); [eapply decrypt_pre_any; [|exact P]; auto|exact O].
Qed.
Print Assumptions C37_decrypt_same_effect.
Theorem C37_hash_same_effect : forall i j a e M out inp l,
  low_hash_dir i -> regular_hash_dir j -> hash_host i e = true -> hash_host j e = true ->
  readable M inp l -> writable M out (hash_len a) -> inp <> NULL ->
  same_effect (hash_of i a e out inp (len l)) (hash_of j a e out inp (len l)) M.
Proof.
  intros i j a e M out inp l _ _ Hi Hj R W Hn.
  eapply same_effect_returns; apply hash_ok; try assumption; intros _; exact Hn.
Qed.
Print Assumptions C37_hash_same_effect.
Example C37_hypotheses_met : low_dir (AEAD_comb L_bi32) /\ regular_dir (AEAD_word W_opt64) /\
  aead_host (AEAD_comb L_bi32) LE = true /\ aead_host (AEAD_word W_opt64) LE = true /\
  encrypt_pre (Demands true false false) demo_enc 0x2000 0x2100 0x1300 0x1200 0x1100 0x1000 demo_msg demo_ad demo_nonce demo_key /\
  decrypt_pre (Demands true false false) (dec_mem demo_bad) 0x2000 0x2100 0x1300 0x1200 0x1100 0x1000 demo_bad demo_ad demo_nonce demo_key.
Proof.
  split; [exact I|]. split; [exact I|].
  split; [reflexivity|]. split; [reflexivity|]. split; [apply demo_enc_pre|apply demo_bad_pre].
Qed.

(** ** C37: null-pointer arithmetic

    In the theorems above [NULL + 8] is the address 8.  ISO C does not
    define it.  Under the strict reading ([true] below) the size-optimised
    encryption is as specified while the associated data is shorter than 8
    bytes ... *)
Theorem C37_strict_short_ad : forall w e hb M c clen m ad nsec npub k mb adb nb kb,
  low_host w e = true -> encrypt_pre (Demands true false false) M c clen m ad npub k mb adb nb kb -> len adb < 8 ->
  returns (low_aead_encrypt e (low_ops w e) true hb c clen m (len mb) ad (len adb) nsec npub k) M
    (write (write M clen (to_host e 8 (len mb + 16))) c (aead_encrypt kb nb adb mb)) 0%Z.
Proof.
  intros w e hb M c clen m ad nsec npub k mb adb nb kb H [] Hl. destruct ep_ov as [ep_ov _]. destruct (low_laws_ok w e H) as (cn & L).
  apply returns_runs, (low_encrypt_ok e _ cn L); try assumption; [apply ep_nm; reflexivity|auto].
Qed.
Print Assumptions C37_strict_short_ad.
(** ... and undefined otherwise; *)
Theorem C37_strict_long_ad_undefined : forall w e hb M c clen m ad nsec npub k mb adb nb kb,
  low_host w e = true -> encrypt_pre (Demands true true false) M c clen m ad npub k mb adb nb kb -> 8 <= len adb ->
  low_aead_encrypt e (low_ops w e) true hb c clen m (len mb) ad (len adb) nsec npub k M = Bad ErrNull.
Proof.
  intros w e hb M c clen m ad nsec npub k mb adb nb kb H P Hl. destruct (low_laws_ok w e H) as (cn & L).
  apply (low_encrypt_null e _ cn L hb M c clen m (len mb) ad nsec npub k mb adb nb kb P eq_refl Hl).
Qed.
Print Assumptions C37_strict_long_ad_undefined.
(** XOF128 of crypto_aead_hash is undefined for every message (it squeezes
    64 bytes with a null input pointer). *)
Theorem C37_strict_xof_undefined : forall w e M out inp l,
  low_host w e = true -> readable M inp l -> inp <> NULL -> writable M out 64 ->
  low_hash_xof128 e (low_ops w e) true true out inp (len l) M = Bad ErrNull.
Proof.
  intros w e M out inp l H R Hn W. destruct (low_laws_ok w e H) as (cn & L).
  destruct (l_xof _ _ _ L) as [W0 _].
  apply (low_xof_null e _ cn L _ 64 M out inp l W0); try assumption. lia.
Qed.
Print Assumptions C37_strict_xof_undefined.
Example C37_strict_hypotheses_met :
  (exists adb, 8 <= len adb /\ encrypt_pre (Demands true true false)
    (mem_of [ROdata 0x1000 demo_key; ROdata 0x1100 demo_nonce; ROdata 0x1200 adb; ROdata 0x1300 demo_msg;
             RWfree 0x2000 36; RWfree 0x2100 8])
    0x2000 0x2100 0x1300 0x1200 0x1100 0x1000 demo_msg adb demo_nonce demo_key) /\
  readable demo_hash 0x1300 demo_msg /\ writable demo_hash 0x2000 64.
Proof.
  split; [|split; [apply demo_hash_in|apply demo_hash_out]].
  exists (count 48 11). split; [vm_compute; discriminate|]. apply encrypt_preb_ok. vm_compute. reflexivity.
Qed.

(** ** C12: which implementations need a valid pointer for empty input *)
Theorem C12_exceptions :
  (forall w a e M out, hash_of (HASH_word w) a e out NULL 0 M = Bad ErrNull) /\
  (forall w a e M out, hash_of (HASH_low w) a e out NULL 0 M = Bad ErrNull) /\
  (forall w a e M out, hash_of (HASH_comb w) a e out NULL 0 M = Bad ErrNull).
Proof. split; [|split]; intros w [] e M out; reflexivity. Qed.
Print Assumptions C12_exceptions.

(** The AEAD of the lowsize and esp32 directories needs a non-null text pointer
    even for the empty text: here is a call with all other buffers valid (C12_null_buffers
    holds for the others), which is undefined in every such directory, and in no other. *)
Definition null_mem : mem := mem_of [ROdata 0x1000 demo_key; ROdata 0x1100 demo_nonce; RWfree 0x2000 16; RWfree 0x2100 8].
Theorem C12_exceptions_aead :
  is16 demo_key /\ is16 demo_nonce /\ readable null_mem 0x1000 demo_key /\ readable null_mem 0x1100 demo_nonce /\
  writable null_mem 0x2000 16 /\ writable null_mem 0x2100 8 /\
  forall i, aead_host i LE = true ->
    (encrypt_of i LE 0x2000 0x2100 NULL 0 NULL 0 0 0x1100 0x1000 null_mem = Bad ErrNull <-> no_null (aead_demands i) = true).
Proof.
  split; [reflexivity|]. split; [reflexivity|]. split; [apply readableb_ok; vm_compute; reflexivity|].
  split; [apply readableb_ok; vm_compute; reflexivity|].
  split; [apply writableb_ok; vm_compute; reflexivity|]. split; [apply writableb_ok; vm_compute; reflexivity|].
  intros i Hi. split.
  - intros E. destruct (no_null (aead_demands i)) eqn:D; [reflexivity|exfalso].
    destruct (proj1 C12_proof i LE null_mem 0x2000 0x2100 0 0x1100 0x1000 demo_nonce demo_key Hi D) as (t & M' & X & _);
      [reflexivity|reflexivity|apply readableb_ok; vm_compute; reflexivity|apply readableb_ok; vm_compute; reflexivity|
       apply writableb_ok; vm_compute; reflexivity|apply writableb_ok; vm_compute; reflexivity|
       apply disjointb_ok; reflexivity|apply disjointb_ok; reflexivity|].
    rewrite E in X. discriminate X.
  - clear Hi. destruct i as [|w|w|w|b|b|b| | |]; intros D; try discriminate D; try (destruct w; try discriminate D); vm_compute; reflexivity.
Qed.
Print Assumptions C12_exceptions_aead.

Lemma beq_neq a b : beq a b = false -> a <> b.
Proof. unfold beq. destruct (list_eq_dec _ a b); congruence. Qed.

(** ** C27: the interleaved implementations are for little-endian hosts

    On a big-endian host their round functions rotate the wrong way round
    for odd amounts: already one application of the permutation differs
    from the standard. *)
Theorem C27_interleaved_wrong_on_big_endian : forall w,
  word_host w BE = false ->
  exists S, length S = 40%nat /\
    store_state BE (word_ops w BE) (w_P (word_ops w BE) 12 (load_state BE (word_ops w BE) S)) <> p 12 S.
Proof.
  intros w H. exists (count 0 40). split; [reflexivity|]. apply beq_neq. rewrite fp_eq.
  destruct w; [discriminate H|discriminate H|vm_compute; reflexivity..].
Qed.
Print Assumptions C27_interleaved_wrong_on_big_endian.
Example C27_interleaved : word_host W_bi32 BE = false /\ word_host W_bi32_lowreg BE = false /\ word_host W_bi8 BE = false.
Proof. repeat split. Qed.

(** Decidable form of: the call returns 0 and leaves at [p] bytes that are
    readable, as many as [x] has, and not [x]. *)
Definition wrong_outputb (r : outcome Z) (p : ptr) (x : bytes) : bool :=
  match r with
  | Done _ M' z => (z =? 0)%Z && (p + len x <? 2 ^ 64) && negb (p =? 0) &&
      match read_bytes (length x) M' p with Some d => negb (beq d x) | None => false end
  | Bad _ => false
  end.
Lemma length_read_bytes n M : forall p l, read_bytes n M p = Some l -> length l = n.
Proof.
  induction n as [|n IH]; intros p l H; cbn [read_bytes] in H; [injection H as <-; reflexivity|].
  destruct (rd M p); [|discriminate]. destruct (read_bytes n M (p + 1)) eqn:E; [|discriminate].
  injection H as <-. cbn. f_equal. eapply IH, E.
Qed.
Lemma wrong_outputb_ok r p x : wrong_outputb r p x = true ->
  exists t M' d, r = Done t M' 0%Z /\ readable M' p d /\ len d = len x /\ d <> x.
Proof.
  unfold wrong_outputb. destruct r as [t M' z|]; [|discriminate]. intros H.
  apply andb_prop in H as [H0 H3]. apply andb_prop in H0 as [H0 H2]. apply andb_prop in H0 as [H0 H1].
  apply Z.eqb_eq in H0 as ->. destruct (read_bytes (length x) M' p) as [d|] eqn:E; [|discriminate].
  pose proof (length_read_bytes _ _ _ _ E) as L.
  exists t, M', d. split; [reflexivity|]. assert (Ld : len d = len x) by (unfold len; rewrite L; reflexivity).
  split; [|split; [exact Ld|]].
  - split; [lia|]. split; [intros _; unfold NULL; lia|]. rewrite L. apply (read_bytes_nth _ _ _ _ E).
  - apply beq_neq. destruct (beq d x); [discriminate|reflexivity].
Qed.
Lemma wrong_outputb_ok' r p n x : len x = n -> wrong_outputb r p x = true ->
  exists t M' d, r = Done t M' 0%Z /\ readable M' p d /\ len d = n /\ d <> x.
Proof. intros <-. apply wrong_outputb_ok. Qed.

(** The 8-bit code writes its initialisation constants as 64-bit numbers
    into a byte-ordered state, without the byte swap of the other
    directories: on a big-endian host the digest of the empty message and
    the ciphertext of this message are not those of the standard. *)
Theorem C27_opt8_wrong_on_big_endian :
  (forall i, i = HASH_byte B_opt8 \/ i = HASH_byte_low B_opt8 \/ i = HASH_byte_comb B_opt8 -> forall a,
     exists t M' d, hash_of i a BE 0x2000 0x1300 0 demo_hash = Done t M' 0%Z /\
       readable M' 0x2000 d /\ len d = hash_len a /\ d <> hash_fun a []) /\
  (forall i, i = AEAD_byte B_opt8 \/ i = AEAD_byte_low B_opt8 \/ i = AEAD_byte_comb B_opt8 ->
     exists t M' ct,
       encrypt_of i BE 0x2000 0x2100 0x1300 (len demo_msg) 0x1200 (len demo_ad) 0 0x1100 0x1000 demo_enc = Done t M' 0%Z /\
       readable M' 0x2000 ct /\ len ct = len demo_msg + 16 /\
       ct <> aead_encrypt demo_key demo_nonce demo_ad demo_msg).
Proof.
  split.
  - intros i Hi a. apply wrong_outputb_ok' with (x := hash_fun a []); [destruct a; reflexivity|].
    destruct a; cbn [hash_fun]; [rewrite f_hash256|rewrite f_xof128];
      (destruct Hi as [Hi | [Hi | Hi]]; subst i; vm_compute; reflexivity).
  - intros i Hi. rewrite f_aead_encrypt. apply wrong_outputb_ok' with (x := g_aead_encrypt fp demo_key demo_nonce demo_ad demo_msg);
      [vm_compute; reflexivity|].
    destruct Hi as [Hi | [Hi | Hi]]; subst i; vm_compute; reflexivity.
Qed.
Print Assumptions C27_opt8_wrong_on_big_endian.
