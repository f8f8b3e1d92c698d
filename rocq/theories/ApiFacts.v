(** * ApiFacts.v -- consequences of conformance, for any implementation. *)
From Coq Require Import Bool Arith NArith ZArith List Lia Init.Byte Strings.Byte ZifyBool ZifyNat ZifyN.
From Verif Require Import Words WordFacts Spec SpecFacts CMem Contract CMemFacts ApiSpec AeadFacts.
Import ListNotations.
Local Open Scope N_scope.

Lemma returns_runs {A} (c : C A) M M' v : runs c M M' v -> returns c M M' v.
Proof. intros [t H]. exists t, M'. auto. Qed.

Lemma returns_ext {A} (c : C A) M M' M'' v :
  returns c M M' v -> (forall a, M' a = M'' a) -> returns c M M'' v.
Proof. intros (t & M1 & H & E) E'. exists t, M1. split; [exact H|]. intros a. rewrite E. apply E'. Qed.

Lemma readable_ext M M' q l : (forall a, M' a = M a) -> readable M q l -> readable M' q l.
Proof.
  intros E (Hb & Hn & Hr). split; [exact Hb|]. split; [exact Hn|]. intros i Hi.
  rewrite <- (Hr i Hi). unfold rd. rewrite E. reflexivity.
Qed.

Lemma len_nat l n : (length l = n)%nat -> len l = N.of_nat n.
Proof. intros <-. reflexivity. Qed.

Lemma ct_split ct : 16 <= len ct ->
  ct = ct_body ct ++ ct_tag ct /\ len (ct_body ct) = len ct - 16 /\ length (ct_tag ct) = 16%nat.
Proof.
  intros H. unfold ct_body, ct_tag. split; [symmetry; apply firstn_skipn|].
  unfold len in *. rewrite firstn_length, skipn_length. lia.
Qed.

Lemma ct_body_app b t : length t = 16%nat -> ct_body (b ++ t) = b.
Proof. intros H. unfold ct_body. rewrite app_length, H. apply firstn_app_exact. lia. Qed.
Lemma ct_tag_app b t : length t = 16%nat -> ct_tag (b ++ t) = t.
Proof. intros H. unfold ct_tag. rewrite app_length, H. apply skipn_app_exact. lia. Qed.

Lemma aead_decrypt_unfold k n ad ct : 16 <= len ct ->
  aead_decrypt k n ad ct =
  let '(m, t) := aead_open k n ad (ct_body ct) in
  if list_eq_dec Byte.byte_eq_dec t (ct_tag ct) then Some m else None.
Proof.
  intros H. unfold aead_decrypt, ct_body, ct_tag. unfold len in H.
  replace (length ct <? 16)%nat with false by lia. reflexivity.
Qed.

Lemma load_after_write e M q x (Q : mem) :
  (forall a, Q a = write M q (to_host e 8 x) a) -> q + 8 < 2 ^ 64 -> q <> 0 -> fits 64 x ->
  runs (load_ull e q) Q Q x.
Proof.
  intros E Hb Hq Hx. apply runs_load_ull; [|exact Hx].
  apply (readable_ext (write M q (to_host e 8 x))); [exact E|].
  apply readable_write_self; [|intros _; exact Hq]. unfold len. rewrite length_to_host. lia.
Qed.

Section Encrypt.
Variables (e : endian) (d : demands) (f : encrypt_fn).
Hypothesis (Hf : encrypt_conforms e d f).

Lemma enc_result M c clen m ad nsec npub k mb adb nb kb :
  encrypt_pre d M c clen m ad npub k mb adb nb kb ->
  exists t M', f c clen m (len mb) ad (len adb) nsec npub k M = Done t M' 0%Z /\
    readable M' c (aead_encrypt kb nb adb mb) /\
    (forall a, outside c (len mb + 16) a -> outside clen 8 a -> M' a = M a) /\
    (disjoint clen 8 c (len mb + 16) -> runs (load_ull e clen) M' M' (len mb + 16)).
Proof.
  intros P. pose proof (Hf M c clen m ad nsec npub k mb adb nb kb P) as (t & M' & H & E).
  pose proof (ep_c _ _ _ _ _ _ _ _ _ _ _ _ P) as (Wb & Wn & _).
  pose proof (ep_clen _ _ _ _ _ _ _ _ _ _ _ _ P) as (Cb & Cn & _).
  pose proof (len_nat _ _ (length_aead_encrypt kb nb adb mb)) as L.
  assert (L' : len (aead_encrypt kb nb adb mb) = len mb + 16) by (rewrite L; unfold len; lia).
  exists t, M'. split; [exact H|]. split; [|split].
  - eapply readable_ext; [exact E|]. apply readable_write_self; [lia|]. intros _. apply Wn. lia.
  - intros a H1 H2. rewrite E, write_outside by (rewrite L'; exact H1).
    apply write_outside. unfold len at 1. rewrite length_to_host. exact H2.
  - intros D. apply runs_load_ull; [|unfold fits; lia].
    eapply readable_ext; [exact E|]. apply readable_write_disjoint.
    + apply readable_write_self; [|intros _; apply Cn; lia]. unfold len at 1. rewrite length_to_host. lia.
    + rewrite L'. unfold len at 2. rewrite length_to_host. apply disjoint_sym, D.
Qed.
End Encrypt.

Section Decrypt.
Variables (e : endian) (d : demands) (g : decrypt_fn).
Hypothesis (Hg : decrypt_conforms e d g).

Lemma dec_result M m mlen nsec c ad npub k ct adb nb kb :
  decrypt_pre d M m mlen c ad npub k ct adb nb kb ->
  exists t M' r mb,
    g m mlen nsec c (len ct) ad (len adb) npub k M = Done t M' r /\
    (r = match aead_decrypt kb nb adb ct with Some _ => 0 | None => -1 end)%Z /\
    mb = fst (aead_open kb nb adb (ct_body ct)) /\ len mb = len ct - 16 /\
    (forall m0, aead_decrypt kb nb adb ct = Some m0 -> m0 = mb) /\
    readable M' m mb /\
    (forall a, outside m (len ct - 16) a -> outside mlen 8 a -> M' a = M a) /\
    (disjoint mlen 8 m (len ct - 16) -> runs (load_ull e mlen) M' M' (len ct - 16)).
Proof.
  intros P. destruct (aead_open kb nb adb (ct_body ct)) as [mb t] eqn:O.
  pose proof (Hg M m mlen nsec c ad npub k ct adb nb kb mb t P O) as (tr & M' & H & E).
  pose proof (dp_m _ _ _ _ _ _ _ _ _ _ _ _ P) as (Wb & Wn & _).
  pose proof (dp_mlen _ _ _ _ _ _ _ _ _ _ _ _ P) as (Cb & Cn & _).
  pose proof (dp_len _ _ _ _ _ _ _ _ _ _ _ _ P) as Hlen.
  pose proof (readable_bound _ _ _ (dp_c _ _ _ _ _ _ _ _ _ _ _ _ P)) as Hcb.
  destruct (aead_open_encrypt _ _ _ _ _ _ O) as (L1 & L2 & _).
  destruct (ct_split ct Hlen) as (Es & L3 & L4).
  assert (L : len mb = len ct - 16) by (unfold len in *; lia).
  exists tr, M', (if list_eq_dec Byte.byte_eq_dec t (ct_tag ct) then 0 else -1)%Z, mb.
  split; [exact H|]. split; [|split; [|split; [|split; [|split; [|split]]]]].
  - rewrite aead_decrypt_unfold, O by exact Hlen.
    destruct (list_eq_dec Byte.byte_eq_dec t (ct_tag ct)); reflexivity.
  - reflexivity.
  - exact L.
  - intros m0. rewrite aead_decrypt_unfold, O by exact Hlen.
    destruct (list_eq_dec Byte.byte_eq_dec t (ct_tag ct)); congruence.
  - eapply readable_ext; [exact E|]. apply readable_write_self; [lia|].
    intros Hne. apply Wn. destruct mb; [congruence|]. rewrite len_cons in L. lia.
  - intros a H1 H2. rewrite E, write_outside by (rewrite L; exact H1).
    apply write_outside. unfold len at 1. rewrite length_to_host. exact H2.
  - intros D. apply runs_load_ull; [|unfold fits; lia].
    eapply readable_ext; [exact E|]. apply readable_write_disjoint.
    + apply readable_write_self; [|intros _; apply Cn; lia]. unfold len at 1. rewrite length_to_host. lia.
    + rewrite L. unfold len at 2. rewrite length_to_host. apply disjoint_sym, D.
Qed.
End Decrypt.
