(** * NeonCt.v -- the NEON implementation: secret-independent traces, and
    termination for lengths below 2^32. *)
From Coq Require Import Bool Arith NArith ZArith List Lia Init.Byte ZifyBool ZifyNat ZifyN.
From Verif Require Import Words WordFacts CMem Contract CMemFacts ModelRef Ct RefCt ModelCommon ComCt ModelNeon NeonAead.
Import ListNotations.
Local Open Scope N_scope.

Definition npub5 (a b : dregs * ptr * N * N * flags) : Prop :=
  let '(_, p, h, l, f) := a in let '(_, p', h', l', f') := b in p = p' /\ h = h' /\ l = l' /\ f = f'.
Definition npub6 (a b : dregs * ptr * ptr * N * N * flags) : Prop :=
  let '(_, p, q, h, l, f) := a in let '(_, p', q', h', l', f') := b in p = p' /\ q = q' /\ h = h' /\ l = l' /\ f = f'.

Lemma ct_vldm p : ct any (vldm p) (vldm p).
Proof.
  unfold vldm. destruct (p mod 4 =? 0); [|apply ct_fail_l].
  eapply ct_bind; [apply ct_memcpy_in|]. intros. apply ct_ret. exact I.
Qed.
Lemma ct_vstm p a b a' b' : ct any (vstm p a b) (vstm p a' b').
Proof. unfold vstm. destruct (p mod 4 =? 0); [|apply ct_fail_l]. apply ct_memcpy_out. rewrite !app_length, !length_le_bytes. reflexivity. Qed.

Local Ltac zc1 :=
  match goal with
  | |- ct _ (bind (vldm _) _) (bind (vldm _) _) => eapply ct_bind; [apply ct_vldm|]; intros ? ? _
  | |- ct _ (bind (vstm _ _ _) _) (bind (vstm _ _ _) _) => eapply ct_bind; [apply ct_vstm|]; intros ? ? _
  | |- ct _ (bind (padd _ _) _) (bind (padd _ _) _) => eapply ct_bind; [apply ct_padd|]; intros ? ? [-> ->]
  | |- ct _ (ret _) (ret _) => apply ct_ret; first [exact I | unfold npub5, npub6; repeat split; reflexivity]
  end.

Lemma ct_nAD u s s' ad n :
  ct (fun a b => snd (fst a) = snd (fst b) /\ snd a = snd b) (nAD u s ad n) (nAD u s' ad n).
Proof.
  unfold nAD. eapply ct_bind.
  - apply (ct_while npub5); [| |repeat split].
    + intros [[[[x1 a1] h1] n1] f1] [[[[x2 a2] h2] n2] f2] (E1 & E2 & E3 & E4). subst. reflexivity.
    + intros [[[[x1 a1] h1] n1] f1] [[[[x2 a2] h2] n2] f2] (E1 & E2 & E3 & E4). subst. unfold n_ad_body. repeat zc1.
  - intros [[[[x1 a1] h1] n1] f1] [[[[x2 a2] h2] n2] f2] (E1 & E2 & E3 & E4). subst.
    apply ct_ret. split; reflexivity.
Qed.
Lemma ct_n_adata u s s' ad n : ct any (n_adata u s ad n) (n_adata u s' ad n).
Proof.
  unfold n_adata. eapply ct_bind; [apply ct_branch|]. intros ? ? [-> ->].
  eapply ct_bind with (R := any); [|intros; apply ct_ret; constructor].
  destruct (negb (n =? 0)); [|apply ct_ret; constructor].
  eapply ct_bind; [apply ct_nAD|]. intros [[s1 a1] n1] [[s2 a2] n2] [E1 E2]. cbn [fst snd] in E1, E2. subst.
  eapply ct_bind with (R := any); [apply ct_ad_last|intros; apply ct_ret; constructor].
Qed.

Lemma ct_n_encrypt u s s' c m n : ct any (n_encrypt u s c m n) (n_encrypt u s' c m n).
Proof.
  unfold n_encrypt, nPT. eapply ct_bind with
    (R := fun a b : state * ptr * ptr * N => snd (fst (fst a)) = snd (fst (fst b)) /\ snd (fst a) = snd (fst b) /\ snd a = snd b).
  - eapply ct_bind.
    + apply (ct_while npub6); [| |repeat split].
      * intros [[[[[x1 a1] b1] h1] n1] f1] [[[[[x2 a2] b2] h2] n2] f2] (E1 & E2 & E3 & E4 & E5). subst. reflexivity.
      * intros [[[[[x1 a1] b1] h1] n1] f1] [[[[[x2 a2] b2] h2] n2] f2] (E1 & E2 & E3 & E4 & E5). subst.
        unfold n_enc_body. repeat zc1.
    + intros [[[[[x1 a1] b1] h1] n1] f1] [[[[[x2 a2] b2] h2] n2] f2] (E1 & E2 & E3 & E4 & E5). subst.
      apply ct_ret. repeat split; reflexivity.
  - intros [[[s1 a1] b1] n1] [[[s2 a2] b2] n2] (E1 & E2 & E3). cbn [fst snd] in E1, E2, E3. subst. apply ct_enc_last.
Qed.
Lemma ct_n_decrypt u s s' c m n : ct any (n_decrypt u s m c n) (n_decrypt u s' m c n).
Proof.
  unfold n_decrypt, nCT. eapply ct_bind with
    (R := fun a b : state * ptr * ptr * N => snd (fst (fst a)) = snd (fst (fst b)) /\ snd (fst a) = snd (fst b) /\ snd a = snd b).
  - eapply ct_bind.
    + apply (ct_while npub6); [| |repeat split].
      * intros [[[[[x1 a1] b1] h1] n1] f1] [[[[[x2 a2] b2] h2] n2] f2] (E1 & E2 & E3 & E4 & E5). subst. reflexivity.
      * intros [[[[[x1 a1] b1] h1] n1] f1] [[[[[x2 a2] b2] h2] n2] f2] (E1 & E2 & E3 & E4 & E5). subst.
        unfold n_dec_body. repeat zc1.
    + intros [[[[[x1 a1] b1] h1] n1] f1] [[[[[x2 a2] b2] h2] n2] f2] (E1 & E2 & E3 & E4 & E5). subst.
      apply ct_ret. repeat split; reflexivity.
  - intros [[[s1 a1] b1] n1] [[[s2 a2] b2] n2] (E1 & E2 & E3). cbn [fst snd] in E1, E2, E3. subst. apply ct_dec_last.
Qed.

Theorem ct_neon_encrypt u c clen m mlen ad adlen nsec npub k :
  ct any (neon_aead_encrypt u c clen m mlen ad adlen nsec npub k)
         (neon_aead_encrypt u c clen m mlen ad adlen nsec npub k).
Proof.
  unfold neon_aead_encrypt, n_aead_encrypt.
  eapply ct_bind; [apply ct_store_ull|]. intros _ _ _.
  eapply ct_bind; [apply ct_padd|]. intros ? ? [-> ->].
  eapply ct_bind; [apply ct_loadkey|]. intros K K' _.
  eapply ct_bind; [apply ct_initaead|]. intros s1 s1' _.
  eapply ct_bind; [apply ct_n_adata|]. intros s2 s2' _.
  eapply ct_bind; [apply ct_n_encrypt|]. intros s3 s3' _.
  eapply ct_bind; [apply ct_gettag|]. intros. apply ct_ret. exact I.
Qed.
Theorem ct_neon_decrypt u m mlen nsec c clen ad adlen npub k :
  ct any (neon_aead_decrypt u m mlen nsec c clen ad adlen npub k)
         (neon_aead_decrypt u m mlen nsec c clen ad adlen npub k).
Proof.
  unfold neon_aead_decrypt. eapply ct_bind; [apply ct_branch|]. intros ? ? [-> ->].
  destruct (clen <? CRYPTO_ABYTES); [apply ct_ret; constructor|].
  eapply ct_ext; [intro; apply (stored_length LE), fits_sub64..|]. cbv beta.
  unfold n_aead_decrypt. eapply ct_bind; [apply ct_store_ull|]. intros _ _ _.
  eapply ct_bind; [apply ct_load_ull|]. intros _ _ _.
  eapply ct_bind; [apply ct_padd|]. intros ? ? [-> ->].
  eapply ct_bind; [apply ct_load_ull|]. intros _ _ _.
  eapply ct_bind; [apply ct_loadkey|]. intros K K' _.
  eapply ct_bind; [apply ct_initaead|]. intros s1 s1' _.
  eapply ct_bind; [apply ct_n_adata|]. intros s2 s2' _.
  eapply ct_bind; [apply ct_n_decrypt|]. intros s3 s3' _. apply ct_verify.
Qed.

(** ** Termination *)

Lemma post_vldm p : post top (vldm p).
Proof.
  unfold vldm. destruct (p mod 4 =? 0); [|apply post_fail; discriminate].
  eapply post_bind; [apply post_memcpy_in|]. intros. apply post_ret. exact I.
Qed.
Lemma post_vstm p a b : post top (vstm p a b).
Proof. unfold vstm. destruct (p mod 4 =? 0); [|apply post_fail; discriminate]. apply post_memcpy_out. Qed.

Local Ltac zp1 :=
  match goal with
  | |- post _ (bind (vldm _) _) => eapply post_bind; [apply post_vldm|]; intros ? _
  | |- post _ (bind (vstm _ _ _) _) => eapply post_bind; [apply post_vstm|]; intros ? _
  | |- post _ (bind (wLOADBYTES _ _ _ _) _) => eapply post_bind; [apply post_wLOADBYTES|]; intros ? _
  | |- post _ (bind (wLOAD _ _ _) _) => eapply post_bind; [apply post_wLOAD|]; intros ? _
  | |- post _ (bind (wSTOREBYTES _ _ _ _ _) _) => eapply post_bind; [apply post_wSTOREBYTES|]; intros ? _
  | |- post top (wSTOREBYTES _ _ _ _ _) => apply post_wSTOREBYTES
  | _ => po1
  end.

(** The loops: the upper half of the length stays 0, the lower shrinks. *)
Definition ninv (h l : N) (f : flags) : Prop := h = 0 /\ l < 2 ^ 32 /\ f = cmplen 0 l.
Lemma ninv_step h l f : ninv h l f -> is_hi f = true ->
  ninv (sbc32 f h 0) (sub32 l 16) (cmplen (sbc32 f h 0) (sub32 l 16)) /\
  (N.to_nat (sub32 l 16 / 16) < N.to_nat (l / 16))%nat.
Proof.
  intros (-> & Hl & ->) H. rewrite sbc_hi by exact H. rewrite hi_cmplen in H.
  rewrite sub32_small by lia. split; [repeat split; lia|].
  assert (l = l - 16 + 1 * 16) by lia. assert (l / 16 = (l - 16) / 16 + 1) by (rewrite H0 at 1; apply N.div_add; lia). lia.
Qed.
Lemma ninv_0 n : n < 2 ^ 32 -> ninv (trunc 32 (shrw n 32)) (trunc 32 n) (cmplen (trunc 32 (shrw n 32)) (trunc 32 n)).
Proof. intros H. rewrite hi_small, lo_small by exact H. repeat split. exact H. Qed.

Lemma post_nAD u s ad n : n < 2 ^ 32 -> post top (nAD u s ad n).
Proof.
  intros Hn. unfold nAD. eapply post_bind.
  - apply (post_while (fun v : dregs * ptr * N * N * flags => let '(_, _, h, l, f) := v in ninv h l f)
             (fun v => let '(_, _, _, l, _) := v in N.to_nat (l / 16))).
    + intros [[[[x a] h] l] f] Hi Hc. unfold n_ad_body. zp1. zp1. apply post_ret. apply ninv_step; assumption.
    + apply ninv_0, Hn.
    + unfold fuel. rewrite lo_small by exact Hn. lia.
  - intros [[[[x a] h] l] f] _. zp1.
Qed.
Lemma post_n_adata u s ad n : n < 2 ^ 32 -> post top (n_adata u s ad n).
Proof.
  intros Hn. unfold n_adata. zp1. eapply post_bind with (Q := top); [|intros; apply post_ret; exact I].
  destruct (negb (n =? 0)); [|repeat zp1].
  eapply post_bind; [apply post_nAD, Hn|]. intros [[s1 a1] n1] _.
  eapply post_bind with (Q := top); [apply post_ad_last|intros; apply post_ret; exact I].
Qed.
Lemma post_n_encrypt u s c m n : n < 2 ^ 32 -> post top (n_encrypt u s c m n).
Proof.
  intros Hn. unfold n_encrypt. eapply post_bind with (Q := top).
  - unfold nPT. eapply post_bind.
    + apply (post_while (fun v : dregs * ptr * ptr * N * N * flags => let '(_, _, _, h, l, f) := v in ninv h l f)
             (fun v => let '(_, _, _, _, l, _) := v in N.to_nat (l / 16))).
      * intros [[[[[x a] b] h] l] f] Hi Hc. unfold n_enc_body. repeat zp1. apply ninv_step; assumption.
      * apply ninv_0, Hn.
      * unfold fuel. rewrite lo_small by exact Hn. lia.
    + intros [[[[[x a] b] h] l] f] _. zp1.
  - intros [[[s1 a1] b1] n1] _. apply post_enc_last.
Qed.
Lemma post_n_decrypt u s c m n : n < 2 ^ 32 -> post top (n_decrypt u s m c n).
Proof.
  intros Hn. unfold n_decrypt. eapply post_bind with (Q := top).
  - unfold nCT. eapply post_bind.
    + apply (post_while (fun v : dregs * ptr * ptr * N * N * flags => let '(_, _, _, h, l, f) := v in ninv h l f)
             (fun v => let '(_, _, _, _, l, _) := v in N.to_nat (l / 16))).
      * intros [[[[[x a] b] h] l] f] Hi Hc. unfold n_dec_body. repeat zp1. apply ninv_step; assumption.
      * apply ninv_0, Hn.
      * unfold fuel. rewrite lo_small by exact Hn. lia.
    + intros [[[[[x a] b] h] l] f] _. zp1.
  - intros [[[s1 a1] b1] n1] _. apply post_dec_last.
Qed.

Theorem post_neon_encrypt u c clen m mlen ad adlen nsec npub k : mlen < 2 ^ 32 -> adlen < 2 ^ 32 ->
  post top (neon_aead_encrypt u c clen m mlen ad adlen nsec npub k).
Proof.
  intros H1 H2. unfold neon_aead_encrypt, n_aead_encrypt. zp1. zp1.
  eapply post_bind; [apply post_loadkey|]. intros K _.
  eapply post_bind; [apply post_initaead|]. intros s1 _.
  eapply post_bind; [apply post_n_adata, H2|]. intros s2 _.
  eapply post_bind; [apply post_n_encrypt, H1|]. intros s3 _.
  eapply post_bind with (Q := top); [unfold ascon_gettag; repeat zp1|]. intros; repeat zp1.
Qed.
Theorem post_neon_decrypt u m mlen nsec c clen ad adlen npub k : clen < 2 ^ 32 + 16 -> adlen < 2 ^ 32 ->
  post top (neon_aead_decrypt u m mlen nsec c clen ad adlen npub k).
Proof.
  intros H1 H2. unfold neon_aead_decrypt. zp1. destruct (N.ltb_spec clen CRYPTO_ABYTES) as [H|H]; [repeat zp1|].
  eapply post_ext; [intro; apply (stored_length LE), fits_sub64|].
  cbv beta. unfold n_aead_decrypt. eapply post_bind; [apply post_store_ull|]. intros _ _.
  eapply post_bind; [apply post_load_ull|]. intros _ _. zp1.
  eapply post_bind; [apply post_load_ull|]. intros _ _.
  eapply post_bind; [apply post_loadkey|]. intros K _.
  eapply post_bind; [apply post_initaead|]. intros s1 _.
  eapply post_bind; [apply post_n_adata, H2|]. intros s2 _.
  eapply post_bind; [apply post_n_decrypt|]. { unfold CRYPTO_ABYTES in *. rewrite sub64_small by lia. lia. }
  intros s3 _. unfold ascon_verify. repeat zp1.
Qed.
