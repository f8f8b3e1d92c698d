(** * AvxCt.v -- the AVX-512 implementation: secret-independent traces, and
    termination for every argument. *)
From Coq Require Import Bool Arith NArith ZArith List Lia Init.Byte ZifyBool ZifyNat ZifyN.
From Verif Require Import Words WordFacts CMem Contract CMemFacts ModelRef Ct RefCt ModelCommon ComCt ModelAvx.
Import ListNotations.
Local Open Scope N_scope.
Ltac Zify.zify_post_hook ::= Z.div_mod_to_equations.

Definition zpub3 (a b : zmm * ptr * N) : Prop := snd (fst a) = snd (fst b) /\ snd a = snd b.
Definition zpub4 (a b : zmm * ptr * ptr * N) : Prop :=
  snd (fst (fst a)) = snd (fst (fst b)) /\ snd (fst a) = snd (fst b) /\ snd a = snd b.

Lemma ct_maskz_loadu n p : ct any (maskz_loadu n p) (maskz_loadu n p).
Proof. unfold maskz_loadu. eapply ct_bind; [apply ct_memcpy_in|]. intros. apply ct_ret. exact I. Qed.
Lemma ct_mask_storeu n p a b : ct any (mask_storeu n p a) (mask_storeu n p b).
Proof. apply ct_memcpy_out. rewrite !firstn_length. reflexivity. Qed.

Local Ltac zc1 :=
  match goal with
  | |- ct _ (bind (maskz_loadu _ _) _) (bind (maskz_loadu _ _) _) =>
      eapply ct_bind; [apply ct_maskz_loadu|]; intros ? ? _
  | |- ct _ (bind (mask_storeu _ _ _) _) (bind (mask_storeu _ _ _) _) =>
      eapply ct_bind; [apply ct_mask_storeu|]; intros ? ? _
  | |- ct _ (bind (wLOAD _ _ _) _) (bind (wLOAD _ _ _) _) =>
      eapply ct_bind; [apply ct_wLOAD|]; intros ? ? _
  | |- ct _ (bind (wLOADBYTES _ _ _ _) _) (bind (wLOADBYTES _ _ _ _) _) =>
      eapply ct_bind; [apply ct_wLOADBYTES|]; intros ? ? _
  | |- ct _ (wSTOREBYTES _ _ _ _ _) (wSTOREBYTES _ _ _ _ _) => apply ct_wSTOREBYTES
  | |- ct _ (bind (wPAD _ _) _) (bind (wPAD _ _) _) =>
      eapply ct_bind; [apply ct_wPAD|]; intros ? ? _
  | |- ct _ (bind (padd _ _) _) (bind (padd _ _) _) =>
      eapply ct_bind; [apply ct_padd|]; intros ? ? [-> ->]
  | |- ct _ (ret _) (ret _) => apply ct_ret; first [exact I | unfold zpub3, zpub4; cbn [fst snd]; repeat split; reflexivity]
  end.

Lemma ct_z_initaead u u' K K' npub : ct any (z_initaead u K npub) (z_initaead u' K' npub).
Proof. unfold z_initaead. destruct K, K'. repeat zc1. Qed.
Lemma ct_z_adata z z' ad n : ct any (z_adata z ad n) (z_adata z' ad n).
Proof.
  unfold z_adata. eapply ct_bind; [apply ct_branch|]. intros ? ? [-> ->].
  eapply ct_bind with (R := any); [|intros; apply ct_ret; constructor].
  destruct (negb (n =? 0)); [|apply ct_ret; constructor].
  eapply ct_bind.
  - apply (ct_while zpub3); [| |split; reflexivity].
    + intros [[x1 a1] n1] [[x2 a2] n2] [E1 E2]. cbn [fst snd] in *. subst. reflexivity.
    + intros [[x1 a1] n1] [[x2 a2] n2] [E1 E2]. cbn [fst snd] in E1, E2; subst. unfold z_ad_body. repeat zc1.
  - intros [[x1 a1] n1] [[x2 a2] n2] [E1 E2]. cbn [fst snd] in E1, E2; subst.
    eapply ct_bind with (R := any); [apply ct_ad_last|intros; apply ct_ret; constructor].
Qed.
Lemma ct_z_encrypt z z' c m n : ct any (z_encrypt z c m n) (z_encrypt z' c m n).
Proof.
  unfold z_encrypt. eapply ct_bind.
  - apply (ct_while zpub4); [| |repeat split].
    + intros [[[x1 a1] b1] n1] [[[x2 a2] b2] n2] (E1 & E2 & E3). cbn [fst snd] in *. subst. reflexivity.
    + intros [[[x1 a1] b1] n1] [[[x2 a2] b2] n2] (E1 & E2 & E3). cbn [fst snd] in E1, E2, E3; subst.
      unfold z_enc_body. repeat zc1.
  - intros [[[x1 a1] b1] n1] [[[x2 a2] b2] n2] (E1 & E2 & E3). cbn [fst snd] in E1, E2, E3; subst.
    eapply ct_bind with (R := any); [apply ct_enc_last|intros; apply ct_ret; constructor].
Qed.
Lemma ct_z_decrypt z z' c m n : ct any (z_decrypt z m c n) (z_decrypt z' m c n).
Proof.
  unfold z_decrypt. eapply ct_bind.
  - apply (ct_while zpub4); [| |repeat split].
    + intros [[[x1 a1] b1] n1] [[[x2 a2] b2] n2] (E1 & E2 & E3). cbn [fst snd] in *. subst. reflexivity.
    + intros [[[x1 a1] b1] n1] [[[x2 a2] b2] n2] (E1 & E2 & E3). cbn [fst snd] in E1, E2, E3; subst.
      unfold z_dec_body. repeat zc1.
  - intros [[[x1 a1] b1] n1] [[[x2 a2] b2] n2] (E1 & E2 & E3). cbn [fst snd] in E1, E2, E3; subst.
    eapply ct_bind with (R := any); [apply ct_dec_last|intros; apply ct_ret; constructor].
Qed.

(** The indeterminate lanes [u], [u'] may even differ. *)
Theorem ct_avx_encrypt u u' c clen m mlen ad adlen nsec npub k :
  ct any (avx_aead_encrypt u c clen m mlen ad adlen nsec npub k)
         (avx_aead_encrypt u' c clen m mlen ad adlen nsec npub k).
Proof.
  unfold avx_aead_encrypt, z_aead_encrypt.
  eapply ct_bind; [apply ct_store_ull|]. intros _ _ _.
  eapply ct_bind; [apply ct_padd|]. intros ? ? [-> ->].
  eapply ct_bind; [apply ct_loadkey|]. intros K K' _.
  eapply ct_bind; [apply ct_z_initaead|]. intros s1 s1' _.
  eapply ct_bind; [apply ct_z_adata|]. intros s2 s2' _.
  eapply ct_bind; [apply ct_z_encrypt|]. intros s3 s3' _.
  eapply ct_bind; [apply ct_gettag|]. intros. apply ct_ret. exact I.
Qed.
Theorem ct_avx_decrypt u u' m mlen nsec c clen ad adlen npub k :
  ct any (avx_aead_decrypt u m mlen nsec c clen ad adlen npub k)
         (avx_aead_decrypt u' m mlen nsec c clen ad adlen npub k).
Proof.
  unfold avx_aead_decrypt. eapply ct_bind; [apply ct_branch|]. intros ? ? [-> ->].
  destruct (clen <? CRYPTO_ABYTES); [apply ct_ret; constructor|].
  eapply ct_ext; [intro; apply (stored_length LE), fits_sub64..|]. cbv beta.
  unfold z_aead_decrypt. eapply ct_bind; [apply ct_store_ull|]. intros _ _ _.
  eapply ct_bind; [apply ct_load_ull|]. intros _ _ _.
  eapply ct_bind; [apply ct_padd|]. intros ? ? [-> ->].
  eapply ct_bind; [apply ct_load_ull|]. intros _ _ _.
  eapply ct_bind; [apply ct_loadkey|]. intros K K' _.
  eapply ct_bind; [apply ct_z_initaead|]. intros s1 s1' _.
  eapply ct_bind; [apply ct_z_adata|]. intros s2 s2' _.
  eapply ct_bind; [apply ct_z_decrypt|]. intros s3 s3' _. apply ct_verify.
Qed.
Theorem ct_avx_xof iv out outlen inp n : ct any (avx_xof iv out outlen inp n) (avx_xof iv out outlen inp n).
Proof.
  unfold avx_xof. eapply ct_bind with (R := any).
  - unfold z_absorb. eapply ct_bind.
    + apply (ct_while zpub3); [| |split; reflexivity].
      * intros [[x1 a1] n1] [[x2 a2] n2] [E1 E2]. cbn [fst snd] in *. subst. reflexivity.
      * intros [[x1 a1] n1] [[x2 a2] n2] [E1 E2]. cbn [fst snd] in E1, E2; subst. unfold z_absorb_body. repeat zc1.
    + intros [[x1 a1] n1] [[x2 a2] n2] [E1 E2]. cbn [fst snd] in E1, E2; subst. repeat zc1.
  - intros z z' _. eapply ct_bind with (R := any); [|intros; apply ct_ret; exact I].
    unfold z_squeeze. eapply ct_bind.
    + apply (ct_while zpub3); [| |split; reflexivity].
      * intros [[x1 a1] n1] [[x2 a2] n2] [E1 E2]. cbn [fst snd] in *. subst. reflexivity.
      * intros [[x1 a1] n1] [[x2 a2] n2] [E1 E2]. cbn [fst snd] in E1, E2; subst. unfold z_squeeze_body. repeat zc1.
    + intros [[x1 a1] n1] [[x2 a2] n2] [E1 E2]. cbn [fst snd] in E1, E2; subst. repeat zc1.
Qed.

(** ** Termination *)

Lemma post_maskz_loadu n p : post top (maskz_loadu n p).
Proof. unfold maskz_loadu. eapply post_bind; [apply post_memcpy_in|]. intros. apply post_ret. exact I. Qed.
Lemma post_mask_storeu n p a : post top (mask_storeu n p a).
Proof. apply post_memcpy_out. Qed.

Local Ltac zp1 :=
  match goal with
  | |- post _ (bind (maskz_loadu _ _) _) => eapply post_bind; [apply post_maskz_loadu|]; intros ? _
  | |- post _ (bind (mask_storeu _ _ _) _) => eapply post_bind; [apply post_mask_storeu|]; intros ? _
  | |- post _ (bind (wLOAD _ _ _) _) => eapply post_bind; [apply post_wLOAD|]; intros ? _
  | |- post _ (bind (wLOADBYTES _ _ _ _) _) => eapply post_bind; [apply post_wLOADBYTES|]; intros ? _
  | |- post _ (bind (wSTOREBYTES _ _ _ _ _) _) => eapply post_bind; [apply post_wSTOREBYTES|]; intros ? _
  | |- post top (wSTOREBYTES _ _ _ _ _) => apply post_wSTOREBYTES
  | |- post _ (bind (wPAD _ _) _) => eapply post_bind; [apply post_wPAD|]; intros ? _
  | _ => po1
  end.

Lemma post_z_adata z ad n : n < 2 ^ 64 -> post top (z_adata z ad n).
Proof.
  intros Hn. unfold z_adata. zp1. eapply post_bind with (Q := top); [|intros; apply post_ret; exact I].
  destruct (negb (n =? 0)); [|repeat zp1].
  eapply post_bind.
  - apply (post_shrink (fun v : zmm * ptr * N => snd v) 16 _ _ (z, ad, n)); [lia|exact Hn| |].
    + intros [[x a] l]. cbn [fst snd]. lia.
    + intros [[x a] l]. unfold z_ad_body. repeat zp1.
  - intros [[x a] l] _. eapply post_bind with (Q := top); [apply post_ad_last|intros; apply post_ret; exact I].
Qed.
Lemma post_z_encrypt z c m n : n < 2 ^ 64 -> post top (z_encrypt z c m n).
Proof.
  intros Hn. unfold z_encrypt. eapply post_bind.
  - apply (post_shrink (fun v : zmm * ptr * ptr * N => snd v) 16 _ _ (z, m, c, n)); [lia|exact Hn| |].
    + intros [[[x a] b] l]. cbn [fst snd]. lia.
    + intros [[[x a] b] l]. unfold z_enc_body. repeat zp1.
  - intros [[[x a] b] l] _. eapply post_bind with (Q := top); [apply post_enc_last|intros; apply post_ret; exact I].
Qed.
Lemma post_z_decrypt z c m n : n < 2 ^ 64 -> post top (z_decrypt z m c n).
Proof.
  intros Hn. unfold z_decrypt. eapply post_bind.
  - apply (post_shrink (fun v : zmm * ptr * ptr * N => snd v) 16 _ _ (z, m, c, n)); [lia|exact Hn| |].
    + intros [[[x a] b] l]. cbn [fst snd]. lia.
    + intros [[[x a] b] l]. unfold z_dec_body. repeat zp1.
  - intros [[[x a] b] l] _. eapply post_bind with (Q := top); [apply post_dec_last|intros; apply post_ret; exact I].
Qed.
Lemma post_z_initaead u K npub : post top (z_initaead u K npub).
Proof. unfold z_initaead. destruct K. repeat zp1. Qed.

Theorem post_avx_encrypt u c clen m mlen ad adlen nsec npub k : mlen < 2 ^ 64 -> adlen < 2 ^ 64 ->
  post top (avx_aead_encrypt u c clen m mlen ad adlen nsec npub k).
Proof.
  intros H1 H2. unfold avx_aead_encrypt, z_aead_encrypt. zp1. zp1.
  eapply post_bind; [apply post_loadkey|]. intros K _.
  eapply post_bind; [apply post_z_initaead|]. intros s1 _.
  eapply post_bind; [apply post_z_adata, H2|]. intros s2 _.
  eapply post_bind; [apply post_z_encrypt, H1|]. intros s3 _.
  eapply post_bind with (Q := top); [unfold ascon_gettag; repeat zp1|]. intros; repeat zp1.
Qed.
Theorem post_avx_decrypt u m mlen nsec c clen ad adlen npub k : adlen < 2 ^ 64 ->
  post top (avx_aead_decrypt u m mlen nsec c clen ad adlen npub k).
Proof.
  intros H2. unfold avx_aead_decrypt. zp1. destruct (clen <? CRYPTO_ABYTES); [repeat zp1|].
  eapply post_ext; [intro; apply (stored_length LE), fits_sub64|].
  cbv beta. unfold z_aead_decrypt. eapply post_bind; [apply post_store_ull|]. intros _ _.
  eapply post_bind; [apply post_load_ull|]. intros _ _. zp1.
  eapply post_bind; [apply post_load_ull|]. intros _ _.
  eapply post_bind; [apply post_loadkey|]. intros K _.
  eapply post_bind; [apply post_z_initaead|]. intros s1 _.
  eapply post_bind; [apply post_z_adata, H2|]. intros s2 _.
  eapply post_bind; [apply post_z_decrypt, sub64_lt|]. intros s3 _. unfold ascon_verify. repeat zp1.
Qed.
Theorem post_avx_xof iv out outlen inp n : n < 2 ^ 64 -> outlen < 2 ^ 64 -> post top (avx_xof iv out outlen inp n).
Proof.
  intros H1 H2. unfold avx_xof.
  eapply post_bind with (Q := top).
  - unfold z_absorb. eapply post_bind.
    + apply (post_shrink (fun v : zmm * ptr * N => snd v) 8 _ _ (_, inp, n)); [lia|exact H1| |].
      * intros [[x a] l]. cbn [fst snd]. lia.
      * intros [[x a] l]. unfold z_absorb_body. repeat zp1.
    + intros [[x a] l] _. repeat zp1.
  - intros s _. eapply post_bind with (Q := top); [|intros; repeat zp1].
    unfold z_squeeze. eapply post_bind.
    + eapply (post_shrink (fun v : zmm * ptr * N => snd v) 8 _ _ (_, out, outlen)); [lia|exact H2| |].
      * intros [[x a] l]. cbn [fst snd]. lia.
      * intros [[x a] l]. unfold z_squeeze_body. repeat zp1.
    + intros [[x a] l] _. repeat zp1.
Qed.
