(** * ComCt.v -- the optimised family: secret-independent traces, and
    termination for every argument, whatever the word representation. *)
From Coq Require Import Bool Arith NArith ZArith List Lia Init.Byte ZifyBool ZifyNat ZifyN.
From Verif Require Import Words WordFacts CMem Contract CMemFacts ModelRef Ct RefCt ModelCommon.
Import ListNotations.
Local Open Scope N_scope.
Ltac Zify.zify_post_hook ::= Z.div_mod_to_equations.

Section Family.
Variable e : endian.
Variable o : wordops.

Lemma ct_wLOADBYTES p n : ct any (wLOADBYTES e o p n) (wLOADBYTES e o p n).
Proof.
  unfold wLOADBYTES. destruct (8 <? n); [apply ct_fail_l|].
  eapply ct_bind; [apply ct_memcpy_in|]. intros. apply ct_ret. exact I.
Qed.
Lemma ct_wLOAD p : ct any (wLOAD e o p) (wLOAD e o p).
Proof. apply ct_wLOADBYTES. Qed.
Lemma ct_wSTOREBYTES p x y n : ct any (wSTOREBYTES e o p x n) (wSTOREBYTES e o p y n).
Proof.
  unfold wSTOREBYTES. destruct (8 <? n); [apply ct_fail_l|].
  apply ct_memcpy_out. rewrite !firstn_length, !length_to_host. reflexivity.
Qed.
Lemma ct_wSTORE p x y : ct any (wSTORE e o p x) (wSTORE e o p y).
Proof. apply ct_wSTOREBYTES. Qed.
Lemma ct_wPAD n : ct any (wPAD o n) (wPAD o n).
Proof. unfold wPAD. destruct (n <? 8); [apply ct_ret; exact I|apply ct_fail_l]. Qed.
Lemma ct_wCLEAR x y n : ct any (wCLEAR o x n) (wCLEAR o y n).
Proof. unfold wCLEAR. destruct (n <? 8); [apply ct_ret; exact I|apply ct_fail_l]. Qed.

Definition pub5 (a b : state * N * ptr * ptr * N) : Prop :=
  snd (fst (fst (fst a))) = snd (fst (fst (fst b))) /\ snd (fst (fst a)) = snd (fst (fst b)) /\
  snd (fst a) = snd (fst b) /\ snd a = snd b.

Ltac cc1 :=
  match goal with
  | |- ct _ (bind (wLOAD _ _ _) _) (bind (wLOAD _ _ _) _) =>
      eapply ct_bind; [apply ct_wLOAD|]; intros ? ? _
  | |- ct _ (bind (wSTORE _ _ _ _) _) (bind (wSTORE _ _ _ _) _) =>
      eapply ct_bind; [apply ct_wSTORE|]; intros ? ? _
  | |- ct _ (bind (wLOADBYTES _ _ _ _) _) (bind (wLOADBYTES _ _ _ _) _) =>
      eapply ct_bind; [apply ct_wLOADBYTES|]; intros ? ? _
  | |- ct _ (bind (wSTOREBYTES _ _ _ _ _) _) (bind (wSTOREBYTES _ _ _ _ _) _) =>
      eapply ct_bind; [apply ct_wSTOREBYTES|]; intros ? ? _
  | |- ct _ (bind (wPAD _ _) _) (bind (wPAD _ _) _) =>
      eapply ct_bind; [apply ct_wPAD|]; intros ? ? _
  | |- ct _ (bind (wCLEAR _ _ _) _) (bind (wCLEAR _ _ _) _) =>
      eapply ct_bind; [apply ct_wCLEAR|]; intros ? ? _
  | |- ct _ (wSTOREBYTES _ _ _ _ _) (wSTOREBYTES _ _ _ _ _) => apply ct_wSTOREBYTES
  | |- ct _ (ret _) (ret _) => apply ct_ret; unfold pub5; cbn [fst snd]; solve [repeat split; reflexivity]
  | _ => ct1
  end.
Ltac cct := repeat cc1.

Lemma ct_loadkey k : ct any (ascon_loadkey e o k) (ascon_loadkey e o k).
Proof. unfold ascon_loadkey. cct. Qed.
Lemma ct_initaead K K' npub : ct any (ascon_initaead e o K npub) (ascon_initaead e o K' npub).
Proof. unfold ascon_initaead. destruct K, K'. cct. Qed.
Lemma ct_ad_body v w : pub3 v w -> ct pub3 (ad_body e o v) (ad_body e o w).
Proof. destruct v as [[s a] n], w as [[s' a'] n']. intros [E1 E2]; cbn [fst snd] in E1, E2; subst. unfold ad_body. cct. Qed.
Lemma ct_ad_last s s' ad n : ct any (ad_last e o s ad n) (ad_last e o s' ad n).
Proof.
  unfold ad_last. cc1. eapply ct_bind with (R := pubi); [cct|].
  intros [[[y1 p1] b1] l1] [[[y2 p2] b2] l2] (E1 & E2 & E3). cbn [fst snd] in E1, E2, E3; subst. cct.
Qed.
Lemma ct_adata s s' ad n : ct any (ascon_adata e o s ad n) (ascon_adata e o s' ad n).
Proof.
  unfold ascon_adata. cc1. eapply ct_bind with (R := any); [|intros; apply ct_ret; constructor].
  destruct (negb (n =? 0)); [|apply ct_ret; constructor].
  eapply ct_bind.
  - apply (ct_while pub3); [|apply ct_ad_body|split; reflexivity].
    intros [[x1 a1] n1] [[x2 a2] n2] [E1 E2]. cbn [fst snd] in *. subst. reflexivity.
  - intros [[x1 a1] n1] [[x2 a2] n2] [E1 E2]. cbn [fst snd] in E1, E2; subst.
    eapply ct_bind with (R := any); [apply ct_ad_last|intros; apply ct_ret; constructor].
Qed.
Lemma ct_enc_body v w : pub4 v w -> ct pub4 (enc_body e o v) (enc_body e o w).
Proof.
  destruct v as [[[s a] b] n], w as [[[s' a'] b'] n']. intros (E1 & E2 & E3); cbn [fst snd] in E1, E2, E3; subst.
  unfold enc_body. cct.
Qed.
Lemma ct_dec_body v w : pub4 v w -> ct pub4 (dec_body e o v) (dec_body e o w).
Proof.
  destruct v as [[[s a] b] n], w as [[[s' a'] b'] n']. intros (E1 & E2 & E3); cbn [fst snd] in E1, E2, E3; subst.
  unfold dec_body. cct.
Qed.
Lemma ct_enc_last s s' c m n : ct any (enc_last e o s c m n) (enc_last e o s' c m n).
Proof.
  unfold enc_last. cc1. eapply ct_bind with (R := pub5); [cct|].
  intros [[[[y1 p1] c1] b1] l1] [[[[y2 p2] c2] b3] l2] (E1 & E2 & E3 & E4). cbn [fst snd] in E1, E2, E3, E4; subst.
  cct.
Qed.
Lemma ct_enc s s' c m n : ct any (ascon_encrypt e o s c m n) (ascon_encrypt e o s' c m n).
Proof.
  unfold ascon_encrypt. eapply ct_bind.
  - apply (ct_while pub4); [|apply ct_enc_body|repeat split].
    intros [[[x1 a1] b1] n1] [[[x2 a2] b2] n2] (E1 & E2 & E3). cbn [fst snd] in *. subst. reflexivity.
  - intros [[[x1 a1] b1] n1] [[[x2 a2] b2] n2] (E1 & E2 & E3). cbn [fst snd] in E1, E2, E3; subst.
    apply ct_enc_last.
Qed.
Lemma ct_dec_last s s' c m n : ct any (dec_last e o s c m n) (dec_last e o s' c m n).
Proof.
  unfold dec_last. cc1. eapply ct_bind with (R := pub5); [cct|].
  intros [[[[y1 p1] c1] b1] l1] [[[[y2 p2] c2] b3] l2] (E1 & E2 & E3 & E4). cbn [fst snd] in E1, E2, E3, E4; subst.
  cct.
Qed.
Lemma ct_dec s s' c m n : ct any (ascon_decrypt e o s c m n) (ascon_decrypt e o s' c m n).
Proof.
  unfold ascon_decrypt. eapply ct_bind.
  - apply (ct_while pub4); [|apply ct_dec_body|repeat split].
    intros [[[x1 a1] b1] n1] [[[x2 a2] b2] n2] (E1 & E2 & E3). cbn [fst snd] in *. subst. reflexivity.
  - intros [[[x1 a1] b1] n1] [[[x2 a2] b2] n2] (E1 & E2 & E3). cbn [fst snd] in E1, E2, E3; subst.
    apply ct_dec_last.
Qed.
Lemma ct_gettag s s' t : ct any (ascon_gettag e o s t) (ascon_gettag e o s' t).
Proof. unfold ascon_gettag. cct. Qed.
Lemma ct_verify s s' t : ct any (ascon_verify e o s t) (ascon_verify e o s' t).
Proof. unfold ascon_verify. cct. Qed.

Theorem ct_com_encrypt c clen m mlen ad adlen nsec npub k :
  ct any (com_aead_encrypt e o c clen m mlen ad adlen nsec npub k)
         (com_aead_encrypt e o c clen m mlen ad adlen nsec npub k).
Proof.
  unfold com_aead_encrypt, ascon_aead_encrypt. cc1. cc1.
  eapply ct_bind; [apply ct_loadkey|]. intros K K' _.
  eapply ct_bind; [apply ct_initaead|]. intros s1 s1' _.
  eapply ct_bind; [apply ct_adata|]. intros s2 s2' _.
  eapply ct_bind; [apply ct_enc|]. intros s3 s3' _.
  eapply ct_bind; [apply ct_gettag|]. intros. cct.
Qed.

(** Reading back what has just been written. *)
Lemma load_after_store p x M t N u : fits 64 x -> store_ull e p x M = Done t N u ->
  exists t', load_ull e p N = Done t' N x.
Proof.
  intros Hx. unfold store_ull, memcpy_out. destruct (p =? 0) eqn:P; [discriminate|].
  destruct (_ <=? _) eqn:B; [discriminate|]. destruct (all_writable _ M p); [|discriminate].
  intros H. injection H as _ <- _.
  assert (R : readable (write M p (to_host e 8 x)) p (to_host e 8 x)).
  { rewrite length_to_host in B. apply readable_write_self; [unfold len; rewrite length_to_host; lia|]. intros _. lia. }
  destruct (runs_load_ull e _ p x R Hx) as (t' & H'). exists t'. exact H'.
Qed.
Lemma stored_length {A} p x c (f : ptr -> N -> C A) M : fits 64 x ->
  (store_ull e p x ;;; n <- load_ull e p ;; t <- padd c n ;; n <- load_ull e p ;; f t n) M =
  (store_ull e p x ;;; load_ull e p ;;; t <- padd c x ;; load_ull e p ;;; f t x) M.
Proof.
  intros Hx. unfold bind. destruct (store_ull e p x M) as [t N u|] eqn:S; [|reflexivity].
  destruct (load_after_store p x M t N u Hx S) as (t' & L). rewrite L.
  assert (D : forall u N1 v, padd c x N = Done u N1 v -> N1 = N).
  { intros u0 N1 v. unfold padd. destruct (_ && _); [discriminate|]. destruct (_ <=? _); [discriminate|].
    intros H. injection H as _ <- _. reflexivity. }
  destruct (padd c x N) as [t1 N1 v|] eqn:P; [|reflexivity].
  rewrite (D _ _ _ eq_refl). rewrite L. reflexivity.
Qed.
Lemma ct_load_ull p : ct any (load_ull e p) (load_ull e p).
Proof. unfold load_ull. eapply ct_bind; [apply ct_memcpy_in|]. intros. apply ct_ret. exact I. Qed.
Lemma ct_ext {A} (R : A -> A -> Prop) c1 c2 d1 d2 :
  (forall M, c1 M = d1 M) -> (forall M, c2 M = d2 M) -> ct R d1 d2 -> ct R c1 c2.
Proof. intros E1 E2 H M1 M2 t1 t2 N1 N2 v1 v2 F1 F2. rewrite E1 in F1. rewrite E2 in F2. exact (H _ _ _ _ _ _ _ _ F1 F2). Qed.
Lemma fits_sub64 n r : fits 64 (sub64 n r).
Proof. unfold fits. apply sub64_lt. Qed.

Theorem ct_com_decrypt m mlen nsec c clen ad adlen npub k :
  ct any (com_aead_decrypt e o m mlen nsec c clen ad adlen npub k)
         (com_aead_decrypt e o m mlen nsec c clen ad adlen npub k).
Proof.
  unfold com_aead_decrypt. cc1. destruct (clen <? CRYPTO_ABYTES); [apply ct_ret; constructor|].
  eapply ct_ext; [intro; apply stored_length, fits_sub64..|]. cbv beta.
  unfold ascon_aead_decrypt. eapply ct_bind; [apply ct_store_ull|]. intros _ _ _.
  eapply ct_bind; [apply ct_load_ull|]. intros _ _ _. cc1.
  eapply ct_bind; [apply ct_load_ull|]. intros _ _ _.
  eapply ct_bind; [apply ct_loadkey|]. intros K K' _.
  eapply ct_bind; [apply ct_initaead|]. intros s1 s1' _.
  eapply ct_bind; [apply ct_adata|]. intros s2 s2' _.
  eapply ct_bind; [apply ct_dec|]. intros s3 s3' _. apply ct_verify.
Qed.

Lemma ct_absorb s s' inp n : ct any (ascon_absorb e o s inp n) (ascon_absorb e o s' inp n).
Proof.
  unfold ascon_absorb. eapply ct_bind.
  - apply (ct_while pub3); [| |split; reflexivity].
    + intros [[x1 a1] n1] [[x2 a2] n2] [E1 E2]. cbn [fst snd] in *. subst. reflexivity.
    + intros [[x1 a1] n1] [[x2 a2] n2] [E1 E2]. cbn [fst snd] in E1, E2; subst. unfold absorb_body. cct.
  - intros [[x1 a1] n1] [[x2 a2] n2] [E1 E2]. cbn [fst snd] in E1, E2; subst. cct.
Qed.
Lemma ct_squeeze s s' out n : ct any (ascon_squeeze e o s out n) (ascon_squeeze e o s' out n).
Proof.
  unfold ascon_squeeze. eapply ct_bind.
  - apply (ct_while pub3); [| |split; reflexivity].
    + intros [[x1 a1] n1] [[x2 a2] n2] [E1 E2]. cbn [fst snd] in *. subst. reflexivity.
    + intros [[x1 a1] n1] [[x2 a2] n2] [E1 E2]. cbn [fst snd] in E1, E2; subst. unfold squeeze_body. cct.
  - intros [[x1 a1] n1] [[x2 a2] n2] [E1 E2]. cbn [fst snd] in E1, E2; subst. cct.
Qed.
Theorem ct_com_xof iv out outlen inp n : ct any (ascon_xof e o iv out outlen inp n) (ascon_xof e o iv out outlen inp n).
Proof.
  unfold ascon_xof. eapply ct_bind; [apply ct_absorb|]. intros.
  eapply ct_bind; [apply ct_squeeze|]. intros. apply ct_ret; constructor.
Qed.

Lemma ct_prf_absorb_body v w : pubi v w -> ct pubi (prf_absorb_body e o v) (prf_absorb_body e o w).
Proof.
  destruct v as [[[s i] b] n], w as [[[s' i'] b'] n']. intros (E1 & E2 & E3); cbn [fst snd] in E1, E2, E3; subst.
  unfold prf_absorb_body. cct.
Qed.
Lemma ct_prf_squeeze_body v w : pubi v w -> ct pubi (prf_squeeze_body e o v) (prf_squeeze_body e o w).
Proof.
  destruct v as [[[s i] b] n], w as [[[s' i'] b'] n']. intros (E1 & E2 & E3); cbn [fst snd] in E1, E2, E3; subst.
  unfold prf_squeeze_body. cct.
Qed.
Theorem ct_com_prf IV cb out outlen inp inlen k :
  ct any (com_prf e o IV cb out outlen inp inlen k) (com_prf e o IV cb out outlen inp inlen k).
Proof.
  unfold com_prf. cc1. destruct (cb <? outlen); [apply ct_ret; constructor|]. cc1. cc1. cc1.
  eapply ct_bind.
  - apply (ct_while pubi); [|apply ct_prf_absorb_body|repeat split].
    intros [[[x1 a1] b1] n1] [[[x2 a2] b2] n2] (E1 & E2 & E3). cbn [fst snd] in *. subst. reflexivity.
  - intros [[[x1 i1] b1] n1] [[[x2 i2] b2] n2] (E1 & E2 & E3). cbn [fst snd] in E1, E2, E3; subst. cc1.
    eapply ct_bind with (R := any); [cct|]. intros. cc1.
    eapply ct_bind.
    + apply (ct_while pubi); [|apply ct_prf_squeeze_body|repeat split].
      intros [[[y1 j1] c1] n4] [[[y2 j2] c2] n3] (E1 & E2 & E3). cbn [fst snd] in *. subst. reflexivity.
    + intros [[[y1 j1] c1] n4] [[[y2 j2] c2] n3] (E1 & E2 & E3). cbn [fst snd] in E1, E2, E3; subst. cct.
Qed.
Theorem ct_com_verify IV cb sp h inp inlen k :
  ct any (com_auth_verify e o IV cb sp h inp inlen k) (com_auth_verify e o IV cb sp h inp inlen k).
Proof.
  unfold com_auth_verify. apply ct_with_local. eapply ct_bind; [apply ct_com_prf|]. intros.
  eapply ct_bind; [apply ct_diff_loop_mem|]. intros. apply ct_ret; constructor.
Qed.
Theorem ct_com_prfs out outlen inp inlen k :
  ct any (com_prfs e o out outlen inp inlen k) (com_prfs e o out outlen inp inlen k).
Proof.
  unfold com_prfs. cc1. destruct (16 <? inlen); [apply ct_ret; constructor|]. cc1.
  destruct (16 <? outlen); [apply ct_ret; constructor|]. do 5 cc1.
  eapply ct_bind with (R := any); [cct|]. intros. cc1. eapply ct_bind with (R := any); [cct|].
  intros. cct.
Qed.
Theorem ct_com_prfs_verify sp h inp inlen k :
  ct any (com_prfs_verify e o sp h inp inlen k) (com_prfs_verify e o sp h inp inlen k).
Proof.
  unfold com_prfs_verify. cc1. destruct (16 <? inlen); [apply ct_ret; constructor|].
  apply ct_with_local. eapply ct_bind; [apply ct_com_prfs|]. intros.
  eapply ct_bind; [apply ct_diff_loop_mem|]. intros. apply ct_ret; constructor.
Qed.

(** ** Termination for all arguments *)

Lemma post_wLOADBYTES p n : post top (wLOADBYTES e o p n).
Proof.
  unfold wLOADBYTES. destruct (8 <? n); [apply post_fail; discriminate|].
  eapply post_bind; [apply post_memcpy_in|]. intros. apply post_ret. exact I.
Qed.
Lemma post_wLOAD p : post top (wLOAD e o p).
Proof. apply post_wLOADBYTES. Qed.
Lemma post_wSTOREBYTES p x n : post top (wSTOREBYTES e o p x n).
Proof. unfold wSTOREBYTES. destruct (8 <? n); [apply post_fail; discriminate|]. apply post_memcpy_out. Qed.
Lemma post_wSTORE p x : post top (wSTORE e o p x).
Proof. apply post_wSTOREBYTES. Qed.
Lemma post_wPAD n : post top (wPAD o n).
Proof. unfold wPAD. destruct (n <? 8); [apply post_ret; exact I|apply post_fail; discriminate]. Qed.
Lemma post_wCLEAR x n : post top (wCLEAR o x n).
Proof. unfold wCLEAR. destruct (n <? 8); [apply post_ret; exact I|apply post_fail; discriminate]. Qed.

Ltac pc1 :=
  match goal with
  | |- post _ (bind (wLOAD _ _ _) _) => eapply post_bind; [apply post_wLOAD|]; intros ? _
  | |- post _ (bind (wSTORE _ _ _ _) _) => eapply post_bind; [apply post_wSTORE|]; intros ? _
  | |- post _ (bind (wLOADBYTES _ _ _ _) _) => eapply post_bind; [apply post_wLOADBYTES|]; intros ? _
  | |- post _ (bind (wSTOREBYTES _ _ _ _ _) _) => eapply post_bind; [apply post_wSTOREBYTES|]; intros ? _
  | |- post _ (bind (wPAD _ _) _) => eapply post_bind; [apply post_wPAD|]; intros ? _
  | |- post _ (bind (wCLEAR _ _ _) _) => eapply post_bind; [apply post_wCLEAR|]; intros ? _
  | |- post top (wSTOREBYTES _ _ _ _ _) => apply post_wSTOREBYTES
  | _ => po1
  end.
Ltac pct := repeat pc1.

Lemma post_ad_last s ad n : post top (ad_last e o s ad n).
Proof.
  unfold ad_last. pc1. eapply post_bind with (Q := top); [pct|]. intros [[[y p] b] q] _. pct.
Qed.
Lemma post_enc_last s m c n : post top (enc_last e o s m c n).
Proof.
  unfold enc_last. pc1. eapply post_bind with (Q := top); [pct|]. intros [[[[y p] b1] b2] q] _. pct.
Qed.
Lemma post_dec_last s m c n : post top (dec_last e o s m c n).
Proof.
  unfold dec_last. pc1. eapply post_bind with (Q := top); [pct|]. intros [[[[y p] b1] b2] q] _. pct.
Qed.
Lemma post_adata s ad n : n < 2 ^ 64 -> post top (ascon_adata e o s ad n).
Proof.
  intros Hn. unfold ascon_adata. pc1. eapply post_bind with (Q := top); [|intros; apply post_ret; exact I].
  destruct (negb (n =? 0)); [|pct].
  eapply post_bind.
  - apply (post_shrink (fun v : state * ptr * N => snd v) 16 _ _ (s, ad, n)); [lia|exact Hn| |].
    + intros [[x a] l]. cbn [fst snd]. lia.
    + intros [[x a] l]. unfold ad_body. pct.
  - intros [[x a] l] _. eapply post_bind with (Q := top); [apply post_ad_last|intros; apply post_ret; exact I].
Qed.
Lemma post_enc s c m n : n < 2 ^ 64 -> post top (ascon_encrypt e o s c m n).
Proof.
  intros Hn. unfold ascon_encrypt. eapply post_bind.
  - apply (post_shrink (fun v : state * ptr * ptr * N => snd v) 16 _ _ (s, m, c, n)); [lia|exact Hn| |].
    + intros [[[x a] b] l]. cbn [fst snd]. lia.
    + intros [[[x a] b] l]. unfold enc_body. pct.
  - intros [[[x a] b] l] _. apply post_enc_last.
Qed.
Lemma post_dec s c m n : n < 2 ^ 64 -> post top (ascon_decrypt e o s m c n).
Proof.
  intros Hn. unfold ascon_decrypt. eapply post_bind.
  - apply (post_shrink (fun v : state * ptr * ptr * N => snd v) 16 _ _ (s, m, c, n)); [lia|exact Hn| |].
    + intros [[[x a] b] l]. cbn [fst snd]. lia.
    + intros [[[x a] b] l]. unfold dec_body. pct.
  - intros [[[x a] b] l] _. apply post_dec_last.
Qed.
Lemma post_loadkey k : post top (ascon_loadkey e o k).
Proof. unfold ascon_loadkey. pct. Qed.
Lemma post_initaead K npub : post top (ascon_initaead e o K npub).
Proof. unfold ascon_initaead. destruct K. pct. Qed.
Theorem post_com_encrypt c clen m mlen ad adlen nsec npub k : mlen < 2 ^ 64 -> adlen < 2 ^ 64 ->
  post top (com_aead_encrypt e o c clen m mlen ad adlen nsec npub k).
Proof.
  intros H1 H2. unfold com_aead_encrypt, ascon_aead_encrypt. pc1. pc1.
  eapply post_bind; [apply post_loadkey|]. intros K _.
  eapply post_bind; [apply post_initaead|]. intros s1 _.
  eapply post_bind; [apply post_adata, H2|]. intros s2 _.
  eapply post_bind; [apply post_enc, H1|]. intros s3 _.
  eapply post_bind with (Q := top); [unfold ascon_gettag; pct|]. intros; pct.
Qed.
Lemma post_ext {A} (Q : A -> Prop) c d : (forall M, c M = d M) -> post Q d -> post Q c.
Proof. intros E H M. rewrite E. apply H. Qed.
Theorem post_com_decrypt m mlen nsec c clen ad adlen npub k : adlen < 2 ^ 64 ->
  post top (com_aead_decrypt e o m mlen nsec c clen ad adlen npub k).
Proof.
  intros H2. unfold com_aead_decrypt. pc1. destruct (clen <? CRYPTO_ABYTES); [pct|].
  eapply post_ext; [intro; apply stored_length, fits_sub64|].
  cbv beta. unfold ascon_aead_decrypt. eapply post_bind; [apply post_store_ull|]. intros _ _.
  eapply post_bind; [apply post_load_ull|]. intros _ _. pc1.
  eapply post_bind; [apply post_load_ull|]. intros _ _.
  eapply post_bind; [apply post_loadkey|]. intros K _.
  eapply post_bind; [apply post_initaead|]. intros s1 _.
  eapply post_bind; [apply post_adata, H2|]. intros s2 _.
  eapply post_bind; [apply post_dec, sub64_lt|]. intros s3 _. unfold ascon_verify. pct.
Qed.
Theorem post_com_xof iv out outlen inp n : n < 2 ^ 64 -> outlen < 2 ^ 64 -> post top (ascon_xof e o iv out outlen inp n).
Proof.
  intros H1 H2. unfold ascon_xof.
  eapply post_bind with (Q := top).
  - unfold ascon_absorb. eapply post_bind.
    + apply (post_shrink (fun v : state * ptr * N => snd v) 8 _ _ (iv, inp, n)); [lia|exact H1| |].
      * intros [[x a] l]. cbn [fst snd]. lia.
      * intros [[x a] l]. unfold absorb_body. pct.
    + intros [[x a] l] _. pct.
  - intros s _. eapply post_bind with (Q := top); [|intros; pct].
    unfold ascon_squeeze. eapply post_bind.
    + eapply (post_shrink (fun v : state * ptr * N => snd v) 8 _ _ (_, out, outlen)); [lia|exact H2| |].
      * intros [[x a] l]. cbn [fst snd]. lia.
      * intros [[x a] l]. unfold squeeze_body. pct.
    + intros [[x a] l] _. pct.
Qed.
Theorem post_com_prf IV cb out outlen inp inlen k : outlen < 2 ^ 64 -> inlen < 2 ^ 64 ->
  post top (com_prf e o IV cb out outlen inp inlen k).
Proof.
  intros H1 H2. unfold com_prf. pc1. destruct (cb <? outlen); [pct|]. do 3 pc1.
  eapply post_bind.
  - eapply (post_shrink (fun v : state * N * ptr * N => snd v) 8 _ _ (_, 0, inp, inlen)); [lia|exact H2| |].
    + intros [[[x i] a] l]. cbn [fst snd]. lia.
    + intros [[[x i] a] l]. unfold prf_absorb_body. pct.
  - intros [[[x i] a] l] _. pc1. eapply post_bind with (Q := top); [pct|]. intros. pc1. eapply post_bind.
    + eapply (post_shrink (fun v : state * N * ptr * N => snd v) 8 _ _ (_, 0, out, outlen)); [lia|exact H1| |].
      * intros [[[y j] b] q]. cbn [fst snd]. lia.
      * intros [[[y j] b] q]. unfold prf_squeeze_body. pct.
    + intros [[[y j] b] q] _. pct.
Qed.
Theorem post_com_verify IV cb sp h inp inlen k : cb < 2 ^ 64 -> inlen < 2 ^ 64 ->
  post top (com_auth_verify e o IV cb sp h inp inlen k).
Proof.
  intros H1 H2. apply post_with_local. eapply post_bind; [apply post_com_prf; assumption|]. intros.
  eapply post_bind; [apply post_diff_loop_mem|]. intros. pct.
Qed.
Theorem post_com_prfs out outlen inp inlen k : post top (com_prfs e o out outlen inp inlen k).
Proof.
  unfold com_prfs. pc1. destruct (16 <? inlen); [pct|]. pc1.
  destruct (16 <? outlen); [pct|]. do 5 pc1.
  eapply post_bind with (Q := top); [pct|]. intros. pc1.
  eapply post_bind with (Q := top); [pct|]. intros. pct.
Qed.
Theorem post_com_prfs_verify sp h inp inlen k : post top (com_prfs_verify e o sp h inp inlen k).
Proof.
  unfold com_prfs_verify. pc1. destruct (16 <? inlen); [pct|].
  apply post_with_local. eapply post_bind; [apply post_com_prfs|]. intros.
  eapply post_bind; [apply post_diff_loop_mem|]. intros. pct.
Qed.
End Family.
