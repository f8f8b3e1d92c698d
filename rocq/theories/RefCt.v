(** * RefCt.v -- the reference implementation: secret-independent traces,
    and termination for every argument. *)
From Coq Require Import Bool Arith NArith ZArith List Lia Init.Byte ZifyBool ZifyNat ZifyN.
From Verif Require Import Words WordFacts CMem Contract CMemFacts ModelRef Ct.
Import ListNotations.
Local Open Scope N_scope.
Ltac Zify.zify_post_hook ::= Z.div_mod_to_equations.

Lemma ct_LOADBYTES p n : ct any (LOADBYTES p n) (LOADBYTES p n).
Proof.
  unfold LOADBYTES. apply ct_for; [|constructor]. intros i s1 s2 _.
  eapply ct_bind; [apply ct_ld|]. intros a b _. apply ct_ret. constructor.
Qed.
Lemma ct_STOREBYTES p x y n : ct any (STOREBYTES p x n) (STOREBYTES p y n).
Proof. unfold STOREBYTES. apply ct_for; [|constructor]. intros i s1 s2 _. apply ct_st. Qed.

(** Related triples: same pointers and lengths, arbitrary secrets. *)
Definition pub3 (a b : state * ptr * N) : Prop := snd (fst a) = snd (fst b) /\ snd a = snd b.
Definition pub4 (a b : state * ptr * ptr * N) : Prop :=
  snd (fst (fst a)) = snd (fst (fst b)) /\ snd (fst a) = snd (fst b) /\ snd a = snd b.
Definition pubi (a b : state * N * ptr * N) : Prop :=
  snd (fst (fst a)) = snd (fst (fst b)) /\ snd (fst a) = snd (fst b) /\ snd a = snd b.
Definition pub2 (a b : state * ptr) : Prop := snd a = snd b.

Ltac ct1 :=
  match goal with
  | |- ct _ (bind (branch ?b) _) (bind (branch ?b) _) =>
      eapply ct_bind; [apply ct_branch|]; intros ? ? [-> ->]
  | |- ct _ (bind (padd _ _) _) (bind (padd _ _) _) =>
      eapply ct_bind; [apply ct_padd|]; intros ? ? [-> ->]
  | |- ct _ (bind (LOADBYTES _ _) _) (bind (LOADBYTES _ _) _) =>
      eapply ct_bind; [apply ct_LOADBYTES|]; intros ? ? _
  | |- ct _ (bind (STOREBYTES _ _ _) _) (bind (STOREBYTES _ _ _) _) =>
      eapply ct_bind; [apply ct_STOREBYTES|]; intros ? ? _
  | |- ct _ (bind (store_ull _ _ _) _) (bind (store_ull _ _ _) _) =>
      eapply ct_bind; [apply ct_store_ull|]; intros ? ? _
  | |- ct _ (bind (bind _ _) _) (bind (bind _ _) _) => eapply ct_bind
  | |- ct _ (if ?b then _ else _) (if ?b then _ else _) => destruct b
  | |- ct _ (STOREBYTES _ _ _) (STOREBYTES _ _ _) => apply ct_STOREBYTES
  | |- ct _ (LOADBYTES _ _) (LOADBYTES _ _) => apply ct_LOADBYTES
  | |- ct _ (ret _) (ret _) => apply ct_ret; first [exact I | unfold pub2, pub3, pub4, pubi; cbn [fst snd]; repeat split; reflexivity]
  end.
Ltac ctt := repeat ct1.

Lemma ct_ref_init npub k : ct any (ref_init npub k) (ref_init npub k).
Proof. unfold ref_init. ctt. Qed.

Lemma ct_ref_ad_body v w : pub3 v w -> ct pub3 (ref_ad_body v) (ref_ad_body w).
Proof. destruct v as [[s a] n], w as [[s' a'] n']. intros [E1 E2]; cbn [fst snd] in E1, E2; subst. unfold ref_ad_body. ctt. Qed.

Lemma ct_ref_adata s s' ad n : ct any (ref_adata s ad n) (ref_adata s' ad n).
Proof.
  unfold ref_adata. ct1. eapply ct_bind with (R := any); [|intros; apply ct_ret; constructor].
  destruct (negb (n =? 0)); [|apply ct_ret; constructor].
  eapply ct_bind.
  - apply (ct_while pub3); [|apply ct_ref_ad_body|split; reflexivity].
    intros [[x1 a1] n1] [[x2 a2] n2] [E1 E2]. cbn [fst snd] in *. subst. reflexivity.
  - intros [[x1 a1] n1] [[x2 a2] n2] [E1 E2]. cbn [fst snd] in E1, E2; subst.
    ct1. eapply ct_bind with (R := any); [|intros; apply ct_ret; constructor]. ctt.
Qed.

Lemma ct_ref_enc_body v w : pub4 v w -> ct pub4 (ref_enc_body v) (ref_enc_body w).
Proof.
  destruct v as [[[s a] b] n], w as [[[s' a'] b'] n']. intros (E1 & E2 & E3); cbn [fst snd] in E1, E2, E3; subst.
  unfold ref_enc_body. ctt.
Qed.
Lemma ct_ref_enc s s' c m n : ct pub2 (ref_enc s c m n) (ref_enc s' c m n).
Proof.
  unfold ref_enc. eapply ct_bind.
  - apply (ct_while pub4); [|apply ct_ref_enc_body|repeat split].
    intros [[[x1 a1] b1] n1] [[[x2 a2] b2] n2] (E1 & E2 & E3). cbn [fst snd] in *. subst. reflexivity.
  - intros [[[x1 a1] b1] n1] [[[x2 a2] b2] n2] (E1 & E2 & E3). cbn [fst snd] in E1, E2, E3; subst.
    ct1. eapply ct_bind with (R := any); [ctt|]. intros. ctt.
Qed.
Lemma ct_ref_dec_body v w : pub4 v w -> ct pub4 (ref_dec_body v) (ref_dec_body w).
Proof.
  destruct v as [[[s a] b] n], w as [[[s' a'] b'] n']. intros (E1 & E2 & E3); cbn [fst snd] in E1, E2, E3; subst.
  unfold ref_dec_body. ctt.
Qed.
Lemma ct_ref_dec s s' c m n : ct pub2 (ref_dec s c m n) (ref_dec s' c m n).
Proof.
  unfold ref_dec. eapply ct_bind.
  - apply (ct_while pub4); [|apply ct_ref_dec_body|repeat split].
    intros [[[x1 a1] b1] n1] [[[x2 a2] b2] n2] (E1 & E2 & E3). cbn [fst snd] in *. subst. reflexivity.
  - intros [[[x1 a1] b1] n1] [[[x2 a2] b2] n2] (E1 & E2 & E3). cbn [fst snd] in E1, E2, E3; subst.
    ct1. eapply ct_bind with (R := any); [ctt|]. intros. ctt.
Qed.

Theorem ct_ref_encrypt e c clen m mlen ad adlen nsec npub k :
  ct any (crypto_aead_encrypt e c clen m mlen ad adlen nsec npub k)
         (crypto_aead_encrypt e c clen m mlen ad adlen nsec npub k).
Proof.
  unfold crypto_aead_encrypt. ct1.
  eapply ct_bind; [apply ct_ref_init|]. intros [[K0 K1] s] [[K0' K1'] s'] _.
  eapply ct_bind; [apply ct_ref_adata|]. intros s2 s2' _.
  eapply ct_bind; [apply ct_ref_enc|]. intros [s3 q] [s3' q'] E. unfold pub2 in E; cbn [fst snd] in E; subst. ctt.
Qed.

Lemma ct_diff_loop a t t' : length t = length t' -> ct any (diff_loop a t) (diff_loop a t').
Proof.
  intros H. unfold diff_loop. rewrite H. apply ct_for; [|constructor]. intros i s1 s2 _.
  eapply ct_bind; [apply ct_ld|]. intros. apply ct_ret. constructor.
Qed.
Lemma ct_diff_loop_mem n a t : ct any (diff_loop_mem n a t) (diff_loop_mem n a t).
Proof.
  unfold diff_loop_mem. apply ct_for; [|constructor]. intros i s1 s2 _.
  eapply ct_bind; [apply ct_ld|]. intros. eapply ct_bind; [apply ct_ld|]. intros. apply ct_ret. constructor.
Qed.
Lemma length_STOREBYTES_local x n : length (STOREBYTES_local x n) = n.
Proof. unfold STOREBYTES_local. rewrite map_length, seq_length. reflexivity. Qed.

Theorem ct_ref_decrypt e m mlen nsec c clen ad adlen npub k :
  ct any (crypto_aead_decrypt e m mlen nsec c clen ad adlen npub k)
         (crypto_aead_decrypt e m mlen nsec c clen ad adlen npub k).
Proof.
  unfold crypto_aead_decrypt. ct1. destruct (clen <? CRYPTO_ABYTES); [apply ct_ret; constructor|]. ct1.
  eapply ct_bind; [apply ct_ref_init|]. intros [[K0 K1] s] [[K0' K1'] s'] _.
  eapply ct_bind; [apply ct_ref_adata|]. intros s2 s2' _.
  eapply ct_bind; [apply ct_ref_dec|]. intros [s3 q] [s3' q'] E. unfold pub2 in E; cbn [fst snd] in E; subst.
  eapply ct_bind; [apply ct_diff_loop|intros; apply ct_ret; constructor].
  rewrite !app_length, !length_STOREBYTES_local. reflexivity.
Qed.

Lemma ct_ref_absorb s s' inp n : ct any (ref_absorb s inp n) (ref_absorb s' inp n).
Proof.
  unfold ref_absorb. eapply ct_bind.
  - apply (ct_while pub3); [| |split; reflexivity].
    + intros [[x1 a1] n1] [[x2 a2] n2] [E1 E2]. cbn [fst snd] in *. subst. reflexivity.
    + intros [[x1 a1] n1] [[x2 a2] n2] [E1 E2]. cbn [fst snd] in E1, E2; subst. unfold ref_absorb_body. ctt.
  - intros [[x1 a1] n1] [[x2 a2] n2] [E1 E2]. cbn [fst snd] in E1, E2; subst. ctt.
Qed.
Lemma ct_ref_squeeze s s' out n : ct any (ref_squeeze s out n) (ref_squeeze s' out n).
Proof.
  unfold ref_squeeze. eapply ct_bind.
  - apply (ct_while pub3); [| |split; reflexivity].
    + intros [[x1 a1] n1] [[x2 a2] n2] [E1 E2]. cbn [fst snd] in *. subst. reflexivity.
    + intros [[x1 a1] n1] [[x2 a2] n2] [E1 E2]. cbn [fst snd] in E1, E2; subst. unfold ref_squeeze_body. ctt.
  - intros [[x1 a1] n1] [[x2 a2] n2] [E1 E2]. cbn [fst snd] in E1, E2; subst. ctt.
Qed.
Theorem ct_ref_hash IV cb out inp n : ct any (ref_hash IV cb out inp n) (ref_hash IV cb out inp n).
Proof.
  unfold ref_hash. eapply ct_bind; [apply ct_ref_absorb|]. intros.
  eapply ct_bind; [apply ct_ref_squeeze|]. intros. apply ct_ret; constructor.
Qed.
Theorem ct_ref_cxof out outlen inp inlen cs cslen :
  ct any (crypto_cxof out outlen inp inlen cs cslen) (crypto_cxof out outlen inp inlen cs cslen).
Proof.
  unfold crypto_cxof. eapply ct_bind; [apply ct_ref_absorb|]. intros.
  eapply ct_bind; [apply ct_ref_absorb|]. intros.
  eapply ct_bind; [apply ct_ref_squeeze|]. intros. apply ct_ret; constructor.
Qed.

Lemma ct_ref_prf_absorb_body v w : pubi v w -> ct pubi (ref_prf_absorb_body v) (ref_prf_absorb_body w).
Proof.
  destruct v as [[[s i] b] n], w as [[[s' i'] b'] n']. intros (E1 & E2 & E3); cbn [fst snd] in E1, E2, E3; subst.
  unfold ref_prf_absorb_body. ctt.
Qed.
Lemma ct_ref_prf_squeeze_body v w : pubi v w -> ct pubi (ref_prf_squeeze_body v) (ref_prf_squeeze_body w).
Proof.
  destruct v as [[[s i] b] n], w as [[[s' i'] b'] n']. intros (E1 & E2 & E3); cbn [fst snd] in E1, E2, E3; subst.
  unfold ref_prf_squeeze_body. ctt.
Qed.
Theorem ct_ref_prf IV cb out outlen inp inlen k :
  ct any (ref_prf IV cb out outlen inp inlen k) (ref_prf IV cb out outlen inp inlen k).
Proof.
  unfold ref_prf. ct1. destruct (cb <? outlen); [apply ct_ret; constructor|]. ct1. ct1. ct1.
  eapply ct_bind.
  - apply (ct_while pubi); [|apply ct_ref_prf_absorb_body|repeat split].
    intros [[[x1 a1] b1] n1] [[[x2 a2] b2] n2] (E1 & E2 & E3). cbn [fst snd] in *. subst. reflexivity.
  - intros [[[x1 i1] b1] n1] [[[x2 i2] b2] n2] (E1 & E2 & E3). cbn [fst snd] in E1, E2, E3; subst. ct1.
    eapply ct_bind.
    + apply (ct_while pubi); [|apply ct_ref_prf_squeeze_body|repeat split].
      intros [[[y1 j1] b4] n4] [[[y2 j2] b3] n3] (E1 & E2 & E3). cbn [fst snd] in *. subst. reflexivity.
    + intros [[[y1 j1] b4] n4] [[[y2 j2] b3] n3] (E1 & E2 & E3). cbn [fst snd] in E1, E2, E3; subst. ctt.
Qed.
Theorem ct_ref_verify IV cb sp h inp inlen k :
  ct any (ref_auth_verify IV cb sp h inp inlen k) (ref_auth_verify IV cb sp h inp inlen k).
Proof.
  unfold ref_auth_verify. apply ct_with_local. eapply ct_bind; [apply ct_ref_prf|]. intros.
  eapply ct_bind; [apply ct_diff_loop_mem|]. intros. apply ct_ret; constructor.
Qed.
Theorem ct_ref_prfs out outlen inp inlen k :
  ct any (crypto_prf_prfs out outlen inp inlen k) (crypto_prf_prfs out outlen inp inlen k).
Proof.
  unfold crypto_prf_prfs. ct1. destruct (16 <? inlen); [apply ct_ret; constructor|]. ct1.
  destruct (16 <? outlen); [apply ct_ret; constructor|]. ct1. ct1. ct1. ct1. ct1.
  eapply ct_bind with (R := any); [ctt|]. intros. ct1. eapply ct_bind with (R := any); [ctt|].
  intros. ctt.
Qed.
Theorem ct_ref_prfs_verify sp h inp inlen k :
  ct any (crypto_auth_verify_prfs sp h inp inlen k) (crypto_auth_verify_prfs sp h inp inlen k).
Proof.
  unfold crypto_auth_verify_prfs. ct1. destruct (16 <? inlen); [apply ct_ret; constructor|].
  apply ct_with_local. eapply ct_bind; [apply ct_ref_prfs|]. intros.
  eapply ct_bind; [apply ct_diff_loop_mem|]. intros. apply ct_ret; constructor.
Qed.

(** ** Termination for all arguments *)

Lemma sub64_dec n r : n < 2 ^ 64 -> 0 < r -> r <= n -> (N.to_nat (sub64 n r / r) < N.to_nat (n / r))%nat /\ sub64 n r < 2 ^ 64.
Proof.
  intros Hn Hr H. rewrite sub64_small by lia. split; [|lia].
  assert (E : n / r = (n - r) / r + 1).
  { replace n with (n - r + 1 * r) at 1 by lia. rewrite N.div_add by lia. reflexivity. }
  lia.
Qed.

Definition top {A} (_ : A) : Prop := True.
Lemma post_LOADBYTES p n : post top (LOADBYTES p n).
Proof.
  apply post_for; [|exact I]. intros. eapply post_bind; [apply post_ld|]. intros. apply post_ret. exact I.
Qed.
Lemma post_STOREBYTES p x n : post top (STOREBYTES p x n).
Proof. apply post_for; [|exact I]. intros. eapply post_weaken; [apply post_st|]. intros. exact I. Qed.

Ltac po1 :=
  match goal with
  | |- post _ (bind (branch _) _) => eapply post_bind; [apply post_branch|]; intros ? ->
  | |- post _ (bind (padd _ _) _) => eapply post_bind; [apply post_padd|]; intros ? ->
  | |- post _ (bind (LOADBYTES _ _) _) => eapply post_bind; [apply post_LOADBYTES|]; intros ? _
  | |- post _ (bind (STOREBYTES _ _ _) _) => eapply post_bind; [apply post_STOREBYTES|]; intros ? _
  | |- post _ (bind (store_ull _ _ _) _) => eapply post_bind; [apply post_store_ull|]; intros ? _
  | |- post _ (if ?b then _ else _) => destruct b
  | |- post top (STOREBYTES _ _ _) => apply post_STOREBYTES
  | |- post _ (ret _) => apply post_ret; first [exact I | cbn [fst snd]; reflexivity | idtac]
  end.
Ltac pot := repeat po1.

(** [while] over a length that shrinks by [r] each time. *)
Lemma post_shrink {S} (ln : S -> N) r cond (body : S -> C S) s :
  0 < r -> ln s < 2 ^ 64 ->
  (forall v, cond v = true -> r <= ln v) ->
  (forall v, post (fun v' => ln v' = sub64 (ln v) r) (body v)) ->
  post top (while (fuel (ln s) r) cond body s).
Proof.
  intros Hr Hs Hc Hb.
  eapply post_weaken;
    [apply (post_while (fun v => ln v < 2 ^ 64) (fun v => N.to_nat (ln v / r)))|]; auto.
  - intros v Hv Cv. eapply post_weaken; [apply Hb|]. cbn beta. intros v' ->.
    destruct (sub64_dec (ln v) r Hv Hr (Hc v Cv)). auto.
  - intros; exact I.
Qed.

Lemma post_ref_init npub k : post top (ref_init npub k).
Proof. unfold ref_init. pot. Qed.
Lemma post_ref_adata s ad n : n < 2 ^ 64 -> post top (ref_adata s ad n).
Proof.
  intros Hn. unfold ref_adata. po1. eapply post_bind with (Q := top); [|intros; apply post_ret; exact I].
  destruct (negb (n =? 0)); [|pot].
  eapply post_bind.
  - apply (post_shrink (fun v : state * ptr * N => snd v) 16 _ _ (s, ad, n)); [lia|exact Hn| |].
    + intros [[x a] l]. cbn [fst snd]. unfold ASCON_128A_RATE. lia.
    + intros [[x a] l]. unfold ref_ad_body. pot.
  - intros [[x a] l] _. po1. eapply post_bind with (Q := top); [|intros; apply post_ret; exact I]. pot.
Qed.
Lemma post_ref_enc s c m n : n < 2 ^ 64 -> post top (ref_enc s c m n).
Proof.
  intros Hn. unfold ref_enc. eapply post_bind.
  - apply (post_shrink (fun v : state * ptr * ptr * N => snd v) 16 _ _ (s, m, c, n)); [lia|exact Hn| |].
    + intros [[[x a] b] l]. cbn [fst snd]. unfold ASCON_128A_RATE. lia.
    + intros [[[x a] b] l]. unfold ref_enc_body. pot.
  - intros [[[x a] b] l] _. po1. eapply post_bind with (Q := top); [pot|]. intros. pot.
Qed.
Lemma post_ref_dec s c m n : n < 2 ^ 64 -> post top (ref_dec s c m n).
Proof.
  intros Hn. unfold ref_dec. eapply post_bind.
  - apply (post_shrink (fun v : state * ptr * ptr * N => snd v) 16 _ _ (s, c, m, n)); [lia|exact Hn| |].
    + intros [[[x a] b] l]. cbn [fst snd]. unfold ASCON_128A_RATE. lia.
    + intros [[[x a] b] l]. unfold ref_dec_body. pot.
  - intros [[[x a] b] l] _. po1. eapply post_bind with (Q := top); [pot|]. intros. pot.
Qed.
Theorem post_ref_encrypt e c clen m mlen ad adlen nsec npub k : mlen < 2 ^ 64 -> adlen < 2 ^ 64 ->
  post top (crypto_aead_encrypt e c clen m mlen ad adlen nsec npub k).
Proof.
  intros H1 H2. unfold crypto_aead_encrypt. po1.
  eapply post_bind; [apply post_ref_init|]. intros [[K0 K1] s] _.
  eapply post_bind; [apply post_ref_adata, H2|]. intros s2 _.
  eapply post_bind; [apply post_ref_enc, H1|]. intros [s3 q] _. pot.
Qed.
Lemma sub64_lt n r : sub64 n r < 2 ^ 64.
Proof. unfold sub64. rewrite trunc_mod. apply N.mod_lt. discriminate. Qed.
Theorem post_ref_decrypt e m mlen nsec c clen ad adlen npub k : adlen < 2 ^ 64 ->
  post top (crypto_aead_decrypt e m mlen nsec c clen ad adlen npub k).
Proof.
  intros H2. unfold crypto_aead_decrypt. po1. destruct (clen <? CRYPTO_ABYTES); [pot|]. po1.
  eapply post_bind; [apply post_ref_init|]. intros [[K0 K1] s] _.
  eapply post_bind; [apply post_ref_adata, H2|]. intros s2 _.
  eapply post_bind; [apply post_ref_dec, sub64_lt|]. intros [s3 q] _.
  eapply post_bind with (Q := top); [|intros; pot].
  unfold diff_loop. apply post_for; [|exact I]. intros. eapply post_bind; [apply post_ld|]. intros. pot.
Qed.
Lemma post_ref_absorb s inp n : n < 2 ^ 64 -> post top (ref_absorb s inp n).
Proof.
  intros Hn. unfold ref_absorb. eapply post_bind.
  - apply (post_shrink (fun v : state * ptr * N => snd v) 8 _ _ (s, inp, n)); [lia|exact Hn| |].
    + intros [[x a] l]. cbn [fst snd]. unfold ASCON_HASH_RATE. lia.
    + intros [[x a] l]. unfold ref_absorb_body. pot.
  - intros [[x a] l] _. pot.
Qed.
Lemma post_ref_squeeze s out n : n < 2 ^ 64 -> post top (ref_squeeze s out n).
Proof.
  intros Hn. unfold ref_squeeze. eapply post_bind.
  - apply (post_shrink (fun v : state * ptr * N => snd v) 8 _ _ (s, out, n)); [lia|exact Hn| |].
    + intros [[x a] l]. cbn [fst snd]. unfold ASCON_HASH_RATE. lia.
    + intros [[x a] l]. unfold ref_squeeze_body. pot.
  - intros [[x a] l] _. pot.
Qed.
Theorem post_ref_hash IV cb out inp n : n < 2 ^ 64 -> cb < 2 ^ 64 -> post top (ref_hash IV cb out inp n).
Proof.
  intros H1 H2. unfold ref_hash. eapply post_bind; [apply post_ref_absorb, H1|]. intros.
  eapply post_bind; [apply post_ref_squeeze, H2|]. intros. pot.
Qed.
Theorem post_ref_cxof out outlen inp inlen cs cslen :
  outlen < 2 ^ 64 -> inlen < 2 ^ 64 -> cslen < 2 ^ 64 ->
  post top (crypto_cxof out outlen inp inlen cs cslen).
Proof.
  intros H1 H2 H3. unfold crypto_cxof. eapply post_bind; [apply post_ref_absorb, H3|]. intros.
  eapply post_bind; [apply post_ref_absorb, H2|]. intros.
  eapply post_bind; [apply post_ref_squeeze, H1|]. intros. pot.
Qed.
Theorem post_ref_prf IV cb out outlen inp inlen k : outlen < 2 ^ 64 -> inlen < 2 ^ 64 ->
  post top (ref_prf IV cb out outlen inp inlen k).
Proof.
  intros H1 H2. unfold ref_prf. po1. destruct (cb <? outlen); [pot|]. do 3 po1.
  eapply post_bind.
  - eapply (post_shrink (fun v : state * N * ptr * N => snd v) 8 _ _ (_, 0, inp, inlen)); [lia|exact H2| |].
    + intros [[[x i] a] l]. cbn [fst snd]. lia.
    + intros [[[x i] a] l]. unfold ref_prf_absorb_body. pot.
  - intros [[[x i] a] l] _. po1. eapply post_bind.
    + eapply (post_shrink (fun v : state * N * ptr * N => snd v) 8 _ _ (_, 0, out, outlen)); [lia|exact H1| |].
      * intros [[[y j] b] q]. cbn [fst snd]. lia.
      * intros [[[y j] b] q]. unfold ref_prf_squeeze_body. pot.
    + intros [[[y j] b] q] _. pot.
Qed.
Lemma post_diff_loop_mem n a t : post top (diff_loop_mem n a t).
Proof.
  unfold diff_loop_mem. apply post_for; [|exact I]. intros. eapply post_bind; [apply post_ld|]. intros.
  eapply post_bind; [apply post_ld|]. intros. pot.
Qed.
Theorem post_ref_verify IV cb sp h inp inlen k : cb < 2 ^ 64 -> inlen < 2 ^ 64 ->
  post top (ref_auth_verify IV cb sp h inp inlen k).
Proof.
  intros H1 H2. apply post_with_local. eapply post_bind; [apply post_ref_prf; assumption|]. intros.
  eapply post_bind; [apply post_diff_loop_mem|]. intros. pot.
Qed.
Theorem post_ref_prfs out outlen inp inlen k : post top (crypto_prf_prfs out outlen inp inlen k).
Proof.
  unfold crypto_prf_prfs. po1. destruct (16 <? inlen); [pot|]. po1.
  destruct (16 <? outlen); [pot|]. do 5 po1.
  eapply post_bind with (Q := top); [pot|]. intros. po1.
  eapply post_bind with (Q := top); [pot|]. intros. pot.
Qed.
Theorem post_ref_prfs_verify sp h inp inlen k : post top (crypto_auth_verify_prfs sp h inp inlen k).
Proof.
  unfold crypto_auth_verify_prfs. po1. destruct (16 <? inlen); [pot|].
  apply post_with_local. eapply post_bind; [apply post_ref_prfs|]. intros.
  eapply post_bind; [apply post_diff_loop_mem|]. intros. pot.
Qed.
