(** * Opt8Ct.v -- the byte-oriented implementations: secret-independent
    traces, and termination for every argument. *)
From Coq Require Import Bool Arith NArith ZArith List Lia Init.Byte ZifyBool ZifyNat ZifyN.
From Verif Require Import Words WordFacts CMem Contract CMemFacts ModelRef Ct RefCt ModelCommon ComCt ModelOpt8.
Import ListNotations.
Local Open Scope N_scope.
Ltac Zify.zify_post_hook ::= Z.div_mod_to_equations.

Definition same_len (a b : bytes) : Prop := length a = length b.

Lemma ct_sget s s' i : ct any (sget s i) (sget s' i).
Proof.
  intros M1 M2 t1 t2 N1 N2 v1 v2 E1 E2. unfold sget in *.
  destruct (i <? _); [|discriminate]. destruct (i <? _); [|discriminate].
  inversion E1; inversion E2; subst. split; constructor.
Qed.
Lemma length_setb s i v : (i < length s)%nat -> length (setb s i v) = length s.
Proof. intros H. unfold setb. rewrite app_length, firstn_length. cbn [length]. rewrite skipn_length. lia. Qed.
Lemma ct_sput_len s s' i v v' : same_len s s' -> ct same_len (sput s i v) (sput s' i v').
Proof.
  intros L M1 M2 t1 t2 N1 N2 v1 v2 E1 E2. unfold sput, same_len in *. rewrite L in *.
  destruct (N.ltb_spec i (N.of_nat (length s'))); [|discriminate].
  inversion E1; inversion E2; subst. split; [reflexivity|]. rewrite !length_setb; lia.
Qed.
Lemma ct_sput s s' i v v' : ct any (sput s i v) (sput s' i v').
Proof.
  intros M1 M2 t1 t2 N1 N2 v1 v2 E1 E2. unfold sput in *.
  destruct (i <? _); [|discriminate]. destruct (i <? _); [|discriminate].
  inversion E1; inversion E2; subst. split; constructor.
Qed.

Ltac cl1 :=
  match goal with
  | |- ct _ (bind (sget _ _) _) (bind (sget _ _) _) => eapply ct_bind; [apply ct_sget|]; intros ? ? _
  | |- ct _ (bind (sput _ _ _) _) (bind (sput _ _ _) _) => eapply ct_bind; [apply ct_sput|]; intros ? ? _
  | |- ct _ (bind (ld _ _) _) (bind (ld _ _) _) => eapply ct_bind; [apply ct_ld|]; intros ? ? _
  | |- ct _ (bind (st _ _ _) _) (bind (st _ _ _) _) => eapply ct_bind; [apply ct_st|]; intros ? ? _
  | |- ct any (sput _ _ _) (sput _ _ _) => apply ct_sput
  | |- ct any (st _ _ _) (st _ _ _) => apply ct_st
  | |- ct any (ret _) (ret _) => apply ct_ret; exact I
  end.
Ltac clt := repeat cl1.
Ltac loopt := apply ct_for; [|exact I]; intros; clt.

Lemma ct_memxor s s' off src src' : same_len src src' -> ct any (memxor s off src) (memxor s' off src').
Proof. intros L. unfold memxor. rewrite L. loopt. Qed.
Lemma ct_INSERT s s' off d n : ct any (INSERT s off d n) (INSERT s' off d n).
Proof. unfold INSERT. loopt. Qed.
Lemma ct_INSERT_len s s' off d n : same_len s s' -> ct same_len (INSERT s off d n) (INSERT s' off d n).
Proof.
  intros L. unfold INSERT. apply ct_for; [|exact L]. intros i s1 s2 L1. cl1. apply ct_sput_len, L1.
Qed.
Lemma ct_SQUEEZE d s s' off n : ct any (SQUEEZE d s off n) (SQUEEZE d s' off n).
Proof. unfold SQUEEZE. loopt. Qed.
Lemma ct_ABSORB s s' off d n : ct any (ABSORB s off d n) (ABSORB s' off d n).
Proof. unfold ABSORB. loopt. Qed.
Lemma ct_ENCRYPT s s' off c m n : ct any (ENCRYPT s off c m n) (ENCRYPT s' off c m n).
Proof. unfold ENCRYPT. loopt. Qed.
Lemma ct_DECRYPT s s' off m c n : ct any (DECRYPT s off m c n) (DECRYPT s' off m c n).
Proof. unfold DECRYPT. loopt. Qed.
Lemma ct_VERIFY s s' off d n : ct any (VERIFY s off d n) (VERIFY s' off d n).
Proof. unfold VERIFY. loopt. Qed.
Lemma ct_xorb8 s s' i n v : ct any (xorb8 s i n v) (xorb8 s' i n v).
Proof. unfold xorb8. destruct (8 <=? n); [apply ct_fail_l|]. clt. Qed.

(** All but the state is public. *)
Definition qub3 (a b : bytes * ptr * N) : Prop := snd (fst a) = snd (fst b) /\ snd a = snd b.
Definition qub4 {X} (a b : bytes * X * ptr * N) : Prop :=
  snd (fst (fst a)) = snd (fst (fst b)) /\ snd (fst a) = snd (fst b) /\ snd a = snd b.
Definition qub5 (a b : bytes * N * ptr * ptr * N) : Prop :=
  snd (fst (fst (fst a))) = snd (fst (fst (fst b))) /\ snd (fst (fst a)) = snd (fst (fst b)) /\
  snd (fst a) = snd (fst b) /\ snd a = snd b.

Ltac oc1 :=
  match goal with
  | |- ct _ (bind (INSERT _ _ _ _) _) _ => eapply ct_bind; [apply ct_INSERT|]; intros ? ? _
  | |- ct _ (bind (SQUEEZE _ _ _ _) _) _ => eapply ct_bind; [apply ct_SQUEEZE|]; intros ? ? _
  | |- ct _ (bind (ABSORB _ _ _ _) _) _ => eapply ct_bind; [apply ct_ABSORB|]; intros ? ? _
  | |- ct _ (bind (ENCRYPT _ _ _ _ _) _) _ => eapply ct_bind; [apply ct_ENCRYPT|]; intros ? ? _
  | |- ct _ (bind (DECRYPT _ _ _ _ _) _) _ => eapply ct_bind; [apply ct_DECRYPT|]; intros ? ? _
  | |- ct _ (bind (VERIFY _ _ _ _) _) _ => eapply ct_bind; [apply ct_VERIFY|]; intros ? ? _
  | |- ct _ (bind (xorb8 _ _ _ _) _) _ => eapply ct_bind; [apply ct_xorb8|]; intros ? ? _
  | |- ct any (INSERT _ _ _ _) _ => apply ct_INSERT
  | |- ct any (SQUEEZE _ _ _ _) _ => apply ct_SQUEEZE
  | |- ct any (ABSORB _ _ _ _) _ => apply ct_ABSORB
  | |- ct any (ENCRYPT _ _ _ _ _) _ => apply ct_ENCRYPT
  | |- ct any (DECRYPT _ _ _ _ _) _ => apply ct_DECRYPT
  | |- ct any (xorb8 _ _ _ _) _ => apply ct_xorb8
  | |- ct _ (ret _) (ret _) => apply ct_ret; first [exact I | unfold qub3, qub4, qub5; cbn [fst snd]; solve [repeat split; reflexivity]]
  | _ => ct1
  end.
Ltac oct := repeat oc1.

Section Opt8.
Variable e : endian.
Variable P : N -> bytes -> bytes.
Variable hpad : N -> N.
Variable dpos : N.
Variables ar hr strict : bool.

Lemma ct_o8_loadkey k : ct same_len (o8_loadkey k) (o8_loadkey k).
Proof.
  unfold o8_loadkey. eapply ct_bind; [apply ct_INSERT_len; reflexivity|]. intros a b L. oc1. apply ct_INSERT_len, L.
Qed.
Lemma ct_o8_initaead key key' npub : same_len key key' -> ct any (o8_initaead e P key npub) (o8_initaead e P key' npub).
Proof. intros L. unfold o8_initaead. oct. apply ct_memxor, L. Qed.
Lemma ct_o8_ad_body v w : qub3 v w -> ct qub3 (o8_ad_body P v) (o8_ad_body P w).
Proof.
  destruct v as [[s a] n], w as [[s' a'] n']. intros [E1 E2]; cbn [fst snd] in E1, E2; subst. unfold o8_ad_body. oct.
Qed.
Lemma ct_o8_adata s s' ad n : ct any (o8_adata P s ad n) (o8_adata P s' ad n).
Proof.
  unfold o8_adata. oc1. eapply ct_bind with (R := any); [|intros; apply ct_xorb8].
  destruct (negb (n =? 0)); [|apply ct_ret; exact I].
  eapply ct_bind.
  - apply (ct_while qub3); [|apply ct_o8_ad_body|split; reflexivity].
    intros [[x1 a1] n1] [[x2 a2] n2] [E1 E2]. cbn [fst snd] in *. subst. reflexivity.
  - intros [[x1 a1] n1] [[x2 a2] n2] [E1 E2]. cbn [fst snd] in E1, E2; subst.
    oc1. eapply ct_bind with (R := qub4); [oct|].
    intros [[[y1 p1] b1] l1] [[[y2 p2] b2] l2] (E1 & E2 & E3). cbn [fst snd] in E1, E2, E3; subst. oct.
Qed.
Lemma ct_o8_enc_body v w : qub4 v w -> ct qub4 (o8_enc_body P v) (o8_enc_body P w).
Proof.
  destruct v as [[[s a] b] n], w as [[[s' a'] b'] n']. intros (E1 & E2 & E3); cbn [fst snd] in E1, E2, E3; subst.
  unfold o8_enc_body. oct.
Qed.
Lemma ct_o8_dec_body v w : qub4 v w -> ct qub4 (o8_dec_body P v) (o8_dec_body P w).
Proof.
  destruct v as [[[s a] b] n], w as [[[s' a'] b'] n']. intros (E1 & E2 & E3); cbn [fst snd] in E1, E2, E3; subst.
  unfold o8_dec_body. oct.
Qed.
Lemma ct_o8_enc s s' c m n : ct any (o8_encrypt P s c m n) (o8_encrypt P s' c m n).
Proof.
  unfold o8_encrypt. eapply ct_bind.
  - apply (ct_while qub4); [|apply ct_o8_enc_body|repeat split].
    intros [[[x1 a1] b1] n1] [[[x2 a2] b2] n2] (E1 & E2 & E3). cbn [fst snd] in *. subst. reflexivity.
  - intros [[[x1 a1] b1] n1] [[[x2 a2] b2] n2] (E1 & E2 & E3). cbn [fst snd] in E1, E2, E3; subst.
    oc1. eapply ct_bind with (R := qub5); [oct|].
    intros [[[[y1 p1] c1] b1] l1] [[[[y2 p2] c2] b3] l2] (E1 & E2 & E3 & E4). cbn [fst snd] in E1, E2, E3, E4; subst.
    oct.
Qed.
Lemma ct_o8_dec s s' c m n : ct any (o8_decrypt P s m c n) (o8_decrypt P s' m c n).
Proof.
  unfold o8_decrypt. eapply ct_bind.
  - apply (ct_while qub4); [|apply ct_o8_dec_body|repeat split].
    intros [[[x1 a1] b1] n1] [[[x2 a2] b2] n2] (E1 & E2 & E3). cbn [fst snd] in *. subst. reflexivity.
  - intros [[[x1 a1] b1] n1] [[[x2 a2] b2] n2] (E1 & E2 & E3). cbn [fst snd] in E1, E2, E3; subst.
    oc1. eapply ct_bind with (R := qub5); [oct|].
    intros [[[[y1 p1] c1] b1] l1] [[[[y2 p2] c2] b3] l2] (E1 & E2 & E3 & E4). cbn [fst snd] in E1, E2, E3, E4; subst.
    oct.
Qed.
Lemma ct_o8_final s s' key key' : same_len key key' -> ct any (o8_final P s key) (o8_final P s' key').
Proof.
  intros L. unfold o8_final. eapply ct_bind; [apply ct_memxor, L|]. intros. apply ct_memxor, L.
Qed.
Lemma ct_o8_gettag s s' t : ct any (o8_gettag s t) (o8_gettag s' t).
Proof. unfold o8_gettag. oct. Qed.
Lemma ct_o8_verify s s' t : ct any (o8_verify s t) (o8_verify s' t).
Proof. unfold o8_verify. oct. Qed.

Theorem ct_o8_encrypt c clen m mlen ad adlen nsec npub k :
  ct any (o8_aead_encrypt e P c clen m mlen ad adlen nsec npub k)
         (o8_aead_encrypt e P c clen m mlen ad adlen nsec npub k).
Proof.
  unfold o8_aead_encrypt, o8_ascon_aead_encrypt. oc1. oc1.
  eapply ct_bind; [apply ct_o8_loadkey|]. intros K K' L.
  eapply ct_bind; [apply ct_o8_initaead, L|]. intros s1 s1' _.
  eapply ct_bind; [apply ct_o8_adata|]. intros s2 s2' _.
  eapply ct_bind; [apply ct_o8_enc|]. intros s3 s3' _.
  eapply ct_bind; [apply ct_o8_final, L|]. intros s4 s4' _.
  eapply ct_bind; [apply ct_o8_gettag|]. intros. oct.
Qed.
Theorem ct_o8_decrypt m mlen nsec c clen ad adlen npub k :
  ct any (o8_aead_decrypt e P m mlen nsec c clen ad adlen npub k)
         (o8_aead_decrypt e P m mlen nsec c clen ad adlen npub k).
Proof.
  unfold o8_aead_decrypt. oc1. destruct (clen <? CRYPTO_ABYTES); [apply ct_ret; constructor|].
  eapply ct_ext; [intro; apply stored_length, fits_sub64..|]. cbv beta.
  unfold o8_ascon_aead_decrypt. eapply ct_bind; [apply ct_store_ull|]. intros _ _ _.
  eapply ct_bind; [apply ct_load_ull|]. intros _ _ _. oc1.
  eapply ct_bind; [apply ct_load_ull|]. intros _ _ _.
  eapply ct_bind; [apply ct_o8_loadkey|]. intros K K' L.
  eapply ct_bind; [apply ct_o8_initaead, L|]. intros s1 s1' _.
  eapply ct_bind; [apply ct_o8_adata|]. intros s2 s2' _.
  eapply ct_bind; [apply ct_o8_dec|]. intros s3 s3' _.
  eapply ct_bind; [apply ct_o8_final, L|]. intros s4 s4' _. apply ct_o8_verify.
Qed.

Lemma ct_o8_absorb s s' inp n : ct any (o8_absorb P hpad s inp n) (o8_absorb P hpad s' inp n).
Proof.
  unfold o8_absorb. eapply ct_bind.
  - apply (ct_while qub3); [| |split; reflexivity].
    + intros [[x1 a1] n1] [[x2 a2] n2] [E1 E2]. cbn [fst snd] in *. subst. reflexivity.
    + intros [[x1 a1] n1] [[x2 a2] n2] [E1 E2]. cbn [fst snd] in E1, E2; subst. unfold o8_absorb_body. oct.
  - intros [[x1 a1] n1] [[x2 a2] n2] [E1 E2]. cbn [fst snd] in E1, E2; subst. oct.
Qed.
Lemma ct_o8_squeeze s s' out n : ct any (o8_squeeze P s out n) (o8_squeeze P s' out n).
Proof.
  unfold o8_squeeze. eapply ct_bind.
  - apply (ct_while qub3); [| |split; reflexivity].
    + intros [[x1 a1] n1] [[x2 a2] n2] [E1 E2]. cbn [fst snd] in *. subst. reflexivity.
    + intros [[x1 a1] n1] [[x2 a2] n2] [E1 E2]. cbn [fst snd] in E1, E2; subst. unfold o8_squeeze_body. oct.
  - intros [[x1 a1] n1] [[x2 a2] n2] [E1 E2]. cbn [fst snd] in E1, E2; subst. oct.
Qed.
Theorem ct_o8_xof iv out outlen inp n : ct any (o8_xof e P hpad iv out outlen inp n) (o8_xof e P hpad iv out outlen inp n).
Proof.
  unfold o8_xof. eapply ct_bind; [apply ct_o8_absorb|]. intros.
  eapply ct_bind; [apply ct_o8_squeeze|]. intros. apply ct_ret; constructor.
Qed.

Lemma ct_o8_prf_absorb_body v w : qub4 v w -> ct qub4 (o8_prf_absorb_body P v) (o8_prf_absorb_body P w).
Proof.
  destruct v as [[[s i] b] n], w as [[[s' i'] b'] n']. intros (E1 & E2 & E3); cbn [fst snd] in E1, E2, E3; subst.
  unfold o8_prf_absorb_body. oct.
Qed.
Lemma ct_o8_prf_squeeze_body v w : qub4 v w -> ct qub4 (o8_prf_squeeze_body P v) (o8_prf_squeeze_body P w).
Proof.
  destruct v as [[[s i] b] n], w as [[[s' i'] b'] n']. intros (E1 & E2 & E3); cbn [fst snd] in E1, E2, E3; subst.
  unfold o8_prf_squeeze_body. oct.
Qed.
Theorem ct_o8_prf IV cb out outlen inp inlen k :
  ct any (o8_prf e P hpad dpos IV cb out outlen inp inlen k) (o8_prf e P hpad dpos IV cb out outlen inp inlen k).
Proof.
  unfold o8_prf. oc1. destruct (cb <? outlen); [apply ct_ret; constructor|]. cbn zeta. oc1. oc1. oc1.
  eapply ct_bind.
  - apply (ct_while qub4); [|apply ct_o8_prf_absorb_body|repeat split].
    intros [[[x1 a1] b1] n1] [[[x2 a2] b2] n2] (E1 & E2 & E3). cbn [fst snd] in *. subst. reflexivity.
  - intros [[[x1 i1] b1] n1] [[[x2 i2] b2] n2] (E1 & E2 & E3). cbn [fst snd] in E1, E2, E3; subst.
    oc1. oc1. oc1.
    eapply ct_bind.
    + apply (ct_while qub4); [|apply ct_o8_prf_squeeze_body|repeat split].
      intros [[[y1 j1] c1] n4] [[[y2 j2] c2] n3] (E1 & E2 & E3). cbn [fst snd] in *. subst. reflexivity.
    + intros [[[y1 j1] c1] n4] [[[y2 j2] c2] n3] (E1 & E2 & E3). cbn [fst snd] in E1, E2, E3; subst. oct.
Qed.
Theorem ct_o8_auth_verify IV cb sp h inp inlen k :
  ct any (o8_auth_verify e P hpad dpos IV cb sp h inp inlen k) (o8_auth_verify e P hpad dpos IV cb sp h inp inlen k).
Proof.
  unfold o8_auth_verify. apply ct_with_local. eapply ct_bind; [apply ct_o8_prf|]. intros.
  eapply ct_bind; [apply ct_diff_loop_mem|]. intros. apply ct_ret; constructor.
Qed.
Theorem ct_o8_prfs out outlen inp inlen k :
  ct any (o8_prfs e P out outlen inp inlen k) (o8_prfs e P out outlen inp inlen k).
Proof.
  unfold o8_prfs. oc1. destruct (16 <? inlen); [apply ct_ret; constructor|]. oc1.
  destruct (16 <? outlen); [apply ct_ret; constructor|]. oc1. cbn zeta. do 4 oc1.
  eapply ct_bind with (R := any); [oct|]. intros. do 4 oc1. eapply ct_bind with (R := any); [oct|].
  intros. oct.
Qed.
Theorem ct_o8_prfs_verify sp h inp inlen k :
  ct any (o8_prfs_verify e P sp h inp inlen k) (o8_prfs_verify e P sp h inp inlen k).
Proof.
  unfold o8_prfs_verify. oc1. destruct (16 <? inlen); [apply ct_ret; constructor|].
  apply ct_with_local. eapply ct_bind; [apply ct_o8_prfs|]. intros.
  eapply ct_bind; [apply ct_diff_loop_mem|]. intros. apply ct_ret; constructor.
Qed.

(** opt8_lowsize *)
Lemma ct_o8_advance p n : ct (fun x y => x = y) (o8_advance strict p n) (o8_advance strict p n).
Proof.
  unfold o8_advance. assert (H : ct (fun x y => x = y) (padd p n) (padd p n)).
  { eapply ct_weaken; [apply ct_padd|]. intros a b [-> ->]. reflexivity. }
  destruct strict; [exact H|]. destruct (p =? 0); [apply ct_ret; reflexivity|exact H].
Qed.
Lemma ct_cond_do b f s s' : (forall s s', ct any (f s) (f s')) -> ct any (cond_do b f s) (cond_do b f s').
Proof. intros H. unfold cond_do. oc1. destruct b; [apply H|apply ct_ret; exact I]. Qed.
Lemma ct_ifdef d f s s' : (forall s s', ct any (f s) (f s')) -> ct any (ifdef d f s) (ifdef d f s').
Proof. intros H. unfold ifdef. destruct d; [apply H|apply ct_ret; exact I]. Qed.
Ltac uc :=
  repeat match goal with
  | |- ct any (cond_do _ _ _) _ => apply ct_cond_do; intros
  | |- ct any (ifdef _ _ _) _ => apply ct_ifdef; intros
  | _ => oc1
  end.
Ltac us :=
  repeat match goal with
  | |- ct _ (bind (cond_do _ _ _) _) _ => eapply ct_bind with (R := any); [uc|]; intros ? ? _
  | |- ct _ (bind (ifdef _ _ _) _) _ => eapply ct_bind with (R := any); [uc|]; intros ? ? _
  | |- ct _ (bind (o8_advance _ _ _) _) _ => eapply ct_bind; [apply ct_o8_advance|]; intros ? ? <-
  | _ => oc1
  end.
Lemma ct_o8_update_body mode v w : qub4 v w ->
  ct qub4 (o8_update_body P ar hr strict mode v) (o8_update_body P ar hr strict mode w).
Proof.
  destruct v as [[[s a] b] n], w as [[[s' a'] b'] n']. intros (E1 & E2 & E3); cbn [fst snd] in E1, E2, E3; subst.
  unfold o8_update_body. us.
  eapply ct_bind with (R := any); [destruct hr; uc|]. intros ? ? _. us.
Qed.
Lemma ct_o8_update s s' c m n mode :
  ct any (o8_update P ar hr strict s c m n mode) (o8_update P ar hr strict s' c m n mode).
Proof.
  unfold o8_update. eapply ct_bind.
  - apply (ct_while qub4); [|apply ct_o8_update_body|repeat split].
    intros [[[x1 a1] b1] n1] [[[x2 a2] b2] n2] (E1 & E2 & E3). cbn [fst snd] in *. subst. reflexivity.
  - intros [[[x1 a1] b1] n1] [[[x2 a2] b2] n2] (E1 & E2 & E3). cbn [fst snd] in E1, E2, E3; subst.
    eapply ct_bind with (R := qub5).
    { destruct ar; us. }
    intros [[[[y1 p1] c1] b1] l1] [[[[y2 p2] c2] b3] l2] (E1 & E2 & E3 & E4). cbn [fst snd] in E1, E2, E3, E4; subst.
    us.
Qed.
Lemma ct_o8_low_start ad adlen npub k :
  ct (fun a b => same_len (snd a) (snd b)) (o8_low_start e P ar hr strict ad adlen npub k) (o8_low_start e P ar hr strict ad adlen npub k).
Proof.
  unfold o8_low_start.
  eapply ct_bind; [apply ct_o8_loadkey|]. intros K K' L.
  eapply ct_bind; [apply ct_o8_initaead, L|]. intros s1 s1' _. oc1.
  eapply ct_bind with (R := any).
  { destruct (negb (adlen =? 0)); [|apply ct_ret; exact I].
    eapply ct_bind; [apply ct_o8_update|]. intros. apply ct_ret. exact I. }
  intros s2 s2' _. oc1. apply ct_ret, L.
Qed.
Theorem ct_o8_low_encrypt c clen m mlen ad adlen nsec npub k :
  ct any (o8_low_aead_encrypt e P ar hr strict c clen m mlen ad adlen nsec npub k)
         (o8_low_aead_encrypt e P ar hr strict c clen m mlen ad adlen nsec npub k).
Proof.
  unfold o8_low_aead_encrypt. oc1. oc1.
  eapply ct_bind; [apply ct_o8_low_start|]. intros [s K] [s' K'] L. cbn [snd] in L.
  eapply ct_bind; [apply ct_o8_update|]. intros s3 s3' _.
  eapply ct_bind; [apply ct_o8_final, L|]. intros s4 s4' _.
  eapply ct_bind; [apply ct_o8_gettag|]. intros. oct.
Qed.
Theorem ct_o8_low_decrypt m mlen nsec c clen ad adlen npub k :
  ct any (o8_low_aead_decrypt e P ar hr strict m mlen nsec c clen ad adlen npub k)
         (o8_low_aead_decrypt e P ar hr strict m mlen nsec c clen ad adlen npub k).
Proof.
  unfold o8_low_aead_decrypt. oc1. destruct (clen <? CRYPTO_ABYTES); [apply ct_ret; constructor|].
  eapply ct_ext; [intro; apply stored_length, fits_sub64..|]. cbv beta.
  eapply ct_bind; [apply ct_store_ull|]. intros _ _ _.
  eapply ct_bind; [apply ct_load_ull|]. intros _ _ _. oc1.
  eapply ct_bind; [apply ct_load_ull|]. intros _ _ _.
  eapply ct_bind; [apply ct_o8_low_start|]. intros [s K] [s' K'] L. cbn [snd] in L.
  eapply ct_bind; [apply ct_o8_update|]. intros s3 s3' _.
  eapply ct_bind; [apply ct_o8_final, L|]. intros s4 s4' _. apply ct_o8_verify.
Qed.
Theorem ct_o8_low_xof iv out outlen inp n :
  ct any (o8_low_xof e P ar hr strict iv out outlen inp n) (o8_low_xof e P ar hr strict iv out outlen inp n).
Proof.
  unfold o8_low_xof. eapply ct_bind; [apply ct_o8_update|]. intros. cbn zeta.
  eapply ct_bind; [apply ct_o8_update|]. intros. apply ct_ret. exact I.
Qed.

(** ** Termination for all arguments *)

Lemma post_sget s i : post top (sget s i).
Proof. unfold sget. destruct (_ <? _); [apply post_ret; exact I|apply post_fail; discriminate]. Qed.
Lemma post_sput s i v : post top (sput s i v).
Proof. unfold sput. destruct (_ <? _); [apply post_ret; exact I|apply post_fail; discriminate]. Qed.
Ltac pl :=
  repeat match goal with
  | |- post _ (bind (sget _ _) _) => eapply post_bind; [apply post_sget|]; intros ? _
  | |- post _ (bind (sput _ _ _) _) => eapply post_bind; [apply post_sput|]; intros ? _
  | |- post _ (bind (ld _ _) _) => eapply post_bind; [apply post_ld|]; intros ? _
  | |- post _ (bind (st _ _ _) _) => eapply post_bind; [apply post_st|]; intros ? _
  | |- post top (sput _ _ _) => apply post_sput
  | |- post top (st _ _ _) => apply post_st
  | |- post top (ret _) => apply post_ret; exact I
  end.
Ltac lp := apply post_for; [|exact I]; intros; pl.
Lemma post_memxor s off src : post top (memxor s off src).
Proof. unfold memxor. lp. Qed.
Lemma post_INSERT s off d n : post top (INSERT s off d n).
Proof. unfold INSERT. lp. Qed.
Lemma post_SQUEEZE d s off n : post top (SQUEEZE d s off n).
Proof. unfold SQUEEZE. lp. Qed.
Lemma post_ABSORB s off d n : post top (ABSORB s off d n).
Proof. unfold ABSORB. lp. Qed.
Lemma post_ENCRYPT s off c m n : post top (ENCRYPT s off c m n).
Proof. unfold ENCRYPT. lp. Qed.
Lemma post_DECRYPT s off c m n : post top (DECRYPT s off c m n).
Proof. unfold DECRYPT. lp. Qed.
Lemma post_VERIFY s off d n : post top (VERIFY s off d n).
Proof. unfold VERIFY. lp. Qed.
Lemma post_xorb8 s i n v : post top (xorb8 s i n v).
Proof. unfold xorb8. destruct (8 <=? n); [apply post_fail; discriminate|]. pl. Qed.
Lemma post_o8_advance p n : post top (o8_advance strict p n).
Proof.
  unfold o8_advance.
  assert (H : post top (padd p n)) by (eapply post_weaken; [apply post_padd|]; intros; exact I).
  destruct strict; [exact H|]. destruct (p =? 0); [apply post_ret; exact I|exact H].
Qed.
Lemma post_cond_do b f s : (forall s, post top (f s)) -> post top (cond_do b f s).
Proof. intros H. unfold cond_do. po1. destruct b; [apply H|apply post_ret; exact I]. Qed.
Lemma post_ifdef d f s : (forall s, post top (f s)) -> post top (ifdef d f s).
Proof. intros H. unfold ifdef. destruct d; [apply H|apply post_ret; exact I]. Qed.

Ltac op1 :=
  match goal with
  | |- post _ (bind (memxor _ _ _) _) => eapply post_bind; [apply post_memxor|]; intros ? _
  | |- post _ (bind (INSERT _ _ _ _) _) => eapply post_bind; [apply post_INSERT|]; intros ? _
  | |- post _ (bind (SQUEEZE _ _ _ _) _) => eapply post_bind; [apply post_SQUEEZE|]; intros ? _
  | |- post _ (bind (ABSORB _ _ _ _) _) => eapply post_bind; [apply post_ABSORB|]; intros ? _
  | |- post _ (bind (ENCRYPT _ _ _ _ _) _) => eapply post_bind; [apply post_ENCRYPT|]; intros ? _
  | |- post _ (bind (DECRYPT _ _ _ _ _) _) => eapply post_bind; [apply post_DECRYPT|]; intros ? _
  | |- post _ (bind (VERIFY _ _ _ _) _) => eapply post_bind; [apply post_VERIFY|]; intros ? _
  | |- post _ (bind (xorb8 _ _ _ _) _) => eapply post_bind; [apply post_xorb8|]; intros ? _
  | |- post _ (bind (o8_advance _ _ _) _) => eapply post_bind; [apply post_o8_advance|]; intros ? _
  | |- post _ (bind (cond_do _ _ _) _) => eapply post_bind with (Q := top); [|intros ? _]
  | |- post _ (bind (ifdef _ _ _) _) => eapply post_bind with (Q := top); [|intros ? _]
  | |- post top (cond_do _ _ _) => apply post_cond_do; intros
  | |- post top (ifdef _ _ _) => apply post_ifdef; intros
  | |- post top (memxor _ _ _) => apply post_memxor
  | |- post top (INSERT _ _ _ _) => apply post_INSERT
  | |- post top (SQUEEZE _ _ _ _) => apply post_SQUEEZE
  | |- post top (ABSORB _ _ _ _) => apply post_ABSORB
  | |- post top (ENCRYPT _ _ _ _ _) => apply post_ENCRYPT
  | |- post top (DECRYPT _ _ _ _ _) => apply post_DECRYPT
  | |- post top (xorb8 _ _ _ _) => apply post_xorb8
  | _ => po1
  end.
Ltac opt := repeat op1.

Lemma post_o8_adata s ad n : n < 2 ^ 64 -> post top (o8_adata P s ad n).
Proof.
  intros Hn. unfold o8_adata. op1. eapply post_bind with (Q := top); [|intros; apply post_xorb8].
  destruct (negb (n =? 0)); [|opt].
  eapply post_bind.
  - apply (post_shrink (fun v : bytes * ptr * N => snd v) 16 _ _ (s, ad, n)); [lia|exact Hn| |].
    + intros [[x a] l]. cbn [fst snd]. lia.
    + intros [[x a] l]. unfold o8_ad_body. opt.
  - intros [[x a] l] _. op1. eapply post_bind with (Q := top); [opt|]. intros [[[y p] b] q] _. opt.
Qed.
Lemma post_o8_enc s c m n : n < 2 ^ 64 -> post top (o8_encrypt P s c m n).
Proof.
  intros Hn. unfold o8_encrypt. eapply post_bind.
  - apply (post_shrink (fun v : bytes * ptr * ptr * N => snd v) 16 _ _ (s, m, c, n)); [lia|exact Hn| |].
    + intros [[[x a] b] l]. cbn [fst snd]. lia.
    + intros [[[x a] b] l]. unfold o8_enc_body. opt.
  - intros [[[x a] b] l] _. op1. eapply post_bind with (Q := top); [opt|]. intros [[[[y p] b1] b2] q] _. opt.
Qed.
Lemma post_o8_dec s c m n : n < 2 ^ 64 -> post top (o8_decrypt P s m c n).
Proof.
  intros Hn. unfold o8_decrypt. eapply post_bind.
  - apply (post_shrink (fun v : bytes * ptr * ptr * N => snd v) 16 _ _ (s, m, c, n)); [lia|exact Hn| |].
    + intros [[[x a] b] l]. cbn [fst snd]. lia.
    + intros [[[x a] b] l]. unfold o8_dec_body. opt.
  - intros [[[x a] b] l] _. op1. eapply post_bind with (Q := top); [opt|]. intros [[[[y p] b1] b2] q] _. opt.
Qed.
Lemma post_o8_loadkey k : post top (o8_loadkey k).
Proof. unfold o8_loadkey. opt. Qed.
Lemma post_o8_initaead K npub : post top (o8_initaead e P K npub).
Proof. unfold o8_initaead. opt. Qed.
Lemma post_o8_final s K : post top (o8_final P s K).
Proof. unfold o8_final. opt. Qed.
Lemma post_o8_gettag s t : post top (o8_gettag s t).
Proof. unfold o8_gettag. opt. Qed.
Lemma post_o8_verify s t : post top (o8_verify s t).
Proof. unfold o8_verify. opt. Qed.
Theorem post_o8_encrypt c clen m mlen ad adlen nsec npub k : mlen < 2 ^ 64 -> adlen < 2 ^ 64 ->
  post top (o8_aead_encrypt e P c clen m mlen ad adlen nsec npub k).
Proof.
  intros H1 H2. unfold o8_aead_encrypt, o8_ascon_aead_encrypt. op1. op1.
  eapply post_bind; [apply post_o8_loadkey|]. intros K _.
  eapply post_bind; [apply post_o8_initaead|]. intros s1 _.
  eapply post_bind; [apply post_o8_adata, H2|]. intros s2 _.
  eapply post_bind; [apply post_o8_enc, H1|]. intros s3 _.
  eapply post_bind; [apply post_o8_final|]. intros s4 _.
  eapply post_bind; [apply post_o8_gettag|]. intros; opt.
Qed.
Theorem post_o8_decrypt m mlen nsec c clen ad adlen npub k : adlen < 2 ^ 64 ->
  post top (o8_aead_decrypt e P m mlen nsec c clen ad adlen npub k).
Proof.
  intros H2. unfold o8_aead_decrypt. op1. destruct (clen <? CRYPTO_ABYTES); [opt|].
  eapply post_ext; [intro; apply stored_length, fits_sub64|].
  cbv beta. unfold o8_ascon_aead_decrypt. eapply post_bind; [apply post_store_ull|]. intros _ _.
  eapply post_bind; [apply post_load_ull|]. intros _ _. op1.
  eapply post_bind; [apply post_load_ull|]. intros _ _.
  eapply post_bind; [apply post_o8_loadkey|]. intros K _.
  eapply post_bind; [apply post_o8_initaead|]. intros s1 _.
  eapply post_bind; [apply post_o8_adata, H2|]. intros s2 _.
  eapply post_bind; [apply post_o8_dec, sub64_lt|]. intros s3 _.
  eapply post_bind; [apply post_o8_final|]. intros s4 _. apply post_o8_verify.
Qed.
Theorem post_o8_xof iv out outlen inp n : n < 2 ^ 64 -> outlen < 2 ^ 64 -> post top (o8_xof e P hpad iv out outlen inp n).
Proof.
  intros H1 H2. unfold o8_xof.
  eapply post_bind with (Q := top).
  - unfold o8_absorb. eapply post_bind.
    + apply (post_shrink (fun v : bytes * ptr * N => snd v) 8 _ _ (o8_words e iv, inp, n)); [lia|exact H1| |].
      * intros [[x a] l]. cbn [fst snd]. lia.
      * intros [[x a] l]. unfold o8_absorb_body. opt.
    + intros [[x a] l] _. opt.
  - intros s _. eapply post_bind with (Q := top); [|intros; opt].
    unfold o8_squeeze. eapply post_bind.
    + eapply (post_shrink (fun v : bytes * ptr * N => snd v) 8 _ _ (_, out, outlen)); [lia|exact H2| |].
      * intros [[x a] l]. cbn [fst snd]. lia.
      * intros [[x a] l]. unfold o8_squeeze_body. opt.
    + intros [[x a] l] _. opt.
Qed.
Theorem post_o8_prf IV cb out outlen inp inlen k : outlen < 2 ^ 64 -> inlen < 2 ^ 64 ->
  post top (o8_prf e P hpad dpos IV cb out outlen inp inlen k).
Proof.
  intros H1 H2. unfold o8_prf. op1. destruct (cb <? outlen); [opt|]. cbn zeta. do 3 op1.
  eapply post_bind.
  - eapply (post_shrink (fun v : bytes * N * ptr * N => snd v) 8 _ _ (_, 0, inp, inlen)); [lia|exact H2| |].
    + intros [[[x i] a] l]. cbn [fst snd]. lia.
    + intros [[[x i] a] l]. unfold o8_prf_absorb_body. opt.
  - intros [[[x i] a] l] _. do 3 op1. eapply post_bind.
    + eapply (post_shrink (fun v : bytes * N * ptr * N => snd v) 8 _ _ (_, 0, out, outlen)); [lia|exact H1| |].
      * intros [[[y j] b] q]. cbn [fst snd]. lia.
      * intros [[[y j] b] q]. unfold o8_prf_squeeze_body. opt.
    + intros [[[y j] b] q] _. opt.
Qed.
Theorem post_o8_auth_verify IV cb sp h inp inlen k : cb < 2 ^ 64 -> inlen < 2 ^ 64 ->
  post top (o8_auth_verify e P hpad dpos IV cb sp h inp inlen k).
Proof.
  intros H1 H2. apply post_with_local. eapply post_bind; [apply post_o8_prf; assumption|]. intros.
  eapply post_bind; [apply post_diff_loop_mem|]. intros. opt.
Qed.
Theorem post_o8_prfs out outlen inp inlen k : post top (o8_prfs e P out outlen inp inlen k).
Proof.
  unfold o8_prfs. op1. destruct (16 <? inlen); [opt|]. op1.
  destruct (16 <? outlen); [opt|]. cbn zeta. do 5 op1.
  eapply post_bind with (Q := top); [opt|]. intros. do 4 op1.
  eapply post_bind with (Q := top); [opt|]. intros. opt.
Qed.
Theorem post_o8_prfs_verify sp h inp inlen k : post top (o8_prfs_verify e P sp h inp inlen k).
Proof.
  unfold o8_prfs_verify. op1. destruct (16 <? inlen); [opt|].
  apply post_with_local. eapply post_bind; [apply post_o8_prfs|]. intros.
  eapply post_bind; [apply post_diff_loop_mem|]. intros. opt.
Qed.
Lemma o8_rate_pos mode : 0 < o8_rate ar hr mode.
Proof. unfold o8_rate. destruct (ar && negb hr); [lia|]. destruct (negb ar && hr); [lia|]. destruct (negb _); lia. Qed.
Lemma post_o8_update s c m n mode : n < 2 ^ 64 -> post top (o8_update P ar hr strict s c m n mode).
Proof.
  intros Hn. unfold o8_update. eapply post_bind.
  - apply (post_shrink (fun v : bytes * ptr * ptr * N => snd v) (o8_rate ar hr mode) _ _ (s, c, m, n)); [apply o8_rate_pos|exact Hn| |].
    + intros [[[x a] b] l]. cbn [fst snd]. lia.
    + intros [[[x a] b] l]. unfold o8_update_body. opt.
      eapply post_bind with (Q := top); [destruct hr; opt|]. intros. opt.
  - intros [[[x a] b] l] _. eapply post_bind with (Q := top); [destruct ar; opt|].
    intros [[[[y p] b1] b2] q] _. opt.
Qed.
Lemma post_o8_low_start ad adlen npub k : adlen < 2 ^ 64 -> post top (o8_low_start e P ar hr strict ad adlen npub k).
Proof.
  intros H. unfold o8_low_start.
  eapply post_bind; [apply post_o8_loadkey|]. intros K _.
  eapply post_bind; [apply post_o8_initaead|]. intros s1 _. op1.
  eapply post_bind with (Q := top).
  { destruct (negb (adlen =? 0)); [|opt]. eapply post_bind; [apply post_o8_update, H|]. intros. opt. }
  intros. opt.
Qed.
Theorem post_o8_low_encrypt c clen m mlen ad adlen nsec npub k : mlen < 2 ^ 64 -> adlen < 2 ^ 64 ->
  post top (o8_low_aead_encrypt e P ar hr strict c clen m mlen ad adlen nsec npub k).
Proof.
  intros H1 H2. unfold o8_low_aead_encrypt. op1. op1.
  eapply post_bind; [apply post_o8_low_start, H2|]. intros [s K] _.
  eapply post_bind; [apply post_o8_update, H1|]. intros s3 _.
  eapply post_bind; [apply post_o8_final|]. intros s4 _.
  eapply post_bind; [apply post_o8_gettag|]. intros; opt.
Qed.
Theorem post_o8_low_decrypt m mlen nsec c clen ad adlen npub k : adlen < 2 ^ 64 ->
  post top (o8_low_aead_decrypt e P ar hr strict m mlen nsec c clen ad adlen npub k).
Proof.
  intros H2. unfold o8_low_aead_decrypt. op1. destruct (clen <? CRYPTO_ABYTES); [opt|].
  eapply post_ext; [intro; apply stored_length, fits_sub64|]. cbv beta.
  eapply post_bind; [apply post_store_ull|]. intros _ _.
  eapply post_bind; [apply post_load_ull|]. intros _ _. op1.
  eapply post_bind; [apply post_load_ull|]. intros _ _.
  eapply post_bind; [apply post_o8_low_start, H2|]. intros [s K] _.
  eapply post_bind; [apply post_o8_update, sub64_lt|]. intros s3 _.
  eapply post_bind; [apply post_o8_final|]. intros s4 _. apply post_o8_verify.
Qed.
Theorem post_o8_low_xof iv out outlen inp n : n < 2 ^ 64 -> outlen < 2 ^ 64 ->
  post top (o8_low_xof e P ar hr strict iv out outlen inp n).
Proof.
  intros H1 H2. unfold o8_low_xof. eapply post_bind; [apply post_o8_update, H1|]. intros. cbn zeta.
  eapply post_bind; [apply post_o8_update, H2|]. intros. opt.
Qed.
End Opt8.
