(** * LowCt.v -- the size-optimised implementations: secret-independent
    traces, and termination for every argument. *)
From Coq Require Import Bool Arith NArith ZArith List Lia Init.Byte ZifyBool ZifyNat ZifyN.
From Verif Require Import Words WordFacts CMem Contract CMemFacts ModelRef Ct RefCt ModelCommon ComCt ModelLow.
Import ListNotations.
Local Open Scope N_scope.
Ltac Zify.zify_post_hook ::= Z.div_mod_to_equations.

Section Low.
Variable e : endian.
Variable o : wordops.
Variables strict hb : bool.

Lemma ct_advance p : ct (fun x y => x = y) (advance strict p) (advance strict p).
Proof.
  unfold advance. assert (P : ct (fun x y => x = y) (padd p 8) (padd p 8)).
  { eapply ct_weaken; [apply ct_padd|]. intros a b [-> ->]. reflexivity. }
  destruct strict; [exact P|]. destruct (p =? 0); [apply ct_ret; reflexivity|exact P].
Qed.
Lemma ct_absorbs mode : ct (fun x y => x = y) (absorbs hb mode) (absorbs hb mode).
Proof.
  unfold absorbs. destruct hb; [|apply ct_ret; reflexivity].
  eapply ct_weaken; [apply ct_branch|]. intros a b [-> ->]. reflexivity.
Qed.
(** All but the state and [tmp] is public. *)
Definition pub6 (a b : state * N * N * ptr * ptr * N) : Prop :=
  snd (fst (fst (fst (fst a)))) = snd (fst (fst (fst (fst b)))) /\
  snd (fst (fst a)) = snd (fst (fst b)) /\ snd (fst a) = snd (fst b) /\ snd a = snd b.

Lemma ct_load_step (s s' : state) i tmp tmp' p n (b : bool) :
  ct any (if b then w <- wLOADBYTES e o p n ;; ret (xorx s i w, w) else ret (s, tmp))
         (if b then w <- wLOADBYTES e o p n ;; ret (xorx s' i w, w) else ret (s', tmp')).
Proof.
  destruct b; [|apply ct_ret; exact I].
  eapply ct_bind; [apply ct_wLOADBYTES|]. intros. apply ct_ret. exact I.
Qed.
Lemma ct_update_body mode v w : pub6 v w -> ct pub6 (update_body e o strict hb mode v) (update_body e o strict hb mode w).
Proof.
  destruct v as [[[[[s i] t] p] q] n], w as [[[[[s' i'] t'] p'] q'] n'].
  intros (E1 & E2 & E3 & E4); cbn [fst snd] in E1, E2, E3, E4; subst.
  unfold update_body, wLOAD, wSTORE.
  eapply ct_bind; [apply ct_absorbs|]. intros b ? <-.
  eapply ct_bind; [apply ct_load_step|]. intros [s1 t1] [s2 t2] _.
  eapply ct_bind; [apply ct_branch|]. intros ? ? [-> ->].
  eapply ct_bind with (R := any).
  { destruct (has mode ASCON_SQUEEZE); [apply ct_wSTOREBYTES|apply ct_ret; exact I]. }
  intros _ _ _.
  eapply ct_bind; [apply ct_branch|]. intros ? ? [-> ->].
  eapply ct_bind; [apply ct_branch|]. intros ? ? [-> ->]. cbn zeta.
  eapply ct_bind; [apply ct_branch|]. intros ? ? [-> ->].
  eapply ct_bind; [apply ct_advance|]. intros a ? <-.
  eapply ct_bind; [apply ct_advance|]. intros a' ? <-.
  apply ct_ret. unfold pub6. cbn [fst snd]. repeat split.
Qed.
Lemma ct_update s s' out inp n mode :
  ct any (ascon_update e o strict hb s out inp n mode) (ascon_update e o strict hb s' out inp n mode).
Proof.
  unfold ascon_update. eapply ct_bind.
  - apply (ct_while pub6); [|apply ct_update_body|repeat split].
    intros [[[[[x i] t] p] q] l] [[[[[x' i'] t'] p'] q'] l'] (E1 & E2 & E3 & E4). cbn [fst snd] in *. subst. reflexivity.
  - intros [[[[[x i] t] p] q] l] [[[[[x' i'] t'] p'] q'] l'] (E1 & E2 & E3 & E4).
    cbn [fst snd] in E1, E2, E3, E4. subst.
    eapply ct_bind; [apply ct_absorbs|]. intros b ? <-.
    eapply ct_bind; [apply ct_load_step|]. intros [s1 t1] [s2 t2] _.
    eapply ct_bind; [apply ct_branch|]. intros ? ? [-> ->].
    eapply ct_bind with (R := any).
    { destruct (has mode ASCON_SQUEEZE); [apply ct_wSTOREBYTES|apply ct_ret; exact I]. }
    intros _ _ _.
    eapply ct_bind; [apply ct_branch|]. intros ? ? [-> ->].
    eapply ct_bind with (R := any).
    { destruct (has mode ASCON_INSERT); [|apply ct_ret; exact I].
      eapply ct_bind; [apply ct_wCLEAR|]. intros. apply ct_ret. exact I. }
    intros. eapply ct_bind; [apply ct_wPAD|]. intros. apply ct_ret. exact I.
Qed.

Lemma length_low_tag s : length (low_tag e o s) = 16%nat.
Proof. unfold low_tag. rewrite app_length, !length_to_host. reflexivity. Qed.
Lemma ct_low_aead tag out inp inlen ad adlen npub k mode :
  ct any (ascon_aead e o strict hb tag out inp inlen ad adlen npub k mode)
         (ascon_aead e o strict hb tag out inp inlen ad adlen npub k mode).
Proof.
  unfold ascon_aead.
  eapply ct_bind; [apply ct_loadkey|]. intros K K' _.
  eapply ct_bind; [apply ct_initaead|]. intros s1 s1' _.
  eapply ct_bind; [apply ct_branch|]. intros ? ? [-> ->].
  eapply ct_bind with (R := any).
  { destruct (negb (adlen =? 0)); [|apply ct_ret; exact I].
    eapply ct_bind; [apply ct_update|]. intros. apply ct_ret. exact I. }
  intros s2 s2' _. cbn zeta.
  eapply ct_bind; [apply ct_update|]. intros s3 s3' _.
  eapply ct_bind; [apply ct_branch|]. intros ? ? [-> ->].
  destruct (mode =? ASCON_ENCRYPT).
  - eapply ct_bind with (R := any); [|intros; apply ct_ret; exact I].
    apply ct_for; [|exact I]. intros. apply ct_st.
  - eapply ct_bind; [apply ct_diff_loop; rewrite !length_low_tag; reflexivity|]. intros. apply ct_ret. exact I.
Qed.
Theorem ct_low_encrypt c clen m mlen ad adlen nsec npub k :
  ct any (low_aead_encrypt e o strict hb c clen m mlen ad adlen nsec npub k)
         (low_aead_encrypt e o strict hb c clen m mlen ad adlen nsec npub k).
Proof.
  unfold low_aead_encrypt. eapply ct_bind; [apply ct_store_ull|]. intros _ _ _.
  eapply ct_bind; [apply ct_padd|]. intros ? ? [-> ->]. apply ct_low_aead.
Qed.
Theorem ct_low_decrypt m mlen nsec c clen ad adlen npub k :
  ct any (low_aead_decrypt e o strict hb m mlen nsec c clen ad adlen npub k)
         (low_aead_decrypt e o strict hb m mlen nsec c clen ad adlen npub k).
Proof.
  unfold low_aead_decrypt. eapply ct_bind; [apply ct_branch|]. intros ? ? [-> ->].
  destruct (clen <? CRYPTO_ABYTES); [apply ct_ret; exact I|].
  eapply ct_ext; [intro; apply stored_length, fits_sub64..|]. cbv beta.
  eapply ct_bind; [apply ct_store_ull|]. intros _ _ _.
  eapply ct_bind; [apply ct_load_ull|]. intros _ _ _.
  eapply ct_bind; [apply ct_padd|]. intros ? ? [-> ->].
  eapply ct_bind; [apply ct_load_ull|]. intros _ _ _. apply ct_low_aead.
Qed.
Theorem ct_low_xof iv out outlen inp n :
  ct any (low_xof e o strict hb iv out outlen inp n) (low_xof e o strict hb iv out outlen inp n).
Proof.
  unfold low_xof. eapply ct_bind; [apply ct_update|]. intros. cbn zeta.
  eapply ct_bind; [apply ct_update|]. intros. apply ct_ret. exact I.
Qed.

(** ** Termination for all arguments *)

Lemma post_advance p : post top (advance strict p).
Proof.
  unfold advance. destruct strict; [|destruct (p =? 0); [apply post_ret; exact I|]];
    (eapply post_weaken; [apply post_padd|]; intros; exact I).
Qed.
Lemma post_absorbs mode : post top (absorbs hb mode).
Proof. unfold absorbs. destruct hb; [|apply post_ret; exact I].
  eapply post_weaken; [apply post_branch|]. intros; exact I. Qed.
Lemma post_load_step (s : state) i tmp p n (b : bool) :
  post top (if b then w <- wLOADBYTES e o p n ;; ret (xorx s i w, w) else ret (s, tmp)).
Proof.
  destruct b; [|apply post_ret; exact I].
  eapply post_bind; [apply post_wLOADBYTES|]. intros. apply post_ret. exact I.
Qed.
Lemma post_update s out inp n mode : n < 2 ^ 64 -> post top (ascon_update e o strict hb s out inp n mode).
Proof.
  intros Hn. unfold ascon_update. eapply post_bind.
  - apply (post_shrink (fun v : state * N * N * ptr * ptr * N => snd v) 8 _ _ (s, 0, 0, inp, out, n)); [lia|exact Hn| |].
    + intros [[[[[x i] t] p] q] l]. cbn [fst snd]. lia.
    + intros [[[[[x i] t] p] q] l]. unfold update_body, wLOAD, wSTORE.
      eapply post_bind; [apply post_absorbs|]. intros b _.
      eapply post_bind; [apply post_load_step|]. intros [s1 t1] _.
      eapply post_bind; [apply post_branch|]. intros bb _.
      eapply post_bind with (Q := top).
      { destruct bb; [apply post_wSTOREBYTES|apply post_ret; exact I]. }
      intros _ _.
      eapply post_bind; [apply post_branch|]. intros ? _. cbn zeta.
      eapply post_bind; [apply post_branch|]. intros ? _.
      eapply post_bind; [apply post_branch|]. intros ? _.
      eapply post_bind; [apply post_advance|]. intros ? _.
      eapply post_bind; [apply post_advance|]. intros ? _.
      apply post_ret. cbn [fst snd]. reflexivity.
  - intros [[[[[x i] t] p] q] l] _.
    eapply post_bind; [apply post_absorbs|]. intros b _.
    eapply post_bind; [apply post_load_step|]. intros [s1 t1] _.
    eapply post_bind; [apply post_branch|]. intros bb _.
    eapply post_bind with (Q := top).
    { destruct bb; [apply post_wSTOREBYTES|apply post_ret; exact I]. }
    intros _ _.
    eapply post_bind; [apply post_branch|]. intros cc _.
    eapply post_bind with (Q := top).
    { destruct cc; [|apply post_ret; exact I].
      eapply post_bind; [apply post_wCLEAR|]. intros. apply post_ret. exact I. }
    intros. eapply post_bind; [apply post_wPAD|]. intros. apply post_ret. exact I.
Qed.
Lemma post_low_aead tag out inp inlen ad adlen npub k mode : inlen < 2 ^ 64 -> adlen < 2 ^ 64 ->
  post top (ascon_aead e o strict hb tag out inp inlen ad adlen npub k mode).
Proof.
  intros H1 H2. unfold ascon_aead.
  eapply post_bind; [apply post_loadkey|]. intros K _.
  eapply post_bind; [apply post_initaead|]. intros s1 _.
  eapply post_bind; [apply post_branch|]. intros bb _.
  eapply post_bind with (Q := top).
  { destruct bb; [|apply post_ret; exact I].
    eapply post_bind; [apply post_update, H2|]. intros. apply post_ret. exact I. }
  intros s2 _. cbn zeta.
  eapply post_bind; [apply post_update, H1|]. intros s3 _.
  eapply post_bind; [apply post_branch|]. intros cc _.
  destruct cc.
  - eapply post_bind with (Q := top); [|intros; apply post_ret; exact I].
    apply post_for; [|exact I]. intros. apply post_st.
  - eapply post_bind with (Q := top); [|intros; apply post_ret; exact I].
    unfold diff_loop. apply post_for; [|exact I]. intros. eapply post_bind; [apply post_ld|]. intros. apply post_ret. exact I.
Qed.
Theorem post_low_encrypt c clen m mlen ad adlen nsec npub k : mlen < 2 ^ 64 -> adlen < 2 ^ 64 ->
  post top (low_aead_encrypt e o strict hb c clen m mlen ad adlen nsec npub k).
Proof.
  intros H1 H2. unfold low_aead_encrypt. eapply post_bind; [apply post_store_ull|]. intros _ _.
  eapply post_bind; [apply post_padd|]. intros ? _. apply post_low_aead; assumption.
Qed.
Theorem post_low_decrypt m mlen nsec c clen ad adlen npub k : adlen < 2 ^ 64 ->
  post top (low_aead_decrypt e o strict hb m mlen nsec c clen ad adlen npub k).
Proof.
  intros H2. unfold low_aead_decrypt. eapply post_bind; [apply post_branch|]. intros cc _.
  destruct cc; [apply post_ret; exact I|].
  eapply post_ext; [intro; apply stored_length, fits_sub64|]. cbv beta.
  eapply post_bind; [apply post_store_ull|]. intros _ _.
  eapply post_bind; [apply post_load_ull|]. intros _ _.
  eapply post_bind; [apply post_padd|]. intros ? _.
  eapply post_bind; [apply post_load_ull|]. intros _ _. apply post_low_aead; [apply sub64_lt|exact H2].
Qed.
Theorem post_low_xof iv out outlen inp n : n < 2 ^ 64 -> outlen < 2 ^ 64 ->
  post top (low_xof e o strict hb iv out outlen inp n).
Proof.
  intros H1 H2. unfold low_xof. eapply post_bind; [apply post_update, H1|]. intros. cbn zeta.
  eapply post_bind; [apply post_update, H2|]. intros. apply post_ret. exact I.
Qed.
End Low.
