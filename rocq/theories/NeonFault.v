(** * NeonFault.v -- what the NEON AEAD does outside its contract: block
    buffers that are no multiple of 4, lengths of 2^32 and more. *)
From Coq Require Import Arith Bool NArith ZArith List Lia Init.Byte Strings.Byte.
From Coq Require Import ZifyBool ZifyNat ZifyN.
From Verif Require Import Words WordFacts Spec SpecFacts CMem Contract CMemFacts ApiSpec ModelRef
  StateRep RefRound RefPrim RefAead RefAeadDec ModelCommon ModelWords WordLaws WordInst ComPrim ComAead ComAeadDec
  ModelNeon NeonRound NeonAead ComCt.
Import ListNotations.
Local Open Scope N_scope.

Lemma bad_l {A B} (c : C A) (f : A -> C B) M e : c M = Bad e -> bind c f M = Bad e.
Proof. unfold bind. intros ->. reflexivity. Qed.
Lemma bad_r {A B} (c : C A) (f : A -> C B) M M' v e : runs c M M' v -> f v M' = Bad e -> bind c f M = Bad e.
Proof. intros [t E] H. unfold bind. rewrite E, H. reflexivity. Qed.
Lemma bad_while {S} cond body (s : S) f M e : cond s = true -> body s M = Bad e -> (0 < f)%nat ->
  while f cond body s M = Bad e.
Proof.
  intros H1 H2 H3. destruct f; [lia|]. cbn [while]. eapply bad_r; [apply runs_branch|]. rewrite H1.
  apply bad_l, H2.
Qed.
Lemma vldm_bad M q : q mod 4 <> 0 -> vldm q M = Bad (ErrAlign q).
Proof. intros H. unfold vldm. replace (q mod 4 =? 0) with false by lia. reflexivity. Qed.
Lemma vstm_bad M q a b : q mod 4 <> 0 -> vstm q a b M = Bad (ErrAlign q).
Proof. intros H. unfold vstm. replace (q mod 4 =? 0) with false by lia. reflexivity. Qed.

Section U.
Variable u : dregs.
Notation wo := (neon_ops u LE).
Notation L := (neon_laws u LE).
Notation vs := (ComPrim.vs cn64).
Notation word := (ComPrim.word_of LE wo).
Local Ltac step := eapply runs_bind.

Lemma n_adata_bad M s ad n : 16 <= n -> n < 2 ^ 32 -> ad mod 4 <> 0 ->
  n_adata u s ad n M = Bad (ErrAlign ad).
Proof.
  intros H H32 A. unfold n_adata. eapply bad_r; [apply runs_branch|]. replace (n =? 0) with false by lia. cbn [negb].
  apply bad_l, bad_l. unfold nAD. rewrite hi_small, lo_small by exact H32. apply bad_l, bad_while.
  - cbv beta iota. rewrite hi_cmplen. lia.
  - unfold n_ad_body. apply bad_l, vldm_bad, A.
  - unfold fuel. lia.
Qed.
Lemma n_encrypt_bad_m M s c m n : 16 <= n -> n < 2 ^ 32 -> m mod 4 <> 0 ->
  n_encrypt u s c m n M = Bad (ErrAlign m).
Proof.
  intros H H32 A. unfold n_encrypt. apply bad_l. unfold nPT. rewrite hi_small, lo_small by exact H32. apply bad_l, bad_while.
  - cbv beta iota. rewrite hi_cmplen. lia.
  - unfold n_enc_body. apply bad_l, vldm_bad, A.
  - unfold fuel. lia.
Qed.
Lemma n_encrypt_bad_c M s c m l : 16 <= len l -> len l < 2 ^ 32 -> m mod 4 = 0 -> c mod 4 <> 0 -> readable M m l ->
  n_encrypt u s c m (len l) M = Bad (ErrAlign c).
Proof.
  intros H H32 A B R. unfold n_encrypt. apply bad_l. unfold nPT. rewrite hi_small, lo_small by exact H32. apply bad_l, bad_while.
  - cbv beta iota. rewrite hi_cmplen. lia.
  - destruct (split_len 8 l) as (b0 & l1 & -> & H0 & L0); [change (N.of_nat 8) with 8; lia|].
    destruct (split_len 8 l1) as (b1 & l2 & -> & H1 & L1); [rewrite len_app in H; change (N.of_nat 8) with 8 in *; lia|].
    rewrite app_assoc in R. destruct (readable_app _ _ _ _ R) as (R1 & _).
    unfold n_enc_body. eapply bad_r; [apply (runs_vldm M m b0 b1 R1 H0 H1 A)|].
    eapply bad_r; [eapply runs_padd_readable; [exact R|rewrite !len_app in *; lia]|].
    cbv zeta. apply bad_l, vstm_bad, B.
  - unfold fuel. lia.
Qed.
Lemma n_decrypt_bad_c M s c m n : 16 <= n -> n < 2 ^ 32 -> c mod 4 <> 0 ->
  n_decrypt u s m c n M = Bad (ErrAlign c).
Proof.
  intros H H32 A. unfold n_decrypt. apply bad_l. unfold nCT. rewrite hi_small, lo_small by exact H32. apply bad_l, bad_while.
  - cbv beta iota. rewrite hi_cmplen. lia.
  - unfold n_dec_body. apply bad_l, vldm_bad, A.
  - unfold fuel. lia.
Qed.
Lemma n_decrypt_bad_m M s c m l t : 16 <= len l -> len l < 2 ^ 32 -> c mod 4 = 0 -> m mod 4 <> 0 -> readable M c (l ++ t) ->
  n_decrypt u s m c (len l) M = Bad (ErrAlign m).
Proof.
  intros H H32 A B R. unfold n_decrypt. apply bad_l. unfold nCT. rewrite hi_small, lo_small by exact H32. apply bad_l, bad_while.
  - cbv beta iota. rewrite hi_cmplen. lia.
  - destruct (split_len 8 l) as (b0 & l1 & -> & H0 & L0); [change (N.of_nat 8) with 8; lia|].
    destruct (split_len 8 l1) as (b1 & l2 & -> & H1 & L1); [rewrite len_app in H; change (N.of_nat 8) with 8 in *; lia|].
    rewrite <- app_assoc, <- app_assoc, app_assoc in R. destruct (readable_app _ _ _ _ R) as (R1 & _).
    unfold n_dec_body. eapply bad_r; [apply (runs_vldm M c b0 b1 R1 H0 H1 A)|].
    eapply bad_r; [eapply runs_padd_readable; [exact R|rewrite !len_app in *; lia]|].
    cbv zeta. apply bad_l, vstm_bad, B.
  - unfold fuel. lia.
Qed.

Definition aligned (p : ptr) (n : N) : Prop := 16 <= n -> p mod 4 = 0.
Lemma not_aligned p n : ~ aligned p n -> 16 <= n /\ p mod 4 <> 0.
Proof.
  unfold aligned. intros H. destruct (N.leb_spec 16 n) as [H1|H1].
  - split; [exact H1|]. intros E. apply H. intros _. exact E.
  - exfalso. apply H. intros E. lia.
Qed.

Theorem neon_encrypt_fault M c clen m ad nsec npub k mb adb nb kb :
  encrypt_pre (Demands false false false) M c clen m ad npub k mb adb nb kb ->
  len adb < 2 ^ 32 -> len mb < 2 ^ 32 ->
  (~ aligned ad (len adb) ->
   neon_aead_encrypt u c clen m (len mb) ad (len adb) nsec npub k M = Bad (ErrAlign ad)) /\
  (aligned ad (len adb) -> ~ aligned m (len mb) ->
   neon_aead_encrypt u c clen m (len mb) ad (len adb) nsec npub k M = Bad (ErrAlign m)) /\
  (aligned ad (len adb) -> aligned m (len mb) -> ~ aligned c (len mb) ->
   neon_aead_encrypt u c clen m (len mb) ad (len adb) nsec npub k M = Bad (ErrAlign c)).
Proof.
  intros [Hk Hn Rk Rn Ra Rm Wc Wcl Dk Dn Da Dm _ _ _ _ _ _] Ha32 Hm32.
  set (M1 := write M clen (to_host LE 8 (len mb + 16))).
  assert (Lh : len (to_host LE 8 (len mb + 16)) = 8) by (unfold len at 1; rewrite length_to_host; reflexivity).
  assert (Lk : len kb = 16) by (apply (len_eq kb 16), Hk).
  assert (Ln : len nb = 16) by (apply (len_eq nb 16), Hn).
  assert (Rk1 : readable M1 k kb) by (apply readable_write_disjoint; [exact Rk|rewrite Lh, Lk; exact Dk]).
  assert (Rn1 : readable M1 npub nb) by (apply readable_write_disjoint; [exact Rn|rewrite Lh, Ln; exact Dn]).
  assert (Ra1 : readable M1 ad adb) by (apply readable_write_disjoint; [exact Ra|rewrite Lh; exact Da]).
  assert (Rm1 : readable M1 m mb) by (apply readable_write_disjoint; [exact Rm|rewrite Lh; exact Dm]).
  assert (Wc1 : writable M1 c (len mb + 16)) by (apply writable_write, Wc).
  unfold is16 in Hk.
  destruct (split_len 8 kb) as (k0 & k1 & -> & H0 & L0); [lia|].
  rewrite app_length in Hk. assert (H1 : length k1 = 8%nat) by lia.
  pose proof (loadkey_ok LE wo M1 k k0 k1 H0 H1 Rk1) as Rnk.
  destruct (initaead_ok LE (neon_ops u LE) cn64 (neon_laws u LE) M1 npub k0 k1 nb H0 H1 Hn Rn1) as (s0 & Rn0 & W0 & E0).
  assert (Pre : forall e, (s <- n_adata u s0 ad (len adb) ;; s <- n_encrypt u s c m (len mb) ;;
      (let s := ascon_final wo s (word k0, word k1) in ascon_gettag LE wo s (c + len mb) ;;; ret 0%Z)) M1 = Bad e ->
    neon_aead_encrypt u c clen m (len mb) ad (len adb) nsec npub k M = Bad e).
  { intros e E. unfold neon_aead_encrypt.
    eapply bad_r; [apply runs_store_ull; exact Wcl|].
    unfold CRYPTO_ABYTES. rewrite add64_small by lia. fold M1.
    eapply bad_r; [eapply runs_padd_writable; [exact Wc1|lia]|].
    unfold n_aead_encrypt. cbv zeta.
    eapply bad_r; [exact Rnk|]. eapply bad_r; [exact Rn0|]. exact E. }
  split; [|split].
  - intros F. apply not_aligned in F. apply Pre, bad_l, n_adata_bad; tauto.
  - intros Aad F. apply not_aligned in F. apply Pre.
    destruct (n_adata_ok u M1 s0 ad adb W0 Ra1 Aad Ha32) as (s1 & W1 & Ws1 & E1).
    eapply bad_r; [exact W1|]. apply bad_l, n_encrypt_bad_m; tauto.
  - intros Aad Am F. apply not_aligned in F. destruct F as [H16 F]. apply Pre.
    destruct (n_adata_ok u M1 s0 ad adb W0 Ra1 Aad Ha32) as (s1 & W1 & Ws1 & E1).
    eapply bad_r; [exact W1|]. apply bad_l, n_encrypt_bad_c; auto.
Qed.

Theorem neon_decrypt_fault M m mlen nsec c ad npub k ct adb nb kb :
  decrypt_pre (Demands false false false) M m mlen c ad npub k ct adb nb kb ->
  len adb < 2 ^ 32 -> len ct - 16 < 2 ^ 32 ->
  (~ aligned ad (len adb) ->
   neon_aead_decrypt u m mlen nsec c (len ct) ad (len adb) npub k M = Bad (ErrAlign ad)) /\
  (aligned ad (len adb) -> ~ aligned c (len ct - 16) ->
   neon_aead_decrypt u m mlen nsec c (len ct) ad (len adb) npub k M = Bad (ErrAlign c)) /\
  (aligned ad (len adb) -> aligned c (len ct - 16) -> ~ aligned m (len ct - 16) ->
   neon_aead_decrypt u m mlen nsec c (len ct) ad (len adb) npub k M = Bad (ErrAlign m)).
Proof.
  intros [Hl Hk Hn Rk Rn Ra Rc Wm Wml Dk Dn Da Dc _ _ _ _ _ _ _] Ha32 Hm32.
  pose proof (readable_bound _ _ _ Rc) as Hbd.
  set (M1 := write M mlen (to_host LE 8 (len ct - 16))).
  assert (Lh : len (to_host LE 8 (len ct - 16)) = 8) by (unfold len at 1; rewrite length_to_host; reflexivity).
  assert (Lk : len kb = 16) by (apply (len_eq kb 16), Hk).
  assert (Ln : len nb = 16) by (apply (len_eq nb 16), Hn).
  assert (Rk1 : readable M1 k kb) by (apply readable_write_disjoint; [exact Rk|rewrite Lh, Lk; exact Dk]).
  assert (Rn1 : readable M1 npub nb) by (apply readable_write_disjoint; [exact Rn|rewrite Lh, Ln; exact Dn]).
  assert (Ra1 : readable M1 ad adb) by (apply readable_write_disjoint; [exact Ra|rewrite Lh; exact Da]).
  assert (Rc1 : readable M1 c ct) by (apply readable_write_disjoint; [exact Rc|rewrite Lh; exact Dc]).
  assert (Fb : fits 64 (len ct - 16)) by (unfold fits; lia).
  assert (Rl : readable M1 mlen (to_host LE 8 (len ct - 16))).
  { apply readable_write_self; [rewrite Lh; apply (writable_bound _ _ _ Wml)|]. intros _. apply Wml. discriminate. }
  unfold is16 in Hk.
  destruct (split_len 8 kb) as (k0 & k1 & -> & H0 & L0); [lia|].
  rewrite app_length in Hk. assert (H1 : length k1 = 8%nat) by lia.
  pose proof (loadkey_ok LE wo M1 k k0 k1 H0 H1 Rk1) as Rnk.
  destruct (initaead_ok LE (neon_ops u LE) cn64 (neon_laws u LE) M1 npub k0 k1 nb H0 H1 Hn Rn1) as (s0 & Rn0 & W0 & E0).
  assert (Pre : forall e, (s <- n_adata u s0 ad (len adb) ;; s <- n_decrypt u s m c (len ct - 16) ;;
      (let s := ascon_final wo s (word k0, word k1) in ascon_verify LE wo s (c + (len ct - 16)))) M1 = Bad e ->
    neon_aead_decrypt u m mlen nsec c (len ct) ad (len adb) npub k M = Bad e).
  { intros e E. unfold neon_aead_decrypt, CRYPTO_ABYTES.
    eapply bad_r; [apply runs_branch|]. replace (len ct <? 16) with false by lia.
    eapply bad_r; [apply runs_store_ull; exact Wml|].
    rewrite sub64_small by lia. fold M1.
    eapply bad_r; [apply runs_load_ull; [exact Rl|exact Fb]|].
    eapply bad_r; [eapply runs_padd_readable; [exact Rc1|lia]|].
    eapply bad_r; [apply runs_load_ull; [exact Rl|exact Fb]|].
    unfold n_aead_decrypt. cbv zeta.
    eapply bad_r; [exact Rnk|]. eapply bad_r; [exact Rn0|]. exact E. }
  split; [|split].
  - intros F. apply not_aligned in F. apply Pre, bad_l, n_adata_bad; tauto.
  - intros Aad F. apply not_aligned in F. apply Pre.
    destruct (n_adata_ok u M1 s0 ad adb W0 Ra1 Aad Ha32) as (s1 & W1 & Ws1 & E1).
    eapply bad_r; [exact W1|]. apply bad_l, n_decrypt_bad_c; tauto.
  - intros Aad Am F. apply not_aligned in F. destruct F as [H16 F]. apply Pre.
    destruct (n_adata_ok u M1 s0 ad adb W0 Ra1 Aad Ha32) as (s1 & W1 & Ws1 & E1).
    eapply bad_r; [exact W1|]. apply bad_l.
    assert (Ec : ct = firstn (length ct - 16) ct ++ skipn (length ct - 16) ct) by (symmetry; apply firstn_skipn).
    assert (El : len ct - 16 = len (firstn (length ct - 16) ct)).
    { unfold len. rewrite firstn_length. unfold len in Hl. lia. }
    rewrite Ec in Rc1. rewrite El in *. eapply n_decrypt_bad_m; eauto.
Qed.

(** ** Lengths of 2^32 and more *)

Definition never {A} (c : C A) : Prop := forall M t M' v, c M <> Done t M' v.
Lemma never_l {A B} (c : C A) (f : A -> C B) : never c -> never (bind c f).
Proof.
  intros H M t M' v. unfold bind. specialize (H M). destruct (c M) as [t1 M1 v1|e]; [|discriminate].
  exfalso. exact (H t1 M1 v1 eq_refl).
Qed.
Lemma never_r {A B} (c : C A) (f : A -> C B) : (forall v, never (f v)) -> never (bind c f).
Proof.
  intros H M t M' v. unfold bind. destruct (c M) as [t1 M1 v1|e]; [|discriminate].
  specialize (H v1 M1). destruct (f v1 M1) as [t2 M2 v2|e]; [|discriminate]. exfalso. exact (H t2 M2 v2 eq_refl).
Qed.
(** a loop whose body keeps an invariant under which it goes on *)
Lemma never_while {S} (I : S -> Prop) cond body :
  (forall s, I s -> cond s = true) -> (forall s M t M' s', I s -> body s M = Done t M' s' -> I s') ->
  forall f s, I s -> never (while f cond body s).
Proof.
  intros HC HB f. induction f as [|f IH]; intros s Hs M t M' v; [discriminate|]. cbn [while].
  rewrite (HC s Hs). unfold bind at 1, branch. cbv beta iota. unfold bind.
  destruct (body s M) as [t1 M1 s1|e] eqn:E; [|discriminate].
  pose proof (IH s1 (HB s M t1 M1 s1 Hs E) M1) as H.
  destruct (while f cond body s1 M1) as [t2 M2 v2|e]; [|discriminate]. exfalso. exact (H t2 M2 v2 eq_refl).
Qed.

Lemma cmplen_hi hi lo : 0 < hi -> cmplen hi lo = (false, true).
Proof. intros H. unfold cmplen, cmpeq, cmp. replace (hi =? 0) with false by lia. replace (0 <=? hi) with true by lia. reflexivity. Qed.
Lemma sub32_0 a : a < 2 ^ 32 -> sub32 a 0 = a.
Proof. intros H. rewrite sub32_small by lia. lia. Qed.
Lemma hi_big n : 2 ^ 32 <= n -> n < 2 ^ 64 -> 0 < trunc 32 (shrw n 32) < 2 ^ 32.
Proof.
  intros H1 H2. unfold shrw, trunc. rewrite N.shiftr_div_pow2, N.land_ones.
  assert (1 <= n / 2 ^ 32) by (apply N.div_le_lower_bound; lia).
  assert (n / 2 ^ 32 < 2 ^ 32) by (apply N.div_lt_upper_bound; lia).
  rewrite N.mod_small by lia. lia.
Qed.

Definition going5 (v : dregs * ptr * N * N * flags) : Prop :=
  let '(_, _, hi, _, f) := v in 0 < hi < 2 ^ 32 /\ f = (false, true).
Definition going6 (v : dregs * ptr * ptr * N * N * flags) : Prop :=
  let '(_, _, _, hi, _, f) := v in 0 < hi < 2 ^ 32 /\ f = (false, true).

Lemma bind_done {A B} (c : C A) (f : A -> C B) M t M' v : bind c f M = Done t M' v ->
  exists a t2 M2, f a M2 = Done t2 M' v.
Proof.
  unfold bind. destruct (c M) as [t1 M1 v1|e]; [|discriminate]. destruct (f v1 M1) as [t2 M2 v2|e] eqn:E; [|discriminate].
  intros H. inversion H; subst. eauto.
Qed.

Lemma ret_done {A} (v : A) M t M' v' : ret v M = Done t M' v' -> v' = v.
Proof. unfold ret. intros H. injection H as _ _ H. symmetry. exact H. Qed.
Lemma going5_loop f v : going5 v -> never (while f (fun '(_, _, _, _, f) => is_hi f) n_ad_body v).
Proof.
  intros H. apply (never_while going5); [| |exact H].
  - intros [[[[r p] hi] lo] fl] [_ ->]. reflexivity.
  - intros [[[[r p] hi] lo] fl] M t M' s' [Hh ->] E. unfold n_ad_body in E.
    apply bind_done in E. destruct E as (a & t2 & M2 & E). apply bind_done in E. destruct E as (a1 & t3 & M3 & E).
    cbv zeta in E. apply ret_done in E. subst s'. unfold going5. unfold sbc32. cbn [snd]. rewrite sub32_0, cmplen_hi by lia. split; [lia|reflexivity].
Qed.
Lemma going6_enc f v : going6 v -> never (while f (fun '(_, _, _, _, _, f) => is_hi f) n_enc_body v).
Proof.
  intros H. apply (never_while going6); [| |exact H].
  - intros [[[[[r p] q] hi] lo] fl] [_ ->]. reflexivity.
  - intros [[[[[r p] q] hi] lo] fl] M t M' s' [Hh ->] E. unfold n_enc_body in E.
    apply bind_done in E. destruct E as (a & t2 & M2 & E). apply bind_done in E. destruct E as (a1 & t3 & M3 & E).
    cbv zeta in E. apply bind_done in E. destruct E as (a2 & t4 & M4 & E). apply bind_done in E. destruct E as (a3 & t5 & M5 & E).
    apply ret_done in E. subst s'. unfold going6. unfold sbc32. cbn [snd]. rewrite sub32_0, cmplen_hi by lia. split; [lia|reflexivity].
Qed.
Lemma going6_dec f v : going6 v -> never (while f (fun '(_, _, _, _, _, f) => is_hi f) n_dec_body v).
Proof.
  intros H. apply (never_while going6); [| |exact H].
  - intros [[[[[r p] q] hi] lo] fl] [_ ->]. reflexivity.
  - intros [[[[[r p] q] hi] lo] fl] M t M' s' [Hh ->] E. unfold n_dec_body in E.
    apply bind_done in E. destruct E as (a & t2 & M2 & E). apply bind_done in E. destruct E as (a1 & t3 & M3 & E).
    cbv zeta in E. apply bind_done in E. destruct E as (a2 & t4 & M4 & E). apply bind_done in E. destruct E as (a3 & t5 & M5 & E).
    apply ret_done in E. subst s'. unfold going6. unfold sbc32. cbn [snd]. rewrite sub32_0, cmplen_hi by lia. split; [lia|reflexivity].
Qed.

Lemma never_adata s ad n : 2 ^ 32 <= n -> n < 2 ^ 64 -> never (n_adata u s ad n).
Proof.
  intros H1 H2. unfold n_adata. intros M t M' v. unfold bind at 1, branch.
  replace (n =? 0) with false by lia. cbn [negb].
  assert (H : never (bind (bind (nAD u s ad n) (fun '(s, ad, adlen) => s <- ad_last LE wo s ad adlen ;; ret (nP u 8 s)))
     (fun s => ret (xorx s 4 (w_dsep wo))))).
  { apply never_l, never_l. unfold nAD. apply never_l. apply going5_loop. unfold going5.
    pose proof (hi_big n H1 H2) as Hh. rewrite cmplen_hi by lia. split; [exact Hh|reflexivity]. }
  specialize (H M).
  match goal with |- context [match ?x with Done _ _ _ => _ | Bad _ => _ end] => destruct x as [t1 M1 v1|e] eqn:E end; [|discriminate].
  exfalso. exact (H t1 M1 v1 eq_refl).
Qed.
Lemma never_encrypt s c m n : 2 ^ 32 <= n -> n < 2 ^ 64 -> never (n_encrypt u s c m n).
Proof.
  intros H1 H2. unfold n_encrypt. apply never_l. unfold nPT. apply never_l. apply going6_enc. unfold going6.
  pose proof (hi_big n H1 H2) as Hh. rewrite cmplen_hi by lia. split; [exact Hh|reflexivity].
Qed.
Lemma never_decrypt s c m n : 2 ^ 32 <= n -> n < 2 ^ 64 -> never (n_decrypt u s m c n).
Proof.
  intros H1 H2. unfold n_decrypt. apply never_l. unfold nCT. apply never_l. apply going6_dec. unfold going6.
  pose proof (hi_big n H1 H2) as Hh. rewrite cmplen_hi by lia. split; [exact Hh|reflexivity].
Qed.
Theorem neon_encrypt_never c clen m mlen ad adlen nsec npub k : mlen < 2 ^ 64 -> adlen < 2 ^ 64 ->
  2 ^ 32 <= mlen \/ 2 ^ 32 <= adlen -> never (neon_aead_encrypt u c clen m mlen ad adlen nsec npub k).
Proof.
  intros H1 H2 H. unfold neon_aead_encrypt. do 2 (apply never_r; intros ?). unfold n_aead_encrypt. cbv zeta.
  do 2 (apply never_r; intros ?). destruct H as [H|H].
  - apply never_r; intros ?. apply never_l, never_encrypt; assumption.
  - apply never_l, never_adata; assumption.
Qed.

Theorem neon_decrypt_never m mlen nsec c clen ad adlen npub k : clen < 2 ^ 64 -> adlen < 2 ^ 64 ->
  16 <= clen -> 2 ^ 32 + 16 <= clen \/ 2 ^ 32 <= adlen -> never (neon_aead_decrypt u m mlen nsec c clen ad adlen npub k).
Proof.
  intros H1 H2 H16 H M t M' v. unfold neon_aead_decrypt, CRYPTO_ABYTES. unfold bind at 1, branch.
  replace (clen <? 16) with false by lia. rewrite sub64_small by lia.
  pose proof (stored_length LE mlen (clen - 16) c (fun t n => n_aead_decrypt u m t c n ad adlen npub k) M) as E.
  cbv beta iota in E. rewrite E by (unfold fits; lia).
  match goal with |- match ?x with Done _ _ _ => _ | Bad _ => _ end <> _ => destruct x as [t1 M1 v1|e] eqn:F end; [|discriminate].
  exfalso. revert F. match goal with |- ?x M = _ -> _ => assert (G : never x) end; [|apply G].
  do 4 (apply never_r; intros ?). unfold n_aead_decrypt. cbv zeta.
  do 2 (apply never_r; intros ?). destruct H as [H|H].
  - apply never_r; intros ?. apply never_l, never_decrypt; lia.
  - apply never_l, never_adata; assumption.
Qed.
End U.
