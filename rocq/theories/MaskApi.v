(** * MaskApi.v -- the masked AEAD: crypto_aead_encrypt and
    crypto_aead_decrypt of protected_bi32_armv6_leveled meet their contracts. *)
From Coq Require Import Arith Bool NArith ZArith List Lia Init.Byte.
From Coq Require Import ZifyBool ZifyNat ZifyN.
From Verif Require Import Words WordFacts Spec SpecFacts RoundFacts ModelRef StateRep RefRound RefPrim RefAead RefAeadDec ModelCommon
  ComPrim ComAeadDec AeadFacts ModelMask MaskVal MaskRound MaskPerm MaskArr MaskShares MaskState
  MaskAead MaskDec MaskTop SpecMask CMem Contract CMemFacts.
Import ListNotations.
Local Open Scope N_scope.

Lemma trunc_small n x : x < 2 ^ n -> trunc n x = x.
Proof. intros H. unfold trunc. rewrite N.land_ones. apply N.mod_small, H. Qed.

Lemma nwords_le n : (8 * nwords n <= n + 7)%nat.
Proof. unfold nwords. pose proof (Nat.mul_div_le (n + 7) 8). lia. Qed.
Lemma nwords_add16 n : nwords (n + 16) = (nwords n + 2)%nat.
Proof. unfold nwords. replace (n + 16 + 7)%nat with (n + 7 + 2 * 8)%nat by lia. rewrite Nat.div_add by lia. reflexivity. Qed.

Lemma alen_malloc base ns l : okn ns -> len l < 2 ^ 60 ->
  alen (malloc_shares base ns (len l)) = 2 * N.of_nat ns * N.of_nat (nwords (length l)).
Proof.
  intros Hn Hl. unfold malloc_shares, malloc, alen. cbn [a_cells]. rewrite repeat_length, N2Nat.id, NUM_WORDS_len by exact Hl.
  pose proof (nwords_le (length l)). unfold okn, len in *.
  rewrite trunc_small by nia.
  replace (4 * N.of_nat ns * (2 * N.of_nat (nwords (length l)))) with (2 * N.of_nat ns * N.of_nat (nwords (length l)) * 4) by lia.
  rewrite N.div_mul by lia. reflexivity.
Qed.

(** ** The tag check *)

Lemma xor_into_two a b c d : length a = length c -> length b = length d -> xor_into (a ++ b) (c ++ d) = xor_into a c ++ xor_into b d.
Proof.
  revert c. induction a as [|x a IH]; intros [|y c] H H'; try discriminate; [reflexivity|]. cbn. rewrite IH by (cbn in H; lia). reflexivity.
Qed.
Lemma last_words_xs w : wf w -> last_words (xs w) = N.lxor (X3 w) (X4 w).
Proof.
  intros (_ & _ & _ & W3 & W4). unfold last_words, xs, SB.
  replace (skipn 24 (wb (X0 w) ++ wb (X1 w) ++ wb (X2 w) ++ wb (X3 w) ++ wb (X4 w))) with (wb (X3 w) ++ wb (X4 w)).
  2: { rewrite !app_assoc, <- (app_assoc _ _ (wb (X4 w))). rewrite skipn_app. rewrite !app_length, !wb_len. change (24 - (8 + 8 + 8))%nat with 0%nat.
       rewrite (skipn_all2 (n := 24)) by (rewrite !app_length, !wb_len; lia). reflexivity. }
  replace (skipn 32 (wb (X0 w) ++ wb (X1 w) ++ wb (X2 w) ++ wb (X3 w) ++ wb (X4 w))) with (wb (X4 w)).
  2: { rewrite !app_assoc. rewrite skipn_app. rewrite !app_length, !wb_len. change (32 - (8 + 8 + 8 + 8))%nat with 0%nat.
       rewrite (skipn_all2 (n := 32)) by (rewrite !app_length, !wb_len; lia). reflexivity. }
  rewrite firstn_app, wb_len. change (8 - 8)%nat with 0%nat. rewrite firstn_O, app_nil_r.
  rewrite !firstn_all2 by (rewrite wb_len; lia). unfold wb. rewrite !le_num_le_bytes.
  change (8 * N.of_nat 8) with 64. rewrite !trunc_fits by assumption. reflexivity.
Qed.
Lemma tag_state_ok v t0 t1 : wf v -> length t0 = 8%nat -> length t1 = 8%nat ->
  N.lxor (X3 (tag_state v (le_num t0) (le_num t1))) (X4 (tag_state v (le_num t0) (le_num t1))) =
  check_bits (xor_into (wb (X3 v) ++ wb (X4 v)) (t0 ++ t1)).
Proof.
  intros (_ & _ & _ & W3 & W4) H0 H1. unfold check_bits. rewrite xor_into_two by (rewrite wb_len; lia).
  pose proof (fits_le_num8 t0 ltac:(lia)) as F0. pose proof (fits_le_num8 t1 ltac:(lia)) as F1.
  rewrite <- (wb_le_num8 t0) at 3 by exact H0. rewrite <- (wb_le_num8 t1) at 3 by exact H1.
  rewrite <- !wb_xor by assumption.
  assert (Wd : wf (St 0 0 0 (N.lxor (X3 v) (le_num t0)) (N.lxor (X4 v) (le_num t1)))).
  { repeat split; try apply fits_0; cbn [X3 X4]; apply fits_lxor; assumption. }
  assert (Wz : wf (St 0 0 0 0 0)) by (repeat split; apply fits_0).
  change (repeat x00 24 ++ wb (N.lxor (X3 v) (le_num t0)) ++ wb (N.lxor (X4 v) (le_num t1)))
    with (xs (St 0 0 0 (N.lxor (X3 v) (le_num t0)) (N.lxor (X4 v) (le_num t1)))).
  change (repeat x00 40) with (xs (St 0 0 0 0 0)).
  rewrite <- !xs_P8 by assumption. rewrite !last_words_xs by (apply wf_P8; assumption).
  unfold tag_state. generalize (P8 (St 0 0 0 (N.lxor (X3 v) (le_num t0)) (N.lxor (X4 v) (le_num t1)))) (P8 (St 0 0 0 0 0)).
  intros a b. cbn [X3 X4]. apply N.bits_inj. intros i. rewrite !N.lxor_spec.
  destruct (N.testbit (X3 a) i), (N.testbit (X3 b) i), (N.testbit (X4 a) i), (N.testbit (X4 b) i); reflexivity.
Qed.

Section Api.
Variable F : cfg.
Variable R : N -> N.
Hypothesis HF : okcfg F.
Local Notation okM := (okM F HF).
Local Notation okC := (okC F HF).
Local Notation okKEY := (okKEY F HF).
Local Notation okAD := (okAD F HF).
Local Notation okNP := (okNP F HF).

Theorem masked_encrypt_ok H M c clen m ad nsec npub k kb nb adb mb :
  is16 kb -> is16 nb -> readable M k kb -> readable M npub nb -> readable M ad adb -> readable M m mb ->
  writable M c (len mb + 16) -> writable M clen 8 -> len adb < 2 ^ 60 -> len mb + 16 < 2 ^ 60 ->
  runs (masked_encrypt F R LE H c clen m (len mb) ad (len adb) nsec npub k) M
    (write (write M clen (to_host LE 8 (len mb + 16))) c (aead_encrypt kb nb adb mb)) 0%Z.
Proof.
  intros Hk Hn Rk Rn Ra Rm Wc Wcl Hla Hlm.
  assert (Lk : len kb = 16) by (unfold len; rewrite Hk; reflexivity). assert (Ln : len nb = 16) by (unfold len; rewrite Hn; reflexivity).
  set (M1 := write M clen (to_host LE 8 (len mb + 16))).
  destruct (generate_ok R M (nKEY F) 0 (malloc_shares (b_k H) (nKEY F) (len kb)) k kb okKEY Rk) as (ka & g1 & Gk & _ & Ak);
    [lia|rewrite alen_malloc by (exact okKEY || lia); lia|].
  destruct (generate_ok R M (nNPUB F) g1 (malloc_shares (b_n H) (nNPUB F) (len nb)) npub nb okNP Rn) as (na & g2 & Gn & _ & An);
    [lia|rewrite alen_malloc by (exact okNP || lia); lia|].
  destruct (generate_ok R M (nAD F) g2 (malloc_shares (b_a H) (nAD F) (len adb)) ad adb okAD Ra) as (aa & g3 & Ga & _ & Aa);
    [lia|rewrite alen_malloc by (exact okAD || lia); lia|].
  destruct (generate_ok R M (nM F) g3 (malloc_shares (b_m H) (nM F) (len mb)) m mb okM Rm) as (ma & g4 & Gm & _ & Am);
    [lia|rewrite alen_malloc by (exact okM || lia); lia|].
  set (cs0 := malloc_shares (b_c H) (nC F) (add64 (len mb) 16)).
  assert (Lc0 : alen cs0 = 2 * N.of_nat (nC F) * (N.of_nat (nwords (length mb)) + 2)).
  { unfold cs0, add64. rewrite trunc_small by lia.
    replace (len mb + 16) with (len (mb ++ repeat x00 16)) by (rewrite len_app; reflexivity).
    rewrite alen_malloc by (exact okC || (rewrite len_app; change (len (repeat x00 16)) with 16; lia)).
    rewrite app_length. change (length (repeat x00 16)) with 16%nat. rewrite nwords_add16. lia. }
  destruct (m_init_ok F R HF M1 g4 ka na kb nb Hk Hn Ak An) as (s1 & g5 & v1 & R1 & S1 & E1).
  pose proof (to_adata F HF _ _ S1) as S1'.
  destruct (m_adata_ok F R HF M1 aa _ _ adb S1' Aa Hla) as (s2 & v2 & R2 & S2 & E2).
  pose proof (to_encdec F R HF _ _ g5 S2) as S2'.
  destruct (if (nAD F =? nM F)%nat then (s2, g5) else m_level_encdec F R s2 g5) as [s2' g6] eqn:El1. cbn [fst] in S2'.
  destruct (m_encrypt_ok F R HF M1 ma s2' v2 cs0 mb S2' Am) as (s3 & v3 & cs1 & cf & R3 & S3 & Lc1 & O3 & Lcf & E3); [lia|lia|].
  pose proof (to_final F R HF _ _ g6 S3) as S3'.
  destruct (if (nM F =? nKEY F)%nat then (s3, g6) else m_level_final F R s3 g6) as [s3' g7] eqn:El2. cbn [fst] in S3'.
  destruct (split_len 8 kb) as (k0 & k1 & -> & K0 & LK0); [unfold is16, len in *; lia|].
  assert (K1 : length k1 = 8%nat) by (unfold is16 in Hk; rewrite app_length in Hk; lia).
  destruct (m_final_ok F HF M1 ka s3' v3 k0 k1 S3' K0 K1 Ak) as (s4 & R4 & S4).
  destruct (ref_final_ok v3 k0 k1 (ms_wf _ _ _ S3') K0 K1) as (_ & E4).
  set (o := 2 * N.of_nat (nwords (length mb)) * N.of_nat (nC F)).
  destruct (m_settag_ok F R HF M1 s4 _ cs1 o S4) as (cs2 & R5 & D5 & O5); [unfold o; lia|].
  rewrite E4 in O5. set (tag := aead_tag (k0 ++ k1) (xs v3)) in *.
  assert (Lt : len tag = 16) by (unfold len, tag; rewrite length_aead_tag; reflexivity).
  assert (O6 : aout cs2 (nC F) 0 (firstn (length mb) cf)).
  { eapply aout_differs; [exact D5| |exact O3]. cbv beta. intros i _ Hi. rewrite firstn_length, Nat.min_l in Hi by exact Lcf.
    unfold o. lia. }
  assert (Lb : len (firstn (length mb) cf) = len mb) by (unfold len; rewrite firstn_length, Nat.min_l by exact Lcf; reflexivity).
  pose proof D5 as (_ & Lc2 & _).
  assert (Hb1 : writable M1 c (len mb) /\ writable M1 (c + len mb) 16) by (apply writable_split, writable_write, Wc).
  destruct Hb1 as [W1 W2]. pose proof (writable_bound _ _ _ Wc). destruct Wc as (_ & Wc0 & _).
  assert (NW : NUM_WORDS (len mb) * N.of_nat (nC F) = o) by (rewrite NUM_WORDS_len by lia; reflexivity).
  assert (EE : aead_encrypt (k0 ++ k1) nb adb mb = firstn (length mb) cf ++ tag).
  { unfold aead_encrypt. rewrite <- E1, <- E2, E3. reflexivity. }
  rewrite EE, write_app, Lb.
  unfold masked_encrypt. cbv zeta. rewrite Lk in Gk. rewrite Ln in Gn.
  step; [exact Gk|]. cbv beta iota. step; [exact Gn|]. cbv beta iota. step; [exact Ga|]. cbv beta iota. step; [exact Gm|]. cbv beta iota.
  fold cs0. step.
  { unfold m_encrypt_shared. unfold add64. rewrite trunc_small by lia.
    step; [apply runs_store_ull, Wcl|]. fold M1. step; [exact R1|]. cbv beta iota zeta. step; [exact R2|]. rewrite El1. cbv beta iota.
    step; [exact R3|]. cbv beta iota. rewrite El2. cbv beta iota. step; [exact R4|]. rewrite NW.
    step; [apply runs_aoff; unfold o; lia|]. rewrite N.add_0_l. step; [exact R5|]. apply runs_ret. }
  cbv beta iota. step.
  { apply runs_load_ull with (x := len mb + 16); [|unfold fits; lia]. unfold M1. destruct Wcl as (B1 & B2 & _).
    apply readable_write_self; [change (len (to_host LE 8 (len mb + 16))) with 8; lia|intros _; apply B2; lia]. }
  assert (Es : sub64 (len mb + 16) 16 = len mb).
  { rewrite sub64_small; lia. }
  rewrite Es, NW. step; [apply runs_aoff; unfold o; lia|]. rewrite N.add_0_l.
  step; [rewrite <- Lb; apply combine_ok; [exact okC|exact O6|rewrite Lb; exact W1|right; apply Wc0; lia|lia]|].
  step; [apply runs_padd; [lia|intros _; apply Wc0; lia]|].
  step; [|apply runs_ret]. rewrite <- Lt. apply combine_ok; [exact okC|exact O5|rewrite Lt; apply writable_write, W2|right; specialize (Wc0 ltac:(lia)); unfold NULL in Wc0; lia|lia].
Qed.

Theorem masked_decrypt_ok H M m mlen nsec c ad npub k kb nb adb body tag :
  is16 kb -> is16 nb -> is16 tag -> readable M k kb -> readable M npub nb -> readable M ad adb -> readable M c (body ++ tag) ->
  writable M m (len body) -> writable M mlen 8 -> len adb < 2 ^ 60 -> len body + 16 < 2 ^ 60 ->
  runs (masked_decrypt F R LE H m mlen nsec c (len (body ++ tag)) ad (len adb) npub k) M
    (write (write M mlen (to_host LE 8 (len body))) m (fst (aead_open kb nb adb body)))
    (if pairs_equal (check_bits (xor_into (snd (aead_open kb nb adb body)) tag)) then 0%Z else (-1)%Z).
Proof.
  intros Hk Hn Ht Rk Rn Ra Rc Wm Wml Hla Hlm.
  assert (Lk : len kb = 16) by (unfold len; rewrite Hk; reflexivity). assert (Ln : len nb = 16) by (unfold len; rewrite Hn; reflexivity).
  assert (Lt : len tag = 16) by (unfold len; rewrite Ht; reflexivity).
  set (M1 := write M mlen (to_host LE 8 (len body))).
  destruct (readable_app _ _ _ _ Rc) as [Rb Rt].
  assert (Hc0 : c <> 0) by (apply (readable_nonnull _ _ _ Rc); rewrite len_app; lia).
  pose proof (readable_bound _ _ _ Rc) as Bc. rewrite len_app in Bc.
  set (cs0 := malloc_shares (b_c H) (nC F) (len (body ++ tag))).
  assert (Lc0 : alen cs0 = 2 * N.of_nat (nC F) * (N.of_nat (nwords (length body)) + 2)).
  { unfold cs0. rewrite alen_malloc by (exact okC || (rewrite len_app; lia)).
    rewrite app_length. unfold is16 in Ht. rewrite Ht, nwords_add16. lia. }
  set (o := 2 * N.of_nat (nwords (length body)) * N.of_nat (nC F)).
  assert (NW : NUM_WORDS (len body) * N.of_nat (nC F) = o) by (rewrite NUM_WORDS_len by lia; reflexivity).
  destruct (generate_ok R M (nKEY F) 0 (malloc_shares (b_k H) (nKEY F) (len kb)) k kb okKEY Rk) as (ka & g1 & Gk & _ & Ak);
    [lia|rewrite alen_malloc by (exact okKEY || lia); lia|].
  destruct (generate_ok R M (nNPUB F) g1 (malloc_shares (b_n H) (nNPUB F) (len nb)) npub nb okNP Rn) as (na & g2 & Gn & _ & An);
    [lia|rewrite alen_malloc by (exact okNP || lia); lia|].
  destruct (generate_ok R M (nAD F) g2 (malloc_shares (b_a H) (nAD F) (len adb)) ad adb okAD Ra) as (aa & g3 & Ga & _ & Aa);
    [lia|rewrite alen_malloc by (exact okAD || lia); lia|].
  destruct (generate_ok R M (nC F) g3 cs0 c body okC Rb) as (cs1 & g4 & Gc & Dc & Ac); [lia|rewrite Lc0; lia|].
  pose proof Dc as (_ & Lc1 & _).
  destruct (generate_at_ok R M (nC F) g4 cs1 o (c + len body) tag okC Rt) as (cs2 & g4' & Gt & Dt & At).
  { lia. } { unfold is16 in Ht. rewrite Ht. change (nwords 16) with 2%nat. unfold o. lia. }
  assert (Ac2 : abytes cs2 (nC F) 0 body).
  { intros j Hj. eapply aval_differs; [exact Dt| |exact (Ac j Hj)]. cbv beta. intros i _ Hi. unfold o. nia. }
  pose proof Dt as (_ & Lc2 & _).
  destruct (m_init_ok F R HF M1 g4' ka na kb nb Hk Hn Ak An) as (s1 & g5 & v1 & R1 & S1 & E1).
  pose proof (to_adata F HF _ _ S1) as S1'.
  destruct (m_adata_ok F R HF M1 aa _ _ adb S1' Aa Hla) as (s2 & v2 & R2 & S2 & E2).
  pose proof (to_encdec F R HF _ _ g5 S2) as S2'.
  destruct (if (nAD F =? nM F)%nat then (s2, g5) else m_level_encdec F R s2 g5) as [s2' g6] eqn:El1. cbn [fst] in S2'.
  destruct (m_decrypt_ok F HF M1 cs2 s2' v2 (malloc_shares (b_m H) (nM F) (len body)) body S2' Ac2) as (s3 & v3 & ma & mb & R3 & S3 & O3 & Lmb & E3);
    [lia|rewrite alen_malloc by (exact okM || lia); lia|].
  pose proof (to_final F R HF _ _ g6 S3) as S3'.
  destruct (if (nM F =? nKEY F)%nat then (s3, g6) else m_level_final F R s3 g6) as [s3' g7] eqn:El2. cbn [fst] in S3'.
  destruct (split_len 8 kb) as (k0 & k1 & -> & K0 & LK0); [unfold is16, len in *; lia|].
  assert (K1 : length k1 = 8%nat) by (unfold is16 in Hk; rewrite app_length in Hk; lia).
  destruct (split_len 8 tag) as (t0 & t1 & -> & T0 & LT0); [unfold is16, len in *; lia|].
  assert (T1 : length t1 = 8%nat) by (unfold is16 in Ht; rewrite app_length in Ht; lia).
  destruct (m_final_ok F HF M1 ka s3' v3 k0 k1 S3' K0 K1 Ak) as (s4 & R4 & S4).
  destruct (ref_final_ok v3 k0 k1 (ms_wf _ _ _ S3') K0 K1) as (_ & E4).
  destruct (m_xortag_ok F R HF M1 s4 _ cs2 o t0 t1 S4 T0 T1 At) as (s5 & R5 & S5).
  pose proof (m_iszero_ok F R HF _ _ S5) as R6.
  rewrite tag_state_ok in R6 by (try eapply ms_wf; eassumption). rewrite E4 in R6.
  assert (EO : aead_open (k0 ++ k1) nb adb body = (mb, aead_tag (k0 ++ k1) (xs v3))).
  { unfold aead_open. rewrite <- E1, <- E2, E3. reflexivity. }
  rewrite EO. cbn [fst snd]. rewrite <- R6.
  assert (Lb : len mb = len body) by (unfold len; rewrite Lmb; reflexivity).
  assert (Rml : readable M1 mlen (to_host LE 8 (len body))).
  { unfold M1. destruct Wml as (B1 & B2 & _).
    apply readable_write_self; [change (len (to_host LE 8 (len body))) with 8; lia|intros _; apply B2; lia]. }
  assert (RL : runs (load_ull LE mlen) M1 M1 (len body)) by (apply runs_load_ull; [exact Rml|unfold fits; lia]).
  assert (Es : sub64 (len (body ++ t0 ++ t1)) 16 = len body) by (rewrite len_app; rewrite sub64_small; lia).
  unfold masked_decrypt. cbv zeta. rewrite Lk in Gk. rewrite Ln in Gn. rewrite Lt in Gt.
  step; [apply runs_branch|]. rewrite Es.
  replace (len (body ++ t0 ++ t1) <? 16) with false by (symmetry; apply N.ltb_ge; rewrite len_app; lia). cbv iota.
  fold cs0. rewrite NW. step; [apply runs_aoff; unfold o; lia|]. rewrite N.add_0_l.
  step; [exact Gk|]. cbv beta iota. step; [exact Gn|]. cbv beta iota. step; [exact Ga|]. cbv beta iota. step; [exact Gc|]. cbv beta iota.
  step; [apply runs_padd; [lia|intros _; exact Hc0]|]. step; [exact Gt|]. cbv beta iota.
  step.
  { unfold m_decrypt_shared. rewrite Es.
    step; [apply runs_store_ull, Wml|]. fold M1. step; [exact R1|]. cbv beta iota zeta. step; [exact R2|]. rewrite El1. cbv beta iota.
    step; [exact RL|]. step; [exact R3|]. cbv beta iota. rewrite El2. cbv beta iota. step; [exact R4|].
    step; [exact RL|]. rewrite NW.
    step; [apply runs_aoff; unfold o; lia|]. rewrite N.add_0_l. step; [exact R5|]. apply runs_ret. }
  cbv beta iota. step; [exact RL|]. step; [|apply runs_ret].
  rewrite <- Lb. apply combine_ok; [exact okM|exact O3|rewrite Lb; apply writable_write, Wm| |lia].
  destruct mb as [|b mb]; [left; reflexivity|right]. destruct Wm as (_ & W0 & _). apply W0. rewrite <- Lb, len_cons. lia.
Qed.

Theorem masked_decrypt_short H M m mlen nsec c clen ad adlen npub k : clen < 16 ->
  runs (masked_decrypt F R LE H m mlen nsec c clen ad adlen npub k) M M (-1)%Z.
Proof.
  intros Hc. unfold masked_decrypt. step; [apply runs_branch|]. replace (clen <? 16) with true by lia. apply runs_ret.
Qed.
End Api.
