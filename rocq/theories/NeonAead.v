(** * NeonAead.v -- the NEON AEAD refines the specification for lengths
    below 2^32 and block buffers at multiples of 4. *)
From Coq Require Import Arith Bool NArith ZArith List Lia Init.Byte Strings.Byte.
From Coq Require Import ZifyBool ZifyNat ZifyN.
From Verif Require Import Words WordFacts Spec SpecFacts CMem Contract CMemFacts ApiSpec ModelRef
  StateRep RefRound RefPrim RefAead RefAeadDec ModelCommon ModelWords WordLaws WordInst ComPrim ComAead ComAeadDec
  ModelNeon NeonRound.
Import ListNotations.
Local Open Scope N_scope.

Local Ltac step := eapply runs_bind.

(** ** Flags and lengths *)

Lemma hi_cmplen n : is_hi (cmplen 0 n) = (16 <=? n).
Proof. unfold cmplen, cmpeq, cmp, is_hi. change (0 =? 0) with true. cbn [fst snd]. lia. Qed.
Lemma sbc_hi f : is_hi f = true -> sbc32 f 0 0 = 0.
Proof. unfold is_hi, sbc32. intros H. destruct (snd f); [reflexivity|discriminate H]. Qed.
Lemma sub32_small a b : b <= a -> a < 2 ^ 32 -> sub32 a b = a - b.
Proof.
  intros H1 H2. unfold sub32, trunc. rewrite N.land_ones.
  replace (a + 2 ^ 32 - b) with (a - b + 1 * 2 ^ 32) by lia. rewrite N.mod_add, N.mod_small by lia. reflexivity.
Qed.
Lemma hi_small n : n < 2 ^ 32 -> trunc 32 (shrw n 32) = 0.
Proof.
  intros H. unfold shrw. rewrite N.shiftr_div_pow2, N.div_small by exact H. reflexivity.
Qed.
Lemma lo_small n : n < 2 ^ 32 -> trunc 32 n = n.
Proof. intros H. apply trunc_fits. exact H. Qed.
Lemma join_small n : N.lor (shlw 64 0 32) n = n.
Proof. reflexivity. Qed.

(** ** Loads and stores *)

Lemma le8 l : length l = 8%nat -> le_num (firstn 8 l) = le_num l.
Proof. intros H. rewrite firstn_all2 by lia. reflexivity. Qed.
Lemma runs_vldm M q b0 b1 : readable M q (b0 ++ b1) -> length b0 = 8%nat -> length b1 = 8%nat -> q mod 4 = 0 ->
  runs (vldm q) M M (le_num b0, le_num b1).
Proof.
  intros R H0 H1 A. unfold vldm. rewrite A. cbn [N.eqb].
  step; [apply (runs_memcpy_in M q (b0 ++ b1)); [exact R| |eapply readable_nonnull; [exact R|]]|].
  { unfold len. rewrite app_length, H0, H1. reflexivity. }
  { unfold len. rewrite app_length, H0, H1. discriminate. }
  rewrite firstn_app, skipn_app, H0, skipn_all2, firstn_all2 by lia. change (8 - 8)%nat with 0%nat.
  cbn [firstn skipn app]. rewrite app_nil_r. apply runs_ret.
Qed.
Lemma runs_vstm M q a b : writable M q 16 -> q mod 4 = 0 -> runs (vstm q a b) M (write M q (wb a ++ wb b)) tt.
Proof.
  intros W A. unfold vstm. rewrite A. cbn [N.eqb]. apply runs_memcpy_out; [exact W|apply W; lia].
Qed.
Lemma mod4_step q : q mod 4 = 0 -> (q + 16) mod 4 = 0.
Proof. intros H. replace (q + 16) with (q + 4 * 4) by lia. rewrite N.mod_add by lia. exact H. Qed.

Section U.
Variable u : dregs.
Notation wo := (neon_ops u LE).
Notation L := (neon_laws u LE).
Notation vs := (ComPrim.vs cn64).
Notation word := (ComPrim.word_of LE wo).

Lemma wf_vs_xs s : wf s -> vs s = xs s.
Proof. intros H. unfold ComPrim.vs. rewrite cs64_id by exact H. reflexivity. Qed.
Lemma word_wo l : length l = 8%nat -> word l = le_num l.
Proof. intros H. unfold ComPrim.word_of. rewrite H. change (8 - 8)%nat with 0%nat. cbn [zeros repeat]. rewrite app_nil_r. reflexivity. Qed.

Lemma code8_ok r : wf (ststate r) -> wf (ststate (execs round_code r)) /\
  vs (ststate (execs round_code r)) = p 8 (vs (ststate r)).
Proof.
  intros Hz. destruct (p8_ok r (ststate r) Hz eq_refl) as [E W]. rewrite E. split; [exact W|].
  destruct (nP8 u (ststate r) Hz) as [E8 _]. rewrite <- E8. exact (vs_P8 LE wo cn64 L _ Hz).
Qed.

(** ** Associated data *)

Definition nacond : dregs * ptr * N * N * flags -> bool := fun '(_, _, _, _, f) => is_hi f.
Definition nstate (r : dregs) (ad : ptr) (n : N) : dregs * ptr * N * N * flags := (r, ad, 0, n, cmplen 0 n).

Lemma n_block r B b0 b1 : wf (ststate r) -> B = b0 ++ b1 -> length b0 = 8%nat -> length b1 = 8%nat ->
  let r1 := execs [VEORQ 0 0 8] (setq r 8 (le_num b0, le_num b1)) in
  wf (ststate r1) /\ vs (ststate r1) = xor_into (vs (ststate r)) B /\
  wb (r1 0) ++ wb (r1 1) = firstn 16 (xor_into (vs (ststate r)) B).
Proof.
  intros Hz -> H0 H1. cbv zeta. set (r1 := execs _ _).
  assert (E : ststate r1 = xorx (xorx (ststate r) 0 (word b0)) 1 (word b1)) by (rewrite !word_wo by assumption; reflexivity).
  assert (W : wf (ststate r1)) by (rewrite E; apply (wf_blockw LE wo cn64 L); auto; lia).
  assert (V : vs (ststate r1) = xor_into (vs (ststate r)) (b0 ++ b1)) by (rewrite E; apply (vs_block LE wo cn64 L); lia).
  split; [exact W|]. split; [exact V|]. rewrite <- V, wf_vs_xs by exact W.
  rewrite firstn16_xs. reflexivity.
Qed.

Lemma n_ad_body_ok M r ad B l : wf (ststate r) -> length B = 16%nat -> readable M ad (B ++ l) ->
  ad mod 4 = 0 -> len (B ++ l) < 2 ^ 32 ->
  exists r', runs (n_ad_body (nstate r ad (len (B ++ l)))) M M (nstate r' (ad + 16) (len l)) /\ wf (ststate r') /\
    vs (ststate r') = p 8 (xor_into (vs (ststate r)) B).
Proof.
  intros Hz HB R A H32.
  assert (LB : len B = 16) by (apply (len_eq B 16 HB)).
  assert (Hlen : len (B ++ l) = 16 + len l) by (rewrite len_app; lia).
  destruct (readable_app _ _ _ _ R) as (R0 & _).
  destruct (split_len 8 B) as (b0 & b1 & EB & H0 & L0); [lia|].
  assert (H1 : length b1 = 8%nat) by (rewrite EB, app_length in HB; lia).
  destruct (n_block r B b0 b1 Hz EB H0 H1) as (W & V & _). cbv zeta in *. set (r1 := execs [VEORQ 0 0 8] _) in *.
  destruct (code8_ok r1 W) as [W2 E2].
  exists (execs round_code r1). split; [|split; [exact W2|rewrite E2, V; reflexivity]].
  unfold n_ad_body, nstate. step; [apply (runs_vldm M ad b0 b1); [rewrite <- EB; exact R0|exact H0|exact H1|exact A]|].
  step; [eapply runs_padd_readable; [exact R|lia]|].
  rewrite sbc_hi by (rewrite hi_cmplen; lia). rewrite sub32_small by lia. rewrite execs_app. fold r1.
  replace (len (B ++ l) - 16) with (len l) by lia. apply runs_ret.
Qed.

Lemma n_ad_while f : forall M r ad l, wf (ststate r) -> readable M ad l ->
  (16 <= len l -> ad mod 4 = 0) -> len l < 2 ^ 32 ->
  (N.to_nat (len l / 16) < f)%nat ->
  exists r' ad' t, runs (while f nacond n_ad_body (nstate r ad (len l))) M M (nstate r' ad' (len t)) /\
    wf (ststate r') /\ (length t < 16)%nat /\ readable M ad' t /\
    absorb 8 (vs (ststate r)) (chunks 16 (pad 16 l)) = absorb 8 (vs (ststate r')) (chunks 16 (pad 16 t)).
Proof.
  induction f as [|f IH]; intros M s ad l Hs R A H32 Hf; [lia|].
  destruct (N.leb_spec 16 (len l)) as [H|H].
  - destruct (split_len 16 l) as (B & l' & -> & HB & LB); [exact H|].
    destruct (n_ad_body_ok M s ad B l' Hs HB R (A H) H32) as (s1 & Rn & W1 & E1).
    destruct (readable_app _ _ _ _ R) as (_ & R').  rewrite LB in R'.
    destruct (IH M s1 (ad + 16) l' W1 R') as (s2 & ad2 & r & Rn2 & W2 & Hr & Rr & E2).
    { intros _. apply mod4_step, A, H. }
    { rewrite len_app in H32. lia. }
    { eapply (div16_step f B l'); [lia|exact LB|exact Hf]. }
    exists s2, ad2, r. split; [|split; [exact W2|split; [exact Hr|split; [exact Rr|]]]].
    + eapply runs_while_step; [|exact Rn|exact Rn2].
      unfold nacond, nstate. rewrite hi_cmplen. lia.
    + rewrite chunks_pad_full by (auto; lia). rewrite absorb_cons, <- E1. exact E2.
  - exists s, ad, l. split; [|split; [exact Hs|split; [unfold len in H; lia|split; [exact R|reflexivity]]]].
    apply runs_while_end. unfold nacond, nstate. rewrite hi_cmplen. lia.
Qed.

Lemma n_adata_ok M s ad l : wf s -> readable M ad l -> (16 <= len l -> ad mod 4 = 0) -> len l < 2 ^ 32 ->
  exists s', runs (n_adata u s ad (len l)) M M s' /\ wf s' /\ vs s' = aead_ad (vs s) l.
Proof.
  intros Hs R A H32. unfold n_adata.
  destruct (N.eq_dec (len l) 0) as [E|E].
  - apply len_0 in E. subst l. eexists. split; [|split].
    + step; [apply runs_branch|]. rewrite len_nil. cbn [N.eqb negb].
      step; [apply runs_ret|]. apply runs_ret.
    + apply (wf_dsep LE wo cn64 L), Hs.
    + rewrite (vs_dsep LE wo cn64 L). reflexivity.
  - assert (Hs0 : wf (ststate (ldstate u s))) by (rewrite ldst; exact Hs).
    destruct (n_ad_while (fuel (len l) 16) M (ldstate u s) ad l Hs0 R A H32) as (r1 & ad1 & r & Rn & W1 & Hr & Rr & E1).
    { unfold fuel. lia. }
    destruct (ad_last_ok LE wo cn64 L M (ststate r1) ad1 r W1 Rr Hr) as (s2 & Rn2 & W2 & E2).
    rewrite ldst in E1.
    eexists. split; [|split].
    + step; [apply runs_branch|]. replace (len l =? 0) with false by lia. cbn [negb].
      step; [|apply runs_ret]. unfold nAD. rewrite hi_small, lo_small by exact H32.
      step; [step; [exact Rn|unfold nstate; cbn beta iota; apply runs_ret]|]. cbn beta iota. rewrite join_small.
      step; [exact Rn2|]. apply runs_ret.
    + apply (wf_dsep LE wo cn64 L), (wf_wP8 LE wo cn64 L), W2.
    + rewrite (vs_dsep LE wo cn64 L). change (nP u 8 s2) with (w_P wo 8 s2). rewrite (vs_P8 LE wo cn64 L) by exact W2.
      rewrite (absorb_last _ (vs (ststate r1)) r 16) in E1 by (rewrite ?(length_vs cn64); lia).
      rewrite E2, <- E1. unfold aead_ad.
      destruct l; [rewrite len_nil in E; congruence|reflexivity].
Qed.

(** ** Plaintext *)

Definition necond : dregs * ptr * ptr * N * N * flags -> bool := fun '(_, _, _, _, _, f) => is_hi f.
Definition nstate2 (r : dregs) (m c : ptr) (n : N) : dregs * ptr * ptr * N * N * flags := (r, m, c, 0, n, cmplen 0 n).

Lemma n_enc_body_ok M r m c B l : wf (ststate r) -> length B = 16%nat -> readable M m (B ++ l) ->
  writable M c (len (B ++ l)) -> m mod 4 = 0 -> c mod 4 = 0 -> len (B ++ l) < 2 ^ 32 ->
  exists r', runs (n_enc_body (nstate2 r m c (len (B ++ l)))) M
      (write M c (firstn 16 (xor_into (vs (ststate r)) B))) (nstate2 r' (m + 16) (c + 16) (len l)) /\ wf (ststate r') /\
    vs (ststate r') = p 8 (xor_into (vs (ststate r)) B).
Proof.
  intros Hz HB R Wr Am Ac H32. pose proof (readable_bound _ _ _ R) as Hbd.
  assert (LB : len B = 16) by (apply (len_eq B 16 HB)).
  assert (Hlen : len (B ++ l) = 16 + len l) by (rewrite len_app; lia).
  destruct (readable_app _ _ _ _ R) as (R0 & _).
  rewrite Hlen in *. destruct (writable_split _ _ _ _ Wr) as (W16 & _).
  destruct (split_len 8 B) as (b0 & b1 & EB & H0 & L0); [lia|].
  assert (H1 : length b1 = 8%nat) by (rewrite EB, app_length in HB; lia).
  destruct (n_block r B b0 b1 Hz EB H0 H1) as (W & V & B16). cbv zeta in *. set (r1 := execs [VEORQ 0 0 8] _) in *.
  destruct (code8_ok r1 W) as [W2 E2].
  exists (execs round_code r1). split; [|split; [exact W2|rewrite E2, V; reflexivity]].
  unfold n_enc_body, nstate2. step; [apply (runs_vldm M m b0 b1); [rewrite <- EB; exact R0|exact H0|exact H1|exact Am]|].
  step; [apply runs_padd; [lia|intros _; eapply readable_nonnull; [exact R|lia]]|]. cbn zeta. fold r1.
  rewrite <- B16.
  step; [apply runs_vstm; [exact W16|exact Ac]|].
  step; [eapply runs_padd_writable; [exact (writable_write _ _ _ _ _ Wr)|lia]|].
  rewrite sbc_hi by (rewrite hi_cmplen; lia). rewrite sub32_small by lia.
  replace (16 + len l - 16) with (len l) by lia.
  apply runs_ret.
Qed.

Lemma n_enc_while f : forall M s m c l, wf (ststate s) -> readable M m l -> writable M c (len l) ->
  no_overtake c m (len l) -> (16 <= len l -> m mod 4 = 0) -> (16 <= len l -> c mod 4 = 0) -> len l < 2 ^ 32 ->
  (N.to_nat (len l / 16) < f)%nat ->
  exists s' ct r, runs (while f necond n_enc_body (nstate2 s m c (len l))) M (write M c ct)
      (nstate2 s' (m + len ct) (c + len ct) (len r)) /\
    wf (ststate s') /\ (length r < 16)%nat /\ length l = (length ct + length r)%nat /\
    readable (write M c ct) (m + len ct) r /\ no_overtake (c + len ct) (m + len ct) (len r) /\
    enc_blocks (vs (ststate s)) (chunks 16 (pad 16 l)) =
      (let '(S2, c2) := enc_blocks (vs (ststate s')) (chunks 16 (pad 16 r)) in (S2, ct ++ c2)).
Proof.
  induction f as [|f IH]; intros M s m c l Hs R Wr Hno Am Ac H32 Hf; [lia|].
  destruct (N.leb_spec 16 (len l)) as [H|H].
  - destruct (split_len 16 l) as (B & l' & -> & HB & LB); [exact H|]. change (N.of_nat 16) with 16 in LB.
    destruct (n_enc_body_ok M s m c B l' Hs HB R Wr (Am H) (Ac H) H32) as (s1 & Rn & W1 & E1).
    set (cb := firstn 16 (xor_into (vs (ststate s)) B)) in *.
    assert (Hcb : length cb = 16%nat) by (unfold cb; len; rewrite (length_vs cn64); lia).
    assert (Lcb : len cb = 16) by (apply (len_eq cb 16 Hcb)).
    destruct (readable_app _ _ _ _ R) as (_ & R').
    assert (R2 : readable (write M c cb) (m + 16) l').
    { rewrite LB in R'. apply readable_write_disjoint; [exact R'|]. rewrite <- LB.
      apply no_overtake_disjoint; [exact Hno|lia]. }
    rewrite len_app, LB in Wr. destruct (writable_split _ _ _ _ Wr) as (_ & Wr').
    destruct (IH (write M c cb) s1 (m + 16) (c + 16) l' W1 R2) as
      (s2 & ct & r & Rn2 & W2 & Hr & Hl & Rr & Hno2 & E2).
    { apply writable_write, Wr'. }
    { rewrite <- LB. apply no_overtake_step, Hno. }
    { intros _. apply mod4_step, Am, H. }
    { intros _. apply mod4_step, Ac, H. }
    { rewrite len_app in H32. lia. }
    { eapply (div16_step f B l'); [lia|exact LB|exact Hf]. }
    assert (Ew : write (write M c cb) (c + 16) ct = write M c (cb ++ ct))
      by (rewrite write_app, Lcb; reflexivity).
    rewrite Ew in Rn2, Rr.
    replace (m + 16 + len ct) with (m + len (cb ++ ct)) in * by (rewrite len_app; lia).
    replace (c + 16 + len ct) with (c + len (cb ++ ct)) in * by (rewrite len_app; lia).
    exists s2, (cb ++ ct), r.
    split; [|split; [exact W2|split; [exact Hr|split; [|split; [exact Rr|split; [exact Hno2|]]]]]].
    + eapply runs_while_step; [|exact Rn|].
      { unfold necond, nstate2. rewrite hi_cmplen. lia. }
      exact Rn2.
    + rewrite !app_length. lia.
    + rewrite chunks_pad_full by (auto; lia).
      rewrite enc_blocks_cons by (apply chunks_pad_not_nil; lia). cbn zeta. rewrite <- E1, E2.
      fold cb. destruct (enc_blocks (vs (ststate s2)) _) as [S2 c2]. rewrite app_assoc. reflexivity.
  - exists s, [], l. rewrite len_nil, !N.add_0_r. cbn [write].
    split; [|split; [exact Hs|split; [unfold len in H; lia|split; [reflexivity|split; [exact R|split; [exact Hno|]]]]]].
    + apply runs_while_end. unfold necond, nstate2. rewrite hi_cmplen. lia.
    + destruct (enc_blocks _ _); reflexivity.
Qed.

Lemma n_encrypt_ok M s c m l : wf s -> readable M m l -> writable M c (len l) ->
  no_overtake c m (len l) -> (16 <= len l -> m mod 4 = 0) -> (16 <= len l -> c mod 4 = 0) -> len l < 2 ^ 32 ->
  exists s' cf, enc_blocks (vs s) (chunks 16 (pad 16 l)) = (vs s', cf) /\ wf s' /\
    (length l <= length cf)%nat /\
    runs (n_encrypt u s c m (len l)) M (write M c (firstn (length l) cf)) s'.
Proof.
  intros Hs R Wr Hno Am Ac H32. pose proof (readable_bound _ _ _ R) as Hbd.
  pose proof (writable_bound _ _ _ Wr) as Hbw.
  assert (Hs0 : wf (ststate (ldstate u s))) by (rewrite ldst; exact Hs).
  destruct (n_enc_while (fuel (len l) 16) M (ldstate u s) m c l Hs0 R Wr Hno Am Ac H32) as
    (s1 & ct & r & Rn & W1 & Hr & Hl & Rr & Hno2 & E1); [unfold fuel; lia|]. rewrite ldst in E1.
  assert (Ll : len l = len ct + len r) by (unfold len; lia).
  rewrite (enc_blocks_last _ r) in E1 by (rewrite ?(length_vs cn64); lia).
  assert (Wr' : writable (write M c ct) (c + len ct) (len r)).
  { rewrite Ll in Wr. apply writable_split in Wr. apply writable_write, Wr. }
  set (S2 := xor_at (length r) (xor_into (vs (ststate s1)) r) [x01]) in *.
  assert (HS2 : length S2 = 40%nat).
  { unfold S2. rewrite length_xor_at; rewrite length_xor_into, (length_vs cn64); lia. }
  assert (Hct : firstn (length l) (ct ++ firstn 16 S2) = ct ++ firstn (length r) S2).
  { rewrite Hl, firstn_app, firstn_all2 by lia. f_equal.
    replace (length ct + length r - length ct)%nat with (length r) by lia.
    rewrite firstn_firstn. replace (Nat.min (length r) 16) with (length r) by lia. reflexivity. }
  set (M1 := write M c ct) in *. set (m1 := m + len ct) in *. set (c1 := c + len ct) in *.
  destruct (enc_last_ok LE wo cn64 L M1 (ststate s1) m1 c1 r W1 Rr Wr' Hno2 Hr) as (s2 & W2 & E2 & Rn2).
  exists s2, (ct ++ firstn 16 S2). split; [|split; [exact W2|split]].
  - rewrite E2. exact E1.
  - rewrite app_length, firstn_length. lia.
  - rewrite Hct, write_app. unfold n_encrypt, nPT. rewrite hi_small, lo_small by exact H32.
    step; [step; [exact Rn|unfold nstate2; cbn beta iota; apply runs_ret]|]. cbn beta iota. rewrite join_small. exact Rn2.
Qed.

(** ** Ciphertext *)

Lemma n_dec_body_ok M r m c B l t : wf (ststate r) -> length B = 16%nat -> readable M c (B ++ l ++ t) ->
  writable M m (len (B ++ l)) -> m mod 4 = 0 -> c mod 4 = 0 -> len (B ++ l) < 2 ^ 32 ->
  exists r', runs (n_dec_body (nstate2 r m c (len (B ++ l)))) M
      (write M m (xor_into B (vs (ststate r)))) (nstate2 r' (m + 16) (c + 16) (len l)) /\ wf (ststate r') /\
    vs (ststate r') = p 8 (B ++ skipn 16 (vs (ststate r))).
Proof.
  intros Hz HB R Wr Am Ac H32. pose proof (readable_bound _ _ _ R) as Hbd.
  assert (LB : len B = 16) by (apply (len_eq B 16 HB)).
  assert (Hlen : len (B ++ l) = 16 + len l) by (rewrite len_app; lia).
  assert (Hlen' : len (B ++ l ++ t) = 16 + len l + len t) by (rewrite !len_app; lia).
  destruct (readable_app _ _ _ _ R) as (R0 & _).
  rewrite Hlen, Hlen' in *. destruct (writable_split _ _ _ _ Wr) as (W16 & _).
  destruct (split_len 8 B) as (b0 & b1 & EB & H0 & L0); [lia|].
  assert (H1 : length b1 = 8%nat) by (rewrite EB, app_length in HB; lia).
  destruct (n_block r B b0 b1 Hz EB H0 H1) as (_ & _ & B16). cbv zeta in *.
  set (r1 := execs [VEORQ 8 0 13] (setq r 13 (le_num b0, le_num b1))).
  set (r2 := execs [VMOVQ 0 13] r1).
  assert (Fb0 : fits 64 (le_num b0)) by (apply fits_le_num8; lia).
  assert (Fb1 : fits 64 (le_num b1)) by (apply fits_le_num8; lia).
  assert (E : ststate r2 = setx (xorx (setx (xorx (ststate r) 0 (word b0)) 0 (word b0)) 1 (word b1)) 1 (word b1)).
  { rewrite !word_wo by assumption. reflexivity. }
  assert (V : vs (ststate r2) = B ++ skipn 16 (vs (ststate r))).
  { rewrite E, EB. apply (vs_set01 LE wo cn64 L); assumption. }
  assert (W : wf (ststate r2)).
  { rewrite E. rewrite !word_wo by assumption. destruct Hz as (? & ? & ? & ? & ?). repeat split; assumption. }
  destruct (code8_ok r2 W) as [W2 E2].
  exists (execs round_code r2). split; [|split; [exact W2|rewrite E2, V; reflexivity]].
  unfold n_dec_body, nstate2. step; [apply (runs_vldm M c b0 b1); [rewrite <- EB; exact R0|exact H0|exact H1|exact Ac]|].
  step; [apply runs_padd; [lia|intros _; eapply readable_nonnull; [exact R|lia]]|]. cbn zeta. fold r1.
  replace (xor_into B (vs (ststate r))) with (wb (r1 16) ++ wb (r1 17)).
  2:{ rewrite (xor_into_block B) by (rewrite (length_vs cn64); lia). rewrite HB. exact B16. }
  step; [apply runs_vstm; [exact W16|exact Am]|].
  step; [eapply runs_padd_writable; [exact (writable_write _ _ _ _ _ Wr)|lia]|].
  rewrite execs_app. fold r2.
  rewrite sbc_hi by (rewrite hi_cmplen; lia). rewrite sub32_small by lia.
  replace (16 + len l - 16) with (len l) by lia.
  apply runs_ret.
Qed.

Lemma n_dec_while f : forall M s m c l t, wf (ststate s) -> readable M c (l ++ t) -> writable M m (len l) ->
  no_overtake m c (len (l ++ t)) -> (16 <= len l -> m mod 4 = 0) -> (16 <= len l -> c mod 4 = 0) -> len l < 2 ^ 32 ->
  (N.to_nat (len l / 16) < f)%nat ->
  exists s' ms r, runs (while f necond n_dec_body (nstate2 s m c (len l))) M (write M m ms)
      (nstate2 s' (m + len ms) (c + len ms) (len r)) /\
    wf (ststate s') /\ (length r < 16)%nat /\ length l = (length ms + length r)%nat /\
    readable (write M m ms) (c + len ms) (r ++ t) /\
    no_overtake (m + len ms) (c + len ms) (len (r ++ t)) /\
    dec_blocks (length l) (vs (ststate s)) l =
      (let '(S2, m2) := dec_blocks (length r) (vs (ststate s')) r in (S2, ms ++ m2)).
Proof.
  induction f as [|f IH]; intros M s m c l t Hs R Wr Hno Am Ac H32 Hf; [lia|].
  destruct (N.leb_spec 16 (len l)) as [H|H].
  - destruct (split_len 16 l) as (B & l' & -> & HB & LB); [exact H|]. change (N.of_nat 16) with 16 in LB.
    rewrite <- app_assoc in R, Hno.
    destruct (n_dec_body_ok M s m c B l' t Hs HB R Wr (Am H) (Ac H) H32) as (s1 & Rn & W1 & E1).
    set (mb := xor_into B (vs (ststate s))) in *.
    assert (Hmb : length mb = 16%nat) by (unfold mb; rewrite length_xor_into; exact HB).
    assert (Lmb : len mb = 16) by (apply (len_eq mb 16 Hmb)).
    destruct (readable_app _ _ _ _ R) as (_ & R').
    assert (R2 : readable (write M m mb) (c + 16) (l' ++ t)).
    { rewrite LB in R'. apply readable_write_disjoint; [exact R'|]. rewrite <- LB.
      apply no_overtake_disjoint; [exact Hno|lia]. }
    rewrite len_app, LB in Wr. destruct (writable_split _ _ _ _ Wr) as (_ & Wr').
    destruct (IH (write M m mb) s1 (m + 16) (c + 16) l' t W1 R2) as
      (s2 & ms & r & Rn2 & W2 & Hr & Hl & Rr & Hno2 & E2).
    { apply writable_write, Wr'. }
    { rewrite <- LB. apply no_overtake_step, Hno. }
    { intros _. apply mod4_step, Am, H. }
    { intros _. apply mod4_step, Ac, H. }
    { rewrite len_app in H32. lia. }
    { eapply (div16_step f B l'); [lia|exact LB|exact Hf]. }
    assert (Ew : write (write M m mb) (m + 16) ms = write M m (mb ++ ms))
      by (rewrite write_app, Lmb; reflexivity).
    rewrite Ew in Rn2, Rr.
    replace (m + 16 + len ms) with (m + len (mb ++ ms)) in * by (rewrite len_app; lia).
    replace (c + 16 + len ms) with (c + len (mb ++ ms)) in * by (rewrite len_app; lia).
    exists s2, (mb ++ ms), r.
    split; [|split; [exact W2|split; [exact Hr|split; [|split; [exact Rr|split; [exact Hno2|]]]]]].
    + eapply runs_while_step; [|exact Rn|exact Rn2].
      unfold necond, nstate2. rewrite hi_cmplen. lia.
    + rewrite !app_length. lia.
    + rewrite app_length, HB. change (16 + length l')%nat with (Datatypes.S (15 + length l')).
      rewrite dec_blocks_step by exact HB. rewrite <- E1.
      rewrite (dec_blocks_fuel (15 + length l') (length l')) by lia. rewrite E2.
      fold mb. destruct (dec_blocks (length r) (vs (ststate s2)) r) as [S2 m2]. rewrite app_assoc. reflexivity.
  - exists s, [], l. rewrite len_nil, !N.add_0_r. cbn [write].
    split; [|split; [exact Hs|split; [unfold len in H; lia|split; [reflexivity|split; [exact R|split; [exact Hno|]]]]]].
    + apply runs_while_end. unfold necond, nstate2. rewrite hi_cmplen. lia.
    + destruct (dec_blocks _ _ _); reflexivity.
Qed.

Lemma n_decrypt_ok M s m c l t : wf s -> readable M c (l ++ t) -> writable M m (len l) ->
  no_overtake m c (len (l ++ t)) -> (16 <= len l -> m mod 4 = 0) -> (16 <= len l -> c mod 4 = 0) -> len l < 2 ^ 32 ->
  exists s' mb, dec_blocks (length l) (vs s) l = (vs s', mb) /\ wf s' /\ length mb = length l /\
    readable (write M m mb) (c + len l) t /\
    runs (n_decrypt u s m c (len l)) M (write M m mb) s'.
Proof.
  intros Hs R Wr Hno Am Ac H32. pose proof (readable_bound _ _ _ R) as Hbd. rewrite len_app in Hbd.
  pose proof (writable_bound _ _ _ Wr) as Hbw.
  assert (Hs0 : wf (ststate (ldstate u s))) by (rewrite ldst; exact Hs).
  destruct (n_dec_while (fuel (len l) 16) M (ldstate u s) m c l t Hs0 R Wr Hno Am Ac H32) as
    (s1 & ms & r & Rn & W1 & Hr & Hl & Rr & Hno2 & E1); [unfold fuel; lia|]. rewrite ldst in E1.
  assert (Ll : len l = len ms + len r) by (unfold len; lia).
  rewrite (dec_blocks_short _ _ r) in E1 by exact Hr.
  assert (Wr' : writable (write M m ms) (m + len ms) (len r)).
  { rewrite Ll in Wr. apply writable_split in Wr. apply writable_write, Wr. }
  destruct (readable_app _ _ _ _ Rr) as (Rr1 & Rr2).
  set (M1 := write M m ms) in *. set (m1 := m + len ms) in *. set (c1 := c + len ms) in *.
  destruct (dec_last_ok LE wo cn64 L M1 (ststate s1) m1 c1 r t W1 Rr Wr' Hno2 Hr) as (s2 & W2 & E2 & Rn2).
  exists s2, (ms ++ xor_into r (vs (ststate s1))).
  assert (Ew : write M m (ms ++ xor_into r (vs (ststate s1))) =
    write M1 m1 (xor_into r (vs (ststate s1)))) by apply write_app.
  split; [rewrite E2; exact E1|]. split; [exact W2|]. split; [rewrite app_length, length_xor_into; lia|].
  split.
  - rewrite Ew. replace (c + len l) with (c1 + len r) by (unfold c1; lia).
    apply readable_write_disjoint; [exact Rr2|].
    apply no_overtake_disjoint; [exact Hno2|]. unfold len. rewrite length_xor_into. lia.
  - rewrite Ew. unfold n_decrypt, nCT. rewrite hi_small, lo_small by exact H32.
    step; [step; [exact Rn|unfold nstate2; cbn beta iota; apply runs_ret]|]. cbn beta iota. rewrite join_small. exact Rn2.
Qed.

Theorem neon_encrypt_ok M c clen m ad nsec npub k kb nb adb mb :
  is16 kb -> is16 nb ->
  readable M k kb -> readable M npub nb -> readable M ad adb -> readable M m mb ->
  writable M c (len mb + 16) -> writable M clen 8 ->
  disjoint clen 8 k 16 -> disjoint clen 8 npub 16 -> disjoint clen 8 ad (len adb) ->
  disjoint clen 8 m (len mb) ->
  no_overtake c m (len mb) ->
  block_rule true ad (len adb) -> block_rule true m (len mb) -> block_rule true c (len mb) ->
  runs (neon_aead_encrypt u c clen m (len mb) ad (len adb) nsec npub k) M
    (write (write M clen (to_host LE 8 (len mb + 16))) c (aead_encrypt kb nb adb mb)) 0%Z.
Proof.
  intros Hk Hn Rk Rn Ra Rm Wc Wcl Dk Dn Da Dm Hno Bad Bm Bc.
  destruct (Bad eq_refl) as [Ha32 Aad]. destruct (Bm eq_refl) as [Hm32 Am]. destruct (Bc eq_refl) as [_ Ac].
  pose proof (writable_bound _ _ _ Wc) as Hbw.
  set (M1 := write M clen (to_host LE 8 (len mb + 16))).
  assert (Lh : len (to_host LE 8 (len mb + 16)) = 8) by (unfold len at 1; rewrite length_to_host; reflexivity).
  assert (Lk : len kb = 16) by (apply (len_eq kb 16), Hk).
  assert (Ln : len nb = 16) by (apply (len_eq nb 16), Hn).
  assert (Rk1 : readable M1 k kb) by (apply readable_write_disjoint; [exact Rk|rewrite Lh, Lk; exact Dk]).
  assert (Rn1 : readable M1 npub nb) by (apply readable_write_disjoint; [exact Rn|rewrite Lh, Ln; exact Dn]).
  assert (Ra1 : readable M1 ad adb) by (apply readable_write_disjoint; [exact Ra|rewrite Lh; exact Da]).
  assert (Rm1 : readable M1 m mb) by (apply readable_write_disjoint; [exact Rm|rewrite Lh; exact Dm]).
  assert (Wc1 : writable M1 c (len mb + 16)) by (apply writable_write, Wc).
  unfold is16 in Hk.
  destruct (split_len 8 kb) as (k0 & k1 & -> & H0 & L0); [lia|].
  rewrite app_length in Hk. assert (H1 : length k1 = 8%nat) by lia.
  pose proof (loadkey_ok LE wo M1 k k0 k1 H0 H1 Rk1) as Rnk.
  destruct (initaead_ok LE (neon_ops u LE) cn64 (neon_laws u LE) M1 npub k0 k1 nb H0 H1 Hn Rn1) as (s0 & Rn0 & W0 & E0).
  destruct (n_adata_ok M1 s0 ad adb W0 Ra1 Aad Ha32) as (s1 & W1 & Ws1 & E1).
  destruct (writable_split _ _ _ _ Wc1) as (Wm & Wt).
  destruct (n_encrypt_ok M1 s1 c m mb Ws1 Rm1 Wm Hno Am Ac Hm32) as (s2 & cf & E2 & W2 & Hcf & Rn2).
  destruct (final_ok LE wo cn64 L s2 k0 k1 W2 H0 H1) as (W3 & E3).
  set (s3 := ascon_final wo s2 (word k0, word k1)) in *.
  assert (F3 : fits 64 (X3 s3)) by apply W3. assert (F4 : fits 64 (X4 s3)) by apply W3.
  unfold neon_aead_encrypt.
  step; [apply runs_store_ull; exact Wcl|].
  unfold CRYPTO_ABYTES. rewrite add64_small by lia. fold M1.
  step; [eapply runs_padd_writable; [exact Wc1|lia]|].
  unfold n_aead_encrypt.
  step; [exact Rnk|].
  step; [exact Rn0|].
  step; [exact W1|].
  step; [exact Rn2|]. cbn zeta. fold s3.
  destruct (writable_split _ _ 8 8 Wt) as (Wt1 & Wt2).
  assert (Nt : c + len mb <> 0) by (apply Wt; discriminate).
  assert (Nt2 : c + len mb + 8 <> 0) by lia.
  unfold ascon_gettag.
  step; [|apply runs_ret].
  step; [apply (runs_wSTOREBYTES LE wo cn64 L); [apply writable_write, Wt1|reflexivity || lia|exact Nt|exact F3]|].
  step; [eapply runs_padd_writable; [apply writable_write, writable_write, Wt|lia]|].
  replace (write M1 c (aead_encrypt (k0 ++ k1) nb adb mb)) with
    (write (write (write M1 c (firstn (length mb) cf)) (c + len mb) (firstn (N.to_nat 8) (wb (cn64 (X3 s3)))))
       (c + len mb + 8) (firstn (N.to_nat 8) (wb (cn64 (X4 s3))))).
  { apply (runs_wSTOREBYTES LE wo cn64 L); [apply writable_write, writable_write, Wt2|lia|exact Nt2|exact F4]. }
  unfold aead_encrypt. rewrite <- E0, <- E1, E2, <- E3.
  rewrite !firstn_wb8.
  rewrite !write_app, len_wb.
  replace (len (firstn (length mb) cf)) with (len mb); [reflexivity|].
  unfold len. rewrite firstn_length. lia.
Qed.

Theorem neon_decrypt_short M m mlen nsec c clen ad adlen npub k :
  clen < 16 -> runs (neon_aead_decrypt u m mlen nsec c clen ad adlen npub k) M M (-1)%Z.
Proof.
  intros H. unfold neon_aead_decrypt, CRYPTO_ABYTES.
  step; [apply runs_branch|]. replace (clen <? 16) with true by lia. apply runs_ret.
Qed.

Theorem neon_decrypt_ok M m mlen nsec c ad npub k kb nb adb body tag mb t :
  is16 kb -> is16 nb -> is16 tag ->
  readable M k kb -> readable M npub nb -> readable M ad adb -> readable M c (body ++ tag) ->
  writable M m (len body) -> writable M mlen 8 ->
  disjoint mlen 8 k 16 -> disjoint mlen 8 npub 16 -> disjoint mlen 8 ad (len adb) ->
  disjoint mlen 8 c (len (body ++ tag)) ->
  no_overtake m c (len (body ++ tag)) ->
  block_rule true ad (len adb) -> block_rule true m (len body) -> block_rule true c (len body) ->
  aead_open kb nb adb body = (mb, t) ->
  runs (neon_aead_decrypt u m mlen nsec c (len (body ++ tag)) ad (len adb) npub k) M
    (write (write M mlen (to_host LE 8 (len body))) m mb)
    (if list_eq_dec Byte.byte_eq_dec t tag then 0 else -1)%Z
  /\ length mb = length body /\ is16 t.
Proof.
  intros Hk Hn Ht Rk Rn Ra Rc Wm Wml Dk Dn Da Dc Hno Bad Bm Bc Hopen.
  destruct (Bad eq_refl) as [Ha32 Aad]. destruct (Bm eq_refl) as [Hm32 Am]. destruct (Bc eq_refl) as [_ Ac].
  pose proof (readable_bound _ _ _ Rc) as Hbd.
  set (M1 := write M mlen (to_host LE 8 (len body))).
  assert (Lh : len (to_host LE 8 (len body)) = 8) by (unfold len at 1; rewrite length_to_host; reflexivity).
  assert (Lk : len kb = 16) by (apply (len_eq kb 16), Hk).
  assert (Ln : len nb = 16) by (apply (len_eq nb 16), Hn).
  assert (Lt : len tag = 16) by (apply (len_eq tag 16), Ht).
  assert (Lb : len (body ++ tag) = len body + 16) by (rewrite len_app; lia).
  assert (Rk1 : readable M1 k kb) by (apply readable_write_disjoint; [exact Rk|rewrite Lh, Lk; exact Dk]).
  assert (Rn1 : readable M1 npub nb) by (apply readable_write_disjoint; [exact Rn|rewrite Lh, Ln; exact Dn]).
  assert (Ra1 : readable M1 ad adb) by (apply readable_write_disjoint; [exact Ra|rewrite Lh; exact Da]).
  assert (Rc1 : readable M1 c (body ++ tag)) by (apply readable_write_disjoint; [exact Rc|rewrite Lh; exact Dc]).
  assert (Wm1 : writable M1 m (len body)) by (apply writable_write, Wm).
  assert (Fb : fits 64 (len body)) by (unfold fits; lia).
  assert (Rl : readable M1 mlen (to_host LE 8 (len body))).
  { apply readable_write_self; [rewrite Lh; apply (writable_bound _ _ _ Wml)|]. intros _. apply Wml. discriminate. }
  unfold is16 in Hk.
  destruct (split_len 8 kb) as (k0 & k1 & -> & H0 & L0); [lia|].
  rewrite app_length in Hk. assert (H1 : length k1 = 8%nat) by lia.
  pose proof (loadkey_ok LE wo M1 k k0 k1 H0 H1 Rk1) as Rnk.
  destruct (initaead_ok LE (neon_ops u LE) cn64 (neon_laws u LE) M1 npub k0 k1 nb H0 H1 Hn Rn1) as (s0 & Rn0 & W0 & E0).
  destruct (n_adata_ok M1 s0 ad adb W0 Ra1 Aad Ha32) as (s1 & W1 & Ws1 & E1).
  destruct (n_decrypt_ok M1 s1 m c body tag Ws1 Rc1 Wm1 Hno Am Ac Hm32) as (s2 & mb' & E2 & W2 & Hmb & Rt & Rn2).
  destruct (final_ok LE wo cn64 L s2 k0 k1 W2 H0 H1) as (W3 & E3).
  set (s3 := ascon_final wo s2 (word k0, word k1)) in *.
  unfold aead_open in Hopen. rewrite <- E0, <- E1, E2 in Hopen. inversion Hopen; subst mb t. clear Hopen.
  assert (L16 : is16 (aead_tag (k0 ++ k1) (vs s2))).
  { unfold is16. rewrite <- E3, app_length, !wb_len. reflexivity. }
  split; [|split; [exact Hmb|exact L16]].
  unfold neon_aead_decrypt, CRYPTO_ABYTES.
  step; [apply runs_branch|].
  replace (len (body ++ tag) <? 16) with false by lia.
  step; [apply runs_store_ull; exact Wml|].
  rewrite sub64_small by lia. replace (len (body ++ tag) - 16) with (len body) by lia. fold M1.
  step; [apply runs_load_ull; [exact Rl|exact Fb]|].
  step; [eapply runs_padd_readable; [exact Rc1|lia]|].
  step; [apply runs_load_ull; [exact Rl|exact Fb]|].
  unfold n_aead_decrypt.
  step; [exact Rnk|].
  step; [exact Rn0|].
  step; [exact W1|].
  step; [exact Rn2|]. cbn zeta. fold s3.
  rewrite <- E3. apply (verify_ok LE wo cn64 L); [exact W3|exact Ht|exact Rt].
Qed.

End U.
