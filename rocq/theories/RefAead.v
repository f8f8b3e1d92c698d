(** * RefAead.v -- the reference AEAD refines the specification. *)
From Coq Require Import Arith Bool NArith ZArith List Lia Init.Byte.
From Coq Require Import ZifyBool ZifyNat ZifyN.
From Verif Require Import Words WordFacts Spec SpecFacts CMem Contract CMemFacts ModelRef
  StateRep RefRound RefPrim.
Import ListNotations.
Local Open Scope N_scope.

Lemma runs_padd_readable M p l n : readable M p l -> n <= len l -> runs (padd p n) M M (p + n).
Proof.
  intros H Hn. pose proof (readable_bound _ _ _ H). apply runs_padd; [lia|].
  intros H1. eapply readable_nonnull; [exact H|lia].
Qed.
Lemma runs_padd_writable M p k n : writable M p k -> n <= k -> runs (padd p n) M M (p + n).
Proof.
  intros (Hb & Hn & _) H. apply runs_padd; [lia|]. intros. apply Hn. lia.
Qed.

(** Splitting a buffer at [k] bytes. *)
Lemma split_len k (l : bytes) : N.of_nat k <= len l ->
  exists l1 l2, l = l1 ++ l2 /\ length l1 = k /\ len l1 = N.of_nat k.
Proof.
  intros H. destruct (split_at k l) as (l1 & l2 & E & Hl); [unfold len in H; lia|].
  exists l1, l2. repeat split; auto. unfold len. rewrite Hl. reflexivity.
Qed.

(** A block of 8 to 16 bytes XORed into words 0 and 1. *)
Lemma xs_block s b0 b1 : wf s -> length b0 = 8%nat -> (length b1 <= 8)%nat ->
  xs (xor1 (xor0 s (le_num b0)) (le_num b1)) = xor_into (xs s) (b0 ++ b1).
Proof.
  intros Hs H0 H1.
  change (xor1 (xor0 s (le_num b0)) (le_num b1)) with (xorx (xorx s 0 (le_num b0)) 1 (le_num b1)).
  rewrite !xs_load; try lia; [|exact Hs|apply wf_xorx; auto; apply fits_le_num8; lia].
  change (8 * N.to_nat 1)%nat with 8%nat. change (8 * N.to_nat 0)%nat with 0%nat.
  rewrite xor_into_app, H0 by (rewrite length_xs; lia). reflexivity.
Qed.

Lemma xs_block0 s b : wf s -> (length b <= 8)%nat ->
  xs (xor0 s (le_num b)) = xor_into (xs s) b.
Proof. intros Hs H. apply (xs_load s 0 b); auto; lia. Qed.

Lemma wf_block s b0 b1 : wf s -> (length b0 <= 8)%nat -> (length b1 <= 8)%nat ->
  wf (xor1 (xor0 s (le_num b0)) (le_num b1)).
Proof. intros. apply wf_xor1; [apply wf_xor0; auto|]; apply fits_le_num8; assumption. Qed.

Lemma div16_step f l1 l2 r : 0 < r -> len l1 = r -> (N.to_nat (len (l1 ++ l2) / r) < S f)%nat ->
  (N.to_nat (len l2 / r) < f)%nat.
Proof.
  intros Hr Hl. rewrite len_app, Hl. replace (r + len l2) with (len l2 + 1 * r) by lia.
  rewrite N.div_add by lia. lia.
Qed.

(** ** Initialisation *)

Lemma ASCON_128A_IV_ok : wb ASCON_128A_IV = iv_aead128.
Proof. reflexivity. Qed.

Lemma fits_IV_aead : fits 64 ASCON_128A_IV.
Proof. unfold fits. vm_compute. reflexivity. Qed.

Lemma xs_St x0 x1 x2 x3 x4 : xs (St x0 x1 x2 x3 x4) = wb x0 ++ wb x1 ++ wb x2 ++ wb x3 ++ wb x4.
Proof. reflexivity. Qed.

Lemma wb_le_num8 l : length l = 8%nat -> wb (le_num l) = l.
Proof. intros H. unfold wb. apply le_bytes_le_num, H. Qed.

Lemma ref_init_ok M npub k kb nb : is16 kb -> is16 nb -> readable M k kb -> readable M npub nb ->
  exists k0 k1 s, kb = k0 ++ k1 /\ length k0 = 8%nat /\ length k1 = 8%nat /\ wf s /\
    runs (ref_init npub k) M M (le_num k0, le_num k1, s) /\ xs s = aead_init kb nb.
Proof.
  intros Hk Hn Rk Rn. unfold is16 in *.
  destruct (split_len 8 kb) as (k0 & k1 & -> & Hk0 & Lk0); [unfold len; lia|].
  destruct (split_len 8 nb) as (n0 & n1 & -> & Hn0 & Ln0); [unfold len; lia|].
  rewrite app_length in Hk, Hn.
  assert (Hk1 : length k1 = 8%nat) by lia. assert (Hn1 : length n1 = 8%nat) by lia.
  destruct (readable_app _ _ _ _ Rk) as (Rk0 & Rk1). rewrite Lk0 in Rk1.
  destruct (readable_app _ _ _ _ Rn) as (Rn0 & Rn1). rewrite Ln0 in Rn1.
  exists k0, k1. eexists. split; [reflexivity|]. split; [exact Hk0|]. split; [exact Hk1|].
  assert (W0 : wf (St ASCON_128A_IV (le_num k0) (le_num k1) (le_num n0) (le_num n1))).
  { split; [apply fits_IV_aead|]. repeat split; apply fits_le_num8; lia. }
  assert (W : wf (xor4 (xor3 (P12 (St ASCON_128A_IV (le_num k0) (le_num k1) (le_num n0) (le_num n1)))
     (le_num k0)) (le_num k1))).
  { apply wf_xor4; [apply wf_xor3; [apply wf_P12, W0|]|]; apply fits_le_num8; lia. }
  split; [exact W|]. split.
  - unfold ref_init.
    eapply runs_bind; [apply runs_LOADBYTES with (l := k0); [exact Rk0|unfold len; lia|lia]|].
    eapply runs_bind; [apply runs_padd_readable with (l := k0 ++ k1); [exact Rk|rewrite len_app, Lk0; lia]|].
    eapply runs_bind; [apply runs_LOADBYTES with (l := k1); [exact Rk1|unfold len; lia|lia]|].
    eapply runs_bind; [apply runs_LOADBYTES with (l := n0); [exact Rn0|unfold len; lia|lia]|].
    eapply runs_bind; [apply runs_padd_readable with (l := n0 ++ n1); [exact Rn|rewrite len_app, Ln0; lia]|].
    eapply runs_bind; [apply runs_LOADBYTES with (l := n1); [exact Rn1|unfold len; lia|lia]|].
    apply runs_ret.
  - set (s0 := St _ _ _ _ _) in *.
    change (xor4 (xor3 (P12 s0) (le_num k0)) (le_num k1))
      with (xorx (xorx (P12 s0) 3 (le_num k0)) 4 (le_num k1)).
    rewrite !xs_load; try lia; [|apply wf_P12, W0|apply (wf_xorx _ 3); [apply wf_P12, W0|apply fits_le_num8; lia]].
    rewrite xs_P12 by exact W0. unfold s0. rewrite xs_St, ASCON_128A_IV_ok, !wb_le_num8 by lia.
    unfold aead_init. rewrite xor_at_app by (rewrite length_p; lia). rewrite Hk0.
    rewrite <- app_assoc. reflexivity.
Qed.

(** ** Associated data *)

Definition adcond : state * ptr * N -> bool := fun '(_, _, adlen) => ASCON_128A_RATE <=? adlen.

Lemma ref_ad_body_ok M s ad B l : wf s -> length B = 16%nat -> readable M ad (B ++ l) ->
  exists s', runs (ref_ad_body (s, ad, len (B ++ l))) M M (s', ad + 16, len l) /\ wf s' /\
    xs s' = p 8 (xor_into (xs s) B).
Proof.
  intros Hs HB R. pose proof (readable_bound _ _ _ R) as Hbd.
  destruct (split_len 8 B) as (b0 & b1 & -> & H0 & L0); [unfold len; lia|].
  rewrite app_length in HB. assert (H1 : length b1 = 8%nat) by lia.
  assert (R' := R). rewrite <- app_assoc in R'.
  destruct (readable_app _ _ _ _ R') as (R0 & R12). rewrite L0 in R12.
  destruct (readable_app _ _ _ _ R12) as (R1 & _).
  eexists. split; [|split].
  - unfold ref_ad_body.
    eapply runs_bind; [apply runs_LOADBYTES with (l := b0); [exact R0|unfold len; lia|lia]|].
    eapply runs_bind; [eapply runs_padd_readable; [exact R|rewrite !len_app, L0; lia]|].
    eapply runs_bind; [apply runs_LOADBYTES with (l := b1); [exact R1|unfold len; lia|lia]|].
    eapply runs_bind; [eapply runs_padd_readable; [exact R|]|].
    { rewrite !len_app. unfold len, ASCON_128A_RATE in *. lia. }
    rewrite sub64_small.
    + replace (len ((b0 ++ b1) ++ l) - ASCON_128A_RATE) with (len l)
        by (rewrite !len_app; unfold len, ASCON_128A_RATE in *; lia).
      apply runs_ret.
    + rewrite !len_app. unfold len, ASCON_128A_RATE in *. lia.
    + lia.
  - apply wf_P8, wf_block; auto; lia.
  - rewrite xs_P8 by (apply wf_block; auto; lia). rewrite xs_block by (auto; lia). reflexivity.
Qed.

Lemma ref_ad_while f : forall M s ad l, wf s -> readable M ad l ->
  (N.to_nat (len l / 16) < f)%nat ->
  exists s' ad' r, runs (while f adcond ref_ad_body (s, ad, len l)) M M (s', ad', len r) /\
    wf s' /\ (length r < 16)%nat /\ readable M ad' r /\
    absorb 8 (xs s) (chunks 16 (pad 16 l)) = absorb 8 (xs s') (chunks 16 (pad 16 r)).
Proof.
  induction f as [|f IH]; intros M s ad l Hs R Hf; [lia|].
  destruct (N.leb_spec 16 (len l)) as [H|H].
  - destruct (split_len 16 l) as (B & l' & -> & HB & LB); [exact H|].
    destruct (ref_ad_body_ok M s ad B l' Hs HB R) as (s1 & Rn & W1 & E1).
    destruct (readable_app _ _ _ _ R) as (_ & R').  rewrite LB in R'.
    destruct (IH M s1 (ad + 16) l' W1 R') as (s2 & ad2 & r & Rn2 & W2 & Hr & Rr & E2).
    { eapply (div16_step f B l'); [lia|exact LB|exact Hf]. }
    exists s2, ad2, r. split; [|split; [exact W2|split; [exact Hr|split; [exact Rr|]]]].
    + eapply runs_while_step; [|exact Rn|exact Rn2].
      unfold adcond, ASCON_128A_RATE. lia.
    + rewrite chunks_pad_full by (auto; lia). rewrite absorb_cons, <- E1. exact E2.
  - exists s, ad, l. split; [|split; [exact Hs|split; [unfold len in H; lia|split; [exact R|reflexivity]]]].
    apply runs_while_end. unfold adcond, ASCON_128A_RATE. lia.
Qed.

(** The last, padded block of at most 15 bytes. *)
Lemma xs_last0 s r : wf s -> (length r < 8)%nat ->
  xs (xor0 (xor0 s (le_num r)) (PAD (len r))) = xor_at (length r) (xor_into (xs s) r) [x01].
Proof.
  intros Hs Hr. rewrite <- xs_block0 by (auto; lia).
  etransitivity; [apply (xs_PAD _ 0 (len r)); [apply wf_xor0; auto; apply fits_le_num8; lia|lia|unfold len; lia]|].
  unfold len. rewrite Nat2N.id. reflexivity.
Qed.

Lemma xs_last1 s b0 b1 : wf s -> length b0 = 8%nat -> (length b1 < 8)%nat ->
  xs (xor1 (xor1 (xor0 s (le_num b0)) (le_num b1)) (PAD (len b1))) =
  xor_at (length (b0 ++ b1)) (xor_into (xs s) (b0 ++ b1)) [x01].
Proof.
  intros Hs H0 H1. rewrite <- xs_block by (auto; lia).
  etransitivity; [apply (xs_PAD _ 1 (len b1)); [apply wf_block; auto; lia|lia|unfold len; lia]|].
  rewrite app_length, H0. unfold len. rewrite Nat2N.id. reflexivity.
Qed.

Lemma absorb_last rnd S r k : (length r < k)%nat -> (k <= length S)%nat ->
  absorb rnd S (chunks k (pad k r)) = p rnd (xor_at (length r) (xor_into S r) [x01]).
Proof.
  intros H H'. rewrite chunks_pad_last by exact H. cbn [absorb fold_left].
  unfold absorb. cbn [fold_left]. rewrite xor_into_padded by lia. reflexivity.
Qed.

Lemma ref_adata_ok M s ad l : wf s -> readable M ad l ->
  exists s', runs (ref_adata s ad (len l)) M M s' /\ wf s' /\ xs s' = aead_ad (xs s) l.
Proof.
  intros Hs R. pose proof (readable_bound _ _ _ R) as Hbd. unfold ref_adata.
  destruct (N.eq_dec (len l) 0) as [E|E].
  - apply len_0 in E. subst l. eexists. split; [|split].
    + eapply runs_bind; [apply runs_branch|]. rewrite len_nil. cbn [N.eqb negb].
      eapply runs_bind; [apply runs_ret|]. apply runs_ret.
    + apply wf_xor4; auto using fits_DSEP.
    + rewrite xs_DSEP by exact Hs. reflexivity.
  - destruct (ref_ad_while (fuel (len l) 16) M s ad l Hs R) as (s1 & ad1 & r & Rn & W1 & Hr & Rr & E1).
    { unfold fuel. lia. }
    pose proof (readable_bound _ _ _ Rr) as Hbr.
    assert (exists s2, runs (b <- branch (8 <=? len r) ;;
        s <- (if b : bool then
          w0 <- LOADBYTES ad1 8 ;; let s := xor0 s1 w0 in
          ad8 <- padd ad1 8 ;;
          w1 <- LOADBYTES ad8 (sub64 (len r) 8) ;; let s := xor1 s w1 in
          ret (xor1 s (PAD (sub64 (len r) 8)))
        else
          w0 <- LOADBYTES ad1 (len r) ;; let s := xor0 s1 w0 in
          ret (xor0 s (PAD (len r)))) ;;
        ret (P8 s)) M M s2 /\ wf s2 /\
        xs s2 = absorb 8 (xs s1) (chunks 16 (pad 16 r))) as (s2 & Rn2 & W2 & E2).
    { rewrite absorb_last by (rewrite ?length_xs; lia).
      destruct (N.leb_spec 8 (len r)) as [H8|H8].
      - destruct (split_len 8 r) as (b0 & b1 & -> & H0 & L0); [lia|].
        rewrite app_length in Hr. assert (H1 : (length b1 < 8)%nat) by lia.
        destruct (readable_app _ _ _ _ Rr) as (R0 & R1). rewrite L0 in R1.
        eexists. split; [|split].
        + eapply runs_bind; [apply runs_branch|]. cbn beta iota.
          eapply runs_bind.
          * eapply runs_bind; [apply runs_LOADBYTES with (l := b0); [exact R0|unfold len; lia|lia]|].
            eapply runs_bind; [eapply runs_padd_readable; [exact Rr|lia]|].
            rewrite sub64_small by lia.
            replace (len (b0 ++ b1) - 8) with (len b1) by (rewrite len_app; lia).
            eapply runs_bind; [apply runs_LOADBYTES with (l := b1); [exact R1|unfold len; lia|lia]|].
            apply runs_ret.
          * apply runs_ret.
        + apply wf_P8, wf_xor1; [apply wf_block; auto; lia|apply fits_PAD].
        + rewrite xs_P8 by (apply wf_xor1; [apply wf_block; auto; lia|apply fits_PAD]).
          rewrite xs_last1 by (auto; lia). reflexivity.
      - assert (H1 : (length r < 8)%nat) by (unfold len in H8; lia).
        assert (W : wf (xor0 (xor0 s1 (le_num r)) (PAD (len r)))).
        { apply wf_xor0; [apply wf_xor0; auto; apply fits_le_num8; lia|apply fits_PAD]. }
        eexists. split; [|split].
        + eapply runs_bind; [apply runs_branch|]. cbn beta iota.
          eapply runs_bind.
          * eapply runs_bind; [apply runs_LOADBYTES with (l := r); [exact Rr|reflexivity|lia]|].
            apply runs_ret.
          * apply runs_ret.
        + apply wf_P8, W.
        + rewrite xs_P8 by exact W. rewrite xs_last0 by (auto; lia). reflexivity. }
    eexists. split; [|split].
    + eapply runs_bind; [apply runs_branch|]. replace (len l =? 0) with false by lia. cbn [negb].
      eapply runs_bind.
      * eapply runs_bind; [exact Rn|]. cbn beta iota. exact Rn2.
      * apply runs_ret.
    + apply wf_xor4; auto using fits_DSEP.
    + rewrite xs_DSEP by exact W2. rewrite E2, <- E1. unfold aead_ad.
      destruct l; [rewrite len_nil in E; congruence|reflexivity].
Qed.

(** ** Plaintext *)

Definition mcond : state * ptr * ptr * N -> bool := fun '(_, _, _, mlen) => ASCON_128A_RATE <=? mlen.

Lemma firstn_le_bytes n x : (n <= 8)%nat -> le_bytes n x = firstn n (wb x).
Proof.
  intros H. apply bytes_ext; [rewrite firstn_length, wb_len, length_le_bytes; lia|].
  intros j Hj. rewrite length_le_bytes in Hj. rewrite nth_firstn.
  replace (j <? n)%nat with true by lia. unfold wb. rewrite !nth_le_bytes by lia. reflexivity.
Qed.

Lemma firstn16_xs s : firstn 16 (xs s) = wb (X0 s) ++ wb (X1 s).
Proof. apply firstn16_SB, wb_len. Qed.

Lemma firstn_xs0 s n : (n <= 8)%nat -> firstn n (xs s) = firstn n (wb (X0 s)).
Proof.
  intros H. unfold xs, SB. rewrite firstn_app, wb_len.
  replace (n - 8)%nat with 0%nat by lia. rewrite firstn_O, app_nil_r. reflexivity.
Qed.
Lemma firstn_xs1 s n : (n <= 8)%nat -> firstn (8 + n) (xs s) = wb (X0 s) ++ firstn n (wb (X1 s)).
Proof.
  intros H. unfold xs, SB. rewrite firstn_app, wb_len, firstn_all2 by (rewrite wb_len; lia).
  replace (8 + n - 8)%nat with n by lia. f_equal. rewrite firstn_app, wb_len.
  replace (n - 8)%nat with 0%nat by lia. rewrite firstn_O, app_nil_r. reflexivity.
Qed.

Lemma no_overtake_step c m l1 l2 : no_overtake c m (len (l1 ++ l2)) ->
  no_overtake (c + len l1) (m + len l1) (len l2).
Proof. unfold no_overtake. rewrite len_app. lia. Qed.

Lemma no_overtake_disjoint c m l1 l2 n : no_overtake c m (len (l1 ++ l2)) -> n <= len l1 ->
  disjoint c n (m + len l1) (len l2).
Proof. unfold no_overtake, disjoint. rewrite len_app. lia. Qed.

Lemma len_eq (l : bytes) k : length l = k -> len l = N.of_nat k.
Proof. intros <-. reflexivity. Qed.

Lemma to_nat_len l : N.to_nat (len l) = length l.
Proof. apply Nat2N.id. Qed.

Lemma len_wb x : len (wb x) = 8.
Proof. unfold len. rewrite wb_len. reflexivity. Qed.

Lemma ref_enc_body_ok M s m c B l : wf s -> length B = 16%nat -> readable M m (B ++ l) ->
  writable M c (len (B ++ l)) ->
  exists s', runs (ref_enc_body (s, m, c, len (B ++ l))) M
      (write M c (firstn 16 (xor_into (xs s) B))) (s', m + 16, c + 16, len l) /\ wf s' /\
    xs s' = p 8 (xor_into (xs s) B).
Proof.
  intros Hs HB R Wr. pose proof (readable_bound _ _ _ R) as Hbd.
  assert (Hlen : len (B ++ l) = 16 + len l) by (rewrite len_app, (len_eq B 16 HB); lia).
  destruct (split_len 8 B) as (b0 & b1 & -> & H0 & L0); [unfold len; lia|].
  rewrite app_length in HB. assert (H1 : length b1 = 8%nat) by lia.
  assert (R' := R). rewrite <- app_assoc in R'.
  destruct (readable_app _ _ _ _ R') as (R0 & R12). rewrite L0 in R12.
  destruct (readable_app _ _ _ _ R12) as (R1 & _).
  rewrite Hlen in *. change (16 + len l) with (8 + 8 + len l) in Wr.
  destruct (writable_split _ _ _ _ Wr) as (W16 & _).
  destruct (writable_split _ _ _ _ W16) as (W1 & W2).
  set (s1 := xor1 (xor0 s (le_num b0)) (le_num b1)).
  assert (E1 : xs s1 = xor_into (xs s) (b0 ++ b1)) by (apply xs_block; auto; lia).
  assert (Ws1 : wf s1) by (apply wf_block; auto; lia).
  exists (P8 s1). split; [|split].
  - unfold ref_enc_body.
    eapply runs_bind; [apply runs_LOADBYTES with (l := b0); [exact R0|unfold len; lia|lia]|].
    eapply runs_bind; [eapply runs_padd_readable; [exact R|lia]|].
    eapply runs_bind; [apply runs_LOADBYTES with (l := b1); [exact R1|unfold len; lia|lia]|].
    fold s1.
    eapply runs_bind; [apply runs_STOREBYTES; exact W1|].
    eapply runs_bind; [eapply runs_padd_writable; [exact (writable_write _ _ _ _ _ Wr)|lia]|].
    eapply runs_bind; [apply runs_STOREBYTES; apply writable_write; exact W2|].
    eapply runs_bind; [apply runs_padd; [unfold ASCON_128A_RATE; lia|intros _; eapply readable_nonnull; [exact R|lia]]|].
    eapply runs_bind; [eapply runs_padd_writable; [exact (writable_write _ _ _ _ _ (writable_write _ _ _ _ _ Wr))|unfold ASCON_128A_RATE; lia]|].
    rewrite sub64_small by (unfold ASCON_128A_RATE; lia). unfold ASCON_128A_RATE.
    replace (16 + len l - 16) with (len l) by lia.
    change (N.to_nat 8) with 8%nat.
    rewrite <- E1, firstn16_xs. rewrite write_app, len_wb. apply runs_ret.
  - apply wf_P8, Ws1.
  - rewrite xs_P8 by exact Ws1. rewrite E1. reflexivity.
Qed.

Lemma enc_blocks_cons S B bs : bs <> [] ->
  enc_blocks S (B :: bs) =
  let S1 := xor_into S B in
  let '(S2, c) := enc_blocks (p 8 S1) bs in (S2, firstn 16 S1 ++ c).
Proof. destruct bs; [congruence|reflexivity]. Qed.

Lemma chunks_pad_not_nil r l : (0 < r)%nat -> chunks r (pad r l) <> [].
Proof. intros H. rewrite chunks_cons by (auto using pad_not_nil). discriminate. Qed.

Lemma ref_enc_while f : forall M s m c l, wf s -> readable M m l -> writable M c (len l) ->
  no_overtake c m (len l) -> (N.to_nat (len l / 16) < f)%nat ->
  exists s' cs r, runs (while f mcond ref_enc_body (s, m, c, len l)) M (write M c cs)
      (s', m + len cs, c + len cs, len r) /\
    wf s' /\ (length r < 16)%nat /\ length l = (length cs + length r)%nat /\
    readable (write M c cs) (m + len cs) r /\
    enc_blocks (xs s) (chunks 16 (pad 16 l)) =
      (let '(S2, c2) := enc_blocks (xs s') (chunks 16 (pad 16 r)) in (S2, cs ++ c2)).
Proof.
  induction f as [|f IH]; intros M s m c l Hs R Wr Hno Hf; [lia|].
  destruct (N.leb_spec 16 (len l)) as [H|H].
  - destruct (split_len 16 l) as (B & l' & -> & HB & LB); [exact H|]. change (N.of_nat 16) with 16 in LB.
    destruct (ref_enc_body_ok M s m c B l' Hs HB R Wr) as (s1 & Rn & W1 & E1).
    set (cb := firstn 16 (xor_into (xs s) B)) in *.
    assert (Hcb : length cb = 16%nat) by (unfold cb; len; rewrite length_xs; lia).
    assert (Lcb : len cb = 16) by (apply (len_eq cb 16 Hcb)).
    destruct (readable_app _ _ _ _ R) as (_ & R').
    assert (R2 : readable (write M c cb) (m + 16) l').
    { rewrite LB in R'. apply readable_write_disjoint; [exact R'|]. rewrite <- LB.
      apply no_overtake_disjoint; [exact Hno|lia]. }
    rewrite len_app, LB in Wr. destruct (writable_split _ _ _ _ Wr) as (_ & Wr').
    destruct (IH (write M c cb) s1 (m + 16) (c + 16) l' W1 R2) as
      (s2 & cs & r & Rn2 & W2 & Hr & Hl & Rr & E2).
    { apply writable_write, Wr'. }
    { rewrite <- LB. apply no_overtake_step, Hno. }
    { eapply (div16_step f B l'); [lia|exact LB|exact Hf]. }
    assert (Ew : write (write M c cb) (c + 16) cs = write M c (cb ++ cs))
      by (rewrite write_app, Lcb; reflexivity).
    rewrite Ew in Rn2, Rr.
    replace (m + 16 + len cs) with (m + len (cb ++ cs)) in * by (rewrite len_app; lia).
    replace (c + 16 + len cs) with (c + len (cb ++ cs)) in * by (rewrite len_app; lia).
    exists s2, (cb ++ cs), r.
    split; [|split; [exact W2|split; [exact Hr|split; [|split; [exact Rr|]]]]].
    + eapply runs_while_step; [|exact Rn|].
      { unfold mcond, ASCON_128A_RATE. lia. }
      exact Rn2.
    + rewrite !app_length. lia.
    + rewrite chunks_pad_full by (auto; lia).
      rewrite enc_blocks_cons by (apply chunks_pad_not_nil; lia). cbn zeta. rewrite <- E1, E2.
      fold cb. destruct (enc_blocks (xs s2) _) as [S2 c2]. rewrite app_assoc. reflexivity.
  - exists s, [], l. rewrite len_nil, !N.add_0_r. cbn [write].
    split; [|split; [exact Hs|split; [unfold len in H; lia|split; [reflexivity|split; [exact R|]]]]].
    + apply runs_while_end. unfold mcond, ASCON_128A_RATE. lia.
    + destruct (enc_blocks _ _); reflexivity.
Qed.

Lemma enc_blocks_last S r : (length r < 16)%nat -> (16 <= length S)%nat ->
  enc_blocks S (chunks 16 (pad 16 r)) =
  (xor_at (length r) (xor_into S r) [x01], firstn 16 (xor_at (length r) (xor_into S r) [x01])).
Proof.
  intros H H'. rewrite chunks_pad_last by exact H. cbn [enc_blocks].
  rewrite xor_into_padded by lia. reflexivity.
Qed.

Lemma ref_enc_ok M s c m l : wf s -> readable M m l -> writable M c (len l) ->
  no_overtake c m (len l) ->
  exists s' cf, enc_blocks (xs s) (chunks 16 (pad 16 l)) = (xs s', cf) /\ wf s' /\
    (length l <= length cf)%nat /\
    runs (ref_enc s c m (len l)) M (write M c (firstn (length l) cf)) (s', c + len l).
Proof.
  intros Hs R Wr Hno. pose proof (readable_bound _ _ _ R) as Hbd.
  pose proof (writable_bound _ _ _ Wr) as Hbw.
  destruct (ref_enc_while (fuel (len l) 16) M s m c l Hs R Wr Hno) as
    (s1 & cs & r & Rn & W1 & Hr & Hl & Rr & E1); [unfold fuel; lia|].
  assert (Ll : len l = len cs + len r) by (unfold len; lia).
  rewrite (enc_blocks_last _ r) in E1 by (rewrite ?length_xs; lia).
  assert (Wr' : writable (write M c cs) (c + len cs) (len r)).
  { rewrite Ll in Wr. apply writable_split in Wr. apply writable_write, Wr. }
  assert (Hnull : len l <> 0 -> m <> 0 /\ c <> 0).
  { intros Hz. split; [eapply readable_nonnull; eauto|]. destruct Wr as (_ & Hn & _). apply Hn, Hz. }
  set (S2 := xor_at (length r) (xor_into (xs s1) r) [x01]) in *.
  assert (HS2 : length S2 = 40%nat).
  { unfold S2. rewrite length_xor_at; rewrite length_xor_into, length_xs; lia. }
  assert (Hct : firstn (length l) (cs ++ firstn 16 S2) = cs ++ firstn (length r) (xor_into (xs s1) r)).
  { rewrite Hl, firstn_app, firstn_all2 by lia. f_equal.
    replace (length cs + length r - length cs)%nat with (length r) by lia.
    rewrite firstn_firstn. replace (Nat.min (length r) 16) with (length r) by lia.
    unfold S2. apply firstn_xor_at; [lia|]. rewrite length_xor_into, length_xs. lia. }
  assert (exists s2, wf s2 /\ xs s2 = S2 /\
    runs (if 8 <=? len r then
        w0 <- LOADBYTES (m + len cs) 8 ;; let s := xor0 s1 w0 in
        m8 <- padd (m + len cs) 8 ;;
        w1 <- LOADBYTES m8 (sub64 (len r) 8) ;; let s := xor1 s w1 in
        STOREBYTES (c + len cs) (X0 s) 8 ;;;
        c8 <- padd (c + len cs) 8 ;; STOREBYTES c8 (X1 s) (sub64 (len r) 8) ;;;
        ret (xor1 s (PAD (sub64 (len r) 8)))
      else
        w0 <- LOADBYTES (m + len cs) (len r) ;; let s := xor0 s1 w0 in
        STOREBYTES (c + len cs) (X0 s) (len r) ;;;
        ret (xor0 s (PAD (len r)))) (write M c cs)
      (write (write M c cs) (c + len cs) (firstn (length r) (xor_into (xs s1) r))) s2)
    as (s2 & W2 & E2 & Rn2).
  { pose proof (readable_bound _ _ _ Rr) as Hbr.
    destruct (N.leb_spec 8 (len r)) as [H8|H8].
    - destruct (split_len 8 r) as (b0 & b1 & -> & H0 & L0); [lia|]. change (N.of_nat 8) with 8 in L0.
      rewrite app_length in Hr. assert (H1 : (length b1 < 8)%nat) by lia.
      destruct (readable_app _ _ _ _ Rr) as (R0 & R1). rewrite L0 in R1.
      rewrite len_app, L0 in Wr'. destruct (writable_split _ _ _ _ Wr') as (Wa & Wb).
      set (sx := xor1 (xor0 s1 (le_num b0)) (le_num b1)).
      assert (Wsx : wf sx) by (apply wf_block; auto; lia).
      assert (Esx : xs sx = xor_into (xs s1) (b0 ++ b1)) by (apply xs_block; auto; lia).
      exists (xor1 sx (PAD (len b1))). split; [|split].
      + apply wf_xor1; [exact Wsx|apply fits_PAD].
      + apply xs_last1; auto; lia.
      + eapply runs_bind; [apply runs_LOADBYTES with (l := b0); [exact R0|unfold len; lia|lia]|].
        eapply runs_bind; [eapply runs_padd_readable; [exact Rr|lia]|].
        rewrite sub64_small by lia.
        replace (len (b0 ++ b1) - 8) with (len b1) by (rewrite len_app; lia).
        eapply runs_bind; [apply runs_LOADBYTES with (l := b1); [exact R1|unfold len; lia|lia]|].
        fold sx.
        eapply runs_bind; [apply runs_STOREBYTES; exact Wa|].
        eapply runs_bind; [eapply runs_padd_writable; [exact (writable_write _ _ _ _ _ Wr')|lia]|].
        eapply runs_bind; [apply runs_STOREBYTES; apply writable_write; exact Wb|].
        rewrite <- Esx. rewrite ?to_nat_len.
        replace (firstn (length (b0 ++ b1)) (xs sx)) with (wb (X0 sx) ++ le_bytes (length b1) (X1 sx)).
        * rewrite write_app, len_wb. apply runs_ret.
        * rewrite firstn_le_bytes by lia. rewrite app_length, H0, firstn_xs1 by lia. reflexivity.
    - assert (H1 : (length r < 8)%nat) by (unfold len in H8; lia).
      set (sx := xor0 s1 (le_num r)).
      assert (Wsx : wf sx) by (apply wf_xor0; auto; apply fits_le_num8; lia).
      assert (Esx : xs sx = xor_into (xs s1) r) by (apply xs_block0; auto; lia).
      exists (xor0 sx (PAD (len r))). split; [|split].
      + apply wf_xor0; [exact Wsx|apply fits_PAD].
      + apply xs_last0; auto; lia.
      + eapply runs_bind; [apply runs_LOADBYTES with (l := r); [exact Rr|reflexivity|lia]|].
        fold sx.
        eapply runs_bind; [apply runs_STOREBYTES; exact Wr'|].
        rewrite <- Esx. rewrite ?to_nat_len.
        replace (firstn (length r) (xs sx)) with (le_bytes (length r) (X0 sx)).
        * apply runs_ret.
        * rewrite firstn_le_bytes, firstn_xs0 by lia. reflexivity. }
  exists s2, (cs ++ firstn 16 S2). split; [|split; [exact W2|split]].
  - rewrite E2. exact E1.
  - rewrite app_length, firstn_length. lia.
  - rewrite Hct, write_app. unfold ref_enc.
    eapply runs_bind; [exact Rn|]. cbn beta iota.
    apply runs_bind with (M1 := write M c cs) (a := (8 <=? len r)); [apply runs_branch|].
    eapply runs_bind; [exact Rn2|]. cbn beta.
    eapply runs_bind; [apply runs_padd; [|intros Hz; assert (len l <> 0) by lia; specialize (Hnull H); lia]|].
    { lia. }
    eapply runs_bind; [apply runs_padd; [|intros Hz; assert (len l <> 0) by lia; specialize (Hnull H); lia]|].
    { lia. }
    replace (c + len cs + len r) with (c + len l) by lia. apply runs_ret.
Qed.
