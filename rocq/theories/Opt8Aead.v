(** * Opt8Aead.v -- the byte-oriented AEAD refines the specification. *)
From Coq Require Import Arith Bool NArith ZArith List Lia Init.Byte.
From Coq Require Import ZifyBool ZifyNat ZifyN.
From Verif Require Import Words WordFacts Spec SpecFacts CMem Contract CMemFacts ModelRef
  StateRep RefRound RefPrim RefAead RefAeadDec ModelCommon ComAead ModelOpt8 Opt8Prim.
Import ListNotations.
Local Open Scope N_scope.

(** [P] computes the permutations the modes use. *)
Definition conforming (P : N -> bytes -> bytes) : Prop :=
  forall s, length s = 40%nat -> P 12 s = p 12 s /\ P 8 s = p 8 s.

Lemma put_app off s l1 l2 : (off + length l1 + length l2 <= length s)%nat ->
  put (off + length l1) (put off s l1) l2 = put off s (l1 ++ l2).
Proof.
  intros H. apply bytes_ext.
  - rewrite !length_put; rewrite ?length_put, ?app_length; lia.
  - intros j Hj. rewrite !nth_put by (rewrite ?length_put, ?app_length; lia).
    rewrite app_length, nth_app.
    destruct (Nat.leb_spec (off + length l1) j), (Nat.leb_spec off j),
      (Nat.ltb_spec j (off + length l1)), (Nat.ltb_spec j (off + length l1 + length l2)),
      (Nat.ltb_spec j (off + (length l1 + length l2))), (Nat.ltb_spec (j - off) (length l1));
      cbn [andb]; try lia; try reflexivity. f_equal. lia.
Qed.
Lemma put_0 s l : put 0 s l = l ++ skipn (length l) s.
Proof. reflexivity. Qed.

Lemma firstn_cut n k s : firstn (n + k) s = cut 0 n s ++ cut n k s.
Proof.
  unfold cut. cbn [skipn]. revert s. induction n as [|n IH]; intros [|b s]; cbn [Nat.add firstn skipn app];
    rewrite ?firstn_nil; try reflexivity. f_equal. apply IH.
Qed.
Lemma cut_xor_other a n off s l : (off <= length s)%nat -> (a + n <= off)%nat -> cut a n (xor_at off s l) = cut a n s.
Proof.
  intros H H1. apply bytes_ext.
  - rewrite !length_cut; rewrite ?length_xor_at; lia.
  - intros j Hj. rewrite !nth_cut. destruct (Nat.ltb_spec j n); [|reflexivity].
    rewrite nth_xor_at by lia. destruct (Nat.ltb_spec (a + j) (length s)).
    + destruct (Nat.leb_spec off (a + j)); [lia|reflexivity].
    + symmetry. apply nth_overflow. lia.
Qed.
Lemma cut_put_other a n off s l : (off + length l <= length s)%nat -> (off + length l <= a)%nat -> (a + n <= length s)%nat ->
  cut a n (put off s l) = cut a n s.
Proof.
  intros H H1 H2. apply bytes_ext.
  - rewrite !length_cut; rewrite ?length_put; lia.
  - intros j Hj. rewrite !nth_cut. destruct (Nat.ltb_spec j n); [|reflexivity].
    rewrite nth_put by lia. destruct (Nat.ltb_spec (a + j) (off + length l)); [lia|].
    rewrite andb_false_r. reflexivity.
Qed.

(** Absorbing [b0] and then [b1]. *)
Lemma xor_two s b0 b1 : (length b0 + length b1 <= length s)%nat ->
  xor_at (length b0) (xor_at 0 s b0) b1 = xor_into s (b0 ++ b1).
Proof. intros H. symmetry. apply (xor_at_app 0 s b0 b1). lia. Qed.
Lemma xor_two8 s b0 b1 : length b0 = 8%nat -> (8 + length b1 <= length s)%nat ->
  xor_at 8 (xor_at 0 s b0) b1 = xor_into s (b0 ++ b1).
Proof. intros H0 H. rewrite <- H0 at 1. apply xor_two. lia. Qed.

(** The bytes written by encrypting [b0] at 0 and then [b1] behind it. *)
Lemma enc_out s b0 b1 : (length b0 + length b1 <= length s)%nat ->
  cut 0 (length b0) (xor_at 0 s b0) ++ cut (length b0) (length b1) (xor_at (length b0) (xor_at 0 s b0) b1) =
  firstn (length (b0 ++ b1)) (xor_into s (b0 ++ b1)).
Proof.
  intros H. rewrite app_length, firstn_cut, xor_two by exact H.
  apply (f_equal (fun x => x ++ _)). rewrite <- xor_two by exact H.
  symmetry. apply cut_xor_other; rewrite ?length_xor_at; lia.
Qed.

(** The bytes written by decrypting [b0] at 0 and then [b1] behind it. *)
Lemma dec_out s b0 b1 : (length b0 + length b1 <= length s)%nat ->
  xor_into (cut 0 (length b0) s) b0 ++ xor_into (cut (length b0) (length b1) (put 0 s b0)) b1 =
  xor_into (b0 ++ b1) s.
Proof.
  intros H. rewrite cut_put_other by lia.
  assert (L0 : length (cut 0 (length b0) s) = length b0) by (apply length_cut; lia).
  assert (L1 : length (cut (length b0) (length b1) s) = length b1) by (apply length_cut; lia).
  apply bytes_ext.
  - rewrite app_length, !length_xor_into, app_length. lia.
  - intros j Hj. rewrite app_length, !length_xor_into in Hj.
    rewrite nth_app, !nth_xor_into, !nth_app, !nth_cut, length_xor_into, app_length, L0, L1. cbn [Nat.add].
    destruct (Nat.ltb_spec j (length b0)).
    + destruct (Nat.ltb_spec j (length b0 + length b1)); [|lia]. apply bxor_comm.
    + destruct (Nat.ltb_spec (j - length b0) (length b1)); [|lia].
      destruct (Nat.ltb_spec j (length b0 + length b1)); [|lia].
      replace (length b0 + (j - length b0))%nat with j by lia. apply bxor_comm.
Qed.

Section Opt8Aead.
Variable P : N -> bytes -> bytes.
Hypothesis HP : conforming P.

Ltac step := eapply runs_bind.

Lemma P12_ok s : length s = 40%nat -> P 12 s = p 12 s.
Proof. intros H. apply HP, H. Qed.
Lemma P8_ok s : length s = 40%nat -> P 8 s = p 8 s.
Proof. intros H. apply HP, H. Qed.

(** ** Key and initialisation *)

Lemma loadkey_ok M k kb : is16 kb -> readable M k kb -> runs (o8_loadkey k) M M kb.
Proof.
  intros Hk R. unfold is16 in Hk.
  destruct (split_len 8 kb) as (k0 & k1 & -> & H0 & L0); [unfold len; lia|]. change (N.of_nat 8) with 8 in L0.
  rewrite app_length in Hk. assert (H1 : length k1 = 8%nat) by lia.
  destruct (readable_app _ _ _ _ R) as (R0 & R1). rewrite L0 in R1.
  unfold o8_loadkey.
  step; [apply (insert_ok _ _ _ _ k0); [exact R0|symmetry; exact L0|rewrite length_zeros; lia]|].
  step; [eapply runs_padd_readable; [exact R|rewrite len_app; lia]|].
  replace (k0 ++ k1) with (put (N.to_nat 8) (put (N.to_nat 0) (zeros 16) k0) k1).
  - apply (insert_ok _ _ _ _ k1); [exact R1|symmetry; apply (len_eq k1 8 H1)|].
    change (N.to_nat 0) with 0%nat. rewrite length_put by (rewrite length_zeros; lia). rewrite length_zeros. lia.
  - change (N.to_nat 8) with 8%nat. change (N.to_nat 0) with 0%nat.
    replace 8%nat with (0 + length k0)%nat by lia. rewrite put_app by (rewrite length_zeros; lia).
    rewrite put_0, app_length, H0, H1. change (skipn (8 + 8) (zeros 16)) with (@nil byte). apply app_nil_r.
Qed.

Lemma initaead_ok M npub kb nb : is16 kb -> is16 nb -> readable M npub nb ->
  runs (o8_initaead LE P kb npub) M M (aead_init kb nb).
Proof.
  intros Hk Hn R. unfold is16 in Hk, Hn.
  destruct (split_len 8 nb) as (n0 & n1 & -> & H0 & L0); [unfold len; lia|]. change (N.of_nat 8) with 8 in L0.
  rewrite app_length in Hn. assert (H1 : length n1 = 8%nat) by lia.
  destruct (readable_app _ _ _ _ R) as (R0 & R1). rewrite L0 in R1.
  unfold o8_initaead. change (to_host LE 8 0x00001000808c0001) with iv_aead128. cbn zeta.
  assert (Li : length iv_aead128 = 8%nat) by reflexivity.
  assert (Ls : length (iv_aead128 ++ kb ++ zeros 16) = 40%nat) by (rewrite !app_length, Hk; reflexivity).
  step; [apply (insert_ok _ _ _ _ n0); [exact R0|symmetry; exact L0|change (N.to_nat 24) with 24%nat; lia]|].
  step; [eapply runs_padd_readable; [exact R|rewrite len_app; lia]|].
  step; [apply (insert_ok _ _ _ _ n1); [exact R1|symmetry; apply (len_eq n1 8 H1)|
    rewrite length_put by (change (N.to_nat 24) with 24%nat; lia); change (N.to_nat 32) with 32%nat; lia]|].
  assert (E : put (N.to_nat 32) (put (N.to_nat 24) (iv_aead128 ++ kb ++ zeros 16) n0) n1 = iv_aead128 ++ kb ++ n0 ++ n1).
  { replace (N.to_nat 32) with (24 + length n0)%nat by lia. change (N.to_nat 24) with 24%nat.
    rewrite put_app by lia. unfold put.
    rewrite skipn_all2 by (rewrite (app_length n0 n1); lia). rewrite app_nil_r, (app_assoc iv_aead128 kb (zeros 16)).
    rewrite (firstn_app_exact 24 (iv_aead128 ++ kb)) by (rewrite app_length; lia).
    symmetry. apply app_assoc. }
  rewrite E. rewrite P12_ok by (rewrite !app_length; lia). unfold aead_init.
  apply (memxor_ok _ 24 kb). rewrite length_p. change (N.to_nat 24) with 24%nat. lia.
Qed.

Lemma length_aead_init kb nb : length (aead_init kb nb) = 40%nat.
Proof. unfold aead_init. rewrite length_xor_at; rewrite length_p; lia. Qed.
Lemma length_aead_ad s ad : length s = 40%nat -> length (aead_ad s ad) = 40%nat.
Proof.
  intros H. unfold aead_ad. rewrite length_xor_at; destruct ad; rewrite ?length_absorb; lia.
Qed.

(** ** Associated data *)

Definition acond8 : bytes * ptr * N -> bool := fun '(_, _, adlen) => 16 <=? adlen.

Lemma ad_body_ok M s ad B l : length s = 40%nat -> length B = 16%nat -> readable M ad (B ++ l) ->
  runs (o8_ad_body P (s, ad, len (B ++ l))) M M (p 8 (xor_into s B), ad + 16, len l).
Proof.
  intros Hs HB R. pose proof (readable_bound _ _ _ R) as Hbd.
  assert (Hlen : len (B ++ l) = 16 + len l) by (rewrite len_app, (len_eq B 16 HB); lia).
  destruct (split_len 8 B) as (b0 & b1 & -> & H0 & L0); [unfold len; lia|]. change (N.of_nat 8) with 8 in L0.
  rewrite app_length in HB. assert (H1 : length b1 = 8%nat) by lia.
  assert (R' := R). rewrite <- app_assoc in R'.
  destruct (readable_app _ _ _ _ R') as (R0 & R12). rewrite L0 in R12.
  destruct (readable_app _ _ _ _ R12) as (R1 & _).
  unfold o8_ad_body.
  step; [apply (absorb_ok _ _ _ _ b0); [exact R0|symmetry; exact L0|change (N.to_nat 0) with 0%nat; lia]|].
  step; [eapply runs_padd_readable; [exact R|lia]|].
  step; [apply (absorb_ok _ _ _ _ b1); [exact R1|symmetry; apply (len_eq b1 8 H1)|
    rewrite length_xor_at; change (N.to_nat 0) with 0%nat; change (N.to_nat 8) with 8%nat; lia]|].
  change (N.to_nat 0) with 0%nat. change (N.to_nat 8) with 8%nat.
  rewrite xor_two8 by lia. rewrite P8_ok by (rewrite length_xor_into; exact Hs).
  step; [eapply runs_padd_readable; [exact R|lia]|].
  rewrite sub64_small by lia. rewrite Hlen. replace (16 + len l - 16) with (len l) by lia.
  apply runs_ret.
Qed.

Lemma ad_while f : forall M s ad l, length s = 40%nat -> readable M ad l ->
  (N.to_nat (len l / 16) < f)%nat ->
  exists s' ad' r, runs (while f acond8 (o8_ad_body P) (s, ad, len l)) M M (s', ad', len r) /\
    length s' = 40%nat /\ (length r < 16)%nat /\ readable M ad' r /\
    absorb 8 s (chunks 16 (pad 16 l)) = absorb 8 s' (chunks 16 (pad 16 r)).
Proof.
  induction f as [|f IH]; intros M s ad l Hs R Hf; [lia|].
  destruct (N.leb_spec 16 (len l)) as [H|H].
  - destruct (split_len 16 l) as (B & l' & -> & HB & LB); [exact H|].
    pose proof (ad_body_ok M s ad B l' Hs HB R) as Rn.
    destruct (readable_app _ _ _ _ R) as (_ & R').  rewrite LB in R'.
    destruct (IH M (p 8 (xor_into s B)) (ad + 16) l' (length_p _ _) R') as (s2 & ad2 & r & Rn2 & W2 & Hr & Rr & E2).
    { eapply (div16_step f B l'); [lia|exact LB|exact Hf]. }
    exists s2, ad2, r. split; [|split; [exact W2|split; [exact Hr|split; [exact Rr|]]]].
    + eapply runs_while_step; [|exact Rn|exact Rn2].
      unfold acond8. lia.
    + rewrite chunks_pad_full by (auto; lia). rewrite absorb_cons. exact E2.
  - exists s, ad, l. split; [|split; [exact Hs|split; [unfold len in H; lia|split; [exact R|reflexivity]]]].
    apply runs_while_end. unfold acond8. lia.
Qed.

Lemma dsep_ok M s : length s = 40%nat -> runs (xorb8 s 4 7 x80) M M (xor_at 39 s [x80]).
Proof. intros H. exact (xorb8_ok M s 4 7 x80 eq_refl eq_refl H). Qed.

(** the last partial block: absorb [r], then the padding byte *)
Lemma last0_ok M s ad r : length s = 40%nat -> readable M ad r -> (length r < 8)%nat ->
  runs (s <- ABSORB s (8 * 0) ad (len r) ;; xorb8 s 0 (len r) x01) M M
    (xor_at (length r) (xor_into s r) [x01]).
Proof.
  intros Hs R Hr.
  step; [apply (absorb_ok _ _ _ _ r); [exact R|reflexivity|change (N.to_nat (8 * 0)) with 0%nat; lia]|].
  change (N.to_nat (8 * 0)) with 0%nat. rewrite xor_at_0.
  rewrite <- (to_nat_len r).
  exact (xorb8_ok M (xor_into s r) 0 (len r) x01 eq_refl (len_lt8 _ Hr) (eq_trans (length_xor_into _ _) Hs)).
Qed.
Lemma last1_ok M s ad b0 r : length s = 40%nat -> readable M ad r -> length b0 = 8%nat -> (length r < 8)%nat ->
  runs (s <- ABSORB (xor_at 0 s b0) (8 * 1) ad (len r) ;; xorb8 s 1 (len r) x01) M M
    (xor_at (length (b0 ++ r)) (xor_into s (b0 ++ r)) [x01]).
Proof.
  intros Hs R H0 Hr.
  step; [apply (absorb_ok _ _ _ _ r); [exact R|reflexivity|rewrite length_xor_at; change (N.to_nat (8 * 1)) with 8%nat; lia]|].
  change (N.to_nat (8 * 1)) with 8%nat. rewrite xor_two8 by lia.
  rewrite app_length, H0, <- (to_nat_len r).
  exact (xorb8_ok M (xor_into s (b0 ++ r)) 1 (len r) x01 eq_refl (len_lt8 _ Hr) (eq_trans (length_xor_into _ _) Hs)).
Qed.

Lemma adata_ok M s ad l : length s = 40%nat -> readable M ad l ->
  runs (o8_adata P s ad (len l)) M M (aead_ad s l).
Proof.
  intros Hs R. pose proof (readable_bound _ _ _ R) as Hbd. unfold o8_adata.
  destruct (N.eq_dec (len l) 0) as [E|E].
  - apply len_0 in E. subst l.
    step; [apply runs_branch|]. rewrite len_nil. cbn [N.eqb negb].
    step; [apply runs_ret|]. apply dsep_ok, Hs.
  - destruct (ad_while (fuel (len l) 16) M s ad l Hs R) as (s1 & ad1 & r & Rn & W1 & Hr & Rr & E1).
    { unfold fuel. lia. }
    pose proof (readable_bound _ _ _ Rr) as Hbr.
    step; [apply runs_branch|]. replace (len l =? 0) with false by lia. cbn [negb].
    step.
    + step; [exact Rn|]. cbn beta iota. step; [apply runs_branch|].
      instantiate (1 := absorb 8 s1 (chunks 16 (pad 16 r))). instantiate (1 := M).
      rewrite absorb_last by lia.
      destruct (N.leb_spec 8 (len r)) as [H8|H8]; cbn beta iota.
      * destruct (split_len 8 r) as (b0 & b1 & -> & H0 & L0); [lia|]. change (N.of_nat 8) with 8 in L0.
        rewrite app_length in Hr. assert (H1 : (length b1 < 8)%nat) by lia.
        destruct (readable_app _ _ _ _ Rr) as (R0 & R1). rewrite L0 in R1.
        step.
        { step; [apply (absorb_ok _ _ _ _ b0); [exact R0|symmetry; exact L0|change (N.to_nat 0) with 0%nat; lia]|].
          step; [eapply runs_padd_readable; [exact Rr|lia]|]. 
          rewrite sub64_small by lia.
          replace (len (b0 ++ b1) - 8) with (len b1) by (rewrite len_app; lia). apply runs_ret. }
        cbn beta iota. change (N.to_nat 0) with 0%nat.
        pose proof (last1_ok M s1 (ad1 + 8) b0 b1 W1 R1 H0 H1) as X.
        rewrite <- P8_ok by (rewrite length_xor_at; rewrite length_xor_into; lia || (rewrite app_length; lia)).
        destruct X as (t & X). unfold bind in X.
        unfold runs, bind. 
        destruct (ABSORB (xor_at 0 s1 b0) (8 * 1) (ad1 + 8) (len b1) M) as [t1 M1 s2|]; [|discriminate].
        destruct (xorb8 s2 1 (len b1) x01 M1) as [t2 M2 s3|]; [|discriminate].
        inversion X; subst. eexists. reflexivity.
      * assert (H1 : (length r < 8)%nat) by (unfold len in H8; lia).
        step; [apply runs_ret|]. cbn beta iota.
        pose proof (last0_ok M s1 ad1 r W1 Rr H1) as X.
        rewrite <- P8_ok by (rewrite length_xor_at; rewrite length_xor_into; lia).
        destruct X as (t & X). unfold bind in X.
        unfold runs, bind. 
        destruct (ABSORB s1 (8 * 0) ad1 (len r) M) as [t1 M1 s2|]; [|discriminate].
        destruct (xorb8 s2 0 (len r) x01 M1) as [t2 M2 s3|]; [|discriminate].
        inversion X; subst. eexists. reflexivity.
    + rewrite <- E1. unfold aead_ad. destruct l; [rewrite len_nil in E; congruence|].
      apply dsep_ok. apply length_absorb, Hs.
Qed.

(** ** Plaintext *)

Definition econd8 : bytes * ptr * ptr * N -> bool := fun '(_, _, _, mlen) => 16 <=? mlen.

(** two words at once: [ENCRYPT(s,0,c,m,8); ENCRYPT(s,8,c+8,m+8,n)] *)
Lemma enc2_ok M s m c b0 b1 t : length s = 40%nat -> length b0 = 8%nat -> (length b1 <= 8)%nat ->
  readable M m (b0 ++ b1 ++ t) -> writable M c (len (b0 ++ b1)) -> no_overtake c m (len (b0 ++ b1 ++ t)) ->
  exists M1, runs (ENCRYPT s 0 c m 8) M M1 (xor_at 0 s b0) /\
    runs (ENCRYPT (xor_at 0 s b0) 8 (c + 8) (m + 8) (len b1)) M1
      (write M c (firstn (length (b0 ++ b1)) (xor_into s (b0 ++ b1)))) (xor_into s (b0 ++ b1)) /\
    (forall p n, writable M p n -> writable M1 p n) /\
    (forall p l n, n <= 8 -> disjoint c 8 p (len l) -> readable M p l -> readable M1 p l).
Proof.
  intros Hs H0 H1 R W Hno. assert (L0 : len b0 = 8) by (apply (len_eq b0 8 H0)).
  destruct (readable_app _ _ _ _ R) as (R0 & R12).
  pose proof (no_overtake_disjoint _ _ _ _ 8 Hno ltac:(lia)) as D. rewrite L0 in R12, D.
  rewrite len_app, L0 in W. destruct (writable_split _ _ _ _ W) as (Wa & Wb).
  set (c0 := cut 0 8 (xor_at 0 s b0)).
  assert (Lc : length c0 = 8%nat) by (apply length_cut; rewrite length_xor_at; lia).
  assert (Lc' : len c0 = 8) by (apply (len_eq c0 8 Lc)).
  exists (write M c c0). split; [|split; [|split]].
  - unfold c0. rewrite <- H0. apply (encrypt_ok M s 0 c m b0 8); [exact R0|lia|exact Wa| |lia].
    revert Hno. unfold no_overtake. rewrite len_app. lia.
  - assert (R1 : readable (write M c c0) (m + 8) b1).
    { apply (readable_app _ _ b1 t). apply readable_write_disjoint; [exact R12|]. rewrite Lc'. exact D. }
    rewrite <- enc_out by lia. rewrite write_app, H0. fold c0. rewrite Lc'.
    rewrite <- (xor_two8 s b0 b1 H0) by lia.
    apply (encrypt_ok (write M c c0) (xor_at 0 s b0) 8 (c + 8) (m + 8) b1 (len b1)); [exact R1|reflexivity| | |].
    + apply writable_write, Wb.
    + revert Hno. unfold no_overtake. rewrite !len_app. lia.
    + rewrite length_xor_at by lia. change (N.to_nat 8) with 8%nat. lia.
  - intros q n Hq. apply writable_write, Hq.
  - intros q l n _ Hd Hq. apply readable_write_disjoint; [exact Hq|]. rewrite Lc'. exact Hd.
Qed.

Lemma enc_body_ok M s m c B l : length s = 40%nat -> length B = 16%nat -> readable M m (B ++ l) ->
  writable M c (len (B ++ l)) -> no_overtake c m (len (B ++ l)) ->
  runs (o8_enc_body P (s, m, c, len (B ++ l))) M (write M c (firstn 16 (xor_into s B)))
    (p 8 (xor_into s B), m + 16, c + 16, len l).
Proof.
  intros Hs HB R Wr Hno. pose proof (readable_bound _ _ _ R) as Hbd.
  pose proof (writable_bound _ _ _ Wr) as Hbw.
  assert (Hlen : len (B ++ l) = 16 + len l) by (rewrite len_app, (len_eq B 16 HB); lia).
  assert (Nm : m <> 0) by (eapply readable_nonnull; [exact R|lia]).
  assert (Nc : c <> 0) by (apply Wr; lia).
  assert (HB' := HB).
  destruct (split_len 8 B) as (b0 & b1 & -> & H0 & L0); [unfold len; lia|]. change (N.of_nat 8) with 8 in L0.
  rewrite app_length in HB. assert (H1 : length b1 = 8%nat) by lia.
  assert (L1 : len b1 = 8) by (apply (len_eq b1 8 H1)).
  assert (R' := R). rewrite <- app_assoc in R', Hno.
  assert (W16 : writable M c (len (b0 ++ b1))).
  { rewrite len_app in Wr. apply (writable_split _ _ _ _ Wr). }
  destruct (enc2_ok M s m c b0 b1 l Hs H0 ltac:(lia) R' W16 Hno) as (M1 & Ra & Rb & _).
  rewrite L1 in Rb. unfold o8_enc_body.
  step; [exact Ra|].
  step; [apply runs_padd; [lia|intros _; exact Nc]|].
  step; [apply runs_padd; [lia|intros _; exact Nm]|].
  step; [exact Rb|]. rewrite HB'.
  rewrite P8_ok by (rewrite length_xor_into; exact Hs).
  step; [apply runs_padd; [lia|intros _; exact Nm]|].
  step; [apply runs_padd; [lia|intros _; exact Nc]|].
  rewrite sub64_small by lia. rewrite Hlen. replace (16 + len l - 16) with (len l) by lia.
  apply runs_ret.
Qed.

Lemma enc_while f : forall M s m c l, length s = 40%nat -> readable M m l -> writable M c (len l) ->
  no_overtake c m (len l) -> (N.to_nat (len l / 16) < f)%nat ->
  exists s' ct r, runs (while f econd8 (o8_enc_body P) (s, m, c, len l)) M (write M c ct)
      (s', m + len ct, c + len ct, len r) /\
    length s' = 40%nat /\ (length r < 16)%nat /\ length l = (length ct + length r)%nat /\
    readable (write M c ct) (m + len ct) r /\ no_overtake (c + len ct) (m + len ct) (len r) /\
    enc_blocks s (chunks 16 (pad 16 l)) =
      (let '(S2, c2) := enc_blocks s' (chunks 16 (pad 16 r)) in (S2, ct ++ c2)).
Proof.
  induction f as [|f IH]; intros M s m c l Hs R Wr Hno Hf; [lia|].
  destruct (N.leb_spec 16 (len l)) as [H|H].
  - destruct (split_len 16 l) as (B & l' & -> & HB & LB); [exact H|]. change (N.of_nat 16) with 16 in LB.
    pose proof (enc_body_ok M s m c B l' Hs HB R Wr Hno) as Rn.
    set (cb := firstn 16 (xor_into s B)) in *.
    assert (Hcb : length cb = 16%nat) by (unfold cb; len; lia).
    assert (Lcb : len cb = 16) by (apply (len_eq cb 16 Hcb)).
    destruct (readable_app _ _ _ _ R) as (_ & R').
    assert (R2 : readable (write M c cb) (m + 16) l').
    { rewrite LB in R'. apply readable_write_disjoint; [exact R'|]. rewrite <- LB.
      apply no_overtake_disjoint; [exact Hno|lia]. }
    rewrite len_app, LB in Wr. destruct (writable_split _ _ _ _ Wr) as (_ & Wr').
    destruct (IH (write M c cb) (p 8 (xor_into s B)) (m + 16) (c + 16) l' (length_p _ _) R2) as
      (s2 & ct & r & Rn2 & W2 & Hr & Hl & Rr & Hno2 & E2).
    { apply writable_write, Wr'. }
    { rewrite <- LB. apply no_overtake_step, Hno. }
    { eapply (div16_step f B l'); [lia|exact LB|exact Hf]. }
    assert (Ew : write (write M c cb) (c + 16) ct = write M c (cb ++ ct))
      by (rewrite write_app, Lcb; reflexivity).
    rewrite Ew in Rn2, Rr.
    replace (m + 16 + len ct) with (m + len (cb ++ ct)) in * by (rewrite len_app; lia).
    replace (c + 16 + len ct) with (c + len (cb ++ ct)) in * by (rewrite len_app; lia).
    exists s2, (cb ++ ct), r.
    split; [|split; [exact W2|split; [exact Hr|split; [|split; [exact Rr|split; [exact Hno2|]]]]]].
    + eapply runs_while_step; [|exact Rn|].
      { unfold econd8. lia. }
      exact Rn2.
    + rewrite !app_length. lia.
    + rewrite chunks_pad_full by (auto; lia).
      rewrite enc_blocks_cons by (apply chunks_pad_not_nil; lia). cbn zeta. rewrite E2.
      fold cb. destruct (enc_blocks s2 _) as [S2 c2]. rewrite app_assoc. reflexivity.
  - exists s, [], l. rewrite len_nil, !N.add_0_r. cbn [write].
    split; [|split; [exact Hs|split; [unfold len in H; lia|split; [reflexivity|split; [exact R|split; [exact Hno|]]]]]].
    + apply runs_while_end. unfold econd8. lia.
    + destruct (enc_blocks _ _); reflexivity.
Qed.

Lemma encrypt_data_ok M s c m l : length s = 40%nat -> readable M m l -> writable M c (len l) ->
  no_overtake c m (len l) ->
  exists s' cf, enc_blocks s (chunks 16 (pad 16 l)) = (s', cf) /\ length s' = 40%nat /\
    (length l <= length cf)%nat /\
    runs (o8_encrypt P s c m (len l)) M (write M c (firstn (length l) cf)) s'.
Proof.
  intros Hs R Wr Hno. pose proof (readable_bound _ _ _ R) as Hbd.
  pose proof (writable_bound _ _ _ Wr) as Hbw.
  destruct (enc_while (fuel (len l) 16) M s m c l Hs R Wr Hno) as
    (s1 & ct & r & Rn & W1 & Hr & Hl & Rr & Hno2 & E1); [unfold fuel; lia|].
  assert (Ll : len l = len ct + len r) by (unfold len; lia).
  rewrite (enc_blocks_last _ r) in E1 by lia.
  assert (Wr' : writable (write M c ct) (c + len ct) (len r)).
  { rewrite Ll in Wr. apply writable_split in Wr. apply writable_write, Wr. }
  set (S2 := xor_at (length r) (xor_into s1 r) [x01]) in *.
  assert (HS2 : length S2 = 40%nat).
  { unfold S2. rewrite length_xor_at; rewrite length_xor_into; lia. }
  assert (Hct : firstn (length l) (ct ++ firstn 16 S2) = ct ++ firstn (length r) S2).
  { rewrite Hl, firstn_app, firstn_all2 by lia. f_equal.
    replace (length ct + length r - length ct)%nat with (length r) by lia.
    rewrite firstn_firstn. replace (Nat.min (length r) 16) with (length r) by lia. reflexivity. }
  assert (Hfr : firstn (length r) S2 = firstn (length r) (xor_into s1 r)).
  { unfold S2. apply firstn_xor_at; rewrite ?length_xor_into; lia. }
  exists S2, (ct ++ firstn 16 S2). split; [exact E1|split; [exact HS2|split]].
  { rewrite app_length, firstn_length. lia. }
  rewrite Hct, write_app, Hfr.
  set (M1 := write M c ct) in *. set (m1 := m + len ct) in *. set (c1 := c + len ct) in *.
  unfold o8_encrypt. step; [exact Rn|]. cbn beta iota. step; [apply runs_branch|].
  pose proof (readable_bound _ _ _ Rr) as Hbr. pose proof (writable_bound _ _ _ Wr') as Hbr'.
  destruct (N.leb_spec 8 (len r)) as [H8|H8]; cbn beta iota.
  - assert (Nm : m1 <> 0) by (eapply readable_nonnull; [exact Rr|lia]).
    assert (Nc : c1 <> 0) by (apply Wr'; lia).
    destruct (split_len 8 r) as (b0 & b1 & -> & H0 & L0); [lia|]. change (N.of_nat 8) with 8 in L0.
    rewrite app_length in Hr. assert (H1 : (length b1 < 8)%nat) by lia.
    assert (R' : readable M1 m1 (b0 ++ b1 ++ [])) by (rewrite app_nil_r; exact Rr).
    destruct (enc2_ok M1 s1 m1 c1 b0 b1 [] W1 H0 ltac:(lia) R' Wr') as (M2 & Ra & Rb & _).
    { rewrite app_nil_r. exact Hno2. }
    step.
    { step; [exact Ra|].
      step; [apply runs_padd; [lia|intros _; exact Nm]|].
      step; [apply runs_padd; [lia|intros _; exact Nc]|].
      rewrite sub64_small by lia.
      replace (len (b0 ++ b1) - 8) with (len b1) by (rewrite len_app; lia). apply runs_ret. }
    cbn beta iota. change (8 * 1) with 8.
    step; [exact Rb|]. unfold S2. rewrite app_length, H0, <- (to_nat_len b1).
    refine (xorb8_ok _ (xor_into s1 (b0 ++ b1)) 1 (len b1) x01 eq_refl (len_lt8 _ H1) _).
    rewrite length_xor_into. exact W1.
  - assert (H1 : (length r < 8)%nat) by (unfold len in H8; lia).
    step; [apply runs_ret|]. cbn beta iota.
    step; [apply (encrypt_ok M1 s1 (8 * 0) c1 m1 r (len r)); [exact Rr|reflexivity|exact Wr'|exact Hno2|lia]|].
    change (N.to_nat (8 * 0)) with 0%nat. rewrite xor_at_0.
    unfold S2. unfold cut. cbn [skipn].
    replace (xor_at (length r) (xor_into s1 r) [x01]) with
      (xor_at (8 * N.to_nat 0 + N.to_nat (len r)) (xor_into s1 r) [x01]) by (rewrite to_nat_len; reflexivity).
    apply xorb8_ok; [reflexivity|exact H8|rewrite length_xor_into; exact W1].
Qed.

(** ** Finalisation *)

Lemma length_aead_tag k s : length s = 40%nat -> length (aead_tag k s) = 16%nat.
Proof. intros H. unfold aead_tag. rewrite length_xor_into, skipn_length, length_p. reflexivity. Qed.

Lemma final_ok M s kb : length s = 40%nat -> is16 kb ->
  exists s', runs (o8_final P s kb) M M s' /\ length s' = 40%nat /\ skipn 24 s' = aead_tag kb s.
Proof.
  intros Hs Hk. unfold is16 in Hk.
  exists (xor_at 24 (p 12 (xor_at 16 s kb)) kb). split; [|split].
  - unfold o8_final.
    step; [apply (memxor_ok s 16 kb); change (N.to_nat 16) with 16%nat; lia|].
    change (N.to_nat 16) with 16%nat. rewrite P12_ok by (rewrite length_xor_at; lia).
    apply (memxor_ok (p 12 (xor_at 16 s kb)) 24 kb). rewrite length_p. change (N.to_nat 24) with 24%nat. lia.
  - rewrite length_xor_at; rewrite length_p; lia.
  - unfold aead_tag, xor_at. rewrite skipn_app_exact; [reflexivity|]. rewrite firstn_length, length_p. reflexivity.
Qed.

Lemma tail_cut s : length s = 40%nat -> skipn 24 s = cut 24 8 s ++ cut 32 8 s.
Proof.
  intros Hs. rewrite <- (firstn_all2 (n := 16) (skipn 24 s)) by (rewrite skipn_length; lia).
  rewrite (firstn_cut 8 8). unfold cut. rewrite !skipn_skipn. reflexivity.
Qed.

Lemma gettag_ok M s t : length s = 40%nat -> writable M t 16 ->
  runs (o8_gettag s t) M (write M t (skipn 24 s)) tt.
Proof.
  intros Hs W. pose proof (writable_bound _ _ _ W) as Hb.
  destruct (writable_split _ _ 8 8 W) as (W1 & W2).
  assert (E : skipn 24 s = cut 24 8 s ++ cut 32 8 s).
  { apply tail_cut, Hs. }
  assert (Lc : len (cut 24 8 s) = 8) by (apply (len_eq _ 8), length_cut; lia).
  rewrite E, write_app, Lc. unfold o8_gettag.
  step; [apply (squeeze_ok M s 24 t 8); [exact W1|change (N.to_nat 24) with 24%nat; change (N.to_nat 8) with 8%nat; lia]|].
  step; [apply runs_padd; [lia|intros _; apply W; discriminate]|].
  apply (squeeze_ok _ s 32 (t + 8) 8); [apply writable_write, W2|change (N.to_nat 32) with 32%nat; change (N.to_nat 8) with 8%nat; lia].
Qed.

Lemma verify_ok M s t tag : length s = 40%nat -> is16 tag -> readable M t tag ->
  runs (o8_verify s t) M M (if list_eq_dec Byte.byte_eq_dec (skipn 24 s) tag then 0 else -1)%Z.
Proof.
  intros Hs Ht R. unfold is16 in Ht.
  destruct (split_len 8 tag) as (t0 & t1 & -> & H0 & L0); [unfold len; lia|]. change (N.of_nat 8) with 8 in L0.
  rewrite app_length in Ht. assert (H1 : length t1 = 8%nat) by lia.
  destruct (readable_app _ _ _ _ R) as (R0 & R1). rewrite L0 in R1.
  destruct (verify_loop_ok M s 24 t t0 8 R0 (eq_sym L0)) as (r0 & Rn0 & E0); [change (N.to_nat 24) with 24%nat; lia|].
  destruct (verify_loop_ok M s 32 (t + 8) t1 8 R1 (eq_sym (len_eq t1 8 H1))) as (r1 & Rn1 & E1); [change (N.to_nat 32) with 32%nat; lia|].
  change (N.to_nat 24) with 24%nat in E0. change (N.to_nat 32) with 32%nat in E1. rewrite H0 in E0. rewrite H1 in E1.
  assert (E : skipn 24 s = cut 24 8 s ++ cut 32 8 s).
  { apply tail_cut, Hs. }
  unfold o8_verify. step; [exact Rn0|].
  step; [eapply runs_padd_readable; [exact R|rewrite len_app; lia]|].
  step; [exact Rn1|].
  rewrite verdict_ok by apply fits_b2n.
  match goal with |- runs (ret ?w) _ _ ?v => replace v with w; [apply runs_ret|] end.
  destruct (N.eqb_spec (b2n (bor (bor x00 r0) r1)) 0) as [Z|Z].
  - assert (Z' : bor (bor x00 r0) r1 = x00) by (rewrite <- (n2b_b2n (bor _ r1)), Z; reflexivity).
    apply bor_zero in Z'. destruct Z' as (Z0 & Z1). apply bor_zero in Z0. destruct Z0 as (_ & Z0).
    apply E0 in Z0. apply E1 in Z1. rewrite E, Z0, Z1. destruct (list_eq_dec _ _ _); [reflexivity|congruence].
  - destruct (list_eq_dec _ _ _) as [C|C]; [|reflexivity]. exfalso. apply Z.
    rewrite E in C. assert (C0 := f_equal (firstn 8) C). assert (C1 := f_equal (skipn 8) C).
    rewrite !firstn_app_exact in C0 by (try apply length_cut; lia).
    rewrite !skipn_app_exact in C1 by (try apply length_cut; lia).
    apply E0 in C0. apply E1 in C1. rewrite C0, C1. reflexivity.
Qed.

Theorem o8_encrypt_ok M c clen m ad nsec npub k kb nb adb mb :
  is16 kb -> is16 nb ->
  readable M k kb -> readable M npub nb -> readable M ad adb -> readable M m mb ->
  writable M c (len mb + 16) -> writable M clen 8 ->
  disjoint clen 8 k 16 -> disjoint clen 8 npub 16 -> disjoint clen 8 ad (len adb) ->
  disjoint clen 8 m (len mb) ->
  no_overtake c m (len mb) ->
  runs (o8_aead_encrypt LE P c clen m (len mb) ad (len adb) nsec npub k) M
    (write (write M clen (to_host LE 8 (len mb + 16))) c (aead_encrypt kb nb adb mb)) 0%Z.
Proof.
  intros Hk Hn Rk Rn Ra Rm Wc Wcl Dk Dn Da Dm Hno.
  pose proof (writable_bound _ _ _ Wc) as Hbw.
  set (M1 := write M clen (to_host LE 8 (len mb + 16))).
  assert (Lh : len (to_host LE 8 (len mb + 16)) = 8) by (unfold len at 1; rewrite length_to_host; reflexivity).
  assert (Lk : len kb = 16) by (apply (len_eq kb 16), Hk).
  assert (Ln : len nb = 16) by (apply (len_eq nb 16), Hn).
  assert (Rk1 : readable M1 k kb) by (apply readable_write_disjoint; [exact Rk|rewrite Lh, Lk; exact Dk]).
  assert (Rn1 : readable M1 npub nb) by (apply readable_write_disjoint; [exact Rn|rewrite Lh, Ln; exact Dn]).
  assert (Ra1 : readable M1 ad adb) by (apply readable_write_disjoint; [exact Ra|rewrite Lh; exact Da]).
  assert (Rm1 : readable M1 m mb) by (apply readable_write_disjoint; [exact Rm|rewrite Lh; exact Dm]).
  assert (Wc1 : writable M1 c (len mb + 16)) by (apply writable_write, Wc).
  pose proof (loadkey_ok M1 k kb Hk Rk1) as Rnk.
  pose proof (initaead_ok M1 npub kb nb Hk Hn Rn1) as Rn0.
  pose proof (adata_ok M1 _ ad adb (length_aead_init kb nb) Ra1) as W1.
  set (s1 := aead_ad (aead_init kb nb) adb) in *.
  assert (Ls1 : length s1 = 40%nat) by (apply length_aead_ad, length_aead_init).
  destruct (writable_split _ _ _ _ Wc1) as (Wm & Wt).
  destruct (encrypt_data_ok M1 s1 c m mb Ls1 Rm1 Wm Hno) as (s2 & cf & E2 & W2 & Hcf & Rn2).
  destruct (final_ok (write M1 c (firstn (length mb) cf)) s2 kb W2 Hk) as (s3 & Rn3 & W3 & E3).
  unfold o8_aead_encrypt.
  step; [apply runs_store_ull; exact Wcl|].
  unfold CRYPTO_ABYTES. rewrite add64_small by lia. fold M1.
  step; [eapply runs_padd_writable; [exact Wc1|lia]|].
  unfold o8_ascon_aead_encrypt.
  step; [exact Rnk|].
  step; [exact Rn0|].
  step; [exact W1|].
  step; [exact Rn2|].
  step; [exact Rn3|].
  step; [apply gettag_ok; [exact W3|apply writable_write, Wt]|].
  unfold aead_encrypt. fold s1. rewrite E2, write_app, E3.
  replace (len (firstn (length mb) cf)) with (len mb); [apply runs_ret|].
  unfold len. rewrite firstn_length. lia.
Qed.

End Opt8Aead.
