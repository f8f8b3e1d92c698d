(** * ComAead.v -- the optimised family's AEAD refines the specification: encryption. *)
From Coq Require Import Arith Bool NArith ZArith List Lia Init.Byte.
From Coq Require Import ZifyBool ZifyNat ZifyN.
From Verif Require Import Words WordFacts Spec SpecFacts CMem Contract CMemFacts ModelRef
  StateRep RefRound RefPrim RefAead RefAeadDec ModelCommon WordLaws ComPrim.
Import ListNotations.
Local Open Scope N_scope.

Lemma len_lt8 (l : bytes) : (length l < 8)%nat -> len l < 8.
Proof. unfold len. lia. Qed.
Lemma len_le8 (l : bytes) : (length l <= 8)%nat -> len l <= 8.
Proof. unfold len. lia. Qed.

Lemma firstn_wb8 x : firstn (N.to_nat 8) (wb x) = wb x.
Proof. apply firstn_all2. rewrite wb_len. lia. Qed.

Section ComAead.
Variables (e : endian) (o : wordops) (cn : N -> N).
Hypothesis L : word_laws cn e o.
Notation vs := (ComPrim.vs cn).
Notation word := (ComPrim.word_of e o).

Ltac step := eapply runs_bind.
Ltac ld R := step; [apply (runs_wLOAD e o); [exact R|lia]|].

(** ** States seen through the representation *)

Lemma vs_word s i l : i < 5 -> (length l <= 8)%nat ->
  vs (xorx s i (word l)) = xor_at (8 * N.to_nat i) (vs s) l.
Proof.
  intros Hi Hl. unfold ComPrim.vs. rewrite (cs_word e o cn L) by exact Hl.
  apply xs_load; auto using (wf_cs e o cn L).
Qed.

Lemma vs_block s b0 b1 : length b0 = 8%nat -> (length b1 <= 8)%nat ->
  vs (xorx (xorx s 0 (word b0)) 1 (word b1)) = xor_into (vs s) (b0 ++ b1).
Proof.
  intros H0 H1. unfold ComPrim.vs. rewrite !(cs_word e o cn L) by lia.
  apply (xs_block (cs cn s) b0 b1); auto using (wf_cs e o cn L).
Qed.

Lemma wf_blockw s b0 b1 : wf s -> (length b0 <= 8)%nat -> (length b1 <= 8)%nat ->
  wf (xorx (xorx s 0 (word b0)) 1 (word b1)).
Proof. intros. apply (wf_word e o cn L); auto. apply (wf_word e o cn L); auto. Qed.

Lemma vs_last0 s r s' : (length r < 8)%nat ->
  cs cn s' = xorx (cs cn (xorx s 0 (w_pad o (len r)))) 0 (le_num r) ->
  vs s' = xor_at (length r) (xor_into (vs s) r) [x01].
Proof.
  intros Hr E. unfold ComPrim.vs. rewrite E, (cs_pad e o cn L) by (apply len_lt8, Hr).
  rewrite xorx_comm. apply (xs_last0 (cs cn s) r); auto using (wf_cs e o cn L).
Qed.

Lemma vs_last1 s b0 b1 s' : length b0 = 8%nat -> (length b1 < 8)%nat ->
  cs cn s' = xorx (cs cn (xorx (xorx s 0 (word b0)) 1 (w_pad o (len b1)))) 1 (le_num b1) ->
  vs s' = xor_at (length (b0 ++ b1)) (xor_into (vs s) (b0 ++ b1)) [x01].
Proof.
  intros H0 H1 E. unfold ComPrim.vs. rewrite E, (cs_pad e o cn L) by (apply len_lt8, H1).
  rewrite (cs_word e o cn L) by lia.
  rewrite xorx_comm. apply (xs_last1 (cs cn s) b0 b1); auto using (wf_cs e o cn L).
Qed.

(** ** Key and initialisation *)

Lemma loadkey_ok M k k0 k1 : length k0 = 8%nat -> length k1 = 8%nat -> readable M k (k0 ++ k1) ->
  runs (ascon_loadkey e o k) M M (word k0, word k1).
Proof.
  intros H0 H1 R. assert (L0 : len k0 = 8) by (apply (len_eq k0 8 H0)).
  destruct (readable_app _ _ _ _ R) as (R0 & R1). rewrite L0 in R1.
  unfold ascon_loadkey. ld R0.
  step; [eapply runs_padd_readable; [exact R|rewrite len_app; lia]|].
  ld R1. apply runs_ret.
Qed.

Lemma initaead_ok M npub k0 k1 nb : length k0 = 8%nat -> length k1 = 8%nat -> is16 nb ->
  readable M npub nb ->
  exists s, runs (ascon_initaead e o (word k0, word k1) npub) M M s /\ wf s /\
    vs s = aead_init (k0 ++ k1) nb.
Proof.
  intros H0 H1 Hn Rn. unfold is16 in Hn.
  destruct (split_len 8 nb) as (n0 & n1 & -> & Hn0 & Ln0); [unfold len; lia|].
  rewrite app_length in Hn. assert (Hn1 : length n1 = 8%nat) by lia.
  destruct (readable_app _ _ _ _ Rn) as (Rn0 & Rn1). rewrite Ln0 in Rn1.
  set (s0 := St (c_aead o) (word k0) (word k1) (word n0) (word n1)).
  assert (W0 : wf s0).
  { unfold s0. split; [apply (l_aead _ _ _ L)|]. repeat split; apply (fits_word_of e o cn L); lia. }
  assert (W1 := wf_wP12 e o cn L s0 W0).
  assert (W2 : wf (xorx (w_P o 12 s0) 3 (word k0))) by (apply (wf_word e o cn L); [exact W1|lia]).
  eexists. split; [|split].
  - unfold ascon_initaead. cbn beta iota. ld Rn0.
    step; [eapply runs_padd_readable; [exact Rn|rewrite len_app, Ln0; lia]|].
    ld Rn1. cbn zeta. fold s0. apply runs_ret.
  - apply (wf_word e o cn L); [exact W2|lia].
  - rewrite !vs_word by lia. rewrite (vs_P12 e o cn L) by exact W0.
    unfold s0, ComPrim.vs, cs. cbn [X0 X1 X2 X3 X4].
    rewrite !(cn_word_of e o cn L) by lia.
    destruct (l_aead _ _ _ L) as [_ Ea].
    rewrite xs_St, Ea, !wb_le_num8 by lia.
    unfold aead_init. rewrite xor_at_app by (rewrite length_p; lia). rewrite H0.
    rewrite <- app_assoc. reflexivity.
Qed.

(** ** Associated data *)

Definition acond : state * ptr * N -> bool := fun '(_, _, adlen) => 16 <=? adlen.

Lemma ad_body_ok M s ad B l : wf s -> length B = 16%nat -> readable M ad (B ++ l) ->
  exists s', runs (ad_body e o (s, ad, len (B ++ l))) M M (s', ad + 16, len l) /\ wf s' /\
    vs s' = p 8 (xor_into (vs s) B).
Proof.
  intros Hs HB R. pose proof (readable_bound _ _ _ R) as Hbd.
  assert (Hlen : len (B ++ l) = 16 + len l) by (rewrite len_app, (len_eq B 16 HB); lia).
  destruct (split_len 8 B) as (b0 & b1 & -> & H0 & L0); [unfold len; lia|].
  rewrite app_length in HB. assert (H1 : length b1 = 8%nat) by lia.
  assert (R' := R). rewrite <- app_assoc in R'.
  destruct (readable_app _ _ _ _ R') as (R0 & R12). rewrite L0 in R12.
  destruct (readable_app _ _ _ _ R12) as (R1 & _).
  assert (W1 : wf (xorx (xorx s 0 (word b0)) 1 (word b1))) by (apply wf_blockw; auto; lia).
  eexists. split; [|split].
  - unfold ad_body. ld R0.
    step; [eapply runs_padd_readable; [exact R|lia]|].
    ld R1.
    step; [eapply runs_padd_readable; [exact R|lia]|].
    rewrite sub64_small by lia. rewrite Hlen. replace (16 + len l - 16) with (len l) by lia.
    apply runs_ret.
  - apply (wf_wP8 e o cn L), W1.
  - rewrite (vs_P8 e o cn L) by exact W1. rewrite vs_block by lia. reflexivity.
Qed.

Lemma ad_while f : forall M s ad l, wf s -> readable M ad l ->
  (N.to_nat (len l / 16) < f)%nat ->
  exists s' ad' r, runs (while f acond (ad_body e o) (s, ad, len l)) M M (s', ad', len r) /\
    wf s' /\ (length r < 16)%nat /\ readable M ad' r /\
    absorb 8 (vs s) (chunks 16 (pad 16 l)) = absorb 8 (vs s') (chunks 16 (pad 16 r)).
Proof.
  induction f as [|f IH]; intros M s ad l Hs R Hf; [lia|].
  destruct (N.leb_spec 16 (len l)) as [H|H].
  - destruct (split_len 16 l) as (B & l' & -> & HB & LB); [exact H|].
    destruct (ad_body_ok M s ad B l' Hs HB R) as (s1 & Rn & W1 & E1).
    destruct (readable_app _ _ _ _ R) as (_ & R').  rewrite LB in R'.
    destruct (IH M s1 (ad + 16) l' W1 R') as (s2 & ad2 & r & Rn2 & W2 & Hr & Rr & E2).
    { eapply (div16_step f B l'); [lia|exact LB|exact Hf]. }
    exists s2, ad2, r. split; [|split; [exact W2|split; [exact Hr|split; [exact Rr|]]]].
    + eapply runs_while_step; [|exact Rn|exact Rn2].
      unfold acond. lia.
    + rewrite chunks_pad_full by (auto; lia). rewrite absorb_cons, <- E1. exact E2.
  - exists s, ad, l. split; [|split; [exact Hs|split; [unfold len in H; lia|split; [exact R|reflexivity]]]].
    apply runs_while_end. unfold acond. lia.
Qed.

(** The partial load that ends absorption: [if (n) X[px] ^= LOADBYTES(p, n)]. *)
Lemma tail_ok M s px ad r : wf s -> readable M ad r -> (length r < 8)%nat ->
  exists s', runs (b <- branch (negb (len r =? 0)) ;;
      if b : bool then w <- wLOADBYTES e o ad (len r) ;; ret (xorx s px w) else ret s) M M s' /\
    wf s' /\ cs cn s' = xorx (cs cn s) px (le_num r).
Proof.
  intros Hs R Hr. destruct (N.eqb_spec (len r) 0) as [E|E].
  - exists s. split; [|split; [exact Hs|]].
    + step; [apply runs_branch|]. cbn [negb]. apply runs_ret.
    + apply len_0 in E. subst r. cbn [le_num]. symmetry. apply xorx_0.
  - exists (xorx s px (word r)). split; [|split].
    + step; [apply runs_branch|]. cbn [negb].
      step; [apply (runs_wLOADBYTES e o); [exact R|reflexivity|lia|eapply readable_nonnull; [exact R|exact E]]|].
      apply runs_ret.
    + apply (wf_word e o cn L); [exact Hs|lia].
    + apply (cs_word e o cn L). lia.
Qed.

Lemma runs_bind2 {A B D} (b : C bool) (f : bool -> C A) (g : A -> C B) (M M1 M2 : mem) (x : A) (y : B) (z : D) :
  runs (bind b f) M M1 x -> runs (g x) M1 M2 y -> runs (b' <- b ;; (s <- f b' ;; g s)) M M2 y.
Proof.
  intros (t1 & H1) (t2 & H2). unfold bind in H1. unfold bind, runs.
  destruct (b M) as [t M' b'|]; [|discriminate].
  destruct (f b' M') as [t3 M3 x'|]; [|discriminate].
  inversion H1; subst. rewrite H2. eexists. reflexivity.
Qed.

Lemma ad_last_ok M s1 ad1 r : wf s1 -> readable M ad1 r -> (length r < 16)%nat ->
  exists s2, runs (ad_last e o s1 ad1 (len r)) M M s2 /\ wf s2 /\
    vs s2 = xor_at (length r) (xor_into (vs s1) r) [x01].
Proof.
  intros W1 Rr Hr. pose proof (readable_bound _ _ _ Rr) as Hbr. unfold ad_last.
  destruct (N.leb_spec 8 (len r)) as [H8|H8].
  - destruct (split_len 8 r) as (b0 & b1 & -> & H0 & L0); [lia|]. change (N.of_nat 8) with 8 in L0.
    rewrite app_length in Hr. assert (H1 : (length b1 < 8)%nat) by lia.
    destruct (readable_app _ _ _ _ Rr) as (R0 & R1). rewrite L0 in R1.
    set (sp := xorx (xorx s1 0 (word b0)) 1 (w_pad o (len b1))).
    assert (Wsp : wf sp).
    { apply (wf_pad e o cn L); [apply (wf_word e o cn L); [exact W1|lia]|apply len_lt8, H1]. }
    destruct (tail_ok M sp 1 (ad1 + 8) b1 Wsp R1 H1) as (s3 & Rn3 & W3 & E3).
    exists s3. split; [|split; [exact W3|]].
    + step; [apply runs_branch|]. cbn beta iota.
      step.
      { ld R0. step; [eapply runs_padd_readable; [exact Rr|lia]|].
        rewrite sub64_small by lia.
        replace (len (b0 ++ b1) - 8) with (len b1) by (rewrite len_app; lia).
        apply runs_ret. }
      cbn beta iota.
      step; [apply runs_wPAD; apply len_lt8, H1|]. fold sp. exact Rn3.
    + apply (vs_last1 s1 b0 b1 s3); assumption.
  - assert (H1 : (length r < 8)%nat) by (unfold len in H8; lia).
    set (sp := xorx s1 0 (w_pad o (len r))).
    assert (Wsp : wf sp) by (apply (wf_pad e o cn L); [exact W1|exact H8]).
    destruct (tail_ok M sp 0 ad1 r Wsp Rr H1) as (s3 & Rn3 & W3 & E3).
    exists s3. split; [|split; [exact W3|]].
    + step; [apply runs_branch|]. cbn beta iota.
      step; [apply runs_ret|]. cbn beta iota.
      step; [apply runs_wPAD; exact H8|]. fold sp. exact Rn3.
    + apply (vs_last0 s1 r s3); assumption.
Qed.

Lemma adata_ok M s ad l : wf s -> readable M ad l ->
  exists s', runs (ascon_adata e o s ad (len l)) M M s' /\ wf s' /\ vs s' = aead_ad (vs s) l.
Proof.
  intros Hs R. pose proof (readable_bound _ _ _ R) as Hbd. unfold ascon_adata.
  destruct (N.eq_dec (len l) 0) as [E|E].
  - apply len_0 in E. subst l. eexists. split; [|split].
    + step; [apply runs_branch|]. rewrite len_nil. cbn [N.eqb negb].
      step; [apply runs_ret|]. apply runs_ret.
    + apply (wf_dsep e o cn L), Hs.
    + rewrite (vs_dsep e o cn L). reflexivity.
  - destruct (ad_while (fuel (len l) 16) M s ad l Hs R) as (s1 & ad1 & r & Rn & W1 & Hr & Rr & E1).
    { unfold fuel. lia. }
    destruct (ad_last_ok M s1 ad1 r W1 Rr Hr) as (s2 & Rn2 & W2 & E2).
    eexists. split; [|split].
    + step; [apply runs_branch|]. replace (len l =? 0) with false by lia. cbn [negb].
      step; [|apply runs_ret].
      step; [exact Rn|]. cbn beta iota. step; [exact Rn2|]. apply runs_ret.
    + apply (wf_dsep e o cn L), (wf_wP8 e o cn L), W2.
    + rewrite (vs_dsep e o cn L), (vs_P8 e o cn L) by exact W2.
      rewrite (absorb_last _ (vs s1) r 16) in E1 by (rewrite ?length_vs; lia).
      rewrite E2, <- E1. unfold aead_ad.
      destruct l; [rewrite len_nil in E; congruence|reflexivity].
Qed.

(** ** Plaintext *)

Definition econd : state * ptr * ptr * N -> bool := fun '(_, _, _, mlen) => 16 <=? mlen.

Lemma wb_cn0 s : wb (cn (X0 s)) = firstn 8 (vs s).
Proof. unfold ComPrim.vs. rewrite firstn_xs0 by lia. rewrite firstn_all2 by (rewrite wb_len; lia). reflexivity. Qed.

Lemma enc_body_ok M s m c B l : wf s -> length B = 16%nat -> readable M m (B ++ l) ->
  writable M c (len (B ++ l)) -> no_overtake c m (len (B ++ l)) ->
  exists s', runs (enc_body e o (s, m, c, len (B ++ l))) M
      (write M c (firstn 16 (xor_into (vs s) B))) (s', m + 16, c + 16, len l) /\ wf s' /\
    vs s' = p 8 (xor_into (vs s) B).
Proof.
  intros Hs HB R Wr Hno. pose proof (readable_bound _ _ _ R) as Hbd.
  assert (Hlen : len (B ++ l) = 16 + len l) by (rewrite len_app, (len_eq B 16 HB); lia).
  destruct (split_len 8 B) as (b0 & b1 & -> & H0 & L0); [unfold len; lia|]. change (N.of_nat 8) with 8 in L0.
  rewrite app_length in HB. assert (H1 : length b1 = 8%nat) by lia.
  assert (L1 : len b1 = 8) by (apply (len_eq b1 8 H1)).
  assert (R' := R). rewrite <- app_assoc in R'.
  destruct (readable_app _ _ _ _ R') as (R0 & R12).
  assert (D : disjoint c 8 (m + len b0) (len (b1 ++ l))).
  { apply no_overtake_disjoint; [rewrite <- app_assoc in Hno; exact Hno|lia]. }
  rewrite L0 in R12, D.
  rewrite Hlen in *. change (16 + len l) with (8 + 8 + len l) in Wr.
  destruct (writable_split _ _ _ _ Wr) as (W16 & _).
  destruct (writable_split _ _ _ _ W16) as (Wa & Wb).
  set (s1 := xorx s 0 (word b0)).
  set (s2 := xorx s1 1 (word b1)).
  assert (E2 : vs s2 = xor_into (vs s) (b0 ++ b1)) by (apply vs_block; lia).
  assert (W1 : wf s1) by (apply (wf_word e o cn L); [exact Hs|lia]).
  assert (W2 : wf s2) by (apply (wf_word e o cn L); [exact W1|lia]).
  assert (F1 : fits 64 (X0 s1)) by apply W1.
  assert (F2 : fits 64 (X1 s2)) by apply W2.
  assert (R1 : readable (write M c (wb (cn (X0 s1)))) (m + 8) b1).
  { eapply (readable_app _ _ b1 l). apply readable_write_disjoint; [exact R12|].
    rewrite len_wb. exact D. }
  exists (w_P o 8 s2). split; [|split].
  - unfold enc_body. ld R0. fold s1.
    step; [apply (runs_wSTORE e o cn L); [exact Wa|exact F1]|].
    step; [apply runs_padd; [lia|intros _; eapply readable_nonnull; [exact R|lia]]|].
    ld R1. cbn zeta. fold s2.
    step; [eapply runs_padd_writable; [exact (writable_write _ _ _ _ _ Wr)|lia]|].
    step; [apply (runs_wSTORE e o cn L); [apply writable_write; exact Wb|exact F2]|].
    step; [apply runs_padd; [lia|intros _; eapply readable_nonnull; [exact R|lia]]|].
    step; [eapply runs_padd_writable; [exact (writable_write _ _ _ _ _ (writable_write _ _ _ _ _ Wr))|lia]|].
    rewrite sub64_small by lia.
    replace (16 + len l - 16) with (len l) by lia.
    rewrite <- E2. unfold ComPrim.vs. rewrite firstn16_xs.
    replace (X0 (cs cn s2)) with (cn (X0 s1)) by reflexivity.
    replace (X1 (cs cn s2)) with (cn (X1 s2)) by reflexivity.
    rewrite write_app, len_wb. apply runs_ret.
  - apply (wf_wP8 e o cn L), W2.
  - rewrite (vs_P8 e o cn L) by exact W2. rewrite E2. reflexivity.
Qed.

Lemma enc_while f : forall M s m c l, wf s -> readable M m l -> writable M c (len l) ->
  no_overtake c m (len l) -> (N.to_nat (len l / 16) < f)%nat ->
  exists s' ct r, runs (while f econd (enc_body e o) (s, m, c, len l)) M (write M c ct)
      (s', m + len ct, c + len ct, len r) /\
    wf s' /\ (length r < 16)%nat /\ length l = (length ct + length r)%nat /\
    readable (write M c ct) (m + len ct) r /\ no_overtake (c + len ct) (m + len ct) (len r) /\
    enc_blocks (vs s) (chunks 16 (pad 16 l)) =
      (let '(S2, c2) := enc_blocks (vs s') (chunks 16 (pad 16 r)) in (S2, ct ++ c2)).
Proof.
  induction f as [|f IH]; intros M s m c l Hs R Wr Hno Hf; [lia|].
  destruct (N.leb_spec 16 (len l)) as [H|H].
  - destruct (split_len 16 l) as (B & l' & -> & HB & LB); [exact H|]. change (N.of_nat 16) with 16 in LB.
    destruct (enc_body_ok M s m c B l' Hs HB R Wr Hno) as (s1 & Rn & W1 & E1).
    set (cb := firstn 16 (xor_into (vs s) B)) in *.
    assert (Hcb : length cb = 16%nat) by (unfold cb; len; rewrite length_vs; lia).
    assert (Lcb : len cb = 16) by (apply (len_eq cb 16 Hcb)).
    destruct (readable_app _ _ _ _ R) as (_ & R').
    assert (R2 : readable (write M c cb) (m + 16) l').
    { rewrite LB in R'. apply readable_write_disjoint; [exact R'|]. rewrite <- LB.
      apply no_overtake_disjoint; [exact Hno|lia]. }
    rewrite len_app, LB in Wr. destruct (writable_split _ _ _ _ Wr) as (_ & Wr').
    destruct (IH (write M c cb) s1 (m + 16) (c + 16) l' W1 R2) as
      (s2 & ct & r & Rn2 & W2 & Hr & Hl & Rr & Hno2 & E2).
    { apply writable_write, Wr'. }
    { rewrite <- LB. apply no_overtake_step, Hno. }
    { eapply (div16_step f B l'); [lia|exact LB|exact Hf]. }
    assert (Ew : write (write M c cb) (c + 16) ct = write M c (cb ++ ct))
      by (rewrite write_app, Lcb; reflexivity).
    rewrite Ew in Rn2, Rr.
    replace (m + 16 + len ct) with (m + len (cb ++ ct)) in * by (rewrite len_app; lia).
    replace (c + 16 + len ct) with (c + len (cb ++ ct)) in * by (rewrite len_app; lia).
    exists s2, (cb ++ ct), r.
    split; [|split; [exact W2|split; [exact Hr|split; [|split; [exact Rr|split; [exact Hno2|]]]]]].
    + eapply runs_while_step; [|exact Rn|].
      { unfold econd. lia. }
      exact Rn2.
    + rewrite !app_length. lia.
    + rewrite chunks_pad_full by (auto; lia).
      rewrite enc_blocks_cons by (apply chunks_pad_not_nil; lia). cbn zeta. rewrite <- E1, E2.
      fold cb. destruct (enc_blocks (vs s2) _) as [S2 c2]. rewrite app_assoc. reflexivity.
  - exists s, [], l. rewrite len_nil, !N.add_0_r. cbn [write].
    split; [|split; [exact Hs|split; [unfold len in H; lia|split; [reflexivity|split; [exact R|split; [exact Hno|]]]]]].
    + apply runs_while_end. unfold econd. lia.
    + destruct (enc_blocks _ _); reflexivity.
Qed.

(** The last partial word: [if (n) { X[px] ^= LOADBYTES(m,n); STOREBYTES(c, X[px], n) }]. *)
Lemma etail_ok M s px m c r : wf s -> readable M m r -> writable M c (len r) -> (length r < 8)%nat ->
  exists s', runs (b <- branch (negb (len r =? 0)) ;;
      if b : bool then w <- wLOADBYTES e o m (len r) ;;
        let s := xorx s px w in wSTOREBYTES e o c (getx s px) (len r) ;;; ret s
      else ret s) M (write M c (firstn (length r) (wb (getx (cs cn s') px)))) s' /\
    wf s' /\ cs cn s' = xorx (cs cn s) px (le_num r).
Proof.
  intros Hs R W Hr. destruct (N.eqb_spec (len r) 0) as [E|E].
  - exists s. split; [|split; [exact Hs|]].
    + apply len_0 in E. subst r. cbn [length firstn write].
      step; [apply runs_branch|]. cbn [negb]. apply runs_ret.
    + apply len_0 in E. subst r. cbn [le_num]. symmetry. apply xorx_0.
  - assert (Ws : wf (xorx s px (word r))) by (apply (wf_word e o cn L); [exact Hs|lia]).
    exists (xorx s px (word r)). split; [|split].
    + step; [apply runs_branch|]. cbn [negb].
      step; [apply (runs_wLOADBYTES e o); [exact R|reflexivity|lia|eapply readable_nonnull; [exact R|exact E]]|].
      step; [|apply runs_ret].
      rewrite <- cn_getx. rewrite <- to_nat_len.
      apply (runs_wSTOREBYTES e o cn L); [exact W|apply len_le8; lia|apply W, E|apply fits_getx, Ws].
    + exact Ws.
    + apply (cs_word e o cn L). lia.
Qed.

Lemma enc_last_ok M1 s1 m1 c1 r : wf s1 -> readable M1 m1 r -> writable M1 c1 (len r) ->
  no_overtake c1 m1 (len r) -> (length r < 16)%nat ->
  exists s2, wf s2 /\ vs s2 = xor_at (length r) (xor_into (vs s1) r) [x01] /\
    runs (enc_last e o s1 m1 c1 (len r)) M1
      (write M1 c1 (firstn (length r) (xor_at (length r) (xor_into (vs s1) r) [x01]))) s2.
Proof.
  intros W1 Rr Wr' Hno2 Hr. unfold enc_last.
  set (S2 := xor_at (length r) (xor_into (vs s1) r) [x01]) in *.
  pose proof (readable_bound _ _ _ Rr) as Hbr. pose proof (writable_bound _ _ _ Wr') as Hbr'.
  destruct (N.leb_spec 8 (len r)) as [H8|H8].
  - destruct (split_len 8 r) as (b0 & b1 & -> & H0 & L0); [lia|]. change (N.of_nat 8) with 8 in L0.
    rewrite app_length in Hr. assert (H1 : (length b1 < 8)%nat) by lia.
    destruct (readable_app _ _ _ _ Rr) as (R0 & R1). 
  pose proof (no_overtake_disjoint _ _ _ _ 8 Hno2 ltac:(lia)) as D.
    rewrite L0 in R1, D.
    assert (Wc := Wr').
    rewrite len_app, L0 in Wr'. destruct (writable_split _ _ _ _ Wr') as (Wa & Wb).
    set (s0 := xorx s1 0 (word b0)).
    assert (W0 : wf s0) by (apply (wf_word e o cn L); [exact W1|lia]).
    assert (F0 : fits 64 (X0 s0)) by apply W0.
    set (sp := xorx s0 1 (w_pad o (len b1))).
    assert (Wsp : wf sp) by (apply (wf_pad e o cn L); [exact W0|apply len_lt8, H1]).
    destruct (etail_ok (write M1 c1 (wb (cn (X0 s0)))) sp 1 (m1 + 8) (c1 + 8) b1 Wsp) as (s3 & Rn3 & W3 & E3).
    { apply readable_write_disjoint; [exact R1|rewrite len_wb; exact D]. }
    { apply writable_write, Wb. }
    { exact H1. }
    assert (V3 : vs s3 = S2) by (apply vs_last1; assumption).
    exists s3. split; [exact W3|split; [exact V3|]].
    step; [apply runs_branch|]. cbn beta iota.
    step.
    { ld R0. fold s0.
      step; [apply (runs_wSTORE e o cn L); [exact Wa|exact F0]|].
      step; [apply runs_padd; [lia|intros _; eapply readable_nonnull; [exact Rr|lia]]|].
      step; [eapply runs_padd_writable; [apply writable_write; exact Wc|lia]|].
      rewrite sub64_small by lia.
      replace (len (b0 ++ b1) - 8) with (len b1) by (rewrite len_app; lia).
      apply runs_ret. }
    cbn beta iota.
    step; [apply runs_wPAD; apply len_lt8, H1|]. cbn zeta. fold sp.
    rewrite <- V3, app_length, H0. unfold ComPrim.vs. rewrite firstn_xs1 by lia.
    replace (X0 (cs cn s3)) with (cn (X0 s0)) by (rewrite E3; reflexivity).
    rewrite write_app, len_wb. exact Rn3.
  - assert (H1 : (length r < 8)%nat) by (unfold len in H8; lia).
    set (sp := xorx s1 0 (w_pad o (len r))).
    assert (Wsp : wf sp) by (apply (wf_pad e o cn L); [exact W1|exact H8]).
    destruct (etail_ok M1 sp 0 m1 c1 r Wsp Rr Wr' H1) as (s3 & Rn3 & W3 & E3).
    assert (V3 : vs s3 = S2) by (apply vs_last0; assumption).
    exists s3. split; [exact W3|split; [exact V3|]].
    step; [apply runs_branch|]. cbn beta iota.
    step; [apply runs_ret|]. cbn beta iota.
    step; [apply runs_wPAD; exact H8|]. cbn zeta. fold sp.
    rewrite <- V3. unfold ComPrim.vs. rewrite firstn_xs0 by lia. exact Rn3.
Qed.

Lemma encrypt_data_ok M s c m l : wf s -> readable M m l -> writable M c (len l) ->
  no_overtake c m (len l) ->
  exists s' cf, enc_blocks (vs s) (chunks 16 (pad 16 l)) = (vs s', cf) /\ wf s' /\
    (length l <= length cf)%nat /\
    runs (ascon_encrypt e o s c m (len l)) M (write M c (firstn (length l) cf)) s'.
Proof.
  intros Hs R Wr Hno. pose proof (readable_bound _ _ _ R) as Hbd.
  pose proof (writable_bound _ _ _ Wr) as Hbw.
  destruct (enc_while (fuel (len l) 16) M s m c l Hs R Wr Hno) as
    (s1 & ct & r & Rn & W1 & Hr & Hl & Rr & Hno2 & E1); [unfold fuel; lia|].
  assert (Ll : len l = len ct + len r) by (unfold len; lia).
  rewrite (enc_blocks_last _ r) in E1 by (rewrite ?length_vs; lia).
  assert (Wr' : writable (write M c ct) (c + len ct) (len r)).
  { rewrite Ll in Wr. apply writable_split in Wr. apply writable_write, Wr. }
  assert (Hnull : len l <> 0 -> m <> 0 /\ c <> 0).
  { intros Hz. split; [eapply readable_nonnull; eauto|]. destruct Wr as (_ & Hn & _). apply Hn, Hz. }
  set (S2 := xor_at (length r) (xor_into (vs s1) r) [x01]) in *.
  assert (HS2 : length S2 = 40%nat).
  { unfold S2. rewrite length_xor_at; rewrite length_xor_into, length_vs; lia. }
  assert (Hct : firstn (length l) (ct ++ firstn 16 S2) = ct ++ firstn (length r) S2).
  { rewrite Hl, firstn_app, firstn_all2 by lia. f_equal.
    replace (length ct + length r - length ct)%nat with (length r) by lia.
    rewrite firstn_firstn. replace (Nat.min (length r) 16) with (length r) by lia. reflexivity. }
  set (M1 := write M c ct) in *. set (m1 := m + len ct) in *. set (c1 := c + len ct) in *.
  destruct (enc_last_ok M1 s1 m1 c1 r W1 Rr Wr' Hno2 Hr) as (s2 & W2 & E2 & Rn2).
  exists s2, (ct ++ firstn 16 S2). split; [|split; [exact W2|split]].
  - rewrite E2. exact E1.
  - rewrite app_length, firstn_length. lia.
  - rewrite Hct, write_app. unfold ascon_encrypt.
    step; [exact Rn|]. cbn beta iota. exact Rn2.
Qed.

(** ** Finalisation *)

Lemma final_ok s k0 k1 : wf s -> length k0 = 8%nat -> length k1 = 8%nat ->
  wf (ascon_final o s (word k0, word k1)) /\
  wb (cn (X3 (ascon_final o s (word k0, word k1)))) ++ wb (cn (X4 (ascon_final o s (word k0, word k1)))) =
  aead_tag (k0 ++ k1) (vs s).
Proof.
  intros Hs H0 H1. unfold ascon_final. cbn beta iota.
  set (s1 := xorx (xorx s 2 (word k0)) 3 (word k1)).
  assert (W1 : wf s1) by (repeat (apply (wf_word e o cn L); [|lia]); exact Hs).
  set (s2 := xorx (xorx (w_P o 12 s1) 3 (word k0)) 4 (word k1)).
  assert (W2 : wf s2) by (repeat (apply (wf_word e o cn L); [|lia]); apply (wf_wP12 e o cn L), W1).
  split; [exact W2|].
  change (wb (X3 (cs cn s2)) ++ wb (X4 (cs cn s2)) = aead_tag (k0 ++ k1) (vs s)).
  rewrite <- (skipn24_SB wb wb_len). change (SB wb (cs cn s2)) with (vs s2).
  unfold s2. rewrite !vs_word by lia. rewrite (vs_P12 e o cn L) by exact W1.
  unfold s1. rewrite !vs_word by lia.
  unfold aead_tag.
  change (8 * N.to_nat 4)%nat with (24 + 8)%nat. change (8 * N.to_nat 3)%nat with 24%nat.
  rewrite (xor_at_app 16) by (rewrite length_vs, app_length || rewrite length_vs; lia). rewrite H0.
  set (S := p 12 _).
  assert (HS : length S = 40%nat) by apply length_p.
  rewrite <- H0, <- xor_at_app by lia. unfold xor_at.
  rewrite skipn_app_exact by (rewrite firstn_length; lia). reflexivity.
Qed.

Theorem com_encrypt_ok M c clen m ad nsec npub k kb nb adb mb :
  is16 kb -> is16 nb ->
  readable M k kb -> readable M npub nb -> readable M ad adb -> readable M m mb ->
  writable M c (len mb + 16) -> writable M clen 8 ->
  disjoint clen 8 k 16 -> disjoint clen 8 npub 16 -> disjoint clen 8 ad (len adb) ->
  disjoint clen 8 m (len mb) ->
  no_overtake c m (len mb) ->
  runs (com_aead_encrypt e o c clen m (len mb) ad (len adb) nsec npub k) M
    (write (write M clen (to_host e 8 (len mb + 16))) c (aead_encrypt kb nb adb mb)) 0%Z.
Proof.
  intros Hk Hn Rk Rn Ra Rm Wc Wcl Dk Dn Da Dm Hno.
  pose proof (writable_bound _ _ _ Wc) as Hbw.
  set (M1 := write M clen (to_host e 8 (len mb + 16))).
  assert (Lh : len (to_host e 8 (len mb + 16)) = 8) by (unfold len at 1; rewrite length_to_host; reflexivity).
  assert (Lk : len kb = 16) by (apply (len_eq kb 16), Hk).
  assert (Ln : len nb = 16) by (apply (len_eq nb 16), Hn).
  assert (Rk1 : readable M1 k kb) by (apply readable_write_disjoint; [exact Rk|rewrite Lh, Lk; exact Dk]).
  assert (Rn1 : readable M1 npub nb) by (apply readable_write_disjoint; [exact Rn|rewrite Lh, Ln; exact Dn]).
  assert (Ra1 : readable M1 ad adb) by (apply readable_write_disjoint; [exact Ra|rewrite Lh; exact Da]).
  assert (Rm1 : readable M1 m mb) by (apply readable_write_disjoint; [exact Rm|rewrite Lh; exact Dm]).
  assert (Wc1 : writable M1 c (len mb + 16)) by (apply writable_write, Wc).
  unfold is16 in Hk.
  destruct (split_len 8 kb) as (k0 & k1 & -> & H0 & L0); [lia|].
  rewrite app_length in Hk. assert (H1 : length k1 = 8%nat) by lia.
  pose proof (loadkey_ok M1 k k0 k1 H0 H1 Rk1) as Rnk.
  destruct (initaead_ok M1 npub k0 k1 nb H0 H1 Hn Rn1) as (s0 & Rn0 & W0 & E0).
  destruct (adata_ok M1 s0 ad adb W0 Ra1) as (s1 & W1 & Ws1 & E1).
  destruct (writable_split _ _ _ _ Wc1) as (Wm & Wt).
  destruct (encrypt_data_ok M1 s1 c m mb Ws1 Rm1 Wm Hno) as (s2 & cf & E2 & W2 & Hcf & Rn2).
  destruct (final_ok s2 k0 k1 W2 H0 H1) as (W3 & E3).
  set (s3 := ascon_final o s2 (word k0, word k1)) in *.
  assert (F3 : fits 64 (X3 s3)) by apply W3. assert (F4 : fits 64 (X4 s3)) by apply W3.
  unfold com_aead_encrypt.
  step; [apply runs_store_ull; exact Wcl|].
  unfold CRYPTO_ABYTES. rewrite add64_small by lia. fold M1.
  step; [eapply runs_padd_writable; [exact Wc1|lia]|].
  unfold ascon_aead_encrypt.
  step; [exact Rnk|].
  step; [exact Rn0|].
  step; [exact W1|].
  step; [exact Rn2|]. cbn zeta. fold s3.
  destruct (writable_split _ _ 8 8 Wt) as (Wt1 & Wt2).
  assert (Nt : c + len mb <> 0) by (apply Wt; discriminate).
  assert (Nt2 : c + len mb + 8 <> 0) by lia.
  unfold ascon_gettag.
  step; [|apply runs_ret].
  step; [apply (runs_wSTOREBYTES e o cn L); [apply writable_write, Wt1|reflexivity || lia|exact Nt|exact F3]|].
  step; [eapply runs_padd_writable; [apply writable_write, writable_write, Wt|lia]|].
  replace (write M1 c (aead_encrypt (k0 ++ k1) nb adb mb)) with
    (write (write (write M1 c (firstn (length mb) cf)) (c + len mb) (firstn (N.to_nat 8) (wb (cn (X3 s3)))))
       (c + len mb + 8) (firstn (N.to_nat 8) (wb (cn (X4 s3))))).
  { apply (runs_wSTOREBYTES e o cn L); [apply writable_write, writable_write, Wt2|lia|exact Nt2|exact F4]. }
  unfold aead_encrypt. rewrite <- E0, <- E1, E2, <- E3.
  rewrite !firstn_wb8.
  rewrite !write_app, len_wb.
  replace (len (firstn (length mb) cf)) with (len mb); [reflexivity|].
  unfold len. rewrite firstn_length. lia.
Qed.
End ComAead.
