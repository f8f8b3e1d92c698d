(** * MaskAead.v -- the masked AEAD: initialisation, associated data and
    encryption refine the specification. *)
From Coq Require Import Arith Bool NArith ZArith List Lia Btauto Init.Byte.
From Coq Require Import ZifyBool ZifyNat ZifyN.
From Verif Require Import Words WordFacts Spec SpecFacts RoundFacts ModelRef StateRep RefRound RefPrim RefAead RefAeadDec ModelCommon
  ComPrim ModelWords WordLaws BitExp WordInst WordInstBi ModelMask MaskVal MaskRound MaskPerm MaskArr MaskShares MaskState
  CMem Contract CMemFacts.
Import ListNotations.
Local Open Scope N_scope.

(** config.h / api.h: the numbers of shares the code supports *)
Definition okcfg (F : cfg) : Prop :=
  (1 <= nC F <= nM F)%nat /\ (1 <= nAD F <= nM F)%nat /\ (1 <= nM F <= nKEY F)%nat /\ (1 <= nNPUB F <= nKEY F)%nat /\ (nKEY F <= 4)%nat.

Lemma aval_len a ns o x : okn ns -> aval a ns o x -> o + 2 * N.of_nat ns <= alen a.
Proof.
  intros Hn (f & _ & Hf). destruct Hn as [Hn _]. destruct (Hf (ns - 1)%nat ltac:(lia)) as (_ & _ & [H _]).
  assert (N.to_nat (o + N.of_nat (ns - 1) + N.of_nat ns) < length (a_cells a))%nat
    by (apply nth_error_Some; rewrite H; congruence).
  unfold alen. lia.
Qed.
(** two words *)
Lemma abytes_two a ns b0 b1 r o : length b0 = 8%nat -> length b1 = 8%nat -> abytes a ns o ((b0 ++ b1) ++ r) ->
  aval a ns o (le_num b0) /\ aval a ns (o + 2 * N.of_nat ns) (le_num b1) /\ abytes a ns (o + 4 * N.of_nat ns) r.
Proof.
  intros H0 H1 H. rewrite <- app_assoc in H. destruct (abytes_cons a ns o b0 (b1 ++ r) H0 H) as [A H'].
  destruct (abytes_cons a ns _ b1 r H1 H') as [B H'']. split; [exact A|]. split; [exact B|].
  replace (o + 4 * N.of_nat ns) with (o + 2 * N.of_nat ns + 2 * N.of_nat ns) by lia. exact H''.
Qed.
Lemma abytes_16 a ns b0 b1 o : length b0 = 8%nat -> length b1 = 8%nat -> abytes a ns o (b0 ++ b1) ->
  aval a ns o (le_num b0) /\ aval a ns (o + 2 * N.of_nat ns) (le_num b1).
Proof.
  intros H0 H1 H. rewrite <- (app_nil_r (b0 ++ b1)) in H. destruct (abytes_two a ns b0 b1 [] o H0 H1 H) as (A & B & _). auto.
Qed.

(** [xorx] on the first two words *)
Lemma xor0_0 v : xor0 v 0 = v. Proof. destruct v. unfold xor0. cbn. rewrite N.lxor_0_r. reflexivity. Qed.
Lemma xor1_0 v : xor1 v 0 = v. Proof. destruct v. unfold xor1. cbn. rewrite N.lxor_0_r. reflexivity. Qed.
Lemma xor0_comm v x y : xor0 (xor0 v x) y = xor0 (xor0 v y) x.
Proof. unfold xor0. cbn [X0 X1 X2 X3 X4]. rewrite !N.lxor_assoc, (N.lxor_comm x y). reflexivity. Qed.
Lemma xor1_comm v x y : xor1 (xor1 v x) y = xor1 (xor1 v y) x.
Proof. unfold xor1. cbn [X0 X1 X2 X3 X4]. rewrite !N.lxor_assoc, (N.lxor_comm x y). reflexivity. Qed.

Section Aead.
Variable F : cfg.
Variable R : N -> N.
Hypothesis HF : okcfg F.

Lemma okKEY : okn (nKEY F). Proof. destruct HF as (? & ? & ? & ? & ?). unfold okn. lia. Qed.
Lemma okM : okn (nM F). Proof. destruct HF as (? & ? & ? & ? & ?). unfold okn. lia. Qed.
Lemma okC : okn (nC F). Proof. destruct HF as (? & ? & ? & ? & ?). unfold okn. lia. Qed.
Lemma okAD : okn (nAD F). Proof. destruct HF as (? & ? & ? & ? & ?). unfold okn. lia. Qed.
Lemma okNP : okn (nNPUB F). Proof. destruct HF as (? & ? & ? & ? & ?). unfold okn. lia. Qed.
Lemma leNP : (1 <= nNPUB F <= nKEY F)%nat. Proof. apply HF. Qed.
Lemma leCM : (1 <= nC F <= nM F)%nat. Proof. apply HF. Qed.
Lemma leAM : (1 <= nAD F <= nM F)%nat. Proof. apply HF. Qed.
Lemma leMK : (1 <= nM F <= nKEY F)%nat. Proof. apply HF. Qed.
Lemma leAK : (1 <= nAD F <= nKEY F)%nat. Proof. pose proof leAM. pose proof leMK. lia. Qed.
Lemma leCK : (1 <= nC F <= nKEY F)%nat. Proof. pose proof leCM. pose proof leMK. lia. Qed.
Lemma le1K : (1 <= 1 <= nKEY F)%nat. Proof. pose proof okKEY as H. unfold okn in H. lia. Qed.
Lemma self n : okn n -> (1 <= n <= n)%nat. Proof. unfold okn. lia. Qed.

(** ** Initialisation *)

Lemma iv_const : cn32 (ofw LE (trunc 32 ModelMask.ASCON_128A_IV) (shrw ModelMask.ASCON_128A_IV 32)) = ModelRef.ASCON_128A_IV.
Proof. vm_compute. reflexivity. Qed.

Lemma m_init_ok M g ka na kb nb : is16 kb -> is16 nb -> abytes ka (nKEY F) 0 kb -> abytes na (nNPUB F) 0 nb ->
  exists s g' v, runs (m_initaead F R g ka na) M M (s, g') /\ ms (nKEY F) s v /\ xs v = aead_init kb nb.
Proof.
  intros Hk Hn Ak An. unfold is16 in *.
  destruct (split_len 8 kb) as (k0 & k1 & -> & K0 & LK0); [unfold len; lia|].
  destruct (split_len 8 nb) as (n0 & n1 & -> & N0 & LN0); [unfold len; lia|].
  rewrite app_length in Hk, Hn. assert (K1 : length k1 = 8%nat) by lia. assert (N1 : length n1 = 8%nat) by lia.
  destruct (abytes_16 _ _ _ _ _ K0 K1 Ak) as [Ak0 Ak1]. destruct (abytes_16 _ _ _ _ _ N0 N1 An) as [An0 An1].
  rewrite N.add_0_l in Ak1, An1.
  destruct (runs_MLOAD M ka _ _ _ okKEY Ak0) as (wk0 & Rk0 & Ok0 & _ & Vk0).
  destruct (runs_MLOAD M ka _ _ _ okKEY Ak1) as (wk1 & Rk1 & Ok1 & _ & Vk1).
  destruct (runs_MLOAD M na _ _ _ okNP An0) as (wn0 & Rn0 & On0 & Hn0 & Vn0).
  destruct (runs_MLOAD M na _ _ _ okNP An1) as (wn1 & Rn1 & On1 & Hn1 & Vn1).
  pose proof (aval_len _ _ _ _ okKEY Ak1). pose proof (aval_len _ _ _ _ okNP An1).
  (* the permutation and the second key xor *)
  assert (Fin : forall x0 x3 x4 x5, okw x0 -> okw x3 -> okw x4 -> okw x5 ->
    val (nKEY F) x0 = ModelRef.ASCON_128A_IV -> val (nKEY F) x3 = le_num n0 -> val (nKEY F) x4 = le_num n1 ->
    (forall i, (i < 2)%nat -> D (nKEY F) x5 i = 0) ->
    let s := MP (MS x0 wk0 wk1 x3 x4 x5) 12 (nKEY F) in
    let s := setw s 3 (MXOR (getw s 3) wk0 (nKEY F)) in
    let s := setw s 4 (MXOR (getw s 4) wk1 (nKEY F)) in
    exists v, ms (nKEY F) s v /\ xs v = aead_init (k0 ++ k1) (n0 ++ n1)).
  { intros x0 x3 x4 x5 O0 O3 O4 O5 V0 V3 V4 Z5 s1 s2 s3.
    set (v0 := St ModelRef.ASCON_128A_IV (le_num k0) (le_num k1) (le_num n0) (le_num n1)).
    assert (G0 : ms (nKEY F) (MS x0 wk0 wk1 x3 x4 x5) v0).
    { split; [apply okm_MS; assumption|]. split; [split; apply Z5; lia|]. rewrite V_val. cbn [y0 y1 y2 y3 y4].
      rewrite V0, Vk0, Vk1, V3, V4. reflexivity. }
    assert (W0 : wf v0) by (eapply ms_wf, G0).
    pose proof (ms_P12 _ _ _ okKEY G0) as G1. fold s1 in G1.
    pose proof (ms_xor _ _ _ _ 3 _ _ okKEY (self _ okKEY) G1 ltac:(lia) Ok0 Vk0) as G2. fold s2 in G2.
    pose proof (ms_xor _ _ _ _ 4 _ _ okKEY (self _ okKEY) G2 ltac:(lia) Ok1 Vk1) as G3. fold s3 in G3.
    eexists. split; [exact G3|].
    change (N.of_nat 3) with 3. change (N.of_nat 4) with 4.
    rewrite !xs_load; try lia; [|apply wf_P12, W0|apply (wf_xorx _ 3); [apply wf_P12, W0|apply fits_le_num8; lia]].
    rewrite xs_P12 by exact W0. unfold v0. rewrite xs_St, ASCON_128A_IV_ok, !wb_le_num8 by lia.
    unfold aead_init. rewrite xor_at_app by (rewrite length_p; lia). rewrite K0.
    rewrite <- app_assoc. reflexivity. }
  unfold m_initaead.
  destruct (MZERO R g (nKEY F)) as [x5 g1] eqn:E5. destruct (MZERO R g1 (nKEY F)) as [x0 g2] eqn:E0.
  assert (O5 : okw x5) by (replace x5 with (fst (MZERO R g (nKEY F))) by (rewrite E5; reflexivity); apply okw_MZERO).
  assert (O0 : okw x0) by (replace x0 with (fst (MZERO R g1 (nKEY F))) by (rewrite E0; reflexivity); apply okw_MZERO).
  assert (Z5 : forall i, (i < 2)%nat -> D (nKEY F) x5 i = 0).
  { intros i Hi. replace x5 with (fst (MZERO R g (nKEY F))) by (rewrite E5; reflexivity). apply D_MZERO; [apply okKEY|exact Hi]. }
  assert (Z0 : val (nKEY F) x0 = 0).
  { replace x0 with (fst (MZERO R g1 (nKEY F))) by (rewrite E0; reflexivity). apply val_MZERO, okKEY. }
  set (x0' := wxor (wxor x0 0 0 _) 0 1 _).
  assert (O0' : okw x0') by (apply okw_wxor; [apply okw_wxor; [exact O0|reflexivity]|reflexivity]).
  assert (V0 : val (nKEY F) x0' = ModelRef.ASCON_128A_IV).
  { unfold x0'. rewrite val_wxor0 by (try apply okKEY; reflexivity). rewrite Z0, N.lxor_0_l. apply iv_const. }
  assert (X34 : exists x3 x4 g3, (if (nKEY F =? nNPUB F)%nat then (wn0, wn1, g2)
    else
      let '(z0, g) := MZERO R g2 (nKEY F) in
      let '(z1, g) := MZERO R g (nKEY F) in
      (MXOR wn0 z0 (nKEY F), MXOR wn1 z1 (nKEY F), g)) = (x3, x4, g3) /\ okw x3 /\ okw x4 /\
      val (nKEY F) x3 = le_num n0 /\ val (nKEY F) x4 = le_num n1).
  { destruct (Nat.eqb_spec (nKEY F) (nNPUB F)) as [E|E].
    - exists wn0, wn1, g2. rewrite E, Vn0, Vn1. auto.
    - destruct (MZERO R g2 (nKEY F)) as [z0 g3] eqn:F0. destruct (MZERO R g3 (nKEY F)) as [z1 g4] eqn:F1.
      assert (Oz0 : okw z0 /\ val (nKEY F) z0 = 0).
      { replace z0 with (fst (MZERO R g2 (nKEY F))) by (rewrite F0; reflexivity). split; [apply okw_MZERO|apply val_MZERO, okKEY]. }
      assert (Oz1 : okw z1 /\ val (nKEY F) z1 = 0).
      { replace z1 with (fst (MZERO R g3 (nKEY F))) by (rewrite F1; reflexivity). split; [apply okw_MZERO|apply val_MZERO, okKEY]. }
      do 3 eexists. split; [reflexivity|]. split; [apply okw_MXOR; tauto|]. split; [apply okw_MXOR; tauto|].
      rewrite !val_MXOR by (try apply okKEY; apply self, okKEY).
      destruct Oz0 as [_ ->]. destruct Oz1 as [_ ->]. rewrite !N.lxor_0_r.
      rewrite !(val_high0 (nKEY F) (nNPUB F)) by (auto using okKEY, leNP). auto. }
  destruct X34 as (x3 & x4 & g3 & E34 & O3 & O4 & V3 & V4).
  destruct (Fin x0' x3 x4 x5 O0' O3 O4 O5 V0 V3 V4 Z5) as (v & Hv & Ev).
  eexists _, _, v. split; [|split; [exact Hv|exact Ev]].
  step; [exact Rn0|]. step; [apply runs_aoff; lia|]. rewrite N.add_0_l. step; [exact Rn1|]. rewrite E34.
  step; [exact Rk0|]. step; [apply runs_aoff; lia|]. rewrite N.add_0_l. step; [exact Rk1|]. apply runs_ret.
Qed.

(** ** Associated data *)

Lemma m_ad_body_ok M ad s v o B l : ms (nAD F) s v -> length B = 16%nat -> abytes ad (nAD F) o (B ++ l) -> len (B ++ l) < 2 ^ 60 ->
  exists s' v', runs (m_ad_body F ad (s, o, len (B ++ l))) M M (s', o + 4 * N.of_nat (nAD F), len l) /\
    ms (nAD F) s' v' /\ xs v' = p 8 (xor_into (xs v) B).
Proof.
  intros Hs HB A Hl. pose proof (ms_wf _ _ _ Hs) as Wv.
  assert (Hlen : len (B ++ l) = 16 + len l) by (rewrite len_app, (len_eq B 16 HB); lia).
  destruct (split_len 8 B) as (b0 & b1 & -> & H0 & L0); [unfold len; lia|].
  rewrite app_length in HB. assert (H1 : length b1 = 8%nat) by lia.
  destruct (abytes_two _ _ _ _ _ _ H0 H1 A) as (A0 & A1 & A').
  destruct (runs_MLOAD M ad _ _ _ okAD A0) as (w0 & R0 & O0 & _ & V0).
  destruct (runs_MLOAD M ad _ _ _ okAD A1) as (w1 & R1 & O1 & _ & V1).
  pose proof (aval_len _ _ _ _ okAD A1).
  pose proof (ms_xor _ _ _ _ 0 _ _ okAD (self _ okAD) Hs ltac:(lia) O0 V0) as S1.
  pose proof (ms_xor _ _ _ _ 1 _ _ okAD (self _ okAD) S1 ltac:(lia) O1 V1) as S2.
  pose proof (ms_P8 _ _ _ okAD S2) as S3.
  eexists _, _. split; [|split; [exact S3|]].
  - unfold m_ad_body. step; [exact R0|]. cbv zeta. step; [apply runs_aoff; lia|]. step; [exact R1|].
    step; [apply runs_aoff; lia|]. rewrite sub64_small by lia. rewrite Hlen. replace (16 + len l - 16) with (len l) by lia.
    apply runs_ret.
  - rewrite xs_P8 by (eapply ms_wf, S2). f_equal. apply xs_block; auto; lia.
Qed.

Lemma m_ad_while M ad f : forall s v o l, ms (nAD F) s v -> abytes ad (nAD F) o l -> len l < 2 ^ 60 -> (N.to_nat (len l / 16) < f)%nat ->
  exists s' v' o' r, runs (while f (fun '(_, _, n) => 16 <=? n) (m_ad_body F ad) (s, o, len l)) M M (s', o', len r) /\
    ms (nAD F) s' v' /\ (length r < 16)%nat /\ abytes ad (nAD F) o' r /\
    absorb 8 (xs v) (chunks 16 (pad 16 l)) = absorb 8 (xs v') (chunks 16 (pad 16 r)).
Proof.
  induction f as [|f IH]; intros s v o l Hs A Hl Hf; [lia|].
  destruct (N.leb_spec 16 (len l)) as [H|H].
  - destruct (split_len 16 l) as (B & l' & -> & HB & LB); [exact H|]. change (N.of_nat 16) with 16 in LB.
    destruct (m_ad_body_ok M ad s v o B l' Hs HB A Hl) as (s1 & v1 & R1 & S1 & E1).
    assert (A' : abytes ad (nAD F) (o + 4 * N.of_nat (nAD F)) l').
    { destruct (split_len 8 B) as (b0 & b1 & -> & H0 & L0); [unfold len; lia|].
      rewrite app_length in HB. eapply abytes_two; [exact H0| |exact A]. lia. }
    rewrite len_app in Hl.
    destruct (IH s1 v1 (o + 4 * N.of_nat (nAD F)) l' S1 A') as (s2 & v2 & o2 & r & R2 & S2 & Hr & Ar & E2); [lia| |].
    { eapply (div16_step f B l'); [lia|exact LB|exact Hf]. }
    exists s2, v2, o2, r. split; [|split; [exact S2|split; [exact Hr|split; [exact Ar|]]]].
    + eapply runs_while_step; [|exact R1|exact R2]. rewrite len_app. lia.
    + rewrite chunks_pad_full by (auto; lia). rewrite absorb_cons, <- E1. exact E2.
  - exists s, v, o, l. split; [|split; [exact Hs|split; [unfold len in H; lia|split; [exact A|reflexivity]]]].
    apply runs_while_end. lia.
Qed.

(** the state after the last, padded, block *)
Definition last_v (v : state) (r : bytes) : state :=
  if (8 <=? length r)%nat then xor1 (xor1 (xor0 v (le_num (firstn 8 r))) (le_num (skipn 8 r))) (PAD (len (skipn 8 r)))
  else xor0 (xor0 v (le_num r)) (PAD (len r)).
Lemma xs_last_v v r : wf v -> (length r < 16)%nat -> xs (last_v v r) = xor_at (length r) (xor_into (xs v) r) [x01].
Proof.
  intros Hv Hr. unfold last_v. destruct (Nat.leb_spec 8 (length r)) as [H|H].
  - rewrite xs_last1; [rewrite firstn_skipn; reflexivity|exact Hv|rewrite firstn_length; lia|rewrite skipn_length; lia].
  - apply xs_last0; auto.
Qed.

Lemma m_adata_ok M ad s v l : ms (nAD F) s v -> abytes ad (nAD F) 0 l -> len l < 2 ^ 60 ->
  exists s' v', runs (m_adata F s ad (len l)) M M s' /\ ms (nAD F) s' v' /\ xs v' = aead_ad (xs v) l.
Proof.
  intros Hs A Hl. unfold m_adata.
  destruct (N.eq_dec (len l) 0) as [E|E].
  - apply len_0 in E. subst l. pose proof (ms_DSEP _ _ _ okAD Hs) as S1. eexists _, _. split; [|split; [exact S1|]].
    + step; [apply runs_branch|]. change (len [] =? 0) with true. cbn [negb]. step; [apply runs_ret|]. apply runs_ret.
    + rewrite xs_DSEP by (eapply ms_wf, Hs). reflexivity.
  - destruct (m_ad_while M ad (S (N.to_nat (len l / 16))) s v 0 l Hs A Hl) as (s1 & v1 & o1 & r & R1 & S1 & Hr & Ar & E1); [lia|].
    assert (L : exists s2, runs (
      b <- branch (8 <=? len r) ;;
      '(s, i, o, adlen) <- (if b : bool then
        x <- MLOAD ad o1 (nAD F) ;;
        let s := setw s1 0 (MXOR (getw s1 0) x (nAD F)) in
        o <- aoff ad o1 (2 * N.of_nat (nAD F)) ;;
        ret (s, 1%nat, o, sub64 (len r) 8)
      else ret (s1, 0%nat, o1, len r)) ;;
      s <- m_pad s i adlen ;;
      b <- branch (negb (adlen =? 0)) ;;
      s <- (if b : bool then
        x <- MLOAD ad o (nAD F) ;;
        ret (setw s i (MXOR (getw s i) x (nAD F)))
      else ret s) ;;
      ret (MP s 8 (nAD F))) M M (MP s2 8 (nAD F)) /\ ms (nAD F) s2 (last_v v1 r)).
    { unfold last_v. destruct (Nat.leb_spec 8 (length r)) as [H8|H8].
      - destruct (split_len 8 r) as (b0 & b1 & -> & H0 & L0); [unfold len; lia|].
        rewrite app_length in Hr. rewrite firstn_app, H0, Nat.sub_diag, firstn_O, app_nil_r, firstn_all2 by lia.
        rewrite skipn_app, H0, Nat.sub_diag, skipn_O, skipn_all2 by lia. cbn [app].
        destruct (abytes_cons _ _ _ _ _ H0 Ar) as [A0 A1].
        destruct (runs_MLOAD M ad _ _ _ okAD A0) as (w0 & R0 & O0 & _ & V0).
        pose proof (aval_len _ _ _ _ okAD A0).
        pose proof (ms_xor _ _ _ _ 0 _ _ okAD (self _ okAD) S1 ltac:(lia) O0 V0) as S2.
        destruct (ms_pad _ _ _ 1 (len b1) M okAD S2) as (s3 & R3 & S3); [lia|unfold len; lia|].
        destruct b1 as [|x b1].
        + exists s3. split.
          * step; [apply runs_branch|]. replace (8 <=? len (b0 ++ [])) with true by (rewrite len_app; lia).
            step; [step; [exact R0|]; step; [apply runs_aoff; lia|]; apply runs_ret|]. cbn beta iota.
            rewrite sub64_small by (unfold len in *; rewrite ?app_length in *; cbn [length] in *; lia).
            replace (len (b0 ++ []) - 8) with (len []) by (rewrite len_app, L0; lia).
            step; [exact R3|]. step; [apply runs_branch|]. cbn [len length N.of_nat N.eqb negb]. step; [apply runs_ret|]. apply runs_ret.
          * cbn [le_num]. rewrite xor1_0. exact S3.
        + assert (A2 : aval ad (nAD F) (o1 + 2 * N.of_nat (nAD F)) (le_num (x :: b1)))
            by (apply abytes_short; [congruence|cbn [length] in *; lia|exact A1]).
          set (b := x :: b1) in *. assert (Lb : len b <> 0) by (unfold b, len; cbn [length]; lia). clearbody b. clear x b1.
          destruct (runs_MLOAD M ad _ _ _ okAD A2) as (w1 & R4 & O1 & _ & V1).
          pose proof (ms_xor _ _ _ _ 1 _ _ okAD (self _ okAD) S3 ltac:(lia) O1 V1) as S4.
          eexists. split.
          * step; [apply runs_branch|]. replace (8 <=? len (b0 ++ b)) with true by (rewrite len_app; lia).
            step; [step; [exact R0|]; step; [apply runs_aoff; lia|]; apply runs_ret|]. cbn beta iota.
            rewrite sub64_small by (rewrite ?len_app in *; unfold len in *; lia).
            replace (len (b0 ++ b) - 8) with (len b) by (rewrite len_app, L0; lia).
            step; [exact R3|]. step; [apply runs_branch|]. replace (len b =? 0) with false by lia. cbn [negb].
            step; [step; [exact R4|]; apply runs_ret|]. apply runs_ret.
          * rewrite xor1_comm. exact S4.
      - destruct (ms_pad _ _ _ 0 (len r) M okAD S1) as (s3 & R3 & S3); [lia|unfold len; lia|].
        destruct r as [|x r].
        + exists s3. split.
          * step; [apply runs_branch|]. cbn [len length N.of_nat N.leb N.compare]. step; [apply runs_ret|]. cbn beta iota.
            step; [exact R3|]. step; [apply runs_branch|]. cbn [len length N.of_nat N.eqb negb]. step; [apply runs_ret|]. apply runs_ret.
          * cbn [le_num]. rewrite xor0_0. exact S3.
        + assert (A2 : aval ad (nAD F) o1 (le_num (x :: r)))
            by (apply abytes_short; [congruence|cbn [length] in *; lia|exact Ar]).
          set (b := x :: r) in *. assert (Lb : len b <> 0) by (unfold b, len; cbn [length]; lia). clearbody b. clear x r.
          destruct (runs_MLOAD M ad _ _ _ okAD A2) as (w1 & R4 & O1 & _ & V1).
          pose proof (ms_xor _ _ _ _ 0 _ _ okAD (self _ okAD) S3 ltac:(lia) O1 V1) as S4.
          eexists. split.
          * step; [apply runs_branch|]. replace (8 <=? len b) with false by (unfold len; lia).
            step; [apply runs_ret|]. cbn beta iota.
            step; [exact R3|]. step; [apply runs_branch|]. replace (len b =? 0) with false by lia. cbn [negb].
            step; [step; [exact R4|]; apply runs_ret|]. apply runs_ret.
          * rewrite xor0_comm. exact S4. }
    destruct L as (s2 & R2 & S2). pose proof (ms_P8 _ _ _ okAD S2) as S3. pose proof (ms_DSEP _ _ _ okAD S3) as S4.
    eexists _, _. split; [|split; [exact S4|]].
    + step; [apply runs_branch|]. replace (len l =? 0) with false by lia. cbn [negb].
      step; [step; [exact R1|]; cbn beta iota; exact R2|]. apply runs_ret.
    + rewrite xs_DSEP by (eapply ms_wf, S3). rewrite xs_P8 by (eapply ms_wf, S2).
      rewrite xs_last_v by (auto; eapply ms_wf, S1). unfold aead_ad.
      rewrite E1, absorb_last by (rewrite ?length_xs; lia). destruct l; [exfalso; apply E; reflexivity|reflexivity].
Qed.

(** ** Plaintext *)

Lemma nwords_16 (B l : bytes) : length B = 16%nat -> nwords (length (B ++ l)) = (2 + nwords (length l))%nat.
Proof.
  intros H. rewrite app_length, H. unfold nwords. replace (16 + length l + 7)%nat with (length l + 7 + 2 * 8)%nat by lia.
  rewrite Nat.div_add by lia. lia.
Qed.
Lemma nwords_8 (B l : bytes) : length B = 8%nat -> nwords (length (B ++ l)) = S (nwords (length l)).
Proof.
  intros H. rewrite app_length, H. unfold nwords. replace (8 + length l + 7)%nat with (length l + 7 + 1 * 8)%nat by lia.
  rewrite Nat.div_add by lia. lia.
Qed.
Lemma nwords_pos (l : bytes) : l <> [] -> (1 <= nwords (length l))%nat.
Proof. intros H. unfold nwords. apply Nat.div_str_pos. destruct l; [congruence|cbn [length]; lia]. Qed.

(** storing a word of the state *)
Lemma m_store M n m a s v i o : okn n -> okn m -> (1 <= m <= n)%nat -> ms n s v -> (i < 5)%nat -> o + 2 * N.of_nat m <= alen a ->
  exists b, runs (MSTORE a o (MREDUCE (getw s i) n m) m) M M b /\
    differs (fun j => o <= j /\ j < o + 2 * N.of_nat m) a b /\ aval b m o (getx v (N.of_nat i)).
Proof.
  intros Hn Hm Hmn Hs Hi Ho. destruct (ms_get _ _ _ i Hs Hi) as [O V].
  destruct (runs_MSTORE M a o (MREDUCE (getw s i) n m) m Hm (okw_MREDUCE _ _ _ O) Ho) as (b & Rb & Db & Ab).
  exists b. split; [exact Rb|]. split; [exact Db|]. rewrite val_MREDUCE, V in Ab by assumption. exact Ab.
Qed.
Lemma m_store0 M n a s v i o : okn n -> ms n s v -> (i < 5)%nat -> o + 2 * N.of_nat n <= alen a ->
  exists b, runs (MSTORE a o (getw s i) n) M M b /\
    differs (fun j => o <= j /\ j < o + 2 * N.of_nat n) a b /\ aval b n o (getx v (N.of_nat i)).
Proof.
  intros Hn Hs Hi Ho. destruct (ms_get _ _ _ i Hs Hi) as [O V].
  destruct (runs_MSTORE M a o (getw s i) n Hn O Ho) as (b & Rb & Db & Ab).
  exists b. split; [exact Rb|]. split; [exact Db|]. rewrite V in Ab. exact Ab.
Qed.

Lemma m_enc_body_ok M m s v c om oc B l : ms (nM F) s v -> length B = 16%nat -> abytes m (nM F) om (B ++ l) -> len (B ++ l) < 2 ^ 60 ->
  oc + 4 * N.of_nat (nC F) <= alen c ->
  exists s' v' c' x0 x1,
    runs (m_enc_body F m (s, c, om, oc, len (B ++ l))) M M (s', c', om + 4 * N.of_nat (nM F), oc + 4 * N.of_nat (nC F), len l) /\
    ms (nM F) s' v' /\ xs v' = p 8 (xor_into (xs v) B) /\
    differs (fun j => oc <= j /\ j < oc + 4 * N.of_nat (nC F)) c c' /\
    aval c' (nC F) oc x0 /\ aval c' (nC F) (oc + 2 * N.of_nat (nC F)) x1 /\ wb x0 ++ wb x1 = firstn 16 (xor_into (xs v) B).
Proof.
  intros Hs HB A Hl Hc. pose proof (ms_wf _ _ _ Hs) as Wv.
  assert (Hlen : len (B ++ l) = 16 + len l) by (rewrite len_app, (len_eq B 16 HB); lia).
  destruct (split_len 8 B) as (b0 & b1 & -> & H0 & L0); [unfold len; lia|].
  rewrite app_length in HB. assert (H1 : length b1 = 8%nat) by lia.
  destruct (abytes_two _ _ _ _ _ _ H0 H1 A) as (A0 & A1 & A').
  destruct (runs_MLOAD M m _ _ _ okM A0) as (w0 & R0 & O0 & _ & V0).
  destruct (runs_MLOAD M m _ _ _ okM A1) as (w1 & R1 & O1 & _ & V1).
  pose proof (aval_len _ _ _ _ okM A1).
  pose proof (ms_xor _ _ _ _ 0 _ _ okM (self _ okM) Hs ltac:(lia) O0 V0) as S1.
  destruct (m_store M _ _ c _ _ 0 oc okM okC leCM S1) as (c1 & RS1 & D1 & X0'); [lia|lia|].
  pose proof (ms_xor _ _ _ _ 1 _ _ okM (self _ okM) S1 ltac:(lia) O1 V1) as S2.
  pose proof D1 as (_ & L1 & _).
  destruct (m_store M _ _ c1 _ _ 1 (oc + 2 * N.of_nat (nC F)) okM okC leCM S2) as (c2 & RS2 & D2 & X1'); [lia|lia|].
  pose proof D2 as (_ & L2 & _).
  pose proof (ms_P8 _ _ _ okM S2) as S3.
  eexists _, _, c2, _, _. split; [|split; [exact S3|split; [|split; [|split; [|split; [exact X1'|]]]]]].
  - unfold m_enc_body. step; [exact R0|]. cbv zeta. step; [exact RS1|]. step; [apply runs_aoff; lia|]. step; [exact R1|].
    step; [apply runs_aoff; lia|]. step; [exact RS2|]. step; [apply runs_aoff; lia|]. step; [apply runs_aoff; lia|].
    rewrite sub64_small by lia. rewrite Hlen. replace (16 + len l - 16) with (len l) by lia. apply runs_ret.
  - rewrite xs_P8 by (eapply ms_wf, S2). f_equal. apply xs_block; auto; lia.
  - eapply differs_sub; [|eapply differs_trans; [exact D1|exact D2]]. cbv beta. lia.
  - eapply aval_differs; [exact D2| |exact X0']. cbv beta. lia.
  - rewrite <- xs_block by (auto; lia). rewrite firstn16_xs. reflexivity.
Qed.

Lemma m_enc_while M m f : forall s v c om oc l, ms (nM F) s v -> abytes m (nM F) om l -> len l < 2 ^ 60 -> (N.to_nat (len l / 16) < f)%nat ->
  oc + 2 * N.of_nat (nC F) * N.of_nat (nwords (length l)) <= alen c ->
  exists s' v' c' om' oc' cs r, runs (while f (fun '(_, _, _, _, n) => 16 <=? n) (m_enc_body F m) (s, c, om, oc, len l)) M M
      (s', c', om', oc', len r) /\
    ms (nM F) s' v' /\ (length r < 16)%nat /\ length l = (length cs + length r)%nat /\ abytes m (nM F) om' r /\
    differs (fun j => oc <= j /\ j < oc') c c' /\ oc <= oc' /\
    oc' + 2 * N.of_nat (nC F) * N.of_nat (nwords (length r)) <= alen c /\
    (forall c2 rest, differs (fun j => oc' <= j) c' c2 -> aout c2 (nC F) oc' rest -> aout c2 (nC F) oc (cs ++ rest)) /\
    enc_blocks (xs v) (chunks 16 (pad 16 l)) =
      (let '(S2, c2) := enc_blocks (xs v') (chunks 16 (pad 16 r)) in (S2, cs ++ c2)).
Proof.
  induction f as [|f IH]; intros s v c om oc l Hs A Hl Hf Hc; [lia|].
  destruct (N.leb_spec 16 (len l)) as [H|H].
  - destruct (split_len 16 l) as (B & l' & -> & HB & LB); [exact H|]. change (N.of_nat 16) with 16 in LB.
    rewrite nwords_16 in Hc by exact HB.
    destruct (m_enc_body_ok M m s v c om oc B l' Hs HB A Hl) as (s1 & v1 & c1 & x0 & x1 & R1 & S1 & E1 & D1 & X0' & X1' & Ex); [lia|].
    pose proof D1 as (_ & L1 & _).
    assert (A' : abytes m (nM F) (om + 4 * N.of_nat (nM F)) l').
    { destruct (split_len 8 B) as (b0 & b1 & -> & H0 & L0); [unfold len; lia|].
      rewrite app_length in HB. eapply abytes_two; [exact H0| |exact A]. lia. }
    rewrite len_app in Hl.
    destruct (IH s1 v1 c1 (om + 4 * N.of_nat (nM F)) (oc + 4 * N.of_nat (nC F)) l' S1 A')
      as (s2 & v2 & c2 & om2 & oc2 & cs & r & R2 & S2 & Hr & Hlr & Ar & D2 & Ho & Hsp & Hout & E2); [lia| |lia|].
    { eapply (div16_step f B l'); [lia|exact LB|exact Hf]. }
    exists s2, v2, c2, om2, oc2, ((wb x0 ++ wb x1) ++ cs), r.
    split; [|split; [exact S2|split; [exact Hr|split; [|split; [exact Ar|split; [|split; [lia|split; [lia|split]]]]]]]].
    + eapply runs_while_step; [|exact R1|exact R2]. rewrite len_app. lia.
    + rewrite !app_length, !wb_len. lia.
    + eapply differs_sub; [|eapply differs_trans; [exact D1|exact D2]]. cbv beta. lia.
    + intros c3 rest D3 Hrest. rewrite <- !app_assoc.
      assert (D23 : differs (fun j => oc + 4 * N.of_nat (nC F) <= j) c1 c3).
      { eapply differs_sub; [|eapply differs_trans; [exact D2|exact D3]]. cbv beta. lia. }
      apply aout_cons; [eapply aval_differs; [exact D23| |exact X0']; cbv beta; lia|].
      apply aout_cons; [eapply aval_differs; [exact D23| |exact X1']; cbv beta; lia|].
      replace (oc + 2 * N.of_nat (nC F) + 2 * N.of_nat (nC F)) with (oc + 4 * N.of_nat (nC F)) by lia.
      apply Hout; assumption.
    + rewrite chunks_pad_full by (auto; lia).
      rewrite enc_blocks_cons by (apply chunks_pad_not_nil; lia). cbv zeta. rewrite <- E1, E2, Ex.
      destruct (enc_blocks (xs v2) _) as [S3 c3]. rewrite app_assoc. reflexivity.
  - exists s, v, c, om, oc, [], l.
    split; [|split; [exact Hs|split; [unfold len in H; lia|split; [reflexivity|split; [exact A|split; [apply differs_refl|split; [lia|split; [exact Hc|split]]]]]]]].
    + apply runs_while_end. lia.
    + intros c2 rest _ Hr. exact Hr.
    + destruct (enc_blocks _ _); reflexivity.
Qed.

Lemma m_encrypt_ok M m s v c l : ms (nM F) s v -> abytes m (nM F) 0 l -> len l < 2 ^ 60 ->
  2 * N.of_nat (nC F) * N.of_nat (nwords (length l)) <= alen c ->
  exists s' v' c' cf, runs (m_encrypt F s c m (len l)) M M (s', c') /\ ms (nM F) s' v' /\
    alen c' = alen c /\ aout c' (nC F) 0 (firstn (length l) cf) /\ (length l <= length cf)%nat /\
    enc_blocks (xs v) (chunks 16 (pad 16 l)) = (xs v', cf).
Proof.
  intros Hs A Hl Hc.
  destruct (m_enc_while M m (S (N.to_nat (len l / 16))) s v c 0 0 l Hs A Hl) as
    (s1 & v1 & c1 & om1 & oc1 & cs & r & R1 & S1 & Hr & Hlr & Ar & D1 & Ho & Hsp & Hout & E1); [lia|lia|].
  pose proof D1 as (_ & L1 & _). pose proof (ms_wf _ _ _ S1) as W1.
  rewrite (enc_blocks_last (xs v1) r) in E1 by (rewrite ?length_xs; lia). rewrite <- xs_last_v in E1 by assumption.
  assert (L : exists s2 c2, runs (
      b <- branch (8 <=? len r) ;;
      '(s, i, c, om, oc, mlen) <- (if b : bool then
        x <- MLOAD m om1 (nM F) ;;
        let s := setw s1 0 (MXOR (getw s1 0) x (nM F)) in
        c <- MSTORE c1 oc1 (MREDUCE (getw s 0) (nM F) (nC F)) (nC F) ;;
        om <- aoff m om1 (2 * N.of_nat (nM F)) ;;
        oc <- aoff c oc1 (2 * N.of_nat (nC F)) ;;
        ret (s, 1%nat, c, om, oc, sub64 (len r) 8)
      else ret (s1, 0%nat, c1, om1, oc1, len r)) ;;
      s <- m_pad s i mlen ;;
      b <- branch (negb (mlen =? 0)) ;;
      if b : bool then
        x <- MLOAD m om (nM F) ;;
        let s := setw s i (MXOR (getw s i) x (nM F)) in
        c <- MSTORE c oc (MREDUCE (getw s i) (nM F) (nC F)) (nC F) ;;
        ret (s, c)
      else ret (s, c)) M M (s2, c2) /\ ms (nM F) s2 (last_v v1 r) /\ differs (fun j => oc1 <= j) c1 c2 /\
      aout c2 (nC F) oc1 (firstn (length r) (xs (last_v v1 r)))).
  { unfold last_v. destruct (Nat.leb_spec 8 (length r)) as [H8|H8].
    - destruct (split_len 8 r) as (b0 & b1 & -> & H0 & L0); [unfold len; lia|].
      rewrite nwords_8 in Hsp by exact H0.
      rewrite app_length in Hr. rewrite firstn_app, H0, Nat.sub_diag, firstn_O, app_nil_r, firstn_all2 by lia.
      rewrite skipn_app, H0, Nat.sub_diag, skipn_O, skipn_all2 by lia. cbn [app].
      destruct (abytes_cons _ _ _ _ _ H0 Ar) as [A0 A1].
      destruct (runs_MLOAD M m _ _ _ okM A0) as (w0 & R0 & O0 & _ & V0).
      pose proof (aval_len _ _ _ _ okM A0).
      pose proof (ms_xor _ _ _ _ 0 _ _ okM (self _ okM) S1 ltac:(lia) O0 V0) as S2.
      destruct (m_store M _ _ c1 _ _ 0 oc1 okM okC leCM S2) as (c2 & RS1 & D2 & X0'); [lia|lia|].
      pose proof D2 as (_ & L2 & _).
      destruct (ms_pad _ _ _ 1 (len b1) M okM S2) as (s3 & R3 & S3); [lia|unfold len; lia|].
      assert (Rsub : sub64 (len (b0 ++ b1)) 8 = len b1).
      { rewrite sub64_small by (unfold len; rewrite app_length; lia). rewrite len_app, L0. lia. }
      destruct b1 as [|x b1].
      + exists s3, c2. split; [|split; [|split]].
        * step; [apply runs_branch|]. replace (8 <=? len (b0 ++ [])) with true by (rewrite len_app; lia).
          step; [step; [exact R0|]; cbv zeta; step; [exact RS1|]; step; [apply runs_aoff; lia|]; step; [apply runs_aoff; lia|]; apply runs_ret|]. cbn beta iota.
          rewrite Rsub. step; [exact R3|]. step; [apply runs_branch|]. cbn [len length N.of_nat N.eqb negb]. apply runs_ret.
        * cbn [le_num]. rewrite xor1_0. exact S3.
        * eapply differs_sub; [|exact D2]. cbv beta. lia.
        * rewrite app_nil_r, H0. cbn [le_num]. rewrite firstn_xs0 by lia.
          rewrite firstn_all2 by (rewrite wb_len; lia). rewrite <- (app_nil_r (wb _)). apply aout_cons; [exact X0'|apply aout_nil].
      + assert (A2 : aval m (nM F) (om1 + 2 * N.of_nat (nM F)) (le_num (x :: b1)))
          by (apply abytes_short; [congruence|cbn [length] in *; lia|exact A1]).
        assert (Hp : (1 <= nwords (length (x :: b1)))%nat) by (apply nwords_pos; congruence).
        set (b := x :: b1) in *. assert (Lb : len b <> 0) by (unfold b, len; cbn [length]; lia). clearbody b. clear x b1.
        destruct (runs_MLOAD M m _ _ _ okM A2) as (w1 & R4 & O1 & _ & V1).
        pose proof (ms_xor _ _ _ _ 1 _ _ okM (self _ okM) S3 ltac:(lia) O1 V1) as S4.
        destruct (m_store M _ _ c2 _ _ 1 (oc1 + 2 * N.of_nat (nC F)) okM okC leCM S4) as (c3 & RS2 & D3 & X1'); [lia|nia|].
        change (xorx (xorx (xorx v1 (N.of_nat 0) (le_num b0)) (N.of_nat 1) (PAD (len b))) (N.of_nat 1) (le_num b)) with
          (xor1 (xor1 (xor0 v1 (le_num b0)) (PAD (len b))) (le_num b)) in *. rewrite xor1_comm in S4, X1'.
        eexists _, c3. split; [|split; [exact S4|split]].
        * step; [apply runs_branch|]. replace (8 <=? len (b0 ++ b)) with true by (rewrite len_app; lia).
          step; [step; [exact R0|]; cbv zeta; step; [exact RS1|]; step; [apply runs_aoff; lia|]; step; [apply runs_aoff; lia|]; apply runs_ret|]. cbn beta iota.
          rewrite Rsub. step; [exact R3|]. step; [apply runs_branch|]. replace (len b =? 0) with false by lia. cbn [negb].
          step; [exact R4|]. cbv zeta. step; [exact RS2|]. apply runs_ret.
        * eapply differs_sub; [|eapply differs_trans; [exact D2|exact D3]]. cbv beta. lia.
        * rewrite app_length, H0. rewrite firstn_xs1 by lia.
          apply aout_cons; [eapply aval_differs; [exact D3| |exact X0']; cbv beta; lia|].
          apply (aout_last _ _ _ _ (getx (xor1 (xor1 (xor0 v1 (le_num b0)) (le_num b)) (PAD (len b))) (N.of_nat 1))).
          -- rewrite firstn_length, wb_len. lia.
          -- intros _. exact X1'.
          -- rewrite firstn_length, wb_len. replace (Nat.min (length b) 8) with (length b) by lia. reflexivity.
    - destruct (ms_pad _ _ _ 0 (len r) M okM S1) as (s3 & R3 & S3); [lia|unfold len; lia|].
      destruct r as [|x r].
      + exists s3, c1. split; [|split; [|split]].
        * step; [apply runs_branch|]. cbn [len length N.of_nat N.leb N.compare]. step; [apply runs_ret|]. cbn beta iota.
          step; [exact R3|]. step; [apply runs_branch|]. cbn [len length N.of_nat N.eqb negb]. apply runs_ret.
        * cbn [le_num]. rewrite xor0_0. exact S3.
        * apply differs_refl.
        * cbn [length firstn]. apply aout_nil.
      + assert (A2 : aval m (nM F) om1 (le_num (x :: r)))
          by (apply abytes_short; [congruence|cbn [length] in *; lia|exact Ar]).
        assert (Hp : (1 <= nwords (length (x :: r)))%nat) by (apply nwords_pos; congruence).
        set (b := x :: r) in *. assert (Lb : len b <> 0) by (unfold b, len; cbn [length]; lia). clearbody b. clear x r.
        destruct (runs_MLOAD M m _ _ _ okM A2) as (w1 & R4 & O1 & _ & V1).
        pose proof (ms_xor _ _ _ _ 0 _ _ okM (self _ okM) S3 ltac:(lia) O1 V1) as S4.
        destruct (m_store M _ _ c1 _ _ 0 oc1 okM okC leCM S4) as (c3 & RS2 & D3 & X1'); [lia|nia|].
        change (xorx (xorx v1 (N.of_nat 0) (PAD (len b))) (N.of_nat 0) (le_num b)) with
          (xor0 (xor0 v1 (PAD (len b))) (le_num b)) in *. rewrite xor0_comm in S4, X1'.
        eexists _, c3. split; [|split; [exact S4|split]].
        * step; [apply runs_branch|]. replace (8 <=? len b) with false by (unfold len; lia).
          step; [apply runs_ret|]. cbn beta iota.
          step; [exact R3|]. step; [apply runs_branch|]. replace (len b =? 0) with false by lia. cbn [negb].
          step; [exact R4|]. cbv zeta. step; [exact RS2|]. apply runs_ret.
        * eapply differs_sub; [|exact D3]. cbv beta. lia.
        * rewrite firstn_xs0 by lia.
          apply (aout_last _ _ _ _ (getx (xor0 (xor0 v1 (le_num b)) (PAD (len b))) (N.of_nat 0))).
          -- rewrite firstn_length, wb_len. lia.
          -- intros _. exact X1'.
          -- rewrite firstn_length, wb_len. replace (Nat.min (length b) 8) with (length b) by lia. reflexivity. }
  destruct L as (s2 & c2 & R2 & S2 & D2 & A2).
  exists s2, (last_v v1 r), c2, (cs ++ firstn 16 (xs (last_v v1 r))).
  split; [|split; [exact S2|split; [|split; [|split]]]].
  - unfold m_encrypt. step; [exact R1|]. cbn beta iota. exact R2.
  - destruct D2 as (_ & L2 & _). lia.
  - replace (firstn (length l) (cs ++ firstn 16 (xs (last_v v1 r)))) with (cs ++ firstn (length r) (xs (last_v v1 r))).
    + apply Hout; assumption.
    + rewrite Hlr, firstn_app. rewrite (firstn_all2 cs) by lia. f_equal.
      replace (length cs + length r - length cs)%nat with (length r) by lia.
      rewrite firstn_firstn. replace (Nat.min (length r) 16) with (length r) by lia. reflexivity.
  - rewrite app_length, firstn_length, length_xs. lia.
  - exact E1.
Qed.
End Aead.
