(** * MaskDec.v -- the masked AEAD: decryption of the ciphertext refines the
    specification. *)
From Coq Require Import Arith Bool NArith ZArith List Lia Btauto Init.Byte.
From Coq Require Import ZifyBool ZifyNat ZifyN.
From Verif Require Import Words WordFacts Spec SpecFacts RoundFacts ModelRef StateRep RefRound RefPrim RefAead RefAeadDec ModelCommon
  ComPrim ComAeadDec ModelWords WordLaws BitExp WordInst WordInstBi ModelMask MaskVal MaskRound MaskPerm MaskArr MaskShares MaskState
  MaskAead CMem Contract CMemFacts.
Import ListNotations.
Local Open Scope N_scope.

Lemma ms_set5 ns s v w : ms ns s v -> okw w -> (forall i, (i < 2)%nat -> D ns w i = 0) -> ms ns (setw s 5 w) v.
Proof.
  intros (H & Z & <-) Hw Zw. split; [apply okm_setw; assumption|]. destruct s. split; [split; apply Zw; lia|]. reflexivity.
Qed.
Lemma ms_get5 ns s v : ms ns s v -> okw (getw s 5) /\ val ns (getw s 5) = 0.
Proof.
  intros (H & Z & <-). split; [apply H|]. apply val_zero. intros i Hi. destruct Z as [Z0 Z1].
  destruct i as [|[|i]]; [exact Z0|exact Z1|lia].
Qed.

(** the last word of a partial block *)
Definition dword (x : N) (r : bytes) : N := N.lxor (N.lor (CLEARBYTES x (len r)) (le_num r)) (PAD (len r)).
Definition dlast_v (v : state) (r : bytes) : state :=
  if (8 <=? length r)%nat then setx (setx v 0 (le_num (firstn 8 r))) 1 (dword (getx v 1) (skipn 8 r))
  else setx v 0 (dword (getx v 0) r).
Lemma xs_dlast_v v r : wf v -> (length r < 16)%nat ->
  xs (dlast_v v r) = xor_at (length r) (r ++ skipn (length r) (xs v)) [x01].
Proof.
  intros Hv Hr. unfold dlast_v, dword. destruct (Nat.leb_spec 8 (length r)) as [H|H].
  - pose proof (xs_dlast1 v (firstn 8 r) (skipn 8 r) Hv) as X.
    rewrite firstn_skipn in X. rewrite xorx_set, getx_setx, setx_setx in X. apply X; [rewrite firstn_length; lia|rewrite skipn_length; lia].
  - pose proof (xs_dlast0 v r Hv ltac:(lia)) as X. rewrite xorx_set, getx_setx, setx_setx in X. exact X.
Qed.
Lemma dword_nil x : dword x [] = N.lxor x (PAD 0).
Proof. unfold dword. cbn [len length N.of_nat CLEARBYTES N.to_nat clearbytes_loop le_num]. rewrite N.lor_0_r. reflexivity. Qed.

Lemma xor_into_last v r : wf v -> (length r < 16)%nat -> firstn (length r) (xs (last_v v r)) = xor_into r (xs v).
Proof.
  intros Hv Hr. rewrite xs_last_v by assumption. rewrite (xor_into_block r) by (rewrite length_xs; lia). unfold xor_at.
  apply firstn_app_exact. rewrite firstn_length, length_xor_into, length_xs. lia.
Qed.

Section Dec.
Variable F : cfg.
Hypothesis HF : okcfg F.
Local Notation okM := (okM F HF).
Local Notation okC := (okC F HF).
Local Notation leCM := (leCM F HF).

Lemma m_dec_body_ok M c s v m om oc B l : ms (nM F) s v -> length B = 16%nat -> abytes c (nC F) oc (B ++ l) -> len (B ++ l) < 2 ^ 60 ->
  om + 4 * N.of_nat (nM F) <= alen m ->
  exists s' v' m' x0 x1,
    runs (m_dec_body F c (s, m, om, oc, len (B ++ l))) M M (s', m', om + 4 * N.of_nat (nM F), oc + 4 * N.of_nat (nC F), len l) /\
    ms (nM F) s' v' /\ xs v' = p 8 (B ++ skipn 16 (xs v)) /\
    differs (fun j => om <= j /\ j < om + 4 * N.of_nat (nM F)) m m' /\
    aval m' (nM F) om x0 /\ aval m' (nM F) (om + 2 * N.of_nat (nM F)) x1 /\ wb x0 ++ wb x1 = xor_into B (xs v).
Proof.
  intros Hs HB A Hl Hc. pose proof (ms_wf _ _ _ Hs) as Wv.
  assert (Hlen : len (B ++ l) = 16 + len l) by (rewrite len_app, (len_eq B 16 HB); lia).
  destruct (split_len 8 B) as (b0 & b1 & -> & H0 & L0); [unfold len; lia|].
  rewrite app_length in HB. assert (H1 : length b1 = 8%nat) by lia.
  destruct (abytes_two _ _ _ _ _ _ H0 H1 A) as (A0 & A1 & A').
  destruct (runs_MLOAD M c _ _ _ okC A0) as (w0 & R0 & O0 & _ & V0).
  destruct (runs_MLOAD M c _ _ _ okC A1) as (w1 & R1 & O1 & _ & V1).
  pose proof (aval_len _ _ _ _ okC A1).
  pose proof (ms_xor _ _ _ _ 0 _ _ okM leCM Hs ltac:(lia) O0 V0) as S1.
  destruct (m_store0 M _ m _ _ 0 om okM S1) as (m1 & RS1 & D1 & X0'); [lia|lia|].
  pose proof D1 as (_ & L1 & _).
  assert (E0 : val (nM F) (MEXPAND w0 (nC F) (nM F)) = le_num b0) by (rewrite val_MEXPAND; auto using okM, leCM).
  assert (E1 : val (nM F) (MEXPAND w1 (nC F) (nM F)) = le_num b1) by (rewrite val_MEXPAND; auto using okM, leCM).
  pose proof (ms_set _ _ _ 0 _ _ S1 ltac:(lia) (okw_MEXPAND w0 (nC F) (nM F) O0) E0) as S2.
  pose proof (ms_xor _ _ _ _ 1 _ _ okM leCM S2 ltac:(lia) O1 V1) as S3.
  destruct (m_store0 M _ m1 _ _ 1 (om + 2 * N.of_nat (nM F)) okM S3) as (m2 & RS2 & D2 & X1'); [lia|lia|].
  pose proof D2 as (_ & L2 & _).
  pose proof (ms_set _ _ _ 1 _ _ S3 ltac:(lia) (okw_MEXPAND w1 (nC F) (nM F) O1) E1) as S4.
  pose proof (ms_P8 _ _ _ okM S4) as S5.
  assert (Ev : setx (xorx (setx (xorx v (N.of_nat 0) (le_num b0)) (N.of_nat 0) (le_num b0)) (N.of_nat 1) (le_num b1)) (N.of_nat 1) (le_num b1) =
    set1 (set0 v (le_num b0)) (le_num b1)) by (destruct v; reflexivity).
  rewrite Ev in *.
  eexists _, _, m2, _, _. split; [|split; [exact S5|split; [|split; [|split; [|split; [exact X1'|]]]]]].
  - unfold m_dec_body. step; [exact R0|]. cbv zeta. step; [exact RS1|]. step; [apply runs_aoff; lia|]. step; [exact R1|].
    step; [apply runs_aoff; lia|]. step; [exact RS2|]. step; [apply runs_aoff; lia|]. step; [apply runs_aoff; lia|].
    rewrite sub64_small by lia. rewrite Hlen. replace (16 + len l - 16) with (len l) by lia. apply runs_ret.
  - rewrite xs_P8 by (eapply ms_wf, S4). f_equal. apply xs_set01; assumption.
  - eapply differs_sub; [|eapply differs_trans; [exact D1|exact D2]]. cbv beta. lia.
  - eapply aval_differs; [exact D2| |exact X0']. cbv beta. lia.
  - rewrite xor_into_block by (rewrite length_xs, app_length; lia). rewrite app_length, H0, H1.
    change (8 + 8)%nat with 16%nat. rewrite <- xs_block by (auto; lia). rewrite firstn16_xs. destruct v. reflexivity.
Qed.

Lemma m_dec_while M c f : forall s v m om oc l, ms (nM F) s v -> abytes c (nC F) oc l -> len l < 2 ^ 60 -> (N.to_nat (len l / 16) < f)%nat ->
  om + 2 * N.of_nat (nM F) * N.of_nat (nwords (length l)) <= alen m ->
  exists s' v' m' om' oc' ps r, runs (while f (fun '(_, _, _, _, n) => 16 <=? n) (m_dec_body F c) (s, m, om, oc, len l)) M M
      (s', m', om', oc', len r) /\
    ms (nM F) s' v' /\ (length r < 16)%nat /\ length l = (length ps + length r)%nat /\ abytes c (nC F) oc' r /\
    differs (fun j => om <= j /\ j < om') m m' /\ om <= om' /\
    om' + 2 * N.of_nat (nM F) * N.of_nat (nwords (length r)) <= alen m /\
    (forall m2 rest, differs (fun j => om' <= j) m' m2 -> aout m2 (nM F) om' rest -> aout m2 (nM F) om (ps ++ rest)) /\
    dec_blocks (length l) (xs v) l = (let '(S2, m2) := dec_blocks (length r) (xs v') r in (S2, ps ++ m2)).
Proof.
  induction f as [|f IH]; intros s v m om oc l Hs A Hl Hf Hc; [lia|].
  destruct (N.leb_spec 16 (len l)) as [H|H].
  - destruct (split_len 16 l) as (B & l' & -> & HB & LB); [exact H|]. change (N.of_nat 16) with 16 in LB.
    rewrite nwords_16 in Hc by exact HB.
    destruct (m_dec_body_ok M c s v m om oc B l' Hs HB A Hl) as (s1 & v1 & m1 & x0 & x1 & R1 & S1 & E1 & D1 & X0' & X1' & Ex); [lia|].
    pose proof D1 as (_ & L1 & _).
    assert (A' : abytes c (nC F) (oc + 4 * N.of_nat (nC F)) l').
    { destruct (split_len 8 B) as (b0 & b1 & -> & H0 & L0); [unfold len; lia|].
      rewrite app_length in HB. eapply abytes_two; [exact H0| |exact A]. lia. }
    rewrite len_app in Hl.
    destruct (IH s1 v1 m1 (om + 4 * N.of_nat (nM F)) (oc + 4 * N.of_nat (nC F)) l' S1 A')
      as (s2 & v2 & m2 & om2 & oc2 & ps & r & R2 & S2 & Hr & Hlr & Ar & D2 & Ho & Hsp & Hout & E2); [lia| |lia|].
    { eapply (div16_step f B l'); [lia|exact LB|exact Hf]. }
    exists s2, v2, m2, om2, oc2, ((wb x0 ++ wb x1) ++ ps), r.
    split; [|split; [exact S2|split; [exact Hr|split; [|split; [exact Ar|split; [|split; [lia|split; [lia|split]]]]]]]].
    + eapply runs_while_step; [|exact R1|exact R2]. rewrite len_app. lia.
    + rewrite !app_length, !wb_len. lia.
    + eapply differs_sub; [|eapply differs_trans; [exact D1|exact D2]]. cbv beta. lia.
    + intros m3 rest D3 Hrest. rewrite <- !app_assoc.
      assert (D23 : differs (fun j => om + 4 * N.of_nat (nM F) <= j) m1 m3).
      { eapply differs_sub; [|eapply differs_trans; [exact D2|exact D3]]. cbv beta. lia. }
      apply aout_cons; [eapply aval_differs; [exact D23| |exact X0']; cbv beta; lia|].
      apply aout_cons; [eapply aval_differs; [exact D23| |exact X1']; cbv beta; lia|].
      replace (om + 2 * N.of_nat (nM F) + 2 * N.of_nat (nM F)) with (om + 4 * N.of_nat (nM F)) by lia.
      apply Hout; assumption.
    + rewrite app_length, HB. change (16 + length l')%nat with (Datatypes.S (15 + length l')).
      rewrite dec_blocks_step by exact HB. rewrite <- E1.
      rewrite (dec_blocks_fuel (15 + length l') (length l')) by lia. rewrite E2.
      rewrite Ex. destruct (dec_blocks (length r) (xs v2) r) as [S3 m3]. rewrite app_assoc. reflexivity.
  - exists s, v, m, om, oc, [], l.
    split; [|split; [exact Hs|split; [unfold len in H; lia|split; [reflexivity|split; [exact A|split; [apply differs_refl|split; [lia|split; [exact Hc|split]]]]]]]].
    + apply runs_while_end. lia.
    + intros m2 rest _ Hr. exact Hr.
    + destruct (dec_blocks _ _ _); reflexivity.
Qed.

(** the last, partial, word [b] at word [i] of the state *)
Definition dec_tail (s : mstate) (i : nat) (m c : arr) (om oc clen : N) : C (mstate * arr) :=
  s <- m_pad s i clen ;;
  b <- branch (negb (clen =? 0)) ;;
  if b : bool then
    x <- MLOAD c oc (nC F) ;;
    let s := setw s i (MXOR (getw s i) x (nC F)) in
    m <- MSTORE m om (getw s i) (nM F) ;;
    let mask := MMASK (getw s 5) clen in
    let x := MEXPAND x (nC F) (nM F) in
    let s := setw s i (MXORAND x mask (getw s i) (nM F)) in
    let s := setw s 5 (MREUSE (getw s 5) 0 (nM F)) in
    ret (s, m)
  else ret (s, m).
Lemma m_dec_last M c s v m om oc i b : ms (nM F) s v -> (i < 5)%nat -> (length b < 8)%nat ->
  (b <> [] -> aval c (nC F) oc (le_num b)) -> (b <> [] -> om + 2 * N.of_nat (nM F) <= alen m) ->
  exists s' m', runs (dec_tail s i m c om oc (len b)) M M (s', m') /\
    ms (nM F) s' (setx v (N.of_nat i) (dword (getx v (N.of_nat i)) b)) /\
    differs (fun j => om <= j /\ j < om + 2 * N.of_nat (nM F)) m m' /\
    (b <> [] -> aval m' (nM F) om (N.lxor (N.lxor (getx v (N.of_nat i)) (PAD (len b))) (le_num b))).
Proof.
  intros Hs Hi Hb A Hm. pose proof (ms_wf _ _ _ Hs) as Wv. unfold dec_tail.
  destruct (ms_pad _ _ _ i (len b) M okM Hs Hi) as (s1 & R1 & S1); [unfold len; lia|].
  destruct b as [|y b].
  - exists s1, m. split; [|split; [|split; [apply differs_refl|congruence]]].
    + step; [exact R1|]. step; [apply runs_branch|]. apply runs_ret.
    + rewrite dword_nil. rewrite xorx_set in S1. exact S1.
  - assert (N0 : y :: b <> []) by congruence. specialize (A N0). specialize (Hm N0).
    set (r := y :: b) in *. assert (Lr : len r <> 0) by (unfold r, len; cbn [length]; lia). clearbody r. clear y b.
    destruct (runs_MLOAD M c _ _ _ okC A) as (w & R2 & O2 & _ & V2).
    pose proof (ms_xor _ _ _ _ i _ _ okM leCM S1 Hi O2 V2) as S2.
    set (s2 := setw s1 i (MXOR (getw s1 i) w (nC F))) in *.
    destruct (m_store0 M _ m _ _ i om okM S2 Hi) as (m2 & R3 & D3 & A3); [lia|].
    destruct (ms_get _ _ _ i S2 Hi) as [Oi Vi]. destruct (ms_get5 _ _ _ S2) as [O5 V5].
    assert (Ex : val (nM F) (MEXPAND w (nC F) (nM F)) = le_num r) by (rewrite val_MEXPAND; auto using okM, leCM).
    assert (Fx : fits 64 (getx (xorx (xorx v (N.of_nat i) (PAD (len r))) (N.of_nat i) (le_num r)) (N.of_nat i))).
    { rewrite <- Vi. apply fits_val. }
    assert (Eg : getx (xorx (xorx v (N.of_nat i) (PAD (len r))) (N.of_nat i) (le_num r)) (N.of_nat i) =
      N.lxor (N.lxor (getx v (N.of_nat i)) (PAD (len r))) (le_num r)).
    { rewrite !xorx_set, !getx_setx. reflexivity. }
    assert (Ew : val (nM F) (MXORAND (MEXPAND w (nC F) (nM F)) (MMASK (getw s2 5) (len r)) (getw s2 i) (nM F)) =
      dword (getx v (N.of_nat i)) r).
    { rewrite val_MXORAND by (auto using okM, okw_MMASK). rewrite Ex, Vi, val_MMASK by (auto using okM; unfold len; lia).
      rewrite Eg, N.lxor_comm. apply dec_word; [|exact Hb]. apply fits_getx, Wv. }
    pose proof (ms_set _ _ _ i _ _ S2 Hi (okw_MXORAND _ _ _ (nM F) (okw_MEXPAND w (nC F) (nM F) O2) (okw_MMASK _ (len r) O5) Oi) Ew) as S3.
    destruct (ms_get5 _ _ _ S3) as [O5' _].
    assert (S4 := ms_set5 _ _ _ _ S3 (okw_MREUSE _ 0 (nM F) O5') (fun i Hi => D_MREUSE _ _ i okM Hi O5')).
    eexists _, m2. split; [|split; [|split; [exact D3|]]].
    + step; [exact R1|]. step; [apply runs_branch|]. replace (len r =? 0) with false by lia. cbn [negb].
      step; [exact R2|]. cbv zeta. fold s2. step; [exact R3|]. apply runs_ret.
    + rewrite !xorx_set, !setx_setx in S4. exact S4.
    + intros _. rewrite Eg in A3. exact A3.
Qed.

Lemma m_decrypt_ok M c s v m l : ms (nM F) s v -> abytes c (nC F) 0 l -> len l < 2 ^ 60 ->
  2 * N.of_nat (nM F) * N.of_nat (nwords (length l)) <= alen m ->
  exists s' v' m' mb, runs (m_decrypt F s m c (len l)) M M (s', m') /\ ms (nM F) s' v' /\
    aout m' (nM F) 0 mb /\ length mb = length l /\
    dec_blocks (length l) (xs v) l = (xs v', mb).
Proof.
  intros Hs A Hl Hc.
  destruct (m_dec_while M c (S (N.to_nat (len l / 16))) s v m 0 0 l Hs A Hl) as
    (s1 & v1 & m1 & om1 & oc1 & ps & r & R1 & S1 & Hr & Hlr & Ar & D1 & Ho & Hsp & Hout & E1); [lia|lia|].
  pose proof D1 as (_ & L1 & _). pose proof (ms_wf _ _ _ S1) as W1.
  rewrite (dec_blocks_short _ _ r) in E1 by exact Hr. rewrite <- xs_dlast_v, <- xor_into_last in E1 by assumption.
  assert (L : exists s2 m2, runs (
      b <- branch (8 <=? len r) ;;
      '(s, i, m, om, oc, clen) <- (if b : bool then
        x <- MLOAD c oc1 (nC F) ;;
        let s := setw s1 0 (MXOR (getw s1 0) x (nC F)) in
        m <- MSTORE m1 om1 (getw s 0) (nM F) ;;
        let s := setw s 0 (MEXPAND x (nC F) (nM F)) in
        om <- aoff m om1 (2 * N.of_nat (nM F)) ;;
        oc <- aoff c oc1 (2 * N.of_nat (nC F)) ;;
        ret (s, 1%nat, m, om, oc, sub64 (len r) 8)
      else ret (s1, 0%nat, m1, om1, oc1, len r)) ;;
      dec_tail s i m c om oc clen) M M (s2, m2) /\ ms (nM F) s2 (dlast_v v1 r) /\ differs (fun j => om1 <= j) m1 m2 /\
      aout m2 (nM F) om1 (firstn (length r) (xs (last_v v1 r)))).
  { unfold last_v, dlast_v. destruct (Nat.leb_spec 8 (length r)) as [H8|H8].
    - destruct (split_len 8 r) as (b0 & b1 & -> & H0 & L0); [unfold len; lia|].
      rewrite nwords_8 in Hsp by exact H0.
      rewrite app_length in Hr. rewrite firstn_app, H0, Nat.sub_diag, firstn_O, app_nil_r, firstn_all2 by lia.
      rewrite skipn_app, H0, Nat.sub_diag, skipn_O, skipn_all2 by lia. cbn [app].
      destruct (abytes_cons _ _ _ _ _ H0 Ar) as [A0 A1].
      destruct (runs_MLOAD M c _ _ _ okC A0) as (w0 & R0 & O0 & _ & V0).
      pose proof (aval_len _ _ _ _ okC A0).
      pose proof (ms_xor _ _ _ _ 0 _ _ okM leCM S1 ltac:(lia) O0 V0) as S2.
      destruct (m_store0 M _ m1 _ _ 0 om1 okM S2) as (m2 & RS1 & D2 & X0'); [lia|lia|].
      pose proof D2 as (_ & L2 & _).
      assert (E0 : val (nM F) (MEXPAND w0 (nC F) (nM F)) = le_num b0) by (rewrite val_MEXPAND; auto using okM, leCM).
      pose proof (ms_set _ _ _ 0 _ _ S2 ltac:(lia) (okw_MEXPAND w0 (nC F) (nM F) O0) E0) as S3.
      assert (Rsub : sub64 (len (b0 ++ b1)) 8 = len b1).
      { rewrite sub64_small by (unfold len; rewrite app_length; lia). rewrite len_app, L0. lia. }
      destruct (m_dec_last M c _ _ m2 (om1 + 2 * N.of_nat (nM F)) (oc1 + 2 * N.of_nat (nC F)) 1 b1 S3) as (s4 & m4 & R4 & S4 & D4 & A4);
        [lia|lia|intros Hn; apply abytes_short; [exact Hn|lia|exact A1]
        |intros Hn; pose proof (nwords_pos b1 Hn); nia|].
      exists s4, m4. split; [|split; [|split]].
      + step; [apply runs_branch|]. replace (8 <=? len (b0 ++ b1)) with true by (rewrite len_app; lia).
        step; [step; [exact R0|]; cbv zeta; step; [exact RS1|]; step; [apply runs_aoff; lia|]; step; [apply runs_aoff; lia|]; apply runs_ret|].
        cbn beta iota. rewrite Rsub. exact R4.
      + replace (setx (setx v1 0 (le_num b0)) 1 (dword (getx v1 1) b1)) with
          (setx (setx (xorx v1 (N.of_nat 0) (le_num b0)) (N.of_nat 0) (le_num b0)) (N.of_nat 1)
            (dword (getx (setx (xorx v1 (N.of_nat 0) (le_num b0)) (N.of_nat 0) (le_num b0)) (N.of_nat 1)) b1)) by (destruct v1; reflexivity).
        exact S4.
      + eapply differs_sub; [|eapply differs_trans; [exact D2|exact D4]]. cbv beta. lia.
      + rewrite app_length, H0. rewrite firstn_xs1 by lia.
        apply aout_cons; [eapply aval_differs; [exact D4| |exact X0']; cbv beta; lia|].
        apply (aout_last _ _ _ _ (X1 (xor1 (xor1 (xor0 v1 (le_num b0)) (le_num b1)) (PAD (len b1))))).
        * rewrite firstn_length, wb_len. lia.
        * intros Hn. rewrite xor1_comm. destruct v1. apply A4. intros ->. apply Hn. reflexivity.
        * rewrite firstn_length, wb_len. replace (Nat.min (length b1) 8) with (length b1) by lia. reflexivity.
    - destruct (m_dec_last M c _ _ m1 om1 oc1 0 r S1) as (s4 & m4 & R4 & S4 & D4 & A4);
        [lia|lia|intros Hn; apply abytes_short; [exact Hn|lia|exact Ar]
        |intros Hn; pose proof (nwords_pos r Hn); nia|].
      exists s4, m4. split; [|split; [exact S4|split]].
      + step; [apply runs_branch|]. replace (8 <=? len r) with false by (unfold len; lia). step; [apply runs_ret|].
        cbn beta iota. exact R4.
      + eapply differs_sub; [|exact D4]. cbv beta. lia.
      + rewrite firstn_xs0 by lia.
        apply (aout_last _ _ _ _ (X0 (xor0 (xor0 v1 (le_num r)) (PAD (len r))))).
        * rewrite firstn_length, wb_len. lia.
        * intros Hn. rewrite xor0_comm. destruct v1. apply A4. intros ->. apply Hn. reflexivity.
        * rewrite firstn_length, wb_len. replace (Nat.min (length r) 8) with (length r) by lia. reflexivity. }
  destruct L as (s2 & m2 & R2 & S2 & D2 & A2).
  exists s2, (dlast_v v1 r), m2, (ps ++ firstn (length r) (xs (last_v v1 r))).
  split; [|split; [exact S2|split; [|split]]].
  - unfold m_decrypt. step; [exact R1|]. cbn beta iota. exact R2.
  - apply Hout; assumption.
  - rewrite app_length, firstn_length, length_xs. lia.
  - exact E1.
Qed.
End Dec.
