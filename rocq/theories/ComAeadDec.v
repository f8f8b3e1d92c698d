(** * ComAeadDec.v -- the optimised family's AEAD refines the specification: decryption. *)
From Coq Require Import Arith Bool NArith ZArith List Lia Init.Byte Strings.Byte.
From Coq Require Import ZifyBool ZifyNat ZifyN.
From Verif Require Import Words WordFacts Spec SpecFacts CMem Contract CMemFacts ModelRef
  StateRep RefRound RefPrim RefAead RefAeadDec ModelCommon WordLaws ComPrim ComAead.
Import ListNotations.
Local Open Scope N_scope.

(** ** The last word of decryption *)

Lemma testbit_CLEARBYTES x n j : fits 64 x -> n <= 8 ->
  N.testbit (CLEARBYTES x n) j = N.testbit x j && (8 * n <=? j).
Proof.
  intros Hx Hn. unfold CLEARBYTES. rewrite testbit_clear by (auto; lia).
  f_equal. destruct (N.leb_spec (8 * n) j), (N.leb_spec (8 * 0) j),
    (N.ltb_spec j (8 * (0 + N.of_nat (N.to_nat n)))); try lia; reflexivity.
Qed.

Lemma testbit_le_num_high l j : 8 * len l <= j -> N.testbit (le_num l) j = false.
Proof.
  intros H. rewrite testbit_le_num. rewrite nth_overflow; [apply bbit_x00|].
  assert (len l <= j / 8) by (apply N.div_le_lower_bound; lia). unfold len in *. lia.
Qed.

Lemma testbit_PAD_low n j : j < 8 * n -> N.testbit (PAD n) j = false.
Proof.
  intros H. unfold PAD, SETBYTE. rewrite testbit_shlw.
  replace (8 * n <=? j) with false by lia. rewrite ?andb_false_r. reflexivity.
Qed.

Lemma dec_word x r : fits 64 x -> (length r < 8)%nat ->
  N.lxor (CLEARBYTES (N.lxor (N.lxor x (PAD (len r))) (le_num r)) (len r)) (le_num r) =
  N.lxor (N.lor (CLEARBYTES x (len r)) (le_num r)) (PAD (len r)).
Proof.
  intros Hx Hr. apply len_lt8 in Hr as Hn.
  assert (Hl : fits 64 (le_num r)) by (apply fits_le_num8; lia).
  apply N.bits_inj; intro j.
  rewrite !N.lxor_spec, N.lor_spec.
  rewrite !testbit_CLEARBYTES by (auto using fits_lxor, fits_PAD; lia).
  rewrite !N.lxor_spec.
  destruct (N.leb_spec (8 * len r) j) as [H|H].
  - rewrite (testbit_le_num_high r j H). rewrite !andb_true_r, !orb_false_r, !xorb_false_r. reflexivity.
  - rewrite (testbit_PAD_low _ _ H). rewrite !andb_false_r, xorb_false_r.
    destruct (N.testbit (le_num r) j); reflexivity.
Qed.

Lemma clear_nil x : CLEARBYTES x 0 = x.
Proof. reflexivity. Qed.

Lemma setx_0 x0 x1 x2 x3 x4 v : setx (St x0 x1 x2 x3 x4) 0 v = St v x1 x2 x3 x4.
Proof. reflexivity. Qed.
Lemma setx_1 x0 x1 x2 x3 x4 v : setx (St x0 x1 x2 x3 x4) 1 v = St x0 v x2 x3 x4.
Proof. reflexivity. Qed.
Lemma getx_0 s : getx s 0 = X0 s.
Proof. reflexivity. Qed.
Lemma getx_1 s : getx s 1 = X1 s.
Proof. reflexivity. Qed.

Ltac case_ix i := destruct (i =? 0); [|destruct (i =? 1); [|destruct (i =? 2); [|destruct (i =? 3)]]].
Lemma xorx_set u i a : xorx u i a = setx u i (N.lxor (getx u i) a).
Proof. destruct u as [x0 x1 x2 x3 x4]. unfold xorx, setx, getx. case_ix i; reflexivity. Qed.
Lemma setx_setx u i a b : setx (setx u i a) i b = setx u i b.
Proof. destruct u as [x0 x1 x2 x3 x4]. unfold setx. case_ix i; reflexivity. Qed.
Lemma getx_setx u i v : getx (setx u i v) i = v.
Proof. destruct u as [x0 x1 x2 x3 x4]. unfold getx, setx. case_ix i; reflexivity. Qed.

Lemma xs_dlast0 s r : wf s -> (length r < 8)%nat ->
  xs (xorx (setx s 0 (N.lor (CLEARBYTES (getx s 0) (len r)) (le_num r))) 0 (PAD (len r))) =
  xor_at (length r) (r ++ skipn (length r) (xs s)) [x01].
Proof.
  intros W1 Hr. assert (F0 : fits 64 (X0 s)) by apply W1.
  set (sy := setx s 0 _).
  assert (Wsy : wf sy).
  { apply wf_setx; [exact W1|]. apply fits_lor; [|apply fits_le_num8; lia].
    apply fits_CLEARBYTES; [exact F0|apply len_le8; lia]. }
  assert (Esy : xs sy = r ++ skipn (length r) (xs s)).
  { rewrite skipn_xs0 by lia. unfold sy. destruct s as [x0 x1 x2 x3 x4].
    rewrite getx_0, setx_0. unfold xs, SB. cbn [X0 X1 X2 X3 X4] in *. rewrite wb_clear_or by (auto; lia).
    rewrite <- !app_assoc. reflexivity. }
  rewrite <- Esy.
  etransitivity; [apply (xs_PAD sy 0 (len r)); [exact Wsy|lia|apply len_lt8, Hr]|].
  rewrite to_nat_len. reflexivity.
Qed.

Lemma xs_dlast1 s b0 r : wf s -> length b0 = 8%nat -> (length r < 8)%nat ->
  xs (xorx (setx (setx s 0 (le_num b0)) 1 (N.lor (CLEARBYTES (getx s 1) (len r)) (le_num r))) 1 (PAD (len r))) =
  xor_at (length (b0 ++ r)) ((b0 ++ r) ++ skipn (length (b0 ++ r)) (xs s)) [x01].
Proof.
  intros W1 H0 Hr. assert (F1 : fits 64 (X1 s)) by apply W1.
  set (sy := setx (setx _ _ _) 1 _).
  assert (Wsy : wf sy).
  { apply wf_setx; [apply wf_setx; [exact W1|apply fits_le_num8; lia]|]. apply fits_lor; [|apply fits_le_num8; lia].
    apply fits_CLEARBYTES; [exact F1|apply len_le8; lia]. }
  assert (Esy : xs sy = (b0 ++ r) ++ skipn (length (b0 ++ r)) (xs s)).
  { rewrite app_length, H0. rewrite skipn_xs1 by lia. unfold sy. destruct s as [x0 x1 x2 x3 x4].
    rewrite getx_1, setx_0, setx_1. unfold xs, SB. cbn [X0 X1 X2 X3 X4] in *.
    rewrite wb_le_num8 by exact H0. rewrite wb_clear_or by (auto; lia).
    rewrite <- !app_assoc. reflexivity. }
  rewrite <- Esy.
  etransitivity; [apply (xs_PAD sy 1 (len r)); [exact Wsy|lia|apply len_lt8, Hr]|].
  rewrite to_nat_len, app_length, H0. reflexivity.
Qed.

Section ComAeadDec.
Variables (e : endian) (o : wordops) (cn : N -> N).
Hypothesis L : word_laws cn e o.
Notation vs := (ComPrim.vs cn).
Notation word := (ComPrim.word_of e o).

Ltac step := eapply runs_bind.
Ltac ld R := step; [apply (runs_wLOAD e o); [exact R|lia]|].

Lemma cs_xset s i v w : cs cn (setx (xorx s i v) i w) = setx (cs cn s) i (cn w).
Proof.
  rewrite cs_setx. destruct s as [x0 x1 x2 x3 x4]. unfold setx, xorx, xor0, xor1, xor2, xor3, xor4, cs.
  destruct (i =? 0); [|destruct (i =? 1); [|destruct (i =? 2); [|destruct (i =? 3)]]]; reflexivity.
Qed.

Lemma vs_set01 s v w b0 b1 : length b0 = 8%nat -> length b1 = 8%nat ->
  vs (setx (xorx (setx (xorx s 0 v) 0 (word b0)) 1 w) 1 (word b1)) = (b0 ++ b1) ++ skipn 16 (vs s).
Proof.
  intros H0 H1. unfold ComPrim.vs. rewrite !cs_xset. rewrite !(cn_word_of e o cn L) by lia.
  rewrite <- xs_set01 by assumption. destruct (cs cn s). reflexivity.
Qed.

Lemma dec_body_ok M s m c B l t : wf s -> length B = 16%nat -> readable M c (B ++ l ++ t) ->
  writable M m (len (B ++ l)) -> no_overtake m c (len (B ++ l ++ t)) ->
  exists s', runs (dec_body e o (s, m, c, len (B ++ l))) M
      (write M m (xor_into B (vs s))) (s', m + 16, c + 16, len l) /\ wf s' /\
    vs s' = p 8 (B ++ skipn 16 (vs s)).
Proof.
  intros Hs HB R Wr Hno. pose proof (readable_bound _ _ _ R) as Hbd.
  assert (Hlen : len (B ++ l) = 16 + len l) by (rewrite len_app, (len_eq B 16 HB); lia).
  assert (Hlen' : len (B ++ l ++ t) = 16 + len l + len t) by (rewrite !len_app, (len_eq B 16 HB); lia).
  destruct (split_len 8 B) as (b0 & b1 & -> & H0 & L0); [unfold len; lia|]. change (N.of_nat 8) with 8 in L0.
  rewrite app_length in HB. assert (H1 : length b1 = 8%nat) by lia.
  assert (R' := R). rewrite <- app_assoc in R'.
  destruct (readable_app _ _ _ _ R') as (R0 & R12).
  assert (D : disjoint m 8 (c + len b0) (len (b1 ++ l ++ t))).
  { apply no_overtake_disjoint; [rewrite <- app_assoc in Hno; exact Hno|lia]. }
  rewrite L0 in R12, D.
  rewrite Hlen, Hlen' in *. change (16 + len l) with (8 + 8 + len l) in Wr.
  destruct (writable_split _ _ _ _ Wr) as (W16 & _).
  destruct (writable_split _ _ _ _ W16) as (Wa & Wb).
  set (s1 := xorx s 0 (word b0)).
  set (s1' := setx s1 0 (word b0)).
  set (s2 := xorx s1' 1 (word b1)).
  set (s3 := setx s2 1 (word b1)).
  assert (Fb0 : fits 64 (word b0)) by (apply (fits_word_of e o cn L); lia).
  assert (Fb1 : fits 64 (word b1)) by (apply (fits_word_of e o cn L); lia).
  assert (W1 : wf s1) by (apply (wf_word e o cn L); [exact Hs|lia]).
  assert (W1' : wf s1') by (apply wf_setx; assumption).
  assert (W2 : wf s2) by (apply (wf_word e o cn L); [exact W1'|lia]).
  assert (W3 : wf s3) by (apply wf_setx; assumption).
  assert (E3 : vs s3 = (b0 ++ b1) ++ skipn 16 (vs s)) by (apply vs_set01; assumption).
  assert (F1 : fits 64 (X0 s1)) by apply W1.
  assert (F2 : fits 64 (X1 s2)) by apply W2.
  assert (R1 : readable (write M m (wb (cn (X0 s1)))) (c + 8) b1).
  { eapply (readable_app _ _ b1 (l ++ t)). apply readable_write_disjoint; [exact R12|].
    rewrite len_wb. exact D. }
  exists (w_P o 8 s3). split; [|split].
  - unfold dec_body. ld R0. fold s1.
    step; [apply (runs_wSTORE e o cn L); [exact Wa|exact F1]|]. cbn zeta. fold s1'.
    step; [apply runs_padd; [lia|intros _; eapply readable_nonnull; [exact R|lia]]|].
    ld R1. fold s2.
    step; [eapply runs_padd_writable; [exact (writable_write _ _ _ _ _ Wr)|lia]|].
    step; [apply (runs_wSTORE e o cn L); [apply writable_write; exact Wb|exact F2]|]. fold s3.
    step; [eapply runs_padd_writable; [exact (writable_write _ _ _ _ _ (writable_write _ _ _ _ _ Wr))|lia]|].
    step; [apply runs_padd; [lia|intros _; eapply readable_nonnull; [exact R|lia]]|].
    rewrite sub64_small by lia.
    replace (16 + len l - 16) with (len l) by lia.
    replace (xor_into (b0 ++ b1) (vs s)) with (wb (cn (X0 s1)) ++ wb (cn (X1 s2))).
    { rewrite write_app, len_wb. apply runs_ret. }
    rewrite xor_into_block by (rewrite length_vs, app_length; lia).
    rewrite <- (vs_block e o cn L) by lia. rewrite app_length, HB.
    change (8 + 8)%nat with 16%nat. unfold ComPrim.vs. rewrite firstn16_xs.
    destruct s as [x0 x1 x2 x3 x4]. reflexivity.
  - apply (wf_wP8 e o cn L), W3.
  - rewrite (vs_P8 e o cn L) by exact W3. rewrite E3. reflexivity.
Qed.

Lemma dec_while f : forall M s m c l t, wf s -> readable M c (l ++ t) -> writable M m (len l) ->
  no_overtake m c (len (l ++ t)) -> (N.to_nat (len l / 16) < f)%nat ->
  exists s' ms r, runs (while f econd (dec_body e o) (s, m, c, len l)) M (write M m ms)
      (s', m + len ms, c + len ms, len r) /\
    wf s' /\ (length r < 16)%nat /\ length l = (length ms + length r)%nat /\
    readable (write M m ms) (c + len ms) (r ++ t) /\
    no_overtake (m + len ms) (c + len ms) (len (r ++ t)) /\
    dec_blocks (length l) (vs s) l =
      (let '(S2, m2) := dec_blocks (length r) (vs s') r in (S2, ms ++ m2)).
Proof.
  induction f as [|f IH]; intros M s m c l t Hs R Wr Hno Hf; [lia|].
  destruct (N.leb_spec 16 (len l)) as [H|H].
  - destruct (split_len 16 l) as (B & l' & -> & HB & LB); [exact H|]. change (N.of_nat 16) with 16 in LB.
    rewrite <- app_assoc in R, Hno.
    destruct (dec_body_ok M s m c B l' t Hs HB R Wr Hno) as (s1 & Rn & W1 & E1).
    set (mb := xor_into B (vs s)) in *.
    assert (Hmb : length mb = 16%nat) by (unfold mb; rewrite length_xor_into; exact HB).
    assert (Lmb : len mb = 16) by (apply (len_eq mb 16 Hmb)).
    destruct (readable_app _ _ _ _ R) as (_ & R').
    assert (R2 : readable (write M m mb) (c + 16) (l' ++ t)).
    { rewrite LB in R'. apply readable_write_disjoint; [exact R'|]. rewrite <- LB.
      apply no_overtake_disjoint; [exact Hno|lia]. }
    rewrite len_app, LB in Wr. destruct (writable_split _ _ _ _ Wr) as (_ & Wr').
    destruct (IH (write M m mb) s1 (m + 16) (c + 16) l' t W1 R2) as
      (s2 & ms & r & Rn2 & W2 & Hr & Hl & Rr & Hno2 & E2).
    { apply writable_write, Wr'. }
    { rewrite <- LB. apply no_overtake_step, Hno. }
    { eapply (div16_step f B l'); [lia|exact LB|exact Hf]. }
    assert (Ew : write (write M m mb) (m + 16) ms = write M m (mb ++ ms))
      by (rewrite write_app, Lmb; reflexivity).
    rewrite Ew in Rn2, Rr.
    replace (m + 16 + len ms) with (m + len (mb ++ ms)) in * by (rewrite len_app; lia).
    replace (c + 16 + len ms) with (c + len (mb ++ ms)) in * by (rewrite len_app; lia).
    exists s2, (mb ++ ms), r.
    split; [|split; [exact W2|split; [exact Hr|split; [|split; [exact Rr|split; [exact Hno2|]]]]]].
    + eapply runs_while_step; [|exact Rn|exact Rn2].
      unfold econd. lia.
    + rewrite !app_length. lia.
    + rewrite app_length, HB. change (16 + length l')%nat with (Datatypes.S (15 + length l')).
      rewrite dec_blocks_step by exact HB. rewrite <- E1.
      rewrite (dec_blocks_fuel (15 + length l') (length l')) by lia. rewrite E2.
      fold mb. destruct (dec_blocks (length r) (vs s2) r) as [S2 m2]. rewrite app_assoc. reflexivity.
  - exists s, [], l. rewrite len_nil, !N.add_0_r. cbn [write].
    split; [|split; [exact Hs|split; [unfold len in H; lia|split; [reflexivity|split; [exact R|split; [exact Hno|]]]]]].
    + apply runs_while_end. unfold econd. lia.
    + destruct (dec_blocks _ _ _); reflexivity.
Qed.

(** The last partial word. *)
Lemma dtail_ok M s px m c r : wf s -> px < 5 -> readable M c r -> writable M m (len r) -> (length r < 8)%nat ->
  exists s', runs (
      pad <- wPAD o (len r) ;; let s := xorx s px pad in
      b <- branch (negb (len r =? 0)) ;;
      if b : bool then
        cx <- wLOADBYTES e o c (len r) ;;
        let s := xorx s px cx in
        wSTOREBYTES e o m (getx s px) (len r) ;;;
        x <- wCLEAR o (getx s px) (len r) ;; let s := setx s px x in
        ret (xorx s px cx)
      else ret s) M
      (write M m (firstn (length r)
        (wb (getx (xorx (xorx (cs cn s) px (PAD (len r))) px (le_num r)) px)))) s' /\
    wf s' /\ cs cn s' = xorx (setx (cs cn s) px (N.lor (CLEARBYTES (getx (cs cn s) px) (len r)) (le_num r)))
       px (PAD (len r)).
Proof.
  intros Hs Hpx R W Hr.
  set (sp := xorx s px (w_pad o (len r))).
  assert (Wsp : wf sp) by (apply (wf_pad e o cn L); [exact Hs|apply len_lt8, Hr]).
  assert (Ep : cs cn sp = xorx (cs cn s) px (PAD (len r))) by (apply (cs_pad e o cn L), len_lt8, Hr).
  destruct (N.eqb_spec (len r) 0) as [E|E].
  - apply len_0 in E. subst r. exists sp. split; [|split; [exact Wsp|]].
    + cbn [length firstn write].
      step; [apply runs_wPAD; reflexivity|]. cbn zeta. fold sp.
      step; [apply runs_branch|]. rewrite len_nil. cbn [negb N.eqb]. apply runs_ret.
    + rewrite Ep. apply (f_equal (fun u => xorx u px (PAD 0))). rewrite len_nil, clear_nil. cbn [le_num].
      rewrite N.lor_0_r. destruct (cs cn s) as [x0 x1 x2 x3 x4]. unfold setx, getx. cbn [X0 X1 X2 X3 X4].
      destruct (px =? 0); [|destruct (px =? 1); [|destruct (px =? 2); [|destruct (px =? 3)]]]; reflexivity.
  - set (sx := xorx sp px (word r)).
    assert (Wsx : wf sx) by (apply (wf_word e o cn L); [exact Wsp|lia]).
    assert (Ex : cs cn sx = xorx (xorx (cs cn s) px (PAD (len r))) px (le_num r)).
    { unfold sx. rewrite (cs_word e o cn L), Ep by lia. reflexivity. }
    assert (Fx : fits 64 (getx sx px)) by (apply fits_getx, Wsx).
    assert (Nm : m <> 0) by (apply W, E).
    assert (Nc : c <> 0) by (eapply readable_nonnull; [exact R|exact E]).
    destruct (l_clear _ _ _ L (getx sx px) (len r) Fx (len_lt8 _ Hr)) as [Fc Ec].
    set (z := w_clear o (getx sx px) (len r)) in *.
    exists (xorx (setx sx px z) px (word r)). split; [|split].
    + step; [apply runs_wPAD, len_lt8, Hr|]. cbn zeta. fold sp.
      step; [apply runs_branch|]. cbn [negb].
      step; [apply (runs_wLOADBYTES e o); [exact R|reflexivity|lia|exact Nc]|]. fold sx.
      rewrite <- Ex, <- cn_getx, <- to_nat_len.
      step; [apply (runs_wSTOREBYTES e o cn L); [exact W|apply len_le8; lia|exact Nm|exact Fx]|].
      step; [apply runs_wCLEAR, len_lt8, Hr|]. fold z. apply runs_ret.
    + apply (wf_word e o cn L); [apply wf_setx; assumption|lia].
    + rewrite (cs_word e o cn L), cs_setx, Ec, cn_getx, Ex by lia.
      pose proof (fits_getx _ px (wf_cs e o cn L s)) as G.
      rewrite !xorx_set, !getx_setx, !setx_setx.
      rewrite dec_word by assumption. reflexivity.
Qed.

Lemma dec_last_ok M1 s1 m1 c1 r t : wf s1 -> readable M1 c1 (r ++ t) -> writable M1 m1 (len r) ->
  no_overtake m1 c1 (len (r ++ t)) -> (length r < 16)%nat ->
  exists s2, wf s2 /\ vs s2 = xor_at (length r) (r ++ skipn (length r) (vs s1)) [x01] /\
    runs (dec_last e o s1 m1 c1 (len r)) M1 (write M1 m1 (xor_into r (vs s1))) s2.
Proof.
  intros W1 Rr Wr' Hno2 Hr. unfold dec_last.
  destruct (readable_app _ _ _ _ Rr) as (Rr1 & Rr2).
  set (S2 := xor_at (length r) (r ++ skipn (length r) (vs s1)) [x01]) in *.
  pose proof (readable_bound _ _ _ Rr1) as Hbr. pose proof (writable_bound _ _ _ Wr') as Hbr'.
  pose proof (wf_cs e o cn L s1) as Wc1.
  destruct (N.leb_spec 8 (len r)) as [H8|H8].
  - destruct (split_len 8 r) as (b0 & b1 & -> & H0 & L0); [lia|]. change (N.of_nat 8) with 8 in L0.
    rewrite app_length in Hr. assert (H1 : (length b1 < 8)%nat) by lia.
    destruct (readable_app _ _ _ _ Rr1) as (R0 & R1).
    assert (Hno3 : no_overtake m1 c1 (len (b0 ++ b1 ++ t))) by (rewrite app_assoc; exact Hno2).
    pose proof (no_overtake_disjoint _ _ _ _ 8 Hno3 ltac:(lia)) as D.
    rewrite L0 in R1, D.
    assert (Wc := Wr').
    rewrite len_app, L0 in Wr'. destruct (writable_split _ _ _ _ Wr') as (Wa & Wb).
    set (s0 := xorx s1 0 (word b0)).
    assert (W0 : wf s0) by (apply (wf_word e o cn L); [exact W1|lia]).
    assert (F0 : fits 64 (X0 s0)) by apply W0.
    set (s0' := setx s0 0 (word b0)).
    assert (W0' : wf s0') by (apply wf_setx; [exact W0|apply (fits_word_of e o cn L); lia]).
    assert (E0' : cs cn s0' = setx (cs cn s1) 0 (le_num b0)).
    { unfold s0', s0. rewrite cs_xset, (cn_word_of e o cn L) by lia. reflexivity. }
    destruct (dtail_ok (write M1 m1 (wb (cn (X0 s0)))) s0' 1 (m1 + 8) (c1 + 8) b1 W0') as (s3 & Rn3 & W3 & E3).
    { lia. }
    { apply readable_write_disjoint; [exact R1|rewrite len_wb].
      revert D. unfold disjoint. rewrite len_app. lia. }
    { apply writable_write, Wb. }
    { exact H1. }
    exists s3. split; [exact W3|split].
    { unfold ComPrim.vs, S2. rewrite E3, E0'. unfold ComPrim.vs. rewrite <- xs_dlast1 by assumption.
      destruct (cs cn s1). reflexivity. }
    step; [apply runs_branch|]. cbn beta iota.
    step.
    { ld R0. fold s0.
      step; [apply (runs_wSTORE e o cn L); [exact Wa|exact F0]|]. cbn zeta. fold s0'.
      step; [eapply runs_padd_writable; [apply writable_write; exact Wc|lia]|].
      step; [apply runs_padd; [lia|intros _; eapply readable_nonnull; [exact Rr1|lia]]|].
      rewrite sub64_small by lia.
      replace (len (b0 ++ b1) - 8) with (len b1) by (rewrite len_app; lia).
      apply runs_ret. }
    cbn beta iota.
    replace (write M1 m1 (xor_into (b0 ++ b1) (vs s1))) with
      (write (write M1 m1 (wb (cn (X0 s0)))) (m1 + 8) (firstn (length b1)
        (wb (getx (xorx (xorx (cs cn s0') 1 (PAD (len b1))) 1 (le_num b1)) 1)))); [exact Rn3|].
    rewrite <- (len_wb (cn (X0 s0))), <- write_app.
    apply (f_equal (write M1 m1)).
    rewrite xor_into_block by (rewrite length_vs, app_length; lia).
    rewrite <- (firstn_xor_at (length (b0 ++ b1)) (length (b0 ++ b1)) (xor_into (vs s1) (b0 ++ b1)) [x01])
      by (rewrite ?length_xor_into, ?length_vs, ?app_length; lia).
    unfold ComPrim.vs. rewrite <- xs_last1 by assumption.
    rewrite app_length, H0, firstn_xs1 by lia.
    change (cn (X0 s0)) with (X0 (cs cn s0)). unfold s0. rewrite (cs_word e o cn L) by lia.
    rewrite E0'. destruct (cs cn s1) as [x0 x1 x2 x3 x4].
    rewrite (xorx_comm _ 1). reflexivity.
  - assert (H1 : (length r < 8)%nat) by (unfold len in H8; lia).
    destruct (dtail_ok M1 s1 0 m1 c1 r W1) as (s3 & Rn3 & W3 & E3); [lia|exact Rr1|exact Wr'|exact H1|].
    exists s3. split; [exact W3|split].
    { unfold ComPrim.vs, S2. rewrite E3. apply xs_dlast0; assumption. }
    step; [apply runs_branch|]. cbn beta iota.
    step; [apply runs_ret|]. cbn beta iota.
    replace (xor_into r (vs s1)) with (firstn (length r)
        (wb (getx (xorx (xorx (cs cn s1) 0 (PAD (len r))) 0 (le_num r)) 0))); [exact Rn3|].
    rewrite xor_into_block by (rewrite length_vs; lia).
    rewrite <- (firstn_xor_at (length r) (length r) (xor_into (vs s1) r) [x01])
      by (rewrite ?length_xor_into, ?length_vs; lia).
    unfold ComPrim.vs. rewrite <- xs_last0 by assumption.
    rewrite firstn_xs0 by lia. rewrite xorx_comm. reflexivity.
Qed.

Lemma decrypt_data_ok M s m c l t : wf s -> readable M c (l ++ t) -> writable M m (len l) ->
  no_overtake m c (len (l ++ t)) ->
  exists s' mb, dec_blocks (length l) (vs s) l = (vs s', mb) /\ wf s' /\ length mb = length l /\
    readable (write M m mb) (c + len l) t /\
    runs (ascon_decrypt e o s m c (len l)) M (write M m mb) s'.
Proof.
  intros Hs R Wr Hno. pose proof (readable_bound _ _ _ R) as Hbd. rewrite len_app in Hbd.
  pose proof (writable_bound _ _ _ Wr) as Hbw.
  destruct (dec_while (fuel (len l) 16) M s m c l t Hs R Wr Hno) as
    (s1 & ms & r & Rn & W1 & Hr & Hl & Rr & Hno2 & E1); [unfold fuel; lia|].
  assert (Ll : len l = len ms + len r) by (unfold len; lia).
  rewrite (dec_blocks_short _ _ r) in E1 by exact Hr.
  assert (Wr' : writable (write M m ms) (m + len ms) (len r)).
  { rewrite Ll in Wr. apply writable_split in Wr. apply writable_write, Wr. }
  destruct (readable_app _ _ _ _ Rr) as (Rr1 & Rr2).
  set (S2 := xor_at (length r) (r ++ skipn (length r) (vs s1)) [x01]) in *.
  set (M1 := write M m ms) in *. set (m1 := m + len ms) in *. set (c1 := c + len ms) in *.
  destruct (dec_last_ok M1 s1 m1 c1 r t W1 Rr Wr' Hno2 Hr) as (s2 & W2 & E2 & Rn2).
  exists s2, (ms ++ xor_into r (vs s1)).
  assert (Ew : write M m (ms ++ xor_into r (vs s1)) =
    write M1 m1 (xor_into r (vs s1))) by apply write_app.
  split; [rewrite E2; exact E1|]. split; [exact W2|]. split; [rewrite app_length, length_xor_into; lia|].
  split.
  - rewrite Ew. replace (c + len l) with (c1 + len r) by (unfold c1; lia).
    apply readable_write_disjoint; [exact Rr2|].
    apply no_overtake_disjoint; [exact Hno2|]. unfold len. rewrite length_xor_into. lia.
  - rewrite Ew. unfold ascon_decrypt.
    step; [exact Rn|]. cbn beta iota. exact Rn2.
Qed.

(** ** Tag comparison *)

Lemma wb_inj x y : fits 64 x -> fits 64 y -> wb x = wb y -> x = y.
Proof.
  intros Hx Hy H. apply (f_equal le_num) in H. unfold wb in H. rewrite !le_num_le_bytes in H.
  rewrite !trunc_fits in H by assumption. exact H.
Qed.

Lemma cn_zero_iff x l : fits 64 x -> length l = 8%nat ->
  (N.lxor x (word l) = 0 <-> wb (cn x) = l).
Proof.
  intros Hx Hl.
  assert (El : wb (cn (word l)) = l) by (rewrite (cn_word_of e o cn L l) by lia; apply wb_le_num8, Hl).
  assert (Fw : fits 64 (word l)) by (apply (fits_word_of e o cn L); lia).
  split.
  - intros H. apply N.lxor_eq in H. rewrite H. exact El.
  - intros H. apply (l_zero _ _ _ L); [apply fits_lxor; assumption|].
    rewrite (l_xor _ _ _ L). rewrite <- El in H. apply wb_inj in H; try apply (l_fits _ _ _ L).
    rewrite H. apply N.lxor_nilpotent.
Qed.

Lemma verify_ok M s t tag : wf s -> is16 tag -> readable M t tag ->
  runs (ascon_verify e o s t) M M
    (if list_eq_dec Byte.byte_eq_dec (wb (cn (X3 s)) ++ wb (cn (X4 s))) tag then 0 else -1)%Z.
Proof.
  intros Hs Ht R. unfold is16 in Ht.
  destruct (split_len 8 tag) as (t0 & t1 & -> & H0 & L0); [unfold len; lia|].
  rewrite app_length in Ht. assert (H1 : length t1 = 8%nat) by lia.
  destruct (readable_app _ _ _ _ R) as (R0 & R1). change (N.of_nat 8) with 8 in L0. rewrite L0 in R1.
  assert (F3 : fits 64 (X3 s)) by apply Hs. assert (F4 : fits 64 (X4 s)) by apply Hs.
  assert (G0 : fits 64 (word t0)) by (apply (fits_word_of e o cn L); lia).
  assert (G1 : fits 64 (word t1)) by (apply (fits_word_of e o cn L); lia).
  unfold ascon_verify. ld R0.
  step; [eapply runs_padd_readable; [exact R|rewrite len_app; lia]|].
  ld R1. cbn zeta.
  replace (X3 (xorx (xorx s 3 (word t0)) 4 (word t1))) with (N.lxor (X3 s) (word t0)) by (destruct s; reflexivity).
  replace (X4 (xorx (xorx s 3 (word t0)) 4 (word t1))) with (N.lxor (X4 s) (word t1)) by (destruct s; reflexivity).
  rewrite NOTZERO_ok by (apply fits_lxor; assumption).
  pose proof (cn_zero_iff (X3 s) t0 F3 H0) as Z0. pose proof (cn_zero_iff (X4 s) t1 F4 H1) as Z1.
  match goal with |- runs _ _ _ ?v => match goal with |- runs (ret ?w) _ _ _ => replace v with w; [apply runs_ret|] end end.
  destruct (N.eqb_spec (N.lxor (X3 s) (word t0)) 0) as [A|A].
  - apply Z0 in A. destruct (N.eqb_spec (N.lxor (X4 s) (word t1)) 0) as [B|B].
    + apply Z1 in B. rewrite A, B. cbn [andb]. destruct (list_eq_dec _ _ _); [reflexivity|congruence].
    + cbn [andb]. destruct (list_eq_dec _ _ _) as [C|C]; [|reflexivity].
      rewrite A in C. apply app_inv_head in C. exfalso. apply B, Z1, C.
  - cbn [andb]. destruct (list_eq_dec _ _ _) as [C|C]; [|reflexivity].
    exfalso. apply A, Z0. apply (f_equal (firstn 8)) in C.
    rewrite !firstn_app_exact in C by (rewrite ?wb_len; lia). exact C.
Qed.

(** ** Decryption, complete *)

Theorem com_decrypt_short M m mlen nsec c clen ad adlen npub k :
  clen < 16 -> runs (com_aead_decrypt e o m mlen nsec c clen ad adlen npub k) M M (-1)%Z.
Proof.
  intros H. unfold com_aead_decrypt, CRYPTO_ABYTES.
  step; [apply runs_branch|]. replace (clen <? 16) with true by lia. apply runs_ret.
Qed.

Theorem com_decrypt_ok M m mlen nsec c ad npub k kb nb adb body tag mb t :
  is16 kb -> is16 nb -> is16 tag ->
  readable M k kb -> readable M npub nb -> readable M ad adb -> readable M c (body ++ tag) ->
  writable M m (len body) -> writable M mlen 8 ->
  disjoint mlen 8 k 16 -> disjoint mlen 8 npub 16 -> disjoint mlen 8 ad (len adb) ->
  disjoint mlen 8 c (len (body ++ tag)) ->
  no_overtake m c (len (body ++ tag)) ->
  aead_open kb nb adb body = (mb, t) ->
  runs (com_aead_decrypt e o m mlen nsec c (len (body ++ tag)) ad (len adb) npub k) M
    (write (write M mlen (to_host e 8 (len body))) m mb)
    (if list_eq_dec Byte.byte_eq_dec t tag then 0 else -1)%Z
  /\ length mb = length body /\ is16 t.
Proof.
  intros Hk Hn Ht Rk Rn Ra Rc Wm Wml Dk Dn Da Dc Hno Hopen.
  pose proof (readable_bound _ _ _ Rc) as Hbd.
  set (M1 := write M mlen (to_host e 8 (len body))).
  assert (Lh : len (to_host e 8 (len body)) = 8) by (unfold len at 1; rewrite length_to_host; reflexivity).
  assert (Lk : len kb = 16) by (apply (len_eq kb 16), Hk).
  assert (Ln : len nb = 16) by (apply (len_eq nb 16), Hn).
  assert (Lt : len tag = 16) by (apply (len_eq tag 16), Ht).
  assert (Lb : len (body ++ tag) = len body + 16) by (rewrite len_app; lia).
  assert (Rk1 : readable M1 k kb) by (apply readable_write_disjoint; [exact Rk|rewrite Lh, Lk; exact Dk]).
  assert (Rn1 : readable M1 npub nb) by (apply readable_write_disjoint; [exact Rn|rewrite Lh, Ln; exact Dn]).
  assert (Ra1 : readable M1 ad adb) by (apply readable_write_disjoint; [exact Ra|rewrite Lh; exact Da]).
  assert (Rc1 : readable M1 c (body ++ tag)) by (apply readable_write_disjoint; [exact Rc|rewrite Lh; exact Dc]).
  assert (Wm1 : writable M1 m (len body)) by (apply writable_write, Wm).
  assert (Fb : fits 64 (len body)) by (unfold fits; lia).
  assert (Rl : readable M1 mlen (to_host e 8 (len body))).
  { apply readable_write_self; [rewrite Lh; apply (writable_bound _ _ _ Wml)|]. intros _. apply Wml. discriminate. }
  unfold is16 in Hk.
  destruct (split_len 8 kb) as (k0 & k1 & -> & H0 & L0); [lia|].
  rewrite app_length in Hk. assert (H1 : length k1 = 8%nat) by lia.
  pose proof (loadkey_ok e o M1 k k0 k1 H0 H1 Rk1) as Rnk.
  destruct (initaead_ok e o cn L M1 npub k0 k1 nb H0 H1 Hn Rn1) as (s0 & Rn0 & W0 & E0).
  destruct (adata_ok e o cn L M1 s0 ad adb W0 Ra1) as (s1 & W1 & Ws1 & E1).
  destruct (decrypt_data_ok M1 s1 m c body tag Ws1 Rc1 Wm1 Hno) as (s2 & mb' & E2 & W2 & Hmb & Rt & Rn2).
  destruct (final_ok e o cn L s2 k0 k1 W2 H0 H1) as (W3 & E3).
  set (s3 := ascon_final o s2 (word k0, word k1)) in *.
  unfold aead_open in Hopen. rewrite <- E0, <- E1, E2 in Hopen. inversion Hopen; subst mb t. clear Hopen.
  assert (L16 : is16 (aead_tag (k0 ++ k1) (vs s2))).
  { unfold is16. rewrite <- E3, app_length, !wb_len. reflexivity. }
  split; [|split; [exact Hmb|exact L16]].
  unfold com_aead_decrypt, CRYPTO_ABYTES.
  step; [apply runs_branch|].
  replace (len (body ++ tag) <? 16) with false by lia.
  step; [apply runs_store_ull; exact Wml|].
  rewrite sub64_small by lia. replace (len (body ++ tag) - 16) with (len body) by lia. fold M1.
  step; [apply runs_load_ull; [exact Rl|exact Fb]|].
  step; [eapply runs_padd_readable; [exact Rc1|lia]|].
  step; [apply runs_load_ull; [exact Rl|exact Fb]|].
  unfold ascon_aead_decrypt.
  step; [exact Rnk|].
  step; [exact Rn0|].
  step; [exact W1|].
  step; [exact Rn2|]. cbn zeta. fold s3.
  rewrite <- E3. apply verify_ok; [exact W3|exact Ht|exact Rt].
Qed.
End ComAeadDec.
