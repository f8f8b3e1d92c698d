(** * ComPrf.v -- the optimised family's MAC, PRF and PRFshort refine the specification. *)
From Coq Require Import Arith Bool NArith ZArith List Lia Init.Byte Strings.Byte.
From Coq Require Import ZifyBool ZifyNat ZifyN.
From Verif Require Import Words WordFacts Spec SpecFacts CMem Contract CMemFacts ModelRef
  StateRep RefRound RefPrim RefAead RefAeadDec RefHash RefPrf RefPrfs ModelCommon WordLaws ComPrim ComAead.
Import ListNotations.
Local Open Scope N_scope.

Lemma rest1_more_gen n u u' : wf u -> xs u' = p 12 (xs u) -> 8 < n ->
  rest 1 n u = wb (X1 u) ++ rest 0 (n - 8) u'.
Proof.
  intros Hu E H. rewrite rest1_more by assumption. f_equal. unfold rest.
  rewrite xs_P12, E by exact Hu. reflexivity.
Qed.

Section ComPrf.
Variables (e : endian) (o : wordops) (cn : N -> N).
Hypothesis L : word_laws cn e o.
Notation vs := (ComPrim.vs cn).
Notation word := (ComPrim.word_of e o).

Ltac step := eapply runs_bind.
Ltac ld R := step; [apply (runs_wLOAD e o); [exact R|lia]|].

Lemma prf_absorb_while f : forall M s S0 acc i inp l, wf s -> length S0 = 40%nat ->
  vs s = xor_into S0 acc -> length acc = (8 * N.to_nat i)%nat -> i < 4 ->
  readable M inp l -> (N.to_nat (len l / 8) < f)%nat ->
  exists s' S0' acc' i' inp' r,
    runs (while f pcond (prf_absorb_body e o) (s, i, inp, len l)) M M (s', i', inp', len r) /\
    wf s' /\ length S0' = 40%nat /\ vs s' = xor_into S0' acc' /\
    length acc' = (8 * N.to_nat i')%nat /\ i' < 4 /\
    (length r < 8)%nat /\ readable M inp' r /\
    prf_absorb S0 (chunks 32 (pad 32 (acc ++ l))) = prf_absorb S0' (chunks 32 (pad 32 (acc' ++ r))).
Proof.
  induction f as [|f IH]; intros M s S0 acc i inp l Hs HS0 Es Hacc Hi R Hf; [lia|].
  pose proof (readable_bound _ _ _ R) as Hbd.
  destruct (N.leb_spec 8 (len l)) as [H|H].
  - destruct (split_len 8 l) as (B & l' & -> & HB & LB); [exact H|]. change (N.of_nat 8) with 8 in LB.
    destruct (readable_app _ _ _ _ R) as (R0 & R'). rewrite LB in R'.
    set (s1 := xorx s i (word B)).
    assert (W1 : wf s1) by (apply (wf_word e o cn L); [exact Hs|lia]).
    assert (E1 : vs s1 = xor_into S0 (acc ++ B)).
    { unfold s1. rewrite (vs_word e o cn L) by lia. rewrite Es.
      rewrite xor_into_app by lia. rewrite Hacc. reflexivity. }
    assert (Hstep : forall s2 i2,
      (if i + 1 =? 4 then 0 else i + 1) = i2 -> (if i2 =? 0 then w_P o 12 s1 else s1) = s2 ->
      runs (prf_absorb_body e o (s, i, inp, len (B ++ l'))) M M (s2, i2, inp + 8, len l')).
    { intros s2 i2 H2 H3. unfold prf_absorb_body. ld R0.
      fold s1. step; [apply runs_branch|]. cbn zeta. rewrite H2.
      step; [apply runs_branch|]. cbn zeta. rewrite H3.
      step; [eapply runs_padd_readable; [exact R|lia]|].
      rewrite sub64_small by lia.
      replace (len (B ++ l') - 8) with (len l') by (rewrite len_app; lia). apply runs_ret. }
    assert (Hf' : (N.to_nat (len l' / 8) < f)%nat)
      by (eapply (div16_step f B l'); [lia|exact LB|exact Hf]).
    destruct (N.eq_dec i 3) as [->|Hi3].
    + destruct (IH M (w_P o 12 s1) (p 12 (xor_into S0 (acc ++ B))) [] 0 (inp + 8) l') as
        (s2 & S2 & acc2 & i2 & in2 & r & Rn2 & H2).
      { apply (wf_wP12 e o cn L), W1. } { apply length_p. }
      { rewrite xor_into_nil, (vs_P12 e o cn L), E1 by exact W1. reflexivity. }
      { reflexivity. } { lia. } { exact R'. } { exact Hf'. }
      exists s2, S2, acc2, i2, in2, r. split.
      * eapply runs_while_step; [unfold pcond; lia|apply Hstep; reflexivity|exact Rn2].
      * destruct H2 as (A1 & A2 & A3 & A4 & A5 & A6 & A7 & A8). repeat (split; [assumption|]).
        rewrite app_assoc, chunks_pad_full.
        -- rewrite prf_absorb_cons by (apply chunks_pad_not_nil; lia). exact A8.
        -- lia.
        -- rewrite app_length, Hacc, HB. reflexivity.
    + destruct (IH M s1 S0 (acc ++ B) (i + 1) (inp + 8) l') as
        (s2 & S2 & acc2 & i2 & in2 & r & Rn2 & H2).
      { exact W1. } { exact HS0. } { exact E1. } { rewrite app_length. lia. } { lia. }
      { exact R'. } { exact Hf'. }
      exists s2, S2, acc2, i2, in2, r. split.
      * eapply runs_while_step; [unfold pcond; lia| |exact Rn2].
        apply Hstep.
        -- replace (i + 1 =? 4) with false by lia. reflexivity.
        -- replace (i + 1 =? 0) with false by lia. reflexivity.
      * rewrite app_assoc. exact H2.
  - exists s, S0, acc, i, inp, l.
    split; [apply runs_while_end; unfold pcond; lia|].
    repeat (split; [assumption|]). split; [unfold len in H; lia|]. split; [exact R|reflexivity].
Qed.

Lemma prf_squeeze_while f : forall M s i out n, wf s -> i < 2 -> writable M out n ->
  (N.to_nat (n / 8) < f)%nat ->
  exists s' i' os r, runs (while f pqcond (prf_squeeze_body e o) (s, i, out, n)) M (write M out os)
      (s', i', out + len os, r) /\
    wf s' /\ i' < 2 /\ r <= 8 /\ n = len os + r /\
    rest i n (cs cn s) = os ++ rest i' r (cs cn s').
Proof.
  induction f as [|f IH]; intros M s i out n Hs Hi W Hf; [lia|].
  pose proof (writable_bound _ _ _ W) as Hbd.
  destruct (N.ltb_spec 8 n) as [H|H].
  - assert (W' := W). replace n with (8 + (n - 8)) in W' by lia.
    destruct (writable_split _ _ _ _ W') as (W8 & Wr).
    assert (Hf' : (N.to_nat ((n - 8) / 8) < f)%nat) by (apply div_step_gt; [lia|exact H|exact Hf]).
    set (b := wb (cn (getx s i))).
    assert (Lo : len b = 8) by apply len_wb.
    assert (Ew : forall os, write (write M out b) (out + 8) os = write M out (b ++ os))
      by (intros os; rewrite write_app, Lo; reflexivity).
    assert (Hstep : forall s2 i2,
      (if i + 1 =? 2 then 0 else i + 1) = i2 -> (if i2 =? 0 then w_P o 12 s else s) = s2 ->
      runs (prf_squeeze_body e o (s, i, out, n)) M (write M out b) (s2, i2, out + 8, n - 8)).
    { intros s2 i2 H2 H3. unfold prf_squeeze_body.
      step; [apply (runs_wSTORE e o cn L); [exact W8|apply fits_getx, Hs]|].
      step; [apply runs_branch|]. cbn zeta. rewrite H2.
      step; [apply runs_branch|]. cbn zeta. rewrite H3.
      step; [eapply runs_padd_writable; [apply writable_write, W|lia]|].
      rewrite sub64_small by lia. apply runs_ret. }
    assert (D : i = 0 \/ i = 1) by lia. destruct D as [-> | ->].
    + destruct (IH (write M out b) s 1 (out + 8) (n - 8)) as
        (s2 & i2 & os & r & Rn2 & W2 & Hi2 & Hr & Hn & E2).
      { exact Hs. } { lia. } { apply writable_write, Wr. } { exact Hf'. }
      rewrite Ew in Rn2.
      replace (out + 8 + len os) with (out + len (b ++ os)) in Rn2 by (rewrite len_app; lia).
      exists s2, i2, (b ++ os), r.
      split; [|split; [exact W2|split; [exact Hi2|split; [exact Hr|split]]]].
      * eapply runs_while_step; [unfold pqcond; lia| |exact Rn2]. apply Hstep; reflexivity.
      * rewrite len_app. lia.
      * rewrite rest0_more by exact H. rewrite E2, app_assoc. reflexivity.
    + destruct (IH (write M out b) (w_P o 12 s) 0 (out + 8) (n - 8)) as
        (s2 & i2 & os & r & Rn2 & W2 & Hi2 & Hr & Hn & E2).
      { apply (wf_wP12 e o cn L), Hs. } { lia. } { apply writable_write, Wr. } { exact Hf'. }
      rewrite Ew in Rn2.
      replace (out + 8 + len os) with (out + len (b ++ os)) in Rn2 by (rewrite len_app; lia).
      exists s2, i2, (b ++ os), r.
      split; [|split; [exact W2|split; [exact Hi2|split; [exact Hr|split]]]].
      * eapply runs_while_step; [unfold pqcond; lia| |exact Rn2]. apply Hstep; reflexivity.
      * rewrite len_app. lia.
      * rewrite (rest1_more_gen n (cs cn s) (cs cn (w_P o 12 s))) by
          (apply (wf_cs e o cn L) || apply (vs_P12 e o cn L), Hs || exact H).
        rewrite E2, app_assoc. reflexivity.
  - exists s, i, [], n. rewrite len_nil, N.add_0_r. cbn [write app].
    split; [|split; [exact Hs|split; [exact Hi|split; [exact H|split; [lia|reflexivity]]]]].
    apply runs_while_end. unfold pqcond. lia.
Qed.

Theorem com_prf_ok IV iv CB M out n inp l k kb : fits 64 IV -> wb (cn IV) = iv -> is16 kb -> n <= CB ->
  readable M k kb -> readable M inp l -> writable M out n -> out <> 0 ->
  runs (com_prf e o IV CB out n inp (len l) k) M (write M out (prf_gen iv kb l (N.to_nat n))) 0%Z.
Proof.
  intros HIV <- Hk Hn Rk R W Hout. unfold is16 in Hk.
  destruct (split_len 8 kb) as (k0 & k1 & -> & Hk0 & Lk0); [unfold len; lia|].
  rewrite app_length in Hk. assert (Hk1 : length k1 = 8%nat) by lia.
  destruct (readable_app _ _ _ _ Rk) as (Rk0 & Rk1). rewrite Lk0 in Rk1.
  set (s0 := St IV (word k0) (word k1) 0 0).
  assert (W0 : wf s0).
  { split; [exact HIV|]. repeat split; try apply fits_0; apply (fits_word_of e o cn L); lia. }
  assert (C0 : cn 0 = 0).
  { rewrite <- (N.lxor_nilpotent 0), (l_xor _ _ _ L). apply N.lxor_nilpotent. }
  assert (E0 : vs s0 = wb (cn IV) ++ (k0 ++ k1) ++ zeros 16).
  { unfold s0, ComPrim.vs, cs. cbn [X0 X1 X2 X3 X4]. rewrite C0, !(cn_word_of e o cn L) by lia.
    rewrite xs_St, !wb_le_num8 by lia. rewrite <- app_assoc. reflexivity. }
  destruct (prf_absorb_while (fuel (len l) 8) M (w_P o 12 s0) (p 12 (vs s0)) [] 0 inp l) as
    (s1 & S1 & acc & i & in1 & r & Rn1 & Ws1 & HS1 & Es1 & Hacc & Hi & Hr & Rr & E1).
  { apply (wf_wP12 e o cn L), W0. } { apply length_p. } { rewrite xor_into_nil. apply (vs_P12 e o cn L), W0. }
  { reflexivity. } { lia. } { exact R. } { unfold fuel. lia. }
  destruct (tail_ok e o cn L M s1 i in1 r Ws1 Rr Hr) as (st & Rnt & Wt & Et).
  set (s2 := xorx (xorx st i (w_pad o (len r))) 4 (w_dsep o)).
  assert (Wp : wf (xorx st i (w_pad o (len r)))) by (apply (wf_pad e o cn L); [exact Wt|apply len_lt8, Hr]).
  assert (W2 : wf s2) by (apply (wf_dsep e o cn L), Wp).
  assert (E2 : vs (w_P o 12 s2) = prf_absorb (p 12 (vs s0)) (chunks 32 (pad 32 l))).
  { cbn [app] in E1. rewrite E1. rewrite chunks_pad_last by (rewrite app_length; lia).
    cbn [prf_absorb]. rewrite (vs_P12 e o cn L) by exact W2. f_equal. unfold s2.
    rewrite (vs_dsep e o cn L). f_equal.
    unfold ComPrim.vs. rewrite (cs_pad e o cn L) by (apply len_lt8, Hr).
    assert (Wct : wf (xorx (cs cn s1) i (le_num r))).
    { apply wf_xorx; [apply (wf_cs e o cn L)|apply fits_le_num8; lia]. }
    rewrite Et. rewrite xs_PAD by (auto; unfold len; lia).
    rewrite xs_load by (auto using (wf_cs e o cn L); lia). change (xs (cs cn s1)) with (vs s1). rewrite Es1.
    rewrite xor_into_padded by (rewrite app_length; lia).
    rewrite xor_into_app by lia. rewrite Hacc, app_length, Hacc, to_nat_len. reflexivity. }
  destruct (prf_squeeze_while (fuel n 8) M (w_P o 12 s2) 0 out n) as
    (s3 & i3 & os & r3 & Rn3 & Ws3 & Hi3 & Hr3 & Hn3 & E3).
  { apply (wf_wP12 e o cn L), W2. } { lia. } { exact W. } { unfold fuel. lia. }
  unfold com_prf.
  step; [apply runs_branch|]. replace (CB <? n) with false by lia.
  ld Rk0.
  step; [eapply runs_padd_readable; [exact Rk|rewrite len_app, Lk0; lia]|].
  ld Rk1.
  fold s0. cbn zeta.
  step; [exact Rn1|]. cbn beta iota.
  eapply (runs_bind2 (D := unit)); [exact tt|exact Rnt|].
  step; [apply runs_wPAD, len_lt8, Hr|]. cbn zeta. fold s2.
  step; [exact Rn3|]. cbn beta iota.
  replace (prf_gen (wb (cn IV)) (k0 ++ k1) l (N.to_nat n)) with
    (os ++ firstn (N.to_nat r3) (wb (cn (getx s3 i3)))).
  - rewrite write_app. rewrite Hn3 in W. destruct (writable_split _ _ _ _ W) as (_ & Wr3).
    step; [apply (runs_wSTOREBYTES e o cn L); [apply writable_write, Wr3|exact Hr3|lia|apply fits_getx, Ws3]|apply runs_ret].
  - unfold prf_gen. rewrite cn_getx, <- rest_last by lia. rewrite <- E3.
    unfold rest. change (8 * N.to_nat 0)%nat with 0%nat. cbn [skipn Nat.add].
    change (xs (cs cn (w_P o 12 s2))) with (vs (w_P o 12 s2)). rewrite E2, E0. reflexivity.
Qed.

Theorem com_prf_limit IV CB M out n inp inlen k : CB < n ->
  runs (com_prf e o IV CB out n inp inlen k) M M (-1)%Z.
Proof.
  intros H. unfold com_prf. step; [apply runs_branch|].
  replace (CB <? n) with true by lia. apply runs_ret.
Qed.

(** A buffer the caller can read is disjoint from the free cells. *)
Lemma free_disjoint M sp n h hb : free_cells M sp n -> readable M h hb -> disjoint sp n h (len hb).
Proof.
  intros (H0 & Hb & Hf) Rh. unfold disjoint.
  destruct (N.eq_dec n 0) as [|Hc]; [auto|].
  destruct (N.eq_dec (len hb) 0) as [|Hd]; [auto|].
  destruct (N.le_gt_cases (sp + n) h) as [|L1]; [auto|].
  destruct (N.le_gt_cases (h + len hb) sp) as [|L2]; [auto|]. exfalso.
  destruct Rh as (Hbh & _ & Hr).
  set (a := N.max sp h).
  specialize (Hr (N.to_nat (a - h)) ltac:(unfold len in *; lia)).
  replace (h + N.of_nat (N.to_nat (a - h))) with a in Hr by lia.
  unfold rd in Hr. rewrite Hf in Hr by (unfold len in *; lia). discriminate.
Qed.

Theorem com_verify_ok IV iv CB M sp h hb inp l k kb : fits 64 IV -> wb (cn IV) = iv -> is16 kb -> len hb = CB ->
  free_cells M sp CB ->
  readable M k kb -> readable M inp l -> readable M h hb ->
  exists M', runs (com_auth_verify e o IV CB sp h inp (len l) k) M M'
    (if list_eq_dec Byte.byte_eq_dec (prf_gen iv kb l (length hb)) hb then 0 else -1)%Z
    /\ forall a, M' a = M a.
Proof.
  intros HIV Hiv Hk Hh Hf Rk R Rh.
  set (tag := prf_gen iv kb l (N.to_nat CB)).
  assert (Ht : length tag = N.to_nat CB) by apply length_prf_gen.
  assert (Hhl : length hb = N.to_nat CB) by (rewrite <- Hh; symmetry; apply to_nat_len).
  assert (Lt : len tag = CB) by (unfold len; lia).
  eexists. split.
  - unfold com_auth_verify. apply runs_with_local; [exact Hf|].
    step.
    + apply (com_prf_ok IV iv CB) with (kb := kb); auto using readable_local; [lia| |apply Hf].
      apply writable_local, Hf.
    + fold tag. step.
      * rewrite <- Ht. apply runs_diff_mem with (l := hb).
        -- apply readable_write_disjoint; [apply readable_local; assumption|].
           rewrite Lt. apply (free_disjoint M); assumption.
        -- apply readable_write_self; [rewrite Lt; apply Hf|]. intros _. apply Hf.
        -- lia.
      * rewrite verdict_diff by lia. unfold tag. rewrite Hhl. apply runs_ret.
  - apply local_restored; [exact Hf|]. symmetry; exact Lt.
Qed.

(** ** PRFshort *)

Lemma cprfs_load M inp l iv k0 k1 : readable M inp l -> (length l <= 16)%nat ->
  fits 64 iv -> length k0 = 8%nat -> length k1 = 8%nat ->
  let s := St iv (word k0) (word k1) 0 0 in
  exists s', wf s' /\ vs s' = wb (cn iv) ++ (k0 ++ k1) ++ l ++ zeros (16 - length l) /\
  runs (b <- branch (8 <? len l) ;;
  (if b : bool then
    w3 <- wLOAD e o inp ;; let s := setx s 3 w3 in
    in8 <- padd inp 8 ;; w4 <- wLOADBYTES e o in8 (sub64 (len l) 8) ;;
    ret (setx s 4 w4)
  else
    b <- branch (negb (len l =? 0)) ;;
    if b : bool then w3 <- wLOADBYTES e o inp (len l) ;; ret (setx s 3 w3) else ret s)) M M s'.
Proof.
  intros R Hl Hiv H0 H1 s. pose proof (readable_bound _ _ _ R) as Hbd.
  assert (C0 : cn 0 = 0).
  { rewrite <- (N.lxor_nilpotent 0), (l_xor _ _ _ L). apply N.lxor_nilpotent. }
  destruct (N.ltb_spec 8 (len l)) as [H|H].
  - destruct (split_len 8 l) as (b0 & b1 & -> & Hb0 & Lb0); [lia|]. change (N.of_nat 8) with 8 in Lb0.
    rewrite app_length in Hl.
    destruct (readable_app _ _ _ _ R) as (R0 & R1). rewrite Lb0 in R1.
    exists (St iv (word k0) (word k1) (word b0) (word b1)). split; [|split].
    + split; [exact Hiv|]. repeat split; apply (fits_word_of e o cn L); lia.
    + unfold ComPrim.vs, cs. cbn [X0 X1 X2 X3 X4]. rewrite !(cn_word_of e o cn L) by lia.
      rewrite xs_St, !wb_le_num8 by lia. rewrite wb_le_num by lia.
      rewrite app_length, <- !app_assoc. do 6 f_equal. lia.
    + step; [apply runs_branch|]. cbn beta iota.
      ld R0. cbn zeta.
      step; [eapply runs_padd_readable; [exact R|lia]|].
      rewrite sub64_small by lia. replace (len (b0 ++ b1) - 8) with (len b1) by (rewrite len_app; lia).
      step; [apply (runs_wLOADBYTES e o); [exact R1|reflexivity|lia|]|apply runs_ret].
      assert (inp <> 0) by (eapply readable_nonnull; [exact R|lia]). lia.
  - assert (Hl8 : (length l <= 8)%nat) by (unfold len in H; lia).
    assert (X : forall w, cn w = le_num l ->
      vs (St iv (word k0) (word k1) w 0) = wb (cn iv) ++ (k0 ++ k1) ++ l ++ zeros (16 - length l)).
    { intros w Ew. unfold ComPrim.vs, cs. cbn [X0 X1 X2 X3 X4]. rewrite Ew, C0, !(cn_word_of e o cn L) by lia.
      rewrite xs_St, !wb_le_num8 by lia. rewrite wb_le_num by lia.
      change (wb 0) with (zeros 8). rewrite <- !app_assoc. do 4 f_equal.
      unfold zeros. rewrite <- repeat_app. f_equal. lia. }
    destruct (N.eqb_spec (len l) 0) as [E|E].
    + exists s. split; [|split].
      * split; [exact Hiv|]. repeat split; try apply fits_0; apply (fits_word_of e o cn L); lia.
      * apply X. rewrite C0. apply len_0 in E. subst l. reflexivity.
      * step; [apply runs_branch|]. cbn beta iota.
        step; [apply runs_branch|]. cbn [negb]. apply runs_ret.
    + exists (setx s 3 (word l)). split; [|split].
      * split; [exact Hiv|]. repeat split; try apply fits_0; apply (fits_word_of e o cn L); lia.
      * apply X. apply (cn_word_of e o cn L), Hl8.
      * step; [apply runs_branch|]. cbn beta iota.
        step; [apply runs_branch|]. cbn [negb].
        step; [apply (runs_wLOADBYTES e o); [exact R|reflexivity|lia|]|apply runs_ret].
        eapply readable_nonnull; [exact R|exact E].
Qed.

Lemma cprfs_store M s out n : wf s -> writable M out n -> n <= 16 ->
  runs (b <- branch (8 <? n) ;;
  (if b : bool then
    wSTORE e o out (X3 s) ;;;
    out8 <- padd out 8 ;; wSTOREBYTES e o out8 (X4 s) (sub64 n 8)
  else
    b <- branch (negb (n =? 0)) ;;
    if b : bool then wSTOREBYTES e o out (X3 s) n else ret tt)) M
  (write M out (firstn (N.to_nat n) (skipn 24 (vs s)))) tt.
Proof.
  intros Hs W Hn. pose proof (writable_bound _ _ _ W) as Hbd.
  assert (F3 : fits 64 (X3 s)) by apply Hs. assert (F4 : fits 64 (X4 s)) by apply Hs.
  unfold ComPrim.vs, xs. rewrite (skipn24_SB wb wb_len).
  change (X3 (cs cn s)) with (cn (X3 s)). change (X4 (cs cn s)) with (cn (X4 s)).
  step; [apply runs_branch|].
  destruct (N.ltb_spec 8 n) as [H|H].
  - assert (W' := W). replace n with (8 + (n - 8)) in W' by lia.
    destruct (writable_split _ _ _ _ W') as (W8 & Wr).
    step; [apply (runs_wSTORE e o cn L); [exact W8|exact F3]|].
    step; [eapply runs_padd_writable; [apply writable_write, W|lia]|].
    rewrite sub64_small by lia.
    rewrite firstn_app, wb_len, firstn_all2 by (rewrite wb_len; lia).
    rewrite write_app, len_wb.
    replace (N.to_nat n - 8)%nat with (N.to_nat (n - 8)) by lia.
    apply (runs_wSTOREBYTES e o cn L); [apply writable_write, Wr|lia|apply Wr; lia|exact F4].
  - rewrite firstn_app, wb_len. replace (N.to_nat n - 8)%nat with 0%nat by lia.
    rewrite firstn_O, app_nil_r by lia.
    step; [apply runs_branch|].
    destruct (N.eqb_spec n 0) as [->|E]; cbn [negb].
    + apply runs_ret.
    + apply (runs_wSTOREBYTES e o cn L); [exact W|exact H|apply W, E|exact F3].
Qed.

Theorem com_prfs_ok M out n inp l k kb : is16 kb -> len l <= 16 -> n <= 16 ->
  readable M k kb -> readable M inp l -> writable M out n ->
  runs (com_prfs e o out n inp (len l) k) M (write M out (prf_short kb l (N.to_nat n))) 0%Z.
Proof.
  intros Hk Hl Hn Rk R W. unfold is16 in Hk.
  destruct (split_len 8 kb) as (k0 & k1 & -> & Hk0 & Lk0); [unfold len; lia|].
  rewrite app_length in Hk. assert (Hk1 : length k1 = 8%nat) by lia.
  destruct (readable_app _ _ _ _ Rk) as (Rk0 & Rk1). rewrite Lk0 in Rk1.
  assert (Hl16 : (length l <= 16)%nat) by (unfold len in Hl; lia).
  destruct (l_prfs _ _ _ L (length l) Hl16) as (Fiv & Eiv). fold (len l) in Eiv, Fiv.
  set (iv := N.lxor (c_prfs o) (w_prfs_mlen o (len l))) in *.
  destruct (cprfs_load M inp l iv k0 k1 R Hl16 Fiv Hk0 Hk1) as (s1 & W1 & E1 & Rn1).
  set (s2 := xorx (xorx (w_P o 12 s1) 3 (word k0)) 4 (word k1)).
  assert (W2 : wf s2) by (repeat (apply (wf_word e o cn L); [|lia]); apply (wf_wP12 e o cn L), W1).
  assert (E2 : skipn 24 (vs s2) = xor_into (skipn 24 (p 12 (vs s1))) (k0 ++ k1)).
  { unfold s2. rewrite !(vs_word e o cn L) by lia.
    rewrite (vs_P12 e o cn L) by exact W1. set (S := p 12 (vs s1)).
    assert (HS : length S = 40%nat) by apply length_p.
    change (8 * N.to_nat 4)%nat with (24 + 8)%nat. change (8 * N.to_nat 3)%nat with 24%nat.
    rewrite <- Hk0, <- xor_at_app by lia. unfold xor_at.
    rewrite skipn_app_exact by (rewrite firstn_length; lia). reflexivity. }
  unfold com_prfs.
  step; [apply runs_branch|]. replace (16 <? len l) with false by lia.
  step; [apply runs_branch|]. replace (16 <? n) with false by lia.
  step; [apply runs_branch|]. cbn beta iota.
  ld Rk0.
  step; [eapply runs_padd_readable; [exact Rk|rewrite len_app, Lk0; lia]|].
  ld Rk1. cbn zeta.
  eapply (runs_bind2 (D := unit)); [exact tt|exact Rn1|]. cbn zeta. fold s2.
  eapply (runs_bind2 (D := unit)); [exact tt|exact (cprfs_store M s2 out n W2 W Hn)|].
  unfold prf_short. rewrite <- Eiv, <- E1, <- E2. apply runs_ret.
Qed.

Theorem com_prfs_limit M out n inp inlen k : 16 < inlen \/ 16 < n ->
  runs (com_prfs e o out n inp inlen k) M M (-1)%Z.
Proof.
  intros H. unfold com_prfs. step; [apply runs_branch|].
  destruct (N.ltb_spec 16 inlen) as [H1|H1]; [apply runs_ret|].
  step; [apply runs_branch|]. replace (16 <? n) with true by lia. apply runs_ret.
Qed.

Theorem com_prfs_verify_ok M sp h hb inp l k kb : is16 kb -> is16 hb -> len l <= 16 ->
  free_cells M sp 16 ->
  readable M k kb -> readable M inp l -> readable M h hb ->
  exists M', runs (com_prfs_verify e o sp h inp (len l) k) M M'
    (if list_eq_dec Byte.byte_eq_dec (prf_short kb l 16) hb then 0 else -1)%Z
    /\ forall a, M' a = M a.
Proof.
  intros Hk Hh Hl Hf Rk R Rh.
  set (tag := prf_short kb l 16).
  assert (Ht : length tag = 16%nat) by (apply length_prf_short; [exact Hk|lia]).
  assert (Lt : len tag = 16) by (unfold len; rewrite Ht; reflexivity).
  assert (Lh : len hb = 16) by (unfold len; rewrite Hh; reflexivity).
  eexists. split.
  - unfold com_prfs_verify.
    step; [apply runs_branch|]. replace (16 <? len l) with false by lia.
    apply runs_with_local; [exact Hf|].
    step.
    + apply com_prfs_ok with (kb := kb); auto using readable_local; [lia|].
      apply writable_local, Hf.
    + change (N.to_nat 16) with 16%nat. fold tag. step.
      * replace 16%nat with (length tag).
        apply runs_diff_mem with (l := hb).
        -- apply readable_write_disjoint; [apply readable_local; assumption|].
           rewrite Lt. apply (free_disjoint M); assumption.
        -- apply readable_write_self; [rewrite Lt; apply Hf|]. intros _. apply Hf.
        -- rewrite Hh, Ht. reflexivity.
      * rewrite verdict_diff by (rewrite Hh, Ht; reflexivity). apply runs_ret.
  - fold tag. apply local_restored; [exact Hf|]. symmetry; exact Lt.
Qed.

Theorem com_prfs_verify_limit M sp h inp inlen k : 16 < inlen ->
  runs (com_prfs_verify e o sp h inp inlen k) M M (-1)%Z.
Proof.
  intros H. unfold com_prfs_verify. step; [apply runs_branch|].
  replace (16 <? inlen) with true by lia. apply runs_ret.
Qed.
End ComPrf.
