(** * Opt8Prf.v -- the byte-oriented MAC, PRF and PRFshort refine the specification. *)
From Coq Require Import Arith Bool NArith ZArith List Lia Init.Byte Strings.Byte.
From Coq Require Import ZifyBool ZifyNat ZifyN.
From Verif Require Import Words WordFacts Spec SpecFacts CMem Contract CMemFacts ModelRef
  StateRep RefRound RefPrim RefAead RefAeadDec RefHash RefPrf RefPrfs ModelCommon ModelWords ComAead ComPrf
  ModelOpt8 Opt8Prim Opt8Aead.
Import ListNotations.
Local Open Scope N_scope.

(** The output still to come when [i] words of the current block are out. *)
Definition rest8 (i n : N) (s : bytes) : bytes :=
  skipn (8 * N.to_nat i) (squeeze (8 * N.to_nat i + N.to_nat n) 16 12 s).

Lemma firstn_squeeze_8 n s : length s = 40%nat -> (8 <= n)%nat -> firstn 8 (squeeze n 16 12 s) = firstn 8 s.
Proof.
  intros Hs H. unfold squeeze. cbn [squeeze_blocks]. rewrite firstn_firstn.
  replace (Nat.min 8 n) with 8%nat by lia. rewrite firstn_app, firstn_length, Hs.
  replace (8 - Nat.min 16 40)%nat with 0%nat by lia. rewrite firstn_O, app_nil_r, firstn_firstn. reflexivity.
Qed.
Lemma rest8_0_more n s : length s = 40%nat -> 8 < n -> rest8 0 n s = cut 0 8 s ++ rest8 1 (n - 8) s.
Proof.
  intros Hs H. unfold rest8. change (8 * N.to_nat 0)%nat with 0%nat. change (8 * N.to_nat 1)%nat with 8%nat.
  rewrite skipn_O. replace (8 + N.to_nat (n - 8))%nat with (N.to_nat n) by lia.
  change (0 + N.to_nat n)%nat with (N.to_nat n).
  rewrite <- (firstn_skipn 8 (squeeze (N.to_nat n) 16 12 s)) at 1.
  rewrite firstn_squeeze_8 by (assumption || lia). reflexivity.
Qed.
Lemma rest8_1_more n s : length s = 40%nat -> 8 < n -> rest8 1 n s = cut 8 8 s ++ rest8 0 (n - 8) (p 12 s).
Proof.
  intros Hs H. unfold rest8. change (8 * N.to_nat 0)%nat with 0%nat. change (8 * N.to_nat 1)%nat with 8%nat.
  rewrite skipn_O. change (0 + N.to_nat (n - 8))%nat with (N.to_nat (n - 8)).
  replace (8 + N.to_nat n)%nat with (16 + N.to_nat (n - 8))%nat by lia.
  rewrite squeeze_more by lia.
  rewrite skipn_app, firstn_length, Hs. change (8 - Nat.min 16 40)%nat with 0%nat. rewrite skipn_O.
  rewrite (firstn_cut 8 8), skipn_app_exact by (apply length_cut; lia). reflexivity.
Qed.
Lemma rest8_last i n s : length s = 40%nat -> i < 2 -> n <= 8 ->
  rest8 i n s = cut (8 * N.to_nat i) (N.to_nat n) s.
Proof.
  intros Hs Hi Hn. unfold rest8. rewrite squeeze_last by lia.
  rewrite firstn_cut, skipn_app_exact by (apply length_cut; lia). reflexivity.
Qed.

Section Opt8Prf.
Variable P : N -> bytes -> bytes.
Hypothesis HP : conforming P.

Ltac step := eapply runs_bind.

(** [hpad], [dpos]: where the code puts the padding and the domain
    separation; [padf], [absf]: what that amounts to. *)
Definition pads32 (hpad : N -> N) (dpos : N) (padf : bytes -> bytes) (absf : bytes -> list bytes -> bytes) : Prop :=
  (forall S bs, length S = 40%nat -> length (absf S bs) = 40%nat) /\
  (forall n, n < 8 -> hpad n < 8) /\ dpos < 8 /\
  (forall S B l, length B = 32%nat ->
    absf S (chunks 32 (padf (B ++ l))) = absf (p 12 (xor_into S B)) (chunks 32 (padf l))) /\
  (forall S acc r i, length S = 40%nat -> length acc = (8 * N.to_nat i)%nat -> i < 4 -> (length r < 8)%nat ->
    absf S (chunks 32 (padf (acc ++ r))) =
    p 12 (xor_at (32 + N.to_nat dpos) (xor_at (8 * N.to_nat i + N.to_nat (hpad (len r))) (xor_into S (acc ++ r)) [x01]) [x80])).
Lemma length_prf_absorb8 bs : forall S, length S = 40%nat -> length (prf_absorb S bs) = 40%nat.
Proof.
  induction bs as [|B bs IH]; intros S HS; [exact HS|].
  destruct bs; cbn [prf_absorb]; [apply length_p|]. apply IH, length_p.
Qed.
Lemma opt8_pads32 : pads32 opt8_hpad opt8_dpos (pad 32) prf_absorb.
Proof.
  split; [intros S bs H; apply length_prf_absorb8, H|split; [intros n H; exact H|split; [reflexivity|split]]].
  - intros S B l HB. rewrite chunks_pad_full by lia. apply prf_absorb_cons, chunks_pad_not_nil. lia.
  - intros S acc r i HS Hacc Hi Hr. rewrite chunks_pad_last by (rewrite app_length; lia).
    cbn [prf_absorb]. f_equal. rewrite xor_into_padded by (rewrite app_length; lia).
    unfold opt8_hpad. rewrite to_nat_len, app_length, Hacc. reflexivity.
Qed.
Section Pad32.
Variables (hpad : N -> N) (dpos : N) (padf : bytes -> bytes) (absf : bytes -> list bytes -> bytes).
Hypothesis HPad : pads32 hpad dpos padf absf.
Definition prf_like (iv kb l : bytes) (n : nat) : bytes :=
  squeeze n 16 12 (absf (p 12 (iv ++ kb ++ zeros 16)) (chunks 32 (padf l))).
Lemma length_prf_like iv kb l n : length (prf_like iv kb l n) = n.
Proof. destruct HPad as (HL & _). apply length_squeeze; try lia. rewrite HL by apply length_p. lia. Qed.

Definition pcond8 : bytes * N * ptr * N -> bool := fun '(_, _, _, len) => 8 <=? len.
Definition pqcond8 : bytes * N * ptr * N -> bool := fun '(_, _, _, len) => 8 <? len.

Lemma prf_absorb_while f : forall M S0 acc i inp l, length S0 = 40%nat ->
  length acc = (8 * N.to_nat i)%nat -> i < 4 ->
  readable M inp l -> (N.to_nat (len l / 8) < f)%nat ->
  exists S0' acc' i' inp' r,
    runs (while f pcond8 (o8_prf_absorb_body P) (xor_into S0 acc, i, inp, len l)) M M
      (xor_into S0' acc', i', inp', len r) /\
    length S0' = 40%nat /\
    length acc' = (8 * N.to_nat i')%nat /\ i' < 4 /\
    (length r < 8)%nat /\ readable M inp' r /\
    absf S0 (chunks 32 (padf (acc ++ l))) = absf S0' (chunks 32 (padf (acc' ++ r))).
Proof.
  induction f as [|f IH]; intros M S0 acc i inp l HS0 Hacc Hi R Hf; [lia|].
  pose proof (readable_bound _ _ _ R) as Hbd.
  destruct (N.leb_spec 8 (len l)) as [H|H].
  - destruct (split_len 8 l) as (B & l' & -> & HB & LB); [exact H|]. change (N.of_nat 8) with 8 in LB.
    destruct (readable_app _ _ _ _ R) as (R0 & R'). rewrite LB in R'.
    set (s1 := xor_into S0 (acc ++ B)).
    assert (W1 : length s1 = 40%nat) by (unfold s1; rewrite length_xor_into; exact HS0).
    assert (Hstep : forall s2 i2,
      (if i + 1 =? 4 then 0 else i + 1) = i2 -> (if i2 =? 0 then P 12 s1 else s1) = s2 ->
      runs (o8_prf_absorb_body P (xor_into S0 acc, i, inp, len (B ++ l'))) M M (s2, i2, inp + 8, len l')).
    { intros s2 i2 H2 H3. unfold o8_prf_absorb_body.
      step; [apply (absorb_ok _ _ _ _ B); [exact R0|symmetry; exact LB|rewrite length_xor_into; lia]|].
      replace (N.to_nat (8 * i)) with (length acc) by lia. rewrite <- xor_into_app by lia. fold s1.
      step; [apply runs_branch|]. cbn zeta. rewrite H2.
      step; [apply runs_branch|]. cbn zeta. rewrite H3.
      step; [eapply runs_padd_readable; [exact R|lia]|].
      rewrite sub64_small by lia.
      replace (len (B ++ l') - 8) with (len l') by (rewrite len_app; lia). apply runs_ret. }
    assert (Hf' : (N.to_nat (len l' / 8) < f)%nat)
      by (eapply (div16_step f B l'); [lia|exact LB|exact Hf]).
    destruct (N.eq_dec i 3) as [->|Hi3].
    + destruct (IH M (p 12 s1) [] 0 (inp + 8) l') as
        (S2 & acc2 & i2 & in2 & r & Rn2 & H2).
      { apply length_p. } { reflexivity. } { lia. } { exact R'. } { exact Hf'. }
      rewrite xor_into_nil in Rn2.
      exists S2, acc2, i2, in2, r. split.
      * eapply runs_while_step; [unfold pcond8; lia| |exact Rn2].
        apply Hstep; [reflexivity|]. cbn [N.eqb]. apply (P12_ok P HP), W1.
      * destruct H2 as (A2 & A4 & A5 & A6 & A7 & A8). repeat (split; [assumption|]).
        destruct HPad as (_ & _ & _ & Hfull & _). rewrite app_assoc, Hfull.
        -- exact A8.
        -- rewrite app_length, Hacc, HB. reflexivity.
    + destruct (IH M S0 (acc ++ B) (i + 1) (inp + 8) l') as
        (S2 & acc2 & i2 & in2 & r & Rn2 & H2).
      { exact HS0. } { rewrite app_length. lia. } { lia. }
      { exact R'. } { exact Hf'. }
      exists S2, acc2, i2, in2, r. split.
      * eapply runs_while_step; [unfold pcond8; lia| |exact Rn2].
        apply Hstep.
        -- replace (i + 1 =? 4) with false by lia. reflexivity.
        -- replace (i + 1 =? 0) with false by lia. reflexivity.
      * rewrite app_assoc. exact H2.
  - exists S0, acc, i, inp, l.
    split; [apply runs_while_end; unfold pcond8; lia|].
    repeat (split; [assumption|]). split; [unfold len in H; lia|]. split; [exact R|reflexivity].
Qed.

Lemma prf_squeeze_while f : forall M s i out n, length s = 40%nat -> i < 2 -> writable M out n ->
  (N.to_nat (n / 8) < f)%nat ->
  exists s' i' os r, runs (while f pqcond8 (o8_prf_squeeze_body P) (s, i, out, n)) M (write M out os)
      (s', i', out + len os, r) /\
    length s' = 40%nat /\ i' < 2 /\ r <= 8 /\ n = len os + r /\
    rest8 i n s = os ++ rest8 i' r s'.
Proof.
  induction f as [|f IH]; intros M s i out n Hs Hi W Hf; [lia|].
  pose proof (writable_bound _ _ _ W) as Hbd.
  destruct (N.ltb_spec 8 n) as [H|H].
  - assert (W' := W). replace n with (8 + (n - 8)) in W' by lia.
    destruct (writable_split _ _ _ _ W') as (W8 & Wr).
    assert (Hf' : (N.to_nat ((n - 8) / 8) < f)%nat) by (apply div_step_gt; [lia|exact H|exact Hf]).
    set (b := cut (8 * N.to_nat i) 8 s).
    assert (Lo : len b = 8) by (apply (len_eq b 8), length_cut; lia).
    assert (Ew : forall os, write (write M out b) (out + 8) os = write M out (b ++ os))
      by (intros os; rewrite write_app, Lo; reflexivity).
    assert (Hstep : forall s2 i2,
      (if i + 1 =? 2 then 0 else i + 1) = i2 -> (if i2 =? 0 then P 12 s else s) = s2 ->
      runs (o8_prf_squeeze_body P (s, i, out, n)) M (write M out b) (s2, i2, out + 8, n - 8)).
    { intros s2 i2 H2 H3. unfold o8_prf_squeeze_body.
      assert (Q : runs (SQUEEZE out s (8 * i) 8) M (write M out b) tt).
      { pose proof (squeeze_ok M s (8 * i) out 8 W8) as Q. change (N.to_nat 8) with 8%nat in Q.
        replace (N.to_nat (8 * i)) with (8 * N.to_nat i)%nat in Q by lia. apply Q. lia. }
      step; [exact Q|].
      step; [apply runs_branch|]. cbn zeta. rewrite H2.
      step; [apply runs_branch|]. cbn zeta. rewrite H3.
      step; [eapply runs_padd_writable; [apply writable_write, W|lia]|].
      rewrite sub64_small by lia. apply runs_ret. }
    assert (D : i = 0 \/ i = 1) by lia. destruct D as [-> | ->].
    + destruct (IH (write M out b) s 1 (out + 8) (n - 8)) as
        (s2 & i2 & os & r & Rn2 & W2 & Hi2 & Hr & Hn & E2).
      { exact Hs. } { lia. } { apply writable_write, Wr. } { exact Hf'. }
      rewrite Ew in Rn2.
      replace (out + 8 + len os) with (out + len (b ++ os)) in Rn2 by (rewrite len_app; lia).
      exists s2, i2, (b ++ os), r.
      split; [|split; [exact W2|split; [exact Hi2|split; [exact Hr|split]]]].
      * eapply runs_while_step; [unfold pqcond8; lia| |exact Rn2]. apply Hstep; reflexivity.
      * rewrite len_app. lia.
      * rewrite rest8_0_more by assumption. rewrite E2, app_assoc. reflexivity.
    + destruct (IH (write M out b) (p 12 s) 0 (out + 8) (n - 8)) as
        (s2 & i2 & os & r & Rn2 & W2 & Hi2 & Hr & Hn & E2).
      { apply length_p. } { lia. } { apply writable_write, Wr. } { exact Hf'. }
      rewrite Ew in Rn2.
      replace (out + 8 + len os) with (out + len (b ++ os)) in Rn2 by (rewrite len_app; lia).
      exists s2, i2, (b ++ os), r.
      split; [|split; [exact W2|split; [exact Hi2|split; [exact Hr|split]]]].
      * eapply runs_while_step; [unfold pqcond8; lia| |exact Rn2].
        apply Hstep; [reflexivity|]. cbn [N.eqb]. apply (P12_ok P HP), Hs.
      * rewrite len_app. lia.
      * rewrite rest8_1_more by assumption. rewrite E2, app_assoc. reflexivity.
  - exists s, i, [], n. rewrite len_nil, N.add_0_r. cbn [write app].
    split; [|split; [exact Hs|split; [exact Hi|split; [exact H|split; [lia|reflexivity]]]]].
    apply runs_while_end. unfold pqcond8. lia.
Qed.

(** IV, key and 16 zero bytes *)
Lemma key_ok M iv k kb : length iv = 8%nat -> is16 kb -> readable M k kb ->
  exists s1, runs (INSERT (iv ++ zeros 32) 8 k 8) M M s1 /\
    runs (padd k 8) M M (k + 8) /\
    runs (INSERT s1 16 (k + 8) 8) M M (iv ++ kb ++ zeros 16).
Proof.
  intros Hiv Hk R. unfold is16 in Hk.
  destruct (split_len 8 kb) as (k0 & k1 & -> & H0 & L0); [unfold len; lia|]. change (N.of_nat 8) with 8 in L0.
  rewrite app_length in Hk. assert (H1 : length k1 = 8%nat) by lia.
  destruct (readable_app _ _ _ _ R) as (R0 & R1). rewrite L0 in R1.
  assert (Ls : length (iv ++ zeros 32) = 40%nat) by (rewrite app_length, length_zeros; lia).
  exists (put 8 (iv ++ zeros 32) k0). split; [|split].
  - apply (insert_ok _ _ 8 _ k0); [exact R0|symmetry; exact L0|change (N.to_nat 8) with 8%nat; lia].
  - eapply runs_padd_readable; [exact R|rewrite len_app; lia].
  - replace (iv ++ (k0 ++ k1) ++ zeros 16) with (put 16 (put 8 (iv ++ zeros 32) k0) k1).
    + apply (insert_ok _ _ 16 _ k1); [exact R1|symmetry; apply (len_eq k1 8 H1)|].
      rewrite length_put by lia. change (N.to_nat 16) with 16%nat. lia.
    + replace 16%nat with (8 + length k0)%nat at 1 by lia. rewrite put_app by lia.
      unfold put. rewrite firstn_app_exact by exact Hiv.
      rewrite skipn_app, Hiv, skipn_all2 by (rewrite app_length; lia). cbn [app].
      rewrite app_length, H0, H1. reflexivity.
Qed.

Theorem o8_prf_like IV iv CB M out n inp l k kb : le_bytes 8 IV = iv -> is16 kb -> n <= CB ->
  readable M k kb -> readable M inp l -> writable M out n ->
  runs (o8_prf LE P hpad dpos IV CB out n inp (len l) k) M (write M out (prf_like iv kb l (N.to_nat n))) 0%Z.
Proof.
  intros Hiv Hk Hn Rk R W.
  assert (Liv : length iv = 8%nat) by (rewrite <- Hiv; apply length_le_bytes).
  destruct (key_ok M iv k kb Liv Hk Rk) as (sk & Rk1 & Rk2 & Rk3).
  set (s0 := iv ++ kb ++ zeros 16) in *.
  assert (L0 : length s0 = 40%nat) by (unfold s0; rewrite !app_length, length_zeros, Liv, Hk; reflexivity).
  destruct (prf_absorb_while (fuel (len l) 8) M (p 12 s0) [] 0 inp l) as
    (S1 & acc & i & in1 & r & Rn1 & HS1 & Hacc & Hi & Hr & Rr & E1).
  { apply length_p. } { reflexivity. } { lia. } { exact R. } { unfold fuel. lia. }
  rewrite xor_into_nil in Rn1.
  destruct HPad as (_ & Hlt & Hd & _ & Hlast).
  assert (Lr : hpad (len r) < 8) by (apply Hlt, len_lt8, Hr).
  set (s2 := xor_at (32 + N.to_nat dpos) (xor_at (8 * N.to_nat i + N.to_nat (hpad (len r))) (xor_into S1 (acc ++ r)) [x01]) [x80]).
  assert (W2 : length s2 = 40%nat).
  { unfold s2. rewrite !length_xor_at; rewrite ?length_xor_at, ?length_xor_into; rewrite ?length_xor_into; lia. }
  assert (E2 : p 12 s2 = absf (p 12 s0) (chunks 32 (padf l))).
  { cbn [app] in E1. rewrite E1. symmetry. apply Hlast; assumption. }
  destruct (prf_squeeze_while (fuel n 8) M (p 12 s2) 0 out n) as
    (s3 & i3 & os & r3 & Rn3 & Ws3 & Hi3 & Hr3 & Hn3 & E3).
  { apply length_p. } { lia. } { exact W. } { unfold fuel. lia. }
  unfold o8_prf.
  step; [apply runs_branch|]. replace (CB <? n) with false by lia.
  change (to_host LE 8 IV) with (le_bytes 8 IV). rewrite Hiv. cbn zeta.
  step; [exact Rk1|]. step; [exact Rk2|]. step; [exact Rk3|]. fold s0.
  rewrite (P12_ok P HP s0 L0).
  step; [exact Rn1|]. cbn beta iota.
  step; [apply (absorb_ok _ _ _ _ r); [exact Rr|reflexivity|rewrite length_xor_into; lia]|].
  replace (N.to_nat (8 * i)) with (length acc) by lia. rewrite <- xor_into_app by lia.
  step; [apply xorb8_ok; [lia|exact Lr|rewrite length_xor_into; lia]|].
  step; [apply (xorb8_ok _ _ 4 dpos); [lia|exact Hd|rewrite length_xor_at; rewrite length_xor_into; lia]|].
  change (8 * N.to_nat 4)%nat with 32%nat.
  fold s2. rewrite (P12_ok P HP s2 W2).
  step; [exact Rn3|]. cbn beta iota.
  replace (prf_like iv kb l (N.to_nat n)) with (os ++ cut (8 * N.to_nat i3) (N.to_nat r3) s3).
  - rewrite write_app. rewrite Hn3 in W. destruct (writable_split _ _ _ _ W) as (_ & Wr3).
    step; [|apply runs_ret].
    replace (8 * N.to_nat i3)%nat with (N.to_nat (8 * i3)) by lia.
    apply (squeeze_ok (write M out os) s3 (8 * i3) (out + len os) r3); [apply writable_write, Wr3|lia].
  - unfold prf_like. rewrite <- rest8_last by (lia || assumption). rewrite <- E3.
    unfold rest8. change (8 * N.to_nat 0)%nat with 0%nat. cbn [skipn Nat.add].
    rewrite E2. reflexivity.
Qed.

Theorem o8_prf_limit IV CB M out n inp inlen k : CB < n ->
  runs (o8_prf LE P hpad dpos IV CB out n inp inlen k) M M (-1)%Z.
Proof.
  intros H. unfold o8_prf. step; [apply runs_branch|].
  replace (CB <? n) with true by lia. apply runs_ret.
Qed.

Theorem o8_verify_like IV iv CB M sp h hb inp l k kb : le_bytes 8 IV = iv -> is16 kb -> len hb = CB ->
  free_cells M sp CB ->
  readable M k kb -> readable M inp l -> readable M h hb ->
  exists M', runs (o8_auth_verify LE P hpad dpos IV CB sp h inp (len l) k) M M'
    (if list_eq_dec Byte.byte_eq_dec (prf_like iv kb l (length hb)) hb then 0 else -1)%Z
    /\ forall a, M' a = M a.
Proof.
  intros Hiv Hk Hh Hf Rk R Rh.
  set (tag := prf_like iv kb l (N.to_nat CB)).
  assert (Ht : length tag = N.to_nat CB) by apply length_prf_like.
  assert (Hhl : length hb = N.to_nat CB) by (rewrite <- Hh; symmetry; apply to_nat_len).
  assert (Lt : len tag = CB) by (unfold len; lia).
  eexists. split.
  - unfold o8_auth_verify. apply runs_with_local; [exact Hf|].
    step.
    + apply (o8_prf_like IV iv CB) with (kb := kb); auto using readable_local; [lia|].
      apply writable_local, Hf.
    + fold tag. step.
      * rewrite <- Ht. apply runs_diff_mem with (l := hb).
        -- apply readable_write_disjoint; [apply readable_local; assumption|].
           rewrite Lt. apply (free_disjoint M); assumption.
        -- apply readable_write_self; [rewrite Lt; apply Hf|]. intros _. apply Hf.
        -- lia.
      * rewrite verdict_diff by lia. unfold tag. rewrite Hhl. apply runs_ret.
  - apply local_restored; [exact Hf|]. symmetry; exact Lt.
Qed.
End Pad32.
Theorem o8_prf_ok IV iv CB M out n inp l k kb : le_bytes 8 IV = iv -> is16 kb -> n <= CB ->
  readable M k kb -> readable M inp l -> writable M out n ->
  runs (o8_prf LE P opt8_hpad opt8_dpos IV CB out n inp (len l) k) M (write M out (prf_gen iv kb l (N.to_nat n))) 0%Z.
Proof. exact (o8_prf_like _ _ _ _ opt8_pads32 IV iv CB M out n inp l k kb). Qed.
Theorem o8_verify_ok IV iv CB M sp h hb inp l k kb : le_bytes 8 IV = iv -> is16 kb -> len hb = CB ->
  free_cells M sp CB ->
  readable M k kb -> readable M inp l -> readable M h hb ->
  exists M', runs (o8_auth_verify LE P opt8_hpad opt8_dpos IV CB sp h inp (len l) k) M M'
    (if list_eq_dec Byte.byte_eq_dec (prf_gen iv kb l (length hb)) hb then 0 else -1)%Z
    /\ forall a, M' a = M a.
Proof. exact (o8_verify_like _ _ _ _ opt8_pads32 IV iv CB M sp h hb inp l k kb). Qed.

(** ** PRFshort *)

Lemma xor_zeros_tail a l k : (length l <= k)%nat ->
  xor_at (length a) (a ++ zeros k) l = a ++ l ++ zeros (k - length l).
Proof.
  intros H. rewrite xor_at_app_r by reflexivity. f_equal.
  replace k with (length l + (k - length l))%nat at 1 by lia. unfold zeros. rewrite repeat_app.
  fold (zeros (length l)) (zeros (k - length l)). rewrite xor_into_app_l by (rewrite length_zeros; lia). f_equal.
  rewrite xor_into_comm by apply length_zeros. apply xor_into_zeros_r.
Qed.

Lemma prfs_load_ok M inp l iv kb : readable M inp l -> (length l <= 16)%nat -> length iv = 8%nat -> is16 kb ->
  runs (b <- branch (8 <? len l) ;;
   (if b : bool then
    s <- ABSORB (iv ++ kb ++ zeros 16) 24 inp 8 ;;
    in8 <- padd inp 8 ;; ABSORB s 32 in8 (sub64 (len l) 8)
   else
    b <- branch (negb (len l =? 0)) ;;
    if b : bool then ABSORB (iv ++ kb ++ zeros 16) 24 inp (len l) else ret (iv ++ kb ++ zeros 16))) M M
   (iv ++ kb ++ l ++ zeros (16 - length l)).
Proof.
  intros R Hl Hiv Hk. pose proof (readable_bound _ _ _ R) as Hbd. unfold is16 in Hk.
  assert (L24 : length (iv ++ kb) = 24%nat) by (rewrite app_length; lia).
  assert (E : xor_at 24 (iv ++ kb ++ zeros 16) l = iv ++ kb ++ l ++ zeros (16 - length l)).
  { rewrite !app_assoc, <- (app_assoc (iv ++ kb) l), <- L24. apply xor_zeros_tail, Hl. }
  assert (Ls : length (iv ++ kb ++ zeros 16) = 40%nat) by (rewrite app_assoc, app_length, L24; reflexivity).
  rewrite <- E. set (S := iv ++ kb ++ zeros 16) in *.
  step; [apply runs_branch|].
  destruct (N.ltb_spec 8 (len l)) as [H|H].
  - destruct (split_len 8 l) as (b0 & b1 & -> & Hb0 & Lb0); [lia|]. change (N.of_nat 8) with 8 in Lb0.
    rewrite app_length in Hl.
    destruct (readable_app _ _ _ _ R) as (R0 & R1). rewrite Lb0 in R1.
    step; [apply (absorb_ok M S 24 inp b0 8); [exact R0|symmetry; exact Lb0|change (N.to_nat 24) with 24%nat; lia]|].
    step; [eapply runs_padd_readable; [exact R|lia]|].
    rewrite sub64_small by lia. replace (len (b0 ++ b1) - 8) with (len b1) by (rewrite len_app; lia).
    rewrite xor_at_app by lia. rewrite Hb0.
    apply (absorb_ok M (xor_at 24 S b0) 32 (inp + 8) b1 (len b1)); [exact R1|reflexivity|].
    rewrite length_xor_at by lia. change (N.to_nat 32) with 32%nat. lia.
  - step; [apply runs_branch|].
    destruct (N.eqb_spec (len l) 0) as [E0|E0]; cbn [negb].
    + apply len_0 in E0. subst l. rewrite xor_at_nil. apply runs_ret.
    + apply (absorb_ok M S 24 inp l (len l)); [exact R|reflexivity|change (N.to_nat 24) with 24%nat; lia].
Qed.

Lemma prfs_store_ok M s out n : length s = 40%nat -> writable M out n -> n <= 16 ->
  runs (b <- branch (8 <? n) ;;
   (if b : bool then
    SQUEEZE out s 24 8 ;;;
    out8 <- padd out 8 ;; SQUEEZE out8 s 32 (sub64 n 8)
   else
    b <- branch (negb (n =? 0)) ;;
    if b : bool then SQUEEZE out s 24 n else ret tt)) M
   (write M out (firstn (N.to_nat n) (skipn 24 s))) tt.
Proof.
  intros Hs W Hn. pose proof (writable_bound _ _ _ W) as Hbd.
  step; [apply runs_branch|].
  destruct (N.ltb_spec 8 n) as [H|H].
  - assert (W' := W). replace n with (8 + (n - 8)) in W' by lia.
    destruct (writable_split _ _ _ _ W') as (W8 & Wr).
    replace (firstn (N.to_nat n) (skipn 24 s)) with (cut 24 8 s ++ cut 32 (N.to_nat (n - 8)) s).
    2:{ replace (N.to_nat n) with (8 + N.to_nat (n - 8))%nat by lia. rewrite firstn_cut. unfold cut.
        rewrite !skipn_skipn. reflexivity. }
    assert (Lc : len (cut 24 8 s) = 8) by (apply (len_eq _ 8), length_cut; lia).
    rewrite write_app, Lc.
    step; [apply (squeeze_ok M s 24 out 8); [exact W8|change (N.to_nat 24) with 24%nat; change (N.to_nat 8) with 8%nat; lia]|].
    step; [eapply runs_padd_writable; [apply writable_write, W|lia]|].
    rewrite sub64_small by lia.
    apply (squeeze_ok _ s 32 (out + 8) (n - 8)); [apply writable_write, Wr|change (N.to_nat 32) with 32%nat; lia].
  - step; [apply runs_branch|].
    destruct (N.eqb_spec n 0) as [->|E]; cbn [negb].
    + apply runs_ret.
    + apply (squeeze_ok M s 24 out n); [exact W|change (N.to_nat 24) with 24%nat; lia].
Qed.

Lemma o8_prfs_iv n : (n <= 16)%nat ->
  le_bytes 8 (N.lxor 0x00000000800c0007 (shlw 64 (N.of_nat n) 51)) = iv_prfs n.
Proof.
  intros Hn.
  pose (Q := fun n => (if list_eq_dec Byte.byte_eq_dec
      (le_bytes 8 (N.lxor 0x00000000800c0007 (shlw 64 (N.of_nat n) 51))) (iv_prfs n) then true else false)).
  assert (E : Q n = true).
  { apply (forall_below Q 17); [vm_compute; reflexivity|lia]. }
  unfold Q in E. destruct list_eq_dec as [e|]; [exact e|discriminate].
Qed.

Theorem o8_prfs_ok M out n inp l k kb : is16 kb -> len l <= 16 -> n <= 16 ->
  readable M k kb -> readable M inp l -> writable M out n ->
  runs (o8_prfs LE P out n inp (len l) k) M (write M out (prf_short kb l (N.to_nat n))) 0%Z.
Proof.
  intros Hk Hl Hn Rk R W.
  assert (Hl16 : (length l <= 16)%nat) by (unfold len in Hl; lia).
  assert (Liv : length (iv_prfs (length l)) = 8%nat) by apply length_le_bytes.
  destruct (key_ok M (iv_prfs (length l)) k kb Liv Hk Rk) as (sk & Rk1 & Rk2 & Rk3).
  pose proof (prfs_load_ok M inp l (iv_prfs (length l)) kb R Hl16 Liv Hk) as Rn1.
  set (s1 := iv_prfs (length l) ++ kb ++ l ++ zeros (16 - length l)) in *.
  assert (W1 : length s1 = 40%nat).
  { unfold s1. unfold is16 in Hk. rewrite !app_length, length_zeros, Liv, Hk. lia. }
  assert (Hk' : is16 kb) by exact Hk. unfold is16 in Hk.
  destruct (split_len 8 kb) as (k0 & k1 & E0 & Hk0 & Lk0); [unfold len; lia|]. change (N.of_nat 8) with 8 in Lk0.
  assert (Hk1 : length k1 = 8%nat) by (rewrite E0, app_length in Hk; lia).
  assert (Rk' := Rk). rewrite E0 in Rk'.
  destruct (readable_app _ _ _ _ Rk') as (Ra & Rb). rewrite Lk0 in Rb.
  set (s2 := xor_at 24 (p 12 s1) kb).
  assert (W2 : length s2 = 40%nat) by (unfold s2; rewrite length_xor_at; rewrite length_p; lia).
  assert (E2 : skipn 24 s2 = xor_into (skipn 24 (p 12 s1)) kb).
  { unfold s2, xor_at. rewrite skipn_app_exact by (rewrite firstn_length, length_p; lia). reflexivity. }
  unfold o8_prfs.
  step; [apply runs_branch|]. replace (16 <? len l) with false by lia.
  step; [apply runs_branch|]. replace (16 <? n) with false by lia.
  step; [apply runs_branch|]. cbn beta iota.
  change (to_host LE 8 (N.lxor 0x00000000800c0007 (shlw 64 (len l) 51))) with (le_bytes 8 (N.lxor 0x00000000800c0007 (shlw 64 (N.of_nat (length l)) 51))). rewrite (o8_prfs_iv _ Hl16).
  cbn zeta.
  step; [exact Rk1|]. step; [exact Rk2|]. step; [exact Rk3|].
  eapply (runs_bind2 (D := unit)); [exact tt|exact Rn1|]. rewrite (P12_ok P HP s1 W1).
  step; [apply (absorb_ok M (p 12 s1) 24 k k0 8); [exact Ra|symmetry; exact Lk0|rewrite length_p; change (N.to_nat 24) with 24%nat; lia]|].
  step; [exact Rk2|].
  assert (X : runs (ABSORB (xor_at (N.to_nat 24) (p 12 s1) k0) 32 (k + 8) 8) M M s2).
  { replace s2 with (xor_at (N.to_nat 32) (xor_at (N.to_nat 24) (p 12 s1) k0) k1).
    - apply absorb_ok; [exact Rb|symmetry; apply (len_eq k1 8 Hk1)|].
      rewrite length_xor_at; rewrite length_p; change (N.to_nat 24) with 24%nat; change (N.to_nat 32) with 32%nat; lia.
    - unfold s2. rewrite E0, xor_at_app by (rewrite length_p; lia).
      change (N.to_nat 24) with 24%nat. replace (N.to_nat 32) with (24 + length k0)%nat by lia. reflexivity. }
  step; [exact X|].
  eapply (runs_bind2 (D := unit)); [exact tt|exact (prfs_store_ok M s2 out n W2 W Hn)|].
  unfold prf_short. fold s1. rewrite <- E2. apply runs_ret.
Qed.

Theorem o8_prfs_limit M out n inp inlen k : 16 < inlen \/ 16 < n ->
  runs (o8_prfs LE P out n inp inlen k) M M (-1)%Z.
Proof.
  intros H. unfold o8_prfs. step; [apply runs_branch|].
  destruct (N.ltb_spec 16 inlen) as [H1|H1]; [apply runs_ret|].
  step; [apply runs_branch|]. replace (16 <? n) with true by lia. apply runs_ret.
Qed.

Theorem o8_prfs_verify_ok M sp h hb inp l k kb : is16 kb -> is16 hb -> len l <= 16 ->
  free_cells M sp 16 ->
  readable M k kb -> readable M inp l -> readable M h hb ->
  exists M', runs (o8_prfs_verify LE P sp h inp (len l) k) M M'
    (if list_eq_dec Byte.byte_eq_dec (prf_short kb l 16) hb then 0 else -1)%Z
    /\ forall a, M' a = M a.
Proof.
  intros Hk Hh Hl Hf Rk R Rh.
  set (tag := prf_short kb l 16).
  assert (Ht : length tag = 16%nat) by (apply length_prf_short; [exact Hk|lia]).
  assert (Lt : len tag = 16) by (unfold len; rewrite Ht; reflexivity).
  assert (Lh : len hb = 16) by (unfold len; rewrite Hh; reflexivity).
  eexists. split.
  - unfold o8_prfs_verify.
    step; [apply runs_branch|]. replace (16 <? len l) with false by lia.
    apply runs_with_local; [exact Hf|].
    step.
    + apply o8_prfs_ok with (kb := kb); auto using readable_local; [lia|].
      apply writable_local, Hf.
    + change (N.to_nat 16) with 16%nat. fold tag. step.
      * replace 16%nat with (length tag).
        apply runs_diff_mem with (l := hb).
        -- apply readable_write_disjoint; [apply readable_local; assumption|].
           rewrite Lt. apply (free_disjoint M); assumption.
        -- apply readable_write_self; [rewrite Lt; apply Hf|]. intros _. apply Hf.
        -- rewrite Hh, Ht. reflexivity.
      * rewrite verdict_diff by (rewrite Hh, Ht; reflexivity). apply runs_ret.
  - fold tag. apply local_restored; [exact Hf|]. symmetry; exact Lt.
Qed.

Theorem o8_prfs_verify_limit M sp h inp inlen k : 16 < inlen ->
  runs (o8_prfs_verify LE P sp h inp inlen k) M M (-1)%Z.
Proof.
  intros H. unfold o8_prfs_verify. step; [apply runs_branch|].
  replace (16 <? inlen) with true by lia. apply runs_ret.
Qed.
End Opt8Prf.
