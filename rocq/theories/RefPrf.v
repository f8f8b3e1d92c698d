(** * RefPrf.v -- the reference MAC, PRF and PRFshort refine the specification. *)
From Coq Require Import Arith Bool NArith ZArith List Lia Init.Byte Strings.Byte.
From Coq Require Import ZifyBool ZifyNat ZifyN.
From Verif Require Import Words WordFacts Spec SpecFacts CMem Contract CMemFacts ModelRef
  StateRep RefRound RefPrim RefAead RefAeadDec RefHash.
Import ListNotations.
Local Open Scope N_scope.

Definition pcond : state * N * ptr * N -> bool := fun '(_, _, _, inlen) => 8 <=? inlen.
Definition pqcond : state * N * ptr * N -> bool := fun '(_, _, _, outlen) => 8 <? outlen.

Lemma prf_absorb_cons S B bs : bs <> [] ->
  prf_absorb S (B :: bs) = prf_absorb (p 12 (xor_into S B)) bs.
Proof. destruct bs; [congruence|reflexivity]. Qed.

(** [k] words of a 32-byte block are already in the state. *)
Lemma ref_prf_absorb_while f : forall M s S0 acc i inp l, wf s -> length S0 = 40%nat ->
  xs s = xor_into S0 acc -> length acc = (8 * N.to_nat i)%nat -> i < 4 ->
  readable M inp l -> (N.to_nat (len l / 8) < f)%nat ->
  exists s' S0' acc' i' inp' r,
    runs (while f pcond ref_prf_absorb_body (s, i, inp, len l)) M M (s', i', inp', len r) /\
    wf s' /\ length S0' = 40%nat /\ xs s' = xor_into S0' acc' /\
    length acc' = (8 * N.to_nat i')%nat /\ i' < 4 /\
    (length r < 8)%nat /\ readable M inp' r /\
    prf_absorb S0 (chunks 32 (pad 32 (acc ++ l))) = prf_absorb S0' (chunks 32 (pad 32 (acc' ++ r))).
Proof.
  induction f as [|f IH]; intros M s S0 acc i inp l Hs HS0 Es Hacc Hi R Hf; [lia|].
  pose proof (readable_bound _ _ _ R) as Hbd.
  destruct (N.leb_spec 8 (len l)) as [H|H].
  - destruct (split_len 8 l) as (B & l' & -> & HB & LB); [exact H|]. change (N.of_nat 8) with 8 in LB.
    destruct (readable_app _ _ _ _ R) as (R0 & R'). rewrite LB in R'.
    set (s1 := xorx s i (le_num B)).
    assert (W1 : wf s1) by (apply wf_xorx; auto; apply fits_le_num8; lia).
    assert (E1 : xs s1 = xor_into S0 (acc ++ B)).
    { unfold s1. rewrite xs_load by (auto; lia). rewrite Es.
      rewrite xor_into_app by lia. rewrite Hacc. reflexivity. }
    assert (Hstep : forall s2 i2, 
      (if i + 1 =? 4 then 0 else i + 1) = i2 -> (if i2 =? 0 then P12 s1 else s1) = s2 ->
      runs (ref_prf_absorb_body (s, i, inp, len (B ++ l'))) M M (s2, i2, inp + 8, len l')).
    { intros s2 i2 H2 H3. unfold ref_prf_absorb_body.
      eapply runs_bind; [apply runs_LOADBYTES with (l := B); [exact R0|lia|lia]|].
      fold s1. eapply runs_bind; [apply runs_branch|]. cbn zeta. rewrite H2.
      eapply runs_bind; [apply runs_branch|]. cbn zeta. rewrite H3.
      eapply runs_bind; [eapply runs_padd_readable; [exact R|lia]|].
      rewrite sub64_small by lia.
      replace (len (B ++ l') - 8) with (len l') by (rewrite len_app; lia). apply runs_ret. }
    assert (Hf' : (N.to_nat (len l' / 8) < f)%nat)
      by (eapply (div16_step f B l'); [lia|exact LB|exact Hf]).
    destruct (N.eq_dec i 3) as [->|Hi3].
    + destruct (IH M (P12 s1) (p 12 (xor_into S0 (acc ++ B))) [] 0 (inp + 8) l') as
        (s2 & S2 & acc2 & i2 & in2 & r & Rn2 & H2).
      { apply wf_P12, W1. } { apply length_p. }
      { rewrite xor_into_nil, xs_P12, E1 by exact W1. reflexivity. }
      { reflexivity. } { lia. } { exact R'. } { exact Hf'. }
      exists s2, S2, acc2, i2, in2, r. split.
      * eapply runs_while_step; [unfold pcond; lia|apply Hstep; reflexivity|exact Rn2].
      * destruct H2 as (A1 & A2 & A3 & A4 & A5 & A6 & A7 & A8). repeat (split; [assumption|]).
        rewrite app_assoc, chunks_pad_full.
        -- rewrite prf_absorb_cons by (apply chunks_pad_not_nil; lia). exact A8.
        -- lia.
        -- rewrite app_length, Hacc, HB. reflexivity.
    + destruct (IH M s1 S0 (acc ++ B) (i + 1) (inp + 8) l') as
        (s2 & S2 & acc2 & i2 & in2 & r & Rn2 & H2).
      { exact W1. } { exact HS0. } { exact E1. } { rewrite app_length. lia. } { lia. }
      { exact R'. } { exact Hf'. }
      exists s2, S2, acc2, i2, in2, r. split.
      * eapply runs_while_step; [unfold pcond; lia| |exact Rn2].
        apply Hstep.
        -- replace (i + 1 =? 4) with false by lia. reflexivity.
        -- replace (i + 1 =? 0) with false by lia. reflexivity.
      * rewrite app_assoc. exact H2.
  - exists s, S0, acc, i, inp, l.
    split; [apply runs_while_end; unfold pcond; lia|].
    repeat (split; [assumption|]). split; [unfold len in H; lia|]. split; [exact R|reflexivity].
Qed.

(** The output still to come when [i] words of the current block are out. *)
Definition rest (i : N) (n : N) (s : state) : bytes :=
  skipn (8 * N.to_nat i) (squeeze (8 * N.to_nat i + N.to_nat n) 16 12 (xs s)).

Lemma skipn8_firstn16 s : skipn 8 (firstn 16 (xs s)) = wb (X1 s).
Proof. rewrite firstn16_xs. apply skipn_app_exact, wb_len. Qed.

Lemma firstn_squeeze8 n s : (8 <= n)%nat -> firstn 8 (squeeze n 16 12 (xs s)) = wb (X0 s).
Proof.
  intros H. unfold squeeze. cbn [squeeze_blocks]. rewrite firstn_firstn.
  replace (Nat.min 8 n) with 8%nat by lia. rewrite firstn_app, firstn_length, length_xs.
  replace (8 - Nat.min 16 40)%nat with 0%nat by lia. rewrite firstn_O, app_nil_r, firstn_firstn.
  apply firstn8_xs.
Qed.

Lemma rest0_more n s : 8 < n -> rest 0 n s = wb (X0 s) ++ rest 1 (n - 8) s.
Proof.
  intros H. unfold rest. change (8 * N.to_nat 0)%nat with 0%nat. change (8 * N.to_nat 1)%nat with 8%nat.
  rewrite skipn_O. replace (8 + N.to_nat (n - 8))%nat with (N.to_nat n) by lia.
  change (0 + N.to_nat n)%nat with (N.to_nat n).
  rewrite <- (firstn_skipn 8 (squeeze (N.to_nat n) 16 12 (xs s))) at 1.
  rewrite firstn_squeeze8 by lia. reflexivity.
Qed.

Lemma rest1_more n s : wf s -> 8 < n -> rest 1 n s = wb (X1 s) ++ rest 0 (n - 8) (P12 s).
Proof.
  intros Hs H. unfold rest. change (8 * N.to_nat 0)%nat with 0%nat. change (8 * N.to_nat 1)%nat with 8%nat.
  rewrite skipn_O. change (0 + N.to_nat (n - 8))%nat with (N.to_nat (n - 8)).
  replace (8 + N.to_nat n)%nat with (16 + N.to_nat (n - 8))%nat by lia.
  rewrite squeeze_more by (rewrite ?length_xs; lia). rewrite xs_P12 by exact Hs.
  rewrite skipn_app, skipn8_firstn16. f_equal. 
Qed.

Lemma rest_last i n s : i < 2 -> n <= 8 -> rest i n s = firstn (N.to_nat n) (wb (getx s i)).
Proof.
  intros Hi Hn. unfold rest. rewrite squeeze_last by (rewrite ?length_xs; lia).
  assert (D : i = 0 \/ i = 1) by lia. destruct D as [-> | ->].
  - change (8 * N.to_nat 0)%nat with 0%nat. cbn [skipn Nat.add]. apply firstn_xs0. lia.
  - change (8 * N.to_nat 1)%nat with 8%nat. rewrite firstn_xs1 by lia.
    rewrite skipn_app_exact by apply wb_len. reflexivity.
Qed.

Lemma ref_prf_squeeze_while f : forall M s i out n, wf s -> i < 2 -> writable M out n ->
  (N.to_nat (n / 8) < f)%nat ->
  exists s' i' os r, runs (while f pqcond ref_prf_squeeze_body (s, i, out, n)) M (write M out os)
      (s', i', out + len os, r) /\
    wf s' /\ i' < 2 /\ r <= 8 /\ n = len os + r /\
    rest i n s = os ++ rest i' r s'.
Proof.
  induction f as [|f IH]; intros M s i out n Hs Hi W Hf; [lia|].
  pose proof (writable_bound _ _ _ W) as Hbd.
  destruct (N.ltb_spec 8 n) as [H|H].
  - assert (W' := W). replace n with (8 + (n - 8)) in W' by lia.
    destruct (writable_split _ _ _ _ W') as (W8 & Wr).
    assert (Hf' : (N.to_nat ((n - 8) / 8) < f)%nat) by (apply div_step_gt; [lia|exact H|exact Hf]).
    set (o := wb (getx s i)).
    assert (Lo : len o = 8) by apply len_wb.
    assert (Ew : forall os, write (write M out o) (out + 8) os = write M out (o ++ os))
      by (intros os; rewrite write_app, Lo; reflexivity).
    assert (D : i = 0 \/ i = 1) by lia. destruct D as [-> | ->].
    + destruct (IH (write M out o) s 1 (out + 8) (n - 8)) as
        (s2 & i2 & os & r & Rn2 & W2 & Hi2 & Hr & Hn & E2).
      { exact Hs. } { lia. } { apply writable_write, Wr. } { exact Hf'. }
      rewrite Ew in Rn2.
      replace (out + 8 + len os) with (out + len (o ++ os)) in Rn2 by (rewrite len_app; lia).
      exists s2, i2, (o ++ os), r.
      split; [|split; [exact W2|split; [exact Hi2|split; [exact Hr|split]]]].
      * eapply runs_while_step; [unfold pqcond; lia| |exact Rn2].
        unfold ref_prf_squeeze_body.
        eapply runs_bind; [apply runs_STOREBYTES; exact W8|].
        eapply runs_bind; [apply runs_branch|]. cbn zeta.
        eapply runs_bind; [apply runs_branch|]. cbn zeta.
        eapply runs_bind; [eapply runs_padd_writable; [apply writable_write, W|lia]|].
        rewrite sub64_small by lia. apply runs_ret.
      * rewrite len_app. lia.
      * rewrite rest0_more by exact H. rewrite E2, app_assoc. reflexivity.
    + destruct (IH (write M out o) (P12 s) 0 (out + 8) (n - 8)) as
        (s2 & i2 & os & r & Rn2 & W2 & Hi2 & Hr & Hn & E2).
      { apply wf_P12, Hs. } { lia. } { apply writable_write, Wr. } { exact Hf'. }
      rewrite Ew in Rn2.
      replace (out + 8 + len os) with (out + len (o ++ os)) in Rn2 by (rewrite len_app; lia).
      exists s2, i2, (o ++ os), r.
      split; [|split; [exact W2|split; [exact Hi2|split; [exact Hr|split]]]].
      * eapply runs_while_step; [unfold pqcond; lia| |exact Rn2].
        unfold ref_prf_squeeze_body.
        eapply runs_bind; [apply runs_STOREBYTES; exact W8|].
        eapply runs_bind; [apply runs_branch|]. cbn zeta.
        eapply runs_bind; [apply runs_branch|]. cbn zeta.
        eapply runs_bind; [eapply runs_padd_writable; [apply writable_write, W|lia]|].
        rewrite sub64_small by lia. apply runs_ret.
      * rewrite len_app. lia.
      * rewrite rest1_more by assumption. rewrite E2, app_assoc. reflexivity.
  - exists s, i, [], n. rewrite len_nil, N.add_0_r. cbn [write app].
    split; [|split; [exact Hs|split; [exact Hi|split; [exact H|split; [lia|reflexivity]]]]].
    apply runs_while_end. unfold pqcond. lia.
Qed.

Theorem ref_prf_ok IV CB M out n inp l k kb : fits 64 IV -> is16 kb -> n <= CB ->
  readable M k kb -> readable M inp l -> writable M out n ->
  runs (ref_prf IV CB out n inp (len l) k) M (write M out (prf_gen (wb IV) kb l (N.to_nat n))) 0%Z.
Proof.
  intros HIV Hk Hn Rk R W. unfold is16 in Hk.
  destruct (split_len 8 kb) as (k0 & k1 & -> & Hk0 & Lk0); [unfold len; lia|].
  rewrite app_length in Hk. assert (Hk1 : length k1 = 8%nat) by lia.
  destruct (readable_app _ _ _ _ Rk) as (Rk0 & Rk1). rewrite Lk0 in Rk1.
  set (s0 := St IV (le_num k0) (le_num k1) 0 0).
  assert (W0 : wf s0).
  { split; [exact HIV|]. repeat split; try apply fits_0; apply fits_le_num8; lia. }
  assert (E0 : xs s0 = wb IV ++ (k0 ++ k1) ++ zeros 16).
  { unfold s0. rewrite xs_St, !wb_le_num8 by lia. rewrite <- app_assoc. reflexivity. }
  destruct (ref_prf_absorb_while (fuel (len l) 8) M (P12 s0) (p 12 (xs s0)) [] 0 inp l) as
    (s1 & S1 & acc & i & in1 & r & Rn1 & Ws1 & HS1 & Es1 & Hacc & Hi & Hr & Rr & E1).
  { apply wf_P12, W0. } { apply length_p. } { rewrite xor_into_nil. apply xs_P12, W0. }
  { reflexivity. } { lia. } { exact R. } { unfold fuel. lia. }
  set (s2 := xor4 (xorx (xorx s1 i (le_num r)) i (PAD (len r))) DSEP).
  assert (Wr : wf (xorx s1 i (le_num r))) by (apply wf_xorx; auto; apply fits_le_num8; lia).
  assert (Wp : wf (xorx (xorx s1 i (le_num r)) i (PAD (len r)))) by (apply wf_xorx; auto using fits_PAD).
  assert (W2 : wf s2) by (apply wf_xor4; auto using fits_DSEP).
  assert (E2 : xs (P12 s2) = prf_absorb (p 12 (xs s0)) (chunks 32 (pad 32 l))).
  { cbn [app] in E1. rewrite E1. rewrite chunks_pad_last by (rewrite app_length; lia).
    cbn [prf_absorb]. rewrite xs_P12 by exact W2. f_equal. unfold s2.
    rewrite xs_DSEP by exact Wp. f_equal.
    rewrite xs_PAD by (auto; unfold len; lia). rewrite xs_load by (auto; lia). rewrite Es1.
    rewrite xor_into_padded by (rewrite app_length; lia).
    rewrite xor_into_app by lia. rewrite Hacc, app_length, Hacc, to_nat_len. reflexivity. }
  destruct (ref_prf_squeeze_while (fuel n 8) M (P12 s2) 0 out n) as
    (s3 & i3 & os & r3 & Rn3 & Ws3 & Hi3 & Hr3 & Hn3 & E3).
  { apply wf_P12, W2. } { lia. } { exact W. } { unfold fuel. lia. }
  unfold ref_prf.
  eapply runs_bind; [apply runs_branch|]. replace (CB <? n) with false by lia.
  eapply runs_bind; [apply runs_LOADBYTES with (l := k0); [exact Rk0|unfold len; lia|lia]|].
  eapply runs_bind; [eapply runs_padd_readable; [exact Rk|rewrite len_app, Lk0; lia]|].
  eapply runs_bind; [apply runs_LOADBYTES with (l := k1); [exact Rk1|unfold len; lia|lia]|].
  fold s0. cbn zeta.
  eapply runs_bind; [exact Rn1|]. cbn beta iota.
  eapply runs_bind; [apply runs_LOADBYTES with (l := r); [exact Rr|reflexivity|lia]|].
  cbn zeta. fold s2.
  eapply runs_bind; [exact Rn3|]. cbn beta iota.
  replace (prf_gen (wb IV) (k0 ++ k1) l (N.to_nat n)) with
    (os ++ le_bytes (N.to_nat r3) (getx s3 i3)).
  - rewrite write_app. eapply runs_bind; [apply runs_STOREBYTES|apply runs_ret].
    rewrite Hn3 in W. apply writable_write. apply writable_split in W. apply W.
  - unfold prf_gen. rewrite firstn_le_bytes, <- rest_last by lia. rewrite <- E3.
    unfold rest. change (8 * N.to_nat 0)%nat with 0%nat. cbn [skipn Nat.add]. rewrite E2, E0. reflexivity.
Qed.

Theorem ref_prf_limit IV CB M out n inp inlen k : CB < n ->
  runs (ref_prf IV CB out n inp inlen k) M M (-1)%Z.
Proof.
  intros H. unfold ref_prf. eapply runs_bind; [apply runs_branch|].
  replace (CB <? n) with true by lia. apply runs_ret.
Qed.

Lemma fits_MAC_IV : fits 64 ASCON_MAC_IV.
Proof. vm_compute; reflexivity. Qed.
Lemma fits_PRF_IV : fits 64 ASCON_PRF_IV.
Proof. vm_compute; reflexivity. Qed.

Theorem ref_mac_prf_ok M out n inp l k kb : is16 kb -> n <= 16 ->
  readable M k kb -> readable M inp l -> writable M out n ->
  runs (crypto_prf_mac out n inp (len l) k) M (write M out (mac kb l (N.to_nat n))) 0%Z.
Proof. intros. apply (ref_prf_ok ASCON_MAC_IV 16); auto using fits_MAC_IV. Qed.
Theorem ref_mac_auth_ok M out inp l k kb : is16 kb ->
  readable M k kb -> readable M inp l -> writable M out 16 ->
  runs (crypto_auth_mac out inp (len l) k) M (write M out (mac kb l 16)) 0%Z.
Proof. intros. apply (ref_prf_ok ASCON_MAC_IV 16 M out 16); auto using fits_MAC_IV. lia. Qed.
Theorem ref_prf_prf_ok M out n inp l k kb : is16 kb -> n <= 64 ->
  readable M k kb -> readable M inp l -> writable M out n ->
  runs (crypto_prf_prf out n inp (len l) k) M (write M out (prf kb l (N.to_nat n))) 0%Z.
Proof. intros. apply (ref_prf_ok ASCON_PRF_IV 64); auto using fits_PRF_IV. Qed.
Theorem ref_prf_auth_ok M out inp l k kb : is16 kb ->
  readable M k kb -> readable M inp l -> writable M out 64 ->
  runs (crypto_auth_prf out inp (len l) k) M (write M out (prf kb l 64)) 0%Z.
Proof. intros. apply (ref_prf_ok ASCON_PRF_IV 64 M out 64); auto using fits_PRF_IV. lia. Qed.

(** ** Local arrays *)

Lemma all_fresh_ok n : forall M p, (forall a, p <= a -> a < p + N.of_nat n -> M a = NoAccess) ->
  all_fresh n M p = true.
Proof.
  induction n as [|n IH]; intros M p H; [reflexivity|]. cbn [all_fresh].
  rewrite (H p) by lia. apply IH. intros a H1 H2. apply H; lia.
Qed.

Lemma set_range_in M p n c a : p <= a -> a < p + n -> set_range M p n c a = c.
Proof. intros. unfold set_range, in_range. replace ((p <=? a) && (a <? p + n)) with true by lia. reflexivity. Qed.
Lemma set_range_out M p n c a : outside p n a -> set_range M p n c a = M a.
Proof.
  intros. unfold outside in H. unfold set_range, in_range.
  replace ((p <=? a) && (a <? p + n)) with false by lia. reflexivity.
Qed.

Lemma readable_local M sp n q l c : free_cells M sp n -> readable M q l ->
  readable (set_range M sp n c) q l.
Proof.
  intros (_ & _ & Hf) (Hb & Hn & Hr). split; [exact Hb|]. split; [exact Hn|].
  intros i Hi. rewrite <- (Hr i Hi). unfold rd. rewrite set_range_out; [reflexivity|].
  specialize (Hr i Hi). unfold rd in Hr.
  destruct (N.lt_ge_cases (q + N.of_nat i) sp) as [L|L]; [left; exact L|].
  destruct (N.lt_ge_cases (q + N.of_nat i) (sp + n)) as [L'|L']; [|right; exact L'].
  rewrite Hf in Hr by assumption. discriminate.
Qed.

Lemma writable_local M sp n : free_cells M sp n -> writable (set_range M sp n (RW None)) sp n.
Proof.
  intros (H0 & Hb & _). split; [exact Hb|]. split; [intros _; exact H0|].
  intros a H1 H2. unfold can_write. rewrite set_range_in by assumption. reflexivity.
Qed.

Lemma runs_with_local {A} M sp n (body : ptr -> C A) M' v : free_cells M sp n ->
  runs (body sp) (set_range M sp n (RW None)) M' v ->
  runs (with_local sp n body) M (set_range M' sp n NoAccess) v.
Proof.
  intros (H0 & Hb & Hf) [t H]. exists t. unfold with_local.
  replace (sp =? 0) with false by lia. replace (2 ^ 64 <=? sp + n) with false by lia.
  rewrite all_fresh_ok.
  - rewrite H. reflexivity.
  - intros a H1 H2. apply Hf; lia.
Qed.

Lemma local_restored M sp l n : free_cells M sp n -> n = len l -> forall a,
  set_range (write (set_range M sp n (RW None)) sp l) sp n NoAccess a = M a.
Proof.
  intros (H0 & Hb & Hf) -> a.
  destruct (N.lt_ge_cases a sp) as [L|L].
  - rewrite set_range_out by (left; exact L). rewrite write_outside by (left; exact L).
    apply set_range_out. left; exact L.
  - destruct (N.lt_ge_cases a (sp + len l)) as [L'|L'].
    + rewrite set_range_in by assumption. symmetry. apply Hf; assumption.
    + rewrite set_range_out by (right; exact L'). rewrite write_outside by (right; exact L').
      apply set_range_out. right; exact L'.
Qed.

Lemma diff_mem_go M a b t1 t2 l1 l2 r : readable M a (l1 ++ l2) -> readable M b (t1 ++ t2) ->
  length l1 = length t1 -> length l2 = length t2 ->
  runs (for_loop (length t2) (len l1)
    (fun i r => x <- ld a i ;; y <- ld b i ;; ret (N.lor r (N.lxor (b2n x) (b2n y)))) r) M M
   (diff_acc r l2 t2).
Proof.
  revert t1 l1 l2 r; induction t2 as [|y t2 IH]; intros t1 l1 l2 r R R' H1 H2.
  - destruct l2; [|discriminate]. cbn [length diff_acc]. apply runs_for_O.
  - destruct l2 as [|x l2]; [discriminate|]. cbn [length] in *. cbn [diff_acc].
    eapply runs_for_S.
    + eapply runs_bind; [apply runs_ld with (l := l1 ++ x :: l2); [exact R|rewrite app_length; cbn [length]; lia]|].
      eapply runs_bind.
      * unfold len. rewrite H1. apply runs_ld with (l := t1 ++ y :: t2); [exact R'|rewrite app_length; cbn [length]; lia].
      * rewrite !app_nth2, !Nat.sub_diag by lia. cbn [nth]. apply runs_ret.
    + replace (len l1 + 1) with (len (l1 ++ [x])) by (rewrite len_app; reflexivity).
      apply (IH (t1 ++ [y]) (l1 ++ [x]) l2).
      * rewrite <- app_assoc. exact R.
      * rewrite <- app_assoc. exact R'.
      * rewrite !app_length. cbn [length]. lia.
      * lia.
Qed.

Lemma runs_diff_mem M a b l t : readable M a l -> readable M b t -> length l = length t ->
  runs (diff_loop_mem (length t) a b) M M (diff_acc 0 l t).
Proof. intros R R' H. apply (diff_mem_go M a b [] t [] l 0); auto. Qed.

Lemma length_prf_gen iv k l n : length (prf_gen iv k l n) = n.
Proof.
  unfold prf_gen. apply length_squeeze; [lia| |lia].
  set (bs := chunks 32 (pad 32 l)).
  assert (E : forall bs S, length S = 40%nat -> length (prf_absorb S bs) = 40%nat).
  { induction bs0 as [|B bs0 IH]; intros S HS; [exact HS|].
    destruct bs0; cbn [prf_absorb]; [apply length_p|]. apply IH, length_p. }
  rewrite E by apply length_p. lia.
Qed.

(** Verification: returns 0 exactly when the given tag is right, and leaves
    all memory as it was. *)
Theorem ref_verify_ok IV CB M sp h hb inp l k kb : fits 64 IV -> is16 kb -> len hb = CB ->
  free_cells M sp CB ->
  readable M k kb -> readable M inp l -> readable M h hb ->
  exists M', runs (ref_auth_verify IV CB sp h inp (len l) k) M M'
    (if list_eq_dec Byte.byte_eq_dec (prf_gen (wb IV) kb l (length hb)) hb then 0 else -1)%Z
    /\ forall a, M' a = M a.
Proof.
  intros HIV Hk Hh Hf Rk R Rh.
  set (tag := prf_gen (wb IV) kb l (N.to_nat CB)).
  assert (Ht : length tag = N.to_nat CB) by apply length_prf_gen.
  assert (Hhl : length hb = N.to_nat CB) by (rewrite <- Hh; symmetry; apply to_nat_len).
  assert (Lt : len tag = CB) by (unfold len; lia).
  eexists. split.
  - unfold ref_auth_verify. apply runs_with_local; [exact Hf|].
    eapply runs_bind.
    + apply (ref_prf_ok IV CB) with (kb := kb); auto using readable_local; [lia|].
      apply writable_local, Hf.
    + fold tag. eapply runs_bind.
      * rewrite <- Ht. apply runs_diff_mem with (l := hb).
        -- apply readable_write_disjoint; [apply readable_local; assumption|].
           rewrite Lt. destruct Hf as (H0 & Hb & Hf). unfold disjoint.
           destruct (N.eq_dec CB 0) as [|Hc]; [auto|].
           destruct (N.le_gt_cases (sp + CB) h) as [|L1]; [auto|].
           destruct (N.le_gt_cases (h + len hb) sp) as [|L2]; [auto|]. exfalso.
           destruct Rh as (Hbh & _ & Hr). rewrite Hh in *.
           set (a := N.max sp h).
           specialize (Hr (N.to_nat (a - h)) ltac:(lia)).
           replace (h + N.of_nat (N.to_nat (a - h))) with a in Hr by lia.
           unfold rd in Hr. rewrite Hf in Hr by lia. discriminate.
        -- apply readable_write_self; [rewrite Lt; apply Hf|]. intros _. apply Hf.
        -- lia.
      * rewrite verdict_diff by lia. unfold tag. rewrite Hhl. apply runs_ret.
  - apply local_restored; [exact Hf|]. symmetry; exact Lt.
Qed.
