(** * ComHash.v -- the optimised family's hash and XOF refine the specification. *)
From Coq Require Import Arith Bool NArith ZArith List Lia Init.Byte.
From Coq Require Import ZifyBool ZifyNat ZifyN.
From Verif Require Import Words WordFacts Spec SpecFacts CMem Contract CMemFacts ModelRef
  StateRep RefRound RefPrim RefAead RefAeadDec RefHash ModelCommon WordLaws ComPrim ComAead.
Import ListNotations.
Local Open Scope N_scope.

Section ComHash.
Variables (e : endian) (o : wordops) (cn : N -> N).
Hypothesis L : word_laws cn e o.
Notation vs := (ComPrim.vs cn).
Notation word := (ComPrim.word_of e o).

Ltac step := eapply runs_bind.
Ltac ld R := step; [apply (runs_wLOAD e o); [exact R|lia]|].

Definition chcond : state * ptr * N -> bool := fun '(_, _, len) => 8 <=? len.
Definition cqcond : state * ptr * N -> bool := fun '(_, _, len) => 8 <? len.

Lemma vs_word0 s l : (length l <= 8)%nat -> vs (xorx s 0 (word l)) = xor_into (vs s) l.
Proof. intros H. rewrite (vs_word e o cn L) by (lia || exact H). reflexivity. Qed.

Lemma absorb_while f : forall M s inp l, wf s -> readable M inp l -> inp <> 0 ->
  (N.to_nat (len l / 8) < f)%nat ->
  exists s' inp' r, runs (while f chcond (absorb_body e o) (s, inp, len l)) M M (s', inp', len r) /\
    wf s' /\ (length r < 8)%nat /\ readable M inp' r /\ inp' <> 0 /\
    absorb 12 (vs s) (chunks 8 (pad 8 l)) = absorb 12 (vs s') (chunks 8 (pad 8 r)).
Proof.
  induction f as [|f IH]; intros M s inp l Hs R Hin Hf; [lia|].
  pose proof (readable_bound _ _ _ R) as Hbd.
  destruct (N.leb_spec 8 (len l)) as [H|H].
  - destruct (split_len 8 l) as (B & l' & -> & HB & LB); [exact H|]. change (N.of_nat 8) with 8 in LB.
    destruct (readable_app _ _ _ _ R) as (R0 & R'). rewrite LB in R'.
    set (s1 := xorx s 0 (word B)).
    assert (W1 : wf s1) by (apply (wf_word e o cn L); [exact Hs|lia]).
    assert (E1 : vs s1 = xor_into (vs s) B) by (apply vs_word0; lia).
    destruct (IH M (w_P o 12 s1) (inp + 8) l' (wf_wP12 e o cn L _ W1) R') as (s2 & in2 & r & Rn2 & W2 & Hr & Rr & Hin2 & E2).
    { lia. }
    { eapply (div16_step f B l'); [lia|exact LB|exact Hf]. }
    exists s2, in2, r. split; [|split; [exact W2|split; [exact Hr|split; [exact Rr|split; [exact Hin2|]]]]].
    + eapply runs_while_step; [unfold chcond; lia| |exact Rn2].
      unfold absorb_body. ld R0. fold s1.
      step; [eapply runs_padd_readable; [exact R|lia]|].
      rewrite sub64_small by lia.
      replace (len (B ++ l') - 8) with (len l') by (rewrite len_app; lia). apply runs_ret.
    + rewrite chunks_pad_full by (auto; lia). rewrite absorb_cons, <- E1, <- (vs_P12 e o cn L) by exact W1. exact E2.
  - exists s, inp, l. split; [|split; [exact Hs|split; [unfold len in H; lia|split; [exact R|split; [exact Hin|reflexivity]]]]].
    apply runs_while_end. unfold chcond. lia.
Qed.

Lemma absorb_ok M s inp l : wf s -> readable M inp l -> inp <> 0 ->
  exists s', runs (ascon_absorb e o s inp (len l)) M M s' /\ wf s' /\
    vs (w_P o 12 s') = absorb 12 (vs s) (chunks 8 (pad 8 l)).
Proof.
  intros Hs R Hin.
  destruct (absorb_while (fuel (len l) 8) M s inp l Hs R Hin) as (s1 & in1 & r & Rn & W1 & Hr & Rr & Hin1 & E1).
  { unfold fuel. lia. }
  set (s2 := xorx (xorx s1 0 (word r)) 0 (w_pad o (len r))).
  assert (W2 : wf s2).
  { apply (wf_pad e o cn L); [apply (wf_word e o cn L); [exact W1|lia]|apply len_lt8, Hr]. }
  exists s2. split; [|split; [exact W2|]].
  - unfold ascon_absorb. step; [exact Rn|]. cbn beta iota.
    step; [apply (runs_wLOADBYTES e o); [exact Rr|reflexivity|lia|exact Hin1]|]. cbn zeta.
    step; [apply runs_wPAD, len_lt8, Hr|]. apply runs_ret.
  - rewrite (vs_P12 e o cn L) by exact W2.
    rewrite (vs_last0 e o cn L s1 r s2 Hr).
    + rewrite E1, absorb_last by (rewrite ?length_vs; lia). reflexivity.
    + unfold s2. rewrite !(cs_pad e o cn L) by (apply len_lt8, Hr). rewrite (cs_word e o cn L) by lia.
      apply xorx_comm.
Qed.

Lemma squeeze_while f : forall M s out n, wf s -> writable M out n ->
  (N.to_nat (n / 8) < f)%nat ->
  exists s' os r, runs (while f cqcond (squeeze_body e o) (s, out, n)) M (write M out os)
      (s', out + len os, r) /\
    wf s' /\ r <= 8 /\ n = len os + r /\ (0 < n -> 0 < r) /\
    squeeze (N.to_nat n) 8 12 (vs s) = os ++ squeeze (N.to_nat r) 8 12 (vs s').
Proof.
  induction f as [|f IH]; intros M s out n Hs W Hf; [lia|].
  pose proof (writable_bound _ _ _ W) as Hbd.
  destruct (N.ltb_spec 8 n) as [H|H].
  - assert (W' := W). replace n with (8 + (n - 8)) in W' by lia.
    destruct (writable_split _ _ _ _ W') as (W8 & Wr).
    assert (F0 : fits 64 (X0 s)) by apply Hs.
    set (b := wb (cn (X0 s))).
    destruct (IH (write M out b) (w_P o 12 s) (out + 8) (n - 8)) as
      (s2 & os & r & Rn2 & W2 & Hr & Hn & Hp & E2).
    { apply (wf_wP12 e o cn L), Hs. }
    { apply writable_write, Wr. }
    { apply div_step_gt; [lia|exact H|exact Hf]. }
    assert (Ew : write (write M out b) (out + 8) os = write M out (b ++ os))
      by (unfold b; rewrite write_app, len_wb; reflexivity).
    rewrite Ew in Rn2.
    replace (out + 8 + len os) with (out + len (b ++ os)) in Rn2 by (unfold b; rewrite len_app, len_wb; lia).
    exists s2, (b ++ os), r. split; [|split; [exact W2|split; [exact Hr|split; [|split]]]].
    + eapply runs_while_step; [unfold cqcond; lia| |exact Rn2].
      unfold squeeze_body.
      step; [apply (runs_wSTORE e o cn L); [exact W8|exact F0]|].
      step; [eapply runs_padd_writable; [apply writable_write, W|lia]|].
      rewrite sub64_small by lia. apply runs_ret.
    + unfold b. rewrite len_app, len_wb. lia.
    + intros _. apply Hp. lia.
    + replace (N.to_nat n) with (8 + N.to_nat (n - 8))%nat by lia.
      rewrite squeeze_more by (rewrite ?length_vs; lia).
      rewrite <- (vs_P12 e o cn L) by exact Hs. rewrite E2. unfold b. rewrite wb_cn0, app_assoc. reflexivity.
  - exists s, [], n. rewrite len_nil, N.add_0_r. cbn [write app].
    split; [|split; [exact Hs|split; [exact H|split; [lia|split; [auto|reflexivity]]]]].
    apply runs_while_end. unfold cqcond. lia.
Qed.

Lemma squeeze_ok M s out n : wf s -> writable M out n -> 0 < n ->
  runs (ascon_squeeze e o s out n) M (write M out (squeeze (N.to_nat n) 8 12 (vs (w_P o 12 s)))) tt.
Proof.
  intros Hs W Hn0.
  destruct (squeeze_while (fuel n 8) M (w_P o 12 s) out n (wf_wP12 e o cn L _ Hs) W) as (s1 & os & r & Rn & W1 & Hr & Hn & Hp & E).
  { unfold fuel. lia. }
  rewrite E, squeeze_last by (rewrite ?length_vs; lia).
  unfold ascon_squeeze. step; [exact Rn|]. cbn beta iota.
  unfold ComPrim.vs. rewrite firstn_xs0 by lia. rewrite write_app.
  rewrite Hn in W. destruct (writable_split _ _ _ _ W) as (_ & Wr).
  apply (runs_wSTOREBYTES e o cn L); [apply writable_write, Wr|exact Hr| |apply W1].
  apply Wr. specialize (Hp Hn0). lia.
Qed.

Lemma xof_ok iv IV n M out inp l : wf iv -> vs iv = hash_init IV -> 0 < n ->
  readable M inp l -> writable M out n -> inp <> 0 ->
  runs (ascon_xof e o iv out n inp (len l)) M
    (write M out (hash_sponge (hash_init IV) l (N.to_nat n))) 0%Z.
Proof.
  intros W0 E0 Hn R W Hin. unfold ascon_xof.
  destruct (absorb_ok M iv inp l W0 R Hin) as (s1 & Rn & W1 & E1).
  step; [exact Rn|].
  step; [apply squeeze_ok; [exact W1|exact W|exact Hn]|].
  rewrite E1, E0. apply runs_ret.
Qed.

Theorem com_hash256_ok M out inp l : readable M inp l -> writable M out 32 -> inp <> 0 ->
  runs (com_hash_hash256 e o out inp (len l)) M (write M out (hash256 l)) 0%Z.
Proof.
  intros R W Hin. destruct (l_hash _ _ _ L) as [W0 E0].
  apply (xof_ok (c_hash o) iv_hash256 32); auto. lia.
Qed.

Theorem com_xof128_ok M out inp l : readable M inp l -> writable M out 64 -> inp <> 0 ->
  runs (com_hash_xof128 e o out inp (len l)) M (write M out (xof128 l 64)) 0%Z.
Proof.
  intros R W Hin. destruct (l_xof _ _ _ L) as [W0 E0].
  apply (xof_ok (c_xof o) iv_xof128 64); auto. lia.
Qed.
End ComHash.
