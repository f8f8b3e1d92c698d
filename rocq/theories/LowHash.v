(** * LowHash.v -- the XOF built on the size-optimised update function
    (src/combined/hash.c) refines the specification. *)
From Coq Require Import Arith Bool NArith ZArith List Lia Init.Byte Strings.Byte.
From Coq Require Import ZifyBool ZifyNat ZifyN.
From Verif Require Import Words WordFacts Spec SpecFacts CMem Contract CMemFacts ModelRef
  StateRep RefRound RefPrim RefAead RefHash ModelCommon WordLaws ComPrim ComAead ComHash ModelLow LowAead.
Import ListNotations.
Local Open Scope N_scope.

Section LowHash.
Variables (e : endian) (o : wordops) (cn : N -> N).
Hypothesis L : word_laws cn e o.
Variable strict : bool.
Notation vs := (ComPrim.vs cn).
Notation word := (ComPrim.word_of e o).
Notation body_ok := (LowAead.body_ok e o cn L strict true).
Notation AM := (N.lor ASCON_HASH ASCON_ABSORB).
Notation QM := (N.lor ASCON_HASH ASCON_SQUEEZE).

Ltac step := eapply runs_bind.

Lemma low_absorb_while f : forall M s tmp inp out l, wf s -> readable M inp l -> inp <> 0 ->
  out + len l < 2 ^ 64 -> (strict = true -> out <> 0 \/ len l < 8) ->
  (N.to_nat (len l / 8) < f)%nat ->
  exists s' tmp' inp' out' r,
    runs (while f ucond (update_body e o strict true AM) (s, 0, tmp, inp, out, len l)) M M (s', 0, tmp', inp', out', len r) /\
    wf s' /\ (length r < 8)%nat /\ readable M inp' r /\ inp' <> 0 /\
    absorb 12 (vs s) (chunks 8 (pad 8 l)) = absorb 12 (vs s') (chunks 8 (pad 8 r)).
Proof.
  induction f as [|f IH]; intros M s tmp inp out l Hs R Hin Ho Hst Hf; [lia|].
  pose proof (readable_bound _ _ _ R) as Hbd.
  destruct (N.leb_spec 8 (len l)) as [H|H].
  - destruct (split_len 8 l) as (B & l' & -> & HB & LB); [exact H|]. change (N.of_nat 8) with 8 in LB.
    destruct (readable_app _ _ _ _ R) as (R0 & R'). rewrite LB in R'.
    assert (Ll : len (B ++ l') = 8 + len l') by (rewrite len_app; lia).
    set (s1 := xorx s 0 (word B)).
    assert (W1 : wf s1) by (apply (wf_word e o cn L); [exact Hs|lia]).
    assert (E1 : vs s1 = xor_into (vs s) B) by (apply (vs_word0 e o cn L); lia).
    assert (Hst1 : strict = true -> out <> 0) by (intros Hx; specialize (Hst Hx); lia).
    pose proof (body_ok M AM s 0 tmp inp out (len (B ++ l')) B eq_refl R0 HB H ltac:(lia) Hs
      ltac:(discriminate) ltac:(lia) Hst1) as S1.
    cbn zeta in S1. replace (len (B ++ l') - 8) with (len l') in S1 by lia.
    destruct (IH M (w_P o 12 s1) (word B) (inp + 8) (out + 8) l' (wf_wP12 e o cn L _ W1) R')
      as (s2 & tmp2 & in2 & out2 & r & Rn2 & W2 & Hr & Rr & Hin2 & E2).
    { lia. }
    { lia. }
    { intros _. left. lia. }
    { eapply (div16_step f B l'); [lia|exact LB|exact Hf]. }
    exists s2, tmp2, in2, out2, r.
    split; [|split; [exact W2|split; [exact Hr|split; [exact Rr|split; [exact Hin2|]]]]].
    + eapply runs_while_step; [unfold ucond; lia|exact S1|exact Rn2].
    + rewrite chunks_pad_full by (auto; lia). rewrite absorb_cons, <- E1, <- (vs_P12 e o cn L) by exact W1. exact E2.
  - exists s, tmp, inp, out, l.
    split; [|split; [exact Hs|split; [unfold len in H; lia|split; [exact R|split; [exact Hin|reflexivity]]]]].
    apply runs_while_end. unfold ucond. lia.
Qed.

Lemma low_absorb_ok M s inp l : wf s -> readable M inp l -> inp <> 0 -> (strict = true -> len l < 8) ->
  exists s', runs (ascon_update e o strict true s NULL inp (len l) AM) M M s' /\ wf s' /\
    vs (w_P o 12 s') = absorb 12 (vs s) (chunks 8 (pad 8 l)).
Proof.
  intros Hs R Hin Hst. pose proof (readable_bound _ _ _ R) as Hbd.
  destruct (low_absorb_while (fuel (len l) 8) M s 0 inp NULL l Hs R Hin) as
    (s1 & tmp1 & in1 & out1 & r & Rn & W1 & Hr & Rr & Hin1 & E1).
  { unfold NULL. lia. }
  { auto. }
  { unfold fuel. lia. }
  destruct (utail_ok e o cn L true M AM s1 0 tmp1 in1 out1 r eq_refl Rr Hr Hin1 W1 ltac:(discriminate))
    as (s2 & Rn2 & W2 & E2).
  exists s2. split; [|split; [exact W2|]].
  - eapply update_split; [exact Rn|exact Rn2].
  - rewrite (vs_P12 e o cn L) by exact W2.
    rewrite (vs_last0 e o cn L s1 r s2 Hr).
    + rewrite E1, absorb_last by (rewrite ?length_vs; lia). reflexivity.
    + rewrite E2. rewrite (cs_pad e o cn L) by (apply len_lt8, Hr). rewrite xorx_comm. reflexivity.
Qed.

(** One word in the mode that only squeezes. *)
Lemma sqz_body_ok M s tmp inp out n : 8 <= n -> n < 2 ^ 64 -> wf s -> writable M out 8 ->
  out + 8 < 2 ^ 64 -> inp + 8 < 2 ^ 64 -> (strict = true -> inp <> 0) ->
  runs (update_body e o strict true QM (s, 0, tmp, inp, out, n)) M
    (write M out (wb (cn (X0 s)))) (w_P o 12 s, 0, tmp, inp + 8, out + 8, n - 8).
Proof.
  intros Hn Hn' Hs W Ho Hi Hst.
  assert (Hno : out <> 0) by (apply W; discriminate).
  unfold update_body.
  step; [apply runs_branch|]. cbn beta iota.
  step; [apply runs_ret|]. cbn beta iota.
  step; [apply runs_branch|]. cbn beta iota.
  step; [apply (runs_wSTORE e o cn L); [exact W|apply Hs]|].
  step; [apply runs_branch|]. cbn zeta.
  step; [apply runs_branch|].
  step; [apply runs_branch|].
  step; [apply runs_advance; [exact Hi|exact Hst]|].
  step; [apply runs_advance; [exact Ho|intros _; exact Hno]|].
  rewrite sub64_small by lia. apply runs_ret.
Qed.

Lemma low_squeeze_while f : forall M s tmp inp out n, wf s -> writable M out n ->
  inp + n < 2 ^ 64 -> (strict = true -> inp <> 0 \/ n < 8) ->
  (N.to_nat (n / 8) < f)%nat ->
  exists s' os r inp',
    runs (while f ucond (update_body e o strict true QM) (s, 0, tmp, inp, out, n)) M (write M out os)
      (s', 0, tmp, inp', out + len os, r) /\
    wf s' /\ r < 8 /\ n = len os + r /\
    squeeze (N.to_nat n) 8 12 (vs s) = os ++ squeeze (N.to_nat r) 8 12 (vs s').
Proof.
  induction f as [|f IH]; intros M s tmp inp out n Hs W Hi Hst Hf; [lia|].
  pose proof (writable_bound _ _ _ W) as Hbd.
  destruct (N.leb_spec 8 n) as [H|H].
  - assert (W' := W). replace n with (8 + (n - 8)) in W' by lia.
    destruct (writable_split _ _ _ _ W') as (W8 & Wr).
    set (b := wb (cn (X0 s))).
    destruct (div8_fuel n (S f) H Hf) as (f' & Ef & Hf'). injection Ef as <-.
    destruct (IH (write M out b) (w_P o 12 s) tmp (inp + 8) (out + 8) (n - 8)) as
      (s2 & os & r & in2 & Rn2 & W2 & Hr & Hn & E2).
    { apply (wf_wP12 e o cn L), Hs. }
    { apply writable_write, Wr. }
    { lia. }
    { intros _. left. lia. }
    { exact Hf'. }
    assert (Ew : write (write M out b) (out + 8) os = write M out (b ++ os))
      by (unfold b; rewrite write_app, len_wb; reflexivity).
    rewrite Ew in Rn2.
    replace (out + 8 + len os) with (out + len (b ++ os)) in Rn2 by (unfold b; rewrite len_app, len_wb; lia).
    exists s2, (b ++ os), r, in2. split; [|split; [exact W2|split; [exact Hr|split]]].
    + eapply runs_while_step; [unfold ucond; lia| |exact Rn2].
      apply sqz_body_ok; [exact H|lia|exact Hs|exact W8|lia|lia|].
      intros Hx. specialize (Hst Hx). lia.
    + unfold b. rewrite len_app, len_wb. lia.
    + replace (N.to_nat n) with (8 + N.to_nat (n - 8))%nat by lia.
      rewrite squeeze_more by (rewrite ?length_vs; lia).
      rewrite <- (vs_P12 e o cn L) by exact Hs. rewrite E2. unfold b. rewrite wb_cn0, app_assoc. reflexivity.
  - exists s, [], n, inp. rewrite len_nil, N.add_0_r. cbn [write app].
    split; [|split; [exact Hs|split; [exact H|split; [lia|reflexivity]]]].
    apply runs_while_end. unfold ucond. lia.
Qed.

Lemma low_squeeze_ok M s out n : wf s -> writable M out n -> 0 < n -> (strict = true -> n < 8) ->
  exists s', runs (ascon_update e o strict true s out NULL n QM) M
    (write M out (squeeze (N.to_nat n) 8 12 (vs s))) s'.
Proof.
  intros Hs W Hn0 Hst. pose proof (writable_bound _ _ _ W) as Hbd.
  assert (Hno : out <> 0) by (apply W; lia).
  destruct (low_squeeze_while (fuel n 8) M s 0 NULL out n Hs W) as (s1 & os & r & in1 & Rn & W1 & Hr & Hn & E).
  { unfold NULL. lia. }
  { auto. }
  { unfold fuel. lia. }
  rewrite E, squeeze_last by (rewrite ?length_vs; lia).
  unfold ComPrim.vs. rewrite firstn_xs0 by lia. rewrite write_app.
  rewrite Hn in W. destruct (writable_split _ _ _ _ W) as (_ & Wr).
  eexists. eapply update_split; [exact Rn|].
  unfold utail.
  step; [apply runs_branch|]. cbn beta iota.
  step; [apply runs_ret|]. cbn beta iota.
  step; [apply runs_branch|]. cbn beta iota.
  step; [apply (runs_wSTOREBYTES e o cn L); [apply writable_write, Wr|lia|lia|apply W1]|].
  step; [apply runs_branch|]. cbn beta iota.
  step; [apply runs_ret|].
  step; [apply runs_wPAD; exact Hr|]. apply runs_ret.
Qed.

Theorem low_xof_ok iv IV n M out inp l : wf iv -> vs iv = hash_init IV -> 0 < n ->
  readable M inp l -> writable M out n -> inp <> 0 ->
  (strict = true -> len l < 8 /\ n < 8) ->
  runs (low_xof e o strict true iv out n inp (len l)) M
    (write M out (hash_sponge (hash_init IV) l (N.to_nat n))) 0%Z.
Proof.
  intros W0 E0 Hn R W Hin Hst. unfold low_xof.
  destruct (low_absorb_ok M iv inp l W0 R Hin (fun H => proj1 (Hst H))) as (s1 & Rn & W1 & E1).
  destruct (low_squeeze_ok M (w_P o 12 s1) out n (wf_wP12 e o cn L _ W1) W Hn (fun H => proj2 (Hst H))) as (s2 & Rn2).
  step; [exact Rn|]. cbn zeta.
  step; [exact Rn2|].
  rewrite E1, E0. apply runs_ret.
Qed.
End LowHash.
