(** * Opt8Hash.v -- the byte-oriented hash and XOF refine the specification. *)
From Coq Require Import Arith Bool NArith ZArith List Lia Init.Byte.
From Coq Require Import ZifyBool ZifyNat ZifyN.
From Verif Require Import Words WordFacts Spec SpecFacts CMem Contract CMemFacts ModelRef
  StateRep RefRound RefPrim RefAead RefAeadDec RefHash ModelCommon ModelWords WordInst ComAead
  ModelOpt8 Opt8Prim Opt8Aead.
Import ListNotations.
Local Open Scope N_scope.

Lemma o8_words_LE s : o8_words LE s = xs s.
Proof. reflexivity. Qed.

Section Opt8Hash.
Variable P : N -> bytes -> bytes.
Hypothesis HP : conforming P.

Ltac step := eapply runs_bind.

(** [hpad]: where the code puts the padding byte; [padf]: the padding of the
    whole message that amounts to. *)
Definition pads8 (hpad : N -> N) (padf : bytes -> bytes) : Prop :=
  (forall n, n < 8 -> hpad n < 8) /\
  (forall B l, length B = 8%nat -> chunks 8 (padf (B ++ l)) = B :: chunks 8 (padf l)) /\
  (forall r S, (length r < 8)%nat -> length S = 40%nat ->
    absorb 12 S (chunks 8 (padf r)) = p 12 (xor_at (N.to_nat (hpad (len r))) (xor_into S r) [x01])).
Lemma opt8_pads8 : pads8 opt8_hpad (pad 8).
Proof.
  split; [intros n H; exact H|split].
  - intros B l H. apply chunks_pad_full; [lia|exact H].
  - intros r S H HS. rewrite absorb_last by lia. unfold opt8_hpad. rewrite to_nat_len. reflexivity.
Qed.
Section Pad8.
Variables (hpad : N -> N) (padf : bytes -> bytes).
Hypothesis HPad : pads8 hpad padf.

Definition hcond8 : bytes * ptr * N -> bool := fun '(_, _, len) => 8 <=? len.
Definition qcond8 : bytes * ptr * N -> bool := fun '(_, _, len) => 8 <? len.

Lemma habsorb_while f : forall M s inp l, length s = 40%nat -> readable M inp l ->
  (N.to_nat (len l / 8) < f)%nat ->
  exists s' inp' r, runs (while f hcond8 (o8_absorb_body P) (s, inp, len l)) M M (s', inp', len r) /\
    length s' = 40%nat /\ (length r < 8)%nat /\ readable M inp' r /\
    absorb 12 s (chunks 8 (padf l)) = absorb 12 s' (chunks 8 (padf r)).
Proof.
  induction f as [|f IH]; intros M s inp l Hs R Hf; [lia|].
  pose proof (readable_bound _ _ _ R) as Hbd.
  destruct (N.leb_spec 8 (len l)) as [H|H].
  - destruct (split_len 8 l) as (B & l' & -> & HB & LB); [exact H|]. change (N.of_nat 8) with 8 in LB.
    destruct (readable_app _ _ _ _ R) as (R0 & R'). rewrite LB in R'.
    destruct (IH M (p 12 (xor_into s B)) (inp + 8) l' (length_p _ _) R') as (s2 & in2 & r & Rn2 & W2 & Hr & Rr & E2).
    { eapply (div16_step f B l'); [lia|exact LB|exact Hf]. }
    exists s2, in2, r. split; [|split; [exact W2|split; [exact Hr|split; [exact Rr|]]]].
    + eapply runs_while_step; [unfold hcond8; lia| |exact Rn2].
      unfold o8_absorb_body.
      step; [apply (absorb_ok _ _ _ _ B); [exact R0|symmetry; exact LB|change (N.to_nat 0) with 0%nat; lia]|].
      change (N.to_nat 0) with 0%nat. rewrite xor_at_0.
      rewrite (P12_ok P HP) by (rewrite length_xor_into; exact Hs).
      step; [eapply runs_padd_readable; [exact R|lia]|].
      rewrite sub64_small by lia.
      replace (len (B ++ l') - 8) with (len l') by (rewrite len_app; lia). apply runs_ret.
    + destruct HPad as (_ & Hfull & _). rewrite (Hfull B l' HB). rewrite absorb_cons. exact E2.
  - exists s, inp, l. split; [|split; [exact Hs|split; [unfold len in H; lia|split; [exact R|reflexivity]]]].
    apply runs_while_end. unfold hcond8. lia.
Qed.

Lemma habsorb_ok M s inp l : length s = 40%nat -> readable M inp l ->
  exists s', runs (o8_absorb P hpad s inp (len l)) M M s' /\ length s' = 40%nat /\
    p 12 s' = absorb 12 s (chunks 8 (padf l)).
Proof.
  intros Hs R.
  destruct (habsorb_while (fuel (len l) 8) M s inp l Hs R) as (s1 & in1 & r & Rn & W1 & Hr & Rr & E1).
  { unfold fuel. lia. }
  destruct HPad as (Hlt & _ & Hlast).
  assert (Lr : hpad (len r) < 8) by (apply Hlt, len_lt8, Hr).
  exists (xor_at (N.to_nat (hpad (len r))) (xor_into s1 r) [x01]). split; [|split].
  - unfold o8_absorb. step; [exact Rn|]. cbn beta iota.
    step; [apply (absorb_ok _ _ _ _ r); [exact Rr|reflexivity|change (N.to_nat 0) with 0%nat; lia]|].
    change (N.to_nat 0) with 0%nat. rewrite xor_at_0.
    exact (xorb8_ok M (xor_into s1 r) 0 (hpad (len r)) x01 eq_refl Lr (eq_trans (length_xor_into _ _) W1)).
  - rewrite length_xor_at; rewrite length_xor_into; lia.
  - rewrite E1, Hlast by assumption. reflexivity.
Qed.

Lemma hsqueeze_while f : forall M s out n, length s = 40%nat -> writable M out n ->
  (N.to_nat (n / 8) < f)%nat ->
  exists s' os r, runs (while f qcond8 (o8_squeeze_body P) (s, out, n)) M (write M out os)
      (s', out + len os, r) /\
    length s' = 40%nat /\ r <= 8 /\ n = len os + r /\
    squeeze (N.to_nat n) 8 12 s = os ++ squeeze (N.to_nat r) 8 12 s'.
Proof.
  induction f as [|f IH]; intros M s out n Hs W Hf; [lia|].
  pose proof (writable_bound _ _ _ W) as Hbd.
  destruct (N.ltb_spec 8 n) as [H|H].
  - assert (W' := W). replace n with (8 + (n - 8)) in W' by lia.
    destruct (writable_split _ _ _ _ W') as (W8 & Wr).
    set (b := firstn 8 s).
    assert (Lb : len b = 8) by (unfold len, b; rewrite firstn_length, Hs; reflexivity).
    destruct (IH (write M out b) (p 12 s) (out + 8) (n - 8)) as
      (s2 & os & r & Rn2 & W2 & Hr & Hn & E2).
    { apply length_p. }
    { apply writable_write, Wr. }
    { apply div_step_gt; [lia|exact H|exact Hf]. }
    assert (Ew : write (write M out b) (out + 8) os = write M out (b ++ os))
      by (rewrite write_app, Lb; reflexivity).
    rewrite Ew in Rn2.
    replace (out + 8 + len os) with (out + len (b ++ os)) in Rn2 by (rewrite len_app, Lb; lia).
    exists s2, (b ++ os), r. split; [|split; [exact W2|split; [exact Hr|split]]].
    + eapply runs_while_step; [unfold qcond8; lia| |exact Rn2].
      unfold o8_squeeze_body.
      step; [apply (squeeze_ok M s 0 out 8); [exact W8|change (N.to_nat 0) with 0%nat; change (N.to_nat 8) with 8%nat; lia]|].
      rewrite (P12_ok P HP) by exact Hs.
      step; [eapply runs_padd_writable; [apply writable_write, W|lia]|].
      rewrite sub64_small by lia. apply runs_ret.
    + rewrite len_app, Lb. lia.
    + replace (N.to_nat n) with (8 + N.to_nat (n - 8))%nat by lia.
      rewrite squeeze_more by lia. rewrite E2, app_assoc. reflexivity.
  - exists s, [], n. rewrite len_nil, N.add_0_r. cbn [write app].
    split; [|split; [exact Hs|split; [exact H|split; [lia|reflexivity]]]].
    apply runs_while_end. unfold qcond8. lia.
Qed.

Lemma hsqueeze_ok M s out n : length s = 40%nat -> writable M out n ->
  runs (o8_squeeze P s out n) M (write M out (squeeze (N.to_nat n) 8 12 (p 12 s))) tt.
Proof.
  intros Hs W.
  destruct (hsqueeze_while (fuel n 8) M (p 12 s) out n (length_p _ _) W) as (s1 & os & r & Rn & W1 & Hr & Hn & E).
  { unfold fuel. lia. }
  rewrite E, squeeze_last by lia.
  unfold o8_squeeze. rewrite (P12_ok P HP) by exact Hs. step; [exact Rn|]. cbn beta iota.
  rewrite write_app.
  rewrite Hn in W. destruct (writable_split _ _ _ _ W) as (_ & Wr).
  apply (squeeze_ok (write M out os) s1 0 (out + len os) r); [apply writable_write, Wr|].
  change (N.to_nat 0) with 0%nat. lia.
Qed.

Lemma o8_xof_ok iv IV n M out inp l : xs iv = hash_init IV ->
  readable M inp l -> writable M out n ->
  runs (o8_xof LE P hpad iv out n inp (len l)) M
    (write M out (squeeze (N.to_nat n) 8 12 (absorb 12 (hash_init IV) (chunks 8 (padf l))))) 0%Z.
Proof.
  intros E0 R W. unfold o8_xof. rewrite o8_words_LE, E0.
  destruct (habsorb_ok M (hash_init IV) inp l (length_p _ _) R) as (s1 & Rn & W1 & E1).
  step; [exact Rn|].
  step; [apply hsqueeze_ok; [exact W1|exact W]|].
  rewrite E1. apply runs_ret.
Qed.

End Pad8.

Theorem o8_hash256_ok M out inp l : readable M inp l -> writable M out 32 ->
  runs (o8_hash_hash256 LE P opt8_hpad out inp (len l)) M (write M out (hash256 l)) 0%Z.
Proof. intros R W. apply (o8_xof_ok opt8_hpad (pad 8) opt8_pads8 w64_HASH_IV iv_hash256 32); [apply hash_iv_ok|exact R|exact W]. Qed.

Theorem o8_xof128_ok M out inp l : readable M inp l -> writable M out 64 ->
  runs (o8_hash_xof128 LE P opt8_hpad out inp (len l)) M (write M out (xof128 l 64)) 0%Z.
Proof. intros R W. apply (o8_xof_ok opt8_hpad (pad 8) opt8_pads8 w64_XOF_IV iv_xof128 64); [apply xof_iv_ok|exact R|exact W]. Qed.
End Opt8Hash.
