(** * RefHash.v -- the reference hash, XOF and CXOF refine the specification. *)
From Coq Require Import Arith Bool NArith ZArith List Lia Init.Byte.
From Coq Require Import ZifyBool ZifyNat ZifyN.
From Verif Require Import Words WordFacts Spec SpecFacts CMem Contract CMemFacts ModelRef
  StateRep RefRound RefPrim RefAead.
Import ListNotations.
Local Open Scope N_scope.

Definition hcond : state * ptr * N -> bool := fun '(_, _, len) => ASCON_HASH_RATE <=? len.
Definition qcond : state * ptr * N -> bool := fun '(_, _, len) => ASCON_HASH_RATE <? len.

Lemma ref_absorb_while f : forall M s inp l, wf s -> readable M inp l ->
  (N.to_nat (len l / 8) < f)%nat ->
  exists s' inp' r, runs (while f hcond ref_absorb_body (s, inp, len l)) M M (s', inp', len r) /\
    wf s' /\ (length r < 8)%nat /\ readable M inp' r /\
    absorb 12 (xs s) (chunks 8 (pad 8 l)) = absorb 12 (xs s') (chunks 8 (pad 8 r)).
Proof.
  induction f as [|f IH]; intros M s inp l Hs R Hf; [lia|].
  pose proof (readable_bound _ _ _ R) as Hbd.
  destruct (N.leb_spec 8 (len l)) as [H|H].
  - destruct (split_len 8 l) as (B & l' & -> & HB & LB); [exact H|]. change (N.of_nat 8) with 8 in LB.
    destruct (readable_app _ _ _ _ R) as (R0 & R'). rewrite LB in R'.
    set (s1 := xor0 s (le_num B)).
    assert (W1 : wf s1) by (apply wf_xor0; auto; apply fits_le_num8; lia).
    assert (E1 : xs s1 = xor_into (xs s) B) by (apply xs_block0; auto; lia).
    destruct (IH M (P12 s1) (inp + 8) l' (wf_P12 _ W1) R') as (s2 & in2 & r & Rn2 & W2 & Hr & Rr & E2).
    { eapply (div16_step f B l'); [lia|exact LB|exact Hf]. }
    exists s2, in2, r. split; [|split; [exact W2|split; [exact Hr|split; [exact Rr|]]]].
    + eapply runs_while_step; [unfold hcond, ASCON_HASH_RATE; lia| |exact Rn2].
      unfold ref_absorb_body.
      eapply runs_bind; [apply runs_LOADBYTES with (l := B); [exact R0|lia|lia]|].
      eapply runs_bind; [eapply runs_padd_readable; [exact R|unfold ASCON_HASH_RATE; lia]|].
      unfold ASCON_HASH_RATE. rewrite sub64_small by lia.
      replace (len (B ++ l') - 8) with (len l') by (rewrite len_app; lia). apply runs_ret.
    + rewrite chunks_pad_full by (auto; lia). rewrite absorb_cons, <- E1, <- xs_P12 by exact W1. exact E2.
  - exists s, inp, l. split; [|split; [exact Hs|split; [unfold len in H; lia|split; [exact R|reflexivity]]]].
    apply runs_while_end. unfold hcond, ASCON_HASH_RATE. lia.
Qed.

Lemma ref_absorb_ok M s inp l : wf s -> readable M inp l ->
  exists s', runs (ref_absorb s inp (len l)) M M s' /\ wf s' /\
    xs s' = absorb 12 (xs s) (chunks 8 (pad 8 l)).
Proof.
  intros Hs R.
  destruct (ref_absorb_while (fuel (len l) 8) M s inp l Hs R) as (s1 & in1 & r & Rn & W1 & Hr & Rr & E1).
  { unfold fuel. lia. }
  set (s2 := xor0 (xor0 s1 (le_num r)) (PAD (len r))).
  assert (W2 : wf s2).
  { apply wf_xor0; [apply wf_xor0; auto; apply fits_le_num8; lia|apply fits_PAD]. }
  exists (P12 s2). split; [|split; [apply wf_P12, W2|]].
  - unfold ref_absorb. eapply runs_bind; [exact Rn|]. cbn beta iota.
    eapply runs_bind; [apply runs_LOADBYTES with (l := r); [exact Rr|reflexivity|lia]|].
    apply runs_ret.
  - rewrite xs_P12 by exact W2. unfold s2. rewrite xs_last0 by (auto; lia).
    rewrite E1, absorb_last by (rewrite ?length_xs; lia). reflexivity.
Qed.

Lemma div_step_gt f n r : 0 < r -> r < n -> (N.to_nat (n / r) < S f)%nat ->
  (N.to_nat ((n - r) / r) < f)%nat.
Proof.
  intros Hr Hn. replace n with (n - r + 1 * r) at 1 by lia. rewrite N.div_add by lia. lia.
Qed.

Lemma firstn8_xs s : firstn 8 (xs s) = wb (X0 s).
Proof. apply firstn8_SB, wb_len. Qed.

Lemma ref_squeeze_while f : forall M s out n, wf s -> writable M out n ->
  (N.to_nat (n / 8) < f)%nat ->
  exists s' os r, runs (while f qcond ref_squeeze_body (s, out, n)) M (write M out os)
      (s', out + len os, r) /\
    wf s' /\ r <= 8 /\ n = len os + r /\
    squeeze (N.to_nat n) 8 12 (xs s) = os ++ squeeze (N.to_nat r) 8 12 (xs s').
Proof.
  induction f as [|f IH]; intros M s out n Hs W Hf; [lia|].
  pose proof (writable_bound _ _ _ W) as Hbd.
  destruct (N.ltb_spec 8 n) as [H|H].
  - assert (W' := W). replace n with (8 + (n - 8)) in W' by lia.
    destruct (writable_split _ _ _ _ W') as (W8 & Wr).
    destruct (IH (write M out (wb (X0 s))) (P12 s) (out + 8) (n - 8)) as
      (s2 & os & r & Rn2 & W2 & Hr & Hn & E2).
    { apply wf_P12, Hs. }
    { apply writable_write, Wr. }
    { apply div_step_gt; [lia|exact H|exact Hf]. }
    assert (Ew : write (write M out (wb (X0 s))) (out + 8) os = write M out (wb (X0 s) ++ os))
      by (rewrite write_app, len_wb; reflexivity).
    rewrite Ew in Rn2.
    replace (out + 8 + len os) with (out + len (wb (X0 s) ++ os)) in Rn2 by (rewrite len_app, len_wb; lia).
    exists s2, (wb (X0 s) ++ os), r. split; [|split; [exact W2|split; [exact Hr|split]]].
    + eapply runs_while_step; [unfold qcond, ASCON_HASH_RATE; lia| |exact Rn2].
      unfold ref_squeeze_body.
      eapply runs_bind; [apply runs_STOREBYTES; exact W8|].
      eapply runs_bind; [eapply runs_padd_writable; [apply writable_write, W|unfold ASCON_HASH_RATE; lia]|].
      unfold ASCON_HASH_RATE. rewrite sub64_small by lia. apply runs_ret.
    + rewrite len_app, len_wb. lia.
    + replace (N.to_nat n) with (8 + N.to_nat (n - 8))%nat by lia.
      rewrite squeeze_more by (rewrite ?length_xs; lia).
      rewrite <- xs_P12 by exact Hs. rewrite E2, firstn8_xs, app_assoc. reflexivity.
  - exists s, [], n. rewrite len_nil, N.add_0_r. cbn [write app].
    split; [|split; [exact Hs|split; [exact H|split; [lia|reflexivity]]]].
    apply runs_while_end. unfold qcond, ASCON_HASH_RATE. lia.
Qed.

Lemma ref_squeeze_ok M s out n : wf s -> writable M out n ->
  runs (ref_squeeze s out n) M (write M out (squeeze (N.to_nat n) 8 12 (xs s))) tt.
Proof.
  intros Hs W.
  destruct (ref_squeeze_while (fuel n 8) M s out n Hs W) as (s1 & os & r & Rn & W1 & Hr & Hn & E).
  { unfold fuel. lia. }
  rewrite E, squeeze_last by (rewrite ?length_xs; lia).
  unfold ref_squeeze. eapply runs_bind; [exact Rn|]. cbn beta iota.
  rewrite firstn_xs0, <- firstn_le_bytes by lia. rewrite write_app.
  apply runs_STOREBYTES. rewrite Hn in W. apply writable_write. apply writable_split in W. apply W.
Qed.

Lemma xs_iv iv : xs (St iv 0 0 0 0) = wb iv ++ zeros 32.
Proof. reflexivity. Qed.

Lemma wf_iv iv : fits 64 iv -> wf (St iv 0 0 0 0).
Proof. intros H. split; [exact H|]. repeat split; apply fits_0. Qed.

Lemma ref_hash_ok IV n M out inp l : fits 64 IV ->
  readable M inp l -> writable M out n ->
  runs (ref_hash IV n out inp (len l)) M
    (write M out (hash_sponge (hash_init (wb IV)) l (N.to_nat n))) 0%Z.
Proof.
  intros HIV R W. unfold ref_hash.
  assert (W0 : wf (P12 (St IV 0 0 0 0))) by (apply wf_P12, wf_iv, HIV).
  destruct (ref_absorb_ok M _ inp l W0 R) as (s1 & Rn & W1 & E1).
  eapply runs_bind; [exact Rn|].
  eapply runs_bind; [apply ref_squeeze_ok; [exact W1|exact W]|].
  rewrite E1, xs_P12, xs_iv by (apply wf_iv, HIV). apply runs_ret.
Qed.

Theorem ref_hash256_ok M out inp l : readable M inp l -> writable M out 32 ->
  runs (crypto_hash_hash256 out inp (len l)) M (write M out (hash256 l)) 0%Z.
Proof. intros R W. apply (ref_hash_ok ASCON_HASH_IV 32); [vm_compute; reflexivity|assumption..]. Qed.

Theorem ref_xof128_ok M out inp l : readable M inp l -> writable M out 64 ->
  runs (crypto_hash_xof128 out inp (len l)) M (write M out (xof128 l 64)) 0%Z.
Proof. intros R W. apply (ref_hash_ok ASCON_XOF_IV 64); [vm_compute; reflexivity|assumption..]. Qed.

(** The length block of a customization string below 2^61 bytes. *)
Theorem ref_cxof_ok M out n inp l cs cb :
  readable M inp l -> readable M cs cb -> writable M out n -> len cb < 2 ^ 61 ->
  runs (crypto_cxof out n inp (len l) cs (len cb)) M
    (write M out (cxof128 l cb (N.to_nat n))) 0%Z.
Proof.
  intros R Rc W Hcs. unfold crypto_cxof.
  assert (W0 : wf (P12 (St ASCON_CXOF_IV 0 0 0 0))).
  { apply wf_P12, wf_iv. vm_compute; reflexivity. }
  assert (Et : trunc 64 (len cb * 8) = 8 * len cb).
  { rewrite N.mul_comm, trunc_mod. apply N.mod_small. lia. }
  rewrite Et.
  assert (F : fits 64 (8 * len cb)) by (unfold fits; lia).
  set (s1 := xor0 (P12 (St ASCON_CXOF_IV 0 0 0 0)) (8 * len cb)).
  assert (W1 : wf s1) by (apply wf_xor0; auto).
  destruct (ref_absorb_ok M (P12 s1) cs cb (wf_P12 _ W1) Rc) as (s2 & Rn2 & W2 & E2).
  destruct (ref_absorb_ok M s2 inp l W2 R) as (s3 & Rn3 & W3 & E3).
  eapply runs_bind; [exact Rn2|].
  eapply runs_bind; [exact Rn3|].
  eapply runs_bind; [apply ref_squeeze_ok; [exact W3|exact W]|].
  replace (cxof128 l cb (N.to_nat n)) with (squeeze (N.to_nat n) 8 12 (xs s3)); [apply runs_ret|].
  rewrite E3, E2, xs_P12 by exact W1. unfold cxof128, hash_sponge. rewrite absorb_cons.
  unfold s1, xs. rewrite SB_xor0 by (auto using wb_len, wb_xor). change (SB wb) with xs.
  rewrite xs_P12, xs_iv by (apply wf_iv; vm_compute; reflexivity). reflexivity.
Qed.

Theorem ref_hash_cxof128_ok M out inp l : readable M inp l -> writable M out 64 ->
  runs (crypto_hash_cxof128 out inp (len l)) M (write M out (cxof128 l [] 64)) 0%Z.
Proof.
  intros R W. unfold crypto_hash_cxof128.
  apply (ref_cxof_ok M out 64 inp l NULL []); auto.
  - apply readable_nil. reflexivity.
  - reflexivity.
Qed.
