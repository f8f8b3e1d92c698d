(** * AvxHash.v -- the AVX-512 hash and XOF refine the specification; the
    API contracts of the AVX-512 implementation. *)
From Coq Require Import Arith Bool NArith ZArith List Lia Init.Byte Strings.Byte.
From Coq Require Import ZifyBool ZifyNat ZifyN.
From Verif Require Import Words WordFacts Spec SpecFacts CMem Contract CMemFacts ApiSpec AeadFacts ApiFacts ModelRef
  StateRep RefRound RefPrim RefAead RefAeadDec RefHash ModelCommon ModelWords WordLaws WordInst ComPrim ComAead ComAeadDec ComHash
  ModelAvx AvxRound AvxAead.
Import ListNotations.
Local Open Scope N_scope.

Local Notation L := (opt64_laws LE : word_laws cn64 LE wo).
Local Notation vs := (ComPrim.vs cn64).
Local Notation word := (ComPrim.word_of LE wo).
Local Ltac step := eapply runs_bind.

Definition zhcond : zmm * ptr * N -> bool := fun '(_, _, len) => 8 <=? len.
Definition zqcond : zmm * ptr * N -> bool := fun '(_, _, len) => 8 <? len.

Lemma z_absorb_while f : forall M s inp l, wf (zx s) -> readable M inp l -> inp <> 0 ->
  (N.to_nat (len l / 8) < f)%nat ->
  exists s' inp' r, runs (while f zhcond z_absorb_body (s, inp, len l)) M M (s', inp', len r) /\
    wf (zx s') /\ (length r < 8)%nat /\ readable M inp' r /\ inp' <> 0 /\
    absorb 12 (vs (zx s)) (chunks 8 (pad 8 l)) = absorb 12 (vs (zx s')) (chunks 8 (pad 8 r)).
Proof.
  induction f as [|f IH]; intros M s inp l Hs R Hin Hf; [lia|].
  pose proof (readable_bound _ _ _ R) as Hbd.
  destruct (N.leb_spec 8 (len l)) as [H|H].
  - destruct (split_len 8 l) as (B & l' & -> & HB & LB); [exact H|]. change (N.of_nat 8) with 8 in LB.
    destruct (readable_app _ _ _ _ R) as (R0 & R'). rewrite LB in R'.
    set (s1 := vxor s (vec_of_bytes (B ++ zeros (64 - length B)))).
    assert (X1 : zx s1 = xorx (zx s) 0 (word B)) by (apply zx_xor8, HB).
    assert (W1 : wf (zx s1)) by (rewrite X1; apply (wf_word LE wo cn64 L); [exact Hs|lia]).
    assert (E1 : vs (zx s1) = xor_into (vs (zx s)) B) by (rewrite X1; apply (vs_word0 LE wo cn64 L); lia).
    destruct (zP12_ok s1 W1) as [WP EP].
    destruct (IH M (zP 12 s1) (inp + 8) l' WP R') as (s2 & in2 & r & Rn2 & W2 & Hr & Rr & Hin2 & E2).
    { lia. }
    { eapply (div16_step f B l'); [lia|exact LB|exact Hf]. }
    exists s2, in2, r. split; [|split; [exact W2|split; [exact Hr|split; [exact Rr|split; [exact Hin2|]]]]].
    + eapply runs_while_step; [unfold zhcond; lia| |exact Rn2].
      unfold z_absorb_body. step; [apply runs_maskz_loadu; [exact R0|lia|lia]|]. fold s1.
      step; [eapply runs_padd_readable; [exact R|lia]|].
      rewrite sub64_small by lia.
      replace (len (B ++ l') - 8) with (len l') by (rewrite len_app; lia). apply runs_ret.
    + rewrite chunks_pad_full by (auto; lia). rewrite absorb_cons, <- E1, <- EP. exact E2.
  - exists s, inp, l. split; [|split; [exact Hs|split; [unfold len in H; lia|split; [exact R|split; [exact Hin|reflexivity]]]]].
    apply runs_while_end. unfold zhcond. lia.
Qed.

Lemma z_absorb_ok M s inp l : wf (zx s) -> readable M inp l -> inp <> 0 ->
  exists s', runs (z_absorb s inp (len l)) M M s' /\ wf (zx s') /\
    vs (zx (zP 12 s')) = absorb 12 (vs (zx s)) (chunks 8 (pad 8 l)).
Proof.
  intros Hs R Hin.
  destruct (z_absorb_while (fuel (len l) 8) M s inp l Hs R Hin) as (s1 & in1 & r & Rn & W1 & Hr & Rr & Hin1 & E1).
  { unfold fuel. lia. }
  set (s2 := xorx (xorx (zx s1) 0 (word r)) 0 (w_pad wo (len r))).
  assert (W2 : wf s2).
  { apply (wf_pad LE wo cn64 L); [apply (wf_word LE wo cn64 L); [exact W1|lia]|apply len_lt8, Hr]. }
  exists (withx s1 s2). split; [|split; [exact W2|]].
  - unfold z_absorb. step; [exact Rn|]. cbn beta iota.
    step; [apply (runs_wLOADBYTES LE wo); [exact Rr|reflexivity|lia|exact Hin1]|]. cbn zeta.
    step; [apply runs_wPAD, len_lt8, Hr|]. apply runs_ret.
  - destruct (zP12_ok (withx s1 s2) W2) as [_ ->]. cbn [zx withx].
    rewrite (vs_last0 LE wo cn64 L (zx s1) r s2 Hr).
    + rewrite E1, absorb_last by (rewrite ?(length_vs cn64); lia). reflexivity.
    + unfold s2. rewrite !(cs_pad LE wo cn64 L) by (apply len_lt8, Hr). rewrite (cs_word LE wo cn64 L) by lia.
      apply xorx_comm.
Qed.

Lemma z_squeeze_while f : forall M s out n, wf (zx s) -> writable M out n ->
  (N.to_nat (n / 8) < f)%nat ->
  exists s' os r, runs (while f zqcond z_squeeze_body (s, out, n)) M (write M out os)
      (s', out + len os, r) /\
    wf (zx s') /\ r <= 8 /\ n = len os + r /\ (0 < n -> 0 < r) /\
    squeeze (N.to_nat n) 8 12 (vs (zx s)) = os ++ squeeze (N.to_nat r) 8 12 (vs (zx s')).
Proof.
  induction f as [|f IH]; intros M s out n Hs W Hf; [lia|].
  pose proof (writable_bound _ _ _ W) as Hbd.
  destruct (N.ltb_spec 8 n) as [H|H].
  - assert (W' := W). replace n with (8 + (n - 8)) in W' by lia.
    destruct (writable_split _ _ _ _ W') as (W8 & Wr).
    assert (F0 : fits 64 (X0 (zx s))) by apply Hs.
    set (b := wb (cn64 (X0 (zx s)))).
    destruct (zP12_ok s Hs) as [WP EP].
    destruct (IH (write M out b) (zP 12 s) (out + 8) (n - 8)) as
      (s2 & os & r & Rn2 & W2 & Hr & Hn & Hp & E2).
    { exact WP. }
    { apply writable_write, Wr. }
    { apply div_step_gt; [lia|exact H|exact Hf]. }
    assert (Ew : write (write M out b) (out + 8) os = write M out (b ++ os))
      by (unfold b; rewrite write_app, len_wb; reflexivity).
    rewrite Ew in Rn2.
    replace (out + 8 + len os) with (out + len (b ++ os)) in Rn2 by (unfold b; rewrite len_app, len_wb; lia).
    exists s2, (b ++ os), r. split; [|split; [exact W2|split; [exact Hr|split; [|split]]]].
    + eapply runs_while_step; [unfold zqcond; lia| |exact Rn2].
      unfold z_squeeze_body.
      step; [apply runs_mask_storeu; [exact W8|lia|lia]|].
      replace (firstn (N.to_nat 8) (vec_bytes s)) with b by (unfold b; rewrite cn64_id by exact F0; symmetry; apply vec_bytes_8).
      step; [eapply runs_padd_writable; [apply writable_write, W|lia]|].
      rewrite sub64_small by lia. apply runs_ret.
    + unfold b. rewrite len_app, len_wb. lia.
    + intros _. apply Hp. lia.
    + replace (N.to_nat n) with (8 + N.to_nat (n - 8))%nat by lia.
      rewrite squeeze_more by (rewrite ?(length_vs cn64); lia).
      rewrite <- EP. rewrite E2. unfold b. rewrite wb_cn0, app_assoc. reflexivity.
  - exists s, [], n. rewrite len_nil, N.add_0_r. cbn [write app].
    split; [|split; [exact Hs|split; [exact H|split; [lia|split; [auto|reflexivity]]]]].
    apply runs_while_end. unfold zqcond. lia.
Qed.

Lemma z_squeeze_ok M s out n : wf (zx s) -> writable M out n -> 0 < n ->
  runs (z_squeeze s out n) M (write M out (squeeze (N.to_nat n) 8 12 (vs (zx (zP 12 s))))) tt.
Proof.
  intros Hs W Hn0. destruct (zP12_ok s Hs) as [WP _].
  destruct (z_squeeze_while (fuel n 8) M (zP 12 s) out n WP W) as (s1 & os & r & Rn & W1 & Hr & Hn & Hp & E).
  { unfold fuel. lia. }
  rewrite E, squeeze_last by (rewrite ?(length_vs cn64); lia).
  unfold z_squeeze. step; [exact Rn|]. cbn beta iota.
  unfold ComPrim.vs. rewrite firstn_xs0 by lia. rewrite write_app.
  rewrite Hn in W. destruct (writable_split _ _ _ _ W) as (_ & Wr).
  apply (runs_wSTOREBYTES LE wo cn64 L); [apply writable_write, Wr|exact Hr| |apply W1].
  apply Wr. specialize (Hp Hn0). lia.
Qed.

Lemma avx_xof_ok iv IV n M out inp l : wf iv -> vs iv = hash_init IV -> 0 < n ->
  readable M inp l -> writable M out n -> inp <> 0 ->
  runs (avx_xof iv out n inp (len l)) M
    (write M out (hash_sponge (hash_init IV) l (N.to_nat n))) 0%Z.
Proof.
  intros W0 E0 Hn R W Hin. unfold avx_xof.
  destruct (z_absorb_ok M (Zm iv 0 0 0) inp l W0 R Hin) as (s1 & Rn & W1 & E1). cbn [zx] in E1.
  step; [exact Rn|].
  step; [apply z_squeeze_ok; [exact W1|exact W|exact Hn]|].
  rewrite E1, E0. apply runs_ret.
Qed.

(** ** The API contracts *)

Lemma avx_hash256_conforms : hash_conforms (Demands true false false) hash256 32 avx_hash_hash256.
Proof.
  intros M out inp l R W Hn. apply returns_runs. destruct (l_hash _ _ _ L) as [W0 E0].
  assert (Hin : inp <> 0) by (apply Hn; reflexivity).
  exact (avx_xof_ok (c_hash wo) iv_hash256 32 M out inp l W0 E0 eq_refl R W Hin).
Qed.
Lemma avx_xof128_conforms : hash_conforms (Demands true false false) (fun l => xof128 l 64) 64 avx_hash_xof128.
Proof.
  intros M out inp l R W Hn. apply returns_runs. destruct (l_xof _ _ _ L) as [W0 E0].
  assert (Hin : inp <> 0) by (apply Hn; reflexivity).
  exact (avx_xof_ok (c_xof wo) iv_xof128 64 M out inp l W0 E0 eq_refl R W Hin).
Qed.
Lemma avx_encrypt_conforms u : encrypt_conforms LE (Demands false false false) (avx_aead_encrypt u).
Proof.
  intros M c clen m ad nsec npub k mb adb nb kb []. destruct ep_ov as [ep_ov _]. apply returns_runs, avx_encrypt_ok; assumption.
Qed.
Lemma avx_decrypt_conforms u : decrypt_conforms LE (Demands false false false) (avx_aead_decrypt u).
Proof.
  intros M m mlen nsec c ad npub k ct adb nb kb mb t [] O. destruct dp_ov as [dp_ov _]. cbn [no_overlap overlap_rule] in *.
  destruct (ct_split ct dp_len) as (E & L1 & L2).
  destruct (avx_decrypt_ok u M m mlen nsec c ad npub k kb nb adb (ct_body ct) (ct_tag ct) mb t) as (H & _);
    rewrite <- ?E, ?L1; try assumption.
  rewrite <- E, L1 in H. apply returns_runs, H.
Qed.
Lemma avx_decrypt_rejects_short u : decrypt_rejects_short (avx_aead_decrypt u).
Proof.
  intros M m mlen nsec c clen ad adlen npub k H. unfold avx_aead_decrypt, CRYPTO_ABYTES, bind, branch.
  replace (clen <? 16) with true by lia. reflexivity.
Qed.
