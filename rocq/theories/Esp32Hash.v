(** * Esp32Hash.v -- the ESP32 implementation: hash and XOF refine the
    specification. *)
From Coq Require Import Arith Bool NArith ZArith List Lia Init.Byte.
From Coq Require Import ZifyBool ZifyNat ZifyN.
From Verif Require Import Words WordFacts Spec SpecFacts CMem Contract CMemFacts ModelRef ModelCommon ModelWords WordInst
  StateRep RefRound RefPrim RefAead RefHash ModelEsp32 Esp32Prim Esp32Aead.
Import ListNotations.
Local Open Scope N_scope.

Section Esp.
Variable e : endian.
Variable ul : N.

Lemma P_HPB s : wf s -> P HASH_PB_START_ROUND s = P12 s.
Proof. apply P_PA. Qed.

Lemma esp_absorb_while f : forall M s inp l, wf s -> readable M inp l -> inp <> 0 -> len l < 2 ^ ul ->
  (N.to_nat (len l / 8) < f)%nat ->
  exists s' inp' r, runs (while f hcond (hash_absorb_body e ul) (s, inp, len l)) M M (s', inp', len r) /\
    wf s' /\ (length r < 8)%nat /\ readable M inp' r /\ inp' <> 0 /\
    absorb 12 (xs s) (chunks 8 (pad 8 l)) = absorb 12 (xs s') (chunks 8 (pad 8 r)).
Proof.
  induction f as [|f IH]; intros M s inp l Hs R Hi Hul Hf; [lia|].
  pose proof (readable_bound _ _ _ R) as Hbd.
  destruct (N.leb_spec 8 (len l)) as [H|H].
  - destruct (split_len 8 l) as (B & l' & -> & HB & LB); [exact H|]. change (N.of_nat 8) with 8 in LB.
    destruct (readable_app _ _ _ _ R) as (R0 & R'). rewrite LB in R'.
    rewrite len_app in Hul.
    set (s1 := xor0 s (le_num B)).
    assert (W1 : wf s1) by (apply wf_xor0; auto; apply fits_le_num8; lia).
    assert (E1 : xs s1 = xor_into (xs s) B) by (apply xs_block0; auto; lia).
    destruct (IH M (P12 s1) (inp + 8) l' (wf_P12 _ W1) R') as (s2 & in2 & r & Rn2 & W2 & Hr & Rr & Hi2 & E2); [lia|lia| |].
    { eapply (div16_step f B l'); [lia|exact LB|exact Hf]. }
    exists s2, in2, r. split; [|split; [exact W2|split; [exact Hr|split; [exact Rr|split; [exact Hi2|]]]]].
    + eapply runs_while_step; [unfold hcond, ASCON_HASH_RATE; lia| |exact Rn2].
      unfold hash_absorb_body.
      eapply runs_bind; [apply runs_LD64 with (b := B); [replace (inp + 4 * 0) with inp by lia; exact R0|exact HB|exact Hi]|].
      rewrite hxor0_ok by (auto; apply fits_le_num8; lia). fold s1. rewrite P_HPB by exact W1. cbv zeta.
      eapply runs_bind; [eapply runs_padd_readable; [exact R|unfold ASCON_HASH_RATE; lia]|].
      unfold ASCON_HASH_RATE. rewrite subul_small by (rewrite ?len_app; lia).
      replace (len (B ++ l') - 8) with (len l') by (rewrite len_app; lia). apply runs_ret.
    + rewrite chunks_pad_full by (auto; lia). rewrite absorb_cons, <- E1, <- xs_P12 by exact W1. exact E2.
  - exists s, inp, l. split; [|split; [exact Hs|split; [unfold len in H; lia|split; [exact R|split; [exact Hi|reflexivity]]]]].
    apply runs_while_end. unfold hcond, ASCON_HASH_RATE. lia.
Qed.

Lemma esp_absorb_ok M s inp l : wf s -> readable M inp l -> inp <> 0 -> len l < 2 ^ ul ->
  exists s', runs (hash_absorb e ul s inp (len l)) M M s' /\ wf s' /\
    xs s' = absorb 12 (xs s) (chunks 8 (pad 8 l)).
Proof.
  intros Hs R Hi Hul.
  destruct (esp_absorb_while (fuel (len l) 8) M s inp l Hs R Hi Hul) as (s1 & in1 & r & Rn & W1 & Hr & Rr & Hi1 & E1).
  { unfold fuel. lia. }
  set (bl := r ++ x01 :: zeros (8 - 1 - length r)).
  assert (Hbl : length bl = 8%nat) by (unfold bl; rewrite app_length; cbn [length]; rewrite length_zeros; lia).
  set (s2 := xor0 s1 (le_num bl)).
  assert (W2 : wf s2) by (apply wf_xor0; auto; apply fits_le_num8; lia).
  exists (P12 s2). split; [|split; [apply wf_P12, W2|]].
  - unfold hash_absorb. eapply runs_bind; [exact Rn|]. cbn beta iota.
    eapply runs_bind; [apply (runs_memcpy_in _ _ r); auto|]. rewrite to_nat_len.
    rewrite poke_over by exact Hr. fold bl.
    replace (word_at e bl 0) with (le_num bl) by (rewrite <- (app_nil_r bl) at 2; rewrite word_at_0 by exact Hbl; reflexivity).
    cbv zeta. rewrite hxor0_ok by (auto; apply fits_le_num8; lia). fold s2. rewrite P_PA by exact W2. apply runs_ret.
  - rewrite xs_P12 by exact W2. unfold s2. rewrite xs_block0 by (auto; lia).
    unfold bl. rewrite xor_into_padded by (rewrite length_xs; lia).
    rewrite E1, absorb_last by (rewrite ?length_xs; lia). reflexivity.
Qed.

Lemma esp_squeeze_while f : forall M s out n, wf s -> writable M out n -> out <> 0 -> n < 2 ^ ul ->
  (N.to_nat (n / 8) < f)%nat ->
  exists s' os r, runs (while f qcond (hash_squeeze_body e ul) (s, out, n)) M (write M out os)
      (s', out + len os, r) /\
    wf s' /\ r <= 8 /\ n = len os + r /\
    squeeze (N.to_nat n) 8 12 (xs s) = os ++ squeeze (N.to_nat r) 8 12 (xs s').
Proof.
  induction f as [|f IH]; intros M s out n Hs W Ho Hul Hf; [lia|].
  pose proof (writable_bound _ _ _ W) as Hbd.
  destruct (N.ltb_spec 8 n) as [H|H].
  - assert (W' := W). replace n with (8 + (n - 8)) in W' by lia.
    destruct (writable_split _ _ _ _ W') as (W8 & Wr).
    destruct (IH (write M out (wb (X0 s))) (P12 s) (out + 8) (n - 8)) as
      (s2 & os & r & Rn2 & W2 & Hr & Hn & E2).
    { apply wf_P12, Hs. }
    { apply writable_write, Wr. }
    { lia. }
    { lia. }
    { apply div_step_gt; [lia|exact H|exact Hf]. }
    assert (Ew : write (write M out (wb (X0 s))) (out + 8) os = write M out (wb (X0 s) ++ os))
      by (rewrite write_app, len_wb; reflexivity).
    rewrite Ew in Rn2.
    replace (out + 8 + len os) with (out + len (wb (X0 s) ++ os)) in Rn2 by (rewrite len_app, len_wb; lia).
    exists s2, (wb (X0 s) ++ os), r. split; [|split; [exact W2|split; [exact Hr|split]]].
    + eapply runs_while_step; [unfold qcond, ASCON_HASH_RATE; lia| |exact Rn2].
      unfold hash_squeeze_body.
      eapply runs_bind; [apply runs_ST64; [replace (out + 4 * 0) with out by lia; exact W8|exact Ho|apply fits_X0, Hs]|].
      replace (out + 4 * 0) with out by lia. cbv zeta. rewrite P_HPB by exact Hs.
      eapply runs_bind; [eapply runs_padd_writable; [apply writable_write, W|unfold ASCON_HASH_RATE; lia]|].
      unfold ASCON_HASH_RATE. rewrite subul_small by lia. apply runs_ret.
    + rewrite len_app, len_wb. lia.
    + replace (N.to_nat n) with (8 + N.to_nat (n - 8))%nat by lia.
      rewrite squeeze_more by (rewrite ?length_xs; lia).
      rewrite <- xs_P12 by exact Hs. rewrite E2, firstn8_xs, app_assoc. reflexivity.
  - exists s, [], n. rewrite len_nil, N.add_0_r. cbn [write app].
    split; [|split; [exact Hs|split; [exact H|split; [lia|reflexivity]]]].
    apply runs_while_end. unfold qcond, ASCON_HASH_RATE. lia.
Qed.

Lemma esp_squeeze_ok M s out n : wf s -> writable M out n -> out <> 0 -> n < 2 ^ ul ->
  runs (hash_squeeze e ul s out n) M (write M out (squeeze (N.to_nat n) 8 12 (xs s))) tt.
Proof.
  intros Hs W Ho Hul.
  destruct (esp_squeeze_while (fuel n 8) M s out n Hs W Ho Hul) as (s1 & os & r & Rn & W1 & Hr & Hn & E).
  { unfold fuel. lia. }
  rewrite E, squeeze_last by (rewrite ?length_xs; lia).
  unfold hash_squeeze. eapply runs_bind; [exact Rn|]. cbn beta iota.
  rewrite firstn_xs0 by lia. rewrite write_app.
  rewrite U64LE_out by (apply fits_X0, W1). fold (wb (X0 s1)).
  apply runs_memcpy_out; [|lia].
  replace (len (firstn (N.to_nat r) (wb (X0 s1)))) with r by (unfold len; rewrite firstn_length, wb_len; lia).
  rewrite Hn in W. apply writable_write. apply writable_split in W. apply W.
Qed.

Lemma esp_hash_ok iv S n M out inp l : wf iv -> xs iv = S ->
  readable M inp l -> writable M out n -> inp <> 0 -> out <> 0 -> len l < 2 ^ ul -> n < 2 ^ ul ->
  runs (esp_hash e ul iv n out inp (len l)) M (write M out (hash_sponge S l (N.to_nat n))) 0%Z.
Proof.
  intros Hw <- R W Hi Ho Hul Hn. unfold esp_hash. rewrite trunc_ul by exact Hul.
  destruct (esp_absorb_ok M iv inp l Hw R Hi Hul) as (s1 & Rn & W1 & E1).
  eapply runs_bind; [exact Rn|].
  eapply runs_bind; [apply esp_squeeze_ok; [exact W1|exact W|exact Ho|exact Hn]|].
  rewrite E1. apply runs_ret.
Qed.

Theorem esp_hash256_ok M out inp l : readable M inp l -> writable M out 32 -> inp <> 0 ->
  32 <= ul -> len l < 2 ^ ul ->
  runs (esp_hash e ul w64_HASH_IV 32 out inp (len l)) M (write M out (hash256 l)) 0%Z.
Proof.
  intros R W Hi Hu Hul. apply (esp_hash_ok w64_HASH_IV (hash_init iv_hash256)); [|apply hash_iv_ok|exact R|exact W|exact Hi| |exact Hul|].
  - repeat split; vm_compute; reflexivity.
  - destruct W as (_ & Hz & _). apply Hz. lia.
  - pose proof (N.pow_le_mono_r 2 32 ul ltac:(lia) Hu). lia.
Qed.

Theorem esp_xof128_ok M out inp l : readable M inp l -> writable M out 64 -> inp <> 0 ->
  32 <= ul -> len l < 2 ^ ul ->
  runs (esp_hash e ul w64_XOF_IV 64 out inp (len l)) M (write M out (xof128 l 64)) 0%Z.
Proof.
  intros R W Hi Hu Hul. apply (esp_hash_ok w64_XOF_IV (hash_init iv_xof128)); [|apply xof_iv_ok|exact R|exact W|exact Hi| |exact Hul|].
  - repeat split; vm_compute; reflexivity.
  - destruct W as (_ & Hz & _). apply Hz. lia.
  - pose proof (N.pow_le_mono_r 2 32 ul ltac:(lia) Hu). lia.
Qed.

(** Where unsigned long has fewer bits than the length: the hash of a
    prefix. *)
Theorem esp_hash_trunc iv n out inp inlen M :
  esp_hash e ul iv n out inp inlen M = esp_hash e ul iv n out inp (inlen mod 2 ^ ul) M.
Proof.
  unfold esp_hash. rewrite !trunc_mod, N.mod_mod by lia. reflexivity.
Qed.
End Esp.
