(** * Spec12Facts.v -- facts about Spec12.v. *)
From Coq Require Import Arith NArith List Lia Init.Byte Strings.Byte ZifyBool ZifyNat ZifyN.
From Verif Require Import Words WordFacts Spec SpecFacts AeadFacts StateRep Spec12.
Import ListNotations.
Local Open Scope nat_scope.

Lemma p128_8 S : perm_of aead128 8 S = p 8 S. Proof. reflexivity. Qed.

Lemma xor_comm_firstn m S : length m <= length S -> xor_into m S = xor_into (firstn (length m) S) m.
Proof.
  revert S. induction m as [|b m IH]; intros [|s S] H; cbn in *; try lia; [reflexivity|reflexivity|].
  rewrite bxor_comm, IH by lia. reflexivity.
Qed.
Lemma d_absorb_spec f : forall m S, length m <= f -> length S = 40 ->
  absorb 8 S (chunks 16 (pad 16 m)) = p 8 (d_absorb aead128 f S m).
Proof.
  induction f as [|f IH]; intros m S Hf HS.
  - destruct m; [|cbn in Hf; lia]. rewrite chunks_pad_last by (cbn; lia). cbn [absorb fold_left d_absorb].
    unfold absorb. cbn [fold_left]. f_equal. cbn [app length]. apply (xor_into_app_zeros S [x01] 15); cbn; lia.
  - cbn [d_absorb]. destruct (Nat.ltb_spec (length m) 16) as [H|H].
    + rewrite chunks_pad_last by lia. unfold absorb. cbn [fold_left]. f_equal.
      change (m ++ x01 :: zeros (16 - 1 - length m)) with (m ++ [x01] ++ zeros (16 - 1 - length m)).
      rewrite app_assoc. apply xor_into_app_zeros. rewrite app_length. cbn. lia.
    + rewrite <- (firstn_skipn 16 m) at 1. rewrite chunks_pad_full by (try apply firstn_length_le; lia).
      rewrite absorb_cons. rewrite (IH (skipn 16 m)).
      * reflexivity.
      * rewrite skipn_length. lia.
      * apply length_p.
Qed.
Lemma d_encrypt_spec f : forall m S, length m <= f -> length S = 40 ->
  d_encrypt aead128 f S m =
  (fst (enc_blocks S (chunks 16 (pad 16 m))), firstn (length m) (snd (enc_blocks S (chunks 16 (pad 16 m))))).
Proof.
  assert (Base : forall m S, length m < 16 -> length S = 40 ->
    (xor_into S (m ++ [x01]), xor_into m S) =
    (fst (enc_blocks S (chunks 16 (pad 16 m))), firstn (length m) (snd (enc_blocks S (chunks 16 (pad 16 m)))))).
  { intros m S H HS. rewrite chunks_pad_last by lia. cbn [enc_blocks fst snd].
    change (m ++ x01 :: zeros (16 - 1 - length m)) with (m ++ [x01] ++ zeros (16 - 1 - length m)).
    rewrite app_assoc, xor_into_app_zeros by (rewrite app_length; cbn; lia). f_equal.
    rewrite firstn_firstn, Nat.min_l by lia. rewrite firstn_xor_into, firstn_app_exact by reflexivity.
    apply xor_comm_firstn. lia. }
  induction f as [|f IH]; intros m S Hf HS; cbn [d_encrypt].
  - apply Base; [lia|exact HS].
  - destruct (Nat.ltb_spec (length m) 16) as [H|H]; [apply Base; [lia|exact HS]|].
    assert (HB : length (firstn 16 m) = 16) by (apply firstn_length_le; lia).
    rewrite IH by (try (rewrite skipn_length; lia); apply length_p).
    assert (Hc : chunks 16 (pad 16 m) = firstn 16 m :: chunks 16 (pad 16 (skipn 16 m))).
    { rewrite <- (firstn_skipn 16 m) at 1. apply chunks_pad_full; [lia|exact HB]. }
    rewrite Hc.
    assert (Hne : chunks 16 (pad 16 (skipn 16 m)) <> []).
    { rewrite chunks_cons by (try apply pad_not_nil; lia). discriminate. }
    rewrite p128_8.
    assert (Hl : length m = 16 + length (skipn 16 m)) by (rewrite skipn_length; lia).
    assert (Hx : xor_into (firstn 16 m) S = firstn 16 (xor_into S (firstn 16 m))).
    { rewrite firstn_xor_into, (firstn_all2 (firstn 16 m)) by lia.
      rewrite xor_comm_firstn by lia. rewrite HB. reflexivity. }
    destruct (chunks 16 (pad 16 (skipn 16 m))) as [|B bs]; [contradiction|].
    change (enc_blocks S (firstn 16 m :: B :: bs)) with
      (let '(S2, c) := enc_blocks (p 8 (xor_into S (firstn 16 m))) (B :: bs) in
       (S2, firstn 16 (xor_into S (firstn 16 m)) ++ c)).
    destruct (enc_blocks (p 8 (xor_into S (firstn 16 m))) (B :: bs)) as [S2 c]. cbn [fst snd]. f_equal.
    rewrite Hl, <- Hx. rewrite firstn_app, length_xor_into, HB.
    replace (16 + length (skipn 16 m) - 16) with (length (skipn 16 m)) by lia.
    rewrite (firstn_all2 (xor_into _ _)) by (rewrite length_xor_into; lia). reflexivity.
Qed.
Lemma d_decrypt_spec f : forall c S, d_decrypt aead128 f S c = dec_blocks f S c.
Proof.
  induction f as [|f IH]; intros c S; cbn [d_decrypt dec_blocks]; [reflexivity|].
  destruct (length c <? 16); [reflexivity|]. rewrite IH. reflexivity.
Qed.

(** The instance [aead128] is the algorithm of Spec.v. *)
Lemma d_ad_spec k n ad : d_ad aead128 (d_init aead128 k n) ad = aead_ad (aead_init k n) ad.
Proof.
  change (d_init aead128 k n) with (aead_init k n). unfold d_ad, aead_ad.
  destruct ad as [|b ad]; [reflexivity|].
  rewrite (d_absorb_spec (length (b :: ad))); [reflexivity|lia|apply length_aead_init].
Qed.
Theorem duplex_encrypt_aead128 k n ad m : duplex_encrypt aead128 k n ad m = aead_encrypt k n ad m.
Proof.
  unfold duplex_encrypt, aead_encrypt. rewrite d_ad_spec.
  rewrite d_encrypt_spec by (try apply length_aead_ad, length_aead_init; lia).
  destruct (enc_blocks _ _) as [S c]. reflexivity.
Qed.
Theorem duplex_open_aead128 k n ad c : duplex_open aead128 k n ad c = aead_open k n ad c.
Proof. unfold duplex_open, aead_open. rewrite d_ad_spec, d_decrypt_spec. reflexivity. Qed.
