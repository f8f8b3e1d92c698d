(** * Esp32Aead.v -- the ESP32 implementation: ascon_duplex, ascon_core and
    encryption refine the specification. *)
From Coq Require Import Arith Bool NArith ZArith List Lia Init.Byte.
From Coq Require Import ZifyBool ZifyNat ZifyN.
From Verif Require Import Words WordFacts Spec SpecFacts CMem Contract CMemFacts ModelRef ModelCommon ModelWords WordInst
  StateRep RefRound RefPrim RefAead RefAeadDec ModelEsp32 Esp32Prim.
Import ListNotations.
Local Open Scope N_scope.

Definition dcond : state * ptr * ptr * N -> bool := fun '(_, _, _, len) => 16 <=? len.

Section Esp.
Variable e : endian.
Variable strict : bool.
Variable ul : N.

Lemma subul_small a b : b <= a -> a < 2 ^ ul -> subul ul a b = a - b.
Proof.
  intros H Ha. unfold subul. rewrite trunc_mod. replace (a + 2 ^ ul - b) with (a - b + 1 * 2 ^ ul) by lia.
  rewrite N.mod_add by lia. apply N.mod_small. lia.
Qed.
Lemma trunc_ul a : a < 2 ^ ul -> trunc ul a = a.
Proof. intros H. apply trunc_fits. exact H. Qed.

Lemma runs_advance M p n : p + n < 2 ^ 64 -> p <> 0 \/ strict = false -> runs (advance strict p n) M M (p + n).
Proof.
  intros Hb H. unfold advance. destruct strict.
  - apply runs_padd; [exact Hb|]. intros _. destruct H; [assumption|discriminate].
  - destruct (N.eqb_spec p 0) as [->|Hp]; [apply runs_ret|]. apply runs_padd; auto.
Qed.

(** ** Full blocks *)

Lemma fits_X0 s : wf s -> fits 64 (X0 s). Proof. intros H. apply H. Qed.
Lemma fits_X1 s : wf s -> fits 64 (X1 s). Proof. intros H. apply H. Qed.

(** Loading a block and XORing it into the state. *)
Definition load_xor (s : state) (inp : ptr) : C (state * N * N) :=
  t0 <- LD64 e inp 0 ;; let s := hxor0 e s t0 in
  t1 <- LD64 e inp 2 ;; let s := hxor1 e s t1 in ret (s, t0, t1).

Lemma duplex_loads M s inp b0 b1 l : wf s -> length b0 = 8%nat -> length b1 = 8%nat -> readable M inp ((b0 ++ b1) ++ l) ->
  runs (LD64 e inp 0) M M (le_num b0) /\ runs (LD64 e inp 2) M M (le_num b1) /\
  hxor1 e (hxor0 e s (le_num b0)) (le_num b1) = xor1 (xor0 s (le_num b0)) (le_num b1).
Proof.
  intros Hs H0 H1 R. assert (Hp : inp <> 0) by (eapply readable_nonnull; [exact R|rewrite !len_app; unfold len; lia]).
  rewrite <- app_assoc in R. destruct (readable_app _ _ _ _ R) as (R0 & R12). rewrite (len_eq b0 8 H0) in R12.
  destruct (readable_app _ _ _ _ R12) as (R1 & _).
  split; [apply runs_LD64; [|exact H0|exact Hp]; replace (inp + 4 * 0) with inp by lia; exact R0|].
  split; [apply runs_LD64; [exact R1|exact H1|exact Hp]|].
  rewrite hxor0_ok by (auto; apply fits_le_num8; lia). apply hxor1_ok; [apply wf_xor0; auto|]; apply fits_le_num8; lia.
Qed.

Lemma duplex_ad_body_ok M s out inp B l : wf s -> length B = 16%nat -> readable M inp (B ++ l) ->
  len (B ++ l) < 2 ^ ul -> out + 16 < 2 ^ 64 -> out <> 0 \/ strict = false ->
  exists s', runs (duplex_body e strict ul ASCON_AD (s, out, inp, len (B ++ l))) M M (s', out + 16, inp + 16, len l) /\ wf s' /\
    xs s' = p 8 (xor_into (xs s) B).
Proof.
  intros Hs HB R Hul Ho Hst. pose proof (readable_bound _ _ _ R) as Hbd.
  assert (Hlen : len (B ++ l) = 16 + len l) by (rewrite len_app, (len_eq B 16 HB); lia).
  destruct (split_len 8 B) as (b0 & b1 & -> & H0 & L0); [unfold len; lia|].
  rewrite app_length in HB. assert (H1 : length b1 = 8%nat) by lia.
  destruct (duplex_loads M s inp b0 b1 l Hs H0 H1 R) as (Q0 & Q1 & Ex).
  assert (Ws1 : wf (xor1 (xor0 s (le_num b0)) (le_num b1))) by (apply wf_block; auto; lia).
  exists (P8 (xor1 (xor0 s (le_num b0)) (le_num b1))). split; [|split].
  - unfold duplex_body. rewrite <- (P_PB _ Ws1), <- Ex.
    eapply runs_bind; [exact Q0|]. eapply runs_bind; [exact Q1|].
    eapply runs_bind; [apply runs_branch|]. cbn [N.eqb ASCON_AD negb].
    eapply runs_bind; [apply runs_ret|].
    eapply runs_bind; [apply runs_branch|]. cbn [N.eqb ASCON_AD ASCON_DEC].
    eapply runs_bind; [apply runs_padd; [lia|intros _; eapply readable_nonnull; [exact R|lia]]|].
    eapply runs_bind; [apply runs_advance; auto|].
    rewrite subul_small by lia. rewrite Hlen. replace (16 + len l - 16) with (len l) by lia. apply runs_ret.
  - apply wf_P8, Ws1.
  - rewrite xs_P8 by exact Ws1. rewrite xs_block by (auto; lia). reflexivity.
Qed.

Lemma duplex_ad_while f : forall M s out inp l, wf s -> readable M inp l -> len l < 2 ^ ul ->
  out + len l < 2 ^ 64 -> len l < 16 \/ out <> 0 \/ strict = false -> (N.to_nat (len l / 16) < f)%nat ->
  exists s' out' inp' r, runs (while f dcond (duplex_body e strict ul ASCON_AD) (s, out, inp, len l)) M M (s', out', inp', len r) /\
    wf s' /\ (length r < 16)%nat /\ readable M inp' r /\ (l <> [] -> inp' <> 0) /\
    absorb 8 (xs s) (chunks 16 (pad 16 l)) = absorb 8 (xs s') (chunks 16 (pad 16 r)).
Proof.
  induction f as [|f IH]; intros M s out inp l Hs R Hul Ho Hst Hf; [lia|].
  destruct (N.leb_spec 16 (len l)) as [H|H].
  - destruct (split_len 16 l) as (B & l' & -> & HB & LB); [exact H|]. change (N.of_nat 16) with 16 in LB.
    assert (Hlen : len (B ++ l') = 16 + len l') by (rewrite len_app, LB; lia).
    destruct (duplex_ad_body_ok M s out inp B l' Hs HB R Hul) as (s1 & Rn & W1 & E1); [lia|destruct Hst; [lia|assumption]|].
    destruct (readable_app _ _ _ _ R) as (_ & R').  rewrite LB in R'.
    destruct (IH M s1 (out + 16) (inp + 16) l' W1 R') as (s2 & out2 & inp2 & r & Rn2 & W2 & Hr & Rr & Hz & E2); [lia|lia|lia| |].
    { eapply (div16_step f B l'); [lia|exact LB|exact Hf]. }
    exists s2, out2, inp2, r. split; [|split; [exact W2|split; [exact Hr|split; [exact Rr|split]]]].
    + eapply runs_while_step; [|exact Rn|exact Rn2]. unfold dcond. lia.
    + intros _. destruct l' as [|x l']; [|apply Hz; discriminate].
      cbn [len length] in Rn2. change (len []) with 0 in Rn2.
      assert (E : runs (while f dcond (duplex_body e strict ul ASCON_AD) (s1, out + 16, inp + 16, 0)) M M (s1, out + 16, inp + 16, 0)).
      { destruct f; [change (len []) with 0 in Hf; rewrite Hlen in Hf; change (len []) with 0 in Hf; cbn in Hf; lia|].
        apply runs_while_end. reflexivity. }
      destruct (runs_det _ _ _ _ _ _ Rn2 E) as (_ & E'). inversion E'; subst. lia.
    + rewrite chunks_pad_full by (auto; lia). rewrite absorb_cons, <- E1. exact E2.
  - exists s, out, inp, l. split; [|split; [exact Hs|split; [unfold len in H; lia|split; [exact R|split; [|reflexivity]]]]].
    + apply runs_while_end. unfold dcond. lia.
    + intros Hn. apply R. exact Hn.
Qed.

(** ** The last block *)

(** The state after the last block has been XORed in. *)
Definition last_xor (s : state) (r : bytes) : state :=
  let bytes := poke (over (repeat x00 16) r) (length r) in
  hxor1 e (hxor0 e s (word_at e bytes 0)) (word_at e bytes 1).

Lemma last_xor_ok s r : wf s -> (length r < 16)%nat ->
  wf (last_xor s r) /\ xs (last_xor s r) = xor_at (length r) (xor_into (xs s) r) [x01].
Proof.
  intros Hs Hr. unfold last_xor. rewrite poke_over by exact Hr. set (bl := r ++ x01 :: zeros (16 - 1 - length r)).
  assert (Hbl : length bl = 16%nat) by (unfold bl; rewrite app_length; cbn [length]; rewrite length_zeros; lia).
  destruct (split_at 8 bl) as (b0 & b1 & E & H0); [lia|].
  assert (H1 : length b1 = 8%nat) by (rewrite E, app_length in Hbl; lia).
  rewrite E, word_at_0, word_at_1 by assumption.
  rewrite hxor0_ok by (auto; apply fits_le_num8; lia).
  rewrite hxor1_ok by (try (apply wf_xor0; auto); apply fits_le_num8; lia).
  split; [apply wf_block; auto; lia|].
  rewrite xs_block, <- E by (auto; lia). unfold bl. apply xor_into_padded. rewrite length_xs. lia.
Qed.

Lemma last_out s : wf s -> to_host e 8 (U64LE e (X0 s)) ++ to_host e 8 (U64LE e (X1 s)) = firstn 16 (xs s).
Proof.
  intros H. rewrite !U64LE_out by (auto using fits_X0, fits_X1). rewrite firstn16_xs. reflexivity.
Qed.

Lemma duplex_last_ad M s out inp r : wf s -> (length r < 16)%nat -> readable M inp r -> inp <> 0 ->
  runs (duplex_last e ASCON_AD s out inp (len r)) M M (last_xor s r).
Proof.
  intros Hs Hr R Hi. unfold duplex_last.
  eapply runs_bind; [apply (runs_memcpy_in _ _ r); auto|]. rewrite to_nat_len.
  eapply runs_bind; [apply runs_branch|]. cbn [N.eqb ASCON_AD negb].
  eapply runs_bind; [apply runs_ret|].
  eapply runs_bind; [apply runs_branch|]. cbn [N.eqb ASCON_AD ASCON_DEC]. apply runs_ret.
Qed.

Lemma duplex_last_enc M s out inp r : wf s -> (length r < 16)%nat -> readable M inp r -> inp <> 0 ->
  writable M out (len r) -> out <> 0 ->
  runs (duplex_last e ASCON_ENC s out inp (len r)) M
    (write M out (firstn (length r) (xs (last_xor s r)))) (last_xor s r).
Proof.
  intros Hs Hr R Hi W Ho. destruct (last_xor_ok s r Hs Hr) as (W1 & _). unfold duplex_last.
  eapply runs_bind; [apply (runs_memcpy_in _ _ r); auto|]. rewrite to_nat_len.
  eapply runs_bind; [apply runs_branch|]. cbn [N.eqb ASCON_AD ASCON_ENC negb].
  change (hxor1 e (hxor0 e s _) _) with (last_xor s r). rewrite last_out by exact W1.
  rewrite firstn_firstn. replace (Nat.min (length r) 16) with (length r) by lia.
  eapply runs_bind.
  - eapply runs_bind; [apply runs_memcpy_out; [|exact Ho]|apply runs_ret].
    replace (len (firstn (length r) (xs (last_xor s r)))) with (len r); [exact W|].
    unfold len. rewrite firstn_length, length_xs. lia.
  - eapply runs_bind; [apply runs_branch|]. cbn [N.eqb ASCON_ENC ASCON_DEC]. apply runs_ret.
Qed.

(** The last block of decryption reads the input again after it has
    written the output: [r'] is what it finds there. *)
Lemma duplex_last_dec M s out inp r r' : wf s -> (length r < 16)%nat -> readable M inp r -> inp <> 0 ->
  writable M out (len r) -> out <> 0 ->
  let o := firstn (length r) (xs (last_xor s r)) in
  readable (write M out o) inp r' -> length r' = length r ->
  exists s', runs (duplex_last e ASCON_DEC s out inp (len r)) M (write M out o) s' /\
    wf s' /\ xs s' = r' ++ skipn (length r) (xs (last_xor s r)).
Proof.
  intros Hs Hr R Hi W Ho o R' Hr'. destruct (last_xor_ok s r Hs Hr) as (W1 & E1).
  set (bl := over (firstn 16 (xs (last_xor s r))) r').
  assert (Hbl : length bl = 16%nat).
  { unfold bl, over. rewrite app_length, skipn_length, firstn_length, length_xs. lia. }
  destruct (split_at 8 bl) as (b0 & b1 & E & H0); [lia|].
  assert (H1 : length b1 = 8%nat) by (rewrite E, app_length in Hbl; lia).
  exists (set1 (set0 (last_xor s r) (le_num b0)) (le_num b1)). split; [|split].
  - unfold duplex_last.
    eapply runs_bind; [apply (runs_memcpy_in _ _ r); auto|]. rewrite to_nat_len.
    eapply runs_bind; [apply runs_branch|]. cbn [N.eqb ASCON_AD ASCON_DEC negb].
    change (hxor1 e (hxor0 e s _) _) with (last_xor s r). rewrite last_out by exact W1.
    rewrite firstn_firstn. replace (Nat.min (length r) 16) with (length r) by lia.
    eapply runs_bind.
    + eapply runs_bind; [apply runs_memcpy_out; [|exact Ho]|apply runs_ret].
      replace (len (firstn (length r) (xs (last_xor s r)))) with (len r); [exact W|].
      unfold len. rewrite firstn_length, length_xs. lia.
    + eapply runs_bind; [apply runs_branch|]. cbn [N.eqb ASCON_DEC].
      eapply runs_bind; [apply (runs_memcpy_in _ _ r'); [exact R'|unfold len; lia|exact Hi]|].
      cbv zeta. fold bl. rewrite E, word_at_0, word_at_1 by assumption. apply runs_ret.
  - apply wf_set1; [apply wf_set0; auto|]; apply fits_le_num8; lia.
  - rewrite xs_set01, <- E by assumption. unfold bl, over. rewrite Hr', <- app_assoc. f_equal.
    rewrite <- (firstn_skipn 16 (xs (last_xor s r))) at 3.
    rewrite skipn_app. f_equal. rewrite firstn_length, length_xs.
    replace (length r - Nat.min 16 40)%nat with 0%nat by lia. reflexivity.
Qed.

(** ** Initialisation and associated data *)

Lemma esp_init_ok M npub k kb nb : is16 kb -> is16 nb -> readable M k kb -> readable M npub nb ->
  exists k0 k1 s, kb = k0 ++ k1 /\ length k0 = 8%nat /\ length k1 = 8%nat /\ wf s /\
    runs (esp_init e npub k) M M (le_num k0, le_num k1, s) /\ xs s = aead_init kb nb.
Proof.
  intros Hk Hn Rk Rn.
  destruct (ref_init_ok M npub k kb nb Hk Hn Rk Rn) as (k0 & k1 & s & -> & H0 & H1 & W & Rr & E).
  exists k0, k1, s. split; [reflexivity|]. split; [exact H0|]. split; [exact H1|]. split; [exact W|]. split; [|exact E].
  destruct (split_len 8 nb) as (n0 & n1 & -> & Hn0 & Ln0); [unfold len, is16 in *; lia|].
  assert (Hn1 : length n1 = 8%nat) by (unfold is16 in Hn; rewrite app_length in Hn; lia).
  assert (Fk0 : fits 64 (le_num k0)) by (apply fits_le_num8; lia).
  assert (Fk1 : fits 64 (le_num k1)) by (apply fits_le_num8; lia).
  set (s0 := St ASCON_128A_IV (le_num k0) (le_num k1) (le_num n0) (le_num n1)).
  assert (Ws0 : wf s0) by (split; [apply fits_IV_aead|]; repeat split; apply fits_le_num8; lia).
  assert (Es : s = xor4 (xor3 (P12 s0) (le_num k0)) (le_num k1)).
  { assert (R2 : runs (ref_init npub k) M M (le_num k0, le_num k1, xor4 (xor3 (P12 s0) (le_num k0)) (le_num k1))).
    { destruct (readable_app _ _ _ _ Rk) as (Rk0 & Rk1). rewrite (len_eq k0 8 H0) in Rk1.
      destruct (readable_app _ _ _ _ Rn) as (Rn0 & Rn1). rewrite (len_eq n0 8 Hn0) in Rn1.
      unfold ref_init.
      eapply runs_bind; [apply runs_LOADBYTES with (l := k0); [exact Rk0|unfold len; lia|lia]|].
      eapply runs_bind; [apply runs_padd_readable with (l := k0 ++ k1); [exact Rk|rewrite len_app; unfold len; lia]|].
      eapply runs_bind; [apply runs_LOADBYTES with (l := k1); [exact Rk1|unfold len; lia|lia]|].
      eapply runs_bind; [apply runs_LOADBYTES with (l := n0); [exact Rn0|unfold len; lia|lia]|].
      eapply runs_bind; [apply runs_padd_readable with (l := n0 ++ n1); [exact Rn|rewrite len_app; unfold len; lia]|].
      eapply runs_bind; [apply runs_LOADBYTES with (l := n1); [exact Rn1|unfold len; lia|lia]|].
      apply runs_ret. }
    destruct (runs_det _ _ _ _ _ _ Rr R2) as (_ & E'). inversion E'. reflexivity. }
  destruct (duplex_loads M s0 k k0 k1 [] Ws0 H0 H1) as (Q0 & Q1 & _); [rewrite app_nil_r; exact Rk|].
  destruct (duplex_loads M s0 npub n0 n1 [] Ws0 Hn0 Hn1) as (Q2 & Q3 & _); [rewrite app_nil_r; exact Rn|].
  unfold esp_init.
  eapply runs_bind; [exact Q0|]. eapply runs_bind; [exact Q1|]. eapply runs_bind; [exact Q2|]. eapply runs_bind; [exact Q3|].
  cbv zeta. fold s0. rewrite P_PA by exact Ws0. rewrite hxor3_ok by (auto; apply wf_P12, Ws0).
  rewrite hxor4_ok by (auto; apply wf_xor3; auto; apply wf_P12, Ws0). rewrite Es. apply runs_ret.
Qed.

Lemma esp_adata_ok M s ad l : wf s -> readable M ad l -> len l < 2 ^ ul -> len l < 16 \/ strict = false ->
  exists s', runs (esp_adata e strict ul s ad (len l)) M M s' /\ wf s' /\ xs s' = aead_ad (xs s) l.
Proof.
  intros Hs R Hul Hst. pose proof (readable_bound _ _ _ R) as Hbd. unfold esp_adata.
  change 0x8000000000000000 with DSEP.
  destruct (N.eq_dec (len l) 0) as [E|E].
  - apply len_0 in E. subst l. eexists. split; [|split].
    + eapply runs_bind; [apply runs_branch|]. rewrite len_nil. cbn [N.eqb negb].
      eapply runs_bind; [apply runs_ret|]. apply runs_ret.
    + apply wf_xor4; auto using fits_DSEP.
    + rewrite xs_DSEP by exact Hs. reflexivity.
  - destruct (duplex_ad_while (fuel (len l) 16) M s NULL ad l Hs R Hul) as (s1 & out1 & ad1 & r & Rn & W1 & Hr & Rr & Hz & E1).
    { unfold NULL. lia. } { destruct Hst; auto. } { unfold fuel. lia. }
    assert (Hn : l <> []) by (intros ->; apply E; reflexivity).
    destruct (last_xor_ok s1 r W1 Hr) as (W2 & E2).
    eexists. split; [|split].
    + eapply runs_bind; [apply runs_branch|]. replace (len l =? 0) with false by lia. cbn [negb].
      eapply runs_bind.
      * eapply runs_bind; [|apply runs_ret]. unfold ascon_duplex. rewrite trunc_ul by exact Hul.
        eapply runs_bind; [exact Rn|]. cbn beta iota. apply duplex_last_ad; auto.
      * rewrite P_PB by exact W2. apply runs_ret.
    + apply wf_xor4; auto using fits_DSEP, wf_P8.
    + rewrite xs_DSEP by (apply wf_P8, W2). rewrite xs_P8, E2 by exact W2. unfold aead_ad.
      rewrite E1, absorb_last by (rewrite ?length_xs; lia). destruct l; [congruence|reflexivity].
Qed.

(** ** Plaintext *)

Lemma duplex_enc_body_ok M s out inp B l : wf s -> length B = 16%nat -> readable M inp (B ++ l) ->
  writable M out (len (B ++ l)) -> len (B ++ l) < 2 ^ ul ->
  exists s', runs (duplex_body e strict ul ASCON_ENC (s, out, inp, len (B ++ l))) M
      (write M out (firstn 16 (xor_into (xs s) B))) (s', out + 16, inp + 16, len l) /\ wf s' /\
    xs s' = p 8 (xor_into (xs s) B).
Proof.
  intros Hs HB R Wr Hul. pose proof (readable_bound _ _ _ R) as Hbd. pose proof (writable_bound _ _ _ Wr) as Hbw.
  assert (Hlen : len (B ++ l) = 16 + len l) by (rewrite len_app, (len_eq B 16 HB); lia).
  assert (Ho : out <> 0) by (destruct Wr as (_ & Hn & _); apply Hn; lia).
  destruct (split_len 8 B) as (b0 & b1 & -> & H0 & L0); [unfold len; lia|].
  rewrite app_length in HB. assert (H1 : length b1 = 8%nat) by lia.
  destruct (duplex_loads M s inp b0 b1 l Hs H0 H1 R) as (Q0 & Q1 & Ex).
  rewrite Hlen in *. change (16 + len l) with (8 + 8 + len l) in Wr.
  destruct (writable_split _ _ _ _ Wr) as (W16 & _).
  destruct (writable_split _ _ _ _ W16) as (Wa & Wb).
  set (s1 := xor1 (xor0 s (le_num b0)) (le_num b1)) in *.
  assert (E1 : xs s1 = xor_into (xs s) (b0 ++ b1)) by (apply xs_block; auto; lia).
  assert (Ws1 : wf s1) by (apply wf_block; auto; lia).
  exists (P8 s1). split; [|split].
  - unfold duplex_body. rewrite <- (P_PB _ Ws1).
    eapply runs_bind; [exact Q0|]. eapply runs_bind; [exact Q1|]. cbv zeta. rewrite Ex.
    eapply runs_bind; [apply runs_branch|]. cbn [N.eqb ASCON_AD ASCON_ENC negb].
    eapply runs_bind.
    { eapply runs_bind; [apply runs_ST64; [replace (out + 4 * 0) with out by lia; exact Wa|exact Ho|apply fits_X0, Ws1]|].
      apply runs_ST64; [|exact Ho|apply fits_X1, Ws1]. apply writable_write. exact Wb. }
    eapply runs_bind; [apply runs_branch|]. cbn [N.eqb ASCON_ENC ASCON_DEC].
    eapply runs_bind; [apply runs_padd; [lia|intros _; eapply readable_nonnull; [exact R|lia]]|].
    eapply runs_bind; [apply runs_advance; [lia|left; exact Ho]|].
    rewrite subul_small by lia. replace (16 + len l - 16) with (len l) by lia.
    rewrite <- E1, firstn16_xs. rewrite write_app, len_wb.
    replace (out + 4 * 0) with out by lia. change (4 * 2) with 8. apply runs_ret.
  - apply wf_P8, Ws1.
  - rewrite xs_P8 by exact Ws1. rewrite E1. reflexivity.
Qed.

Lemma duplex_enc_while f : forall M s m c l, wf s -> readable M m l -> writable M c (len l) -> len l < 2 ^ ul ->
  no_overtake c m (len l) -> (N.to_nat (len l / 16) < f)%nat ->
  exists s' cs r, runs (while f dcond (duplex_body e strict ul ASCON_ENC) (s, c, m, len l)) M (write M c cs)
      (s', c + len cs, m + len cs, len r) /\
    wf s' /\ (length r < 16)%nat /\ length l = (length cs + length r)%nat /\
    readable (write M c cs) (m + len cs) r /\
    enc_blocks (xs s) (chunks 16 (pad 16 l)) =
      (let '(S2, c2) := enc_blocks (xs s') (chunks 16 (pad 16 r)) in (S2, cs ++ c2)).
Proof.
  induction f as [|f IH]; intros M s m c l Hs R Wr Hul Hno Hf; [lia|].
  destruct (N.leb_spec 16 (len l)) as [H|H].
  - destruct (split_len 16 l) as (B & l' & -> & HB & LB); [exact H|]. change (N.of_nat 16) with 16 in LB.
    destruct (duplex_enc_body_ok M s c m B l' Hs HB R Wr Hul) as (s1 & Rn & W1 & E1).
    set (cb := firstn 16 (xor_into (xs s) B)) in *.
    assert (Hcb : length cb = 16%nat) by (unfold cb; rewrite firstn_length, length_xor_into, length_xs; lia).
    assert (Lcb : len cb = 16) by (apply (len_eq cb 16 Hcb)).
    destruct (readable_app _ _ _ _ R) as (_ & R').
    assert (R2 : readable (write M c cb) (m + 16) l').
    { rewrite LB in R'. apply readable_write_disjoint; [exact R'|]. rewrite <- LB.
      apply no_overtake_disjoint; [exact Hno|lia]. }
    assert (Hul' : len l' < 2 ^ ul) by (rewrite len_app in Hul; lia).
    rewrite len_app, LB in Wr. destruct (writable_split _ _ _ _ Wr) as (_ & Wr').
    destruct (IH (write M c cb) s1 (m + 16) (c + 16) l' W1 R2) as
      (s2 & cs & r & Rn2 & W2 & Hr & Hl & Rr & E2).
    { apply writable_write, Wr'. }
    { exact Hul'. }
    { rewrite <- LB. apply no_overtake_step, Hno. }
    { eapply (div16_step f B l'); [lia|exact LB|exact Hf]. }
    assert (Ew : write (write M c cb) (c + 16) cs = write M c (cb ++ cs))
      by (rewrite write_app, Lcb; reflexivity).
    rewrite Ew in Rn2, Rr.
    replace (m + 16 + len cs) with (m + len (cb ++ cs)) in * by (rewrite len_app; lia).
    replace (c + 16 + len cs) with (c + len (cb ++ cs)) in * by (rewrite len_app; lia).
    exists s2, (cb ++ cs), r.
    split; [|split; [exact W2|split; [exact Hr|split; [|split; [exact Rr|]]]]].
    + eapply runs_while_step; [|exact Rn|exact Rn2]. unfold dcond. lia.
    + rewrite !app_length. lia.
    + rewrite chunks_pad_full by (auto; lia).
      rewrite enc_blocks_cons by (apply chunks_pad_not_nil; lia). cbn zeta. rewrite <- E1, E2.
      fold cb. destruct (enc_blocks (xs s2) _) as [S2 c2]. rewrite app_assoc. reflexivity.
  - exists s, [], l. rewrite len_nil, !N.add_0_r. cbn [write].
    split; [|split; [exact Hs|split; [unfold len in H; lia|split; [reflexivity|split; [exact R|]]]]].
    + apply runs_while_end. unfold dcond. lia.
    + destruct (enc_blocks _ _); reflexivity.
Qed.

Lemma esp_enc_ok M s c m l : wf s -> readable M m l -> writable M c (len l) -> len l < 2 ^ ul -> m <> 0 -> c <> 0 ->
  no_overtake c m (len l) ->
  exists s' cf, enc_blocks (xs s) (chunks 16 (pad 16 l)) = (xs s', cf) /\ wf s' /\
    (length l <= length cf)%nat /\
    runs (ascon_duplex e strict ul s c m (len l) ASCON_ENC) M (write M c (firstn (length l) cf)) s'.
Proof.
  intros Hs R Wr Hul Hm Hc Hno.
  destruct (duplex_enc_while (fuel (len l) 16) M s m c l Hs R Wr Hul Hno) as
    (s1 & cs & r & Rn & W1 & Hr & Hl & Rr & E1); [unfold fuel; lia|].
  assert (Ll : len l = len cs + len r) by (unfold len; lia).
  rewrite (enc_blocks_last _ r) in E1 by (rewrite ?length_xs; lia).
  assert (Wr' : writable (write M c cs) (c + len cs) (len r)).
  { rewrite Ll in Wr. apply writable_split in Wr. apply writable_write, Wr. }
  destruct (last_xor_ok s1 r W1 Hr) as (W2 & E2). rewrite <- E2 in E1.
  exists (last_xor s1 r), (cs ++ firstn 16 (xs (last_xor s1 r))).
  split; [exact E1|]. split; [exact W2|]. split; [rewrite app_length, firstn_length, length_xs; lia|].
  replace (firstn (length l) (cs ++ firstn 16 (xs (last_xor s1 r)))) with (cs ++ firstn (length r) (xs (last_xor s1 r))).
  - rewrite write_app. unfold ascon_duplex.
    eapply runs_bind; [exact Rn|]. cbn beta iota. apply duplex_last_enc; auto; lia.
  - rewrite Hl, firstn_app. rewrite (firstn_all2 cs) by lia. f_equal.
    replace (length cs + length r - length cs)%nat with (length r) by lia.
    rewrite firstn_firstn. replace (Nat.min (length r) 16) with (length r) by lia. reflexivity.
Qed.

Lemma esp_final_ok s k0 k1 : wf s -> length k0 = 8%nat -> length k1 = 8%nat ->
  esp_final e s (le_num k0) (le_num k1) = ref_final s (le_num k0) (le_num k1).
Proof.
  intros Hs H0 H1. assert (F0 : fits 64 (le_num k0)) by (apply fits_le_num8; lia).
  assert (F1 : fits 64 (le_num k1)) by (apply fits_le_num8; lia).
  unfold esp_final, ref_final. rewrite hxor2_ok by auto. rewrite (hxor3_ok _ (xor2 s _)) by (auto using wf_xor2).
  assert (W1 : wf (xor3 (xor2 s (le_num k0)) (le_num k1))) by (auto using wf_xor2, wf_xor3).
  rewrite P_PA by exact W1. rewrite hxor3_ok by (auto using wf_P12). apply hxor4_ok; auto using wf_xor3, wf_P12.
Qed.

(** The tag bytes that ascon_core leaves in the state. *)
Lemma esp_tag_ok s k0 k1 : wf s -> length k0 = 8%nat -> length k1 = 8%nat ->
  let s' := esp_final e s (le_num k0) (le_num k1) in
  to_host e 8 (U64LE e (X3 s')) ++ to_host e 8 (U64LE e (X4 s')) = aead_tag (k0 ++ k1) (xs s).
Proof.
  intros Hs H0 H1 s'. unfold s'. rewrite esp_final_ok by assumption.
  destruct (ref_final_ok s k0 k1 Hs H0 H1) as (W & E). rewrite <- E.
  destruct W as (_ & _ & _ & W3 & W4). rewrite !U64LE_out by assumption. reflexivity.
Qed.
End Esp.

(** ** Encryption *)

(** Storing 16 bytes [t] at [c + n] with the loop of encrypt.c. *)
Lemma store_loop c n t2 : forall M t1, writable M (c + n + len t1) (len t2) -> c <> 0 -> n + len (t1 ++ t2) < 2 ^ 64 ->
  runs (for_loop (length t2) (len t1) (fun i (_ : unit) => st c (add64 n i) (nth (N.to_nat i) (t1 ++ t2) x00)) tt) M
    (write M (c + n + len t1) t2) tt.
Proof.
  induction t2 as [|x t2 IH]; intros M t1 W Hc Hb; [apply runs_for_O|]. cbn [length].
  rewrite len_cons in W. rewrite len_app, len_cons in Hb.
  eapply runs_for_S.
  - rewrite add64_small by lia. unfold st. pose proof (writable_bound _ _ _ W).
    eapply runs_bind; [apply runs_padd; [lia|auto]|]. apply runs_stb; [lia|].
    apply W; lia.
  - rewrite to_nat_len, app_nth2, Nat.sub_diag by lia. cbn [nth write].
    replace (c + (n + len t1)) with (c + n + len t1) by lia.
    replace (t1 ++ x :: t2) with ((t1 ++ [x]) ++ t2) by (rewrite <- app_assoc; reflexivity).
    replace (c + n + len t1 + 1) with (c + n + len (t1 ++ [x])) by (rewrite len_app; change (len [x]) with 1; lia).
    replace (len t1 + 1) with (len (t1 ++ [x])) by (rewrite len_app; reflexivity).
    apply IH; [|exact Hc|rewrite !len_app; change (len [x]) with 1; lia].
    change (upd M (c + n + len t1) x) with (write M (c + n + len t1) [x]). apply writable_write.
    rewrite len_app. change (len [x]) with 1. replace (c + n + (len t1 + 1)) with (c + n + len t1 + 1) by lia.
    destruct (writable_split _ _ 1 _ W) as (_ & W'). exact W'.
Qed.

Theorem esp_encrypt_ok e strict ul M c clen m ad nsec npub k kb nb adb mb :
  is16 kb -> is16 nb ->
  readable M k kb -> readable M npub nb -> readable M ad adb -> readable M m mb ->
  writable M c (len mb + 16) -> writable M clen 8 ->
  disjoint clen 8 k 16 -> disjoint clen 8 npub 16 -> disjoint clen 8 ad (len adb) ->
  disjoint clen 8 m (len mb) ->
  no_overtake c m (len mb) -> m <> 0 ->
  len mb < 2 ^ ul -> len adb < 2 ^ ul -> len adb < 16 \/ strict = false ->
  runs (esp_aead_encrypt e strict ul c clen m (len mb) ad (len adb) nsec npub k) M
    (write (write M clen (to_host e 8 (len mb + 16))) c (aead_encrypt kb nb adb mb)) 0%Z.
Proof.
  intros Hk Hn Rk Rn Ra Rm Wc Wcl Dk Dn Da Dm Hno Hm Ulm Ula Hst.
  pose proof (writable_bound _ _ _ Wc) as Hbw.
  set (M1 := write M clen (to_host e 8 (len mb + 16))).
  assert (Lh : len (to_host e 8 (len mb + 16)) = 8) by (unfold len at 1; rewrite length_to_host; reflexivity).
  assert (Lk : len kb = 16) by (apply (len_eq kb 16), Hk).
  assert (Ln : len nb = 16) by (apply (len_eq nb 16), Hn).
  assert (Rk1 : readable M1 k kb) by (apply readable_write_disjoint; [exact Rk|rewrite Lh, Lk; exact Dk]).
  assert (Rn1 : readable M1 npub nb) by (apply readable_write_disjoint; [exact Rn|rewrite Lh, Ln; exact Dn]).
  assert (Ra1 : readable M1 ad adb) by (apply readable_write_disjoint; [exact Ra|rewrite Lh; exact Da]).
  assert (Rm1 : readable M1 m mb) by (apply readable_write_disjoint; [exact Rm|rewrite Lh; exact Dm]).
  assert (Wc1 : writable M1 c (len mb + 16)) by (apply writable_write, Wc).
  assert (Hc : c <> 0) by (destruct Wc as (_ & Hz & _); apply Hz; lia).
  destruct (esp_init_ok e M1 npub k kb nb Hk Hn Rk1 Rn1) as (k0 & k1 & s0 & -> & H0 & H1 & W0 & Rn0 & E0).
  destruct (esp_adata_ok e strict ul M1 s0 ad adb W0 Ra1 Ula Hst) as (s1 & W1 & Ws1 & E1).
  destruct (writable_split _ _ _ _ Wc1) as (Wm & Wt).
  destruct (esp_enc_ok e strict ul M1 s1 c m mb Ws1 Rm1 Wm Ulm Hm Hc Hno) as (s2 & cf & E2 & W2 & Hcf & Rn2).
  pose proof (esp_tag_ok e s2 k0 k1 W2 H0 H1) as E3.
  assert (L16 : length (aead_tag (k0 ++ k1) (xs s2)) = 16%nat).
  { rewrite <- E3, app_length, !length_to_host. reflexivity. }
  unfold esp_aead_encrypt.
  eapply runs_bind; [apply runs_store_ull; exact Wcl|].
  unfold CRYPTO_ABYTES. rewrite add64_small by lia. fold M1.
  eapply runs_bind.
  { unfold ascon_core. eapply runs_bind; [exact Rn0|]. cbn beta iota.
    eapply runs_bind; [exact W1|]. rewrite trunc_ul by exact Ulm.
    eapply runs_bind; [exact Rn2|]. cbv zeta. rewrite E3. apply runs_ret. }
  assert (E : write M1 c (aead_encrypt (k0 ++ k1) nb adb mb) =
    write (write M1 c (firstn (length mb) cf)) (c + len mb) (aead_tag (k0 ++ k1) (xs s2))).
  { unfold aead_encrypt. rewrite <- E0, <- E1, E2. rewrite write_app. f_equal.
    unfold len. rewrite firstn_length. f_equal. lia. }
  rewrite E. eapply runs_bind; [|apply runs_ret].
  pose proof (store_loop c (len mb) (aead_tag (k0 ++ k1) (xs s2)) (write M1 c (firstn (length mb) cf)) []) as SL.
  rewrite L16 in SL. rewrite len_nil, N.add_0_r in SL. apply SL.
  - apply writable_write. replace (len (aead_tag (k0 ++ k1) (xs s2))) with 16 by (unfold len; rewrite L16; reflexivity). exact Wt.
  - exact Hc.
  - unfold len at 2. cbn [app]. rewrite L16. lia.
Qed.
