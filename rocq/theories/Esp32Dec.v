(** * Esp32Dec.v -- the ESP32 implementation: decryption.

    The last block of the ciphertext is read a second time after its
    plaintext has been written (core.c l.88-91), and the length is read from
    [*mlen] again for each byte of the tag (decrypt.c l.31): the output must
    not overlap the last block nor [*mlen]. *)
From Coq Require Import Arith Bool NArith ZArith List Lia Init.Byte.
From Coq Require Import ZifyBool ZifyNat ZifyN.
From Verif Require Import Words WordFacts Spec SpecFacts CMem Contract CMemFacts ModelRef ModelCommon ModelWords WordInst
  StateRep RefRound RefPrim RefAead RefAeadDec AeadFacts ModelEsp32 Esp32Prim Esp32Aead.
Import ListNotations.
Local Open Scope N_scope.

Section Esp.
Variable e : endian.
Variable strict : bool.
Variable ul : N.

Lemma duplex_dec_body_ok M s m c B l t : wf s -> length B = 16%nat -> readable M c (B ++ l ++ t) ->
  writable M m (len (B ++ l)) -> len (B ++ l) < 2 ^ ul ->
  exists s', runs (duplex_body e strict ul ASCON_DEC (s, m, c, len (B ++ l))) M
      (write M m (xor_into B (xs s))) (s', m + 16, c + 16, len l) /\ wf s' /\
    xs s' = p 8 (B ++ skipn 16 (xs s)).
Proof.
  intros Hs HB R Wr Hul. pose proof (readable_bound _ _ _ R) as Hbd. pose proof (writable_bound _ _ _ Wr) as Hbw.
  assert (Hlen : len (B ++ l) = 16 + len l) by (rewrite len_app, (len_eq B 16 HB); lia).
  assert (Hlen' : len (B ++ l ++ t) = 16 + len l + len t) by (rewrite !len_app, (len_eq B 16 HB); lia).
  assert (Ho : m <> 0) by (destruct Wr as (_ & Hn & _); apply Hn; lia).
  destruct (split_len 8 B) as (b0 & b1 & -> & H0 & L0); [unfold len; lia|].
  rewrite app_length in HB. assert (H1 : length b1 = 8%nat) by lia.
  destruct (duplex_loads e M s c b0 b1 (l ++ t) Hs H0 H1 R) as (Q0 & Q1 & Ex).
  rewrite Hlen, Hlen' in *. change (16 + len l) with (8 + 8 + len l) in Wr.
  destruct (writable_split _ _ _ _ Wr) as (W16 & _).
  destruct (writable_split _ _ _ _ W16) as (Wa & Wb).
  set (s1 := xor1 (xor0 s (le_num b0)) (le_num b1)) in *.
  assert (E1 : xs s1 = xor_into (xs s) (b0 ++ b1)) by (apply xs_block; auto; lia).
  assert (Ws1 : wf s1) by (apply wf_block; auto; lia).
  set (s2 := set1 (set0 s1 (le_num b0)) (le_num b1)).
  assert (Ws2 : wf s2) by (apply wf_set1; [apply wf_set0; auto|]; apply fits_le_num8; lia).
  exists (P8 s2). split; [|split].
  - unfold duplex_body. rewrite <- (P_PB _ Ws2).
    eapply runs_bind; [exact Q0|]. eapply runs_bind; [exact Q1|]. cbv zeta. rewrite Ex.
    eapply runs_bind; [apply runs_branch|]. cbn [N.eqb ASCON_AD ASCON_DEC negb].
    eapply runs_bind.
    { eapply runs_bind; [apply runs_ST64; [replace (m + 4 * 0) with m by lia; exact Wa|exact Ho|apply fits_X0, Ws1]|].
      apply runs_ST64; [|exact Ho|apply fits_X1, Ws1]. apply writable_write. exact Wb. }
    eapply runs_bind; [apply runs_branch|]. cbn [N.eqb ASCON_DEC].
    eapply runs_bind; [apply runs_padd; [lia|intros _; eapply readable_nonnull; [exact R|lia]]|].
    eapply runs_bind; [apply runs_advance; [lia|left; exact Ho]|].
    rewrite subul_small by lia. replace (16 + len l - 16) with (len l) by lia.
    rewrite xor_into_block by (rewrite length_xs, app_length; lia). rewrite app_length, HB.
    change (8 + 8)%nat with 16%nat.
    rewrite <- E1, firstn16_xs. rewrite write_app, len_wb.
    replace (m + 4 * 0) with m by lia. change (4 * 2) with 8. apply runs_ret.
  - apply wf_P8, Ws2.
  - rewrite xs_P8 by exact Ws2. unfold s2. rewrite xs_set01, E1 by lia. f_equal. f_equal.
    apply skipn_xor_into. rewrite app_length. lia.
Qed.

Lemma duplex_dec_while f : forall M s m c l t, wf s -> readable M c (l ++ t) -> writable M m (len l) -> len l < 2 ^ ul ->
  no_overtake m c (len (l ++ t)) -> (N.to_nat (len l / 16) < f)%nat ->
  exists s' ms q r, runs (while f dcond (duplex_body e strict ul ASCON_DEC) (s, m, c, len l)) M (write M m ms)
      (s', m + len ms, c + len ms, len r) /\
    wf s' /\ l = q ++ r /\ length ms = length q /\ (length q mod 16 = 0)%nat /\ (length r < 16)%nat /\
    readable (write M m ms) (c + len ms) (r ++ t) /\
    no_overtake (m + len ms) (c + len ms) (len (r ++ t)) /\
    dec_blocks (length l) (xs s) l = (let '(S2, m2) := dec_blocks (length r) (xs s') r in (S2, ms ++ m2)).
Proof.
  induction f as [|f IH]; intros M s m c l t Hs R Wr Hul Hno Hf; [lia|].
  destruct (N.leb_spec 16 (len l)) as [H|H].
  - destruct (split_len 16 l) as (B & l' & -> & HB & LB); [exact H|]. change (N.of_nat 16) with 16 in LB.
    rewrite <- app_assoc in R, Hno.
    destruct (duplex_dec_body_ok M s m c B l' t Hs HB R Wr Hul) as (s1 & Rn & W1 & E1).
    set (mb := xor_into B (xs s)) in *.
    assert (Hmb : length mb = 16%nat) by (unfold mb; rewrite length_xor_into; exact HB).
    assert (Lmb : len mb = 16) by (apply (len_eq mb 16 Hmb)).
    destruct (readable_app _ _ _ _ R) as (_ & R').
    assert (R2 : readable (write M m mb) (c + 16) (l' ++ t)).
    { rewrite LB in R'. apply readable_write_disjoint; [exact R'|]. rewrite <- LB.
      apply no_overtake_disjoint; [exact Hno|lia]. }
    rewrite len_app, LB in Wr, Hul. destruct (writable_split _ _ _ _ Wr) as (_ & Wr').
    destruct (IH (write M m mb) s1 (m + 16) (c + 16) l' t W1 R2) as
      (s2 & ms & q & r & Rn2 & W2 & El & Hq & Hq16 & Hr & Rr & Hno2 & E2).
    { apply writable_write, Wr'. }
    { lia. }
    { rewrite <- LB. apply no_overtake_step, Hno. }
    { eapply (div16_step f B l'); [lia|exact LB|exact Hf]. }
    assert (Ew : write (write M m mb) (m + 16) ms = write M m (mb ++ ms))
      by (rewrite write_app, Lmb; reflexivity).
    rewrite Ew in Rn2, Rr.
    replace (m + 16 + len ms) with (m + len (mb ++ ms)) in * by (rewrite len_app; lia).
    replace (c + 16 + len ms) with (c + len (mb ++ ms)) in * by (rewrite len_app; lia).
    exists s2, (mb ++ ms), (B ++ q), r.
    split; [|split; [exact W2|split; [rewrite El, app_assoc; reflexivity|split; [|split; [|split; [exact Hr|split; [exact Rr|split; [exact Hno2|]]]]]]]].
    + eapply runs_while_step; [|exact Rn|exact Rn2]. unfold dcond. lia.
    + rewrite !app_length. lia.
    + rewrite app_length, HB. rewrite Nat.add_mod, Hq16 by lia. reflexivity.
    + rewrite app_length, HB. change (16 + length l')%nat with (Datatypes.S (15 + length l')).
      rewrite dec_blocks_step by exact HB. rewrite <- E1.
      rewrite (dec_blocks_fuel (15 + length l') (length l')) by lia. rewrite E2.
      fold mb. destruct (dec_blocks (length r) (xs s2) r) as [S2 m2]. rewrite app_assoc. reflexivity.
  - exists s, [], [], l. rewrite len_nil, !N.add_0_r. cbn [write].
    split; [|split; [exact Hs|split; [reflexivity|split; [reflexivity|split; [reflexivity|split; [unfold len in H; lia|split; [exact R|split; [exact Hno|]]]]]]]].
    + apply runs_while_end. unfold dcond. lia.
    + destruct (dec_blocks _ _ _); reflexivity.
Qed.

(** [t] with its first bytes replaced by [rr]. *)
Definition reread (rr S : bytes) : bytes := rr ++ skipn (length rr) S.

Lemma esp_dec_ok M s m c l t rr mb S1 : wf s -> readable M c (l ++ t) -> c <> 0 -> writable M m (len l) -> m <> 0 ->
  len l < 2 ^ ul -> no_overtake m c (len (l ++ t)) ->
  dec_blocks (length l) (xs s) l = (S1, mb) ->
  length rr = (length l mod 16)%nat -> readable (write M m mb) (c + N.of_nat (length l - length l mod 16)%nat) rr ->
  exists s', xs s' = reread rr S1 /\ wf s' /\ length mb = length l /\
    readable (write M m mb) (c + len l) t /\
    runs (ascon_duplex e strict ul s m c (len l) ASCON_DEC) M (write M m mb) s'.
Proof.
  intros Hs R Hc Wr Hm Hul Hno E Hrr Rrr. pose proof (readable_bound _ _ _ R) as Hbd. rewrite len_app in Hbd.
  destruct (duplex_dec_while (fuel (len l) 16) M s m c l t Hs R Wr Hul Hno) as
    (s1 & ms & q & r & Rn & W1 & El & Hq & Hq16 & Hr & Rr & Hno2 & E1); [unfold fuel; lia|].
  assert (Hlr : (length l mod 16)%nat = length r).
  { rewrite El, app_length, Nat.add_mod, Hq16 by lia. cbn [Nat.add]. rewrite Nat.mod_mod by lia.
    apply Nat.mod_small, Hr. }
  assert (Hl : length l = (length ms + length r)%nat) by (rewrite El, app_length; lia).
  assert (Ll : len l = len ms + len r) by (unfold len; lia).
  rewrite Hlr in *. replace (N.of_nat (length l - length r)%nat) with (len ms) in Rrr by (unfold len; lia).
  rewrite (dec_blocks_short _ _ r) in E1 by exact Hr. rewrite E1 in E. inversion E; subst S1 mb. clear E.
  assert (Wr' : writable (write M m ms) (m + len ms) (len r)).
  { rewrite Ll in Wr. apply writable_split in Wr. apply writable_write, Wr. }
  destruct (readable_app _ _ _ _ Rr) as (Rr1 & Rr2).
  destruct (last_xor_ok e s1 r W1 Hr) as (W2 & E2).
  assert (Eo : firstn (length r) (xs (last_xor e s1 r)) = xor_into r (xs s1)).
  { rewrite E2, (xor_into_block r) by (rewrite length_xs; lia). unfold xor_at.
    apply firstn_app_exact. rewrite firstn_length, length_xor_into, length_xs. lia. }
  assert (Ew : write M m (ms ++ xor_into r (xs s1)) =
    write (write M m ms) (m + len ms) (xor_into r (xs s1))) by apply write_app.
  rewrite Ew in *.
  destruct (duplex_last_dec e (write M m ms) s1 (m + len ms) (c + len ms) r rr W1 Hr Rr1) as (s' & Rn3 & W3 & E3);
    [lia|exact Wr'|lia|rewrite Eo; exact Rrr|exact Hrr|].
  rewrite Eo in Rn3.
  exists s'. split; [|split; [exact W3|split; [rewrite app_length, length_xor_into; lia|split]]].
  - rewrite E3, E2. unfold reread. f_equal. rewrite Hrr. unfold xor_at.
    rewrite !skipn_app_exact by (rewrite firstn_length, ?app_length, ?length_xor_into, ?skipn_length, ?length_xs; lia).
    rewrite skipn_app_exact by reflexivity. rewrite skipn_xor_into by lia. reflexivity.
  - replace (c + len l) with (c + len ms + len r) by lia.
    apply readable_write_disjoint; [exact Rr2|].
    apply no_overtake_disjoint; [exact Hno2|]. unfold len. rewrite length_xor_into. lia.
  - unfold ascon_duplex. eapply runs_bind; [exact Rn|]. cbn beta iota. exact Rn3.
Qed.

(** The comparison loop of decrypt.c. *)
Lemma esp_diff_go M mlen c n t1 t2 l1 l2 r : readable M mlen (to_host e 8 n) -> fits 64 n -> c <> 0 ->
  c + n + len (l1 ++ l2) < 2 ^ 64 ->
  readable M (c + n) (l1 ++ l2) -> length l1 = length t1 -> length l2 = length t2 ->
  runs (for_loop (length t2) (len l1)
    (fun i r => n <- load_ull e mlen ;; b <- ld c (add64 n i) ;;
       ret (N.lor r (N.lxor (b2n b) (b2n (nth (N.to_nat i) (t1 ++ t2) x00))))) r) M M
   (diff_acc r l2 t2).
Proof.
  intros Rl Fn Hc. revert t1 l1 l2 r; induction t2 as [|y t2 IH]; intros t1 l1 l2 r Hb R H1 H2.
  - destruct l2; [|discriminate]. cbn [length diff_acc]. apply runs_for_O.
  - destruct l2 as [|x l2]; [discriminate|]. cbn [length] in *. cbn [diff_acc].
    rewrite len_app, len_cons in Hb.
    eapply runs_for_S.
    + eapply runs_bind; [apply runs_load_ull; [exact Rl|exact Fn]|].
      rewrite add64_small by lia.
      eapply runs_bind.
      * unfold ld. eapply runs_bind; [apply runs_padd; [lia|auto]|].
        destruct R as (_ & _ & R). specialize (R (length l1)).
        rewrite app_length, app_nth2, Nat.sub_diag in R by lia. cbn [length nth] in R.
        apply runs_ldb with (b := x); [lia|]. replace (c + (n + len l1)) with (c + n + N.of_nat (length l1)) by (unfold len; lia).
        apply R. lia.
      * rewrite to_nat_len, H1, app_nth2, Nat.sub_diag by lia. cbn [nth]. apply runs_ret.
    + replace (len l1 + 1) with (len (l1 ++ [x])) by (rewrite len_app; reflexivity).
      replace (t1 ++ y :: t2) with ((t1 ++ [y]) ++ t2) by (rewrite <- app_assoc; reflexivity).
      apply (IH (t1 ++ [y]) (l1 ++ [x]) l2).
      * rewrite !len_app. change (len [x]) with 1. lia.
      * rewrite <- app_assoc. exact R.
      * rewrite !app_length. cbn [length]. lia.
      * lia.
Qed.

(** The tag that decryption computes if the last block reads as [rr] the
    second time. *)
Definition open_reread (rr k n ad c : bytes) : bytes :=
  aead_tag k (reread rr (fst (dec_blocks (length c) (aead_ad (aead_init k n) ad) c))).

Theorem esp_decrypt_gen M m mlen nsec c ad npub k kb nb adb body tag mb t rr :
  is16 kb -> is16 nb -> is16 tag ->
  readable M k kb -> readable M npub nb -> readable M ad adb -> readable M c (body ++ tag) ->
  writable M m (len body) -> writable M mlen 8 ->
  disjoint mlen 8 k 16 -> disjoint mlen 8 npub 16 -> disjoint mlen 8 ad (len adb) ->
  disjoint mlen 8 c (len (body ++ tag)) -> disjoint mlen 8 m (len body) ->
  no_overtake m c (len (body ++ tag)) -> m <> 0 ->
  len body < 2 ^ ul -> len adb < 2 ^ ul -> len adb < 16 \/ strict = false ->
  aead_open kb nb adb body = (mb, t) ->
  length rr = (length body mod 16)%nat ->
  readable (write (write M mlen (to_host e 8 (len body))) m mb) (c + N.of_nat (length body - length body mod 16)%nat) rr ->
  runs (esp_aead_decrypt e strict ul m mlen nsec c (len (body ++ tag)) ad (len adb) npub k) M
    (write (write M mlen (to_host e 8 (len body))) m mb)
    (if list_eq_dec Byte.byte_eq_dec (open_reread rr kb nb adb body) tag then 0 else -1)%Z
  /\ length mb = length body /\ is16 (open_reread rr kb nb adb body).
Proof.
  intros Hk Hn Ht Rk Rn Ra Rc Wm Wml Dk Dn Da Dc Dm Hno Hm Ulb Ula Hst Hopen Hrr Rrr.
  pose proof (readable_bound _ _ _ Rc) as Hbd.
  set (M1 := write M mlen (to_host e 8 (len body))) in *.
  assert (Lh : len (to_host e 8 (len body)) = 8) by (unfold len at 1; rewrite length_to_host; reflexivity).
  assert (Lk : len kb = 16) by (apply (len_eq kb 16), Hk).
  assert (Ln : len nb = 16) by (apply (len_eq nb 16), Hn).
  assert (Lt : len tag = 16) by (apply (len_eq tag 16), Ht).
  assert (Lb : len (body ++ tag) = len body + 16) by (rewrite len_app; lia).
  assert (Rk1 : readable M1 k kb) by (apply readable_write_disjoint; [exact Rk|rewrite Lh, Lk; exact Dk]).
  assert (Rn1 : readable M1 npub nb) by (apply readable_write_disjoint; [exact Rn|rewrite Lh, Ln; exact Dn]).
  assert (Ra1 : readable M1 ad adb) by (apply readable_write_disjoint; [exact Ra|rewrite Lh; exact Da]).
  assert (Rc1 : readable M1 c (body ++ tag)) by (apply readable_write_disjoint; [exact Rc|rewrite Lh; exact Dc]).
  assert (Wm1 : writable M1 m (len body)) by (apply writable_write, Wm).
  assert (Hc : c <> 0) by (eapply readable_nonnull; [exact Rc|lia]).
  pose proof (writable_bound _ _ _ Wml) as Hbl.
  assert (Hml : mlen <> 0) by (destruct Wml as (_ & Hz & _); apply Hz; lia).
  assert (Rl1 : readable M1 mlen (to_host e 8 (len body))) by (apply readable_write_self; [rewrite Lh; exact Hbl|auto]).
  assert (Fb : fits 64 (len body)) by (unfold fits; lia).
  destruct (esp_init_ok e M1 npub k kb nb Hk Hn Rk1 Rn1) as (k0 & k1 & s0 & -> & H0 & H1 & W0 & Rn0 & E0).
  destruct (esp_adata_ok e strict ul M1 s0 ad adb W0 Ra1 Ula Hst) as (s1 & W1 & Ws1 & E1).
  unfold aead_open in Hopen. rewrite <- E0, <- E1 in Hopen.
  destruct (dec_blocks (length body) (xs s1) body) as [S1 mb'] eqn:E2. inversion Hopen; subst mb' t. clear Hopen.
  destruct (esp_dec_ok M1 s1 m c body tag rr mb S1 Ws1 Rc1 Hc Wm1 Hm Ulb Hno E2 Hrr Rrr) as (s2 & E3 & W2 & Hmb & Rt & Rn2).
  pose proof (esp_tag_ok e s2 k0 k1 W2 H0 H1) as E4.
  assert (Eo : open_reread rr (k0 ++ k1) nb adb body = aead_tag (k0 ++ k1) (xs s2)).
  { unfold open_reread. rewrite <- E0, <- E1, E2. cbn [fst]. rewrite E3. reflexivity. }
  assert (L16 : length (aead_tag (k0 ++ k1) (xs s2)) = 16%nat).
  { rewrite <- E4, app_length, !length_to_host. reflexivity. }
  rewrite Eo. split; [|split; [exact Hmb|exact L16]].
  unfold esp_aead_decrypt, CRYPTO_ABYTES.
  eapply runs_bind; [apply runs_branch|].
  replace (len (body ++ tag) <? 16) with false by lia.
  eapply runs_bind; [apply runs_store_ull; exact Wml|].
  rewrite sub64_small by lia. replace (len (body ++ tag) - 16) with (len body) by lia. fold M1.
  eapply runs_bind; [apply runs_load_ull; [exact Rl1|exact Fb]|].
  eapply runs_bind.
  { unfold ascon_core. eapply runs_bind; [exact Rn0|]. cbn beta iota.
    eapply runs_bind; [exact W1|]. rewrite trunc_ul by exact Ulb.
    eapply runs_bind; [exact Rn2|]. cbv zeta. rewrite E4. apply runs_ret. }
  eapply runs_bind.
  { pose proof (esp_diff_go (write M1 m mb) mlen c (len body) [] (aead_tag (k0 ++ k1) (xs s2)) [] tag 0) as DL.
    rewrite L16 in DL. apply DL; auto.
    - apply readable_write_disjoint; [exact Rl1|].
      rewrite Lh. replace (len mb) with (len body) by (unfold len; lia).
      revert Dm. unfold disjoint. lia.
    - cbn [app]. lia. }
  rewrite verdict_diff by (rewrite L16; exact Ht). apply runs_ret.
Qed.

(** The first bytes of the state after the last block are its ciphertext. *)
Lemma dec_blocks_last f : forall S c, (length c <= 16 * f)%nat -> (16 <= length S)%nat ->
  firstn (length c mod 16) (fst (dec_blocks f S c)) = skipn (length c - length c mod 16) c.
Proof.
  assert (Sh : forall f S c, (length c < 16)%nat -> (16 <= length S)%nat ->
    firstn (length c mod 16) (fst (dec_blocks f S c)) = skipn (length c - length c mod 16) c).
  { intros f0 S c H HS. rewrite dec_blocks_short by exact H. cbn [fst]. rewrite Nat.mod_small, Nat.sub_diag by exact H.
    unfold xor_at. rewrite firstn_app_exact; [apply firstn_app_exact; reflexivity|].
    rewrite firstn_length, app_length, skipn_length. lia. }
  induction f as [|f IH]; intros S c H HS; [apply Sh; lia|].
  destruct (Nat.lt_ge_cases (length c) 16) as [L|L]; [apply Sh; auto|].
  destruct (split_at 16 c) as (B & c' & -> & HB); [lia|].
  rewrite app_length in *. rewrite dec_blocks_step by exact HB.
  specialize (IH (p 8 (B ++ skipn 16 S)) c'). rewrite length_p in IH.
  destruct (dec_blocks f _ c') as [S2 m2]. cbn [fst] in *.
  replace ((length B + length c') mod 16)%nat with (length c' mod 16)%nat.
  2:{ rewrite HB, <- (Nat.mod_add (length c') 1 16) by lia. f_equal. lia. }
  rewrite IH by lia. pose proof (Nat.mod_le (length c') 16).
  replace (length B + length c' - length c' mod 16)%nat with (length B + (length c' - length c' mod 16))%nat by lia.
  rewrite <- skipn_skipn, skipn_app_exact by reflexivity. reflexivity.
Qed.

Lemma open_reread_same k n ad c mb t : aead_open k n ad c = (mb, t) ->
  open_reread (skipn (length c - length c mod 16) c) k n ad c = t.
Proof.
  unfold aead_open, open_reread. set (S0 := aead_ad (aead_init k n) ad). intros H.
  pose proof (dec_blocks_last (length c) S0 c ltac:(lia)) as E.
  destruct (dec_blocks (length c) S0 c) as [S1 m1]. inversion H; subst; clear H. cbn [fst] in *.
  rewrite <- E.
  - unfold reread. rewrite firstn_length.
    replace (skipn (Nat.min _ _) S1) with (skipn (length c mod 16) S1); [rewrite firstn_skipn; reflexivity|].
    destruct (Nat.le_ge_cases (length c mod 16) (length S1)); [f_equal; lia|].
    rewrite !skipn_all2 by lia. reflexivity.
  - unfold S0. rewrite length_aead_ad; [lia|apply length_aead_init].
Qed.

(** Conforming use: the output does not overlap the last block. *)
Theorem esp_decrypt_ok M m mlen nsec c ad npub k kb nb adb body tag mb t :
  is16 kb -> is16 nb -> is16 tag ->
  readable M k kb -> readable M npub nb -> readable M ad adb -> readable M c (body ++ tag) ->
  writable M m (len body) -> writable M mlen 8 ->
  disjoint mlen 8 k 16 -> disjoint mlen 8 npub 16 -> disjoint mlen 8 ad (len adb) ->
  disjoint mlen 8 c (len (body ++ tag)) -> disjoint mlen 8 m (len body) ->
  no_overtake m c (len (body ++ tag)) -> m <> 0 ->
  (let r := len body mod 16 in let q := len body - r in disjoint (m + q) r (c + q) r) ->
  len body < 2 ^ ul -> len adb < 2 ^ ul -> len adb < 16 \/ strict = false ->
  aead_open kb nb adb body = (mb, t) ->
  runs (esp_aead_decrypt e strict ul m mlen nsec c (len (body ++ tag)) ad (len adb) npub k) M
    (write (write M mlen (to_host e 8 (len body))) m mb)
    (if list_eq_dec Byte.byte_eq_dec t tag then 0 else -1)%Z
  /\ length mb = length body /\ is16 t.
Proof.
  intros Hk Hn Ht Rk Rn Ra Rc Wm Wml Dk Dn Da Dc Dm Hno Hm Dl Ulb Ula Hst Hopen.
  set (q := (length body - length body mod 16)%nat).
  set (r := skipn q body).
  pose proof (Nat.mod_le (length body) 16 ltac:(lia)) as Hle.
  pose proof (Nat.mod_upper_bound (length body) 16 ltac:(lia)) as Hlt.
  assert (Hr : length r = (length body mod 16)%nat) by (unfold r, q; rewrite skipn_length; lia).
  assert (Hq : length (firstn q body) = q) by (rewrite firstn_length; unfold q; lia).
  assert (Eb : body = firstn q body ++ r) by (symmetry; apply firstn_skipn).
  assert (Lmod : len body mod 16 = N.of_nat (length body mod 16)).
  { unfold len. rewrite Nnat.Nat2N.inj_mod. reflexivity. }
  assert (Hmb : length mb = length body).
  { destruct (aead_open_encrypt _ _ _ _ _ _ Hopen) as (H & _). exact H. }
  assert (Emb : mb = firstn q mb ++ skipn q mb) by (symmetry; apply firstn_skipn).
  assert (Lh : len (to_host e 8 (len body)) = 8) by (unfold len at 1; rewrite length_to_host; reflexivity).
  pose proof (open_reread_same kb nb adb body mb t Hopen) as Eo. fold q r in Eo.
  rewrite <- Eo. eapply esp_decrypt_gen; eauto.
  fold q. set (M1 := write M mlen (to_host e 8 (len body))).
  assert (Rc1 : readable M1 c (body ++ tag)) by (apply readable_write_disjoint; [exact Rc|rewrite Lh; exact Dc]).
  rewrite Eb, <- app_assoc in Rc1. rewrite Eb, <- app_assoc in Hno.
  destruct (readable_app _ _ _ _ Rc1) as (_ & Rc2). destruct (readable_app _ _ _ _ Rc2) as (Rc3 & _).
  rewrite (len_eq (firstn q body) q Hq) in Rc3.
  rewrite Emb, write_app. apply readable_write_disjoint; [apply readable_write_disjoint; [exact Rc3|]|].
  - revert Hno. unfold no_overtake, disjoint. rewrite !len_app. rewrite (len_eq (firstn q body) q Hq).
    replace (len (firstn q mb)) with (N.of_nat q) by (unfold len; rewrite firstn_length; unfold q; lia). lia.
  - replace (len (firstn q mb)) with (N.of_nat q) by (unfold len; rewrite firstn_length; unfold q; lia).
    replace (len (skipn q mb)) with (N.of_nat (length body mod 16)) by (unfold len; rewrite skipn_length; unfold q; lia).
    replace (len r) with (N.of_nat (length body mod 16)) by (unfold len; lia).
    cbv zeta in Dl. rewrite Lmod in Dl.
    replace (len body - N.of_nat (length body mod 16)) with (N.of_nat q) in Dl by (unfold len, q; lia). exact Dl.
Qed.

(** In place (m = c): the last block reads as its plaintext. *)
Theorem esp_decrypt_inplace M m mlen nsec ad npub k kb nb adb body tag mb t :
  is16 kb -> is16 nb -> is16 tag ->
  readable M k kb -> readable M npub nb -> readable M ad adb -> readable M m (body ++ tag) ->
  writable M m (len body) -> writable M mlen 8 ->
  disjoint mlen 8 k 16 -> disjoint mlen 8 npub 16 -> disjoint mlen 8 ad (len adb) ->
  disjoint mlen 8 m (len (body ++ tag)) ->
  len body < 2 ^ ul -> len adb < 2 ^ ul -> len adb < 16 \/ strict = false ->
  aead_open kb nb adb body = (mb, t) ->
  runs (esp_aead_decrypt e strict ul m mlen nsec m (len (body ++ tag)) ad (len adb) npub k) M
    (write (write M mlen (to_host e 8 (len body))) m mb)
    (if list_eq_dec Byte.byte_eq_dec (open_reread (skipn (length body - length body mod 16) mb) kb nb adb body) tag
     then 0 else -1)%Z.
Proof.
  intros Hk Hn Ht Rk Rn Ra Rc Wm Wml Dk Dn Da Dc Ulb Ula Hst Hopen.
  set (q := (length body - length body mod 16)%nat).
  pose proof (Nat.mod_le (length body) 16 ltac:(lia)) as Hle.
  assert (Hmb : length mb = length body).
  { destruct (aead_open_encrypt _ _ _ _ _ _ Hopen) as (H & _). exact H. }
  assert (Hm : m <> 0).
  { eapply readable_nonnull; [exact Rc|]. rewrite len_app. unfold is16, len in *. lia. }
  pose proof (readable_bound _ _ _ Rc) as Hbd. rewrite len_app in Hbd.
  eapply esp_decrypt_gen with (t := t); eauto.
  - revert Dc. unfold disjoint. rewrite len_app. lia.
  - left. lia.
  - unfold q. rewrite skipn_length. lia.
  - fold q. set (M1 := write M mlen (to_host e 8 (len body))).
    assert (R : readable (write M1 m mb) m (firstn q mb ++ skipn q mb)).
    { rewrite firstn_skipn. apply readable_write_self; [unfold len in *; lia|auto]. }
    destruct (readable_app _ _ _ _ R) as (_ & R2).
    replace (len (firstn q mb)) with (N.of_nat q) in R2 by (unfold len; rewrite firstn_length; unfold q; lia). exact R2.
Qed.

(** A message shorter than the tag: unlike the other implementations, this
    one sets [*mlen] to 0 (decrypt.c l.12). *)
Theorem esp_decrypt_short M m mlen nsec c clen ad adlen npub k : clen < 16 -> writable M mlen 8 ->
  runs (esp_aead_decrypt e strict ul m mlen nsec c clen ad adlen npub k) M (write M mlen (to_host e 8 0)) (-1)%Z.
Proof.
  intros H W. unfold esp_aead_decrypt, CRYPTO_ABYTES. eapply runs_bind; [apply runs_branch|].
  replace (clen <? 16) with true by lia.
  eapply runs_bind; [apply runs_store_ull; exact W|]. apply runs_ret.
Qed.

(** Where unsigned long is narrower than unsigned long long, only the
    lower bits of the lengths count. *)
Theorem esp_encrypt_adlen c clen m mlen ad adlen adlen' nsec npub k M :
  adlen mod 2 ^ ul = adlen' mod 2 ^ ul -> adlen <> 0 -> adlen' <> 0 ->
  esp_aead_encrypt e strict ul c clen m mlen ad adlen nsec npub k M =
  esp_aead_encrypt e strict ul c clen m mlen ad adlen' nsec npub k M.
Proof.
  intros H H0 H1. unfold esp_aead_encrypt, ascon_core, esp_adata. rewrite !trunc_mod, H.
  replace (adlen =? 0) with false by lia. replace (adlen' =? 0) with false by lia. reflexivity.
Qed.
End Esp.
