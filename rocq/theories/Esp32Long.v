(** * Esp32Long.v -- the ESP32 implementation outside its contract: lengths
    that [unsigned long] cannot hold, strict null-pointer arithmetic. *)
From Coq Require Import Arith Bool NArith ZArith List Lia Init.Byte.
From Coq Require Import ZifyBool ZifyNat ZifyN.
From Verif Require Import Words WordFacts Spec SpecFacts CMem Contract CMemFacts ApiSpec ModelRef ModelCommon ModelWords WordInst
  StateRep RefRound RefPrim RefAead RefAeadDec AeadFacts ModelEsp32 Esp32Prim Esp32Aead Esp32Dec.
Import ListNotations.
Local Open Scope N_scope.

(** Only the first [mlen mod 2^ul] bytes are encrypted; the tag goes to
    [c + mlen] all the same. *)
Theorem esp_encrypt_long e strict ul M c clen m mlen ad nsec npub k kb nb adb mb :
  is16 kb -> is16 nb ->
  readable M k kb -> readable M npub nb -> readable M ad adb -> readable M m mb ->
  writable M c (mlen + 16) -> writable M clen 8 ->
  disjoint clen 8 k 16 -> disjoint clen 8 npub 16 -> disjoint clen 8 ad (len adb) ->
  disjoint clen 8 m (len mb) ->
  no_overtake c m (len mb) -> m <> 0 ->
  mlen mod 2 ^ ul = len mb -> len adb < 2 ^ ul -> len adb < 16 \/ strict = false ->
  runs (esp_aead_encrypt e strict ul c clen m mlen ad (len adb) nsec npub k) M
    (write (write (write M clen (to_host e 8 (mlen + 16)))
       c (firstn (length mb) (aead_encrypt kb nb adb mb)))
       (c + mlen) (skipn (length mb) (aead_encrypt kb nb adb mb))) 0%Z.
Proof.
  intros Hk Hn Rk Rn Ra Rm Wc Wcl Dk Dn Da Dm Hno Hm Em Ula Hst.
  pose proof (writable_bound _ _ _ Wc) as Hbw.
  assert (Ulm : len mb < 2 ^ ul) by (rewrite <- Em; apply N.mod_upper_bound; lia).
  assert (Hle : len mb <= mlen) by (rewrite <- Em; apply N.mod_le; lia).
  set (M1 := write M clen (to_host e 8 (mlen + 16))).
  assert (Lh : len (to_host e 8 (mlen + 16)) = 8) by (unfold len at 1; rewrite length_to_host; reflexivity).
  assert (Lk : len kb = 16) by (apply (len_eq kb 16), Hk).
  assert (Ln : len nb = 16) by (apply (len_eq nb 16), Hn).
  assert (Rk1 : readable M1 k kb) by (apply readable_write_disjoint; [exact Rk|rewrite Lh, Lk; exact Dk]).
  assert (Rn1 : readable M1 npub nb) by (apply readable_write_disjoint; [exact Rn|rewrite Lh, Ln; exact Dn]).
  assert (Ra1 : readable M1 ad adb) by (apply readable_write_disjoint; [exact Ra|rewrite Lh; exact Da]).
  assert (Rm1 : readable M1 m mb) by (apply readable_write_disjoint; [exact Rm|rewrite Lh; exact Dm]).
  assert (Wc1 : writable M1 c (mlen + 16)) by (apply writable_write, Wc).
  assert (Hc : c <> 0) by (destruct Wc as (_ & Hz & _); apply Hz; lia).
  destruct (esp_init_ok e M1 npub k kb nb Hk Hn Rk1 Rn1) as (k0 & k1 & s0 & -> & H0 & H1 & W0 & Rn0 & E0).
  destruct (esp_adata_ok e strict ul M1 s0 ad adb W0 Ra1 Ula Hst) as (s1 & W1 & Ws1 & E1).
  destruct (writable_split _ _ _ _ Wc1) as (Wm' & Wt).
  assert (Wm : writable M1 c (len mb)).
  { replace mlen with (len mb + (mlen - len mb)) in Wm' by lia. apply writable_split in Wm'. apply Wm'. }
  destruct (esp_enc_ok e strict ul M1 s1 c m mb Ws1 Rm1 Wm Ulm Hm Hc Hno) as (s2 & cf & E2 & W2 & Hcf & Rn2).
  pose proof (esp_tag_ok e s2 k0 k1 W2 H0 H1) as E3.
  assert (L16 : length (aead_tag (k0 ++ k1) (xs s2)) = 16%nat).
  { rewrite <- E3, app_length, !length_to_host. reflexivity. }
  unfold esp_aead_encrypt.
  eapply runs_bind; [apply runs_store_ull; exact Wcl|].
  unfold CRYPTO_ABYTES. rewrite add64_small by lia. fold M1.
  eapply runs_bind.
  { unfold ascon_core. eapply runs_bind; [exact Rn0|]. cbn beta iota.
    eapply runs_bind; [exact W1|]. rewrite trunc_mod, Em.
    eapply runs_bind; [exact Rn2|]. cbv zeta. rewrite E3. apply runs_ret. }
  assert (E : aead_encrypt (k0 ++ k1) nb adb mb = firstn (length mb) cf ++ aead_tag (k0 ++ k1) (xs s2)).
  { unfold aead_encrypt. rewrite <- E0, <- E1, E2. reflexivity. }
  assert (Lf : length (firstn (length mb) cf) = length mb) by (rewrite firstn_length; lia).
  rewrite E. rewrite firstn_app_exact, skipn_app_exact by exact Lf.
  eapply runs_bind; [|apply runs_ret].
  pose proof (store_loop c mlen (aead_tag (k0 ++ k1) (xs s2)) (write M1 c (firstn (length mb) cf)) []) as SL.
  rewrite L16 in SL. rewrite len_nil, N.add_0_r in SL. apply SL.
  - apply writable_write. replace (len (aead_tag (k0 ++ k1) (xs s2))) with 16 by (unfold len; rewrite L16; reflexivity). exact Wt.
  - exact Hc.
  - unfold len. cbn [app]. rewrite L16. lia.
Qed.

(** A computation that ends in undefined behaviour in its first part. *)
Lemma bad_bind {A B} (c : C A) (f : A -> C B) M M' v er : runs c M M' v -> f v M' = Bad er -> bind c f M = Bad er.
Proof. intros (t & H) H2. unfold bind. rewrite H, H2. reflexivity. Qed.
Lemma bad_here {A B} (c : C A) (f : A -> C B) M er : c M = Bad er -> bind c f M = Bad er.
Proof. intros H. unfold bind. rewrite H. reflexivity. Qed.

(** One block of associated data: core.c l.63 advances a null pointer. *)
Theorem esp_encrypt_null e ul M c clen m mlen ad nsec npub k kb nb adb :
  is16 kb -> is16 nb ->
  readable M k kb -> readable M npub nb -> readable M ad adb -> writable M clen 8 ->
  disjoint clen 8 k 16 -> disjoint clen 8 npub 16 -> disjoint clen 8 ad (len adb) ->
  len adb < 2 ^ ul -> 16 <= len adb ->
  esp_aead_encrypt e true ul c clen m mlen ad (len adb) nsec npub k M = Bad ErrNull.
Proof.
  intros Hk Hn Rk Rn Ra Wcl Dk Dn Da Ula H16.
  set (M1 := write M clen (to_host e 8 (add64 mlen 16))).
  assert (Lh : len (to_host e 8 (add64 mlen 16)) = 8) by (unfold len at 1; rewrite length_to_host; reflexivity).
  assert (Lk : len kb = 16) by (apply (len_eq kb 16), Hk).
  assert (Ln : len nb = 16) by (apply (len_eq nb 16), Hn).
  assert (Rk1 : readable M1 k kb) by (apply readable_write_disjoint; [exact Rk|rewrite Lh, Lk; exact Dk]).
  assert (Rn1 : readable M1 npub nb) by (apply readable_write_disjoint; [exact Rn|rewrite Lh, Ln; exact Dn]).
  assert (Ra1 : readable M1 ad adb) by (apply readable_write_disjoint; [exact Ra|rewrite Lh; exact Da]).
  destruct (esp_init_ok e M1 npub k kb nb Hk Hn Rk1 Rn1) as (k0 & k1 & s0 & -> & H0 & H1 & W0 & Rn0 & E0).
  unfold esp_aead_encrypt.
  eapply bad_bind; [apply runs_store_ull; exact Wcl|]. unfold CRYPTO_ABYTES. fold M1.
  apply bad_here. unfold ascon_core.
  eapply bad_bind; [exact Rn0|]. cbn beta iota. apply bad_here. unfold esp_adata.
  eapply bad_bind; [apply runs_branch|]. replace (len adb =? 0) with false by lia. cbn [negb].
  apply bad_here, bad_here. unfold ascon_duplex. apply bad_here. rewrite trunc_ul by exact Ula.
  destruct (split_len 16 adb) as (B & l & -> & HB & LB); [unfold len in *; lia|]. change (N.of_nat 16) with 16 in LB.
  rewrite len_app, LB in *.
  destruct (split_len 8 B) as (b0 & b1 & -> & Hb0 & Lb0); [unfold len in *; lia|].
  rewrite app_length in HB. assert (Hb1 : length b1 = 8%nat) by lia.
  destruct (duplex_loads e M1 s0 ad b0 b1 l W0 Hb0 Hb1 Ra1) as (Q0 & Q1 & Ex).
  pose proof (readable_bound _ _ _ Ra1) as Hbd. rewrite len_app, LB in Hbd.
  unfold fuel. cbn [while].
  eapply bad_bind; [apply runs_branch|]. replace (16 <=? 16 + len l) with true by lia.
  apply bad_here. unfold duplex_body.
  eapply bad_bind; [exact Q0|]. eapply bad_bind; [exact Q1|]. cbv zeta.
  eapply bad_bind; [apply runs_branch|]. cbn [N.eqb ASCON_AD negb].
  eapply bad_bind; [apply runs_ret|].
  eapply bad_bind; [apply runs_branch|]. cbn [N.eqb ASCON_AD ASCON_DEC].
  eapply bad_bind; [apply runs_padd; [lia|intros _; eapply readable_nonnull; [exact Ra1|rewrite len_app, LB; lia]]|].
  reflexivity.
Qed.
