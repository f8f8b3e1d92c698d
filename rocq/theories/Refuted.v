(** * Refuted.v -- runs of the modelled code that go wrong.

    Lemmas about undefined behaviour (null-pointer arithmetic in the
    size-optimised code, memcpy with a null pointer) and about wrong
    results on big-endian hosts.  The statements for users are in
    PropertiesLow.v. *)
From Coq Require Import Bool Arith NArith ZArith List Lia Init.Byte Strings.Byte ZifyBool ZifyNat ZifyN.
From Verif Require Import Words WordFacts Spec SpecFacts CMem Contract CMemFacts ApiSpec ModelRef StateRep RefPrim
  RefAead ModelCommon WordLaws ComPrim ComAead ComHash ModelLow LowAead LowDec LowHash.
Import ListNotations.
Local Open Scope N_scope.

(** [c] goes wrong from [M] with error [err]. *)
Definition goes_wrong {A} (c : C A) (M : mem) (err : error) : Prop := c M = Bad err.

Lemma wrong_here {A B} (c : C A) (f : A -> C B) M err : goes_wrong c M err -> goes_wrong (bind c f) M err.
Proof. unfold goes_wrong, bind. intros ->. reflexivity. Qed.
Lemma wrong_later {A B} (c : C A) (f : A -> C B) M M1 v err :
  runs c M M1 v -> goes_wrong (f v) M1 err -> goes_wrong (bind c f) M err.
Proof. intros [t H]. unfold goes_wrong, bind. rewrite H. intros ->. reflexivity. Qed.
Lemma wrong_while {S} f cond (body : S -> C S) s M err :
  cond s = true -> goes_wrong (body s) M err -> goes_wrong (while (Datatypes.S f) cond body s) M err.
Proof.
  intros H W. cbn [while]. rewrite H. eapply wrong_later; [apply runs_branch|]. apply wrong_here, W.
Qed.

Section Low.
Variables (e : endian) (o : wordops) (cn : N -> N).
Hypothesis L : word_laws cn e o.
Variable hb : bool.

Ltac step := eapply wrong_later.

(** The first full word of any update with a null [out]. *)
Lemma update_null_out M mode s inp l : has mode ASCON_ABSORB = true -> has mode ASCON_SQUEEZE = false ->
  readable M inp l -> 8 <= len l -> wf s ->
  goes_wrong (ascon_update e o true hb s NULL inp (len l) mode) M ErrNull.
Proof.
  intros Ha Hq R H Hs. pose proof (readable_bound _ _ _ R) as Hbd.
  destruct (split_len 8 l) as (b & l' & -> & Hb & Lb); [exact H|]. change (N.of_nat 8) with 8 in Lb.
  destruct (readable_app _ _ _ _ R) as (R0 & _).
  assert (Hin : inp <> 0) by (eapply readable_nonnull; [exact R|lia]).
  unfold ascon_update. apply wrong_here.
  unfold fuel. apply wrong_while; [lia|].
  unfold update_body.
  step; [apply runs_absorbs, Ha|]. cbn beta iota.
  step; [eapply runs_bind; [apply (runs_wLOAD e o); [exact R0|lia]|apply runs_ret]|]. cbn beta iota.
  step; [apply runs_branch|]. rewrite Hq.
  step; [apply runs_ret|].
  step; [apply runs_branch|]. cbn zeta.
  step; [apply runs_branch|].
  step; [apply runs_branch|].
  step; [apply (runs_advance true); [lia|auto]|].
  reflexivity.
Qed.

(** Associated data of at least one word. *)
Lemma low_aead_null tag out inp inlen ad npub k mode M kb nb adb :
  is16 kb -> is16 nb -> readable M k kb -> readable M npub nb -> readable M ad adb -> 8 <= len adb ->
  goes_wrong (ascon_aead e o true hb tag out inp inlen ad (len adb) npub k mode) M ErrNull.
Proof.
  intros Hk Hn Rk Rn Ra H. unfold is16 in Hk.
  destruct (split_len 8 kb) as (k0 & k1 & -> & H0 & L0); [unfold len; lia|].
  rewrite app_length in Hk. assert (H1 : length k1 = 8%nat) by lia.
  pose proof (loadkey_ok e o M k k0 k1 H0 H1 Rk) as Rnk.
  destruct (initaead_ok e o cn L M npub k0 k1 nb H0 H1 Hn Rn) as (s0 & Rn0 & W0 & E0).
  unfold ascon_aead.
  step; [exact Rnk|].
  step; [exact Rn0|].
  step; [apply runs_branch|]. replace (len adb =? 0) with false by lia. cbn [negb].
  apply wrong_here, wrong_here.
  apply update_null_out; [reflexivity|reflexivity|exact Ra|exact H|exact W0].
Qed.

Lemma low_encrypt_null M c clen m mlen ad nsec npub k mb adb nb kb :
  encrypt_pre (Demands true true false) M c clen m ad npub k mb adb nb kb -> mlen = len mb -> 8 <= len adb ->
  goes_wrong (low_aead_encrypt e o true hb c clen m mlen ad (len adb) nsec npub k) M ErrNull.
Proof.
  intros [] -> H. unfold low_aead_encrypt.
  assert (Lh : len (to_host e 8 (add64 (len mb) CRYPTO_ABYTES)) = 8) by (unfold len at 1; rewrite length_to_host; reflexivity).
  step; [apply runs_store_ull; exact ep_clen|].
  step; [eapply runs_padd_writable; [apply writable_write; exact ep_c|lia]|].
  eapply (low_aead_null _ _ _ _ _ _ _ _ _ kb nb adb); try assumption;
    apply readable_write_disjoint; rewrite ?Lh; auto.
  - rewrite (len_eq kb 16) by assumption. assumption.
  - rewrite (len_eq nb 16) by assumption. assumption.
Qed.

(** Squeezing at least one word. *)
Lemma update_null_in M s out n : 8 <= n -> writable M out n -> wf s ->
  goes_wrong (ascon_update e o true true s out NULL n (N.lor ASCON_HASH ASCON_SQUEEZE)) M ErrNull.
Proof.
  intros H W Hs. pose proof (writable_bound _ _ _ W) as Hbd.
  assert (W8 : writable M out 8).
  { replace n with (8 + (n - 8)) in W by lia. apply writable_split in W. apply W. }
  unfold ascon_update. apply wrong_here.
  unfold fuel. apply wrong_while; [lia|].
  unfold update_body.
  step; [apply runs_branch|]. cbn beta iota.
  step; [apply runs_ret|]. cbn beta iota.
  step; [apply runs_branch|]. cbn beta iota.
  step; [apply (runs_wSTORE e o cn L); [exact W8|apply Hs]|].
  step; [apply runs_branch|]. cbn zeta.
  step; [apply runs_branch|].
  step; [apply runs_branch|].
  reflexivity.
Qed.

Lemma low_xof_null iv n M out inp l : wf iv -> 8 <= n -> readable M inp l -> inp <> 0 -> writable M out n ->
  goes_wrong (low_xof e o true true iv out n inp (len l)) M ErrNull.
Proof.
  intros W0 Hn R Hin W. unfold low_xof. destruct (N.ltb_spec (len l) 8) as [H|H].
  - destruct (low_absorb_ok e o cn L true M iv inp l W0 R Hin (fun _ => H)) as (s1 & Rn & W1 & E1).
    step; [exact Rn|]. cbn zeta. apply wrong_here.
    apply update_null_in; [exact Hn|exact W|apply (wf_wP12 e o cn L), W1].
  - apply wrong_here.
    pose proof (readable_bound _ _ _ R) as Hbd.
    destruct (split_len 8 l) as (b & l' & -> & Hb & Lb); [exact H|]. change (N.of_nat 8) with 8 in Lb.
    destruct (readable_app _ _ _ _ R) as (R0 & _).
    unfold ascon_update. apply wrong_here.
    unfold fuel. apply wrong_while; [lia|].
    unfold update_body.
    step; [apply runs_branch|]. cbn beta iota.
    step; [eapply runs_bind; [apply (runs_wLOAD e o); [exact R0|lia]|apply runs_ret]|]. cbn beta iota.
    step; [apply runs_branch|]. cbn beta iota.
    step; [apply runs_ret|].
    step; [apply runs_branch|]. cbn zeta.
    step; [apply runs_branch|].
    step; [apply runs_branch|].
    step; [apply (runs_advance true); [lia|auto]|].
    reflexivity.
Qed.
End Low.

(** ** memcpy with a null pointer and 0 bytes *)

Lemma com_xof_null e o iv out n M : goes_wrong (ascon_xof e o iv out n NULL 0) M ErrNull.
Proof. reflexivity. Qed.
