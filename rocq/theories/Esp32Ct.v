(** * Esp32Ct.v -- the ESP32 implementation: secret-independent traces, and
    termination for every argument. *)
From Coq Require Import Bool Arith NArith ZArith List Lia Init.Byte ZifyBool ZifyNat ZifyN.
From Verif Require Import Words WordFacts ModelRef ModelCommon ModelWords Ct RefCt ComCt ModelEsp32 CMem Contract CMemFacts.
Import ListNotations.
Local Open Scope N_scope.

Section Esp.
Variable e : endian.
Variable strict : bool.
Variable ul : N.

Lemma ct_LD32 p i : ct any (LD32 e p i) (LD32 e p i).
Proof.
  unfold LD32. eapply ct_bind; [apply ct_padd|]. intros ? ? [-> ->].
  eapply ct_bind; [apply ct_memcpy_in|]. intros. apply ct_ret. exact I.
Qed.
Lemma ct_ST32 p i x y : ct any (ST32 e p i x) (ST32 e p i y).
Proof.
  unfold ST32. eapply ct_bind; [apply ct_padd|]. intros ? ? [-> ->].
  apply ct_memcpy_out. rewrite !length_to_host. reflexivity.
Qed.
Lemma ct_LD64 p i : ct any (LD64 e p i) (LD64 e p i).
Proof.
  unfold LD64. eapply ct_bind; [apply ct_LD32|]. intros. eapply ct_bind; [apply ct_LD32|].
  intros. apply ct_ret. exact I.
Qed.
Lemma ct_ST64 p i x y : ct any (ST64 e p i x) (ST64 e p i y).
Proof. unfold ST64. eapply ct_bind; [apply ct_ST32|]. intros. apply ct_ST32. Qed.
Lemma ct_advance p n : ct (fun x y => x = y) (advance strict p n) (advance strict p n).
Proof.
  unfold advance. destruct strict; [|destruct (p =? 0); [apply ct_ret; reflexivity|]];
  (eapply ct_weaken; [apply ct_padd|]; intros ? ? [-> ->]; reflexivity).
Qed.

Lemma ct_duplex_body mode v w : pub4 v w -> ct pub4 (duplex_body e strict ul mode v) (duplex_body e strict ul mode w).
Proof.
  destruct v as [[[s a] b] n], w as [[[s' a'] b'] n']. intros (E1 & E2 & E3); cbn [fst snd] in E1, E2, E3; subst.
  unfold duplex_body. eapply ct_bind; [apply ct_LD64|]. intros. eapply ct_bind; [apply ct_LD64|]. intros.
  ct1. eapply ct_bind with (R := any).
  { destruct (negb _); [|apply ct_ret; exact I]. eapply ct_bind; [apply ct_ST64|]. intros. apply ct_ST64. }
  intros. ct1. ct1. eapply ct_bind; [apply ct_advance|]. intros ? ? ->. apply ct_ret. repeat split.
Qed.

Lemma ct_duplex_last mode s s' out inp n :
  ct any (duplex_last e mode s out inp n) (duplex_last e mode s' out inp n).
Proof.
  unfold duplex_last. eapply ct_bind; [apply ct_memcpy_in|]. intros l l' [L L']. ct1.
  eapply ct_bind with (R := any).
  { destruct (negb _); [|apply ct_ret; exact I]. eapply ct_bind; [apply ct_memcpy_out|intros; apply ct_ret; exact I].
    rewrite !firstn_length, !app_length, !length_to_host. reflexivity. }
  intros. ct1. destruct (mode =? ASCON_DEC); [|apply ct_ret; exact I].
  eapply ct_bind; [apply ct_memcpy_in|]. intros. apply ct_ret. exact I.
Qed.

Lemma ct_duplex s s' out inp n mode :
  ct any (ascon_duplex e strict ul s out inp n mode) (ascon_duplex e strict ul s' out inp n mode).
Proof.
  unfold ascon_duplex. eapply ct_bind.
  - apply (ct_while pub4); [|apply ct_duplex_body|repeat split].
    intros [[[x1 a1] b1] n1] [[[x2 a2] b2] n2] (E1 & E2 & E3). cbn [fst snd] in *. subst. reflexivity.
  - intros [[[x1 a1] b1] n1] [[[x2 a2] b2] n2] (E1 & E2 & E3). cbn [fst snd] in E1, E2, E3; subst. apply ct_duplex_last.
Qed.

Definition len16 (a b : bytes) : Prop := length a = 16%nat /\ length b = 16%nat.

Lemma ct_core out inp n ad adlen npub k mode :
  ct len16 (ascon_core e strict ul out inp n ad adlen npub k mode) (ascon_core e strict ul out inp n ad adlen npub k mode).
Proof.
  unfold ascon_core, esp_init, esp_adata.
  eapply ct_bind with (R := any).
  { do 4 (eapply ct_bind; [apply ct_LD64|]; intros). apply ct_ret. exact I. }
  intros [[K0 K1] s] [[K0' K1'] s'] _.
  eapply ct_bind with (R := any).
  { ct1. eapply ct_bind with (R := any); [|intros; apply ct_ret; exact I].
    destruct (negb _); [|apply ct_ret; exact I]. eapply ct_bind; [apply ct_duplex|]. intros. apply ct_ret. exact I. }
  intros. eapply ct_bind; [apply ct_duplex|]. intros. apply ct_ret.
  split; rewrite app_length, !length_to_host; reflexivity.
Qed.

Theorem ct_esp_encrypt c clen m mlen ad adlen nsec npub k :
  ct any (esp_aead_encrypt e strict ul c clen m mlen ad adlen nsec npub k)
         (esp_aead_encrypt e strict ul c clen m mlen ad adlen nsec npub k).
Proof.
  unfold esp_aead_encrypt. ct1. eapply ct_bind; [apply ct_core|]. intros t t' _.
  eapply ct_bind with (R := any); [|intros; apply ct_ret; exact I].
  apply ct_for; [|exact I]. intros. apply ct_st.
Qed.

(** ** Where the functions write *)

Definition frame {A} (p : ptr) (n : N) (Q : A -> Prop) (c : C A) : Prop :=
  forall M t M' v, c M = Done t M' v -> (forall a, outside p n a -> M' a = M a) /\ Q v.

Lemma frame_bind {A B} p n (Q : A -> Prop) (R : B -> Prop) c f : frame p n Q c -> (forall v, Q v -> frame p n R (f v)) ->
  frame p n R (bind c f).
Proof.
  intros Hc Hf M t M' v E. unfold bind in E. destruct (c M) as [t1 M1 v1|] eqn:E1; [|discriminate].
  destruct (f v1 M1) as [t2 M2 v2|] eqn:E2; [|discriminate]. inversion E; subst.
  destruct (Hc _ _ _ _ E1) as (F1 & Hq). destruct (Hf _ Hq _ _ _ _ E2) as (F2 & Hr).
  split; [|exact Hr]. intros a Ha. rewrite F2, F1 by exact Ha. reflexivity.
Qed.
Lemma frame_ret {A} p n (Q : A -> Prop) v : Q v -> frame p n Q (ret v).
Proof. intros H M t M' v' E. inversion E; subst. auto. Qed.
Lemma frame_branch p n b : frame p n (fun x => x = b) (branch b).
Proof. intros M t M' v' E. inversion E; subst. auto. Qed.
Lemma frame_padd p n q k : frame p n (fun x => x = q + k) (padd q k).
Proof.
  intros M t M' v E. unfold padd in E. destruct (_ && _); [discriminate|]. destruct (_ <=? _); [discriminate|].
  inversion E; subst. auto.
Qed.
Lemma frame_advance p n q k : frame p n (fun x => x = q + k) (advance strict q k).
Proof.
  unfold advance. destruct strict; [apply frame_padd|]. destruct (N.eqb_spec q 0) as [->|]; [|apply frame_padd].
  apply frame_ret. reflexivity.
Qed.
Lemma frame_memcpy_in p n q k : frame p n top (memcpy_in q k).
Proof.
  intros M t M' v E. unfold memcpy_in in E. destruct (_ =? _); [discriminate|]. destruct (_ <=? _); [discriminate|].
  destruct (read_bytes _ _ _); inversion E; subst. split; [auto|exact I].
Qed.
Lemma frame_memcpy_out p n q l : p <= q -> q + N.of_nat (length l) <= p + n -> frame p n top (memcpy_out q l).
Proof.
  intros H1 H2 M t M' v E. unfold memcpy_out in E. destruct (_ =? _); [discriminate|]. destruct (_ <=? _); [discriminate|].
  destruct (all_writable _ _ _); inversion E; subst. split; [|exact I]. intros a Ha.
  apply write_outside. unfold outside, len in *. lia.
Qed.
Lemma frame_LD64 p n q i : frame p n top (LD64 e q i).
Proof.
  unfold LD64, LD32.
  do 2 (eapply frame_bind with (Q := top); [eapply frame_bind; [apply frame_padd|]; intros ? _;
    eapply frame_bind; [apply frame_memcpy_in|]; intros; apply frame_ret; exact I|intros]).
  apply frame_ret. exact I.
Qed.
Lemma frame_ST64 p n q i x : p <= q + 4 * i -> q + 4 * i + 8 <= p + n -> frame p n top (ST64 e q i x).
Proof.
  intros H1 H2. unfold ST64, ST32.
  eapply frame_bind with (Q := top); [eapply frame_bind; [apply frame_padd|]; intros ? ->|intros; eapply frame_bind; [apply frame_padd|]; intros ? ->];
  apply frame_memcpy_out; rewrite ?length_to_host; lia.
Qed.
Lemma frame_while {S} p n (I : S -> Prop) cond (body : S -> C S) :
  (forall s, I s -> cond s = true -> frame p n I (body s)) ->
  forall f s, I s -> frame p n (fun s' => I s' /\ cond s' = false) (while f cond body s).
Proof.
  intros HB f. induction f as [|f IH]; intros s HI; cbn [while]; [intros M t M' v E; discriminate|].
  eapply frame_bind; [apply frame_branch|]. intros b ->. destruct (cond s) eqn:E.
  - eapply frame_bind; [apply HB; assumption|]. intros. apply IH. assumption.
  - apply frame_ret. auto.
Qed.

Lemma subul_le a b : b <= a -> subul ul a b <= a - b.
Proof.
  intros H. unfold subul. rewrite trunc_mod. replace (a + 2 ^ ul - b) with (a - b + 1 * 2 ^ ul) by lia.
  rewrite N.mod_add by (apply N.pow_nonzero; discriminate). apply N.mod_le. apply N.pow_nonzero; discriminate.
Qed.

Lemma frame_duplex s out inp n mode p k : mode = ASCON_AD \/ (p <= out /\ out + n <= p + k) ->
  frame p k top (ascon_duplex e strict ul s out inp n mode).
Proof.
  intros H. unfold ascon_duplex.
  eapply frame_bind.
  - apply (frame_while p k (fun v : state * ptr * ptr * N => let '(_, o, _, l) := v in
      mode = ASCON_AD \/ (p <= o /\ o + l <= p + k))); [|exact H].
    intros [[[x o] i] l] HI Hc. unfold duplex_body.
    eapply frame_bind; [apply frame_LD64|]. intros. eapply frame_bind; [apply frame_LD64|]. intros.
    eapply frame_bind; [apply frame_branch|]. intros ? ->.
    eapply frame_bind with (Q := top).
    { destruct (N.eqb_spec mode ASCON_AD) as [Em|Em]; [apply frame_ret; exact I|]. cbn [negb].
      destruct HI as [HI|HI]; [contradiction|].
      eapply frame_bind; [apply frame_ST64; lia|]. intros. apply frame_ST64; lia. }
    intros. eapply frame_bind; [apply frame_branch|]. intros ? ->.
    eapply frame_bind; [apply frame_padd|]. intros ? ->.
    eapply frame_bind; [apply frame_advance|]. intros ? ->. apply frame_ret.
    destruct HI as [HI|HI]; [left; exact HI|right]. pose proof (subul_le l 16 ltac:(lia)). lia.
  - intros [[[x o] i] l] [HI Hc]. unfold duplex_last.
    eapply frame_bind; [apply frame_memcpy_in|]. intros.
    eapply frame_bind; [apply frame_branch|]. intros ? ->.
    eapply frame_bind with (Q := top).
    { destruct (N.eqb_spec mode ASCON_AD) as [Em|Em]; [apply frame_ret; exact I|]. cbn [negb].
      destruct HI as [HI|HI]; [contradiction|].
      eapply frame_bind; [apply frame_memcpy_out; [lia|]|intros; apply frame_ret; exact I].
      rewrite firstn_length. lia. }
    intros. eapply frame_bind; [apply frame_branch|]. intros ? ->.
    destruct (mode =? ASCON_DEC); [|apply frame_ret; exact I].
    eapply frame_bind; [apply frame_memcpy_in|]. intros. apply frame_ret. exact I.
Qed.

Lemma frame_core out inp n ad adlen npub k mode :
  frame out n top (ascon_core e strict ul out inp n ad adlen npub k mode).
Proof.
  unfold ascon_core, esp_init, esp_adata.
  eapply frame_bind with (Q := top).
  { do 4 (eapply frame_bind; [apply frame_LD64|]; intros). apply frame_ret. exact I. }
  intros [[K0 K1] s] _.
  eapply frame_bind with (Q := top).
  { eapply frame_bind; [apply frame_branch|]. intros ? ->. eapply frame_bind with (Q := top); [|intros; apply frame_ret; exact I].
    destruct (negb _); [|apply frame_ret; exact I].
    eapply frame_bind; [apply frame_duplex; left; reflexivity|]. intros. apply frame_ret. exact I. }
  intros. eapply frame_bind; [apply frame_duplex; right|intros; apply frame_ret; exact I].
  split; [lia|]. rewrite trunc_mod. pose proof (N.mod_le n (2 ^ ul) ltac:(apply N.pow_nonzero; discriminate)). lia.
Qed.

(** ** Decryption *)

(** Reading back a length that has been stored and not overwritten. *)
Lemma load_ull_known M p x : p <> 0 -> p + 8 < 2 ^ 64 -> fits 64 x ->
  (forall i, (i < 8)%nat -> rd M (p + N.of_nat i) = Some (nth i (to_host e 8 x) x00)) ->
  exists t, load_ull e p M = Done t M x /\ t = [ERead p 8].
Proof.
  intros Hp Hb Hx H. assert (R : readable M p (to_host e 8 x)).
  { split; [unfold len; rewrite length_to_host; exact Hb|]. split; [auto|]. rewrite length_to_host. exact H. }
  destruct (runs_load_ull e M p x R Hx) as (t & E). exists t. split; [exact E|].
  unfold load_ull, bind, memcpy_in in E. destruct (p =? 0); [discriminate|]. destruct (_ <=? _); [discriminate|].
  destruct (read_bytes _ _ _); [|discriminate]. inversion E; subst. reflexivity.
Qed.

Lemma for_loop_same {S} (b1 b2 : N -> S -> C S) M :
  (forall i s, b1 i s M = b2 i s M) -> (forall i s t M' v, b2 i s M = Done t M' v -> M' = M) ->
  forall k i s, for_loop k i b1 s M = for_loop k i b2 s M.
Proof.
  intros H1 H2 k. induction k as [|k IH]; intros i s; [reflexivity|].
  cbn [for_loop]. unfold bind at 1 3. cbn [branch]. unfold bind. rewrite H1.
  destruct (b2 i s M) as [t M' v|] eqn:E; [|reflexivity]. rewrite (H2 _ _ _ _ _ E) in *. rewrite IH. reflexivity.
Qed.

(** The same function with the length at hand. *)
Definition esp_decrypt_n (m mlen nsec c : ptr) (clen : N) (ad : ptr) (adlen : N) (npub k : ptr) : C Z :=
  b <- branch (clen <? CRYPTO_ABYTES) ;;
  if b : bool then store_ull e mlen 0 ;;; ret (-1)%Z else
  store_ull e mlen (sub64 clen CRYPTO_ABYTES) ;;;
  _ <- load_ull e mlen ;;
  t <- ascon_core e strict ul m c (sub64 clen CRYPTO_ABYTES) ad adlen npub k ASCON_DEC ;;
  r <- for_loop 16 0 (fun i r =>
         _ <- load_ull e mlen ;;
         b <- ld c (add64 (sub64 clen CRYPTO_ABYTES) i) ;;
         ret (N.lor r (N.lxor (b2n b) (b2n (nth (N.to_nat i) t x00))))) 0 ;;
  ret (verdict r).

Lemma bind_cong {A B} (c : C A) (f g : A -> C B) M : (forall t M' v, c M = Done t M' v -> f v M' = g v M') ->
  bind c f M = bind c g M.
Proof. intros H. unfold bind. destruct (c M) as [t M' v|] eqn:E; [|reflexivity]. rewrite (H _ _ _ eq_refl). reflexivity. Qed.

Lemma bind_cong1 {A B} (c d : C A) (f : A -> C B) M : c M = d M -> bind c f M = bind d f M.
Proof. intros H. unfold bind. rewrite H. reflexivity. Qed.

Lemma esp_decrypt_known m mlen nsec c clen ad adlen npub k M : disjoint mlen 8 m (clen - 16) ->
  esp_aead_decrypt e strict ul m mlen nsec c clen ad adlen npub k M =
  esp_decrypt_n m mlen nsec c clen ad adlen npub k M.
Proof.
  intros D. unfold esp_aead_decrypt, esp_decrypt_n. apply bind_cong. intros t M1 b E. inversion E; subst. clear E.
  destruct (clen <? CRYPTO_ABYTES) eqn:Hs; [reflexivity|]. unfold CRYPTO_ABYTES in *.
  set (x := sub64 clen 16).
  assert (Fx : fits 64 x) by apply fits_sub64.
  assert (Lx : x <= clen - 16).
  { unfold x, sub64. rewrite trunc_mod. replace (clen + 2 ^ 64 - 16) with (clen - 16 + 1 * 2 ^ 64) by lia.
    rewrite N.mod_add by discriminate. apply N.mod_le. discriminate. }
  apply bind_cong. intros t0 M0 [] E0.
  assert (K0 : mlen <> 0 /\ mlen + 8 < 2 ^ 64 /\ forall i, (i < 8)%nat -> rd M0 (mlen + N.of_nat i) = Some (nth i (to_host e 8 x) x00)).
  { unfold store_ull, memcpy_out in E0. destruct (N.eqb_spec mlen 0); [discriminate|]. rewrite length_to_host in E0.
    destruct (N.leb_spec (2 ^ 64) (mlen + N.of_nat 8)); [discriminate|].
    destruct (all_writable _ _ _); [|discriminate]. inversion E0; subst. split; [assumption|]. split; [lia|].
    intros i Hi. unfold rd. rewrite write_inside by (rewrite length_to_host; exact Hi). reflexivity. }
  destruct K0 as (Hz & Hb & K0).
  destruct (load_ull_known M0 mlen x Hz Hb Fx K0) as (t1 & L0 & _).
  apply bind_cong. intros t1' M0' n0 E1. rewrite L0 in E1. inversion E1; subst t1' M0' n0. clear E1.
  apply bind_cong. intros t2 M2 tg E2.
  destruct (frame_core _ _ _ _ _ _ _ _ _ _ _ _ E2) as (F & _).
  assert (K2 : forall i, (i < 8)%nat -> rd M2 (mlen + N.of_nat i) = Some (nth i (to_host e 8 x) x00)).
  { intros i Hi. rewrite <- (K0 i Hi). unfold rd. rewrite F; [reflexivity|].
    revert D. unfold disjoint, outside. lia. }
  destruct (load_ull_known M2 mlen x Hz Hb Fx K2) as (t3 & L2 & _).
  apply bind_cong1. apply for_loop_same.
  - intros i r. apply bind_cong. intros t' M' n' E. rewrite L2 in E. inversion E; subst. reflexivity.
  - intros i r t' M' v E. unfold bind at 1 in E. rewrite L2 in E. unfold bind, ld, padd, ldb in E.
    destruct (_ && _); [discriminate|]. destruct (_ <=? _); [discriminate|]. unfold bind, ret in E.
    destruct (_ =? 0); [discriminate|]. destruct (rd _ _); [|discriminate]. inversion E; subst. reflexivity.
Qed.

Lemma ct_esp_decrypt_n m mlen nsec c clen ad adlen npub k :
  ct any (esp_decrypt_n m mlen nsec c clen ad adlen npub k) (esp_decrypt_n m mlen nsec c clen ad adlen npub k).
Proof.
  unfold esp_decrypt_n. ct1. destruct (clen <? CRYPTO_ABYTES).
  { ct1. apply ct_ret. exact I. }
  ct1. eapply ct_bind; [apply ct_load_ull|]. intros. eapply ct_bind; [apply ct_core|]. intros t t' _.
  eapply ct_bind with (R := any); [|intros; apply ct_ret; exact I].
  apply ct_for; [|exact I]. intros. eapply ct_bind; [apply ct_load_ull|]. intros.
  eapply ct_bind; [apply ct_ld|]. intros. apply ct_ret. exact I.
Qed.

Theorem ct_esp_decrypt m mlen nsec c clen ad adlen npub k : disjoint mlen 8 m (clen - 16) ->
  ct any (esp_aead_decrypt e strict ul m mlen nsec c clen ad adlen npub k)
         (esp_aead_decrypt e strict ul m mlen nsec c clen ad adlen npub k).
Proof.
  intros D. eapply ct_ext; [intro; apply esp_decrypt_known, D..|]. apply ct_esp_decrypt_n.
Qed.

Lemma ct_hash_absorb s s' inp n : ct any (hash_absorb e ul s inp n) (hash_absorb e ul s' inp n).
Proof.
  unfold hash_absorb. eapply ct_bind.
  - apply (ct_while pub3); [| |split; reflexivity].
    + intros [[x1 a1] n1] [[x2 a2] n2] [E1 E2]. cbn [fst snd] in *. subst. reflexivity.
    + intros [[x1 a1] n1] [[x2 a2] n2] [E1 E2]. cbn [fst snd] in E1, E2; subst. unfold hash_absorb_body.
      eapply ct_bind; [apply ct_LD64|]. intros. ct1. apply ct_ret. split; reflexivity.
  - intros [[x1 a1] n1] [[x2 a2] n2] [E1 E2]. cbn [fst snd] in E1, E2; subst.
    eapply ct_bind; [apply ct_memcpy_in|]. intros. apply ct_ret. exact I.
Qed.
Lemma ct_hash_squeeze s s' out n : ct any (hash_squeeze e ul s out n) (hash_squeeze e ul s' out n).
Proof.
  unfold hash_squeeze. eapply ct_bind.
  - apply (ct_while pub3); [| |split; reflexivity].
    + intros [[x1 a1] n1] [[x2 a2] n2] [E1 E2]. cbn [fst snd] in *. subst. reflexivity.
    + intros [[x1 a1] n1] [[x2 a2] n2] [E1 E2]. cbn [fst snd] in E1, E2; subst. unfold hash_squeeze_body.
      eapply ct_bind; [apply ct_ST64|]. intros. ct1. apply ct_ret. split; reflexivity.
  - intros [[x1 a1] n1] [[x2 a2] n2] [E1 E2]. cbn [fst snd] in E1, E2; subst.
    apply ct_memcpy_out. rewrite !firstn_length, !length_to_host. reflexivity.
Qed.
Theorem ct_esp_hash iv cb out inp n : ct any (esp_hash e ul iv cb out inp n) (esp_hash e ul iv cb out inp n).
Proof.
  unfold esp_hash. eapply ct_bind; [apply ct_hash_absorb|]. intros.
  eapply ct_bind; [apply ct_hash_squeeze|]. intros. apply ct_ret. exact I.
Qed.

(** ** Termination *)

Lemma post_LD64 p i : post top (LD64 e p i).
Proof.
  unfold LD64, LD32.
  do 2 (eapply post_bind with (Q := top); [eapply post_bind; [apply post_padd|]; intros ? _;
    eapply post_bind; [apply post_memcpy_in|]; intros; apply post_ret; exact I|intros]).
  apply post_ret. exact I.
Qed.
Lemma post_ST64 p i x : post top (ST64 e p i x).
Proof.
  unfold ST64, ST32.
  eapply post_bind with (Q := top); [|intros]; (eapply post_bind; [apply post_padd|]; intros ? _; eapply post_weaken; [apply post_memcpy_out|intros; exact I]).
Qed.
Lemma post_advance p n : post top (advance strict p n).
Proof.
  unfold advance. destruct strict; [|destruct (p =? 0); [apply post_ret; exact I|]];
  (eapply post_weaken; [apply post_padd|intros; exact I]).
Qed.

(** [while] over an unsigned long that shrinks by [r] each time. *)
Lemma post_shrink_ul {S} (ln : S -> N) r cond (body : S -> C S) s :
  0 < r -> ln s < 2 ^ ul ->
  (forall v, cond v = true -> r <= ln v) ->
  (forall v, post (fun v' => ln v' = subul ul (ln v) r) (body v)) ->
  post top (while (fuel (ln s) r) cond body s).
Proof.
  intros Hr Hs Hc Hb.
  eapply post_weaken;
    [apply (post_while (fun v => ln v < 2 ^ ul) (fun v => N.to_nat (ln v / r)))|]; auto.
  - intros v Hv Cv. eapply post_weaken; [apply Hb|]. cbn beta. intros v' ->. specialize (Hc v Cv).
    assert (Es : subul ul (ln v) r = ln v - r).
    { unfold subul. rewrite trunc_mod. replace (ln v + 2 ^ ul - r) with (ln v - r + 1 * 2 ^ ul) by lia.
      rewrite N.mod_add by lia. apply N.mod_small. lia. }
    rewrite Es. split; [lia|].
    assert (E : ln v / r = (ln v - r) / r + 1).
    { replace (ln v) with (ln v - r + 1 * r) at 1 by lia. rewrite N.div_add by lia. reflexivity. }
    lia.
  - intros; exact I.
Qed.
Lemma trunc_lt n : trunc ul n < 2 ^ ul.
Proof. rewrite trunc_mod. apply N.mod_lt, N.pow_nonzero. discriminate. Qed.

Lemma post_duplex s out inp n mode : n < 2 ^ ul -> post top (ascon_duplex e strict ul s out inp n mode).
Proof.
  intros Hn. unfold ascon_duplex. eapply post_bind.
  - apply (post_shrink_ul (fun v : state * ptr * ptr * N => snd v) 16 _ _ (s, out, inp, n)); [lia|exact Hn| |].
    + intros [[[x a] b] l]. cbn [fst snd]. lia.
    + intros [[[x a] b] l]. unfold duplex_body.
      eapply post_bind; [apply post_LD64|]. intros. eapply post_bind; [apply post_LD64|]. intros. po1.
      eapply post_bind with (Q := top).
      { destruct (negb _); [|apply post_ret; exact I]. eapply post_bind; [apply post_ST64|]. intros. apply post_ST64. }
      intros. po1. po1. eapply post_bind; [apply post_advance|]. intros. apply post_ret. reflexivity.
  - intros [[[x a] b] l] _. unfold duplex_last. eapply post_bind; [apply post_memcpy_in|]. intros. po1.
    eapply post_bind with (Q := top).
    { destruct (negb _); [|apply post_ret; exact I].
      eapply post_bind; [apply post_memcpy_out|]. intros. apply post_ret. exact I. }
    intros. po1. destruct (mode =? ASCON_DEC); [|apply post_ret; exact I].
    eapply post_bind; [apply post_memcpy_in|]. intros. apply post_ret. exact I.
Qed.
Lemma post_core out inp n ad adlen npub k mode : post top (ascon_core e strict ul out inp n ad adlen npub k mode).
Proof.
  unfold ascon_core, esp_init, esp_adata.
  eapply post_bind with (Q := top).
  { do 4 (eapply post_bind; [apply post_LD64|]; intros). apply post_ret. exact I. }
  intros [[K0 K1] s] _.
  eapply post_bind with (Q := top).
  { po1. eapply post_bind with (Q := top); [|intros; apply post_ret; exact I].
    destruct (negb _); [|apply post_ret; exact I]. eapply post_bind; [apply post_duplex, trunc_lt|]. intros. apply post_ret. exact I. }
  intros. eapply post_bind; [apply post_duplex, trunc_lt|]. intros. apply post_ret. exact I.
Qed.
Theorem post_esp_encrypt c clen m mlen ad adlen nsec npub k :
  post top (esp_aead_encrypt e strict ul c clen m mlen ad adlen nsec npub k).
Proof.
  unfold esp_aead_encrypt. po1. eapply post_bind; [apply post_core|]. intros.
  eapply post_bind with (Q := top); [|intros; apply post_ret; exact I].
  apply post_for; [|exact I]. intros. eapply post_weaken; [apply post_st|]. intros; exact I.
Qed.
Theorem post_esp_decrypt m mlen nsec c clen ad adlen npub k :
  post top (esp_aead_decrypt e strict ul m mlen nsec c clen ad adlen npub k).
Proof.
  unfold esp_aead_decrypt. po1. destruct (clen <? CRYPTO_ABYTES); [po1; apply post_ret; exact I|]. po1.
  eapply post_bind; [apply post_load_ull|]. intros. eapply post_bind; [apply post_core|]. intros.
  eapply post_bind with (Q := top); [|intros; apply post_ret; exact I].
  apply post_for; [|exact I]. intros. eapply post_bind; [apply post_load_ull|]. intros.
  eapply post_bind; [apply post_ld|]. intros. apply post_ret. exact I.
Qed.
Theorem post_esp_hash iv cb out inp n : cb < 2 ^ ul -> post top (esp_hash e ul iv cb out inp n).
Proof.
  intros Hc. unfold esp_hash. eapply post_bind with (Q := top).
  - unfold hash_absorb. eapply post_bind.
    + apply (post_shrink_ul (fun v : state * ptr * N => snd v) 8 _ _ (iv, inp, trunc ul n)); [lia|apply trunc_lt| |].
      * intros [[x a] l]. cbn [fst snd]. unfold ASCON_HASH_RATE. lia.
      * intros [[x a] l]. unfold hash_absorb_body. eapply post_bind; [apply post_LD64|]. intros. po1. apply post_ret. reflexivity.
    + intros [[x a] l] _. eapply post_bind; [apply post_memcpy_in|]. intros. apply post_ret. exact I.
  - intros s _. eapply post_bind with (Q := top); [|intros; apply post_ret; exact I].
    unfold hash_squeeze. eapply post_bind.
    + apply (post_shrink_ul (fun v : state * ptr * N => snd v) 8 _ _ (s, out, cb)); [lia|exact Hc| |].
      * intros [[x a] l]. cbn [fst snd]. unfold ASCON_HASH_RATE. lia.
      * intros [[x a] l]. unfold hash_squeeze_body. eapply post_bind; [apply post_ST64|]. intros. po1. apply post_ret. reflexivity.
    + intros [[x a] l] _. eapply post_weaken; [apply post_memcpy_out|]. intros; exact I.
Qed.
End Esp.
