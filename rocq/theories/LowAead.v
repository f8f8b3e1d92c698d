(** * LowAead.v -- the size-optimised AEAD refines the specification. *)
From Coq Require Import Arith Bool NArith ZArith List Lia Init.Byte Strings.Byte.
From Coq Require Import ZifyBool ZifyNat ZifyN.
From Verif Require Import Words WordFacts Spec SpecFacts CMem Contract CMemFacts ModelRef
  StateRep RefRound RefPrim RefAead RefAeadDec ModelCommon WordLaws ComPrim ComAead ComAeadDec ComHash ModelLow.
Import ListNotations.
Local Open Scope N_scope.

Lemma dec_word_low x r : fits 64 x -> (length r < 8)%nat ->
  N.lxor (CLEARBYTES (N.lxor x (le_num r)) (len r)) (le_num r) = N.lor (CLEARBYTES x (len r)) (le_num r).
Proof.
  intros Hx Hr. apply len_lt8 in Hr as Hn.
  assert (Hl : fits 64 (le_num r)) by (apply fits_le_num8; lia).
  apply N.bits_inj; intro j.
  rewrite !N.lxor_spec, N.lor_spec.
  rewrite !testbit_CLEARBYTES by (auto using fits_lxor; lia).
  rewrite !N.lxor_spec.
  destruct (N.leb_spec (8 * len r) j) as [H|H].
  - rewrite (testbit_le_num_high r j H). rewrite !andb_true_r, !orb_false_r, !xorb_false_r. reflexivity.
  - rewrite !andb_false_r. destruct (N.testbit (le_num r) j); reflexivity.
Qed.

(** [for (i < n) tag[i] = t[i]] *)
Lemma copy_loop l : forall M p i t, writable M p (i + len l) -> skipn (N.to_nat i) t = l ->
  (N.to_nat i <= length t)%nat ->
  runs (for_loop (length l) i (fun i (_ : unit) => st p i (nth (N.to_nat i) t x00)) tt) M
    (write M (p + i) l) tt.
Proof.
  induction l as [|b l IH]; intros M p i t W E Hi.
  - apply runs_for_O.
  - assert (Hb : nth (N.to_nat i) t x00 = b /\ skipn (N.to_nat (i + 1)) t = l /\ (N.to_nat (i + 1) <= length t)%nat).
    { rewrite <- (firstn_skipn (N.to_nat i) t), E.
      assert (L1 : length (firstn (N.to_nat i) t) = N.to_nat i) by (rewrite firstn_length; lia).
      rewrite app_nth2 by lia. rewrite L1, Nat.sub_diag. split; [reflexivity|].
      rewrite app_length, L1. cbn [length]. split; [|lia].
      replace (N.to_nat (i + 1)) with (N.to_nat i + 1)%nat by lia.
      rewrite skipn_app, L1. rewrite skipn_all2 by lia.
      replace (N.to_nat i + 1 - N.to_nat i)%nat with 1%nat by lia. reflexivity. }
    destruct Hb as (Hb & Hs & Hl). rewrite len_cons in W.
    cbn [length]. eapply runs_for_S.
    + eapply runs_st; [exact W|lia].
    + rewrite Hb. cbn [write]. rewrite <- N.add_assoc.
      apply IH; [|exact Hs|exact Hl].
      replace (i + 1 + len l) with (i + (len l + 1)) by lia. apply (writable_write M _ [b]).
      replace (len l + 1) with (1 + len l) by lia. exact W.
Qed.
Lemma copy_ok M p t : length t = 16%nat -> writable M p 16 ->
  runs (for_loop 16 0 (fun i (_ : unit) => st p i (nth (N.to_nat i) t x00)) tt) M (write M p t) tt.
Proof.
  intros H W. pose proof (copy_loop t M p 0 t) as K. rewrite N.add_0_r, H in K. apply K; [|reflexivity|cbn; lia].
  rewrite (len_eq t 16 H). exact W.
Qed.

Section LowAead.
Variables (e : endian) (o : wordops) (cn : N -> N).
Hypothesis L : word_laws cn e o.
Variables (strict hb : bool).
Notation vs := (ComPrim.vs cn).
Notation word := (ComPrim.word_of e o).

Ltac step := eapply runs_bind.
Ltac ld R := step; [apply (runs_wLOAD e o); [exact R|lia]|].

Definition ucond : state * N * N * ptr * ptr * N -> bool := fun '(_, _, _, _, _, len) => 8 <=? len.

Lemma runs_advance M p : p + 8 < 2 ^ 64 -> (strict = true -> p <> 0) ->
  runs (advance strict p) M M (p + 8).
Proof.
  intros H Hn. unfold advance. destruct strict.
  - apply runs_padd; auto.
  - destruct (N.eqb_spec p 0) as [->|E]; [apply runs_ret|]. apply runs_padd; [exact H|auto].
Qed.
Lemma runs_absorbs M mode : has mode ASCON_ABSORB = true -> runs (absorbs hb mode) M M true.
Proof. intros H. unfold absorbs. destruct hb; [rewrite H; apply runs_branch|apply runs_ret]. Qed.

(** One 8-byte word in a mode that absorbs. *)
Lemma body_ok M mode s i tmp inp out n b :
  has mode ASCON_ABSORB = true -> readable M inp b -> length b = 8%nat -> 8 <= n -> n < 2 ^ 64 ->
  wf s ->
  (has mode ASCON_SQUEEZE = true -> writable M out 8) ->
  out + 8 < 2 ^ 64 -> (strict = true -> out <> 0) ->
  let s1 := xorx s i (word b) in
  let s2 := if has mode ASCON_INSERT then setx s1 i (word b) else s1 in
  let last := i + 1 =? upd_rate hb mode / 8 in
  let i' := if last then 0 else i + 1 in
  runs (update_body e o strict hb mode (s, i, tmp, inp, out, n)) M
    (if has mode ASCON_SQUEEZE then write M out (wb (cn (getx s1 i))) else M)
    (if i' =? 0 then w_P o (upd_rounds hb mode) s2 else s2, i', word b, inp + 8, out + 8, n - 8).
Proof.
  intros Ha R Hb Hn Hn' Hs Hw Ho Hno s1 s2 last i'.
  assert (Lb : len b = 8) by (apply (len_eq b 8 Hb)).
  assert (Hin : inp <> 0) by (eapply readable_nonnull; [exact R|lia]).
  pose proof (readable_bound _ _ _ R) as Hbd.
  assert (W1 : wf s1) by (apply (wf_word e o cn L); [exact Hs|lia]).
  unfold update_body.
  step; [apply runs_absorbs, Ha|]. cbn beta iota.
  step; [ld R; apply runs_ret|]. cbn beta iota. fold s1.
  step; [apply runs_branch|].
  step.
  { instantiate (1 := tt).
    instantiate (1 := if has mode ASCON_SQUEEZE then write M out (wb (cn (getx s1 i))) else M).
    destruct (has mode ASCON_SQUEEZE); [|apply runs_ret].
    apply (runs_wSTORE e o cn L); [apply Hw; reflexivity|apply fits_getx, W1]. }
  set (M1 := if has mode ASCON_SQUEEZE then _ else _).
  step; [apply runs_branch|]. cbn zeta. fold s2.
  step; [apply runs_branch|]. fold last. fold i'.
  step; [apply runs_branch|].
  step; [apply runs_advance; [lia|auto]|].
  step; [apply runs_advance; [lia|auto]|].
  rewrite sub64_small by lia. apply runs_ret.
Qed.

Lemma div8_fuel n f : 8 <= n -> (N.to_nat (n / 8) < f)%nat ->
  exists f', f = S f' /\ (N.to_nat ((n - 8) / 8) < f')%nat.
Proof.
  intros H Hf. assert (E : n / 8 = (n - 8) / 8 + 1).
  { replace n with ((n - 8) + 1 * 8) at 1 by lia. rewrite N.div_add by lia. reflexivity. }
  destruct f as [|f]; [lia|]. exists f. split; [reflexivity|]. lia.
Qed.

(** Two words make a block of rate 16. *)
Notation rmode mode := (hb && has mode ASCON_HASH = false).
Lemma rate16 mode : rmode mode -> upd_rate hb mode = 16 /\ upd_rounds hb mode = 8.
Proof. intros H. unfold upd_rate, upd_rounds. rewrite H. auto. Qed.

(** ** Associated data *)

Lemma ad2_ok M s tmp ad out B l f : wf s -> length B = 16%nat -> readable M ad (B ++ l) ->
  out + 16 < 2 ^ 64 -> (strict = true -> out <> 0) ->
  (N.to_nat (len (B ++ l) / 8) < f)%nat ->
  exists s' tmp' f', (N.to_nat (len l / 8) < f')%nat /\ wf s' /\ vs s' = p 8 (xor_into (vs s) B) /\
   forall M' v,
   (runs (while f' ucond (update_body e o strict hb ASCON_ABSORB) (s', 0, tmp', ad + 16, out + 16, len l)) M M' v ->
    runs (while f ucond (update_body e o strict hb ASCON_ABSORB) (s, 0, tmp, ad, out, len (B ++ l))) M M' v).
Proof.
  intros Hs HB R Ho Hno Hf. pose proof (readable_bound _ _ _ R) as Hbd.
  assert (Hlen : len (B ++ l) = 16 + len l) by (rewrite len_app, (len_eq B 16 HB); lia).
  destruct (split_len 8 B) as (b0 & b1 & -> & H0 & L0); [unfold len; lia|]. change (N.of_nat 8) with 8 in L0.
  rewrite app_length in HB. assert (H1 : length b1 = 8%nat) by lia.
  assert (R' := R). rewrite <- app_assoc in R'.
  destruct (readable_app _ _ _ _ R') as (R0 & R12). rewrite L0 in R12.
  destruct (readable_app _ _ _ _ R12) as (R1 & _).
  destruct (div8_fuel (len ((b0 ++ b1) ++ l)) f) as (f1 & -> & Hf1); [lia|exact Hf|].
  destruct (div8_fuel (len ((b0 ++ b1) ++ l) - 8) f1) as (f2 & -> & Hf2); [lia|exact Hf1|].
  destruct (rate16 ASCON_ABSORB) as (Er & En); [destruct hb; reflexivity|].
  set (s1 := xorx s 0 (word b0)).
  assert (W1 : wf s1) by (apply (wf_word e o cn L); [exact Hs|lia]).
  assert (W2 : wf (xorx s1 1 (word b1))) by (apply (wf_word e o cn L); [exact W1|lia]).
  pose proof (body_ok M ASCON_ABSORB s 0 tmp ad out (16 + len l) b0 eq_refl R0 H0 ltac:(lia) ltac:(lia) Hs
    ltac:(discriminate) ltac:(lia) Hno) as S1.
  pose proof (body_ok M ASCON_ABSORB s1 1 (word b0) (ad + 8) (out + 8) (16 + len l - 8) b1 eq_refl R1 H1 ltac:(lia) ltac:(lia) W1
    ltac:(discriminate) ltac:(lia) (fun _ => ltac:(lia))) as S2.
  cbn zeta in S1, S2. rewrite Er in S1, S2. rewrite En in S2.
  exists (w_P o 8 (xorx s1 1 (word b1))), (word b1), f2.
  split; [replace (len l) with (len ((b0 ++ b1) ++ l) - 8 - 8) by lia; exact Hf2|].
  split; [apply (wf_wP8 e o cn L), W2|]. split.
  { rewrite (vs_P8 e o cn L) by exact W2. unfold s1. rewrite (vs_block e o cn L) by lia. reflexivity. }
  intros M' v K. rewrite Hlen.
  eapply runs_while_step; [unfold ucond; lia|exact S1|].
  eapply runs_while_step; [unfold ucond; lia|exact S2|].
  replace (16 + len l - 8 - 8) with (len l) by lia.
  replace (ad + 8 + 8) with (ad + 16) by lia. replace (out + 8 + 8) with (out + 16) by lia. exact K.
Qed.

Lemma ad_loop k : forall M s tmp ad out l f, wf s -> readable M ad l -> ad <> 0 ->
  out + len l < 2 ^ 64 -> (strict = true -> out <> 0 \/ len l < 8) ->
  (N.to_nat (len l / 8) < f)%nat -> (N.to_nat (len l / 16) < k)%nat ->
  exists s' tmp' ad' out' r f', (N.to_nat (len r / 8) < f')%nat /\ wf s' /\ (length r < 16)%nat /\
    readable M ad' r /\ ad' <> 0 /\ out' + len r < 2 ^ 64 /\ (strict = true -> out' <> 0 \/ len r < 8) /\
    absorb 8 (vs s) (chunks 16 (pad 16 l)) = absorb 8 (vs s') (chunks 16 (pad 16 r)) /\
    forall M' v,
    runs (while f' ucond (update_body e o strict hb ASCON_ABSORB) (s', 0, tmp', ad', out', len r)) M M' v ->
    runs (while f ucond (update_body e o strict hb ASCON_ABSORB) (s, 0, tmp, ad, out, len l)) M M' v.
Proof.
  induction k as [|k IH]; intros M s tmp ad out l f Hs R Hn0 Ho Hno Hf Hk; [lia|].
  destruct (N.leb_spec 16 (len l)) as [H|H].
  - destruct (split_len 16 l) as (B & l' & -> & HB & LB); [exact H|]. change (N.of_nat 16) with 16 in LB.
    assert (Ll : len (B ++ l') = 16 + len l') by (rewrite len_app; lia).
    destruct (readable_app _ _ _ _ R) as (_ & R'). rewrite LB in R'.
    assert (Hno' : strict = true -> out <> 0) by (intros Hst; specialize (Hno Hst); lia).
    destruct (ad2_ok M s tmp ad out B l' f Hs HB R ltac:(lia) Hno' Hf) as (s1 & tmp1 & f1 & F1 & W1 & V1 & K1).
    destruct (IH M s1 tmp1 (ad + 16) (out + 16) l' f1 W1 R') as
      (s2 & tmp2 & ad2 & out2 & r & f2 & F2 & W2 & Hr & Rr & Hn2 & Ho2 & Hno2 & E2 & K2).
    { lia. }
    { lia. }
    { intros _. lia. }
    { exact F1. }
    { eapply (div16_step k B l'); [lia|exact LB|exact Hk]. }
    exists s2, tmp2, ad2, out2, r, f2. repeat (split; [assumption|]). split.
    + rewrite chunks_pad_full by (auto; lia). rewrite absorb_cons, <- V1. exact E2.
    + intros M' v K. apply K1, K2, K.
  - exists s, tmp, ad, out, l, f. repeat (split; [assumption|]). split; [unfold len in H; lia|].
    repeat (split; [assumption|]). split; [reflexivity|]. auto.
Qed.

(** The code after the loop, in a mode that absorbs. *)
Definition utail (mode : N) (v : state * N * N * ptr * ptr * N) : C state :=
  let '(s, i, tmp, inp, out, len) := v in
  b <- absorbs hb mode ;;
  '(s, tmp) <- (if b : bool then w <- wLOADBYTES e o inp len ;; ret (xorx s i w, w) else ret (s, tmp)) ;;
  b <- branch (has mode ASCON_SQUEEZE) ;;
  (if b : bool then wSTOREBYTES e o out (getx s i) len else ret tt) ;;;
  b <- branch (has mode ASCON_INSERT) ;;
  s <- (if b : bool then x <- wCLEAR o (getx s i) len ;; ret (xorx (setx s i x) i tmp) else ret s) ;;
  pad <- wPAD o len ;;
  ret (xorx s i pad).

Lemma update_split s out inp n mode M M1 M2 v s' :
  runs (while (fuel n 8) ucond (update_body e o strict hb mode) (s, 0, 0, inp, out, n)) M M1 v ->
  runs (utail mode v) M1 M2 s' ->
  runs (ascon_update e o strict hb s out inp n mode) M M2 s'.
Proof.
  intros H1 H2. unfold ascon_update. step; [exact H1|].
  destruct v as [[[[[s1 i] tmp] inp'] out'] l]. exact H2.
Qed.

Lemma utail_ok M mode s i tmp inp out r :
  has mode ASCON_ABSORB = true -> readable M inp r -> (length r < 8)%nat -> inp <> 0 -> wf s ->
  (has mode ASCON_SQUEEZE = true -> writable M out (len r) /\ out <> 0) ->
  let s1 := xorx s i (word r) in
  exists s', runs (utail mode (s, i, tmp, inp, out, len r)) M
      (if has mode ASCON_SQUEEZE then write M out (firstn (length r) (wb (cn (getx s1 i)))) else M) s' /\
    wf s' /\
    cs cn s' = xorx (if has mode ASCON_INSERT
      then setx (cs cn s) i (N.lor (CLEARBYTES (getx (cs cn s) i) (len r)) (le_num r))
      else xorx (cs cn s) i (le_num r)) i (PAD (len r)).
Proof.
  intros Ha R Hr Hin Hs Hw s1.
  assert (W1 : wf s1) by (apply (wf_word e o cn L); [exact Hs|lia]).
  assert (C1 : cs cn s1 = xorx (cs cn s) i (le_num r)) by (apply (cs_word e o cn L); lia).
  assert (F1 : fits 64 (getx s1 i)) by (apply fits_getx, W1).
  destruct (l_clear _ _ _ L (getx s1 i) (len r) F1 (len_lt8 _ Hr)) as [Fc Ec].
  set (s2 := if has mode ASCON_INSERT then xorx (setx s1 i (w_clear o (getx s1 i) (len r))) i (word r) else s1).
  assert (W2 : wf s2).
  { unfold s2. destruct (has mode ASCON_INSERT); [|exact W1].
    apply (wf_word e o cn L); [apply wf_setx; assumption|lia]. }
  set (M1 := if has mode ASCON_SQUEEZE then write M out (firstn (length r) (wb (cn (getx s1 i)))) else M).
  assert (P1 : runs (if has mode ASCON_SQUEEZE then wSTOREBYTES e o out (getx s1 i) (len r) else ret tt) M M1 tt).
  { unfold M1. destruct (has mode ASCON_SQUEEZE); [|apply runs_ret]. destruct (Hw eq_refl) as [Hw1 Hw2].
    rewrite <- to_nat_len. apply (runs_wSTOREBYTES e o cn L); [exact Hw1|apply len_le8; lia|exact Hw2|exact F1]. }
  assert (P2 : runs (if has mode ASCON_INSERT then x <- wCLEAR o (getx s1 i) (len r) ;; ret (xorx (setx s1 i x) i (word r))
    else ret s1) M1 M1 s2).
  { unfold s2. destruct (has mode ASCON_INSERT); [|apply runs_ret].
    step; [apply runs_wCLEAR, len_lt8, Hr|]. apply runs_ret. }
  exists (xorx s2 i (w_pad o (len r))). split; [|split].
  - unfold utail.
    step; [apply runs_absorbs, Ha|]. cbn beta iota.
    step; [step; [apply (runs_wLOADBYTES e o); [exact R|reflexivity|lia|exact Hin]|apply runs_ret]|].
    cbn beta iota. fold s1.
    step; [apply runs_branch|].
    step; [exact P1|].
    step; [apply runs_branch|].
    step; [exact P2|].
    step; [apply runs_wPAD, len_lt8, Hr|]. apply runs_ret.
  - apply (wf_pad e o cn L); [exact W2|apply len_lt8, Hr].
  - rewrite (cs_pad e o cn L) by (apply len_lt8, Hr). apply (f_equal (fun u => xorx u i (PAD (len r)))).
    unfold s2. destruct (has mode ASCON_INSERT); [|exact C1].
    rewrite (cs_word e o cn L), cs_setx, Ec, cn_getx, C1 by lia.
    pose proof (fits_getx _ i (wf_cs e o cn L s)) as G.
    rewrite !xorx_set, !getx_setx, !setx_setx. rewrite dec_word_low by assumption. reflexivity.
Qed.

Lemma low_adata_ok M s ad l : wf s -> readable M ad l -> len l <> 0 -> (strict = true -> len l < 8) ->
  exists s', runs (ascon_update e o strict hb s NULL ad (len l) ASCON_ABSORB) M M s' /\ wf s' /\
    vs (w_P o 8 s') = absorb 8 (vs s) (chunks 16 (pad 16 l)).
Proof.
  intros Hs R Hl Hst. pose proof (readable_bound _ _ _ R) as Hbd.
  assert (Hn : ad <> 0) by (eapply readable_nonnull; eauto).
  destruct (ad_loop (S (N.to_nat (len l / 16))) M s 0 ad NULL l (fuel (len l) 8) Hs R Hn) as
    (s1 & tmp & ad1 & out & r & f & F & W1 & Hr & Rr & Hn1 & Ho & Hno & E & K).
  { unfold NULL. lia. }
  { auto. }
  { unfold fuel. lia. }
  { lia. }
  pose proof (readable_bound _ _ _ Rr) as Hbr.
  rewrite E, absorb_last by (rewrite ?length_vs; lia). clear E.
  destruct (N.leb_spec 8 (len r)) as [H8|H8].
  - destruct (split_len 8 r) as (b0 & b1 & -> & H0 & L0); [lia|]. change (N.of_nat 8) with 8 in L0.
    rewrite app_length in Hr. assert (H1 : (length b1 < 8)%nat) by lia.
    destruct (readable_app _ _ _ _ Rr) as (R0 & R1). rewrite L0 in R1.
    destruct (rate16 ASCON_ABSORB) as (Er & En); [destruct hb; reflexivity|].
    assert (Lr : len (b0 ++ b1) = 8 + len b1) by (rewrite len_app; lia).
    set (s2 := xorx s1 0 (word b0)).
    assert (W2 : wf s2) by (apply (wf_word e o cn L); [exact W1|lia]).
    pose proof (body_ok M ASCON_ABSORB s1 0 tmp ad1 out (len (b0 ++ b1)) b0 eq_refl R0 H0 H8 ltac:(lia) W1
      ltac:(discriminate) ltac:(lia) ltac:(intros Hst0; specialize (Hno Hst0); lia)) as S1.
    cbn zeta in S1. rewrite Er in S1.
    destruct (utail_ok M ASCON_ABSORB s2 1 (word b0) (ad1 + 8) (out + 8) b1 eq_refl R1 H1 ltac:(lia) W2
      ltac:(discriminate)) as (s3 & Rn3 & W3 & E3).
    destruct (div8_fuel _ _ H8 F) as (f1 & -> & Hf1).
    destruct f1 as [|f1]; [lia|].
    exists s3. split; [|split; [exact W3|]].
    + eapply update_split; [apply K|exact Rn3].
      eapply runs_while_step; [unfold ucond; lia|exact S1|].
      rewrite Lr. replace (8 + len b1 - 8) with (len b1) by lia.
      apply runs_while_end. unfold ucond. apply len_lt8 in H1. lia.
    + rewrite (vs_P8 e o cn L) by exact W3. rewrite (vs_last1 e o cn L s1 b0 b1 s3); [reflexivity|exact H0|exact H1|].
      rewrite E3. fold s2. rewrite (cs_pad e o cn L) by (apply len_lt8, H1). rewrite xorx_comm. reflexivity.
  - assert (H1 : (length r < 8)%nat) by (unfold len in H8; lia).
    destruct (utail_ok M ASCON_ABSORB s1 0 tmp ad1 out r eq_refl Rr H1 Hn1 W1 ltac:(discriminate))
      as (s3 & Rn3 & W3 & E3).
    destruct f as [|f]; [lia|].
    exists s3. split; [|split; [exact W3|]].
    + eapply update_split; [apply K|exact Rn3]. apply runs_while_end. unfold ucond. lia.
    + rewrite (vs_P8 e o cn L) by exact W3. rewrite (vs_last0 e o cn L s1 r s3); [reflexivity|exact H1|].
      rewrite E3. rewrite (cs_pad e o cn L) by exact H8. rewrite xorx_comm. reflexivity.
Qed.

(** ** Plaintext *)

Lemma enc2_ok M s tmp m c B l f : wf s -> length B = 16%nat -> readable M m (B ++ l) ->
  writable M c (len (B ++ l)) -> no_overtake c m (len (B ++ l)) ->
  (N.to_nat (len (B ++ l) / 8) < f)%nat ->
  exists s' tmp' f', (N.to_nat (len l / 8) < f')%nat /\ wf s' /\ vs s' = p 8 (xor_into (vs s) B) /\
   forall M' v,
   runs (while f' ucond (update_body e o strict hb ASCON_ENCRYPT) (s', 0, tmp', m + 16, c + 16, len l))
     (write M c (firstn 16 (xor_into (vs s) B))) M' v ->
   runs (while f ucond (update_body e o strict hb ASCON_ENCRYPT) (s, 0, tmp, m, c, len (B ++ l))) M M' v.
Proof.
  intros Hs HB R Wr Hno Hf. pose proof (readable_bound _ _ _ R) as Hbd.
  pose proof (writable_bound _ _ _ Wr) as Hbw.
  assert (Hlen : len (B ++ l) = 16 + len l) by (rewrite len_app, (len_eq B 16 HB); lia).
  assert (Hc0 : c <> 0) by (apply Wr; lia).
  destruct (split_len 8 B) as (b0 & b1 & -> & H0 & L0); [unfold len; lia|]. change (N.of_nat 8) with 8 in L0.
  rewrite app_length in HB. assert (H1 : length b1 = 8%nat) by lia.
  assert (R' := R). rewrite <- app_assoc in R'.
  destruct (readable_app _ _ _ _ R') as (R0 & R12).
  assert (D : disjoint c 8 (m + len b0) (len (b1 ++ l))).
  { apply no_overtake_disjoint; [rewrite <- app_assoc in Hno; exact Hno|lia]. }
  rewrite L0 in R12, D.
  rewrite Hlen in *. assert (Wr2 := Wr). change (16 + len l) with (8 + 8 + len l) in Wr2.
  destruct (writable_split _ _ _ _ Wr2) as (W16 & _).
  destruct (writable_split _ _ _ _ W16) as (Wa & Wb).
  destruct (div8_fuel (16 + len l) f) as (f1 & -> & Hf1); [lia|exact Hf|].
  destruct (div8_fuel (16 + len l - 8) f1) as (f2 & -> & Hf2); [lia|exact Hf1|].
  destruct (rate16 ASCON_ENCRYPT) as (Er & En); [destruct hb; reflexivity|].
  set (s1 := xorx s 0 (word b0)).
  set (s2 := xorx s1 1 (word b1)).
  assert (E2 : vs s2 = xor_into (vs s) (b0 ++ b1)) by (apply (vs_block e o cn L); lia).
  assert (W1 : wf s1) by (apply (wf_word e o cn L); [exact Hs|lia]).
  assert (W2 : wf s2) by (apply (wf_word e o cn L); [exact W1|lia]).
  set (M1 := write M c (wb (cn (X0 s1)))).
  assert (R1 : readable M1 (m + 8) b1).
  { eapply (readable_app _ _ b1 l). apply readable_write_disjoint; [exact R12|]. rewrite len_wb. exact D. }
  pose proof (body_ok M ASCON_ENCRYPT s 0 tmp m c (16 + len l) b0 eq_refl R0 H0 ltac:(lia) ltac:(lia) Hs
    (fun _ => Wa) ltac:(lia) (fun _ => Hc0)) as S1.
  pose proof (body_ok M1 ASCON_ENCRYPT s1 1 (word b0) (m + 8) (c + 8) (16 + len l - 8) b1 eq_refl R1 H1
    ltac:(lia) ltac:(lia) W1 (fun _ => writable_write _ _ _ _ _ Wb) ltac:(lia) (fun _ => ltac:(lia))) as S2.
  cbn zeta in S1, S2. rewrite Er in S1, S2. rewrite En in S2.
  exists (w_P o 8 s2), (word b1), f2.
  split; [replace (len l) with (16 + len l - 8 - 8) by lia; exact Hf2|].
  split; [apply (wf_wP8 e o cn L), W2|]. split.
  { rewrite (vs_P8 e o cn L) by exact W2. rewrite E2. reflexivity. }
  intros M' v K.
  eapply runs_while_step; [unfold ucond; lia|exact S1|].
  eapply runs_while_step; [unfold ucond; lia|exact S2|].
  replace (16 + len l - 8 - 8) with (len l) by lia.
  replace (m + 8 + 8) with (m + 16) by lia. replace (c + 8 + 8) with (c + 16) by lia.
  rewrite <- E2 in K. unfold ComPrim.vs in K. rewrite firstn16_xs in K.
  rewrite write_app, len_wb in K. exact K.
Qed.

Lemma enc_loop k : forall M s tmp m c l f, wf s -> readable M m l -> writable M c (len l) ->
  no_overtake c m (len l) ->
  (N.to_nat (len l / 8) < f)%nat -> (N.to_nat (len l / 16) < k)%nat ->
  exists s' tmp' ct r f', (N.to_nat (len r / 8) < f')%nat /\ wf s' /\ (length r < 16)%nat /\
    length l = (length ct + length r)%nat /\
    readable (write M c ct) (m + len ct) r /\ no_overtake (c + len ct) (m + len ct) (len r) /\
    enc_blocks (vs s) (chunks 16 (pad 16 l)) =
      (let '(S2, c2) := enc_blocks (vs s') (chunks 16 (pad 16 r)) in (S2, ct ++ c2)) /\
    forall M' v,
    runs (while f' ucond (update_body e o strict hb ASCON_ENCRYPT) (s', 0, tmp', m + len ct, c + len ct, len r))
      (write M c ct) M' v ->
    runs (while f ucond (update_body e o strict hb ASCON_ENCRYPT) (s, 0, tmp, m, c, len l)) M M' v.
Proof.
  induction k as [|k IH]; intros M s tmp m c l f Hs R Wr Hno Hf Hk; [lia|].
  destruct (N.leb_spec 16 (len l)) as [H|H].
  - destruct (split_len 16 l) as (B & l' & -> & HB & LB); [exact H|]. change (N.of_nat 16) with 16 in LB.
    destruct (enc2_ok M s tmp m c B l' f Hs HB R Wr Hno Hf) as (s1 & tmp1 & f1 & F1 & W1 & E1 & K1).
    set (cb := firstn 16 (xor_into (vs s) B)) in *.
    assert (Hcb : length cb = 16%nat) by (unfold cb; len; rewrite length_vs; lia).
    assert (Lcb : len cb = 16) by (apply (len_eq cb 16 Hcb)).
    destruct (readable_app _ _ _ _ R) as (_ & R').
    assert (R2 : readable (write M c cb) (m + 16) l').
    { rewrite LB in R'. apply readable_write_disjoint; [exact R'|]. rewrite <- LB.
      apply no_overtake_disjoint; [exact Hno|lia]. }
    rewrite len_app, LB in Wr. destruct (writable_split _ _ _ _ Wr) as (_ & Wr').
    destruct (IH (write M c cb) s1 tmp1 (m + 16) (c + 16) l' f1 W1 R2) as
      (s2 & tmp2 & ct & r & f2 & F2 & W2 & Hr & Hl & Rr & Hno2 & E2 & K2).
    { apply writable_write, Wr'. }
    { rewrite <- LB. apply no_overtake_step, Hno. }
    { exact F1. }
    { eapply (div16_step k B l'); [lia|exact LB|exact Hk]. }
    assert (Ew : write (write M c cb) (c + 16) ct = write M c (cb ++ ct))
      by (rewrite write_app, Lcb; reflexivity).
    rewrite Ew in Rr, K2.
    replace (m + 16 + len ct) with (m + len (cb ++ ct)) in * by (rewrite len_app; lia).
    replace (c + 16 + len ct) with (c + len (cb ++ ct)) in * by (rewrite len_app; lia).
    exists s2, tmp2, (cb ++ ct), r, f2.
    split; [exact F2|split; [exact W2|split; [exact Hr|split; [|split; [exact Rr|split; [exact Hno2|split]]]]]].
    + rewrite !app_length. lia.
    + rewrite chunks_pad_full by (auto; lia).
      rewrite enc_blocks_cons by (apply chunks_pad_not_nil; lia). cbn zeta. rewrite <- E1, E2.
      fold cb. destruct (enc_blocks (vs s2) _) as [S2 c2]. rewrite app_assoc. reflexivity.
    + intros M' v K. apply K1, K2, K.
  - exists s, tmp, [], l, f. rewrite len_nil, !N.add_0_r. cbn [write].
    split; [exact Hf|split; [exact Hs|split; [unfold len in H; lia|split; [reflexivity|split; [exact R|split; [exact Hno|split]]]]]].
    + destruct (enc_blocks _ _); reflexivity.
    + auto.
Qed.

Lemma low_encrypt_data_ok M s c m l : wf s -> readable M m l -> writable M c (len l) ->
  no_overtake c m (len l) -> m <> 0 -> c <> 0 ->
  exists s' cf, enc_blocks (vs s) (chunks 16 (pad 16 l)) = (vs s', cf) /\ wf s' /\
    (length l <= length cf)%nat /\
    runs (ascon_update e o strict hb s c m (len l) ASCON_ENCRYPT) M (write M c (firstn (length l) cf)) s'.
Proof.
  intros Hs R Wr Hno Hm0 Hc0. pose proof (readable_bound _ _ _ R) as Hbd.
  pose proof (writable_bound _ _ _ Wr) as Hbw.
  destruct (enc_loop (S (N.to_nat (len l / 16))) M s 0 m c l (fuel (len l) 8) Hs R Wr Hno) as
    (s1 & tmp & ct & r & f & F & W1 & Hr & Hl & Rr & Hno2 & E1 & K); [unfold fuel; lia|lia|].
  assert (Ll : len l = len ct + len r) by (unfold len; lia).
  rewrite (enc_blocks_last _ r) in E1 by (rewrite ?length_vs; lia).
  assert (Wr' : writable (write M c ct) (c + len ct) (len r)).
  { rewrite Ll in Wr. apply writable_split in Wr. apply writable_write, Wr. }
  set (S2 := xor_at (length r) (xor_into (vs s1) r) [x01]) in *.
  assert (HS2 : length S2 = 40%nat).
  { unfold S2. rewrite length_xor_at; rewrite length_xor_into, length_vs; lia. }
  assert (Hct : firstn (length l) (ct ++ firstn 16 S2) = ct ++ firstn (length r) S2).
  { rewrite Hl, firstn_app, firstn_all2 by lia. f_equal.
    replace (length ct + length r - length ct)%nat with (length r) by lia.
    rewrite firstn_firstn. replace (Nat.min (length r) 16) with (length r) by lia. reflexivity. }
  assert (HfS : firstn (length r) S2 = firstn (length r) (xor_into (vs s1) r)).
  { apply firstn_xor_at; rewrite ?length_xor_into, ?length_vs; lia. }
  set (M1 := write M c ct) in *. set (m1 := m + len ct) in *. set (c1 := c + len ct) in *.
  assert (Hm1 : m1 <> 0) by (unfold m1; lia). assert (Hc1 : c1 <> 0) by (unfold c1; lia).
  assert (X : exists s2, wf s2 /\ vs s2 = S2 /\
    exists M2 v, runs (while f ucond (update_body e o strict hb ASCON_ENCRYPT) (s1, 0, tmp, m1, c1, len r)) M1 M2 v /\
    runs (utail ASCON_ENCRYPT v) M2 (write M1 c1 (firstn (length r) S2)) s2).
  { pose proof (readable_bound _ _ _ Rr) as Hbr. pose proof (writable_bound _ _ _ Wr') as Hbr'.
    rewrite HfS.
    destruct (N.leb_spec 8 (len r)) as [H8|H8].
    - destruct (split_len 8 r) as (b0 & b1 & -> & H0 & L0); [lia|]. change (N.of_nat 8) with 8 in L0.
      rewrite app_length in Hr. assert (H1 : (length b1 < 8)%nat) by lia.
      destruct (readable_app _ _ _ _ Rr) as (R0 & R1).
      pose proof (no_overtake_disjoint _ _ _ _ 8 Hno2 ltac:(lia)) as D.
      rewrite L0 in R1, D.
      assert (Lr : len (b0 ++ b1) = 8 + len b1) by (rewrite len_app; lia).
      rewrite Lr in Wr'. destruct (writable_split _ _ _ _ Wr') as (Wa & Wb).
      destruct (rate16 ASCON_ENCRYPT) as (Er & En); [destruct hb; reflexivity|].
      set (s0 := xorx s1 0 (word b0)).
      assert (W0 : wf s0) by (apply (wf_word e o cn L); [exact W1|lia]).
      pose proof (body_ok M1 ASCON_ENCRYPT s1 0 tmp m1 c1 (len (b0 ++ b1)) b0 eq_refl R0 H0 H8 ltac:(lia) W1
        (fun _ => Wa) ltac:(lia) (fun _ => Hc1)) as S1.
      cbn zeta in S1. rewrite Er in S1.
      set (M2 := write M1 c1 (wb (cn (X0 s0)))).
      assert (R1' : readable M2 (m1 + 8) b1).
      { apply readable_write_disjoint; [exact R1|rewrite len_wb; exact D]. }
      destruct (utail_ok M2 ASCON_ENCRYPT s0 1 (word b0) (m1 + 8) (c1 + 8) b1 eq_refl R1' H1 ltac:(lia) W0)
        as (s3 & Rn3 & W3 & E3).
      { intros _. split; [apply writable_write, Wb|lia]. }
      destruct (div8_fuel _ _ H8 F) as (f1 & -> & Hf1).
      destruct f1 as [|f1]; [lia|].
      exists s3. split; [exact W3|]. split.
      { apply (vs_last1 e o cn L); [exact H0|exact H1|].
        rewrite E3. fold s0. rewrite (cs_pad e o cn L) by (apply len_lt8, H1). rewrite xorx_comm. reflexivity. }
      eexists M2, _. split.
      { eapply runs_while_step; [unfold ucond; lia|exact S1|].
        rewrite Lr. replace (8 + len b1 - 8) with (len b1) by lia.
        apply runs_while_end. unfold ucond. apply len_lt8 in H1. lia. }
      rewrite <- (vs_block e o cn L) by lia. fold s0. rewrite app_length, H0.
      unfold ComPrim.vs. rewrite firstn_xs1 by lia.
      replace (X0 (cs cn (xorx s0 1 (word b1)))) with (cn (X0 s0)) by (destruct s0; reflexivity).
      rewrite write_app, len_wb. exact Rn3.
    - assert (H1 : (length r < 8)%nat) by (unfold len in H8; lia).
      destruct (utail_ok M1 ASCON_ENCRYPT s1 0 tmp m1 c1 r eq_refl Rr H1 Hm1 W1) as (s3 & Rn3 & W3 & E3).
      { intros _. split; [exact Wr'|exact Hc1]. }
      destruct f as [|f]; [lia|].
      exists s3. split; [exact W3|]. split.
      { apply (vs_last0 e o cn L); [exact H1|].
        rewrite E3. rewrite (cs_pad e o cn L) by exact H8. rewrite xorx_comm. reflexivity. }
      eexists M1, _. split.
      { apply runs_while_end. unfold ucond. lia. }
      rewrite <- (vs_word0 e o cn L) by lia.
      unfold ComPrim.vs. rewrite firstn_xs0 by lia. exact Rn3. }
  destruct X as (s2 & W2 & E2 & M2 & v & Rn1 & Rn2).
  exists s2, (ct ++ firstn 16 S2). split; [|split; [exact W2|split]].
  - rewrite E2. exact E1.
  - rewrite app_length, firstn_length. lia.
  - rewrite Hct, write_app. eapply update_split; [apply K; exact Rn1|exact Rn2].
Qed.
End LowAead.
