(** * Opt8Low.v -- opt8_lowsize does what opt8 does.

    Whenever the function of opt8 finishes, that of opt8_lowsize finishes
    with the same result and the same memory.  (The null pointer that the
    common update function steps along is treated as in ModelLow.v:
    [strict] false.) *)
From Coq Require Import Arith Bool NArith ZArith List Lia Init.Byte.
From Coq Require Import ZifyBool ZifyNat ZifyN.
From Verif Require Import Words WordFacts Spec SpecFacts CMem Contract CMemFacts ModelRef
  StateRep RefRound RefPrim RefAead RefAeadDec RefHash ModelCommon ModelWords WordInst ComAead
  ModelOpt8 Opt8Prim Opt8Aead Opt8Hash.
Import ListNotations.
Local Open Scope N_scope.

Lemma runs_bind_inv {A B} (c : C A) (f : A -> C B) M M2 b :
  runs (bind c f) M M2 b -> exists M1 a, runs c M M1 a /\ runs (f a) M1 M2 b.
Proof.
  intros [t H]. unfold bind in H. destruct (c M) as [t1 M1 a|] eqn:E; [|discriminate].
  destruct (f a M1) as [t2 M3 b'|] eqn:E2; [|discriminate]. injection H as _ <- <-.
  exists M1, a. split; eexists; eassumption.
Qed.
Lemma runs_ret_inv {A} (a b : A) M M' : runs (ret a) M M' b -> M' = M /\ b = a.
Proof. intros [t H]. injection H as _ <- <-. auto. Qed.
Lemma runs_branch_inv b c M M' : runs (branch b) M M' c -> M' = M /\ c = b.
Proof. intros [t H]. injection H as _ <- <-. auto. Qed.
Lemma runs_padd_inv p n M M' q : runs (padd p n) M M' q ->
  M' = M /\ q = p + n /\ p + n < 2 ^ 64 /\ (n <> 0 -> p <> 0).
Proof.
  intros [t H]. unfold padd in H. destruct ((p =? 0) && negb (n =? 0)) eqn:E; [discriminate|].
  destruct (N.leb_spec (2 ^ 64) (p + n)); [discriminate|]. injection H as _ <- <-. repeat split; lia.
Qed.

(** A loop follows another loop. *)
Lemma runs_while_sim {S T} (R : S -> T -> Prop) (cs : S -> bool) (ct : T -> bool) (bs : S -> C S) (bt : T -> C T) :
  (forall s t, R s t -> cs s = ct t) ->
  (forall s t M M' s', R s t -> cs s = true -> runs (bs s) M M' s' -> exists t', runs (bt t) M M' t' /\ R s' t') ->
  forall f s t M M' s', R s t -> runs (while f cs bs s) M M' s' ->
    exists t', runs (while f ct bt t) M M' t' /\ R s' t' /\ cs s' = false.
Proof.
  intros HC HB f. induction f as [|f IH]; intros s t M M' s' HR H; [destruct H as [u H]; discriminate|].
  cbn [while] in H. apply runs_bind_inv in H as (M1 & b & H1 & H).
  apply runs_branch_inv in H1 as (-> & ->). cbn [while]. rewrite <- (HC _ _ HR).
  destruct (cs s) eqn:E.
  - apply runs_bind_inv in H as (M2 & s1 & H1 & H2).
    destruct (HB _ _ _ _ _ HR E H1) as (t1 & B1 & R1).
    destruct (IH _ _ _ _ _ R1 H2) as (t2 & B2 & R2 & C2).
    exists t2. split; [|split; [exact R2|exact C2]].
    eapply runs_bind; [apply runs_branch|]. eapply runs_bind; [exact B1|exact B2].
  - apply runs_ret_inv in H as (-> & ->). exists t. split; [|split; [exact HR|exact E]].
    eapply runs_bind; [apply runs_branch|]. apply runs_ret.
Qed.

Ltac step := eapply runs_bind.
Ltac inv1 H :=
  let M1 := fresh "M" in let a := fresh "v" in let H1 := fresh "H" in
  apply runs_bind_inv in H as (M1 & a & H1 & H);
  match type of H1 with
  | runs (branch _) _ _ _ => apply runs_branch_inv in H1 as (-> & ->)
  | runs (padd _ _) _ _ _ => let B := fresh "B" in let Z := fresh "Z" in
      apply runs_padd_inv in H1 as (-> & -> & B & Z)
  | _ => idtac
  end.

Lemma runs_cond_do M M' (b : bool) f s s' : runs (if b then f s else ret s) M M' s' -> runs (cond_do b f s) M M' s'.
Proof. intros H. unfold cond_do. step; [apply runs_branch|]. destruct b; exact H. Qed.
Lemma runs_cond_skip M (b : bool) f s : b = false -> runs (cond_do b f s) M M s.
Proof. intros ->. apply runs_cond_do, runs_ret. Qed.
Lemma runs_cond_go M M' (b : bool) f s s' : b = true -> runs (f s) M M' s' -> runs (cond_do b f s) M M' s'.
Proof. intros -> H. apply runs_cond_do, H. Qed.
Lemma runs_ifdef_skip M d b f s : b = false -> runs (ifdef d (cond_do b f) s) M M s.
Proof. intros H. unfold ifdef. destruct d; [apply runs_cond_skip, H|apply runs_ret]. Qed.

Lemma runs_o8_advance M q n : q + n < 2 ^ 64 -> runs (o8_advance false q n) M M (q + n).
Proof.
  intros H. unfold o8_advance. destruct (N.eqb_spec q 0) as [->|E]; [apply runs_ret|].
  apply runs_padd; [exact H|auto].
Qed.

Section Opt8Low.
Variable P : N -> bytes -> bytes.
Variable hr : bool.

Lemma rate_aead mode : N.land mode 8 = 0 -> o8_rate true hr mode = 16 /\ o8_nr true hr mode = 8.
Proof. intros H. unfold o8_rate, o8_nr. rewrite H. destruct hr; split; reflexivity. Qed.

Ltac skip := step; [first [apply runs_cond_skip; reflexivity | apply runs_ifdef_skip; reflexivity]|].

Lemma perm_step M mode s n : (mode =? 10) = false -> o8_nr true hr mode = 8 ->
  runs (if hr then cond_do (negb ((mode =? 10) && (n =? o8_rate true hr mode)))
                     (fun s => ret (P (o8_nr true hr mode) s)) s
        else ret (P (o8_nr true hr mode) s)) M M (P 8 s).
Proof.
  intros Hm ->. rewrite Hm. cbn [andb negb]. destruct hr; [|apply runs_ret].
  apply runs_cond_go; [reflexivity|apply runs_ret].
Qed.

(** ** Associated data *)
Definition ad_rel (v : bytes * ptr * N) (w : bytes * ptr * ptr * N) : Prop :=
  let '(s, ad, n) := v in let '(s', c, m, n') := w in
  s = s' /\ ad = m /\ n = n' /\ n < 2 ^ 64 /\ c + n < 2 ^ 64.

Lemma ad_body_sim v w M M' v' : ad_rel v w -> 16 <= snd v -> runs (o8_ad_body P v) M M' v' ->
  exists w', runs (o8_update_body P true hr false 1 w) M M' w' /\ ad_rel v' w'.
Proof.
  destruct v as [[s ad] n], w as [[[s' c] m] n']. intros (<- & <- & <- & Hn & Hc) H16 H. cbn [snd] in H16.
  destruct (rate_aead 1 eq_refl) as [Er En].
  unfold o8_ad_body in H. inv1 H. inv1 H. inv1 H. inv1 H. apply runs_ret_inv in H as (-> & ->).
  eexists (P 8 _, c + 16, ad + 16, sub64 n 16). split.
  - unfold o8_update_body.
    step; [apply runs_cond_go; [reflexivity|eassumption]|]. do 3 skip.
    step; [apply runs_cond_go; [reflexivity|]; step; [apply runs_padd; assumption|eassumption]|]. do 2 skip.
    step; [apply perm_step; [reflexivity|exact En]|]. rewrite Er.
    step; [apply runs_o8_advance; assumption|]. step; [apply runs_o8_advance; lia|]. apply runs_ret.
  - cbn [ad_rel]. rewrite sub64_small by lia. repeat split; lia.
Qed.

Definition ad_cond : bytes * ptr * N -> bool := fun '(_, _, n) => 16 <=? n.
Definition up_cond : bytes * ptr * ptr * N -> bool := fun '(_, _, _, n) => 16 <=? n.

Lemma low_ad_sim M M' s ad n s' : n < 2 ^ 64 -> n <> 0 -> runs (o8_adata P s ad n) M M' s' ->
  exists s1 M1, runs (o8_update P true hr false s NULL ad n 1) M M1 s1 /\
    runs (xorb8 (P 8 s1) 4 7 x80) M1 M' s'.
Proof.
  intros Hn H0 H. unfold o8_adata in H. inv1 H. replace (negb (n =? 0)) with true in H by lia.
  apply runs_bind_inv in H as (M1 & s2 & H & Hx).
  apply runs_bind_inv in H as (M2 & [[s3 ad3] n3] & Hw & H).
  destruct (runs_while_sim ad_rel ad_cond up_cond (o8_ad_body P) (o8_update_body P true hr false 1)) with
    (f := fuel n 16) (s := (s, ad, n)) (t := (s, NULL, ad, n)) (M := M) (M' := M2) (s' := (s3, ad3, n3))
    as ([[[s4 c4] m4] n4] & Rn & Rel & Cf).
  { intros [[a b] c] [[[a' b'] c'] d'] (_ & _ & -> & _). reflexivity. }
  { intros v w Ma Mb v' Hr Hc. apply ad_body_sim; [exact Hr|]. destruct v as [[? ?] ?]. cbn in Hc |- *. lia. }
  { cbn [ad_rel]. unfold NULL. repeat split; lia. }
  { exact Hw. }
  destruct Rel as (<- & <- & <- & Hn3 & Hc3). cbn [ad_cond] in Cf.
  inv1 H.
  assert (T : exists s1, runs (o8_update P true hr false s NULL ad n 1) M M1 s1 /\ s2 = P 8 s1).
  { unfold o8_update. destruct (rate_aead 1 eq_refl) as [Er En]. rewrite Er.
    destruct (N.leb_spec 8 n3) as [H8|H8].
    - apply runs_bind_inv in H as (M3 & [[[s5 i5] a5] n5] & Hq & H).
      inv1 Hq. inv1 Hq. apply runs_ret_inv in Hq as (-> & E). injection E as -> -> -> ->.
      inv1 H. inv1 H. apply runs_ret_inv in H as (-> & ->). eexists. split; [|reflexivity].
      step; [exact Rn|]. cbn beta iota.
      step.
      { step; [apply runs_branch|]. replace (8 <=? n3) with true by lia.
        step; [apply runs_cond_go; [reflexivity|eassumption]|]. do 2 skip.
        step; [apply runs_o8_advance; eassumption|]. step; [apply runs_o8_advance; lia|]. apply runs_ret. }
      do 2 skip. step; [apply runs_cond_go; [reflexivity|eassumption]|]. skip. assumption.
    - apply runs_bind_inv in H as (M3 & [[[s5 i5] a5] n5] & Hq & H).
      apply runs_ret_inv in Hq as (-> & E). injection E as -> -> -> ->.
      inv1 H. inv1 H. apply runs_ret_inv in H as (-> & ->). eexists. split; [|reflexivity].
      step; [exact Rn|]. cbn beta iota.
      step.
      { step; [apply runs_branch|]. replace (8 <=? n3) with false by lia. apply runs_ret. }
      do 2 skip. step; [apply runs_cond_go; [reflexivity|eassumption]|]. skip. assumption. }
  destruct T as (s1 & T & ->). exists s1, M1. auto.
Qed.

(** ** Encryption and decryption *)
Definition x_rel (v w : bytes * ptr * ptr * N) : Prop :=
  let '(s, m, c, n) := v in let '(s', c', m', n') := w in s = s' /\ m = m' /\ c = c' /\ n = n'.

Lemma enc_body_sim v w M M' v' : x_rel v w -> runs (o8_enc_body P v) M M' v' ->
  exists w', runs (o8_update_body P true hr false 3 w) M M' w' /\ x_rel v' w'.
Proof.
  destruct v as [[[s m] c] n], w as [[[s' c'] m'] n']. intros (<- & <- & <- & <-) H.
  destruct (rate_aead 3 eq_refl) as [Er En].
  unfold o8_enc_body in H. inv1 H. inv1 H. inv1 H. inv1 H. inv1 H. inv1 H. apply runs_ret_inv in H as (-> & ->).
  eexists (P 8 _, c + 16, m + 16, sub64 n 16). split; [|cbn [x_rel]; repeat split].
  unfold o8_update_body. do 2 skip.
  step; [apply runs_cond_go; [reflexivity|eassumption]|]. do 2 skip.
  step; [apply runs_cond_go; [reflexivity|];
    step; [apply runs_padd; assumption|]; step; [apply runs_padd; assumption|eassumption]|]. skip.
  step; [apply perm_step; [reflexivity|exact En]|]. rewrite Er.
  step; [apply runs_o8_advance; assumption|]. step; [apply runs_o8_advance; assumption|]. apply runs_ret.
Qed.
Lemma dec_body_sim v w M M' v' : x_rel v w -> runs (o8_dec_body P v) M M' v' ->
  exists w', runs (o8_update_body P true hr false 7 (let '(s, c, m, n) := w in (s, m, c, n))) M M' w' /\
    x_rel v' (let '(s, c, m, n) := w' in (s, m, c, n)).
Proof.
  destruct v as [[[s m] c] n], w as [[[s' c'] m'] n']. intros (<- & <- & <- & <-) H.
  destruct (rate_aead 7 eq_refl) as [Er En].
  unfold o8_dec_body in H. inv1 H. inv1 H. inv1 H. inv1 H. inv1 H. inv1 H. apply runs_ret_inv in H as (-> & ->).
  eexists (P 8 _, m + 16, c + 16, sub64 n 16). split; [|cbn [x_rel]; repeat split].
  unfold o8_update_body. do 3 skip.
  step; [apply runs_cond_go; [reflexivity|eassumption]|]. do 2 skip.
  step; [apply runs_cond_go; [reflexivity|];
    step; [apply runs_padd; assumption|]; step; [apply runs_padd; assumption|eassumption]|].
  step; [apply perm_step; [reflexivity|exact En]|]. rewrite Er.
  step; [apply runs_o8_advance; assumption|]. step; [apply runs_o8_advance; assumption|]. apply runs_ret.
Qed.

Lemma low_enc_sim M M' s c m n s' : runs (o8_encrypt P s c m n) M M' s' ->
  runs (o8_update P true hr false s c m n 3) M M' s'.
Proof.
  intros H. unfold o8_encrypt in H.
  apply runs_bind_inv in H as (M2 & [[[s3 m3] c3] n3] & Hw & H).
  destruct (runs_while_sim x_rel up_cond up_cond (o8_enc_body P) (o8_update_body P true hr false 3)) with
    (f := fuel n 16) (s := (s, m, c, n)) (t := (s, c, m, n)) (M := M) (M' := M2) (s' := (s3, m3, c3, n3))
    as ([[[s4 c4] m4] n4] & Rn & Rel & Cf).
  { intros [[[a b] c0] d] [[[a' b'] c'] d'] (_ & _ & _ & ->). reflexivity. }
  { intros v w Ma Mb v' Hr _. apply enc_body_sim, Hr. }
  { cbn [x_rel]. repeat split. }
  { exact Hw. }
  destruct Rel as (<- & <- & <- & <-).
  inv1 H. unfold o8_update. destruct (rate_aead 3 eq_refl) as [Er En]. rewrite Er.
  apply runs_bind_inv in H as (M3 & [[[[s5 i5] m5] c5] n5] & Hq & H).
  step; [exact Rn|]. cbn beta iota. inv1 H.
  destruct (N.leb_spec 8 n3) as [H8|H8].
  - inv1 Hq. inv1 Hq. inv1 Hq. apply runs_ret_inv in Hq as (-> & E). injection E as -> -> -> -> ->.
    step.
    { step; [apply runs_branch|]. replace (8 <=? n3) with true by lia.
      skip. step; [apply runs_cond_go; [reflexivity|eassumption]|]. skip.
      step; [apply runs_o8_advance; assumption|]. step; [apply runs_o8_advance; assumption|]. apply runs_ret. }
    step; [apply runs_cond_go; [reflexivity|eassumption]|]. do 3 skip. assumption.
  - apply runs_ret_inv in Hq as (-> & E). injection E as -> -> -> -> ->.
    step.
    { step; [apply runs_branch|]. replace (8 <=? n3) with false by lia. apply runs_ret. }
    step; [apply runs_cond_go; [reflexivity|eassumption]|]. do 3 skip. assumption.
Qed.

Definition y_rel (v w : bytes * ptr * ptr * N) : Prop := v = w.
Lemma low_dec_sim M M' s c m n s' : runs (o8_decrypt P s m c n) M M' s' ->
  runs (o8_update P true hr false s m c n 7) M M' s'.
Proof.
  intros H. unfold o8_decrypt in H.
  apply runs_bind_inv in H as (M2 & [[[s3 m3] c3] n3] & Hw & H).
  destruct (runs_while_sim y_rel up_cond up_cond (o8_dec_body P) (o8_update_body P true hr false 7)) with
    (f := fuel n 16) (s := (s, m, c, n)) (t := (s, m, c, n)) (M := M) (M' := M2) (s' := (s3, m3, c3, n3))
    as ([[[s4 c4] m4] n4] & Rn & Rel & Cf).
  { intros v w ->. reflexivity. }
  { intros [[[a b] c0] d] w Ma Mb v' <- _ Hb.
    destruct (dec_body_sim (a, b, c0, d) (a, c0, b, d) Ma Mb v') as ([[[a2 b2] c2] d2] & B1 & B2).
    { cbn [x_rel]. repeat split. }
    { exact Hb. }
    destruct v' as [[[a1 b1] c1] d1]. cbn [x_rel] in B2. destruct B2 as (-> & -> & -> & ->).
    eexists. split; [exact B1|reflexivity]. }
  { reflexivity. }
  { exact Hw. }
  unfold y_rel in Rel. injection Rel as <- <- <- <-.
  inv1 H. unfold o8_update. destruct (rate_aead 7 eq_refl) as [Er En]. rewrite Er.
  apply runs_bind_inv in H as (M3 & [[[[s5 i5] m5] c5] n5] & Hq & H).
  step; [exact Rn|]. cbn beta iota. inv1 H.
  destruct (N.leb_spec 8 n3) as [H8|H8].
  - inv1 Hq. inv1 Hq. inv1 Hq. apply runs_ret_inv in Hq as (-> & E). injection E as -> -> -> -> ->.
    step.
    { step; [apply runs_branch|]. replace (8 <=? n3) with true by lia.
      do 2 skip. step; [apply runs_cond_go; [reflexivity|eassumption]|].
      step; [apply runs_o8_advance; assumption|]. step; [apply runs_o8_advance; assumption|]. apply runs_ret. }
    skip. step; [apply runs_cond_go; [reflexivity|eassumption]|]. do 2 skip. assumption.
  - apply runs_ret_inv in Hq as (-> & E). injection E as -> -> -> -> ->.
    step.
    { step; [apply runs_branch|]. replace (8 <=? n3) with false by lia. apply runs_ret. }
    skip. step; [apply runs_cond_go; [reflexivity|eassumption]|]. do 2 skip. assumption.
Qed.

Lemma low_start_sim e M M' k npub ad adlen (cont : bytes -> bytes -> C Z) (cont' : bytes * bytes -> C Z) v :
  adlen < 2 ^ 64 ->
  (forall s key M1, runs (cont s key) M1 M' v -> runs (cont' (s, key)) M1 M' v) ->
  runs (key <- o8_loadkey k ;; s <- o8_initaead e P key npub ;; s <- o8_adata P s ad adlen ;; cont s key) M M' v ->
  runs (sk <- o8_low_start e P true hr false ad adlen npub k ;; cont' sk) M M' v.
Proof.
  intros Hn HC H. inv1 H. inv1 H. apply runs_bind_inv in H as (M3 & s3 & Ha & H).
  step; [|apply HC, H]. unfold o8_low_start. step; [exact H0|]. step; [exact H1|].
  step; [apply runs_branch|]. destruct (N.eqb_spec adlen 0) as [->|E]; cbn [negb].
  - unfold o8_adata in Ha. inv1 Ha. cbn [N.eqb negb] in Ha. inv1 Ha. apply runs_ret_inv in H2 as (-> & ->).
    step; [apply runs_ret|]. step; [exact Ha|]. apply runs_ret.
  - destruct (low_ad_sim _ _ _ _ _ _ Hn E Ha) as (s4 & M4 & U & X).
    step; [step; [exact U|apply runs_ret]|]. step; [exact X|]. apply runs_ret.
Qed.

Theorem low_encrypt_sim e M M' c clen m mlen ad adlen nsec npub k v : adlen < 2 ^ 64 ->
  runs (o8_aead_encrypt e P c clen m mlen ad adlen nsec npub k) M M' v ->
  runs (o8_low_aead_encrypt e P true hr false c clen m mlen ad adlen nsec npub k) M M' v.
Proof.
  intros Hn H. unfold o8_aead_encrypt in H. inv1 H. inv1 H. unfold o8_low_aead_encrypt.
  step; [exact H0|]. step; [apply runs_padd; assumption|].
  eapply low_start_sim; [exact Hn| |exact H]. intros s key Mx Hx. cbn beta iota.
  inv1 Hx. step; [apply low_enc_sim; eassumption|exact Hx].
Qed.
Theorem low_decrypt_sim e M M' m mlen nsec c clen ad adlen npub k v : adlen < 2 ^ 64 ->
  runs (o8_aead_decrypt e P m mlen nsec c clen ad adlen npub k) M M' v ->
  runs (o8_low_aead_decrypt e P true hr false m mlen nsec c clen ad adlen npub k) M M' v.
Proof.
  intros Hn H. unfold o8_aead_decrypt in H. inv1 H. unfold o8_low_aead_decrypt.
  step; [apply runs_branch|]. destruct (clen <? CRYPTO_ABYTES); [exact H|].
  inv1 H. step; [exact H0|]. inv1 H. step; [exact H1|].
  inv1 H. step; [apply runs_padd; assumption|]. inv1 H. step; [eassumption|].
  eapply low_start_sim; [exact Hn| |exact H]. intros s key Mx Hx. cbn beta iota.
  inv1 Hx. step; [apply low_dec_sim; eassumption|exact Hx].
Qed.
End Opt8Low.

(** ** Hashing *)
Section Opt8LowHash.
Variable P : N -> bytes -> bytes.
Hypothesis HP : conforming P.
Variable ar : bool.

Lemma rate_hash mode : N.land mode 8 <> 0 -> o8_rate ar true mode = 8 /\ o8_nr ar true mode = 12.
Proof.
  intros H. unfold o8_rate, o8_nr. replace (negb (N.land mode 8 =? 0)) with true by lia.
  destruct ar; split; reflexivity.
Qed.
Ltac skip := step; [first [apply runs_cond_skip; reflexivity | apply runs_ifdef_skip; reflexivity]|].

Definition h_rel (v : bytes * ptr * N) (w : bytes * ptr * ptr * N) : Prop :=
  let '(s, inp, n) := v in let '(s', c, m, n') := w in
  s = s' /\ inp = m /\ n = n' /\ n < 2 ^ 64 /\ c + n < 2 ^ 64.
Definition hcond : bytes * ptr * N -> bool := fun '(_, _, n) => 8 <=? n.
Definition hucond : bytes * ptr * ptr * N -> bool := fun '(_, _, _, n) => 8 <=? n.

Lemma absorb_body_sim v w M M' v' : h_rel v w -> 8 <= snd v -> runs (o8_absorb_body P v) M M' v' ->
  exists w', runs (o8_update_body P ar true false 9 w) M M' w' /\ h_rel v' w'.
Proof.
  destruct v as [[s inp] n], w as [[[s' c] m] n']. intros (<- & <- & <- & Hn & Hc) H8 H. cbn [snd] in H8.
  assert (H9 : N.land 9 8 <> 0) by discriminate.
  destruct (rate_hash 9 H9) as [Er En].
  unfold o8_absorb_body in H. inv1 H. inv1 H. apply runs_ret_inv in H as (-> & ->).
  eexists (P 12 _, c + 8, inp + 8, sub64 n 8). split.
  - unfold o8_update_body.
    step; [apply runs_cond_go; [reflexivity|eassumption]|]. do 6 skip. cbn [N.eqb Pos.eqb andb negb].
    step; [apply runs_cond_go; [reflexivity|apply runs_ret]|]. rewrite Er, En.
    step; [apply runs_o8_advance; assumption|]. step; [apply runs_o8_advance; lia|]. apply runs_ret.
  - cbn [h_rel]. rewrite sub64_small by lia. repeat split; lia.
Qed.

Lemma low_absorb_sim M M' s inp n s' : n < 2 ^ 64 -> runs (o8_absorb P opt8_hpad s inp n) M M' s' ->
  runs (o8_update P ar true false s NULL inp n 9) M M' s'.
Proof.
  intros Hn H. unfold o8_absorb in H.
  apply runs_bind_inv in H as (M2 & [[s3 in3] n3] & Hw & H).
  destruct (runs_while_sim h_rel hcond hucond (o8_absorb_body P) (o8_update_body P ar true false 9)) with
    (f := fuel n 8) (s := (s, inp, n)) (t := (s, NULL, inp, n)) (M := M) (M' := M2) (s' := (s3, in3, n3))
    as ([[[s4 c4] m4] n4] & Rn & Rel & Cf).
  { intros [[a b] c] [[[a' b'] c'] d'] (_ & _ & -> & _). reflexivity. }
  { intros v w Ma Mb v' Hr Hc. apply absorb_body_sim; [exact Hr|]. destruct v as [[? ?] ?]. cbn in Hc |- *. lia. }
  { cbn [h_rel]. unfold NULL. repeat split; lia. }
  { exact Hw. }
  destruct Rel as (<- & <- & <- & Hn3 & Hc3). cbn [hcond] in Cf. inv1 H.
  assert (H9 : N.land 9 8 <> 0) by discriminate.
  unfold o8_update. destruct (rate_hash 9 H9) as [Er En]. rewrite Er.
  step; [exact Rn|]. cbn beta iota.
  step.
  { instantiate (1 := (s3, 0, c4, in3, n3)). instantiate (1 := M2). destruct ar; [|apply runs_ret].
    step; [apply runs_branch|]. rewrite Cf. apply runs_ret. }
  cbn beta iota. do 2 skip. step; [apply runs_cond_go; [reflexivity|eassumption]|]. skip. exact H.
Qed.

(** Squeezing: the last block is not followed by a permutation call. *)
Lemma low_squeeze_while f : forall M s c m n, length s = 40%nat -> writable M c n -> m + n < 2 ^ 64 ->
  (N.to_nat (n / 8) < f)%nat ->
  exists s' os r m', runs (while f hucond (o8_update_body P ar true false 10) (s, c, m, n)) M (write M c os)
      (s', c + len os, m', r) /\
    length s' = 40%nat /\ r < 8 /\ n = len os + r /\
    squeeze (N.to_nat n) 8 12 s = os ++ firstn (N.to_nat r) s'.
Proof.
  assert (H9 : N.land 10 8 <> 0) by discriminate.
  destruct (rate_hash 10 H9) as [Er En].
  induction f as [|f IH]; intros M s c m n Hs W Hm Hf; [lia|].
  pose proof (writable_bound _ _ _ W) as Hbd.
  destruct (N.leb_spec 8 n) as [H|H].
  - assert (W' := W). replace n with (8 + (n - 8)) in W' by lia.
    destruct (writable_split _ _ _ _ W') as (W8 & Wr).
    set (b := firstn 8 s).
    assert (Lb : len b = 8) by (unfold len, b; rewrite firstn_length, Hs; reflexivity).
    set (s1 := if n =? 8 then s else p 12 s).
    assert (Hs1 : length s1 = 40%nat) by (unfold s1; destruct (n =? 8); [exact Hs|apply length_p]).
    destruct (IH (write M c b) s1 (c + 8) (m + 8) (n - 8)) as
      (s2 & os & r & m2 & Rn2 & W2 & Hr & Hn & E2).
    { exact Hs1. }
    { apply writable_write, Wr. }
    { lia. }
    { assert (E : n / 8 = (n - 8) / 8 + 1).
      { replace n with ((n - 8) + 1 * 8) at 1 by lia. rewrite N.div_add by lia. reflexivity. }
      lia. }
    assert (Ew : write (write M c b) (c + 8) os = write M c (b ++ os))
      by (rewrite write_app, Lb; reflexivity).
    rewrite Ew in Rn2.
    replace (c + 8 + len os) with (c + len (b ++ os)) in Rn2 by (rewrite len_app, Lb; lia).
    exists s2, (b ++ os), r, m2. split; [|split; [exact W2|split; [exact Hr|split]]].
    + eapply runs_while_step; [unfold hucond; lia| |exact Rn2].
      unfold o8_update_body. skip.
      step.
      { apply runs_cond_go; [reflexivity|].
        step; [apply (squeeze_ok M s 0 c 8); [exact W8|change (N.to_nat 0) with 0%nat; change (N.to_nat 8) with 8%nat; lia]|].
        apply runs_ret. }
      do 5 skip. rewrite Er, En. change (10 =? 10) with true. cbn [andb].
      assert (PS : forall Mx, runs (cond_do (negb (n =? 8)) (fun s => ret (P 12 s)) s) Mx Mx s1).
      { intros Mx. apply runs_cond_do. unfold s1. destruct (n =? 8); cbn [negb]; [apply runs_ret|].
        rewrite (P12_ok P HP) by exact Hs. apply runs_ret. }
      step; [apply PS|].
      step; [apply runs_o8_advance; lia|]. step; [apply runs_o8_advance; lia|].
      rewrite sub64_small by lia. apply runs_ret.
    + rewrite len_app, Lb. lia.
    + destruct (N.eqb_spec n 8) as [E8|E8].
      * assert (Z : len os = 0 /\ r = 0) by lia. destruct Z as [Zo Zr]. apply len_0 in Zo. subst os r n.
        change (N.to_nat 8) with 8%nat. change (N.to_nat 0) with 0%nat.
        rewrite squeeze_last by lia. rewrite app_nil_r. cbn [firstn]. rewrite app_nil_r. reflexivity.
      * replace (N.to_nat n) with (8 + N.to_nat (n - 8))%nat by lia.
        rewrite squeeze_more by lia. unfold s1 in E2. rewrite E2, app_assoc. reflexivity.
  - exists s, [], n, m. rewrite len_nil, N.add_0_r. cbn [write app].
    split; [|split; [exact Hs|split; [exact H|split; [lia|]]]].
    + apply runs_while_end. unfold hucond. lia.
    + rewrite squeeze_last by lia. reflexivity.
Qed.

Lemma low_squeeze_ok M s out n : length s = 40%nat -> writable M out n -> n < 2 ^ 64 ->
  exists s', runs (o8_update P ar true false s out NULL n 10) M (write M out (squeeze (N.to_nat n) 8 12 s)) s'.
Proof.
  intros Hs W Hn.
  destruct (low_squeeze_while (fuel n 8) M s out NULL n Hs W) as (s1 & os & r & m1 & Rn & W1 & Hr & Hl & E).
  { unfold NULL. lia. }
  { unfold fuel. lia. }
  assert (H9 : N.land 10 8 <> 0) by discriminate.
  unfold o8_update. destruct (rate_hash 10 H9) as [Er En]. rewrite Er.
  eexists. step; [exact Rn|]. cbn beta iota.
  step.
  { instantiate (1 := (s1, 0, out + len os, m1, r)). instantiate (1 := write M out os).
    destruct ar; [|apply runs_ret].
    step; [apply runs_branch|]. replace (8 <=? r) with false by lia. apply runs_ret. }
  cbn beta iota. do 3 skip.
  rewrite E, write_app. rewrite Hl in W. destruct (writable_split _ _ _ _ W) as (_ & Wr).
  step.
  { apply runs_cond_go; [reflexivity|].
    step; [apply (squeeze_ok (write M out os) s1 0 (out + len os) r); [apply writable_write, Wr|change (N.to_nat 0) with 0%nat; lia]|].
    apply runs_ret. }
  exact (xorb8_ok _ s1 0 r x01 eq_refl Hr W1).
Qed.

Lemma o8_low_xof_ok iv IV n M out inp l : xs iv = hash_init IV ->
  readable M inp l -> writable M out n -> n < 2 ^ 64 ->
  runs (o8_low_xof LE P ar true false iv out n inp (len l)) M
    (write M out (hash_sponge (hash_init IV) l (N.to_nat n))) 0%Z.
Proof.
  intros E0 R W Hn. unfold o8_low_xof. rewrite o8_words_LE, E0.
  pose proof (readable_bound _ _ _ R) as Hbd.
  destruct (habsorb_ok P HP opt8_hpad (pad 8) opt8_pads8 M (hash_init IV) inp l (length_p _ _) R) as (s1 & Rn & W1 & E1).
  change (N.lor 8 1) with 9. change (N.lor 8 2) with 10.
  step; [apply low_absorb_sim; [lia|exact Rn]|]. cbn zeta. rewrite (P12_ok P HP) by exact W1.
  destruct (low_squeeze_ok M (p 12 s1) out n (length_p _ _) W Hn) as (s2 & Rn2).
  step; [exact Rn2|]. rewrite E1. apply runs_ret.
Qed.
End Opt8LowHash.
