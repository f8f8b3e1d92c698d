(** * RefPrfs.v -- the reference PRFshort refines the specification. *)
From Coq Require Import Arith Bool NArith ZArith List Lia Init.Byte Strings.Byte.
From Coq Require Import ZifyBool ZifyNat ZifyN.
From Verif Require Import Words WordFacts Spec SpecFacts CMem Contract CMemFacts ModelRef
  StateRep RefRound RefPrim RefAead RefAeadDec RefHash RefPrf.
Import ListNotations.
Local Open Scope N_scope.

Definition prfs_iv (n : N) : N := N.lor ASCON_PRFS_IV (shlw 64 (trunc 64 (n * 8)) 48).

Lemma forall_below (P : nat -> bool) n : forallb P (seq 0 n) = true -> forall k, (k < n)%nat -> P k = true.
Proof. intros H k Hk. rewrite forallb_forall in H. apply H, in_seq. lia. Qed.

Lemma prfs_iv_ok n : (n <= 16)%nat -> wb (prfs_iv (N.of_nat n)) = iv_prfs n /\ fits 64 (prfs_iv (N.of_nat n)).
Proof.
  intros H.
  pose (P := fun n => (if list_eq_dec Byte.byte_eq_dec (wb (prfs_iv (N.of_nat n))) (iv_prfs n) then true else false)
     && (prfs_iv (N.of_nat n) <? 2 ^ 64)).
  assert (E : P n = true).
  { apply (forall_below P 17); [vm_compute; reflexivity|lia]. }
  unfold P in E. apply andb_prop in E. destruct E as (E1 & E2). split.
  - destruct (list_eq_dec _ _ _) in E1; [assumption|discriminate].
  - unfold fits. lia.
Qed.

(** A message of at most 16 bytes in words 3 and 4. *)
Lemma prfs_load M inp l iv k0 k1 : readable M inp l -> (length l <= 16)%nat ->
  fits 64 iv -> length k0 = 8%nat -> length k1 = 8%nat ->
  let s := St iv (le_num k0) (le_num k1) 0 0 in
  exists s', wf s' /\ xs s' = wb iv ++ (k0 ++ k1) ++ l ++ zeros (16 - length l) /\
  runs (b <- branch (8 <? len l) ;;
  (if b : bool then
    w3 <- LOADBYTES inp 8 ;;
    in8 <- padd inp 8 ;; w4 <- LOADBYTES in8 (sub64 (len l) 8) ;;
    ret (St (X0 s) (X1 s) (X2 s) w3 w4)
  else
    b <- branch (negb (len l =? 0)) ;;
    if b : bool then
      w3 <- LOADBYTES inp (len l) ;;
      ret (St (X0 s) (X1 s) (X2 s) w3 (X4 s))
    else ret s)) M M s'.
Proof.
  intros R Hl Hiv H0 H1 s. pose proof (readable_bound _ _ _ R) as Hbd.
  destruct (N.ltb_spec 8 (len l)) as [H|H].
  - destruct (split_len 8 l) as (b0 & b1 & -> & Hb0 & Lb0); [lia|]. change (N.of_nat 8) with 8 in Lb0.
    rewrite app_length in Hl.
    destruct (readable_app _ _ _ _ R) as (R0 & R1). rewrite Lb0 in R1.
    exists (St iv (le_num k0) (le_num k1) (le_num b0) (le_num b1)). split; [|split].
    + split; [exact Hiv|]. repeat split; apply fits_le_num8; lia.
    + rewrite xs_St, !wb_le_num8 by lia. rewrite wb_le_num by lia.
      rewrite app_length, <- !app_assoc. do 6 f_equal. lia.
    + eapply runs_bind; [apply runs_branch|]. cbn beta iota.
      eapply runs_bind; [apply runs_LOADBYTES with (l := b0); [exact R0|lia|lia]|].
      eapply runs_bind; [eapply runs_padd_readable; [exact R|lia]|].
      rewrite sub64_small by lia. replace (len (b0 ++ b1) - 8) with (len b1) by (rewrite len_app; lia).
      eapply runs_bind; [apply runs_LOADBYTES with (l := b1); [exact R1|reflexivity|lia]|].
      apply runs_ret.
  - assert (Hl8 : (length l <= 8)%nat) by (unfold len in H; lia).
    exists (St iv (le_num k0) (le_num k1) (le_num l) 0). split; [|split].
    + split; [exact Hiv|]. repeat split; try apply fits_0; apply fits_le_num8; lia.
    + rewrite xs_St, !wb_le_num8 by lia. rewrite wb_le_num by lia.
      change (wb 0) with (zeros 8). rewrite <- !app_assoc. do 4 f_equal.
      unfold zeros. rewrite <- repeat_app. f_equal. lia.
    + eapply runs_bind; [apply runs_branch|]. cbn beta iota.
      eapply runs_bind; [apply runs_branch|].
      destruct (N.eqb_spec (len l) 0) as [E|E]; cbn [negb].
      * apply len_0 in E. subst l. apply runs_ret.
      * eapply runs_bind; [apply runs_LOADBYTES with (l := l); [exact R|reflexivity|lia]|].
        apply runs_ret.
Qed.

Lemma prfs_store M s out n : writable M out n -> n <= 16 ->
  runs (b <- branch (8 <? n) ;;
  (if b : bool then
    STOREBYTES out (X3 s) 8 ;;;
    out8 <- padd out 8 ;; STOREBYTES out8 (X4 s) (sub64 n 8)
  else
    b <- branch (negb (n =? 0)) ;;
    if b : bool then STOREBYTES out (X3 s) n else ret tt)) M
  (write M out (firstn (N.to_nat n) (skipn 24 (xs s)))) tt.
Proof.
  intros W Hn. pose proof (writable_bound _ _ _ W) as Hbd.
  unfold xs. rewrite (skipn24_SB wb wb_len).
  eapply runs_bind; [apply runs_branch|].
  destruct (N.ltb_spec 8 n) as [H|H].
  - assert (W' := W). replace n with (8 + (n - 8)) in W' by lia.
    destruct (writable_split _ _ _ _ W') as (W8 & Wr).
    eapply runs_bind; [apply runs_STOREBYTES; exact W8|].
    eapply runs_bind; [eapply runs_padd_writable; [apply writable_write, W|lia]|].
    rewrite sub64_small by lia.
    rewrite firstn_app, wb_len, firstn_all2 by (rewrite wb_len; lia).
    rewrite write_app, len_wb.
    replace (N.to_nat n - 8)%nat with (N.to_nat (n - 8)) by lia.
    rewrite <- firstn_le_bytes by lia. apply runs_STOREBYTES, writable_write, Wr.
  - rewrite firstn_app, wb_len. replace (N.to_nat n - 8)%nat with 0%nat by lia.
    rewrite firstn_O, app_nil_r, <- firstn_le_bytes by lia.
    eapply runs_bind; [apply runs_branch|].
    destruct (N.eqb_spec n 0) as [->|E]; cbn [negb].
    + apply runs_ret.
    + apply runs_STOREBYTES, W.
Qed.

Theorem ref_prfs_ok M out n inp l k kb : is16 kb -> len l <= 16 -> n <= 16 ->
  readable M k kb -> readable M inp l -> writable M out n ->
  runs (crypto_prf_prfs out n inp (len l) k) M (write M out (prf_short kb l (N.to_nat n))) 0%Z.
Proof.
  intros Hk Hl Hn Rk R W. unfold is16 in Hk.
  destruct (split_len 8 kb) as (k0 & k1 & -> & Hk0 & Lk0); [unfold len; lia|].
  rewrite app_length in Hk. assert (Hk1 : length k1 = 8%nat) by lia.
  destruct (readable_app _ _ _ _ Rk) as (Rk0 & Rk1). rewrite Lk0 in Rk1.
  assert (Hl16 : (length l <= 16)%nat) by (unfold len in Hl; lia).
  destruct (prfs_iv_ok (length l) Hl16) as (Eiv & Fiv). fold (len l) in Eiv, Fiv.
  destruct (prfs_load M inp l (prfs_iv (len l)) k0 k1 R Hl16 Fiv Hk0 Hk1) as (s1 & W1 & E1 & Rn1).
  set (s2 := xor4 (xor3 (P12 s1) (le_num k0)) (le_num k1)).
  assert (E2 : skipn 24 (xs s2) = xor_into (skipn 24 (p 12 (xs s1))) (k0 ++ k1)).
  { unfold s2.
    change (xor4 (xor3 (P12 s1) (le_num k0)) (le_num k1))
      with (xorx (xorx (P12 s1) 3 (le_num k0)) 4 (le_num k1)).
    rewrite !xs_load; try lia; [|apply wf_P12, W1|apply (wf_xorx _ 3); [apply wf_P12, W1|apply fits_le_num8; lia]].
    rewrite xs_P12 by exact W1. set (S := p 12 (xs s1)).
    assert (HS : length S = 40%nat) by apply length_p.
    change (8 * N.to_nat 4)%nat with (24 + 8)%nat. change (8 * N.to_nat 3)%nat with 24%nat.
    rewrite <- Hk0, <- xor_at_app by lia. unfold xor_at.
    rewrite skipn_app_exact by (rewrite firstn_length; lia). reflexivity. }
  unfold crypto_prf_prfs.
  eapply runs_bind; [apply runs_branch|]. replace (16 <? len l) with false by lia.
  eapply runs_bind; [apply runs_branch|]. replace (16 <? n) with false by lia.
  eapply runs_bind; [apply runs_branch|]. cbn beta iota.
  eapply runs_bind; [apply runs_LOADBYTES with (l := k0); [exact Rk0|unfold len; lia|lia]|].
  eapply runs_bind; [eapply runs_padd_readable; [exact Rk|rewrite len_app, Lk0; lia]|].
  eapply runs_bind; [apply runs_LOADBYTES with (l := k1); [exact Rk1|unfold len; lia|lia]|].
  fold (prfs_iv (len l)). cbn zeta.
  destruct Rn1 as [t1 Rn1]. unfold bind at 1 in Rn1. unfold branch at 1 in Rn1.
  eapply runs_bind; [apply runs_branch|].
  match type of Rn1 with match ?X with _ => _ end = _ => destruct X eqn:EX; [|discriminate] end.
  inversion Rn1; subst. clear Rn1.
  eapply runs_bind; [eexists; exact EX|]. cbn beta. fold s2.
  pose proof (prfs_store M s2 out n W Hn) as [t2 Rn2]. unfold bind at 1 in Rn2. unfold branch at 1 in Rn2.
  eapply runs_bind; [apply runs_branch|].
  match type of Rn2 with match ?X with _ => _ end = _ => destruct X eqn:EX2; [|discriminate] end.
  inversion Rn2; subst. clear Rn2.
  unfold prf_short. rewrite <- Eiv, <- E1, <- E2.
  eapply runs_bind; [eexists; exact EX2|]. apply runs_ret.
Qed.

Theorem ref_prfs_limit M out n inp inlen k : 16 < inlen \/ 16 < n ->
  runs (crypto_prf_prfs out n inp inlen k) M M (-1)%Z.
Proof.
  intros H. unfold crypto_prf_prfs. eapply runs_bind; [apply runs_branch|].
  destruct (N.ltb_spec 16 inlen) as [H1|H1]; [apply runs_ret|].
  eapply runs_bind; [apply runs_branch|]. replace (16 <? n) with true by lia. apply runs_ret.
Qed.

Theorem ref_prfs_auth_ok M out inp l k kb : is16 kb -> len l <= 16 ->
  readable M k kb -> readable M inp l -> writable M out 16 ->
  runs (crypto_auth_prfs out inp (len l) k) M (write M out (prf_short kb l 16)) 0%Z.
Proof. intros. apply (ref_prfs_ok M out 16); auto. lia. Qed.

Lemma length_prf_short k l n : is16 k -> (n <= 16)%nat -> length (prf_short k l n) = n.
Proof.
  intros Hk Hn. unfold prf_short. rewrite firstn_length, length_xor_into, skipn_length, length_p. lia.
Qed.

Theorem ref_prfs_verify_ok M sp h hb inp l k kb : is16 kb -> is16 hb -> len l <= 16 ->
  free_cells M sp 16 ->
  readable M k kb -> readable M inp l -> readable M h hb ->
  exists M', runs (crypto_auth_verify_prfs sp h inp (len l) k) M M'
    (if list_eq_dec Byte.byte_eq_dec (prf_short kb l 16) hb then 0 else -1)%Z
    /\ forall a, M' a = M a.
Proof.
  intros Hk Hh Hl Hf Rk R Rh.
  set (tag := prf_short kb l 16).
  assert (Ht : length tag = 16%nat) by (apply length_prf_short; [exact Hk|lia]).
  assert (Lt : len tag = 16) by (unfold len; rewrite Ht; reflexivity).
  assert (Lh : len hb = 16) by (unfold len; rewrite Hh; reflexivity).
  eexists. split.
  - unfold crypto_auth_verify_prfs.
    eapply runs_bind; [apply runs_branch|]. replace (16 <? len l) with false by lia.
    apply runs_with_local; [exact Hf|].
    eapply runs_bind.
    + apply ref_prfs_ok with (kb := kb); auto using readable_local; [lia|].
      apply writable_local, Hf.
    + fold tag. eapply runs_bind.
      * replace 16%nat with (length tag).
        apply runs_diff_mem with (l := hb).
        -- apply readable_write_disjoint; [apply readable_local; assumption|].
           change (N.to_nat 16) with 16%nat. fold tag.
           rewrite Lt, Lh. destruct Hf as (H0 & Hb & Hf). unfold disjoint.
           destruct (N.le_gt_cases (sp + 16) h) as [|L1]; [auto|].
           destruct (N.le_gt_cases (h + 16) sp) as [|L2]; [auto|]. exfalso.
           destruct Rh as (Hbh & _ & Hr). unfold is16 in Hh.
           set (a := N.max sp h).
           specialize (Hr (N.to_nat (a - h)) ltac:(lia)).
           replace (h + N.of_nat (N.to_nat (a - h))) with a in Hr by lia.
           unfold rd in Hr. rewrite Hf in Hr by lia. discriminate.
        -- apply readable_write_self; [change (N.to_nat 16) with 16%nat; fold tag; rewrite Lt; apply Hf|]. intros _. apply Hf.
        -- rewrite Hh, Ht. reflexivity.
      * rewrite verdict_diff by (rewrite Hh, Ht; reflexivity). apply runs_ret.
  - change (N.to_nat 16) with 16%nat. fold tag. apply local_restored; [exact Hf|]. symmetry; exact Lt.
Qed.

Theorem ref_prfs_verify_limit M sp h inp inlen k : 16 < inlen ->
  runs (crypto_auth_verify_prfs sp h inp inlen k) M M (-1)%Z.
Proof.
  intros H. unfold crypto_auth_verify_prfs. eapply runs_bind; [apply runs_branch|].
  replace (16 <? inlen) with true by lia. apply runs_ret.
Qed.
