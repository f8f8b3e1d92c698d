(** * RvCTMode.v -- constant time of the mode of the RISC-V implementations. *)
From Coq Require Import Bool Arith NArith ZArith List Lia Init.Byte Strings.Byte ZifyBool ZifyNat ZifyN.
From Verif Require Import Words WordFacts Asm ModelRv CMem Contract CMemFacts RvFacts RvRound RvSpec RvCT RvCTLaws.
Import ListNotations.
Local Open Scope N_scope.

Lemma neq_sub a b : a < 2 ^ 31 -> bge 14 5 b = true -> b 14%nat = a -> b 5%nat = 16 -> 16 <= a.
Proof. intros Ha H E1 E2. rewrite RvRound.bge_small in H by lia. lia. Qed.
Lemma calc_set r d v i : setr r d v i = if Nat.eqb i d then v else r i. Proof. reflexivity. Qed.

Section duplex.
Variables (T : N -> Prop) (Q : mem) (e : env) (V : variant) (CT : ctlaws T Q e V).
(** Frame; output buffer from [c] to [E]. *)
Variables (F c E : N).
Hypothesis HF : safe T F 16.
Hypothesis HE : E < 2 ^ 32.
Hypothesis HO : forall a, c <= a -> a < E -> ~ T a.

(** [Y]: what else is known about the registers that do not change. *)
Variable Y : regs -> Prop.
Hypothesis HY : stable ([1; 10; 13; 14; 26]%nat ++ sregs ++ tregs) Y.
Definition XD (r : regs) : Prop :=
  r 0%nat = 0 /\ r 2%nat = F /\ r 14%nat < 2 ^ 31 /\ (r 17%nat = 0 \/ (c <= r 10%nat /\ r 10%nat + r 14%nat = E)) /\ Y r.
Lemma XD_stable l : subl l ([26]%nat ++ sregs ++ tregs) = true -> stable l XD.
Proof.
  intros H r r' Ex (H0 & H2 & H14 & H10 & Hy). assert (Ex' := except_sub _ _ _ _ H Ex).
  unfold XD. rewrite (Ex' 0%nat eq_refl), (Ex' 2%nat eq_refl), (Ex' 14%nat eq_refl), (Ex' 17%nat eq_refl), (Ex' 10%nat eq_refl).
  split; [exact H0|split; [exact H2|split; [exact H14|split; [exact H10|]]]].
  apply (HY r); [|exact Hy]. eapply except_sub; [|exact Ex']. reflexivity.
Qed.
Ltac st0 := eapply XD_stable; vm_compute; reflexivity.
Lemma and_stable l (X Z : regs -> Prop) : stable l X -> stable l Z -> stable l (fun r => X r /\ Z r).
Proof. intros A B r r' Ex [H1 H2]. split; [apply (A r); assumption|apply (B r); assumption]. Qed.
Lemma drop L (X Z : regs -> Prop) f R : two (J T Q L X) f R -> two (J T Q L (fun r => X r /\ Z r)) f R.
Proof. apply two_pre. intros r1 r2 M1 M2 (A & B & C & _). split; [exact A|split; [exact B|exact C]]. Qed.
Lemma few L L' (X : regs -> Prop) f R : subl L' L = true -> two (J T Q L' X) f R -> two (J T Q L X) f R.
Proof. intros H. apply two_pre. intros r1 r2 M1 M2 (A & B & C). split; [exact (eqon_sub L L' _ _ H A)|split; [exact B|exact C]]. Qed.

(** Copying [n] bytes to [d] *)
Lemma memcpy_ct ln d n (X : regs -> Prop) : safe T d n -> n < 2 ^ 31 -> stable tregs X -> (forall r, X r -> r 14%nat = n) ->
  two (J T Q (6 :: 7 :: PL)%nat (fun r => X r /\ r 6%nat = d)) (call 5 (lab e ln) ascon_memcpy) (J T Q PL X).
Proof.
  intros [HS1 HS2] Hn HX H14.
  assert (HX' : forall i v r, memb i tregs = true -> X r -> X (setr r i v)) by (intros i v r Hi; apply (stable_set tregs); [exact Hi|exact HX]).
  apply two_sub with (L := (5 :: PL)%nat) (X := X); [reflexivity|auto|].
  apply two_call with (X1 := fun r => X r /\ r 6%nat = d).
  { intros r [Xr H6]. split; [apply HX'; [reflexivity|exact Xr]|exact H6]. }
  unfold ascon_memcpy.
  set (I := fun r => X r /\ r 6%nat = d + r 28%nat /\ r 28%nat <= n).
  apply two_then with (R := J T Q (28 :: 6 :: 7 :: PL)%nat I).
  - apply two_calc; [reflexivity|reflexivity|]. intros r [Xr H6]. cbn [calc fold_left li fev]. unfold I.
    split; [apply HX'; [reflexivity|exact Xr]|]. rewrite !calc_set. cbn [Nat.eqb]. lia.
  - apply two_sub with (L := (28 :: 6 :: 7 :: PL)%nat) (X := fun r => I r /\ blt 28 14 r = false); [reflexivity|intros r [[H _] _]; exact H|].
    apply two_loop.
    + intros r1 r2 Eq. rewrite (Eq 14%nat eq_refl). reflexivity.
    + apply blt_eqon. reflexivity.
    + apply two_skip; [reflexivity|auto].
    + apply two_then with (R := J T Q (28 :: 6 :: 7 :: PL)%nat I); [|apply two_skip; [reflexivity|auto]].
      change ([Lbu 29 7 0; Sb 29 6 0; addi 6 6 1; addi 7 7 1; addi 28 28 1])
        with ([Lbu 29 7 0; Sb 29 6 0] ++ [addi 6 6 1; addi 7 7 1; addi 28 28 1]).
      assert (LT : forall r, I r /\ blt 28 14 r = true -> r 28%nat < n).
      { intros r [(Xr & H6 & H28) HB]. pose proof (H14 r Xr) as Hl. unfold blt in HB. rewrite !s32_small in HB by lia. lia. }
      apply two_app with (R := J T Q (28 :: 6 :: 7 :: PL)%nat (fun r => I r /\ r 28%nat < n)).
      * apply two_block with (W := [(6%nat, 1)]); [reflexivity| |].
        -- intros r Hr b m [Eq|[]]. injection Eq as <- <-. pose proof (LT r Hr) as L. destruct Hr as [(Xr & H6 & H28) _].
           rewrite H6. split; [lia|]. intros a A1 A2. apply HS2; lia.
        -- intros r r' Ex Hr. pose proof (LT r Hr) as L. destruct Hr as [(Xr & H6 & H28) _]. unfold I.
           rewrite (Ex 6%nat eq_refl), (Ex 28%nat eq_refl). split; [|exact L]. split; [|split; [exact H6|exact H28]].
           apply (HX r); [|exact Xr]. eapply except_sub; [|exact Ex]. reflexivity.
      * apply two_calc; [reflexivity|reflexivity|]. intros r [(Xr & H6 & H28) L]. cbn [calc fold_left addi fev]. unfold I.
        split; [do 3 (apply HX'; [reflexivity|]); exact Xr|]. rewrite !calc_set. cbn [Nat.eqb].
        rewrite H6, !trunc_add by lia. lia.
Qed.

(** l.170-207 *)
Lemma loop_ct : two (J T Q PL XD) (duplex_loop V e) (J T Q PL (fun r => XD r /\ r 14%nat < 16)).
Proof.
  unfold duplex_loop. set (I := fun r => XD r /\ r 5%nat = 16).
  assert (LI : two (J T Q PL XD) (exec [li 5 16]) (J T Q (5%nat :: PL) I)).
  { apply two_calc; [reflexivity|reflexivity|]. intros r Xr. cbn [calc fold_left li fev]. split; [|reflexivity].
    apply (stable_set [5]%nat); [reflexivity|st0|exact Xr]. }
  apply two_sub with (L := (5%nat :: PL)) (X := fun r => I r /\ bge 14 5 r = false); [reflexivity| |].
  { intros r [[(H0 & H2 & H14 & H10 & Hy) H5] HB]. split; [split; [exact H0|split; [exact H2|split; [exact H14|split; [exact H10|exact Hy]]]]|].
    rewrite RvRound.bge_small in HB by lia. lia. }
  apply two_loop.
  - intros r1 r2 Eq. rewrite (Eq 14%nat eq_refl). reflexivity.
  - apply bge_eqon. reflexivity.
  - exact LI.
  - apply two_then with (R := J T Q PL XD); [|exact LI].
    set (X1 := fun r => XD r /\ 16 <= r 14%nat).
    assert (X1s : forall l, subl l ([26]%nat ++ sregs ++ tregs) = true -> stable l X1).
    { intros l Hl. apply and_stable; [apply XD_stable, Hl|]. intros r r' Ex H. rewrite (except_sub _ _ _ _ Hl Ex 14%nat eq_refl). exact H. }
    apply (two_pre (J T Q PL X1)).
    { intros r1 r2 M1 M2 (A & B & [Xr H5] & HB). split; [apply (eqon_sub (5%nat :: PL)); [reflexivity|exact A]|split; [exact B|]].
      split; [exact Xr|]. destruct Xr as (H0 & H2 & H14 & H10 & Hy). exact (neq_sub (r1 14%nat) r1 H14 HB eq_refl H5). }
    apply two_then with (R := J T Q PL X1); [apply (c_load _ _ _ _ CT); [right; left; reflexivity|apply X1s; reflexivity]|].
    apply two_then with (R := J T Q PL X1); [apply two_free; [reflexivity|apply X1s; reflexivity]|].
    apply two_then with (R := J T Q PL X1).
    { apply two_cond; [apply beq_eqon; reflexivity| |].
      - apply two_skip; [reflexivity|intros r [H _]; exact H].
      - apply two_sub with (L := PL) (X := fun r => X1 r /\ beq 17 0 r = false); [reflexivity|intros r [H _]; exact H|].
        apply (c_store _ _ _ _ CT).
        + intros r [[(H0 & H2 & H14 & H10 & Hy) HL] HB]. unfold beq in HB. rewrite H0 in HB.
          destruct H10 as [H10|[H10 H10']]; [rewrite H10 in HB; discriminate|]. split; [lia|].
          intros a A1 A2. apply HO; lia.
        + apply and_stable; [apply X1s; reflexivity|]. intros r r' Ex H. unfold beq.
          rewrite (Ex 17%nat eq_refl), (Ex 0%nat eq_refl). exact H. }
    apply two_then with (R := J T Q PL X1).
    { apply two_cond; [apply bge_eqon; reflexivity| |].
      - apply two_skip; [reflexivity|intros r [H _]; exact H].
      - apply drop. apply two_free; [reflexivity|apply X1s; reflexivity]. }
    apply two_then with (R := J T Q PL X1).
    { apply (c_perm _ _ _ _ CT); [apply X1s; reflexivity|]. intros r [(H0 & _) _]. exact H0. }
    apply two_calc; [reflexivity|reflexivity|]. intros r [(H0 & H2 & H14 & H10 & Hy) HL].
    cbn [calc fold_left addi fev]. unfold XD. rewrite !calc_set. cbn [Nat.eqb].
    rewrite (trunc_sub (r 14%nat) 16) by lia.
    split; [exact H0|split; [exact H2|split; [lia|split]]].
    + destruct H10 as [H10|[H10 H10']]; [left; exact H10|right]. rewrite trunc_add by lia. lia.
    + apply (HY r); [|exact Hy]. do 3 (apply except_set; [reflexivity|]). apply except_refl.
Qed.

(** l.209-268; afterwards the pointer to the output is at its end *)
Definition XE (r : regs) : Prop := r 0%nat = 0 /\ r 2%nat = F /\ (r 17%nat = 0 \/ r 10%nat = E) /\ Y r.
Definition XN (n o : N) (r : regs) : Prop := XD r /\ r 14%nat = n /\ r 10%nat = o.
Lemma XN_stable n o l : subl l ([26]%nat ++ sregs ++ tregs) = true -> stable l (XN n o).
Proof.
  intros Hl. apply and_stable; [apply XD_stable, Hl|].
  intros r r' Ex [H1 H2]. rewrite (except_sub _ _ _ _ Hl Ex 14%nat eq_refl), (except_sub _ _ _ _ Hl Ex 10%nat eq_refl). split; assumption.
Qed.
Lemma end_fixed n o : n < 16 -> two (J T Q PL (XN n o)) (duplex_end V e) (J T Q PL XE).
Proof.
  intros Hn. set (X := XN n o).
  assert (Xs : forall l, subl l ([26]%nat ++ sregs ++ tregs) = true -> stable l X) by (exact (XN_stable n o)).
  assert (S1 : safe T F n) by (destruct HF as [F1 F2]; split; [lia|intros a A1 A2; apply F2; lia]).
  assert (HX14 : forall r, X r -> r 14%nat = n) by (intros r [_ [H _]]; exact H).
  unfold duplex_end.
  apply two_then with (R := J T Q (6 :: 7 :: PL)%nat (fun r => X r /\ r 6%nat = F)).
  { change ([Sw 0 2 0; Sw 0 2 4; Sw 0 2 8; Sw 0 2 12; mv 6 2; mv 7 13])
      with ([Sw 0 2 0; Sw 0 2 4; Sw 0 2 8; Sw 0 2 12] ++ [mv 6 2; mv 7 13]).
    apply two_app with (R := J T Q PL X).
    - apply two_block with (W := [(2%nat, 16)]); [reflexivity| |].
      + intros r Xr b m [Eq|[]]. injection Eq as <- <-. destruct Xr as [(H0 & H2 & _) _]. rewrite H2. exact HF.
      + intros r r' Ex Xr. apply (Xs [] eq_refl r); [exact Ex|exact Xr].
    - apply two_calc; [reflexivity|reflexivity|]. intros r Xr. cbn [calc fold_left mv fev].
      split; [|destruct Xr as [(H0 & H2 & _) _]; exact H2].
      do 2 (apply (stable_set [6; 7]%nat); [reflexivity|apply Xs; reflexivity|]). exact Xr. }
  apply two_then with (R := J T Q PL X); [apply (memcpy_ct _ F n X); [exact S1|lia|apply Xs; reflexivity|exact HX14]|].
  apply two_then with (R := J T Q PL X).
  { change ([ModelRv.add 6 2 14; Lbu 5 6 0; xori 5 5 (v_pad V); Sb 5 6 0]) with ([ModelRv.add 6 2 14] ++ [Lbu 5 6 0; xori 5 5 (v_pad V); Sb 5 6 0]).
    apply two_app with (R := J T Q (6%nat :: PL) (fun r => X r /\ r 6%nat = F + n)).
    - apply two_calc; [reflexivity|reflexivity|]. intros r Xr. cbn [calc fold_left ModelRv.add fev].
      split; [apply (stable_set [6]%nat); [reflexivity|apply Xs; reflexivity|exact Xr]|].
      pose proof (HX14 r Xr) as H14. destruct Xr as [(H0 & H2 & _) _]. rewrite calc_set. cbn [Nat.eqb]. rewrite H2, H14.
      destruct HF. apply trunc_add. lia.
    - apply two_block with (W := [(6%nat, 1)]); [reflexivity| |].
      + intros r [Xr H6] b m [Eq|[]]. injection Eq as <- <-. rewrite H6. destruct HF as [F1 F2]. split; [lia|]. intros a A1 A2. apply F2; lia.
      + intros r r' Ex [Xr _]. apply (Xs [5; 5]%nat eq_refl r); [exact Ex|exact Xr]. }
  apply two_then with (R := J T Q PL X); [apply (c_load _ _ _ _ CT); [left; reflexivity|apply Xs; reflexivity]|].
  apply two_then with (R := J T Q PL X); [apply two_free; [reflexivity|apply Xs; reflexivity]|].
  apply two_then with (R := J T Q PL X).
  { apply two_cond; [apply beq_eqon; reflexivity| |].
    - apply two_skip; [reflexivity|intros r [H _]; exact H].
    - set (X2 := fun r => X r /\ beq 17 0 r = false).
      assert (X2s : forall l, subl l ([26]%nat ++ sregs ++ tregs) = true -> stable l X2).
      { intros l Hl. apply and_stable; [apply Xs, Hl|]. intros r r' Ex H. unfold beq.
        rewrite (except_sub _ _ _ _ Hl Ex 17%nat eq_refl), (except_sub _ _ _ _ Hl Ex 0%nat eq_refl). exact H. }
      apply two_then with (R := J T Q PL X2); [apply two_free; [reflexivity|apply X2s; reflexivity]|].
      apply two_then with (R := J T Q PL X2); [apply (c_conv _ _ _ _ CT); apply X2s; reflexivity|].
      apply two_then with (R := J T Q PL X2).
      { assert (HW : forall r, X2 r -> safes T [(2%nat, 16)] r).
        { intros r [[(H0 & H2 & _) _] _] b m [Eq|[]]. injection Eq as <- <-. rewrite H2. exact HF. }
        destruct (c_first _ _ _ _ CT) as [-> | ->]; (apply two_block with (W := [(2%nat, 16)]); [reflexivity|exact HW|];
          intros r r' Ex Xr; apply (X2s [] eq_refl r); [exact Ex|exact Xr]). }
      apply two_then with (R := J T Q (6 :: 7 :: PL)%nat (fun r => X2 r /\ r 6%nat = o)).
      { apply two_calc; [reflexivity|reflexivity|]. intros r Xr. cbn [calc fold_left mv fev].
        split; [|destruct Xr as [[_ [_ H10]] _]; exact H10].
        do 2 (apply (stable_set [6; 7]%nat); [reflexivity|apply X2s; reflexivity|]). exact Xr. }
      assert (DEC : (c <= o /\ o + n = E) \/ ~ (c <= o /\ o + n = E)) by lia.
      destruct DEC as [[D1 D2]|D].
      + apply two_sub with (L := PL) (X := X2); [reflexivity|intros r [H _]; exact H|].
        apply (memcpy_ct _ o n X2); [split; [lia|intros a A1 A2; apply HO; lia]|lia|apply X2s; reflexivity|intros r [H _]; apply HX14, H].
      + intros r1 r2 M1 M2 t1 t2 M1' M2' r1' r2' (_ & _ & ([[(H0 & H2 & H14 & H10 & Hy) [N1 N2]] HB] & _)). exfalso.
        unfold beq in HB. rewrite H0 in HB. destruct H10 as [H10|H10]; [rewrite H10 in HB; discriminate|].
        apply D. rewrite <- N1, <- N2. exact H10. }
  apply two_then with (R := J T Q PL X).
  { apply two_cond; [apply bge_eqon; reflexivity| |].
    - apply two_skip; [reflexivity|intros r [H _]; exact H].
    - apply drop. apply two_then with (R := J T Q (6 :: 7 :: PL)%nat (fun r => X r /\ r 6%nat = F)).
      { apply two_calc; [reflexivity|reflexivity|]. intros r Xr. cbn [calc fold_left mv fev].
        split; [|destruct Xr as [(H0 & H2 & _) _]; exact H2].
        do 2 (apply (stable_set [6; 7]%nat); [reflexivity|apply Xs; reflexivity|]). exact Xr. }
      apply two_then with (R := J T Q PL X); [apply (memcpy_ct _ F n X); [exact S1|lia|apply Xs; reflexivity|exact HX14]|].
      apply (c_reload _ _ _ _ CT). apply Xs. reflexivity. }
  apply two_calc; [reflexivity|reflexivity|]. intros r [(H0 & H2 & H14 & H10 & Hy) _].
  cbn [calc fold_left ModelRv.add fev]. unfold XE. rewrite !calc_set. cbn [Nat.eqb].
  split; [exact H0|split; [exact H2|split]].
  - destruct H10 as [H10|[H10 H10']]; [left; exact H10|right]. rewrite trunc_add; lia.
  - apply (HY r); [|exact Hy]. do 2 (apply except_set; [reflexivity|]). apply except_refl.
Qed.
Lemma end_ct : two (J T Q PL (fun r => XD r /\ r 14%nat < 16)) (duplex_end V e) (J T Q PL XE).
Proof.
  intros r1 r2 M1 M2 t1 t2 M1' M2' r1' r2' (A & B & C & D).
  apply (end_fixed (r1 14%nat) (r1 10%nat) D).
  split; [exact A|split; [exact B|split; [exact C|split; reflexivity]]].
Qed.
(** l.170-268 *)
Theorem duplex_ct : two (J T Q PL XD) (ascon_duplex V e) (J T Q PL XE).
Proof. unfold ascon_duplex. eapply two_then; [exact loop_ct|exact end_ct]. Qed.
End duplex.
