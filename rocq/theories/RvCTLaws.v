(** * RvCTLaws.v -- constant time of the parts in which the RISC-V
    directories differ. *)
From Coq Require Import Bool Arith NArith ZArith List Lia Init.Byte Strings.Byte ZifyBool ZifyNat ZifyN.
From Verif Require Import Words WordFacts Asm ModelRv CMem Contract CMemFacts RvFacts RvRound RvSpec RvCT.
Import ListNotations.
Local Open Scope N_scope.

(** Public registers: x0, sp, a0 to a4 and the mode; before key and nonce are
    loaded also the pointers to them. *)
Definition PL : list nat := [0; 2; 10; 11; 12; 13; 14; 17]%nat.
Definition PL0 : list nat := [0; 2; 10; 11; 12; 13; 14; 15; 16; 17]%nat.

Section laws.
Variables (T : N -> Prop) (Q : mem) (e : env).
Record ctlaws (V : variant) : Prop := {
  c_perm : forall ln a (X : regs -> Prop), stable (sregs ++ tregs) X -> (forall r, X r -> r 0%nat = 0) -> two (J T Q PL X) (v_perm V e ln a) (J T Q PL X);
  c_load : forall ln b X, In b [2; 13]%nat -> stable tregs X -> two (J T Q PL X) (v_load V e ln b) (J T Q PL X);
  c_load0 : forall ln b X, In b [15; 16]%nat -> stable tregs X -> two (J T Q PL0 X) (v_load V e ln b) (J T Q PL0 X);
  c_store : forall X : regs -> Prop, (forall r, X r -> safe T (r 10%nat) 16) -> stable [5; 6; 7]%nat X ->
    two (J T Q PL X) (v_store V) (J T Q PL X);
  c_conv : forall ln X, stable tregs X -> two (J T Q PL X) (v_conv V e ln) (J T Q PL X);
  c_reload : forall ln X, stable ([8; 9; 18; 19]%nat ++ tregs) X -> two (J T Q PL X) (v_reload V e ln) (J T Q PL X);
  c_sep : forall X, stable ([24; 25]%nat ++ tregs) X -> two (J T Q PL X) (v_sep V) (J T Q PL X);
  c_tag : forall ln X, stable (26%nat :: tregs) X -> two (J T Q PL X) (v_tag V e ln) (J T Q PL X);
  c_first : v_first V = le_first \/ v_first V = be_first
}.

(** Blocks that write no memory and call no subroutine *)
Lemma two_free L L' (X : regs -> Prop) l : match ct [] L l with Some K => subl L' K | None => false end = true ->
  stable (dsts l) X -> two (J T Q L X) (exec l) (J T Q L' X).
Proof. intros H HX. apply (two_block T Q [] L L' X X l H); [intros r _ b n []|]. intros r r' E. apply HX, E. Qed.
Lemma stable_set l (X : regs -> Prop) d v r : memb d l = true -> stable l X -> X r -> X (setr r d v).
Proof. intros H HX Xr. apply (HX r); [|exact Xr]. apply except_set; [exact H|apply except_refl]. Qed.
Lemma two_sub L L' (X X' : regs -> Prop) P f : subl L' L = true -> (forall r, X r -> X' r) -> two P f (J T Q L X) -> two P f (J T Q L' X').
Proof.
  intros H HX. apply two_post. intros r1 r2 M1 M2 (E & HM & Xr). split; [exact (eqon_sub L L' _ _ H E)|split; [exact HM|apply HX, Xr]].
Qed.
Lemma two_callfree L ln (X : regs -> Prop) l :
  match ct [] (5%nat :: L) l with Some K => subl L K | None => false end = true ->
  subl (5%nat :: dsts l) tregs = true -> stable tregs X ->
  two (J T Q L X) (call 5 (lab e ln) (exec l)) (J T Q L X).
Proof.
  intros H HS HX. apply two_sub with (L := (5%nat :: L)) (X := X); [|auto|].
  - unfold subl. apply forallb_forall. intros x Hx. apply memb_In. right. exact Hx.
  - apply two_call with (X1 := X).
    + intros r. apply (stable_set tregs); [reflexivity|exact HX].
    + apply two_free; [exact H|]. apply (stable_sub _ tregs); [|exact HX].
      unfold subl in *. cbn [forallb] in HS. apply andb_prop in HS. apply HS.
Qed.

(** The loop of the permutation *)
Lemma beq_eqon L a b : subl [a; b] L = true -> forall r1 r2, eqon L r1 r2 -> beq a b r1 = beq a b r2.
Proof.
  intros H r1 r2 E. unfold subl in H. cbn [forallb] in H. apply andb_prop in H. destruct H as [Ha H]. apply andb_prop in H. destruct H as [Hb _].
  unfold beq. rewrite (E a Ha), (E b Hb). reflexivity.
Qed.
Lemma bge_eqon L a b : subl [a; b] L = true -> forall r1 r2, eqon L r1 r2 -> bge a b r1 = bge a b r2.
Proof.
  intros H r1 r2 E. unfold subl in H. cbn [forallb] in H. apply andb_prop in H. destruct H as [Ha H]. apply andb_prop in H. destruct H as [Hb _].
  unfold bge. rewrite (E a Ha), (E b Hb). reflexivity.
Qed.
Lemma blt_eqon L a b : subl [a; b] L = true -> forall r1 r2, eqon L r1 r2 -> blt a b r1 = blt a b r2.
Proof.
  intros H r1 r2 E. unfold subl in H. cbn [forallb] in H. apply andb_prop in H. destruct H as [Ha H]. apply andb_prop in H. destruct H as [Hb _].
  unfold blt. rewrite (E a Ha), (E b Hb). reflexivity.
Qed.
Definition rbody (rnd : list ins) : list ins := [ModelRv.xor 21 21 6] ++ rnd ++ [addi 6 6 (neg 15)].
Lemma perm_with_ct rnd : (match ct [] (6 :: 31 :: 5 :: PL)%nat (rbody rnd) with Some K => subl (6 :: 31 :: 5 :: PL)%nat K | None => false end = true) ->
  subl (dsts (rbody rnd)) (sregs ++ tregs) = true ->
  forall ln a X, stable (sregs ++ tregs) X -> two (J T Q PL X) (perm_with rnd e ln a) (J T Q PL X).
Proof.
  intros HC HD ln a X HX. unfold perm_with. apply two_then with (R := J T Q (6%nat :: PL) X).
  - apply two_free; [reflexivity|]. apply (stable_sub _ (sregs ++ tregs)); [reflexivity|exact HX].
  - apply two_sub with (L := (5 :: 6 :: 31 :: 5 :: PL)%nat) (X := X); [reflexivity|auto|].
    apply two_call with (X1 := X); [intros r; apply (stable_set (sregs ++ tregs)); [reflexivity|exact HX]|].
    unfold permute_with. fold (rbody rnd).
    assert (B : two (J T Q (6 :: 31 :: 5 :: PL)%nat X) (exec (rbody rnd)) (J T Q (6 :: 31 :: 5 :: PL)%nat X)).
    { apply two_free; [exact HC|]. apply (stable_sub _ (sregs ++ tregs)); [exact HD|exact HX]. }
    apply two_then with (R := J T Q (6 :: 31 :: 5 :: PL)%nat X).
    + apply two_free; [reflexivity|]. apply (stable_sub _ (sregs ++ tregs)); [reflexivity|exact HX].
    + apply two_then with (R := J T Q (6 :: 31 :: 5 :: PL)%nat X); [exact B|].
      apply two_sub with (L := (6 :: 31 :: 5 :: PL)%nat) (X := fun r => X r /\ bge 6 31 r = false); [reflexivity|intros r [H _]; exact H|].
      apply two_while.
      * apply bge_eqon. reflexivity.
      * apply (two_pre (J T Q (6 :: 31 :: 5 :: PL)%nat X)); [|exact B].
        intros r1 r2 M1 M2 (E & HM & Xr & _). split; [exact E|split; [exact HM|exact Xr]].
Qed.
(** asm_bi32_rv32b: the loop ends at the end of the table. *)
Lemma known_sub p l j : known T Q p l -> (j < length l)%nat -> known T Q (p + N.of_nat j) [nth j l x00].
Proof.
  intros [K1 K2] Hj. split; [apply readable_byte; assumption|].
  intros a H1 H2. change (len [nth j l x00]) with 1 in H2. apply K2; unfold len; lia.
Qed.
Definition at_round (r : regs) : Prop := exists k, (k <= 12)%nat /\ r 6%nat = tab e + N.of_nat (2 * k) /\ r 7%nat = btab (2 * k).
Lemma btab_nz k : (k < 12)%nat -> btab (2 * k) <> 0.
Proof. intros H. do 12 (destruct k as [|k]; [vm_compute; discriminate|]). lia. Qed.
Definition bi_body : list ins := round_bi ++ [addi 6 6 2].
Lemma perm_bi_ct : known T Q (tab e) bi_table -> tab e + len bi_table < 2 ^ 32 ->
  forall ln a (X : regs -> Prop), stable (sregs ++ tregs) X -> (forall r, X r -> r 0%nat = 0) -> two (J T Q PL X) (perm_bi e ln a) (J T Q PL X).
Proof.
  intros HK HB ln a X HX HZ. change (len bi_table) with 25 in HB.
  assert (HX' : forall d v r, memb d (sregs ++ tregs) = true -> X r -> X (setr r d v)).
  { intros d v r Hd. apply (stable_set (sregs ++ tregs)); [exact Hd|exact HX]. }
  unfold perm_bi. apply two_then with (R := J T Q (6%nat :: PL) (fun r => X r /\ exists k, (k <= 12)%nat /\ r 6%nat = tab e + N.of_nat (2 * k))).
  - apply two_calc; [destruct a; reflexivity|destruct a; reflexivity|]. intros r Xr. cbn [calc fold_left li fev].
    split; [apply HX'; [reflexivity|exact Xr]|]. exists (if a then 0%nat else 4%nat). destruct a; (split; [lia|]);
    change (setr r 6 ?v 6%nat) with v; cbn [N.of_nat]; cbn; lia.
  - apply two_sub with (L := (5 :: 7 :: 6 :: 5 :: PL)%nat) (X := fun r => (X r /\ at_round r) /\ negb (beq 7 0 r) = false); [reflexivity|intros r [[H _] _]; exact H|].
    apply two_call with (X1 := fun r => X r /\ exists k, (k <= 12)%nat /\ r 6%nat = tab e + N.of_nat (2 * k)).
    { intros r [Xr H]. split; [apply HX'; [reflexivity|exact Xr]|exact H]. }
    assert (LD : two (J T Q (6 :: 5 :: PL)%nat (fun r => X r /\ exists k, (k <= 12)%nat /\ r 6%nat = tab e + N.of_nat (2 * k)))
               (exec [Lbu 7 6 0]) (J T Q (7 :: 6 :: 5 :: PL)%nat (fun r => X r /\ at_round r))).
    { apply two_lbu_known; [reflexivity|]. intros r (Xr & k & Hk & E). exists (nth (2 * k) bi_table x00).
      rewrite (addr_ok r 6 0 (tab e + N.of_nat (2 * k))) by lia.
      split; [apply known_sub; [exact HK|cbn [length bi_table]; lia]|].
      split; [apply HX'; [reflexivity|exact Xr]|]. exists k. split; [exact Hk|]. split; [exact E|reflexivity]. }
    unfold permute_bi. apply two_loop.
    + reflexivity.
    + intros r1 r2 E. f_equal. revert E. apply beq_eqon. reflexivity.
    + apply (two_pre (J T Q (6 :: 5 :: PL)%nat (fun r => X r /\ exists k, (k <= 12)%nat /\ r 6%nat = tab e + N.of_nat (2 * k)))); [|exact LD].
      intros r1 r2 M1 M2 (E & HM & Xr). split; [|split; [exact HM|exact Xr]].
      apply (eqon_sub (5 :: 6 :: PL)%nat); [reflexivity|exact E].
    + apply two_then with (R := J T Q (6 :: 5 :: PL)%nat (fun r => X r /\ exists k, (k <= 12)%nat /\ r 6%nat = tab e + N.of_nat (2 * k))); [|exact LD].
      change ([ModelRv.xor 21 21 7; Lbu 7 6 1; ModelRv.xor 20 20 7] ++ round_bi ++ [addi 6 6 2])
        with (([ModelRv.xor 21 21 7; Lbu 7 6 1; ModelRv.xor 20 20 7] ++ round_bi) ++ [addi 6 6 2]).
      apply two_app with (R := J T Q (6 :: 5 :: PL)%nat (fun r => X r /\ exists k, (k < 12)%nat /\ r 6%nat = tab e + N.of_nat (2 * k))).
      * apply two_block with (W := []); [vm_compute; reflexivity|intros r _ b n []|].
        intros r r' E [[Xr (k & Hk & E6 & E7)] HB'].
        assert (SUB : subl (dsts ([ModelRv.xor 21 21 7; Lbu 7 6 1; ModelRv.xor 20 20 7] ++ round_bi)) (sregs ++ tregs) = true) by (vm_compute; reflexivity).
        split; [apply (HX r); [exact (except_sub _ _ _ _ SUB E)|exact Xr]|].
        exists k. rewrite (E 6%nat) by (vm_compute; reflexivity). split; [|exact E6].
        destruct (Nat.eq_dec k 12) as [->|]; [|lia]. exfalso. unfold beq in HB'. rewrite E7 in HB'.
        rewrite (HZ r Xr) in HB'. discriminate HB'.
      * apply two_calc; [reflexivity|reflexivity|]. intros r (Xr & k & Hk & E6). cbn [calc fold_left addi fev].
        split; [apply HX'; [reflexivity|exact Xr]|]. exists (S k). split; [lia|].
        change (setr r 6 ?v 6%nat) with v. rewrite E6, trunc_add by lia. lia.
Qed.

(** ** The four directories *)
Ltac st HX := eapply stable_sub; [|exact HX]; vm_compute; reflexivity.
Lemma ct_rv32i : ctlaws rv32i.
Proof.
  constructor.
  - intros ln a X HX _. apply perm_with_ct; [vm_compute; reflexivity|vm_compute; reflexivity|exact HX].
  - intros ln b X [<-|[<-|[]]] HX; (apply two_free; [reflexivity|st HX]).
  - intros ln b X [<-|[<-|[]]] HX; (apply two_free; [reflexivity|st HX]).
  - intros X HS HX. apply two_block with (W := [(10%nat, 16)]); [reflexivity| |].
    + intros r Xr b n [E|[]]. injection E as <- <-. apply HS, Xr.
    + intros r r' E. apply HX. intros i _. apply E. reflexivity.
  - intros ln X HX. apply two_skip; [reflexivity|auto].
  - intros ln X HX. apply two_free; [reflexivity|st HX].
  - intros X HX. apply two_free; [reflexivity|st HX].
  - intros ln X HX. unfold v_tag, rv32i, lw_unaligned_4x, le_first.
    apply two_then with (R := J T Q (5%nat :: PL) X); [apply two_free; [reflexivity|st HX]|].
    apply two_cond; [apply beq_eqon; reflexivity| |].
    + apply two_skip; [reflexivity|intros r [H _]; exact H].
    + apply (two_pre (J T Q (5%nat :: PL) X)); [intros r1 r2 M1 M2 (E & HM & Xr & _); split; [exact E|split; [exact HM|exact Xr]]|].
      apply two_free; [reflexivity|st HX].
  - left. reflexivity.
Qed.
Lemma ct_rv32b_with linear tagload :
  (match ct [] (6 :: 31 :: 5 :: PL)%nat (rbody (round_with sbox_b linear)) with Some K => subl (6 :: 31 :: 5 :: PL)%nat K | None => false end = true) ->
  subl (dsts (rbody (round_with sbox_b linear))) (sregs ++ tregs) = true ->
  (forall X, stable (26%nat :: tregs) X -> two (J T Q PL X) (tagload be_first) (J T Q PL X)) ->
  ctlaws (rv32b_with linear tagload).
Proof.
  intros H1 H2 HT.
  assert (RV : forall ln X, stable tregs X -> two (J T Q PL X) (call 5 (lab e ln) ascon_rev8) (J T Q PL X)).
  { intros ln X HX. apply two_callfree; [reflexivity|reflexivity|exact HX]. }
  constructor.
  - intros ln a X HX _. apply perm_with_ct; [exact H1|exact H2|exact HX].
  - intros ln b X Hb HX. apply two_then with (R := J T Q PL X).
    + destruct Hb as [<-|[<-|[]]]; (apply two_free; [reflexivity|st HX]).
    + apply RV, HX.
  - intros ln b X Hb HX. apply two_then with (R := J T Q PL0 X).
    + destruct Hb as [<-|[<-|[]]]; (apply two_free; [reflexivity|st HX]).
    + apply two_callfree; [reflexivity|reflexivity|exact HX].
  - intros X HS HX. apply two_block with (W := [(10%nat, 16)]); [reflexivity| |].
    + intros r Xr b n [E|[]]. injection E as <- <-. apply HS, Xr.
    + intros r r' E. apply HX. eapply except_sub; [|exact E]; vm_compute; reflexivity.
  - intros ln X HX. apply RV, HX.
  - intros ln X HX. assert (HX' : stable tregs X) by st HX.
    apply two_then with (R := J T Q PL X); [apply two_free; [reflexivity|st HX]|].
    apply two_then with (R := J T Q PL X); [apply RV, HX'|]. apply two_free; [reflexivity|st HX].
  - intros X HX. apply two_free; [reflexivity|st HX].
  - intros ln X HX. assert (HX' : stable tregs X) by st HX. apply two_then with (R := J T Q PL X); [apply HT, HX|apply RV, HX'].
  - right. reflexivity.
Qed.
Lemma lw_unaligned_ct X : stable (26%nat :: tregs) X -> two (J T Q PL X) (lw_unaligned_4x be_first) (J T Q PL X).
Proof.
  intros HX. unfold lw_unaligned_4x, be_first.
  apply two_then with (R := J T Q (5%nat :: PL) X); [apply two_free; [reflexivity|st HX]|].
  apply two_cond; [apply beq_eqon; reflexivity| |].
  - apply two_skip; [reflexivity|intros r [H _]; exact H].
  - apply (two_pre (J T Q (5%nat :: PL) X)); [intros r1 r2 M1 M2 (E & HM & Xr & _); split; [exact E|split; [exact HM|exact Xr]]|].
    apply two_free; [reflexivity|st HX].
Qed.
Lemma ct_rv32b : ctlaws rv32b.
Proof. apply ct_rv32b_with; [vm_compute; reflexivity|vm_compute; reflexivity|exact lw_unaligned_ct]. Qed.
Lemma ct_fsr : ctlaws fsr_rv32b.
Proof.
  apply ct_rv32b_with; [vm_compute; reflexivity|vm_compute; reflexivity|].
  intros X HX. unfold lw_unaligned_4x_fsr, be_first.
  apply two_then with (R := J T Q (5%nat :: PL) X); [apply two_free; [reflexivity|st HX]|].
  apply two_cond; [apply beq_eqon; reflexivity| |].
  - apply two_skip; [reflexivity|intros r [H _]; exact H].
  - apply (two_pre (J T Q (5%nat :: PL) X)); [intros r1 r2 M1 M2 (E & HM & Xr & _); split; [exact E|split; [exact HM|exact Xr]]|].
    apply two_free; [reflexivity|st HX].
Qed.
Lemma ct_bi32 : known T Q (tab e) bi_table -> tab e + len bi_table < 2 ^ 32 -> ctlaws bi32_rv32b.
Proof.
  intros HK HB.
  assert (TO : forall ln X, stable tregs X -> two (J T Q PL X) (call 5 (lab e ln) ascon_to_bi32_rev8) (J T Q PL X)).
  { intros ln X HX. apply two_callfree; [reflexivity|reflexivity|exact HX]. }
  constructor.
  - exact (perm_bi_ct HK HB).
  - intros ln b X Hb HX. apply two_then with (R := J T Q PL X).
    + destruct Hb as [<-|[<-|[]]]; (apply two_free; [reflexivity|st HX]).
    + apply TO, HX.
  - intros ln b X Hb HX. apply two_then with (R := J T Q PL0 X).
    + destruct Hb as [<-|[<-|[]]]; (apply two_free; [reflexivity|st HX]).
    + apply two_callfree; [reflexivity|reflexivity|exact HX].
  - intros X HS HX. apply two_block with (W := [(10%nat, 16)]); [reflexivity| |].
    + intros r Xr b n [E|[]]. injection E as <- <-. apply HS, Xr.
    + intros r r' E. apply HX. eapply except_sub; [|exact E]; vm_compute; reflexivity.
  - intros ln X HX. apply two_callfree; [reflexivity|reflexivity|exact HX].
  - intros ln X HX. assert (HX' : stable tregs X) by st HX.
    apply two_then with (R := J T Q PL X); [apply two_free; [reflexivity|st HX]|].
    apply two_then with (R := J T Q PL X); [apply TO, HX'|]. apply two_free; [reflexivity|st HX].
  - intros X HX. apply two_free; [reflexivity|st HX].
  - intros ln X HX. assert (HX' : stable tregs X) by st HX. apply two_then with (R := J T Q PL X); [apply lw_unaligned_ct, HX|apply TO, HX'].
  - right. reflexivity.
Qed.
Theorem ct_dir D : known T Q (tab e) (v_data (rv_model D)) -> tab e + len (v_data (rv_model D)) < 2 ^ 32 -> ctlaws (rv_model D).
Proof.
  destruct D; cbn [rv_model].
  - intros _ _. exact ct_rv32i.
  - intros _ _. exact ct_rv32b.
  - intros _ _. exact ct_fsr.
  - exact ct_bi32.
Qed.
End laws.
