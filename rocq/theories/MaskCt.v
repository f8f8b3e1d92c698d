(** * MaskCt.v -- the masked implementation shows an observer of branches
    and addresses the same, whatever the memory holds and whatever the
    random words are.

    [ctI I R c1 c2] is [ct] of Ct.v with an assertion [I] on the memories
    before and after: it carries the length stored at [*mlen], which the code
    reads again, through the functions that do not write to memory. *)
From Coq Require Import Bool Arith NArith ZArith List Lia Init.Byte ZifyBool ZifyNat ZifyN.
From Verif Require Import Words WordFacts CMem Contract CMemFacts Ct ModelRef ModelCommon ModelWords ModelMask.
Import ListNotations.
Local Open Scope N_scope.

Definition ctI {A} (I : mem -> Prop) (R : A -> A -> Prop) (c1 c2 : C A) : Prop :=
  forall M1 M2 t1 t2 N1 N2 v1 v2, I M1 -> I M2 ->
  c1 M1 = Done t1 N1 v1 -> c2 M2 = Done t2 N2 v2 -> (t1 = t2 /\ R v1 v2) /\ I N1 /\ I N2.

Lemma ctI_ct {A} (R : A -> A -> Prop) c1 c2 : ctI (fun _ => True) R c1 c2 -> ct R c1 c2.
Proof. intros H M1 M2 t1 t2 N1 N2 v1 v2 E1 E2. destruct (H _ _ _ _ _ _ _ _ I I E1 E2) as [G _]. exact G. Qed.
Lemma ct_ctI {A} (R : A -> A -> Prop) c1 c2 : ct R c1 c2 -> ctI (fun _ => True) R c1 c2.
Proof. intros H M1 M2 t1 t2 N1 N2 v1 v2 _ _ E1 E2. split; [exact (H _ _ _ _ _ _ _ _ E1 E2)|split; exact I]. Qed.

(** the same number of cells at the same address *)
Definition aR (a b : arr) : Prop := a_base a = a_base b /\ length (a_cells a) = length (a_cells b).
Lemma aR_refl a : aR a a. Proof. split; reflexivity. Qed.

Section I.
Variable I : mem -> Prop.

Lemma ctI_ret {A} (R : A -> A -> Prop) a b : R a b -> ctI I R (ret a) (ret b).
Proof. intros H M1 M2 t1 t2 N1 N2 v1 v2 I1 I2 E1 E2. inversion E1; inversion E2; subst. auto. Qed.
Lemma ctI_fail_l {A} (R : A -> A -> Prop) e c : ctI I R (fail e) c.
Proof. intros M1 M2 t1 t2 N1 N2 v1 v2 I1 I2 E1. discriminate E1. Qed.
Lemma ctI_bind {A B} (R : A -> A -> Prop) (Q : B -> B -> Prop) c1 c2 f1 f2 :
  ctI I R c1 c2 -> (forall a b, R a b -> ctI I Q (f1 a) (f2 b)) -> ctI I Q (bind c1 f1) (bind c2 f2).
Proof.
  intros H HF M1 M2 t1 t2 N1 N2 v1 v2 I1 I2 E1 E2. unfold bind in E1, E2.
  destruct (c1 M1) as [s1 O1 a1|] eqn:D1; [|discriminate].
  destruct (c2 M2) as [s2 O2 a2|] eqn:D2; [|discriminate].
  destruct (H _ _ _ _ _ _ _ _ I1 I2 D1 D2) as [[-> HR] [J1 J2]].
  destruct (f1 a1 O1) as [u1 P1 b1|] eqn:F1; [|discriminate].
  destruct (f2 a2 O2) as [u2 P2 b2|] eqn:F2; [|discriminate].
  inversion E1; inversion E2; subst.
  destruct (HF _ _ HR _ _ _ _ _ _ _ _ J1 J2 F1 F2) as [[-> HQ] HI]. auto.
Qed.
Lemma ctI_weaken {A} (R R' : A -> A -> Prop) c1 c2 :
  ctI I R c1 c2 -> (forall a b, R a b -> R' a b) -> ctI I R' c1 c2.
Proof.
  intros H HR M1 M2 t1 t2 N1 N2 v1 v2 I1 I2 E1 E2.
  destruct (H _ _ _ _ _ _ _ _ I1 I2 E1 E2) as [[-> G] J]. auto.
Qed.
Lemma ctI_branch b : ctI I (fun x y => x = b /\ y = b) (branch b) (branch b).
Proof. intros M1 M2 t1 t2 N1 N2 v1 v2 I1 I2 E1 E2. inversion E1; inversion E2; subst. auto. Qed.
Lemma ctI_padd p n : ctI I (fun x y => x = p + n /\ y = p + n) (padd p n) (padd p n).
Proof.
  unfold padd. destruct (_ && _); [apply ctI_fail_l|]. destruct (_ <=? _); [apply ctI_fail_l|].
  apply ctI_ret. auto.
Qed.
Lemma ctI_ldb p : ctI I any (ldb p) (ldb p).
Proof.
  intros M1 M2 t1 t2 N1 N2 v1 v2 I1 I2 E1 E2. unfold ldb in *. destruct (p =? 0); [discriminate|].
  destruct (rd M1 p); [|discriminate]. destruct (rd M2 p); [|discriminate].
  inversion E1; inversion E2; subst. repeat split; assumption.
Qed.
Lemma ctI_ld p i : ctI I any (ld p i) (ld p i).
Proof. unfold ld. eapply ctI_bind; [apply ctI_padd|]. intros a b [-> ->]. apply ctI_ldb. Qed.
Lemma ctI_memcpy_in p n : ctI I any (memcpy_in p n) (memcpy_in p n).
Proof.
  intros M1 M2 t1 t2 N1 N2 v1 v2 I1 I2 E1 E2. unfold memcpy_in in *. destruct (p =? 0); [discriminate|].
  destruct (_ <=? _); [discriminate|].
  destruct (read_bytes (N.to_nat n) M1 p); [|discriminate].
  destruct (read_bytes (N.to_nat n) M2 p); [|discriminate].
  inversion E1; inversion E2; subst. repeat split; assumption.
Qed.
Lemma ctI_for {S} (R : S -> S -> Prop) (b1 b2 : N -> S -> C S) :
  (forall i s1 s2, R s1 s2 -> ctI I R (b1 i s1) (b2 i s2)) ->
  forall k i s1 s2, R s1 s2 -> ctI I R (for_loop k i b1 s1) (for_loop k i b2 s2).
Proof.
  intros HB k. induction k as [|k IH]; intros i s1 s2 HR; cbn [for_loop].
  - eapply ctI_bind; [apply ctI_branch|]. intros _ _ _. apply ctI_ret, HR.
  - eapply ctI_bind; [apply ctI_branch|]. intros _ _ _.
    eapply ctI_bind; [apply HB, HR|]. intros a b Hab. apply IH, Hab.
Qed.
Lemma ctI_while {S} (R : S -> S -> Prop) cond (b1 b2 : S -> C S) :
  (forall s1 s2, R s1 s2 -> cond s1 = cond s2) ->
  (forall s1 s2, R s1 s2 -> ctI I R (b1 s1) (b2 s2)) ->
  forall f s1 s2, R s1 s2 -> ctI I R (while f cond b1 s1) (while f cond b2 s2).
Proof.
  intros HC HB f. induction f as [|f IH]; intros s1 s2 HR; cbn [while]; [apply ctI_fail_l|].
  rewrite (HC _ _ HR). eapply ctI_bind; [apply ctI_branch|]. intros _ _ [-> ->].
  destruct (cond s2).
  - eapply ctI_bind; [apply HB, HR|]. intros a b Hab. apply IH, Hab.
  - apply ctI_ret, HR.
Qed.

(** ** The share buffers *)

Lemma ctI_aget a b i : aR a b -> ctI I any (aget a i) (aget b i).
Proof.
  intros [Hb _] M1 M2 t1 t2 N1 N2 v1 v2 I1 I2 E1 E2. unfold aget in *.
  destruct (nth_error (a_cells a) _) as [[x|]|]; try discriminate.
  destruct (nth_error (a_cells b) _) as [[y|]|]; try discriminate.
  inversion E1; inversion E2; subst. rewrite Hb. repeat split; assumption.
Qed.
Lemma length_lset {A} (l : list A) : forall i v, length (lset l i v) = length l.
Proof. induction l as [|x l IH]; intros [|i] v; cbn; try reflexivity. rewrite IH. reflexivity. Qed.
Lemma ctI_aset a b i v w : aR a b -> ctI I aR (aset a i v) (aset b i w).
Proof.
  intros [Hb Hl] M1 M2 t1 t2 N1 N2 v1 v2 I1 I2 E1 E2. unfold aset, alen in *. rewrite Hl in E1.
  destruct (i <? _); [|discriminate]. inversion E1; inversion E2; subst. rewrite Hb.
  repeat split; try assumption. cbn [a_cells]. rewrite !length_lset. exact Hl.
Qed.
Lemma ctI_aoff a b o n : aR a b -> ctI I (fun x y => x = o + n /\ y = o + n) (aoff a o n) (aoff b o n).
Proof.
  intros [_ Hl]. unfold aoff, alen. rewrite Hl. destruct (_ <=? _); [|apply ctI_fail_l]. apply ctI_ret. auto.
Qed.
Lemma ctI_whenC {A} (R : A -> A -> Prop) t (f1 f2 : A -> C A) w1 w2 :
  R w1 w2 -> (forall w1 w2, R w1 w2 -> ctI I R (f1 w1) (f2 w2)) -> ctI I R (whenC t f1 w1) (whenC t f2 w2).
Proof. intros HR HF. unfold whenC. destruct t; [apply HF, HR|apply ctI_ret, HR]. Qed.

Lemma ctI_LOADSHARE a b o ns : aR a b -> ctI I any (LOADSHARE a o ns) (LOADSHARE b o ns).
Proof.
  intros H. unfold LOADSHARE. eapply ctI_bind; [apply ctI_aget, H|]. intros x y _.
  eapply ctI_bind; [apply ctI_aget, H|]. intros x' y' _. apply ctI_ret. constructor.
Qed.
Lemma ctI_STORESHARE a b o s1 s2 ns : aR a b -> ctI I aR (STORESHARE a o s1 ns) (STORESHARE b o s2 ns).
Proof.
  intros H. unfold STORESHARE. eapply ctI_bind; [apply ctI_aset, H|]. intros x y Hxy. apply ctI_aset, Hxy.
Qed.
Lemma ctI_MLOAD a b o ns : aR a b -> ctI I any (MLOAD a o ns) (MLOAD b o ns).
Proof.
  intros H. unfold MLOAD.
  do 3 (eapply ctI_bind; [apply (ctI_whenC any);
    [constructor|intros ? ? _; eapply ctI_bind; [apply ctI_LOADSHARE, H|intros ? ? _; apply ctI_ret; constructor]]|intros ? ? _]).
  apply (ctI_whenC any); [constructor|intros ? ? _]. eapply ctI_bind; [apply ctI_LOADSHARE, H|intros ? ? _; apply ctI_ret; constructor].
Qed.
Lemma ctI_MSTORE a b o w1 w2 ns : aR a b -> ctI I aR (MSTORE a o w1 ns) (MSTORE b o w2 ns).
Proof.
  intros H. unfold MSTORE.
  do 3 (eapply ctI_bind; [apply (ctI_whenC aR); [eassumption|intros; apply ctI_STORESHARE; assumption]|intros ? ? ?]).
  apply (ctI_whenC aR); [assumption|intros; apply ctI_STORESHARE; assumption].
Qed.
End I.

Ltac st := eapply ctI_bind;
  [lazymatch goal with
   | |- ctI _ _ (MLOAD _ _ _) _ => apply ctI_MLOAD; eassumption
   | |- ctI _ _ (MSTORE _ _ _ _) _ => apply ctI_MSTORE; eassumption
   | |- ctI _ _ (aoff _ _ _) _ => apply ctI_aoff; eassumption
   | |- ctI _ _ (aget _ _) _ => apply ctI_aget; eassumption
   | |- ctI _ _ (aset _ _ _) _ => apply ctI_aset; eassumption
   | |- ctI _ _ (branch _) _ => apply ctI_branch
   | |- ctI _ _ (padd _ _) _ => apply ctI_padd
   | |- ctI _ _ (memcpy_in _ _) _ => apply ctI_memcpy_in
   | |- ctI _ _ (ld _ _) _ => apply ctI_ld
   end|];
  let x := fresh "x" in let y := fresh "y" in let h := fresh "h" in intros x y h;
  cbv beta in h;
  lazymatch type of h with any _ _ => clear h | _ = _ /\ _ => destruct h as [-> ->] | _ => idtac end.

Section Mask.
Variables (F : cfg) (R1 R2 : N -> N) (I : mem -> Prop).

(** the positions on the tapes are equal; the states are arbitrary *)
Definition gR {A} (u v : A * N) : Prop := snd u = snd v.
Definition sR (u v : mstate * arr) : Prop := aR (snd u) (snd v).

Lemma ct_initaead g k1 k2 n1 n2 : aR k1 k2 -> aR n1 n2 -> ctI I gR (m_initaead F R1 g k1 n1) (m_initaead F R2 g k2 n2).
Proof.
  intros Hk Hn. unfold m_initaead, MZERO, MRND. do 3 st. destruct (_ =? _)%nat; do 3 st; apply ctI_ret; reflexivity.
Qed.
Lemma ct_pad s1 s2 i n : ctI I any (m_pad s1 i n) (m_pad s2 i n).
Proof. unfold m_pad. destruct (_ <? 31); [apply ctI_ret; constructor|apply ctI_fail_l]. Qed.

Lemma ct_adata s1 s2 a1 a2 n : aR a1 a2 -> ctI I any (m_adata F s1 a1 n) (m_adata F s2 a2 n).
Proof.
  intros Ha. unfold m_adata. st. eapply ctI_bind; [|intros ? ? _; apply ctI_ret; constructor].
  instantiate (1 := any). destruct (negb _); [|apply ctI_ret; constructor].
  eapply ctI_bind.
  { apply (ctI_while I (fun u v => snd (fst u) = snd (fst v) /\ snd u = snd v)); [| |split; reflexivity].
    - intros [[? ?] m1] [[? ?] m2] [_ E]. cbn in E. subst. reflexivity.
    - intros [[? ?] ?] [[? ?] ?] [E1 E2]. cbn in E1, E2. subst. cbn [m_ad_body].
      do 4 st. apply ctI_ret. split; reflexivity. }
  intros [[? o1] m1] [[? o2] m2] [E1 E2]. cbn in E1, E2. subst. st.
  eapply (ctI_bind _ (fun u v => snd (fst u) = snd (fst v) /\ snd u = snd v /\ snd (fst (fst u)) = snd (fst (fst v)))).
  { destruct (8 <=? _).
    - do 2 st. apply ctI_ret. repeat split.
    - apply ctI_ret. repeat split. }
  intros [[[? i1] p1] q1] [[[? i2] p2] q2] (E1 & E2 & E3). cbn in E1, E2, E3. subst.
  eapply ctI_bind; [apply ct_pad|]. intros ? ? _. st. eapply ctI_bind; [|intros ? ? _; apply ctI_ret; constructor].
  instantiate (1 := any). destruct (negb _); [st|]; apply ctI_ret; constructor.
Qed.

(** the parts of the states of the loops of encryption and decryption *)
Definition lR (u v : mstate * arr * N * N * N) : Prop :=
  let '(_, a, x, y, z) := u in let '(_, a', x', y', z') := v in aR a a' /\ x = x' /\ y = y' /\ z = z'.

Lemma ct_encrypt s1 s2 c1 c2 m1 m2 n : aR c1 c2 -> aR m1 m2 -> ctI I sR (m_encrypt F s1 c1 m1 n) (m_encrypt F s2 c2 m2 n).
Proof.
  intros Hc Hm. unfold m_encrypt. eapply ctI_bind.
  { apply (ctI_while I lR); [| |repeat split; apply Hc].
    - intros [[[[? ?] ?] ?] ?] [[[[? ?] ?] ?] ?] (_ & _ & _ & ->). reflexivity.
    - intros [[[[? ?] ?] ?] ?] [[[[? ?] ?] ?] ?] (Ha & -> & -> & ->). cbn [m_enc_body].
      do 8 st. apply ctI_ret. split; [assumption|auto]. }
  intros [[[[? ?] ?] ?] ?] [[[[? ?] ?] ?] ?] (Ha & -> & -> & ->). st.
  eapply (ctI_bind _ (fun u v => let '(_, i, a, x, y, z) := u in let '(_, i', a', x', y', z') := v in
    aR a a' /\ i = i' /\ x = x' /\ y = y' /\ z = z')).
  { destruct (8 <=? _).
    - do 4 st. apply ctI_ret. split; [assumption|auto].
    - apply ctI_ret. repeat split; apply Ha. }
  intros [[[[[? ?] ?] ?] ?] ?] [[[[[? ?] ?] ?] ?] ?] (Hb & -> & -> & -> & ->).
  eapply ctI_bind; [apply ct_pad|]. intros ? ? _. st. destruct (negb _); [do 2 st|]; apply ctI_ret; assumption.
Qed.
Lemma ct_decrypt s1 s2 c1 c2 m1 m2 n : aR c1 c2 -> aR m1 m2 -> ctI I sR (m_decrypt F s1 m1 c1 n) (m_decrypt F s2 m2 c2 n).
Proof.
  intros Hc Hm. unfold m_decrypt. eapply ctI_bind.
  { apply (ctI_while I lR); [| |repeat split; apply Hm].
    - intros [[[[? ?] ?] ?] ?] [[[[? ?] ?] ?] ?] (_ & _ & _ & ->). reflexivity.
    - intros [[[[? ?] ?] ?] ?] [[[[? ?] ?] ?] ?] (Ha & -> & -> & ->). cbn [m_dec_body].
      do 8 st. apply ctI_ret. split; [assumption|auto]. }
  intros [[[[? ?] ?] ?] ?] [[[[? ?] ?] ?] ?] (Ha & -> & -> & ->). st.
  eapply (ctI_bind _ (fun u v => let '(_, i, a, x, y, z) := u in let '(_, i', a', x', y', z') := v in
    aR a a' /\ i = i' /\ x = x' /\ y = y' /\ z = z')).
  { destruct (8 <=? _).
    - do 4 st. apply ctI_ret. split; [assumption|auto].
    - apply ctI_ret. repeat split; apply Ha. }
  intros [[[[[? ?] ?] ?] ?] ?] [[[[[? ?] ?] ?] ?] ?] (Hb & -> & -> & -> & ->).
  eapply ctI_bind; [apply ct_pad|]. intros ? ? _. st. destruct (negb _); [do 2 st|]; apply ctI_ret; assumption.
Qed.
Lemma ct_final s1 s2 k1 k2 : aR k1 k2 -> ctI I any (m_final F s1 k1) (m_final F s2 k2).
Proof. intros Hk. unfold m_final. do 3 st. apply ctI_ret. constructor. Qed.
Lemma ct_settag s1 s2 t1 t2 o : aR t1 t2 -> ctI I aR (m_settag F s1 t1 o) (m_settag F s2 t2 o).
Proof. intros Ht. unfold m_settag. do 2 st. apply ctI_MSTORE. assumption. Qed.
Lemma ct_xortag s1 s2 t1 t2 o : aR t1 t2 -> ctI I any (m_xortag F s1 t1 o) (m_xortag F s2 t2 o).
Proof. intros Ht. unfold m_xortag. do 3 st. apply ctI_ret. constructor. Qed.
Lemma g_encdec s1 s2 g : gR (m_level_encdec F R1 s1 g) (m_level_encdec F R2 s2 g).
Proof. unfold m_level_encdec. destruct (_ <? _)%nat; reflexivity. Qed.
Lemma g_final s1 s2 g : gR (m_level_final F R1 s1 g) (m_level_final F R2 s2 g).
Proof. unfold m_level_final. destruct (_ <? _)%nat; reflexivity. Qed.

(** ** shares.c *)

Lemma ct_gs_share ns i d : forall u v, aR (fst u) (fst v) /\ snd u = snd v ->
  ctI I (fun u v => aR (fst u) (fst v) /\ snd u = snd v) (gs_share R1 ns i d u) (gs_share R2 ns i d v).
Proof.
  intros [a g] [b g'] [Ha Hg]. cbn in Ha, Hg. subst. unfold gs_share. do 6 st. apply ctI_ret. split; [assumption|reflexivity].
Qed.
Lemma ct_gs_xor ns j x y a b : aR a b -> ctI I aR (gs_xor ns j x a) (gs_xor ns j y b).
Proof. intros Ha. unfold gs_xor. do 3 st. apply ctI_aset. assumption. Qed.
Lemma ct_generate e g a b ns data n : aR a b ->
  ctI I (fun u v => aR (fst u) (fst v) /\ snd u = snd v) (generate_shares R1 e g a ns data n) (generate_shares R2 e g b ns data n).
Proof.
  intros Ha. unfold generate_shares. eapply ctI_bind.
  { apply (ctI_for I (fun u v => aR (fst u) (fst v) /\ snd u = snd v)); [|split; [exact Ha|reflexivity]].
    intros j [u gu] [v gv] [Hu Hg]. cbn in Hu, Hg. subst. unfold gs_random. do 2 st.
    apply ctI_for; [|split; [assumption|reflexivity]]. intros. apply ct_gs_share. assumption. }
  intros [u gu] [v gv] [Hu Hg]. cbn in Hu, Hg. subst. eapply ctI_bind.
  { apply (ctI_for I aR); [|exact Hu]. intros i u' v' Huv. unfold gs_word. do 2 st. apply ct_gs_xor, Huv. }
  intros u' v' Huv. st. destruct (negb _); [|apply ctI_ret; split; [assumption|reflexivity]].
  eapply ctI_bind.
  { apply (ctI_for I any); [|constructor]. intros i x y _. unfold gs_byte. st. apply ctI_ret. constructor. }
  intros x y _. eapply ctI_bind; [apply ct_gs_xor, Huv|]. intros u2 v2 H2. apply ctI_ret. split; [assumption|reflexivity].
Qed.
Lemma aR_off a b o : aR a b -> aR (Arr (a_base a + 4 * o) (skipn (N.to_nat o) (a_cells a))) (Arr (a_base b + 4 * o) (skipn (N.to_nat o) (a_cells b))).
Proof. intros [Hb Hl]. split; cbn; [rewrite Hb; reflexivity|]. rewrite !skipn_length, Hl. reflexivity. Qed.
Lemma ct_generate_at e g a b o ns data n : aR a b ->
  ctI I (fun u v => aR (fst u) (fst v) /\ snd u = snd v) (generate_shares_at R1 e g a o ns data n) (generate_shares_at R2 e g b o ns data n).
Proof.
  intros Ha. unfold generate_shares_at. eapply ctI_bind; [apply ct_generate, aR_off, Ha|].
  intros [u gu] [v gv] [Hu Hg]. cbn in Hu, Hg. subst. apply ctI_ret. split; [|reflexivity]. destruct Ha as [Hb Hl], Hu as [_ Hu].
  split; cbn; [exact Hb|]. rewrite !app_length, !firstn_length, Hl, Hu. reflexivity.
Qed.
End Mask.

Lemma ct_combine e data n a b o ns : aR a b -> ct any (combine_shares e data n a o ns) (combine_shares e data n b o ns).
Proof.
  intros Ha. apply (aR_off a b o) in Ha. unfold combine_shares.
  set (A := Arr _ _) in *. set (B := Arr (a_base b + _) _) in *. clearbody A B. clear a b.
  assert (S : forall k i j, ct any (for_loop k j (cs_share (N.of_nat ns) i A) 0) (for_loop k j (cs_share (N.of_nat ns) i B) 0)).
  { intros k i j. apply ctI_ct, (ctI_for _ any); [|constructor]. intros d x y _. unfold cs_share. do 2 st. apply ctI_ret. constructor. }
  eapply ct_bind.
  { apply (ct_for any); [|constructor]. intros i u v _. unfold cs_word. eapply ct_bind; [apply S|]. intros x y _.
    eapply ct_bind; [apply ct_padd|]. intros q q' [-> ->]. apply ct_memcpy_out. rewrite !length_to_host. reflexivity. }
  intros _ _ _. eapply ct_bind; [apply ct_branch|]. intros ? ? [-> ->]. destruct (negb _); [|apply ct_ret; constructor].
  eapply ct_bind; [apply S|]. intros x y _. apply (ct_for any); [|constructor]. intros i u v _. apply ct_st.
Qed.

(** ** The length in memory *)

(** reading [*p], if it succeeds, gives [n] *)
Definition Stored (e : endian) (p : ptr) (n : N) (M : mem) : Prop :=
  forall t N v, load_ull e p M = Done t N v -> v = n.
Lemma ctI_load e p n : ctI (Stored e p n) (fun x y => x = n /\ y = n) (load_ull e p) (load_ull e p).
Proof.
  intros M1 M2 t1 t2 N1 N2 v1 v2 I1 I2 E1 E2. pose proof (I1 _ _ _ E1). pose proof (I2 _ _ _ E2).
  unfold load_ull, bind, memcpy_in in E1, E2. destruct (p =? 0); [discriminate|]. destruct (_ <=? _); [discriminate|].
  destruct (read_bytes _ M1 p); [|discriminate]. destruct (read_bytes _ M2 p); [|discriminate].
  inversion E1; inversion E2; subst. auto.
Qed.
Lemma stored e p n : fits 64 n -> forall M t M' v, store_ull e p n M = Done t M' v -> Stored e p n M'.
Proof.
  intros Hn M t M' v E t' M2 x L. unfold store_ull, memcpy_out in E.
  destruct (p =? 0) eqn:Hp; [discriminate|]. destruct (_ <=? _) eqn:Hb; [discriminate|].
  destruct (all_writable _ M p); [|discriminate]. inversion E; subst.
  assert (R : readable (write M p (to_host e 8 n)) p (to_host e 8 n)).
  { apply readable_write_self; [apply N.leb_gt in Hb; exact Hb|]. intros _. apply N.eqb_neq, Hp. }
  destruct (runs_load_ull e _ p n R Hn) as (u & L'). rewrite L' in L. inversion L; subst. reflexivity.
Qed.

(** With different assertions before and after. *)
Definition ctT {A} (P Q : mem -> Prop) (R : A -> A -> Prop) (c1 c2 : C A) : Prop :=
  forall M1 M2 t1 t2 N1 N2 v1 v2, P M1 -> P M2 ->
  c1 M1 = Done t1 N1 v1 -> c2 M2 = Done t2 N2 v2 -> (t1 = t2 /\ R v1 v2) /\ Q N1 /\ Q N2.
Definition nothing : mem -> Prop := fun _ => True.
Lemma ctT_bind {A B} (P Q O : mem -> Prop) (R : A -> A -> Prop) (S : B -> B -> Prop) c1 c2 f1 f2 :
  ctT P Q R c1 c2 -> (forall a b, R a b -> ctT Q O S (f1 a) (f2 b)) -> ctT P O S (bind c1 f1) (bind c2 f2).
Proof.
  intros H HF M1 M2 t1 t2 N1 N2 v1 v2 I1 I2 E1 E2. unfold bind in E1, E2.
  destruct (c1 M1) as [s1 O1 a1|] eqn:D1; [|discriminate].
  destruct (c2 M2) as [s2 O2 a2|] eqn:D2; [|discriminate].
  destruct (H _ _ _ _ _ _ _ _ I1 I2 D1 D2) as [[-> HR] [J1 J2]].
  destruct (f1 a1 O1) as [u1 P1 b1|] eqn:F1; [|discriminate].
  destruct (f2 a2 O2) as [u2 P2 b2|] eqn:F2; [|discriminate].
  inversion E1; inversion E2; subst.
  destruct (HF _ _ HR _ _ _ _ _ _ _ _ J1 J2 F1 F2) as [[-> HQ] HI]. auto.
Qed.
Lemma ct_ctT {A} (P : mem -> Prop) (R : A -> A -> Prop) c1 c2 : ct R c1 c2 -> ctT P nothing R c1 c2.
Proof. intros H M1 M2 t1 t2 N1 N2 v1 v2 _ _ E1 E2. split; [exact (H _ _ _ _ _ _ _ _ E1 E2)|split; exact I]. Qed.
Lemma ctT_store e p n : fits 64 n -> ctT nothing (Stored e p n) any (store_ull e p n) (store_ull e p n).
Proof.
  intros Hn M1 M2 t1 t2 N1 N2 v1 v2 _ _ E1 E2. split; [exact (ct_store_ull e p n n _ _ _ _ _ _ _ _ E1 E2)|].
  split; eapply stored; eassumption.
Qed.

Lemma fits_add64 a b : fits 64 (add64 a b).
Proof. apply fits_trunc. Qed.
Lemma fits_sub64 a b : fits 64 (sub64 a b).
Proof. apply fits_trunc. Qed.

Section Top.
Variables (F : cfg) (R1 R2 : N -> N).


Lemma ct_encrypt_shared e g c1 c2 clen m1 m2 mlen a1 a2 adlen n1 n2 k1 k2 :
  aR c1 c2 -> aR m1 m2 -> aR a1 a2 -> aR n1 n2 -> aR k1 k2 ->
  ctT nothing (Stored e clen (add64 mlen 16)) (fun u v => aR (fst u) (fst v))
    (m_encrypt_shared F R1 e g c1 clen m1 mlen a1 adlen n1 k1) (m_encrypt_shared F R2 e g c2 clen m2 mlen a2 adlen n2 k2).
Proof.
  intros Hc Hm Ha Hn Hk. unfold m_encrypt_shared.
  eapply ctT_bind; [apply ctT_store, fits_add64|]. intros _ _ _.
  change (ctT ?P ?P) with (@ctI (arr * Z) P). generalize (Stored e clen (add64 mlen 16)). intros I.
  eapply ctI_bind; [apply ct_initaead; eassumption|]. intros [s1 g1] [s2 g2] E; unfold gR in E; cbn [snd] in E; subst.
  eapply ctI_bind; [apply ct_adata; eassumption|]. intros t1 t2 _.
  pose proof (g_encdec F R1 R2 t1 t2 g2) as G.
  destruct (_ =? _)%nat; [|destruct (m_level_encdec F R1 t1 g2) as [t1' g1], (m_level_encdec F R2 t2 g2) as [t2' g2']; unfold gR in G; cbn [snd] in G; subst].
  all: eapply ctI_bind; [apply ct_encrypt; eassumption|]; intros [u1 d1] [u2 d2] Hd; unfold sR in Hd; cbn [snd] in Hd.
  all: destruct (nM F =? nKEY F)%nat; [|destruct (m_level_final F R1 u1 _), (m_level_final F R2 u2 _)].
  all: eapply ctI_bind; [apply ct_final; eassumption|]; intros w1 w2 _; st;
    eapply ctI_bind; [apply ct_settag; eassumption|]; intros x1 x2 Hx; apply ctI_ret; exact Hx.
Qed.
Lemma ct_decrypt_shared e g m1 m2 mlen c1 c2 clen a1 a2 adlen n1 n2 k1 k2 :
  aR c1 c2 -> aR m1 m2 -> aR a1 a2 -> aR n1 n2 -> aR k1 k2 ->
  ctT nothing (Stored e mlen (sub64 clen 16)) (fun u v => aR (fst u) (fst v))
    (m_decrypt_shared F R1 e g m1 mlen c1 clen a1 adlen n1 k1) (m_decrypt_shared F R2 e g m2 mlen c2 clen a2 adlen n2 k2).
Proof.
  intros Hc Hm Ha Hn Hk. unfold m_decrypt_shared.
  eapply ctT_bind; [apply ctT_store, fits_sub64|]. intros _ _ _.
  change (ctT ?P ?P) with (@ctI (arr * Z) P). pose proof (ctI_load e mlen (sub64 clen 16)) as L. revert L.
  generalize (Stored e mlen (sub64 clen 16)). intros I L.
  eapply ctI_bind; [apply ct_initaead; eassumption|]. intros [s1 g1] [s2 g2] E; unfold gR in E; cbn [snd] in E; subst.
  eapply ctI_bind; [apply ct_adata; eassumption|]. intros t1 t2 _.
  pose proof (g_encdec F R1 R2 t1 t2 g2) as G.
  destruct (_ =? _)%nat; [|destruct (m_level_encdec F R1 t1 g2) as [t1' g1], (m_level_encdec F R2 t2 g2) as [t2' g2']; unfold gR in G; cbn [snd] in G; subst].
  all: eapply ctI_bind; [exact L|]; intros ? ? [-> ->].
  all: eapply ctI_bind; [apply ct_decrypt; eassumption|]; intros [u1 d1] [u2 d2] Hd; unfold sR in Hd; cbn [snd] in Hd.
  all: destruct (nM F =? nKEY F)%nat; [|destruct (m_level_final F R1 u1 _), (m_level_final F R2 u2 _)].
  all: eapply ctI_bind; [apply ct_final; eassumption|]; intros w1 w2 _;
    (eapply ctI_bind; [exact L|]); intros ? ? [-> ->]; st;
    eapply ctI_bind; [apply ct_xortag; eassumption|]; intros x1 x2 Hx; apply ctI_ret; exact Hd.
Qed.

(** the result of [generate_shares]: buffer and position on the tape *)
Ltac gen := eapply (ctT_bind nothing nothing nothing);
  [first [apply ct_generate; first [eassumption | apply aR_refl] | apply ct_generate_at; eassumption]
  |let H := fresh "H" in let E := fresh "E" in intros [? ?] [? ?] [H E]; cbn [fst snd] in H, E; subst].

Lemma ct_masked_encrypt e H c clen m mlen ad adlen nsec npub k :
  ct any (masked_encrypt F R1 e H c clen m mlen ad adlen nsec npub k) (masked_encrypt F R2 e H c clen m mlen ad adlen nsec npub k).
Proof.
  apply ctI_ct. change (ctT nothing nothing any (masked_encrypt F R1 e H c clen m mlen ad adlen nsec npub k) (masked_encrypt F R2 e H c clen m mlen ad adlen nsec npub k)).
  unfold masked_encrypt. do 4 gen.
  eapply ctT_bind; [apply ct_encrypt_shared; try eassumption; apply aR_refl|]. intros [d1 r1] [d2 r2] Hd. cbn [fst] in Hd.
  eapply ctT_bind; [apply ctI_load|]. intros ? ? [-> ->].
  eapply ctT_bind with (Q := nothing); [apply ct_ctT, ctI_ct, ctI_aoff, Hd|]. intros ? ? [-> ->].
  apply ct_ctT. eapply ct_bind; [apply ct_combine, Hd|]. intros _ _ _.
  eapply ct_bind; [apply ct_padd|]. intros ? ? [-> ->].
  eapply ct_bind; [apply ct_combine, Hd|]. intros _ _ _. apply ct_ret. constructor.
Qed.
Lemma ct_masked_decrypt e H m mlen nsec c clen ad adlen npub k :
  ct any (masked_decrypt F R1 e H m mlen nsec c clen ad adlen npub k) (masked_decrypt F R2 e H m mlen nsec c clen ad adlen npub k).
Proof.
  apply ctI_ct. change (ctT nothing nothing any (masked_decrypt F R1 e H m mlen nsec c clen ad adlen npub k) (masked_decrypt F R2 e H m mlen nsec c clen ad adlen npub k)).
  unfold masked_decrypt.
  eapply (ctT_bind nothing nothing); [apply ct_ctT, ct_branch|]. intros ? ? [-> ->].
  destruct (clen <? 16); [apply ct_ctT, ct_ret; constructor|].
  eapply (ctT_bind nothing nothing); [apply ct_ctT, ctI_ct, ctI_aoff, aR_refl|]. intros ? ? [-> ->].
  do 4 gen. eapply (ctT_bind nothing nothing); [apply ct_ctT, ct_padd|]. intros ? ? [-> ->]. gen.
  eapply ctT_bind; [apply ct_decrypt_shared; try eassumption; apply aR_refl|]. intros [d1 r1] [d2 r2] Hd. cbn [fst] in Hd.
  eapply ctT_bind; [apply ctI_load|]. intros ? ? [-> ->].
  apply ct_ctT. eapply ct_bind; [apply ct_combine, Hd|]. intros _ _ _. apply ct_ret. constructor.
Qed.
End Top.
