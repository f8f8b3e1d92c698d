(** * RvCTCore.v -- constant time of ascon_core of the RISC-V implementations. *)
From Coq Require Import Bool Arith NArith ZArith List Lia Init.Byte Strings.Byte ZifyBool ZifyNat ZifyN.
From Verif Require Import Words WordFacts Asm ModelRv CMem Contract CMemFacts RvFacts RvRound RvSpec RvCT RvCTLaws RvCTMode.
Import ListNotations.
Local Open Scope N_scope.

(** A stored word is known afterwards. *)
Definition also (T : N -> Prop) (p n : N) : N -> Prop := fun a => T a \/ (p <= a /\ a < p + n).
Lemma two_sw_known T Q L (X : regs -> Prop) s b o p v : memb b L = true -> memb s L = true ->
  (forall r, X r -> addr r b o = p /\ r s = v) ->
  two (J T Q L X) (exec [Sw s b o]) (J (also T p 4) (write Q p (le_bytes 4 v)) L X).
Proof.
  intros Hb Hs HX r1 r2 M1 M2 t1 t2 M1' M2' r1' r2' (E & HM & Xr) X1 X2. cbn [exec] in X1, X2.
  destruct (bind_done _ _ _ _ _ _ X1) as (u1 & N1 & q1 & v1 & S1 & Y1 & ->).
  destruct (bind_done _ _ _ _ _ _ X2) as (u2 & N2 & q2 & v2 & S2 & Y2 & ->).
  destruct (ret_done _ _ _ _ _ Y1) as (-> & -> & ->). destruct (ret_done _ _ _ _ _ Y2) as (-> & -> & ->).
  destruct (step_done_sw _ _ _ _ _ _ _ _ S1) as (-> & -> & ->). destruct (step_done_sw _ _ _ _ _ _ _ _ S2) as (-> & -> & ->).
  rewrite <- (addr_eqon L r1 r2 b o E Hb), <- (E s Hs). destruct (HX r1 Xr) as [-> ->].
  split; [reflexivity|]. split; [exact E|split; [|exact Xr]].
  intros a Ha. unfold rd.
  destruct (write_cases Q p (le_bytes 4 v) a) as [(O & _)|(i & Hi & -> & _)].
  - rewrite !write_outside by exact O. apply HM. destruct Ha as [Ha|[A1 A2]]; [exact Ha|].
    unfold outside, len in O. rewrite length_le_bytes in O. lia.
  - rewrite !write_inside by exact Hi. split; reflexivity.
Qed.
Lemma J_less (T T' : N -> Prop) Q Q' L (X : regs -> Prop) P f : (forall a, T a -> T' a) -> (forall a, T a -> rd Q' a = rd Q a) ->
  two P f (J T' Q' L X) -> two P f (J T Q L X).
Proof.
  intros HT HQ. apply two_post. intros r1 r2 M1 M2 (E & HM & Xr). split; [exact E|split; [|exact Xr]].
  intros a Ha. destruct (HM a (HT a Ha)) as [A B]. rewrite A, B, HQ by exact Ha. split; reflexivity.
Qed.

(** ** Decryption: only the branch on the comparison of tags may differ, and
    it takes the value that the call returns. *)
Definition verdict (t : list event) (r : regs) (p s : list event) : Prop :=
  t = p ++ EBranch (r 10%nat =? 0) :: s /\ (r 10%nat = 0 \/ r 10%nat = neg 1).
Definition twov (P : rel) (f : code) (R : rel) : Prop := forall r1 r2 M1 M2 t1 t2 M1' M2' r1' r2',
  P r1 r2 M1 M2 -> f r1 M1 = Done t1 M1' r1' -> f r2 M2 = Done t2 M2' r2' ->
  exists p s, verdict t1 r1' p s /\ verdict t2 r2' p s /\ R r1' r2' M1' M2'.
Lemma twov_then P R S f g : two P f R -> twov R g S -> twov P (f >>> g) S.
Proof.
  intros Hf Hg r1 r2 M1 M2 t1 t2 M1' M2' r1' r2' HP X1 X2. unfold andthen in X1, X2.
  destruct (bind_done _ _ _ _ _ _ X1) as (u1 & N1 & q1 & v1 & S1 & Y1 & ->).
  destruct (bind_done _ _ _ _ _ _ X2) as (u2 & N2 & q2 & v2 & S2 & Y2 & ->).
  destruct (Hf _ _ _ _ _ _ _ _ _ _ HP S1 S2) as [-> HR].
  destruct (Hg _ _ _ _ _ _ _ _ _ _ HR Y1 Y2) as (p & s & [-> Z1] & [-> Z2] & HS).
  exists (u2 ++ p), s. split; [split; [apply app_assoc|exact Z1]|split; [split; [apply app_assoc|exact Z2]|exact HS]].
Qed.
Lemma twov_exec P R S f l : memb 10 (dsts l) = false -> twov P f R -> two R (exec l) S -> twov P (f >>> exec l) S.
Proof.
  intros Hl Hf Hg r1 r2 M1 M2 t1 t2 M1' M2' r1' r2' HP X1 X2. unfold andthen in X1, X2.
  destruct (bind_done _ _ _ _ _ _ X1) as (u1 & N1 & q1 & v1 & S1 & Y1 & ->).
  destruct (bind_done _ _ _ _ _ _ X2) as (u2 & N2 & q2 & v2 & S2 & Y2 & ->).
  destruct (Hf _ _ _ _ _ _ _ _ _ _ HP S1 S2) as (p & s & [-> Z1] & [-> Z2] & HR).
  destruct (Hg _ _ _ _ _ _ _ _ _ _ HR Y1 Y2) as [-> HS].
  exists p, (s ++ v2). unfold verdict. rewrite (exec_except _ _ _ _ _ _ Y1 10%nat Hl), (exec_except _ _ _ _ _ _ Y2 10%nat Hl).
  rewrite <- !app_assoc. split; [split; [reflexivity|exact Z1]|split; [split; [reflexivity|exact Z2]|exact HS]].
Qed.

Section core.
Variables (D : rv_dir) (e : env).
Let V := rv_model D.
(** The constants; what the program may write is elsewhere. *)
Definition T : N -> Prop := fun a => tab e <= a /\ a < tab e + len (v_data V).
Variable Q : mem.
Hypothesis HQ : readable Q (tab e) (v_data V).
Hypothesis HT : tab e + len (v_data V) < 2 ^ 32.
Variables (F c n md : N).
Hypothesis HF : safe T F 80.
Hypothesis HF0 : F <> 0.
Hypothesis HC : safe T c n.
Hypothesis Hn : n < 2 ^ 31.

Lemma known_tab : known T Q (tab e) (v_data V).
Proof. split; [exact HQ|]. intros a H1 H2. split; assumption. Qed.
Lemma laws0 : ctlaws T Q e V. Proof. exact (ct_dir T Q e D known_tab HT). Qed.

(** What stays the same until the text *)
Definition XC (r : regs) : Prop :=
  r 0%nat = 0 /\ r 2%nat = F /\ r 10%nat = c /\ r 12%nat = n /\ r 14%nat < 2 ^ 31 /\ r 17%nat = md.
Definition none_of (l K : list nat) : bool := forallb (fun i => negb (memb i K)) l.
Lemma XC_stable l : none_of [0; 2; 10; 12; 14; 17]%nat l = true -> stable l XC.
Proof.
  intros H r r' Ex. unfold none_of in H. cbn [forallb] in H.
  repeat match goal with H : _ && _ = true |- _ => apply andb_prop in H; destruct H end.
  repeat match goal with H : negb _ = true |- _ => apply negb_true_iff in H end.
  unfold XC. rewrite (Ex 0%nat), (Ex 2%nat), (Ex 10%nat), (Ex 12%nat), (Ex 14%nat), (Ex 17%nat) by assumption. auto.
Qed.
Ltac stc := apply XC_stable; vm_compute; reflexivity.

(** l.318-331 *)
Definition X0 (sp0 ad0 : N) (r : regs) : Prop :=
  r 0%nat = 0 /\ r 2%nat = sp0 /\ r 10%nat = c /\ r 12%nat = n /\ r 14%nat < 2 ^ 31 /\ r 17%nat = ad0.
Lemma prologue_ct m : two (J T Q PL0 (X0 (F + 80) m)) (exec prologue)
  (J T Q PL0 (fun r => r 0%nat = 0 /\ r 2%nat = F /\ r 10%nat = c /\ r 12%nat = n /\ r 14%nat < 2 ^ 31 /\ r 17%nat = m)).
Proof.
  change prologue with ([addi 2 2 (neg 80)] ++ map (fun x => Sw (fst x) 2 (snd x)) saved).
  set (X := fun r : regs => r 0%nat = 0 /\ r 2%nat = F /\ r 10%nat = c /\ r 12%nat = n /\ r 14%nat < 2 ^ 31 /\ r 17%nat = m).
  destruct HF as [F1 F2].
  apply two_app with (R := J T Q PL0 X).
  - apply two_calc; [reflexivity|reflexivity|]. intros r (H0 & H2 & H10 & H12 & H14 & H17).
    cbn [calc fold_left addi fev]. unfold X. rewrite !calc_set. cbn [Nat.eqb]. rewrite H2, trunc_sub by lia.
    split; [exact H0|split; [lia|split; [exact H10|split; [exact H12|split; [exact H14|exact H17]]]]].
  - apply two_block with (W := [(2%nat, 80)]); [reflexivity| |].
    + intros r (H0 & H2 & _) b k [Eq|[]]. injection Eq as <- <-. rewrite H2. exact HF.
    + intros r r' Ex (H0 & H2 & H10 & H12 & H14 & H17). unfold X.
      rewrite (Ex 0%nat eq_refl), (Ex 2%nat eq_refl), (Ex 10%nat eq_refl), (Ex 12%nat eq_refl), (Ex 14%nat eq_refl), (Ex 17%nat eq_refl).
      split; [exact H0|split; [exact H2|split; [exact H10|split; [exact H12|split; [exact H14|exact H17]]]]].
Qed.
(** l.333-369; [m] is the argument of the call *)
Lemma init_ct m : (m = 1 /\ md = 1) \/ (m = 255 /\ md = neg 1) ->
  two (J T Q PL0 (fun r => r 0%nat = 0 /\ r 2%nat = F /\ r 10%nat = c /\ r 12%nat = n /\ r 14%nat < 2 ^ 31 /\ r 17%nat = m))
    (core_init V e) (J T Q PL XC).
Proof.
  intros Hm. unfold core_init.
  apply two_then with (R := J T Q PL0 XC).
  { apply two_calc; [reflexivity|reflexivity|]. intros r (H0 & H2 & H10 & H12 & H14 & H17).
    cbn [calc fold_left slli srai fev]. unfold XC. rewrite !calc_set. cbn [Nat.eqb].
    split; [exact H0|split; [exact H2|split; [exact H10|split; [exact H12|split; [exact H14|]]]]].
    rewrite H17. destruct Hm as [[-> ->]|[-> ->]]; vm_compute; reflexivity. }
  apply two_then with (R := J T Q PL0 XC); [apply (c_load0 _ _ _ _ laws0); [left; reflexivity|stc]|].
  apply two_then with (R := J T Q PL0 XC); [apply two_free; [reflexivity|stc]|].
  apply two_then with (R := J T Q PL0 XC); [apply (c_load0 _ _ _ _ laws0); [right; left; reflexivity|stc]|].
  apply two_then with (R := J T Q PL XC); [apply two_free; [reflexivity|stc]|].
  apply two_then with (R := J T Q PL XC); [apply two_free; [reflexivity|stc]|].
  apply two_then with (R := J T Q PL XC); [apply (c_perm _ _ _ _ laws0); [stc|intros r (H & _); exact H]|].
  apply two_free; [reflexivity|stc].
Qed.

(** After the associated data *)
Definition XT (r : regs) : Prop := r 0%nat = 0 /\ r 2%nat = F /\ r 10%nat = c /\ r 12%nat = n /\ r 17%nat = md.
Lemma XT_stable l : none_of [0; 2; 10; 12; 17]%nat l = true -> stable l XT.
Proof.
  intros H r r' Ex. unfold none_of in H. cbn [forallb] in H.
  repeat match goal with H : _ && _ = true |- _ => apply andb_prop in H; destruct H end.
  repeat match goal with H : negb _ = true |- _ => apply negb_true_iff in H end.
  unfold XT. rewrite (Ex 0%nat), (Ex 2%nat), (Ex 10%nat), (Ex 12%nat), (Ex 17%nat) by assumption. auto.
Qed.
Ltac stt := apply XT_stable; vm_compute; reflexivity.
(** l.373-387 *)
Lemma ad_ct : md < 2 ^ 32 -> two (J T Q PL XC) (core_ad V e) (J T Q PL XT).
Proof.
  intros Hmd. assert (Hc : c < 2 ^ 32) by (destruct HC; lia). destruct HF as [F1 F2]. unfold core_ad.
  apply two_then with (R := J T Q PL XT); [|apply (c_sep _ _ _ _ laws0); stt].
  apply two_cond; [apply beq_eqon; reflexivity|apply two_skip; [reflexivity|intros r [(H0 & H2 & H10 & H12 & _ & H17) _]; unfold XT; auto]|].
  apply drop.
  set (Q1 := write Q (F + 20) (le_bytes 4 c)). set (Q2 := write Q1 (F + 24) (le_bytes 4 md)).
  set (T2 := also (also T (F + 20) 4) (F + 24) 4).
  assert (NT : forall a, T a -> a < F + 20 \/ F + 28 <= a).
  { intros a Ha. destruct (N.lt_ge_cases a (F + 20)); [left; assumption|]. destruct (N.lt_ge_cases a (F + 28)); [|right; assumption].
    exfalso. apply (F2 a); [lia|lia|exact Ha]. }
  assert (L1 : len (le_bytes 4 c) = 4) by (unfold len; rewrite length_le_bytes; reflexivity).
  assert (L2 : len (le_bytes 4 md) = 4) by (unfold len; rewrite length_le_bytes; reflexivity).
  assert (OUT : forall a, T a -> rd Q2 a = rd Q a).
  { intros a Ha. destruct (NT a Ha) as [A|A]; unfold rd, Q2, Q1; (rewrite !write_outside; [reflexivity| |]); unfold outside; rewrite ?L1, ?L2; lia. }
  assert (K0 : known T2 Q2 (tab e) (v_data V)).
  { destruct known_tab as [(A & B & C') K]. split; [split; [exact A|split; [exact B|]]|].
    - intros i Hi. rewrite OUT; [apply C', Hi|]. apply K; unfold len; lia.
    - intros a A1 A2. left. left. apply K; assumption. }
  assert (K1 : known T2 Q2 (F + 20) (le_bytes 4 c)).
  { split.
    - unfold Q2. apply readable_write_disjoint; [|unfold disjoint; rewrite L1, L2; lia].
      unfold Q1. apply readable_write_self; [rewrite L1; lia|intros _; lia].
    - intros a A1 A2. left. right. rewrite L1 in A2. lia. }
  assert (K2 : known T2 Q2 (F + 24) (le_bytes 4 md)).
  { split; [unfold Q2; apply readable_write_self; [rewrite L2; lia|intros _; lia]|].
    intros a A1 A2. right. rewrite L2 in A2. lia. }
  assert (LW : ctlaws T2 Q2 e V) by exact (ct_dir T2 Q2 e D K0 HT).
  assert (HF2 : safe T2 F 16).
  { split; [lia|]. intros a A1 A2 [[Ha|Ha]|Ha]; [|lia|lia]. apply (F2 a); [lia|lia|exact Ha]. }
  apply two_then with (R := J T2 Q2 PL (XD F 0 0 (fun r => r 12%nat = n))).
  { change ([Sw 10 2 20; Sw 17 2 24; li 17 0]) with ([Sw 10 2 20] ++ ([Sw 17 2 24] ++ [li 17 0])).
    apply two_app with (R := J (also T (F + 20) 4) Q1 PL XC).
    - apply two_sw_known; [reflexivity|reflexivity|]. intros r (H0 & H2 & H10 & _).
      split; [|exact H10]. apply addr_ok; [rewrite H2; reflexivity|lia].
    - apply two_app with (R := J T2 Q2 PL XC).
      + apply two_sw_known; [reflexivity|reflexivity|]. intros r (H0 & H2 & _ & _ & _ & H17).
        split; [|exact H17]. apply addr_ok; [rewrite H2; reflexivity|lia].
      + apply two_calc; [reflexivity|reflexivity|]. intros r (H0 & H2 & H10 & H12 & H14 & H17).
        cbn [calc fold_left li fev]. unfold XD. rewrite !calc_set. cbn [Nat.eqb].
        split; [exact H0|split; [exact H2|split; [exact H14|split; [left; reflexivity|exact H12]]]]. }
  assert (YS : stable ([1; 10; 13; 14; 26]%nat ++ sregs ++ tregs) (fun r => r 12%nat = n)).
  { intros r r' Ex H. rewrite (Ex 12%nat eq_refl). exact H. }
  apply two_then with (R := J T2 Q2 PL (XE F 0 (fun r => r 12%nat = n))).
  { apply two_sub with (L := (1%nat :: PL)) (X := XE F 0 (fun r => r 12%nat = n)); [reflexivity|auto|].
    apply two_call with (X1 := XD F 0 0 (fun r => r 12%nat = n)).
    - intros r (H0 & H2 & H14 & H17 & H12). split; [exact H0|split; [exact H2|split; [exact H14|split; [exact H17|exact H12]]]].
    - apply (few T2 Q2 _ PL); [reflexivity|].
      exact (duplex_ct T2 Q2 e V LW F 0 0 HF2 eq_refl ltac:(intros a A1 A2; lia) (fun r => r 12%nat = n) YS). }
  apply two_then with (R := J T Q PL XT).
  { apply (J_less T T2 Q Q2); [intros a Ha; left; left; exact Ha|exact OUT|].
    change ([Lw 10 2 20; Lw 17 2 24]) with ([Lw 10 2 20] ++ [Lw 17 2 24]).
    apply two_app with (R := J T2 Q2 (10%nat :: PL) (fun r => r 0%nat = 0 /\ r 2%nat = F /\ r 10%nat = c /\ r 12%nat = n)).
    - apply two_lw_known; [reflexivity|]. intros r (H0 & H2 & _ & H12). exists (le_bytes 4 c).
      split; [apply length_le_bytes|]. rewrite (addr_ok r 2 20 (F + 20)) by lia. split; [exact K1|].
      rewrite !calc_set. cbn [Nat.eqb]. rewrite le_num_le_bytes.
      split; [exact H0|split; [exact H2|split; [apply trunc_fits; exact Hc|exact H12]]].
    - apply two_sub with (L := (17 :: 10 :: PL)%nat) (X := XT); [reflexivity|auto|].
      apply two_lw_known; [reflexivity|]. intros r (H0 & H2 & H10 & H12). exists (le_bytes 4 md).
      split; [apply length_le_bytes|]. rewrite (addr_ok r 2 24 (F + 24)) by lia. split; [exact K2|].
      unfold XT. rewrite !calc_set. cbn [Nat.eqb]. rewrite le_num_le_bytes.
      split; [exact H0|split; [exact H2|split; [exact H10|split; [exact H12|apply trunc_fits; exact Hmd]]]]. }
  apply (c_perm _ _ _ _ laws0); [stt|intros r (H & _); exact H].
Qed.

(** l.389-404; afterwards the output pointer is behind the text *)
Definition XG (r : regs) : Prop := r 0%nat = 0 /\ r 2%nat = F /\ r 10%nat = c + n /\ r 17%nat = md.
Lemma XG_stable l : none_of [0; 2; 10; 17]%nat l = true -> stable l XG.
Proof.
  intros H r r' Ex. unfold none_of in H. cbn [forallb] in H.
  repeat match goal with H : _ && _ = true |- _ => apply andb_prop in H; destruct H end.
  repeat match goal with H : negb _ = true |- _ => apply negb_true_iff in H end.
  unfold XG. rewrite (Ex 0%nat), (Ex 2%nat), (Ex 10%nat), (Ex 17%nat) by assumption. auto.
Qed.
Ltac stg := apply XG_stable; vm_compute; reflexivity.
Lemma text_ct : md <> 0 -> two (J T Q PL XT) (core_text V e) (J T Q PL XG).
Proof.
  intros Hmd. destruct HF as [F1 F2]. destruct HC as [C1 C2]. unfold core_text.
  assert (YS : stable ([1; 10; 13; 14; 26]%nat ++ sregs ++ tregs) (fun r => r 17%nat = md)).
  { intros r r' Ex H. rewrite (Ex 17%nat eq_refl). exact H. }
  assert (HF2 : safe T F 16) by (split; [lia|intros a A1 A2; apply F2; lia]).
  apply two_then with (R := J T Q PL (XD F c (c + n) (fun r => r 17%nat = md))).
  { apply two_calc; [reflexivity|reflexivity|]. intros r (H0 & H2 & H10 & H12 & H17).
    cbn [calc fold_left mv fev]. unfold XD. rewrite !calc_set. cbn [Nat.eqb].
    split; [exact H0|split; [exact H2|split; [lia|split; [right; lia|exact H17]]]]. }
  apply two_then with (R := J T Q PL XG).
  { apply two_sub with (L := (1%nat :: PL)) (X := XE F (c + n) (fun r => r 17%nat = md)); [reflexivity| |].
    - intros r (H0 & H2 & H10 & H17). split; [exact H0|split; [exact H2|split; [|exact H17]]].
      destruct H10 as [H10|H10]; [congruence|exact H10].
    - apply two_call with (X1 := XD F c (c + n) (fun r => r 17%nat = md)).
      + intros r (H0 & H2 & H14 & H10 & H17). split; [exact H0|split; [exact H2|split; [exact H14|split; [exact H10|exact H17]]]].
      + apply (few T Q _ PL); [reflexivity|].
        exact (duplex_ct T Q e V laws0 F c (c + n) HF2 ltac:(lia) ltac:(intros a A1 A2; apply C2; lia) (fun r => r 17%nat = md) YS). }
  apply two_then with (R := J T Q PL XG); [apply two_free; [reflexivity|stg]|].
  apply two_then with (R := J T Q PL XG); [apply (c_perm _ _ _ _ laws0); [stg|intros r (H & _); exact H]|].
  apply two_free; [reflexivity|stg].
Qed.

(** l.407-433: encryption *)
Definition XF (r : regs) : Prop := r 0%nat = 0 /\ r 2%nat = F.
Lemma tag_enc_ct : safe T c (n + 16) -> md = 1 -> two (J T Q PL XG) (core_tag V e) (J T Q PL XF).
Proof.
  intros [C1 C2] Hmd. unfold core_tag.
  apply two_cond; [apply bge_eqon; reflexivity| |].
  - apply drop. apply two_then with (R := J T Q PL XG); [apply two_free; [reflexivity|stg]|].
    apply two_then with (R := J T Q PL XG); [apply (c_conv _ _ _ _ laws0); stg|].
    apply two_then with (R := J T Q PL XG).
    + assert (HW : forall r, XG r -> safes T [(10%nat, 16)] r).
      { intros r (H0 & H2 & H10 & H17) b k [Eq|[]]. injection Eq as <- <-. rewrite H10. split; [lia|]. intros a A1 A2. apply C2; lia. }
      destruct (c_first _ _ _ _ laws0) as [-> | ->]; (apply two_block with (W := [(10%nat, 16)]); [reflexivity|exact HW|stg]).
    + apply two_calc; [reflexivity|reflexivity|]. intros r (H0 & H2 & _). cbn [calc fold_left li fev]. unfold XF. rewrite !calc_set. cbn [Nat.eqb].
      split; [exact H0|exact H2].
  - intros r1 r2 M1 M2 t1 t2 M1' M2' r1' r2' (_ & _ & ((H0 & H2 & H10 & H17) & HB)). exfalso.
    unfold bge in HB. rewrite H0, H17, Hmd in HB. discriminate HB.
Qed.
(** Decryption *)
Lemma tag_dec_ct : md = neg 1 -> twov (J T Q PL XG) (core_tag V e) (J T Q [0; 2]%nat XF).
Proof.
  intros Hmd. unfold core_tag.
  set (B := v_tag V e 1432 >>> _). set (A := exec [mv 28 22; _; _; _] >>> _).
  assert (G : twov (J T Q PL XG) B (J T Q [0; 2]%nat XF)).
  { unfold B. apply twov_then with (R := J T Q PL XG); [apply (c_tag _ _ _ _ laws0); stg|].
    apply twov_then with (R := J T Q PL XG); [apply two_free; [reflexivity|stg]|].
    intros r1 r2 M1 M2 t1 t2 M1' M2' r1' r2' (Eq & HM & (H0 & H2 & _)) X1 X2. unfold cond in X1, X2.
    assert (G : forall (r : regs) M t M' r', (x <- branch (beq 5 0 r);; (if x then exec [li 10 0] r else exec [li 10 (neg 1)] r)) M = Done t M' r' ->
      verdict t r' [] [] /\ M' = M /\ r' 0%nat = r 0%nat /\ r' 2%nat = r 2%nat).
    { intros r M t M' r' X. destruct (bind_done _ _ _ _ _ _ X) as (u1 & N1 & q1 & v1 & S1 & Y1 & ->).
      unfold branch in S1. injection S1 as <- <- <-. unfold verdict. destruct (beq 5 0 r).
      - rewrite exec_calc in Y1 by reflexivity. injection Y1 as <- <- <-. cbn [calc fold_left li fev]. rewrite !calc_set. cbn [Nat.eqb].
        split; [split; [reflexivity|left; reflexivity]|split; [reflexivity|split; reflexivity]].
      - rewrite exec_calc in Y1 by reflexivity. injection Y1 as <- <- <-. cbn [calc fold_left li fev]. rewrite !calc_set. cbn [Nat.eqb].
        split; [split; [reflexivity|right; reflexivity]|split; [reflexivity|split; reflexivity]]. }
    destruct (G _ _ _ _ _ X1) as (V1 & -> & A1 & B1). destruct (G _ _ _ _ _ X2) as (V2 & -> & A2 & B2).
    exists [], []. split; [exact V1|split; [exact V2|]]. split; [|split; [exact HM|split; congruence]].
    intros i Hi. apply memb_In in Hi. destruct Hi as [<-|[<-|[]]]; rewrite ?A1, ?A2, ?B1, ?B2; apply Eq; reflexivity. }
  intros r1 r2 M1 M2 t1 t2 M1' M2' r1' r2' HJ X1 X2. unfold cond in X1, X2.
  destruct (bind_done _ _ _ _ _ _ X1) as (u1 & N1 & q1 & v1 & S1 & Y1 & ->).
  destruct (bind_done _ _ _ _ _ _ X2) as (u2 & N2 & q2 & v2 & S2 & Y2 & ->).
  unfold branch in S1, S2. injection S1 as <- <- <-. injection S2 as <- <- <-.
  destruct HJ as (Eq & HM & X). assert (X' := X). destruct X' as (H0 & H2 & H10 & H17).
  assert (E1 : bge 17 0 r1 = false) by (unfold bge; rewrite H0, H17, Hmd; reflexivity).
  assert (E2 : bge 17 0 r2 = false) by (rewrite <- E1; symmetry; revert Eq; apply bge_eqon; reflexivity).
  rewrite E1 in *. rewrite E2 in *.
  destruct (G _ _ _ _ _ _ _ _ _ _ (conj Eq (conj HM X)) Y1 Y2) as (p & s & [-> Z1] & [-> Z2] & R).
  exists ([EBranch false] ++ p), s. split; [split; [reflexivity|exact Z1]|split; [split; [reflexivity|exact Z2]|exact R]].
Qed.
(** l.435-447 *)
Lemma epilogue_ct : two (J T Q [0; 2]%nat XF) (exec epilogue) (J T Q [2]%nat (fun _ => True)).
Proof. apply two_block with (W := []); [vm_compute; reflexivity|intros r _ b k []|intros; exact I]. Qed.

Theorem core_enc_ct : safe T c (n + 16) -> md = 1 -> two (J T Q PL0 (X0 (F + 80) 1)) (ascon_core V e) (J T Q [2]%nat (fun _ => True)).
Proof.
  intros HC' Hmd. unfold ascon_core.
  eapply two_then; [apply prologue_ct|]. eapply two_then; [apply init_ct; left; split; [reflexivity|exact Hmd]|].
  eapply two_then; [apply ad_ct; rewrite Hmd; reflexivity|]. eapply two_then; [apply text_ct; rewrite Hmd; discriminate|].
  apply two_then with (R := J T Q [0; 2]%nat XF); [|exact epilogue_ct].
  eapply two_sub; [|intros r H; exact H|apply tag_enc_ct; [exact HC'|exact Hmd]]. reflexivity.
Qed.
Theorem core_dec_ct : md = neg 1 -> twov (J T Q PL0 (X0 (F + 80) 255)) (ascon_core V e) (J T Q [2]%nat (fun _ => True)).
Proof.
  intros Hmd. unfold ascon_core.
  eapply twov_then; [apply prologue_ct|]. eapply twov_then; [apply init_ct; right; split; [reflexivity|exact Hmd]|].
  eapply twov_then; [apply ad_ct; rewrite Hmd; reflexivity|]. eapply twov_then; [apply text_ct; rewrite Hmd; discriminate|].
  eapply twov_exec; [vm_compute; reflexivity|apply tag_dec_ct, Hmd|exact epilogue_ct].
Qed.
End core.
