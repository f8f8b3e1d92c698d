(** * RvCore.v -- ascon_core of the RISC-V implementations, for any variant
    whose parts obey [laws]. *)
From Coq Require Import Bool Arith NArith ZArith List Lia Init.Byte Strings.Byte ZifyBool ZifyNat ZifyN.
From Verif Require Import Words WordFacts Spec SpecFacts Spec12 Spec12Facts StateRep Asm ModelRv CMem Contract CMemFacts RvFacts RvRound RvMode.
Import ListNotations.
Local Open Scope N_scope.

(** ** The stack frame *)
Fixpoint chain (l : list (nat * N)) (top : N) : bool :=
  match l with [] => true | (_, o) :: l => (o + 4 <=? top) && (o mod 4 =? 0) && chain l o end.
Definition kept (F : N) (r : regs) (l : list (nat * N)) (M : mem) : Prop :=
  forall x, In x l -> readable M (F + snd x) (le_bytes 4 (r (fst x))).
Lemma saves_ok F r l : forall top M, chain l top = true -> top <= 80 -> r 2%nat = F -> F mod 4 = 0 -> F + 80 < 2 ^ 32 ->
  writable M F 80 ->
  exists M', runs (exec (map (fun x => Sw (fst x) 2 (snd x)) l) r) M M' r /\ near F 80 M M' /\ kept F r l M' /\
    forall a, F + top <= a -> M' a = M a.
Proof.
  induction l as [|[x o] l IH]; intros top M Hc Ht H2 Ha Hb Hw; cbn [chain map fst snd] in *.
  - exists M. split; [apply st_nil|]. split; [apply near_refl|]. split; [intros x []|reflexivity].
  - apply andb_prop in Hc. destruct Hc as [Hc Hc']. apply andb_prop in Hc. destruct Hc as [Ho Hm].
    apply N.leb_le in Ho. apply N.eqb_eq in Hm.
    set (M1 := write M (F + o) (le_bytes 4 (r x))).
    assert (L4 : len (le_bytes 4 (r x)) = 4) by (unfold len; rewrite length_le_bytes; reflexivity).
    destruct (IH o M1 Hc' ltac:(lia) H2 Ha Hb (writable_write _ _ _ _ _ Hw)) as (M2 & R2 & N2 & K2 & O2).
    assert (F0 : F <> 0) by (apply Hw; discriminate).
    exists M2. split; [|split; [|split]].
    + apply (st_sw x 2 o _ _ _ _ _ (F + o)); [rewrite H2; reflexivity|lia|apply mod4_add; assumption| |exact R2].
      split; [lia|split; [intros _; unfold NULL; lia|]]. intros a A1 A2. apply Hw; lia.
    + apply near_trans with M1; [|exact N2]. apply near_frame; [lia|rewrite L4; lia].
    + intros y [<-|Hy]; [|apply K2, Hy]. cbn [fst snd].
      assert (Q : readable M1 (F + o) (le_bytes 4 (r x))).
      { apply readable_write_self; [rewrite L4; lia|intros _; lia]. }
      destruct Q as (Q1 & Q2 & Q3). split; [exact Q1|split; [exact Q2|]]. intros i Hi. rewrite <- (Q3 i Hi).
      unfold rd. rewrite O2; [reflexivity|lia].
    + intros a Ha'. rewrite O2 by lia. apply write_outside. unfold outside. rewrite L4. lia.
Qed.
Definition restore (r0 : regs) (l : list (nat * N)) (r : regs) : regs := fold_left (fun r x => setr r (fst x) (r0 (fst x))) l r.
Lemma restores_ok F r0 l k : forall r M M' r', (forall i, fits 32 (r0 i)) -> r 2%nat = F -> F mod 4 = 0 -> F + 80 < 2 ^ 32 -> kept F r0 l M ->
  (forall x, In x l -> fst x <> 2%nat /\ snd x mod 4 = 0 /\ snd x + 4 <= 80) ->
  runs (exec k (restore r0 l r)) M M' r' -> runs (exec (map (fun x => Lw (fst x) 2 (snd x)) l ++ k) r) M M' r'.
Proof.
  induction l as [|[x o] l IH]; intros r M M' r' H0 H2 Ha Hb K Hl H; cbn [map app fst snd restore fold_left] in *; [exact H|].
  destruct (Hl (x, o) (or_introl eq_refl)) as (X1 & X2 & X3). cbn [fst snd] in *.
  apply (st_lw x 2 o (le_bytes 4 (r0 x)) _ _ _ _ _ (F + o)); [rewrite H2; reflexivity|lia|apply mod4_add; assumption|
    apply (K (x, o)); left; reflexivity|apply length_le_bytes|].
  rewrite le_num_le_bytes. change (8 * N.of_nat 4) with 32. rewrite trunc_fits by apply H0.
  apply IH; try assumption.
  - unfold setr. destruct (Nat.eqb_spec 2 x); [congruence|exact H2].
  - intros y Hy. apply K. right. exact Hy.
  - intros y Hy. apply Hl. right. exact Hy.
Qed.
Lemma near_kept F n r l M M' : near F n M M' -> 0 < n -> kept F r l M -> (forall x, In x l -> n <= snd x) -> kept F r l M'.
Proof.
  intros HN Hn K Hl x Hx. apply (near_readable F n M); [exact HN|apply K, Hx| |exact Hn].
  specialize (Hl x Hx). unfold disjoint. lia.
Qed.
Lemma write_kept F r l M p b : kept F r l M -> disjoint F 80 p (len b) -> (forall x, In x l -> snd x + 4 <= 80) -> kept F r l (write M p b).
Proof.
  intros K Hd Hl x Hx. apply readable_write_disjoint; [apply K, Hx|]. specialize (Hl x Hx).
  unfold len at 2. rewrite length_le_bytes. unfold disjoint in *. lia.
Qed.

Section core.
Variable ldw : bytes -> N.
Variables ph pl : N -> N.
Variables (V : variant) (P : params) (L : laws ldw ph pl V P) (e : env).
Hypothesis Hlab : forall n, fits 32 (lab e n).
Local Notation SS := (RvMode.SS ldw ph pl).
Local Notation Wd := (RvMode.Wd ldw ph pl).
Local Notation hi := (RvMode.hi ldw ph).
Local Notation lo := (RvMode.lo ldw pl).

Ltac rks := repeat (apply rok_op; [|discriminate|reflexivity]); assumption.
Ltac ops := repeat (apply st_op; [reflexivity|]); apply st_nil.
Ltac exs := repeat (apply except_set; [reflexivity|]); apply except_refl.

(** ** The key in registers *)
Definition KK (r : regs) (k : bytes) : Prop := exists k0 k1, k = k0 ++ k1 /\ Wd r 26 27 k0 /\ Wd r 15 16 k1.
Lemma KK_except r r' l k : except l r r' -> forallb (fun i => negb (memb i l)) [26; 27; 15; 16]%nat = true -> KK r k -> KK r' k.
Proof.
  intros E H (k0 & k1 & -> & H0 & H1). cbn [forallb] in H.
  repeat match goal with H : _ && _ = true |- _ => apply andb_prop in H; destruct H as [? H] end.
  exists k0, k1. split; [reflexivity|].
  split; (eapply Wd_except; [exact E|apply negb_true_iff; assumption|apply negb_true_iff; assumption|assumption]).
Qed.
Lemma cat_xor24 a0 a1 a2 a3 a4 k0 k1 : length a0 = 8%nat -> length a1 = 8%nat -> length a2 = 8%nat -> length a3 = 8%nat ->
  length k0 = 8%nat -> xor_at 24 (cat5 a0 a1 a2 a3 a4) (k0 ++ k1) = cat5 a0 a1 a2 (xor_into a3 k0) (xor_into a4 k1).
Proof.
  intros H0 H1 H2 H3 K0. unfold cat5.
  replace (a0 ++ a1 ++ a2 ++ a3 ++ a4) with ((a0 ++ a1 ++ a2) ++ a3 ++ a4) by (rewrite <- !app_assoc; reflexivity).
  rewrite xor_at_app_r by (rewrite !app_length; lia). rewrite xor_into_app2 by lia. rewrite <- !app_assoc. reflexivity.
Qed.
Lemma cat_xor16 a0 a1 a2 a3 a4 k0 k1 : length a0 = 8%nat -> length a1 = 8%nat -> length a2 = 8%nat -> length a3 = 8%nat ->
  length k0 = 8%nat -> length k1 = 8%nat -> xor_at 16 (cat5 a0 a1 a2 a3 a4) (k0 ++ k1) = cat5 a0 a1 (xor_into a2 k0) (xor_into a3 k1) a4.
Proof.
  intros H0 H1 H2 H3 K0 K1. unfold cat5.
  replace (a0 ++ a1 ++ a2 ++ a3 ++ a4) with ((a0 ++ a1) ++ a2 ++ a3 ++ a4) by (rewrite <- !app_assoc; reflexivity).
  rewrite xor_at_app_r by (rewrite !app_length; lia). rewrite xor_into_app2 by lia.
  rewrite xor_into_app_l by lia. rewrite <- !app_assoc. reflexivity.
Qed.
(** l.368-371, l.401-404 *)
Lemma xor34_ok r S k M : rok r -> SS r S -> KK r k ->
  exists r', runs (exec [xor 22 22 26; xor 23 23 27; xor 24 24 15; xor 25 25 16] r) M M r' /\ SS r' (xor_at 24 S k) /\ rok r' /\
    except [22; 23; 24; 25]%nat r r'.
Proof.
  intros Hr (a0 & a1 & a2 & a3 & a4 & -> & [H0 H1 H2 H3 H4]) (k0 & k1 & -> & (Z0 & A0 & B0) & (Z1 & A1 & B1)).
  eexists. split; [ops|]. split; [|split].
  - exists a0, a1, a2, (xor_into a3 k0), (xor_into a4 k1). split.
    + apply cat_xor24; [apply H0|apply H1|apply H2|apply H3|exact Z0].
    + constructor; [exact H0|exact H1|exact H2| |].
      * apply (Wd_xor ldw ph pl V P L r 22 23 _ a3 k0 (r 26%nat) (r 27%nat)); try assumption; reflexivity.
      * apply (Wd_xor ldw ph pl V P L r 24 25 _ a4 k1 (r 15%nat) (r 16%nat)); try assumption; reflexivity.
  - rks.
  - exs.
Qed.
Lemma xor23_ok r S k M : rok r -> SS r S -> KK r k ->
  exists r', runs (exec [xor 20 20 26; xor 21 21 27; xor 22 22 15; xor 23 23 16] r) M M r' /\ SS r' (xor_at 16 S k) /\ rok r' /\
    except [20; 21; 22; 23]%nat r r'.
Proof.
  intros Hr (a0 & a1 & a2 & a3 & a4 & -> & [H0 H1 H2 H3 H4]) (k0 & k1 & -> & (Z0 & A0 & B0) & (Z1 & A1 & B1)).
  eexists. split; [ops|]. split; [|split].
  - exists a0, a1, (xor_into a2 k0), (xor_into a3 k1), a4. split.
    + apply cat_xor16; [apply H0|apply H1|apply H2|apply H3|exact Z0|exact Z1].
    + constructor; [exact H0|exact H1| | |exact H4].
      * apply (Wd_xor ldw ph pl V P L r 20 21 _ a2 k0 (r 26%nat) (r 27%nat)); try assumption; reflexivity.
      * apply (Wd_xor ldw ph pl V P L r 22 23 _ a3 k1 (r 15%nat) (r 16%nat)); try assumption; reflexivity.
  - rks.
  - exs.
Qed.
(** l.386-387 *)
Lemma sep_ok r S M : rok r -> SS r S ->
  exists r', runs (v_sep V r) M M r' /\ SS r' (xor_at 39 S [sep_of P]) /\ rok r' /\ except ([24; 25]%nat ++ tregs) r r'.
Proof.
  intros Hr (a0 & a1 & a2 & a3 & a4 & -> & [H0 H1 H2 H3 H4]).
  destruct (l_sep ldw ph pl V P L r M a4 Hr H4) as (r' & R & W & Hr' & E).
  exists r'. split; [exact R|]. split; [|split; [exact Hr'|exact E]].
  exists a0, a1, a2, a3, (xor_at 7 a4 [sep_of P]). split.
  - unfold cat5.
    replace (a0 ++ a1 ++ a2 ++ a3 ++ a4) with ((a0 ++ a1 ++ a2 ++ a3) ++ a4) by (rewrite <- !app_assoc; reflexivity).
    assert (Lx : length (a0 ++ a1 ++ a2 ++ a3) = 32%nat) by (rewrite !app_length; destruct H0, H1, H2, H3; lia).
    rewrite (xor_at_skip 32) by (try exact Lx; lia). rewrite <- !app_assoc. reflexivity.
  - constructor; [| | | |exact W]; (eapply Wd_except; [exact E|reflexivity|reflexivity|assumption]).
Qed.

(** ** Initialisation, l.333-371 *)
Lemma split16 (k : bytes) : length k = 16%nat -> exists k0 k1, k = k0 ++ k1 /\ length k0 = 8%nat /\ length k1 = 8%nat.
Proof.
  intros H. exists (firstn 8 k), (skipn 8 k). split; [symmetry; apply firstn_skipn|].
  rewrite firstn_length_le, skipn_length by lia. lia.
Qed.
Definition marg (m : md) : N := match m with De => 255 | _ => 1 end.
Lemma init_ok m r M k n : rok r -> m <> Ab -> r 17%nat = marg m -> data_ok V e M ->
  readable M (r 15%nat) n -> length n = 16%nat -> r 15%nat mod 4 = 0 -> r 15%nat + 16 < 2 ^ 32 ->
  readable M (r 16%nat) k -> length k = 16%nat -> r 16%nat mod 4 = 0 -> r 16%nat + 16 < 2 ^ 32 ->
  exists r', runs (core_init V e r) M M r' /\ SS r' (d_init P k n) /\ KK r' k /\ rok r' /\ r' 17%nat = mdv m /\
    except ([15; 16; 17; 26; 27]%nat ++ sregs ++ tregs) r r'.
Proof.
  intros Hr Hm H17 HD Qn Ln An Bn Qk Lk Ak Bk.
  destruct (split16 n Ln) as (n0 & n1 & -> & N0 & N1). destruct (split16 k Lk) as (k0 & k1 & -> & K0 & K1).
  set (r1 := setr (setr r 17 (shlw 32 (r 17%nat) 24)) 17 (mdv m)).
  assert (Hr1 : rok r1).
  { unfold r1. apply rok_set; [|discriminate|destruct m; reflexivity]. apply rok_set; [exact Hr|discriminate|apply fits_shlw]. }
  assert (R1 : runs (exec [slli 17 17 24; srai 17 17 24] r) M M r1).
  { apply st_op; [reflexivity|]. apply st_fn. cbn [fev].
    change (setr r 17 (shlw 32 (r 17%nat) 24) 17%nat) with (shlw 32 (r 17%nat) 24).
    replace (if N.testbit (shlw 32 (r 17%nat) 24) 31 then _ else _) with (mdv m); [apply st_nil|].
    rewrite H17. destruct m; [congruence|reflexivity|reflexivity]. }
  assert (E1 : except [17%nat] r r1) by (unfold r1; exs).
  destruct (l_load ldw ph pl V P L e 1366 15%nat r1 M n0 n1 Hr1 Qn N0 N1 An Bn eq_refl (Hlab _)) as (r2 & R2 & T0 & T1 & Hr2 & E2).
  set (r3 := setr (setr (setr (setr r2 22 (r2 28%nat)) 23 (r2 29%nat)) 24 (r2 30%nat)) 25 (r2 31%nat)).
  assert (Hr3 : rok r3) by (unfold r3; repeat (apply rok_set; [|discriminate|apply Hr2]); exact Hr2).
  assert (W3 : Wd r3 22 23 n0) by exact T0. assert (W4 : Wd r3 24 25 n1) by exact T1.
  assert (E3 : except ([17; 22; 23; 24; 25]%nat ++ tregs) r r3).
  { apply except_trans with r1; [apply (except_sub [17%nat]); [reflexivity|exact E1]|].
    apply except_trans with r2; [apply (except_sub tregs); [reflexivity|exact E2]|]. unfold r3; exs. }
  assert (E316 : r3 16%nat = r 16%nat) by exact (E3 16%nat eq_refl).
  destruct (l_load ldw ph pl V P L e 1376 16%nat r3 M k0 k1 Hr3) as (r4 & R4 & U0 & U1 & Hr4 & E4);
    [rewrite E316; exact Qk|exact K0|exact K1|rewrite E316; exact Ak|rewrite E316; exact Bk|reflexivity|apply Hlab|].
  assert (E4s := Wd_except ldw ph pl r3 r4 tregs 22 23 n0 E4 eq_refl eq_refl W3).
  assert (E4t := Wd_except ldw ph pl r3 r4 tregs 24 25 n1 E4 eq_refl eq_refl W4).
  set (r5 := setr (setr (setr (setr r4 26 (r4 28%nat)) 27 (r4 29%nat)) 15 (r4 30%nat)) 16 (r4 31%nat)).
  assert (Hr5 : rok r5) by (unfold r5; repeat (apply rok_set; [|discriminate|apply Hr4]); exact Hr4).
  destruct (l_iv ldw ph pl V P L) as (I1 & I2 & I3).
  set (r6 := setr (setr (setr (setr (setr (setr r5 8 (fst (v_iv V))) 9 (snd (v_iv V))) 18 (r5 26%nat)) 19 (r5 27%nat)) 20 (r5 15%nat)) 21 (r5 16%nat)).
  assert (Hr6 : rok r6).
  { unfold r6. repeat (apply rok_set; [|discriminate|apply Hr5]).
    apply rok_set; [|discriminate|rewrite I2; apply fits_half]. apply rok_set; [exact Hr5|discriminate|rewrite I1; apply fits_half]. }
  assert (HK6 : KK r6 (k0 ++ k1)).
  { exists k0, k1. split; [reflexivity|]. split; [exact U0|exact U1]. }
  assert (HS6 : SS r6 (iv_of P ++ (k0 ++ k1) ++ n0 ++ n1)).
  { exists (iv_of P), k0, k1, n0, n1. split; [unfold cat5; rewrite <- app_assoc; reflexivity|].
    constructor; [split; [exact I3|split; [exact I1|exact I2]]|exact U0|exact U1|exact E4s|exact E4t]. }
  destruct (perm_ok ldw ph pl V P L e Hlab 366 true r6 _ M Hr6 HS6 HD) as (r7 & R7 & HS7 & Hr7 & E7).
  assert (HK7 : KK r7 (k0 ++ k1)) by (apply (KK_except r6 r7 _ _ E7); [reflexivity|exact HK6]).
  destruct (xor34_ok r7 _ _ M Hr7 HS7 HK7) as (r8 & R8 & HS8 & Hr8 & E8).
  assert (HK8 : KK r8 (k0 ++ k1)) by (apply (KK_except r7 r8 _ _ E8); [reflexivity|exact HK7]).
  assert (E46 : except ([15; 16; 26; 27]%nat ++ sregs) r4 r6) by (unfold r6, r5; exs).
  exists r8. split; [|split; [exact HS8|split; [exact HK8|split; [exact Hr8|split]]]].
  - unfold core_init.
    apply st_then with (M1 := M) (r1 := r1); [exact R1|]. apply st_then with (M1 := M) (r1 := r2); [exact R2|].
    apply st_then with (M1 := M) (r1 := r3); [ops|]. apply st_then with (M1 := M) (r1 := r4); [exact R4|].
    apply st_then with (M1 := M) (r1 := r5); [ops|]. apply st_then with (M1 := M) (r1 := r6); [ops|].
    apply st_then with (M1 := M) (r1 := r7); [exact R7|exact R8].
  - rewrite (E8 17%nat eq_refl), (E7 17%nat eq_refl), (E46 17%nat eq_refl), (E4 17%nat eq_refl).
    change (r3 17%nat) with (r2 17%nat). rewrite (E2 17%nat eq_refl). reflexivity.
  - apply except_trans with r3; [apply (except_sub ([17; 22; 23; 24; 25]%nat ++ tregs)); [reflexivity|exact E3]|].
    apply except_trans with r4; [apply (except_sub tregs); [reflexivity|exact E4]|].
    apply except_trans with r6; [apply (except_sub ([15; 16; 26; 27]%nat ++ sregs)); [reflexivity|exact E46]|].
    apply except_trans with r7; [apply (except_sub (sregs ++ tregs)); [reflexivity|exact E7]|].
    apply (except_sub [22; 23; 24; 25]%nat); [reflexivity|exact E8].
Qed.

(** ** Associated data, l.373-387 *)
Lemma data_near F n M M' : near F n M M' -> 0 < n -> n <= 80 -> disjoint F 80 (tab e) (len (v_data V)) -> data_ok V e M -> data_ok V e M'.
Proof.
  intros HN Hn Hn' Hd [D1 D2]. split; [|exact D2]. apply (near_readable F n M); [exact HN|exact D1| |exact Hn].
  unfold disjoint in *. lia.
Qed.
Lemma ad_ok m r M S k ad F : rok r -> SS r S -> KK r k -> r 17%nat = mdv m -> r 2%nat = F -> F mod 4 = 0 -> F + 80 < 2 ^ 32 ->
  writable M F 80 -> data_ok V e M -> disjoint F 80 (tab e) (len (v_data V)) ->
  readable M (r 13%nat) ad -> r 13%nat + len ad < 2 ^ 32 -> (16 <= len ad -> r 13%nat mod 4 = 0) ->
  r 14%nat = len ad -> len ad < 2 ^ 31 -> disjoint F 80 (r 13%nat) (len ad) ->
  exists r' M', runs (core_ad V e r) M M' r' /\ near F 28 M M' /\ SS r' (d_ad P S ad) /\ KK r' k /\ rok r' /\
    except ([1; 13; 14]%nat ++ sregs ++ tregs) r r'.
Proof.
  intros Hr HS HK Hm HF Fa Fb Fw HD Hdt Qa Ba Aa La Lb Hd.
  assert (X : exists r1 M1, runs (cond (beq 14 0) skip
    (exec [Sw 10 2 20; Sw 17 2 24; li 17 0] >>> call 1 (lab e 378) (ascon_duplex V e) >>>
     exec [Lw 10 2 20; Lw 17 2 24] >>> v_perm V e 383 false) r) M M1 r1 /\ near F 28 M M1 /\
     SS r1 (match ad with [] => S | _ => perm_of P 8 (d_absorb P (length ad) S ad) end) /\ KK r1 k /\ rok r1 /\
     except ([1; 13; 14]%nat ++ sregs ++ tregs) r r1).
  { destruct ad as [|b ad'].
    - exists r, M. split; [apply st_cond; unfold beq; rewrite La, (rok_0 r Hr); apply st_skip|].
      split; [apply near_refl|]. split; [exact HS|]. split; [exact HK|]. split; [exact Hr|apply except_refl].
    - set (ad := b :: ad') in *.
      assert (C : beq 14 0 r = false).
      { unfold beq. rewrite La, (rok_0 r Hr). unfold ad. rewrite len_cons. apply N.eqb_neq. lia. }
      assert (F0 : F <> 0) by (apply Fw; discriminate).
      set (M1 := write (write M (F + 20) (le_bytes 4 (r 10%nat))) (F + 24) (le_bytes 4 (r 17%nat))).
      assert (L4 : forall x, len (le_bytes 4 x) = 4) by (intros x; unfold len; rewrite length_le_bytes; reflexivity).
      set (r1 := setr r 17 0).
      assert (Hr1 : rok r1) by (apply rok_set; [exact Hr|discriminate|apply fits_0]).
      assert (R1 : runs (exec [Sw 10 2 20; Sw 17 2 24; li 17 0] r) M M1 r1).
      { apply (st_sw 10 2 20 _ _ _ _ _ (F + 20)); [rewrite HF; reflexivity|lia|apply mod4_add; [exact Fa|reflexivity]| |].
        - split; [lia|split; [intros _; unfold NULL; lia|]]. intros a A1 A2. apply Fw; lia.
        - apply (st_sw 17 2 24 _ _ _ _ _ (F + 24)); [rewrite HF; reflexivity|lia|apply mod4_add; [exact Fa|reflexivity]| |ops].
          apply writable_write. split; [lia|split; [intros _; unfold NULL; lia|]]. intros a A1 A2. apply Fw; lia. }
      assert (N1 : near F 28 M M1).
      { apply near_trans with (write M (F + 20) (le_bytes 4 (r 10%nat))); apply near_frame; rewrite ?L4; lia. }
      assert (Q20 : readable M1 (F + 20) (le_bytes 4 (r 10%nat))).
      { apply readable_write_disjoint; [apply readable_write_self; [rewrite L4; lia|intros _; lia]|]. rewrite !L4. unfold disjoint. lia. }
      assert (Q24 : readable M1 (F + 24) (le_bytes 4 (r 17%nat))).
      { apply readable_write_self; [rewrite L4; lia|intros _; lia]. }
      assert (HD1 : data_ok V e M1) by (apply (data_near F 28 M); [exact N1|reflexivity|discriminate|exact Hdt|exact HD]).
      set (r2 := setr r1 1 (lab e 378)).
      assert (Hr2 : rok r2) by (apply rok_set; [exact Hr1|discriminate|apply Hlab]).
      assert (E2 : except [1; 17]%nat r r2) by (unfold r2, r1; exs).
      destruct (duplex_ok ldw ph pl V P L e Hlab Ab ad S r2 M1 Hr2) as (r3 & M3 & R3 & N3 & HS3 & Hr3 & _ & _ & E3).
      { apply (SS_except ldw ph pl r r2 _ S E2); [reflexivity|exact HS]. }
      { constructor.
        - change (r2 13%nat) with (r 13%nat). apply (near_readable F 28 M); [exact N1|exact Qa|unfold disjoint in *; lia|reflexivity].
        - exact Ba.
        - exact Aa.
        - exact La.
        - exact Lb.
        - reflexivity.
        - congruence. }
      { exact HD1. }
      { change (r2 2%nat) with (r 2%nat). constructor; change (r2 2%nat) with (r 2%nat); rewrite ?HF; try assumption.
        - apply (near_writable F 28 M); [exact N1|]. apply (writable_split M F 16 64). exact Fw.
        - lia.
        - change (r2 13%nat) with (r 13%nat). unfold disjoint in *. lia.
        - congruence.
        - unfold disjoint in *. lia. }
      change (r2 2%nat) with (r 2%nat) in N3. rewrite HF in N3. cbn [wout] in N3.
      assert (G3 : except ([1; 10; 13; 14; 17]%nat ++ sregs ++ tregs) r r3).
      { apply except_trans with r2; [apply (except_sub [1; 17]%nat); [reflexivity|exact E2]|].
        apply (except_sub ([10; 13; 14]%nat ++ sregs ++ tregs)); [reflexivity|exact E3]. }
      assert (E32 : r3 2%nat = F) by (rewrite (G3 2%nat eq_refl); exact HF).
      set (r4 := setr (setr r3 10 (r 10%nat)) 17 (r 17%nat)).
      assert (Hr4 : rok r4).
      { unfold r4. apply rok_set; [|discriminate|apply Hr]. apply rok_set; [exact Hr3|discriminate|apply Hr]. }
      assert (R4 : runs (exec [Lw 10 2 20; Lw 17 2 24] r3) M3 M3 r4).
      { apply (st_lw 10 2 20 (le_bytes 4 (r 10%nat)) _ _ _ _ _ (F + 20));
          [rewrite E32; reflexivity|lia|apply mod4_add; [exact Fa|reflexivity]| |apply length_le_bytes|].
        - apply (near_readable F 16 M1); [exact N3|exact Q20|rewrite L4; unfold disjoint; lia|reflexivity].
        - rewrite le_num_le_bytes. change (8 * N.of_nat 4) with 32. rewrite trunc_fits by apply Hr.
          apply (st_lw 17 2 24 (le_bytes 4 (r 17%nat)) _ _ _ _ _ (F + 24));
            [change (setr r3 10 (r 10%nat) 2%nat) with (r3 2%nat); rewrite E32; reflexivity|lia|apply mod4_add; [exact Fa|reflexivity]|
             |apply length_le_bytes|].
          + apply (near_readable F 16 M1); [exact N3|exact Q24|rewrite L4; unfold disjoint; lia|reflexivity].
          + rewrite le_num_le_bytes. change (8 * N.of_nat 4) with 32. rewrite trunc_fits by apply Hr. apply st_nil. }
      assert (G4 : except ([1; 13; 14]%nat ++ sregs ++ tregs) r r4).
      { intros i Hi. unfold r4, setr. destruct (Nat.eqb_spec i 17) as [->|]; [reflexivity|].
        destruct (Nat.eqb_spec i 10) as [->|]; [reflexivity|]. apply G3.
        rewrite memb_app in *. apply orb_false_iff in Hi. destruct Hi as [A B]. rewrite B, orb_false_r.
        unfold memb in *. cbn [existsb] in *. apply Nat.eqb_neq in n, n0. rewrite n, n0. exact A. }
      assert (N13 : near F 28 M1 M3) by (apply (near_wider F 16); [lia|exact N3]).
      assert (HD3 : data_ok V e M3) by (apply (data_near F 28 M1); [exact N13|reflexivity|discriminate|exact Hdt|exact HD1]).
      assert (HS4 : SS r4 (d_absorb P (length ad) S ad)).
      { apply (SS_except ldw ph pl r3 r4 [10; 17]%nat); [unfold r4; exs|reflexivity|exact HS3]. }
      destruct (perm_ok ldw ph pl V P L e Hlab 383 false r4 _ M3 Hr4 HS4 HD3) as (r5 & R5 & HS5 & Hr5 & E5).
      assert (G5 : except ([1; 13; 14]%nat ++ sregs ++ tregs) r r5).
      { apply except_trans with r4; [exact G4|]. apply (except_sub (sregs ++ tregs)); [reflexivity|exact E5]. }
      exists r5, M3. split; [|split; [apply near_trans with M1; assumption|split; [exact HS5|split; [|split; [exact Hr5|exact G5]]]]].
      + apply st_cond. rewrite C. apply st_then with (M1 := M1) (r1 := r1); [exact R1|].
        apply st_then with (M1 := M3) (r1 := r3).
        * apply st_call; [exact R3|]. rewrite (E3 1%nat eq_refl). reflexivity.
        * apply st_then with (M1 := M3) (r1 := r4); [exact R4|exact R5].
      + apply (KK_except r r5 _ _ G5); [reflexivity|exact HK]. }
  destruct X as (r1 & M1 & R1 & N1 & HS1 & HK1 & Hr1 & E1).
  destruct (sep_ok r1 _ M1 Hr1 HS1) as (r2 & R2 & HS2 & Hr2 & E2).
  exists r2, M1. split; [unfold core_ad; apply st_then with (M1 := M1) (r1 := r1); assumption|].
  split; [exact N1|]. split; [exact HS2|]. split; [apply (KK_except r1 r2 _ _ E2); [reflexivity|exact HK1]|].
  split; [exact Hr2|]. apply except_trans with r1; [exact E1|].
  apply (except_sub ([24; 25]%nat ++ tregs)); [reflexivity|exact E2].
Qed.

(** ** The text, l.389-404 *)
Lemma text_ok m r M S k l F : m <> Ab -> rok r -> SS r S -> KK r k -> r 17%nat = mdv m -> r 2%nat = F -> F mod 4 = 0 -> F + 80 < 2 ^ 32 ->
  writable M F 80 -> data_ok V e M -> disjoint F 80 (tab e) (len (v_data V)) ->
  readable M (r 11%nat) l -> r 11%nat + len l < 2 ^ 32 -> (16 <= len l -> r 11%nat mod 4 = 0) ->
  r 12%nat = len l -> len l < 2 ^ 31 -> disjoint F 80 (r 11%nat) (len l) ->
  writable M (r 10%nat) (len l) -> r 10%nat + len l < 2 ^ 32 -> (16 <= len l -> r 10%nat mod 4 = 0) ->
  disjoint (r 10%nat) (len l) (r 11%nat) (len l) -> disjoint (r 10%nat) (len l) (tab e) (len (v_data V)) ->
  disjoint F 80 (r 10%nat) (len l) ->
  let '(S1, out) := dd P m (length l) S l in
  exists r' M', runs (core_text V e r) M M' r' /\ near F 28 (write M (r 10%nat) out) M' /\
    SS r' (xor_at 24 (perm_of P 12 (xor_at 16 S1 k)) k) /\ rok r' /\ r' 10%nat = r 10%nat + len l /\ r' 13%nat = r 11%nat + len l /\
    except ([1; 10; 13; 14]%nat ++ sregs ++ tregs) r r'.
Proof.
  intros Hm Hr HS HK Hmd HF Fa Fb Fw HD Hdt Qi Bi Ai Li Lb Di Wo Bo Ao Dio Dot Dof.
  assert (Lo : length (snd (dd P m (length l) S l)) = length l).
  { clear - Hm. generalize (le_n (length l)). generalize (length l) at 2 3 as g. intros g. revert l S.
    induction g as [|g IH]; intros l S Hg.
    - rewrite dd_short by lia. cbn [snd]. destruct m; [congruence| |]; cbn [outb]; apply length_xor_into.
    - destruct (Nat.lt_ge_cases (length l) 16) as [H|H].
      + rewrite dd_short by exact H. cbn [snd]. destruct m; [congruence| |]; cbn [outb]; apply length_xor_into.
      + assert (El : l = firstn 16 l ++ skipn 16 l) by (symmetry; apply firstn_skipn).
        assert (Hb : length (firstn 16 l) = 16%nat) by (apply firstn_length_le; exact H).
        rewrite El at 1. rewrite dd_long by exact Hb. cbn [snd]. rewrite app_length, IH by (rewrite skipn_length; lia).
        rewrite skipn_length. destruct m; [congruence| |]; cbn [outb]; rewrite length_xor_into; lia. }
  set (r1 := setr (setr r 13 (r 11%nat)) 14 (r 12%nat)).
  assert (Hr1 : rok r1) by (unfold r1; repeat (apply rok_set; [|discriminate|apply Hr]); exact Hr).
  set (r2 := setr r1 1 (lab e 391)).
  assert (Hr2 : rok r2) by (apply rok_set; [exact Hr1|discriminate|apply Hlab]).
  assert (E2 : except [1; 13; 14]%nat r r2) by (unfold r2, r1; exs).
  destruct (duplex_ok ldw ph pl V P L e Hlab m l S r2 M Hr2) as (r3 & M3 & R3 & N3 & HS3 & Hr3 & E10 & E13 & E3).
  { apply (SS_except ldw ph pl r r2 _ S E2); [reflexivity|exact HS]. }
  { constructor; try assumption. intros _. change (r2 10%nat) with (r 10%nat). change (r2 13%nat) with (r 11%nat).
    split; [exact Wo|split; [exact Bo|split; [exact Ao|split; [exact Dio|exact Dot]]]]. }
  { exact HD. }
  { constructor; change (r2 2%nat) with (r 2%nat); rewrite ?HF; try assumption.
    - apply (writable_split M F 16 64). exact Fw.
    - lia.
    - change (r2 13%nat) with (r 11%nat). unfold disjoint in *. lia.
    - intros _. change (r2 10%nat) with (r 10%nat). unfold disjoint in *. lia.
    - unfold disjoint in *. lia. }
  change (r2 2%nat) with (r 2%nat) in N3. rewrite HF in N3. change (r2 10%nat) with (r 10%nat) in *.
  change (r2 13%nat) with (r 11%nat) in *.
  destruct (dd P m (length l) S l) as [S1 out] eqn:Ed. cbn [fst snd] in *.
  replace (wout m M (r 10%nat) out) with (write M (r 10%nat) out) in N3 by (destruct m; [congruence|reflexivity|reflexivity]).
  assert (N3' : near F 28 (write M (r 10%nat) out) M3) by (apply (near_wider F 16); [lia|exact N3]).
  assert (HD3 : data_ok V e M3).
  { apply (data_near F 28 (write M (r 10%nat) out)); [exact N3'|reflexivity|discriminate|exact Hdt|].
    destruct HD as [D1 D2]. split; [|exact D2]. apply readable_write_disjoint; [exact D1|].
    unfold len in *. rewrite Lo. exact Dot. }
  assert (G3 : except ([1; 10; 13; 14]%nat ++ sregs ++ tregs) r r3).
  { apply except_trans with r2; [apply (except_sub [1; 13; 14]%nat); [reflexivity|exact E2]|].
    apply (except_sub ([10; 13; 14]%nat ++ sregs ++ tregs)); [reflexivity|exact E3]. }
  assert (HK3 : KK r3 k) by (apply (KK_except r r3 _ _ G3); [reflexivity|exact HK]).
  destruct (xor23_ok r3 S1 k M3 Hr3 HS3 HK3) as (r4 & R4 & HS4 & Hr4 & E4).
  assert (HK4 : KK r4 k) by (apply (KK_except r3 r4 _ _ E4); [reflexivity|exact HK3]).
  destruct (perm_ok ldw ph pl V P L e Hlab 399 true r4 _ M3 Hr4 HS4 HD3) as (r5 & R5 & HS5 & Hr5 & E5).
  assert (HK5 : KK r5 k) by (apply (KK_except r4 r5 _ _ E5); [reflexivity|exact HK4]).
  destruct (xor34_ok r5 _ k M3 Hr5 HS5 HK5) as (r6 & R6 & HS6 & Hr6 & E6).
  exists r6, M3. split; [|split; [exact N3'|split; [exact HS6|split; [exact Hr6|split; [|split]]]]].
  - unfold core_text. apply st_then with (M1 := M) (r1 := r1); [ops|].
    apply st_then with (M1 := M3) (r1 := r3).
    + apply st_call; [exact R3|]. rewrite (E3 1%nat eq_refl). reflexivity.
    + apply st_then with (M1 := M3) (r1 := r4); [exact R4|].
      apply st_then with (M1 := M3) (r1 := r5); [exact R5|exact R6].
  - rewrite (E6 10%nat eq_refl), (E5 10%nat eq_refl), (E4 10%nat eq_refl). exact (E10 Hm).
  - rewrite (E6 13%nat eq_refl), (E5 13%nat eq_refl), (E4 13%nat eq_refl). exact E13.
  - apply except_trans with r3; [exact G3|].
    apply except_trans with r4; [apply (except_sub [20; 21; 22; 23]%nat); [reflexivity|exact E4]|].
    apply except_trans with r5; [apply (except_sub (sregs ++ tregs)); [reflexivity|exact E5]|].
    apply (except_sub [22; 23; 24; 25]%nat); [reflexivity|exact E6].
Qed.

(** ** The tag, l.407-433 *)
Lemma swu_ok x off r M : rok r -> x <> 0%nat -> x <> 10%nat -> (x <? 32)%nat = true -> r 10%nat + off + 4 < 2 ^ 32 ->
  writable M (r 10%nat + off) 4 ->
  exists r1, rok r1 /\ except [x] r r1 /\ forall k M' r', runs (exec k r1) (write M (r 10%nat + off) (le_bytes 4 (r x))) M' r' ->
    runs (exec (sw_unaligned x off 10 ++ k) r) M M' r'.
Proof.
  intros Hr X0 X1 X2 Hb Hw. set (p := r 10%nat + off) in *.
  set (v0 := r x). set (v1 := shrw v0 8). set (v2 := shrw v1 8). set (v3 := shrw v2 8).
  set (q1 := setr r x v1). set (q2 := setr q1 x v2). set (q3 := setr q2 x v3).
  assert (F1 : fits 32 v1) by (apply fits_shrw, Hr). assert (F2 : fits 32 v2) by (apply fits_shrw, F1).
  assert (F3 : fits 32 v3) by (apply fits_shrw, F2).
  exists q3. split; [unfold q3, q2, q1; repeat (apply rok_set; [|exact X0|assumption]); exact Hr|].
  assert (Mx : memb x [x] = true) by (unfold memb; cbn [existsb]; rewrite Nat.eqb_refl; reflexivity).
  split; [unfold q3, q2, q1; repeat (apply except_set; [exact Mx|]); apply except_refl|].
  intros k M' r' H.
  destruct (writable_split M p 1 3 Hw) as [W0 W']. destruct (writable_split M (p + 1) 1 2 W') as [W1 W''].
  destruct (writable_split M (p + 1 + 1) 1 1 W'') as [W2 W3].
  assert (T10 : forall (q : regs) v, setr q x v 10%nat = q 10%nat).
  { intros q v. unfold setr. destruct (Nat.eqb_spec 10 x); [congruence|reflexivity]. }
  assert (Tx : forall (q : regs) v, setr q x v x = v) by (intros q v; unfold setr; rewrite Nat.eqb_refl; reflexivity).
  assert (A1 : q1 10%nat = r 10%nat) by apply T10. assert (A2 : q2 10%nat = r 10%nat) by (unfold q2; rewrite T10; exact A1).
  assert (A3 : q3 10%nat = r 10%nat) by (unfold q3; rewrite T10; exact A2).
  assert (B1 : q1 x = v1) by apply Tx. assert (B2 : q2 x = v2) by apply Tx. assert (B3 : q3 x = v3) by apply Tx.
  unfold sw_unaligned. cbn [app].
  apply (st_sb x 10 off _ _ _ _ _ p); [reflexivity|lia|exact W0|].
  apply st_op; [exact X2|]. change (setr r x (fev r (Shr (Reg x) 8))) with q1.
  apply (st_sb x 10 (1 + off) _ _ _ _ _ (p + 1)); [rewrite A1; unfold p; lia|lia|apply writable_write; exact W1|]. rewrite B1.
  apply st_op; [exact X2|]. cbn [fev]. rewrite B1. change (setr q1 x (shrw v1 8)) with q2.
  apply (st_sb x 10 (2 + off) _ _ _ _ _ (p + 1 + 1)); [rewrite A2; unfold p; lia|lia|do 2 apply writable_write; exact W2|]. rewrite B2.
  apply st_op; [exact X2|]. cbn [fev]. rewrite B2. change (setr q2 x (shrw v2 8)) with q3.
  apply (st_sb x 10 (3 + off) _ _ _ _ _ (p + 1 + 1 + 1)); [rewrite A3; unfold p; lia|lia|do 3 apply writable_write; exact W3|]. rewrite B3.
  exact H.
Qed.
Definition foldx (d : bytes) : N :=
  N.lxor (N.lxor (hi (firstn 8 d)) (lo (firstn 8 d))) (N.lxor (hi (skipn 8 d)) (lo (skipn 8 d))).
Lemma skip24 a0 a1 a2 a3 a4 : length a0 = 8%nat -> length a1 = 8%nat -> length a2 = 8%nat -> skipn 24 (cat5 a0 a1 a2 a3 a4) = a3 ++ a4.
Proof.
  intros H0 H1 H2. unfold cat5.
  replace (a0 ++ a1 ++ a2 ++ a3 ++ a4) with ((a0 ++ a1 ++ a2) ++ a3 ++ a4) by (rewrite <- !app_assoc; reflexivity).
  apply skipn_app_exact. rewrite !app_length. lia.
Qed.
Lemma tag_store_ok r M S : rok r -> SS r S -> r 17%nat = mdv En -> writable M (r 10%nat) 16 -> r 10%nat + 16 < 2 ^ 32 ->
  exists r', runs (core_tag V e r) M (write M (r 10%nat) (skipn 24 S)) r' /\ rok r' /\ r' 10%nat = 0 /\
    except (10%nat :: tregs) r r'.
Proof.
  intros Hr HS Hm Hw Hb. pose proof HS as (a0 & a1 & a2 & a3 & a4 & -> & [H0 H1 H2 H3 H4]).
  assert (A3 : length a3 = 8%nat) by apply H3. assert (A4 : length a4 = 8%nat) by apply H4.
  rewrite skip24 by (try apply H0; try apply H1; apply H2).
  assert (C := bge_mode En r Hr Hm). cbn in C.
  assert (B0 : r 10%nat + 0 + 4 < 2 ^ 32 /\ r 10%nat + 4 + 4 < 2 ^ 32 /\ r 10%nat + 8 + 4 < 2 ^ 32 /\ r 10%nat + 12 + 4 < 2 ^ 32) by (clear - Hb; lia).
  destruct B0 as (B0 & B4 & B8 & B12).
  assert (A8 : r 10%nat + 4 + 4 = r 10%nat + 8) by (clear; lia). assert (A12 : r 10%nat + 8 + 4 = r 10%nat + 12) by (clear; lia).
  assert (LL : length (firstn 4 a3) = 4%nat /\ length (skipn 4 a3) = 4%nat /\ length (firstn 4 a4) = 4%nat /\ length (skipn 4 a4) = 4%nat)
    by (clear - A3 A4; rewrite !firstn_length_le, !skipn_length by lia; lia).
  destruct LL as (L1 & L2 & L3 & L4).
  set (r1 := setr (setr (setr (setr r 28 (r 22%nat)) 29 (r 23%nat)) 30 (r 24%nat)) 31 (r 25%nat)).
  assert (Hr1 : rok r1) by (unfold r1; repeat (apply rok_set; [|discriminate|apply Hr]); exact Hr).
  assert (W3 : Wd r1 28 29 a3) by exact H3. assert (W4 : Wd r1 30 31 a4) by exact H4.
  destruct (l_conv ldw ph pl V P L e 1451 r1 M a3 a4 Hr1 W3 W4 (Hlab _)) as (r2 & R2 & Hr2 & E2 & Hf).
  assert (E10 : r2 10%nat = r 10%nat) by (rewrite (E2 10%nat eq_refl); reflexivity).
  assert (Hfirst := l_first ldw ph pl V P L).
  destruct (v_first V) as [[[p q] s] t] eqn:EV.
  assert (HP : memb p tregs = true /\ memb q tregs = true /\ memb s tregs = true /\ memb t tregs = true /\
    memb q [p] = false /\ memb s [p] = false /\ memb s [q] = false /\ memb t [p] = false /\ memb t [q] = false /\ memb t [s] = false).
  { destruct Hfirst as [E|E]; unfold le_first, be_first in E; injection E as -> -> -> ->; repeat split. }
  destruct HP as (Tp & Tq & Ts & Tt & Q1 & S1 & S2 & U1 & U2 & U3).
  assert (OK : forall x, memb x tregs = true -> x <> 0%nat /\ x <> 10%nat /\ (x <? 32)%nat = true).
  { intros x Hx. do 32 (destruct x as [|x]; [try discriminate Hx; repeat split; discriminate|]). discriminate Hx. }
  destruct (OK p Tp) as (Op1 & Op2 & Op3). destruct (OK q Tq) as (Oq1 & Oq2 & Oq3).
  destruct (OK s Ts) as (Os1 & Os2 & Os3). destruct (OK t Tt) as (Ot1 & Ot2 & Ot3).
  destruct Hf as (Ep & Eq & Es & Et).
  destruct (writable_split M (r 10%nat) 4 12 Hw) as [V0 V']. destruct (writable_split M (r 10%nat + 4) 4 8 V') as [V1 V''].
  destruct (writable_split M (r 10%nat + 4 + 4) 4 4 V'') as [V2 V3].
  assert (N10 : forall x, x <> 10%nat -> memb 10 [x] = false).
  { intros x Hx. unfold memb. cbn [existsb]. rewrite orb_false_r. apply Nat.eqb_neq. congruence. }
  destruct (swu_ok p 0 r2 M Hr2 Op1 Op2 Op3) as (q1 & Hq1 & F1 & G1); [rewrite E10; exact B0|rewrite E10, N.add_0_r; exact V0|].
  assert (E101 : q1 10%nat = r 10%nat) by (rewrite (F1 10%nat (N10 p Op2)); exact E10).
  set (M1 := write M (r2 10%nat + 0) (le_bytes 4 (r2 p))) in *.
  destruct (swu_ok q 4 q1 M1 Hq1 Oq1 Oq2 Oq3) as (q2 & Hq2 & F2 & G2); [rewrite E101; exact B4|rewrite E101; apply writable_write; exact V1|].
  assert (E102 : q2 10%nat = r 10%nat) by (rewrite (F2 10%nat (N10 q Oq2)); exact E101).
  set (M2 := write M1 (q1 10%nat + 4) (le_bytes 4 (q1 q))) in *.
  destruct (swu_ok s 8 q2 M2 Hq2 Os1 Os2 Os3) as (q3 & Hq3 & F3 & G3); [rewrite E102; exact B8| |].
  { rewrite E102, <- A8. do 2 apply writable_write. exact V2. }
  assert (E103 : q3 10%nat = r 10%nat) by (rewrite (F3 10%nat (N10 s Os2)); exact E102).
  set (M3 := write M2 (q2 10%nat + 8) (le_bytes 4 (q2 s))) in *.
  destruct (swu_ok t 12 q3 M3 Hq3 Ot1 Ot2 Ot3) as (q4 & Hq4 & F4 & G4); [rewrite E103; exact B12| |].
  { rewrite E103, <- A12, <- A8. do 3 apply writable_write. exact V3. }
  set (M4 := write M3 (q3 10%nat + 12) (le_bytes 4 (q3 t))) in *.
  assert (EM : M4 = write M (r 10%nat) (a3 ++ a4)).
  { unfold M4, M3, M2, M1. rewrite E10, E101, E102, E103.
    rewrite (F1 q Q1), Eq, (F2 s S2), (F1 s S1), Es, (F3 t U3), (F2 t U2), (F1 t U1), Et, Ep.
    rewrite !le_bytes_le_num by assumption.
    replace (a3 ++ a4) with (firstn 4 a3 ++ skipn 4 a3 ++ firstn 4 a4 ++ skipn 4 a4)
      by (rewrite (app_assoc (firstn 4 a3)), !firstn_skipn; reflexivity).
    rewrite !write_app. unfold len. rewrite L1, L2, L3.
    change (N.of_nat 4) with 4. rewrite N.add_0_r, A8, A12. reflexivity. }
  exists (setr q4 10 0).
  assert (EQ : except tregs r2 q4).
  { assert (SB : forall x, memb x tregs = true -> subl [x] tregs = true) by (intros x Hx; unfold subl; cbn [forallb]; rewrite Hx; reflexivity).
    apply except_trans with q1; [apply (except_sub [p]); [apply SB; assumption|exact F1]|].
    apply except_trans with q2; [apply (except_sub [q]); [apply SB; assumption|exact F2]|].
    apply except_trans with q3; [apply (except_sub [s]); [apply SB; assumption|exact F3]|].
    apply (except_sub [t]); [apply SB; assumption|exact F4]. }
  split; [|split; [apply rok_set; [exact Hq4|discriminate|apply fits_0]|split; [reflexivity|]]].
  - unfold core_tag. apply st_cond. rewrite C. rewrite <- EM.
    apply st_then with (M1 := M) (r1 := r1); [ops|]. apply st_then with (M1 := M) (r1 := r2); [exact R2|].
    apply st_then with (M1 := M4) (r1 := q4); [|ops].
    rewrite EV. unfold sws_unaligned. apply G1, G2, G3.
    rewrite <- (app_nil_r (sw_unaligned t 12 10)). apply G4. apply st_nil.
  - apply except_set; [reflexivity|].
    apply except_trans with r1; [unfold r1; exs|].
    apply except_trans with r2; [apply (except_sub tregs); [reflexivity|exact E2]|].
    apply (except_sub tregs); [reflexivity|exact EQ].
Qed.
Lemma tag_check_ok r M S T : rok r -> SS r S -> r 17%nat = mdv De -> tag_at M (r 13%nat) T -> length T = 16%nat -> r 13%nat + 20 < 2 ^ 32 ->
  exists r', runs (core_tag V e r) M M r' /\ rok r' /\
    r' 10%nat = (if foldx (xor_into (skipn 24 S) T) =? 0 then 0 else 0xffffffff) /\
    except (10%nat :: 26%nat :: tregs) r r'.
Proof.
  intros Hr HS Hm HT LT Hb. pose proof HS as (a0 & a1 & a2 & a3 & a4 & -> & [H0 H1 H2 H3 H4]).
  rewrite skip24 by (try apply H0; try apply H1; apply H2).
  destruct (split16 T LT) as (t0 & t1 & -> & T0 & T1).
  assert (C := bge_mode De r Hr Hm). cbn in C.
  destruct (l_tag ldw ph pl V P L e 1432 r M t0 t1 Hr HT T0 T1 Hb (Hlab _)) as (r1 & R1 & W0 & W1 & Hr1 & E1).
  assert (K3 : Wd r1 22 23 a3) by (apply (Wd_except ldw ph pl r r1 _ 22 23 a3 E1); [reflexivity|reflexivity|exact H3]).
  assert (K4 : Wd r1 24 25 a4) by (apply (Wd_except ldw ph pl r r1 _ 24 25 a4 E1); [reflexivity|reflexivity|exact H4]).
  destruct W0 as (_ & X0 & Y0). destruct W1 as (_ & X1 & Y1). destruct K3 as (A3 & X3 & Y3). destruct K4 as (A4 & X4 & Y4).
  set (fx := foldx (xor_into (a3 ++ a4) (t0 ++ t1))).
  assert (EF : fx = N.lxor (N.lxor (N.lxor (N.lxor (r1 22%nat) (r1 28%nat)) (N.lxor (r1 23%nat) (r1 29%nat))) (N.lxor (r1 24%nat) (r1 30%nat)))
                     (N.lxor (r1 25%nat) (r1 31%nat))).
  { unfold fx, foldx. rewrite xor_into_app2 by lia.
    rewrite (firstn_app_exact 8), (skipn_app_exact 8) by (rewrite length_xor_into; exact A3).
    rewrite !(hi_xor ldw ph pl V P L), !(lo_xor ldw ph pl V P L) by assumption.
    rewrite X0, Y0, X1, Y1, X3, Y3, X4, Y4. rewrite !N.lxor_assoc. reflexivity. }
  assert (X : exists r2, runs (exec [xor 5 22 28; xor 6 23 29; xor 5 5 6; xor 6 24 30; xor 5 5 6; xor 6 25 31; xor 5 5 6] r1) M M r2 /\
     r2 5%nat = fx /\ rok r2 /\ except tregs r1 r2).
  { eexists. split; [ops|]. split; [rewrite EF; reflexivity|]. split; [rks|exs]. }
  destruct X as (r2 & R2 & V5 & Hr2 & E2).
  assert (EA : except (26%nat :: tregs) r r2).
  { apply except_trans with r1; [exact E1|]. apply (except_sub tregs); [reflexivity|exact E2]. }
  exists (setr r2 10 (if fx =? 0 then 0 else 0xffffffff)).
  split; [|split; [apply rok_set; [exact Hr2|discriminate|destruct (fx =? 0); reflexivity]|split; [reflexivity|]]].
  - unfold core_tag. apply st_cond. rewrite C. apply st_then with (M1 := M) (r1 := r1); [exact R1|].
    apply st_then with (M1 := M) (r1 := r2); [exact R2|]. apply st_cond. unfold beq. rewrite V5, (rok_0 r2 Hr2).
    destruct (fx =? 0); ops.
  - apply except_set; [reflexivity|]. apply (except_sub (26%nat :: tregs)); [reflexivity|exact EA].
Qed.
End core.
