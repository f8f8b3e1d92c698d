(** * RvLaws.v -- the four RISC-V implementations obey the laws of RvMode.v. *)
From Coq Require Import Bool Arith NArith ZArith List Lia Init.Byte Strings.Byte ZifyBool ZifyNat ZifyN.
From Verif Require Import Words WordFacts Spec SpecFacts Spec12 Spec12Facts StateRep Asm ModelRv CMem Contract CMemFacts RvFacts RvRound RvMode RvWords RvInst.
Import ListNotations.
Local Open Scope N_scope.
Local Strategy 1000 [unzipf zipf packf packuf rev8f].

(** ** asm_rv32i *)
Lemma tag_split (t0 t1 : bytes) : length t0 = 8%nat -> length t1 = 8%nat ->
  firstn 4 (t0 ++ t1) = firstn 4 t0 /\ firstn 4 (skipn 4 (t0 ++ t1)) = skipn 4 t0 /\
  firstn 4 (skipn 8 (t0 ++ t1)) = firstn 4 t1 /\ skipn 12 (t0 ++ t1) = skipn 4 t1.
Proof.
  intros H0 H1. do 9 (destruct t0 as [|? t0]; [cbn in H0; try discriminate H0|]); [|cbn in H0; discriminate H0].
  do 9 (destruct t1 as [|? t1]; [cbn in H1; try discriminate H1|]); [|cbn in H1; discriminate H1].
  repeat split.
Qed.
Lemma word_le l : length l = 8%nat -> le_bytes 4 (half lo_n (le_num l)) ++ le_bytes 4 (half hi_n (le_num l)) = l.
Proof.
  intros H. destruct (split44 l H) as (E & H1 & H2). rewrite le_lo, le_hi by exact H.
  rewrite !le_bytes_le_num by assumption. symmetry. exact E.
Qed.
Ltac rset := repeat (apply rok_set; [|discriminate|]).

Lemma laws_rv32i : laws le_num hi_n lo_n rv32i aead128.
Proof.
  constructor.
  - intros a b Ha Hb. apply le_xor. lia.
  - intros a b Ha Hb Eh El. apply le_num_inj; [lia|]. apply halves_n; try assumption; apply fits_le8; assumption.
  - exact (perm_with_ok _ check_i).
  - intros n S. apply length_p.
  - intros n S H. apply le_pst, H.
  - intros e ln b r M l0 l1 Hr HR L0 L1 Ha Hb Hm Hl. destruct (memb_tregs b Hm) as (D1 & D2 & D3 & D4).
    destruct (split44 l0 L0) as (_ & A1 & A2). destruct (split44 l1 L1) as (_ & B1 & B2).
    exists (loaded le_first r (le_num (firstn 4 l0)) (le_num (skipn 4 l0)) (le_num (firstn 4 l1)) (le_num (skipn 4 l1))).
    split; [|split; [|split; [|split]]].
    + cbn [v_load rv32i]. rewrite <- (app_nil_r (lws b le_first)).
      apply (lws_8 b 29 28 31 30 l0 l1 [] r M); try assumption. apply st_nil.
    + split; [exact L0|]. unfold hi, lo. rewrite le_hi, le_lo by exact L0. split; reflexivity.
    + split; [exact L1|]. unfold hi, lo. rewrite le_hi, le_lo by exact L1. split; reflexivity.
    + apply loaded_rok; [left; reflexivity|exact Hr|..]; apply fits_le4; assumption.
    + apply loaded_except. left. reflexivity.
  - intros r M a0 a1 Hr (L0 & H0 & H1) (L1 & H2 & H3) HW Ha Hb. exists r. split; [|split; [exact Hr|apply except_refl]].
    cbn [v_store rv32i]. apply (sws_ok 10 9 8 19 18 [] r M); [exact Ha|exact Hb|exact HW|].
    rewrite H0, H1, H2, H3. unfold hi, lo. rewrite app_assoc, word_le, word_le by assumption. apply st_nil.
  - intros e ln r M a0 a1 Hr (L0 & H0 & H1) (L1 & H2 & H3) Hl. exists r.
    split; [apply st_skip|]. split; [exact Hr|]. split; [apply except_refl|]. cbn [v_first rv32i le_first].
    rewrite H0, H1, H2, H3. unfold hi, lo. rewrite !le_lo, !le_hi by assumption. repeat split.
  - left. reflexivity.
  - intros e ln r M l0 l1 Hr HR L0 L1 Ha Hb Hl.
    destruct (split44 l0 L0) as (_ & A1 & A2). destruct (split44 l1 L1) as (_ & B1 & B2).
    eexists. split; [|split; [|split; [|split]]].
    + cbn [v_reload rv32i]. apply (lws_8 2 29 28 30 31 l0 l1); [discriminate|discriminate|discriminate|exact HR|exact L0|exact L1|exact Ha|exact Hb|].
      opsf. apply st_nil.
    + split; [exact L0|]. unfold hi, lo. rewrite le_hi, le_lo by exact L0. split; reflexivity.
    + split; [exact L1|]. unfold hi, lo. rewrite le_hi, le_lo by exact L1. split; reflexivity.
    + rset; try exact Hr; apply fits_le4; assumption.
    + exs.
  - split; reflexivity.
  - intros r M a Hr (L & H0 & H1).
    eexists. split; [|split; [|split]].
    + cbn [v_sep rv32i]. opsf. apply st_nil.
    + change (sep_of aead128) with x80. rewrite xor_last by exact L. split; [rewrite length_xor_into; exact L|].
      assert (Z : length (zeros 7 ++ [x80]) = 8%nat) by reflexivity.
      unfold hi, lo. rewrite le_xor, !half_lxor by (rewrite L, Z; reflexivity).
      change (half hi_n (le_num (zeros 7 ++ [x80]))) with 0x80000000. change (half lo_n (le_num (zeros 7 ++ [x80]))) with 0.
      rewrite N.lxor_0_r. split; [|exact H1]. cbn [setr Nat.eqb]. rewrite H0. reflexivity.
    + rset; [exact Hr|reflexivity|]. apply fits_lxor; [apply Hr|reflexivity].
    + exs.
  - repeat split.
  - intros e ln r M t0 t1 Hr HT L0 L1 HB Hl. cbn [v_tag rv32i].
    destruct (lw_unaligned_ok le_first r M _ (or_introl eq_refl) Hr HT HB) as (r' & R & Hr' & EX & V1 & V2 & V3 & V4).
    destruct (tag_split t0 t1 L0 L1) as (T1 & T2 & T3 & T4). rewrite T1 in V1. rewrite T2 in V2. rewrite T3 in V3. rewrite T4 in V4.
    exists r'. split; [exact R|]. split; [|split; [|split; [exact Hr'|exact EX]]].
    + split; [exact L0|]. unfold hi, lo. rewrite le_hi, le_lo by exact L0. split; assumption.
    + split; [exact L1|]. unfold hi, lo. rewrite le_hi, le_lo by exact L1. split; assumption.
Qed.

(** ** asm_rv32b, asm_fsr_rv32b *)
Definition conv_ok (f : code) (to : N -> N -> N * N) : Prop := forall r M a, rok r -> fits 32 a ->
  exists r', runs (call 5 a f r) M M r' /\ rok r' /\ except tregs r r' /\
    (r' 28%nat, r' 29%nat) = to (r 28%nat) (r 29%nat) /\ (r' 30%nat, r' 31%nat) = to (r 30%nat) (r 31%nat).
Lemma rev8_conv : conv_ok ascon_rev8 (fun h l => (rev8f h, rev8f l)).
Proof.
  intros r M a Hr Ha. eexists. split; [|split; [|split; [|split]]].
  - apply st_call; [unfold ascon_rev8; opsf; apply st_nil|reflexivity].
  - rset; try exact Hr; try exact Ha; apply fits_rev8.
  - exs.
  - reflexivity.
  - reflexivity.
Qed.
Lemma to_bi_conv : conv_ok ascon_to_bi32_rev8
  (fun h l => (packuf (unzipf (rev8f l)) (unzipf (rev8f h)), packf (unzipf (rev8f l)) (unzipf (rev8f h)))).
Proof.
  intros r M a Hr Ha. eexists. split; [|split; [|split; [|split]]].
  - apply st_call; [unfold ascon_to_bi32_rev8, to_bi32_rev8; cbn [app]; opsf; apply st_nil|reflexivity].
  - rset; try exact Hr; try exact Ha; fit.
  - exs.
  - reflexivity.
  - reflexivity.
Qed.
Lemma from_bi_conv : conv_ok ascon_from_bi32_rev8 (fun h l => (rev8f (zipf (packuf l h)), rev8f (zipf (packf l h)))).
Proof.
  intros r M a Hr Ha. eexists. split; [|split; [|split; [|split]]].
  - apply st_call; [unfold ascon_from_bi32_rev8, from_bi32_rev8; cbn [app]; opsf; apply st_nil|reflexivity].
  - rset; try exact Hr; try exact Ha; first [fit|apply fits_packu; apply Hr].
  - exs.
  - reflexivity.
  - reflexivity.
Qed.

(** The words of 8 bytes in memory, most significant byte first, and the two registers. *)
Section be.
Variables (ph pl : N -> N) (cin cout : code) (to from : N -> N -> N * N).
Hypothesis Hin : conv_ok cin to.
Hypothesis Hout : conv_ok cout from.
Hypothesis To : forall a, length a = 8%nat -> to (le_num (firstn 4 a)) (le_num (skipn 4 a)) = (half ph (be_num a), half pl (be_num a)).
Hypothesis From : forall a, length a = 8%nat -> from (half ph (be_num a)) (half pl (be_num a)) = (le_num (firstn 4 a), le_num (skipn 4 a)).
Lemma be_load e ln b r M l0 l1 : rok r -> readable M (r b) (l0 ++ l1) -> length l0 = 8%nat -> length l1 = 8%nat ->
    r b mod 4 = 0 -> r b + 16 < 2 ^ 32 -> memb b tregs = false -> fits 32 (lab e ln) ->
    exists r', runs ((exec (lws b be_first) >>> call 5 (lab e ln) cin) r) M M r' /\
      Wd be_num ph pl r' 28 29 l0 /\ Wd be_num ph pl r' 30 31 l1 /\ rok r' /\ except tregs r r'.
Proof.
  intros Hr HR L0 L1 Ha Hb Hm Hl. destruct (memb_tregs b Hm) as (D1 & D2 & D3 & D4).
  destruct (split44 l0 L0) as (_ & A1 & A2). destruct (split44 l1 L1) as (_ & B1 & B2).
  set (r1 := loaded be_first r (le_num (firstn 4 l0)) (le_num (skipn 4 l0)) (le_num (firstn 4 l1)) (le_num (skipn 4 l1))).
  assert (Hr1 : rok r1) by (apply loaded_rok; [right; reflexivity|exact Hr|..]; apply fits_le4; assumption).
  destruct (Hin r1 M (lab e ln) Hr1 Hl) as (r' & R & Hr' & EX & V0 & V1).
  exists r'. split; [|split; [|split; [|split; [exact Hr'|]]]].
  - apply st_then with (M1 := M) (r1 := r1); [|exact R]. rewrite <- (app_nil_r (lws b be_first)).
    apply (lws_8 b 28 29 30 31 l0 l1 [] r M); try assumption. apply st_nil.
  - split; [exact L0|]. change (r1 28%nat) with (le_num (firstn 4 l0)) in V0. change (r1 29%nat) with (le_num (skipn 4 l0)) in V0.
    rewrite To in V0 by exact L0. injection V0 as V0 V0'. split; assumption.
  - split; [exact L1|]. change (r1 30%nat) with (le_num (firstn 4 l1)) in V1. change (r1 31%nat) with (le_num (skipn 4 l1)) in V1.
    rewrite To in V1 by exact L1. injection V1 as V1 V1'. split; assumption.
  - apply except_trans with r1; [apply loaded_except; right; reflexivity|exact EX].
Qed.
Lemma be_reload e ln r M l0 l1 : rok r -> readable M (r 2%nat) (l0 ++ l1) -> length l0 = 8%nat -> length l1 = 8%nat ->
    r 2%nat mod 4 = 0 -> r 2%nat + 16 < 2 ^ 32 -> fits 32 (lab e ln) ->
    exists r', runs ((exec (lws 2 be_first) >>> call 5 (lab e ln) cin >>> exec [mv 8 28; mv 9 29; mv 18 30; mv 19 31]) r) M M r' /\
      Wd be_num ph pl r' 8 9 l0 /\ Wd be_num ph pl r' 18 19 l1 /\ rok r' /\ except ([8; 9; 18; 19]%nat ++ tregs) r r'.
Proof.
  intros Hr HR L0 L1 Ha Hb Hl. destruct (be_load e ln 2 r M l0 l1 Hr HR L0 L1 Ha Hb eq_refl Hl) as (r1 & R1 & (_ & H0 & H1) & (_ & H2 & H3) & Hr1 & E1).
  eexists. split; [|split; [|split; [|split]]].
  - assert (A : forall f g h r M M' r', runs (((f >>> g) >>> h) r) M M' r' -> runs ((f >>> g >>> h) r) M M' r').
    { intros f g h r0 M0 M' r' (t & H). revert H. unfold andthen, runs, bind.
      destruct (f r0 M0) as [t1 M1 q1|]; [|discriminate]. destruct (g q1 M1) as [t2 M2 q2|]; [|discriminate].
      destruct (h q2 M2) as [t3 M3 q3|]; [|discriminate]. intros H. injection H as <- <- <-. eexists. reflexivity. }
    apply A. apply st_then with (M1 := M) (r1 := r1); [exact R1|]. opsf. apply st_nil.
  - split; [exact L0|]. split; [exact H0|exact H1].
  - split; [exact L1|]. split; [exact H2|exact H3].
  - rset; try exact Hr1; apply Hr1.
  - apply except_trans with r1; [apply (except_sub tregs); [reflexivity|exact E1]|exs].
Qed.
Lemma be_conv e ln r M a0 a1 : rok r -> Wd be_num ph pl r 28 29 a0 -> Wd be_num ph pl r 30 31 a1 -> fits 32 (lab e ln) ->
    exists r', runs (call 5 (lab e ln) cout r) M M r' /\ rok r' /\ except tregs r r' /\
      r' 28%nat = le_num (firstn 4 a0) /\ r' 29%nat = le_num (skipn 4 a0) /\ r' 30%nat = le_num (firstn 4 a1) /\ r' 31%nat = le_num (skipn 4 a1).
Proof.
  intros Hr (L0 & H0 & H1) (L1 & H2 & H3) Hl. destruct (Hout r M _ Hr Hl) as (r' & R & Hr' & EX & V0 & V1).
  rewrite H0, H1 in V0. rewrite H2, H3 in V1. unfold hi, lo in V0, V1. rewrite From in V0, V1 by assumption.
  injection V0 as V0 V0'. injection V1 as V1 V1'. exists r'. split; [exact R|]. split; [exact Hr'|]. split; [exact EX|]. split; [exact V0|]. split; [exact V0'|]. split; [exact V1|exact V1'].
Qed.
Lemma be_tag tagload e ln r M t0 t1 : tagload_ok tagload -> rok r -> tag_at M (r 13%nat) (t0 ++ t1) -> length t0 = 8%nat -> length t1 = 8%nat ->
    r 13%nat + 20 < 2 ^ 32 -> fits 32 (lab e ln) ->
    exists r', runs ((tagload be_first >>> call 5 (lab e ln) cin) r) M M r' /\
      Wd be_num ph pl r' 28 29 t0 /\ Wd be_num ph pl r' 30 31 t1 /\ rok r' /\ except (26%nat :: tregs) r r'.
Proof.
  intros Ht Hr HT L0 L1 HB Hl.
  destruct (Ht be_first r M _ (or_intror eq_refl) Hr HT HB) as (r1 & R & Hr1 & EX & V1 & V2 & V3 & V4).
  destruct (tag_split t0 t1 L0 L1) as (T1 & T2 & T3 & T4). rewrite T1 in V1. rewrite T2 in V2. rewrite T3 in V3. rewrite T4 in V4.
  destruct (Hin r1 M (lab e ln) Hr1 Hl) as (r' & R' & Hr' & EX' & U0 & U1).
  rewrite V1, V2 in U0. rewrite V3, V4 in U1. rewrite To in U0, U1 by assumption. injection U0 as U0 U0'. injection U1 as U1 U1'.
  exists r'. split; [apply st_then with (M1 := M) (r1 := r1); [exact R|exact R']|].
  split; [split; [exact L0|split; assumption]|]. split; [split; [exact L1|split; assumption]|]. split; [exact Hr'|].
  apply except_trans with r1; [exact EX|apply (except_sub tregs); [reflexivity|exact EX']].
Qed.
Lemma be_sep r M a : hi be_num ph (zeros 7 ++ [x01]) = 0 -> lo be_num pl (zeros 7 ++ [x01]) = 1 -> rok r -> Wd be_num ph pl r 24 25 a ->
    exists r', runs (exec [xori 25 25 1] r) M M r' /\ Wd be_num ph pl r' 24 25 (xor_at 7 a [x01]) /\ rok r' /\ except ([24; 25]%nat ++ tregs) r r'.
Proof.
  intros Z1 Z2 Hr (L & H0 & H1). eexists. split; [opsf; apply st_nil|]. split; [|split].
  - rewrite xor_last by exact L. split; [rewrite length_xor_into; exact L|]. unfold hi, lo in *.
    rewrite be_xor, !half_lxor by (rewrite L; reflexivity). rewrite Z1, Z2, N.lxor_0_r.
    split; [exact H0|]. cbn [setr Nat.eqb]. rewrite H1. reflexivity.
  - rset; [exact Hr|]. apply fits_lxor; [apply Hr|reflexivity].
  - exs.
Qed.
(** Four words from the registers [v0] to [v3], one after the other *)
Lemma be_bytes_of v0 v1 a : length a = 8%nat -> (v0, v1) = from (half ph (be_num a)) (half pl (be_num a)) -> le_bytes 4 v0 ++ le_bytes 4 v1 = a.
Proof.
  intros L E. rewrite From in E by exact L. injection E as -> ->. destruct (split44 a L) as (Ea & H1 & H2).
  rewrite !le_bytes_le_num by assumption. symmetry. exact Ea.
Qed.
End be.
(** Four stores with instructions between them: [q0] to [q3] are the registers at the stores *)
Lemma sw_write M p b0 b1 b2 b3 : length b0 = 4%nat -> length b1 = 4%nat -> length b2 = 4%nat ->
  write (write (write (write M p b0) (p + 4) b1) (p + 8) b2) (p + 12) b3 = write M p (b0 ++ b1 ++ b2 ++ b3).
Proof.
  intros L0 L1 L2. rewrite !write_app. unfold len. rewrite L0, L1, L2. change (N.of_nat 4) with 4.
  replace (p + 4 + 4) with (p + 8) by lia. replace (p + 8 + 4) with (p + 12) by lia. reflexivity.
Qed.
Lemma writable_parts M p : writable M p 16 -> writable M p 4 /\ writable M (p + 4) 4 /\ writable M (p + 8) 4 /\ writable M (p + 12) 4.
Proof.
  intros Hw. destruct (writable_split M p 4 12 Hw) as [W1 W']. destruct (writable_split M (p + 4) 4 8 W') as [W2 W''].
  destruct (writable_split M (p + 4 + 4) 4 4 W'') as [W3 W4].
  replace (p + 4 + 4) with (p + 8) in * by lia. replace (p + 8 + 4) with (p + 12) in * by lia. split; [exact W1|]. split; [exact W2|]. split; [exact W3|exact W4].
Qed.

Lemma be_To a : length a = 8%nat -> (rev8f (le_num (firstn 4 a)), rev8f (le_num (skipn 4 a))) = (half hi_n (be_num a), half lo_n (be_num a)).
Proof.
  intros L. destruct (split44 a L) as (_ & H1 & H2). rewrite be_hi, be_lo, !rev8_le by assumption. reflexivity.
Qed.
Lemma be_From a : length a = 8%nat -> (rev8f (half hi_n (be_num a)), rev8f (half lo_n (be_num a))) = (le_num (firstn 4 a), le_num (skipn 4 a)).
Proof.
  intros L. destruct (split44 a L) as (_ & H1 & H2). rewrite be_hi, be_lo, !rev8_be by assumption. reflexivity.
Qed.
Lemma bi_To a : length a = 8%nat -> (packuf (unzipf (rev8f (le_num (skipn 4 a)))) (unzipf (rev8f (le_num (firstn 4 a)))),
    packf (unzipf (rev8f (le_num (skipn 4 a)))) (unzipf (rev8f (le_num (firstn 4 a))))) = (half hi_b (be_num a), half lo_b (be_num a)).
Proof.
  intros L. pose proof (f_equal fst (be_To a L)) as E1. pose proof (f_equal snd (be_To a L)) as E2. cbn [fst snd] in E1, E2. rewrite E1, E2, unzip_lo, unzip_hi. reflexivity.
Qed.
Lemma bi_From a : length a = 8%nat -> (rev8f (zipf (packuf (half lo_b (be_num a)) (half hi_b (be_num a)))),
    rev8f (zipf (packf (half lo_b (be_num a)) (half hi_b (be_num a))))) = (le_num (firstn 4 a), le_num (skipn 4 a)).
Proof. intros L. rewrite zip_lo, zip_hi. apply be_From, L. Qed.

(** The store of asm_rv32b *)
Lemma be_store r M a0 a1 : rok r -> Wd be_num hi_n lo_n r 8 9 a0 -> Wd be_num hi_n lo_n r 18 19 a1 -> writable M (r 10%nat) 16 -> r 10%nat mod 4 = 0 ->
    r 10%nat + 16 < 2 ^ 32 ->
    exists r', runs (exec [rev8 5 8; Sw 5 10 0; rev8 5 9; Sw 5 10 4; rev8 5 18; Sw 5 10 8; rev8 5 19; Sw 5 10 12] r) M (write M (r 10%nat) (a0 ++ a1)) r' /\
      rok r' /\ except [5; 6; 7]%nat r r'.
Proof.
  intros Hr (L0 & H0 & H1) (L1 & H2 & H3) HW Ha Hb. destruct (writable_parts M _ HW) as (W0 & W1 & W2 & W3).
  set (p := r 10%nat) in *.
  assert (EX : except [5]%nat r (setr (setr (setr (setr r 5 (rev8f (r 8%nat))) 5 (rev8f (r 9%nat))) 5 (rev8f (r 18%nat))) 5 (rev8f (r 19%nat)))) by exs.
  eexists. split; [|split].
  - opsf. apply st_sw with (p := p); [apply N.add_0_r|lia|exact Ha|exact W0|].
    opsf. apply st_sw with (p := p + 4); [reflexivity|lia|apply mod4_add; [exact Ha|reflexivity]|apply writable_write; exact W1|].
    opsf. apply st_sw with (p := p + 8); [reflexivity|lia|apply mod4_add; [exact Ha|reflexivity]|do 2 apply writable_write; exact W2|].
    opsf. apply st_sw with (p := p + 12); [reflexivity|lia|apply mod4_add; [exact Ha|reflexivity]|do 3 apply writable_write; exact W3|].
    cbn [setr Nat.eqb]. rewrite sw_write by apply length_le_bytes. rewrite app_assoc.
    rewrite (be_bytes_of hi_n lo_n (fun h l => (rev8f h, rev8f l)) be_From (rev8f (r 8%nat)) (rev8f (r 9%nat)) a0) by (try exact L0; rewrite H0, H1; reflexivity).
    rewrite (be_bytes_of hi_n lo_n (fun h l => (rev8f h, rev8f l)) be_From (rev8f (r 18%nat)) (rev8f (r 19%nat)) a1) by (try exact L1; rewrite H2, H3; reflexivity).
    apply st_nil.
  - rset; try exact Hr; apply fits_rev8.
  - exs.
Qed.
Lemma bi_store r M a0 a1 : rok r -> Wd be_num hi_b lo_b r 8 9 a0 -> Wd be_num hi_b lo_b r 18 19 a1 -> writable M (r 10%nat) 16 -> r 10%nat mod 4 = 0 ->
    r 10%nat + 16 < 2 ^ 32 ->
    exists r', runs (v_store bi32_rv32b r) M (write M (r 10%nat) (a0 ++ a1)) r' /\ rok r' /\ except [5; 6; 7]%nat r r'.
Proof.
  intros Hr (L0 & H0 & H1) (L1 & H2 & H3) HW Ha Hb. destruct (writable_parts M _ HW) as (W0 & W1 & W2 & W3).
  set (p := r 10%nat) in *. cbn [v_store bi32_rv32b]. unfold from_bi32_rev8. cbn [app].
  eexists. split; [|split].
  - opsf. apply st_sw with (p := p); [apply N.add_0_r|lia|exact Ha|exact W0|].
    apply st_sw with (p := p + 4); [reflexivity|lia|apply mod4_add; [exact Ha|reflexivity]|apply writable_write; exact W1|].
    opsf. apply st_sw with (p := p + 8); [reflexivity|lia|apply mod4_add; [exact Ha|reflexivity]|do 2 apply writable_write; exact W2|].
    apply st_sw with (p := p + 12); [reflexivity|lia|apply mod4_add; [exact Ha|reflexivity]|do 3 apply writable_write; exact W3|].
    cbn [setr Nat.eqb]. rewrite sw_write by apply length_le_bytes. rewrite app_assoc.
    rewrite (be_bytes_of hi_b lo_b (fun h l => (rev8f (zipf (packuf l h)), rev8f (zipf (packf l h)))) bi_From _ _ a0) by (try exact L0; rewrite H0, H1; reflexivity).
    rewrite (be_bytes_of hi_b lo_b (fun h l => (rev8f (zipf (packuf l h)), rev8f (zipf (packf l h)))) bi_From _ _ a1) by (try exact L1; rewrite H2, H3; reflexivity).
    apply st_nil.
  - rset; try exact Hr; first [fit|apply fits_packu; apply Hr].
  - exs.
Qed.

Lemma laws_rv32b_with linear tagload : round_check hi_n lo_n (round_with sbox_b linear) = true -> tagload_ok tagload ->
  laws be_num hi_n lo_n (rv32b_with linear tagload) ascon128a_v12.
Proof.
  intros HC HT. constructor.
  - intros a b Ha Hb. apply be_xor. lia.
  - intros a b Ha Hb Eh El. apply be_inj; [exact Ha|exact Hb|]. apply halves_n; try assumption; apply fits_be8; assumption.
  - exact (perm_with_ok _ HC).
  - intros n S. apply length_p_be.
  - intros n S H. apply be_pst, H.
  - intros e ln b r M l0 l1. exact (be_load hi_n lo_n ascon_rev8 _ rev8_conv be_To e ln b r M l0 l1).
  - exact be_store.
  - intros e ln r M a0 a1. exact (be_conv hi_n lo_n ascon_rev8 _ rev8_conv be_From e ln r M a0 a1).
  - right. reflexivity.
  - intros e ln r M l0 l1. exact (be_reload hi_n lo_n ascon_rev8 _ rev8_conv be_To e ln r M l0 l1).
  - split; reflexivity.
  - intros r M a. exact (be_sep hi_n lo_n r M a eq_refl eq_refl).
  - repeat split.
  - intros e ln r M t0 t1. exact (be_tag hi_n lo_n ascon_rev8 _ rev8_conv be_To tagload e ln r M t0 t1 HT).
Qed.
Lemma laws_rv32b : laws be_num hi_n lo_n rv32b ascon128a_v12.
Proof. exact (laws_rv32b_with _ _ check_b lw_unaligned_ok). Qed.
Lemma laws_fsr : laws be_num hi_n lo_n fsr_rv32b ascon128a_v12.
Proof. exact (laws_rv32b_with _ _ check_fsr lw_unaligned_fsr_ok). Qed.

(** ** asm_bi32_rv32b *)
Lemma laws_bi32 : laws be_num hi_b lo_b bi32_rv32b ascon128a_v12.
Proof.
  constructor.
  - intros a b Ha Hb. apply be_xor. lia.
  - intros a b Ha Hb Eh El. apply be_inj; [exact Ha|exact Hb|]. apply halves_b; try assumption; apply fits_be8; assumption.
  - exact perm_bi_ok.
  - intros n S. apply length_p_be.
  - intros n S H. apply be_pst, H.
  - intros e ln b r M l0 l1. exact (be_load hi_b lo_b _ _ to_bi_conv bi_To e ln b r M l0 l1).
  - exact bi_store.
  - intros e ln r M a0 a1. exact (be_conv hi_b lo_b _ _ from_bi_conv bi_From e ln r M a0 a1).
  - right. reflexivity.
  - intros e ln r M l0 l1. exact (be_reload hi_b lo_b _ _ to_bi_conv bi_To e ln r M l0 l1).
  - split; reflexivity.
  - intros r M a. exact (be_sep hi_b lo_b r M a eq_refl eq_refl).
  - repeat split.
  - intros e ln r M t0 t1. exact (be_tag hi_b lo_b _ _ to_bi_conv bi_To lw_unaligned_4x e ln r M t0 t1 lw_unaligned_ok).
Qed.
