(** * Esp32Prim.v -- the ESP32 implementation: permutation, loads, stores. *)
From Coq Require Import Arith Bool NArith ZArith List Lia Init.Byte.
From Coq Require Import ZifyBool ZifyNat ZifyN.
From Verif Require Import Words WordFacts Spec SpecFacts CMem ModelRef RoundFacts StateRep RefRound RefPrim
  ModelCommon ModelWords WordLaws BitExp WordInst WordInstBi Asm Poly AsmArm ArmCode AsmRound ModelArm AsmArmFacts.
From Verif Require Import Contract CMemFacts RefAead ModelEsp32.
Import ListNotations.
Local Open Scope N_scope.

(** ** The permutation *)

Definition E_lay (c : N) : layout := lay5 pi64 straight [J; J; J; K c].
Lemma P_rounds_ok : forallb (fun n => let c := 0x3c + 15 * n in
  check 32 9 [Ops P_body] (Some c) (E_lay c) (E_lay (c - 15))) [1;2;3;4;5;6;7;8;9;10;11;12] = true.
Proof. vm_compute. reflexivity. Qed.

Lemma run_ops l M M' : run 9 [Ops l] M = Some M' -> exec l M = Some M'.
Proof. cbn [run]. destruct (exec l M); auto. Qed.

Lemma rnd_at s M c : lay_ok 32 ctx0 s M (E_lay c) -> nth rnd (regs M) 0 = c.
Proof.
  intros [R _ _ _]. unfold E_lay, lay5, words in R. cbn [l_regs flat_map straight app] in R.
  do 14 (apply F2_cons in R; destruct R as (? & ? & -> & ? & R); cbn beta in *).
  cbn [rnd nth]. assumption.
Qed.

Lemma perm_step n s : (n < 12)%nat -> perm (S n) s = perm n (round s (0x3c + 15 * N.of_nat (S n))).
Proof. intros H. do 12 (destruct n as [|n]; [reflexivity|]). lia. Qed.

Lemma P_while_ok n : (n <= 12)%nat -> forall f s M, (n < f)%nat -> lay_ok 32 ctx0 s M (E_lay (0x3c + 15 * N.of_nat n)) ->
  exists M', P_while f M = Some M' /\ lay_ok 32 ctx0 (perm n s) M' (E_lay 0x3c).
Proof.
  induction n as [|n IH]; intros Hn f s M Hf L; (destruct f as [|f]; [lia|]); cbn [P_while]; rewrite (rnd_at _ _ _ L).
  - exists M. split; [reflexivity|exact L].
  - replace (0x4b <=? 0x3c + 15 * N.of_nat (S n)) with true by lia.
    assert (Hc : check 32 9 [Ops P_body] (Some (0x3c + 15 * N.of_nat (S n))) (E_lay (0x3c + 15 * N.of_nat (S n)))
      (E_lay (0x3c + 15 * N.of_nat (S n) - 15)) = true).
    { pose proof P_rounds_ok as F. rewrite forallb_forall in F. apply (F (N.of_nat (S n))).
      clear - Hn. do 12 (destruct n as [|n]; [cbn; tauto|]). lia. }
    destruct (check_sound _ _ _ _ _ _ ctx0 Hc ctx0_ok s M L) as (M1 & E1 & L1).
    rewrite (run_ops _ _ _ E1). cbn [s_of] in L1.
    replace (0x3c + 15 * N.of_nat (S n) - 15) with (0x3c + 15 * N.of_nat n) in L1 by lia.
    rewrite perm_step by lia. apply IH; [lia|lia|exact L1].
Qed.

(** P computes the permutation, whatever the uninitialised variables hold. *)
Theorem P_ok n : (n <= 12)%nat -> forall s u, wf s -> length u = 3%nat -> Forall (fits 32) u ->
  P_call u (0x3c + 15 * N.of_nat n) s = Some (perm n s).
Proof.
  intros Hn s u Hs Hu Fu.
  assert (Es : cs (bitperm pi64) s = s) by (apply cs64_id, Hs).
  destruct (P_while_ok n Hn 20 s (Mach (lohi s ++ u ++ [0x3c + 15 * N.of_nat n]) [] 0 [])) as (M' & E & [R _ _ _]).
  - lia.
  - pose proof (lay_start pi64 pi64 inv64_ok s (u ++ [0x3c + 15 * N.of_nat n]) [J; J; J; K (0x3c + 15 * N.of_nat n)] Hs) as L.
    rewrite Es in L. apply L.
    destruct u as [|a [|b [|c [|]]]]; try discriminate. inversion Fu as [|? ? Fa Fu1]; subst. inversion Fu1 as [|? ? Fb Fu2]; subst. inversion Fu2 as [|? ? Fc Fu3]; subst.
    repeat constructor; assumption.
  - unfold P_call. rewrite E. f_equal.
    destruct (unhalves_ok pi64 pi64 inv64_ok (perm n s) ctx0 (regs M') straight _ (wf_perm _ _ Hs) eq_refl R) as [W C].
    rewrite pick_straight in C. change (unlohi (regs M')) with (unhalves LE (regs M')).
    rewrite <- C. symmetry. apply cs64_id, W.
Qed.

Lemma P_PA s : wf s -> P PA_START_ROUND s = P12 s.
Proof.
  intros H. unfold P. change PA_START_ROUND with (0x3c + 15 * N.of_nat 12).
  rewrite P_ok by (auto; repeat constructor). rewrite P12_perm by exact H. reflexivity.
Qed.
Lemma P_PB s : wf s -> P PB_START_ROUND s = P8 s.
Proof.
  intros H. unfold P. change PB_START_ROUND with (0x3c + 15 * N.of_nat 8).
  rewrite P_ok by (auto; try lia; repeat constructor). rewrite P8_perm by exact H. reflexivity.
Qed.

(** ** Words and memory *)

Lemma ofw_bit e a b i : fits 32 a -> fits 32 b ->
  N.testbit (ofw e a b) i =
  match e with
  | LE => if i <? 32 then N.testbit a i else N.testbit b (i - 32)
  | BE => if i <? 32 then N.testbit b i else N.testbit a (i - 32)
  end.
Proof.
  intros Ha Hb. destruct e; cbn [ofw]; rewrite N.lor_spec, testbit_shlw.
  - destruct (N.ltb_spec i 32) as [H|H].
    + replace (32 <=? i) with false by lia. rewrite andb_false_l, andb_false_r, orb_false_r. reflexivity.
    + rewrite (fits_bit_high 32 a i Ha H), orb_false_l. replace (32 <=? i) with true by lia. rewrite andb_true_l.
      destruct (N.ltb_spec i 64); [apply andb_true_l|]. rewrite (fits_bit_high 32 b (i - 32) Hb) by lia. reflexivity.
  - destruct (N.ltb_spec i 32) as [H|H].
    + replace (32 <=? i) with false by lia. rewrite andb_false_l, andb_false_r, orb_false_r. reflexivity.
    + rewrite (fits_bit_high 32 b i Hb H), orb_false_l. replace (32 <=? i) with true by lia. rewrite andb_true_l.
      destruct (N.ltb_spec i 64); [apply andb_true_l|]. rewrite (fits_bit_high 32 a (i - 32) Ha) by lia. reflexivity.
Qed.

Lemma fits_w0 e x : fits 64 x -> fits 32 (w0 e x).
Proof.
  intros H. destruct e; cbn [w0]; [apply fits_trunc|]. apply fits_testbit. intros i Hi. rewrite testbit_shrw.
  apply (fits_bit_high 64 x _ H). lia.
Qed.
Lemma fits_w1 e x : fits 64 x -> fits 32 (w1 e x).
Proof.
  intros H. destruct e; cbn [w1]; [|apply fits_trunc]. apply fits_testbit. intros i Hi. rewrite testbit_shrw.
  apply (fits_bit_high 64 x _ H). lia.
Qed.

Lemma xor_hl_ok e w t : fits 64 w -> fits 64 t -> xor_hl e w t = N.lxor w t.
Proof.
  intros Hw Ht. unfold xor_hl. apply N.bits_inj. intros i.
  rewrite ofw_bit by (apply fits_lxor; auto using fits_w0, fits_w1). rewrite !N.lxor_spec.
  destruct e; cbn [w0 w1]; rewrite !testbit_trunc, !testbit_shrw; destruct (N.ltb_spec i 32) as [H|H];
    rewrite ?andb_true_l; try reflexivity; replace (i - 32 + 32) with i by lia; reflexivity.
Qed.

(** The two halves of 8 bytes. *)
Lemma from_host_halves e a b : length a = 4%nat -> length b = 4%nat ->
  ofw e (from_host e a) (from_host e b) = from_host e (a ++ b).
Proof.
  intros Ha Hb. apply N.bits_inj. intros i.
  assert (F : forall l, length l = 4%nat -> fits 32 (from_host e l)).
  { intros l Hl. destruct e; cbn [from_host]; [change 32 with (8 * N.of_nat 4); rewrite <- Hl; apply fits_le_num|].
    change 32 with (8 * N.of_nat 4). rewrite <- Hl, <- rev_length. apply fits_le_num. }
  rewrite ofw_bit by auto.
  assert (G : forall l1 l2 : bytes, length l1 = 4%nat -> N.testbit (le_num (l1 ++ l2)) i =
    if i <? 32 then N.testbit (le_num l1) i else N.testbit (le_num l2) (i - 32)).
  { intros l1 l2 H1. rewrite !testbit_le_num. destruct (N.ltb_spec i 32) as [H|H].
    - assert (i / 8 < 4) by (apply N.div_lt_upper_bound; lia). rewrite app_nth1 by lia. reflexivity.
    - rewrite app_nth2 by (rewrite H1; apply (N.div_le_mono 32 i 8) in H; [change (32 / 8) with 4 in H; lia|lia]).
      rewrite H1. replace i with (i - 32 + 4 * 8) at 1 2 by lia. rewrite N.div_add, N.mod_add by lia.
      f_equal. f_equal. lia. }
  destruct e; cbn [from_host].
  - rewrite G by exact Ha. reflexivity.
  - rewrite rev_app_distr, G by (rewrite rev_length; exact Hb). reflexivity.
Qed.

Lemma to_host_halves e x : fits 64 x -> to_host e 4 (w0 e x) ++ to_host e 4 (w1 e x) = to_host e 8 x.
Proof.
  intros Hx.
  assert (G : le_bytes 8 x = le_bytes 4 (trunc 32 x) ++ le_bytes 4 (shrw x 32)).
  { apply bytes_ext; [rewrite app_length, !length_le_bytes; reflexivity|]. intros j Hj. rewrite length_le_bytes in Hj.
    apply byte_ext. intros i Hi. rewrite bbit_nth_le_bytes by lia.
    destruct (Nat.lt_ge_cases j 4) as [H|H].
    - rewrite app_nth1 by (rewrite length_le_bytes; exact H). rewrite bbit_nth_le_bytes by lia. rewrite testbit_trunc.
      replace (8 * N.of_nat j + i <? 32) with true by lia. reflexivity.
    - rewrite app_nth2, length_le_bytes by (rewrite length_le_bytes; exact H). rewrite bbit_nth_le_bytes by lia.
      rewrite testbit_shrw. f_equal. lia. }
  destruct e; cbn [to_host w0 w1]; [symmetry; exact G|].
  rewrite G, rev_app_distr. reflexivity.
Qed.

Section Mem.
Variable e : endian.

Lemma runs_LD32 M p i b : readable M (p + 4 * i) b -> length b = 4%nat -> p <> 0 ->
  runs (LD32 e p i) M M (from_host e b).
Proof.
  intros R Hb Hp. pose proof (readable_bound _ _ _ R) as Hbd. unfold LD32.
  eapply runs_bind; [apply runs_padd; [lia|auto]|].
  eapply runs_bind; [apply (runs_memcpy_in _ _ b); [exact R|unfold len; lia|lia]|]. apply runs_ret.
Qed.

Lemma runs_LD64 M p i b : readable M (p + 4 * i) b -> length b = 8%nat -> p <> 0 ->
  runs (LD64 e p i) M M (le_num b).
Proof.
  intros R Hb Hp. destruct (split_at 4 b) as (b0 & b1 & -> & H0); [lia|].
  rewrite app_length in Hb. destruct (readable_app _ _ _ _ R) as (R0 & R1).
  rewrite (len_eq b0 4 H0) in R1. unfold LD64.
  eapply runs_bind; [apply (runs_LD32 M p i b0); auto|].
  eapply runs_bind; [apply (runs_LD32 M p (i + 1) b1); [|lia|exact Hp]|].
  { replace (p + 4 * (i + 1)) with (p + 4 * i + N.of_nat 4) by lia. exact R1. }
  rewrite from_host_halves by lia. rewrite U64LE_in by (rewrite app_length; lia). apply runs_ret.
Qed.

Lemma runs_ST32 M p i x : writable M (p + 4 * i) 4 -> p <> 0 ->
  runs (ST32 e p i x) M (write M (p + 4 * i) (to_host e 4 x)) tt.
Proof.
  intros W Hp. pose proof (writable_bound _ _ _ W) as Hbd. unfold ST32.
  eapply runs_bind; [apply runs_padd; [lia|auto]|].
  apply runs_memcpy_out; [|lia]. unfold len. rewrite length_to_host. exact W.
Qed.

Lemma runs_ST64 M p i w : writable M (p + 4 * i) 8 -> p <> 0 -> fits 64 w ->
  runs (ST64 e p i w) M (write M (p + 4 * i) (wb w)) tt.
Proof.
  intros W Hp Hw. assert (Fx : fits 64 (U64LE e w)) by (destruct e; cbn [U64LE]; [exact Hw|apply fits_swap64, Hw]).
  destruct (writable_split M (p + 4 * i) 4 4 W) as (W0 & W1).
  unfold ST64, wb. rewrite <- (U64LE_out e w Hw), <- to_host_halves by exact Fx. rewrite write_app.
  eapply runs_bind; [apply runs_ST32; auto|].
  replace (p + 4 * i + len (to_host e 4 (w0 e (U64LE e w)))) with (p + 4 * (i + 1)) by (unfold len; rewrite length_to_host; lia).
  apply runs_ST32; [|exact Hp]. apply writable_write.
  replace (p + 4 * (i + 1)) with (p + 4 * i + 4) by lia. exact W1.
Qed.

Lemma hxor0_ok s t : wf s -> fits 64 t -> hxor0 e s t = xor0 s t.
Proof. intros (H & _) Ht. unfold hxor0, xor0, set0. rewrite xor_hl_ok by assumption. reflexivity. Qed.
Lemma hxor1_ok s t : wf s -> fits 64 t -> hxor1 e s t = xor1 s t.
Proof. intros (_ & H & _) Ht. unfold hxor1, xor1, set1. rewrite xor_hl_ok by assumption. reflexivity. Qed.
Lemma hxor2_ok s t : wf s -> fits 64 t -> hxor2 e s t = xor2 s t.
Proof. intros (_ & _ & H & _) Ht. unfold hxor2, xor2. rewrite xor_hl_ok by assumption. reflexivity. Qed.
Lemma hxor3_ok s t : wf s -> fits 64 t -> hxor3 e s t = xor3 s t.
Proof. intros (_ & _ & _ & H & _) Ht. unfold hxor3, xor3. rewrite xor_hl_ok by assumption. reflexivity. Qed.
Lemma hxor4_ok s t : wf s -> fits 64 t -> hxor4 e s t = xor4 s t.
Proof. intros (_ & _ & _ & _ & H) Ht. unfold hxor4, xor4. rewrite xor_hl_ok by assumption. reflexivity. Qed.

(** The local buffer. *)
Lemma word_at_0 b0 r : length b0 = 8%nat -> word_at e (b0 ++ r) 0 = le_num b0.
Proof. intros H. unfold word_at. rewrite skipn_O, firstn_app_exact by exact H. apply U64LE_in, H. Qed.
Lemma word_at_1 b0 b1 : length b0 = 8%nat -> length b1 = 8%nat -> word_at e (b0 ++ b1) 1 = le_num b1.
Proof.
  intros H H1. unfold word_at. change (8 * 1)%nat with 8%nat. rewrite skipn_app_exact by exact H.
  rewrite firstn_all2 by lia. apply U64LE_in, H1.
Qed.
End Mem.

Lemma poke_over n r : (length r < n)%nat -> poke (over (repeat x00 n) r) (length r) = r ++ x01 :: zeros (n - 1 - length r).
Proof.
  intros H. unfold poke, over. rewrite firstn_app_exact by reflexivity.
  rewrite app_nth2, Nat.sub_diag by lia. change (repeat x00 n) with (zeros n).
  assert (E : skipn (length r) (zeros n) = zeros (n - length r)).
  { unfold zeros. clear H. revert n. induction (length r) as [|k IH]; intros n; [rewrite Nat.sub_0_r; reflexivity|].
    destruct n; [reflexivity|]. cbn [repeat skipn Nat.sub]. apply IH. }
  rewrite E. replace (n - length r)%nat with (S (n - 1 - length r)) by lia. cbn [zeros repeat nth].
  change (n2b (N.lxor (b2n x00) 1)) with x01. f_equal. f_equal.
  change (S (length r)) with (1 + length r)%nat. rewrite Nat.add_comm. rewrite skipn_app.
  rewrite skipn_all2 by lia. replace (length r + 1 - length r)%nat with 1%nat by lia. reflexivity.
Qed.
