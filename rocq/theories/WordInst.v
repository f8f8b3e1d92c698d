(** * WordInst.v -- the word representations satisfy the laws. *)
From Coq Require Import Arith NArith ZArith List Lia Bool Init.Byte.
From Coq Require Import ZifyBool ZifyNat ZifyN.
From Verif Require Import Words WordFacts Spec SpecFacts RoundFacts CMem CMemFacts ModelRef StateRep
  RefRound RefPrim RefHash RefPrfs ModelCommon ModelWords WordLaws BitExp.
Import ListNotations.
Local Open Scope N_scope.

(** ** Rounds *)

Definition rots : list N := [1; 5; 7; 9; 10; 19; 22; 34; 39].

Section Round.
Variables (pi : N -> N) (ROR : N -> N -> N).
Hypothesis Hpi : forall i, i < 64 -> pi i < 64.
Hypothesis Hror : forall n x, In n rots -> fits 64 x ->
  fits 64 (ROR x n) /\ bitperm pi (ROR x n) = rotr (bitperm pi x) n.
Let cn := bitperm pi.

Lemma cn_two t d r1 r2 : fits 64 t -> In d rots -> In r1 rots -> (r1 + d) mod 64 = r2 mod 64 ->
  fits 64 (N.lxor t (ROR (N.lxor t (ROR t d)) r1)) /\
  cn (N.lxor t (ROR (N.lxor t (ROR t d)) r1)) = sigma (cn t) r1 r2.
Proof.
  intros Ht Hd Hr E. destruct (Hror d t Hd Ht) as [F1 E1].
  assert (F2 : fits 64 (N.lxor t (ROR t d))) by auto using fits_lxor.
  destruct (Hror r1 _ Hr F2) as [F3 E3]. split; [auto using fits_lxor|].
  unfold cn. rewrite bitperm_lxor, E3, bitperm_lxor, E1. apply sigma_two, E.
Qed.

Ltac rot := cbv [In rots]; repeat first [left; reflexivity | right].

Lemma ROUND_t_ok s c : wf s -> fits 64 c ->
  wf (ROUND_t ROR s c) /\ cs cn (ROUND_t ROR s c) = round (cs cn s) (cn c).
Proof.
  destruct s as [x0 x1 x2 x3 x4]. intros (H0 & H1 & H2 & H3 & H4) Hc. cbn [X0 X1 X2 X3 X4] in *.
  unfold ROUND_t, cs. cbn [X0 X1 X2 X3 X4].
  set (t0 := N.lxor (N.lxor (N.lxor x0 x4) _) _).
  set (t1 := N.lxor (N.lxor x1 _) _).
  set (t2 := N.lxor (N.lxor (N.lxor x2 c) x1) _).
  set (t3 := N.lxor (N.lxor x3 _) _).
  set (t4 := N.lxor (N.lxor x4 x3) _).
  assert (F0 : fits 64 t0) by (unfold t0; auto 12 using fits_lxor, fits_land, fits_notw).
  assert (F2 : fits 64 t2) by (unfold t2; auto 12 using fits_lxor, fits_land, fits_notw).
  assert (F4 : fits 64 t4) by (unfold t4; auto 12 using fits_lxor, fits_land, fits_notw).
  assert (F1 : fits 64 t1) by (unfold t1; auto 12 using fits_lxor, fits_land, fits_notw).
  assert (F3 : fits 64 t3) by (unfold t3; auto 12 using fits_lxor, fits_land, fits_notw).
  destruct (cn_two t0 9 19 28 F0) as [A0 B0]; [rot|rot|reflexivity|].
  destruct (cn_two t1 22 39 61 F1) as [A1 B1]; [rot|rot|reflexivity|].
  destruct (cn_two t2 5 1 6 F2) as [A2 B2]; [rot|rot|reflexivity|].
  destruct (cn_two t3 7 10 17 F3) as [A3 B3]; [rot|rot|reflexivity|].
  destruct (cn_two t4 34 7 41 F4) as [A4 B4]; [rot|rot|reflexivity|].
  split; [repeat split; cbn [X0 X1 X2 X3 X4]; auto using fits_notw|].
  rewrite B0, B1, B3, B4. unfold cn in *. rewrite bitperm_notw by exact Hpi. rewrite B2.
  rewrite <- sigma_notw, (sigma_comm (bitperm pi t1)).
  assert (G : forall x, fits 64 (bitperm pi x)) by apply fits_bitperm.
  pose proof (G x0); pose proof (G x1); pose proof (G x2); pose proof (G x3); pose proof (G x4);
    pose proof (G c).
  apply round_intro; unfold t1, t3, t0, t2, t4; clear - Hpi H H5 H6 H7 H8 H9;
    repeat first [rewrite bitperm_lxor | rewrite bitperm_land | rewrite bitperm_notw by exact Hpi];
    cbn [X0 X1 X2 X3 X4]; sbox_eq.
Qed.

Lemma ROUND_x_ok s c : wf s -> fits 64 c ->
  wf (ROUND_x ROR s c) /\ cs cn (ROUND_x ROR s c) = round (cs cn s) (cn c).
Proof.
  destruct s as [x0 x1 x2 x3 x4]. intros (H0 & H1 & H2 & H3 & H4) Hc. cbn [X0 X1 X2 X3 X4] in *.
  unfold ROUND_x, cs. cbn [X0 X1 X2 X3 X4].
  match goal with |- context [St (N.lxor ?a (ROR (N.lxor _ (ROR _ 9)) 19)) (N.lxor ?b (ROR (N.lxor _ (ROR _ 22)) 39)) (notw 64 (N.lxor ?c (ROR (N.lxor _ (ROR _ 5)) 1))) (N.lxor ?d (ROR (N.lxor _ (ROR _ 7)) 10)) (N.lxor ?e (ROR (N.lxor _ (ROR _ 34)) 7))] =>
    remember d as t3 eqn:T3; remember b as t1 eqn:T1; remember a as t0 eqn:T0;
    remember c as t2 eqn:T2; remember e as t4 eqn:T4 end.
  assert (F : fits 64 t0 /\ fits 64 t1 /\ fits 64 t2 /\ fits 64 t3 /\ fits 64 t4).
  { subst; repeat split; auto 14 using fits_lxor, fits_land, fits_notw. }
  destruct F as (F0 & F1 & F2 & F3 & F4).
  destruct (cn_two t0 9 19 28 F0) as [A0 B0]; [rot|rot|reflexivity|].
  destruct (cn_two t1 22 39 61 F1) as [A1 B1]; [rot|rot|reflexivity|].
  destruct (cn_two t2 5 1 6 F2) as [A2 B2]; [rot|rot|reflexivity|].
  destruct (cn_two t3 7 10 17 F3) as [A3 B3]; [rot|rot|reflexivity|].
  destruct (cn_two t4 34 7 41 F4) as [A4 B4]; [rot|rot|reflexivity|].
  split; [repeat split; cbn [X0 X1 X2 X3 X4]; auto using fits_notw|].
  rewrite B0, B1, B3, B4. unfold cn in *. rewrite bitperm_notw by exact Hpi. rewrite B2.
  rewrite <- sigma_notw, (sigma_comm (bitperm pi t1)).
  assert (G : forall x, fits 64 (bitperm pi x)) by apply fits_bitperm.
  pose proof (G x0); pose proof (G x1); pose proof (G x2); pose proof (G x3); pose proof (G x4);
    pose proof (G c).
  apply round_intro; subst; clear - Hpi H H5 H6 H7 H8 H9;
    repeat first [rewrite bitperm_lxor | rewrite bitperm_land | rewrite bitperm_notw by exact Hpi];
    cbn [X0 X1 X2 X3 X4]; sbox_eq.
Qed.
End Round.

(** ** Permutation drivers *)

Section Perm.
Variables (cn : N -> N) (R : state -> N -> state).
Hypothesis HR : forall s c, wf s -> fits 64 c -> wf (R s c) /\ cs cn (R s c) = round (cs cn s) (cn c).

Lemma fold_cons A B (f : A -> B -> A) b l a : fold_left f (b :: l) a = fold_left f l (f a b).
Proof. reflexivity. Qed.

Lemma fold_rounds l : forall s, wf s -> Forall (fits 64) l ->
  wf (fold_left R l s) /\ cs cn (fold_left R l s) = fold_left round (map cn l) (cs cn s).
Proof.
  induction l as [|c l IH]; intros s Hs Hl; [split; [exact Hs|reflexivity]|].
  inversion_clear Hl. destruct (HR s c Hs H) as [H1 H2].
  rewrite map_cons, !fold_cons, <- H2. apply IH; assumption.
Qed.

Lemma perm_list l rs s : map cn l = rs -> forallb (fun c => c <? 2 ^ 64) l = true -> wf s ->
  wf (fold_left R l s) /\ cs cn (fold_left R l s) = fold_left round rs (cs cn s).
Proof.
  intros <- Hl Hs. apply fold_rounds; [exact Hs|]. apply Forall_forall. intros c Hc.
  rewrite forallb_forall in Hl. apply N.ltb_lt, Hl, Hc.
Qed.
End Perm.

Lemma Punrolled_12 R RC s : Punrolled R RC 12 s = fold_left R (map RC [0;1;2;3;4;5;6;7;8;9;10;11]) s.
Proof. reflexivity. Qed.
Lemma Punrolled_8 R RC s : Punrolled R RC 8 s = fold_left R (map RC [4;5;6;7;8;9;10;11]) s.
Proof. reflexivity. Qed.
Lemma Punrolled_6 R RC s : Punrolled R RC 6 s = fold_left R (map RC [6;7;8;9;10;11]) s.
Proof. reflexivity. Qed.

Fixpoint zsteps (n : nat) (i inc : Z) : list Z :=
  match n with O => [] | S n => i :: zsteps n (i + inc) inc end.

(** The loop from START to END, when END is met after exactly [n] steps. *)
Lemma PROUNDS_steps R RC inc END n : forall fuel i s,
  (n < fuel)%nat -> existsb (Z.eqb END) (zsteps n (i + inc) inc) = false ->
  END = (i + inc * Z.of_nat (S n))%Z ->
  PROUNDS fuel R RC inc END i s = fold_left R (map RC (zsteps (S n) i inc)) s.
Proof.
  induction n as [|n IH]; intros fuel i s Hf He HE.
  - destruct fuel as [|fuel]; [lia|]. cbn [PROUNDS zsteps map fold_left].
    replace (Z.eqb (i + inc) END) with true; [reflexivity|]. symmetry. apply Z.eqb_eq. lia.
  - destruct fuel as [|fuel]; [lia|]. cbn [PROUNDS].
    cbn [zsteps existsb] in He. apply orb_false_iff in He. destruct He as [He1 He2].
    rewrite Z.eqb_sym in He1. rewrite He1.
    rewrite (IH fuel (i + inc)%Z) by (auto; lia). reflexivity.
Qed.

(** ** Byte order *)


Lemma swap64_spec x : fits 64 x -> swap64 x = bitperm (fun i => 8 * (7 - i / 8) + i mod 8) x.
Proof.
  intros Hx. unfold swap64. rewrite !(fun m => N.land_comm m x). bitperm_solve x Hx.
Qed.

Lemma fits_swap64 x : fits 64 x -> fits 64 (swap64 x).
Proof. intros Hx. rewrite swap64_spec by exact Hx. apply fits_bitperm. Qed.

Lemma le_num_rev l : length l = 8%nat ->
  le_num (rev l) = bitperm (fun i => 8 * (7 - i / 8) + i mod 8) (le_num l).
Proof.
  intros Hl. apply (fits_ext 64).
  - apply fits_le_num8. rewrite rev_length. lia.
  - apply fits_bitperm.
  - intros i Hi. rewrite testbit_bitperm, !testbit_le_num.
    replace (i <? 64) with true by lia. cbn [andb].
    rewrite rev_nth by lia. rewrite Hl.
    replace (8 * (7 - i / 8) + i mod 8) with (i mod 8 + (7 - i / 8) * 8) by lia.
    rewrite N.mod_add by lia. rewrite N.mod_mod by lia. f_equal. f_equal.
    rewrite N.div_add by lia. rewrite (N.div_small (i mod 8)) by (apply N.mod_lt; lia). lia.
Qed.

Lemma U64LE_in e l : length l = 8%nat -> U64LE e (from_host e l) = le_num l.
Proof.
  intros Hl. destruct e; cbn [U64LE from_host]; [reflexivity|].
  rewrite swap64_spec by (apply fits_le_num8; rewrite rev_length; lia).
  rewrite <- le_num_rev by (rewrite rev_length; exact Hl). rewrite rev_involutive. reflexivity.
Qed.

Lemma U64LE_out e w : fits 64 w -> to_host e 8 (U64LE e w) = le_bytes 8 w.
Proof.
  intros Hw. destruct e; cbn [U64LE to_host]; [reflexivity|].
  rewrite swap64_spec by exact Hw.
  replace w with (le_num (le_bytes 8 w)) at 1 by (rewrite le_num_le_bytes; apply trunc_fits; exact Hw).
  rewrite <- le_num_rev by apply length_le_bytes.
  rewrite le_bytes_le_num by (rewrite rev_length; apply length_le_bytes). apply rev_involutive.
Qed.

(** ** Assembling the laws *)

Lemma clear_mask x n : fits 64 x -> n < 8 -> CLEARBYTES x n = N.land x (shlw 64 (N.ones 64) (8 * n)).
Proof.
  intros Hx Hn. unfold CLEARBYTES.
  assert (H : n = 0 \/ n = 1 \/ n = 2 \/ n = 3 \/ n = 4 \/ n = 5 \/ n = 6 \/ n = 7) by lia.
  destruct H as [->|[->|[->|[->|[->|[->|[->| ->]]]]]]].
  1: { change (shlw 64 (N.ones 64) (8 * 0)) with (N.ones 64). symmetry. apply (trunc_fits 64 x Hx). }
  all: match goal with |- clearbytes_loop ?k _ _ = _ => let k' := eval vm_compute in k in change k with k' end;
    cbn [clearbytes_loop]; rewrite <- ?N.land_assoc; f_equal; vm_compute; reflexivity.
Qed.

Lemma in_seq_N i n : i < N.of_nat n -> In (N.to_nat i) (seq 0 n).
Proof. intros H. apply in_seq. lia. Qed.
Lemma in_seq_le i n : (i <= n)%nat -> In i (seq 0 (S n)).
Proof. intros H. apply in_seq. lia. Qed.
Lemma fits_le_num_8 l : length l = 8%nat -> fits 64 (le_num l).
Proof. intros H. apply fits_le_num8. lia. Qed.

Section Mk.
Variables (pi inv : N -> N) (e : endian) (o : wordops) (g h : N -> N).
Let cn := bitperm pi.
Hypothesis Hpi : forallb (fun k => (pi (N.of_nat k) <? 64) && (inv (N.of_nat k) <? 64)
  && (pi (inv (N.of_nat k)) =? N.of_nat k) && (inv (pi (N.of_nat k)) =? N.of_nat k)) (seq 0 64) = true.
Hypothesis Hin : forall x, w_in o x = g (U64LE e x).
Hypothesis Hout : forall x, w_out o x = U64LE e (h x).
Hypothesis Hg : forall x, fits 64 x -> g x = bitperm inv x.
Hypothesis Hh : forall x, fits 64 x -> h x = bitperm pi x.
Hypothesis Hpad : forallb (fun k => (w_pad o (N.of_nat k) <? 2 ^ 64)
  && (cn (w_pad o (N.of_nat k)) =? PAD (N.of_nat k))) (seq 0 8) = true.
Hypothesis Hdsep : (w_dsep o <? 2 ^ 64) && (cn (w_dsep o) =? DSEP) = true.
Variable mask : N -> N.
Hypothesis Hclear : forall w n, w_clear o w n = N.land w (mask n).
Hypothesis Hmask : forallb (fun k => cn (mask (N.of_nat k)) =? shlw 64 (N.ones 64) (8 * N.of_nat k)) (seq 0 8) = true.
Hypothesis HP12 : forall s, wf s -> wf (w_P o 12 s) /\ cs cn (w_P o 12 s) = perm 12 (cs cn s).
Hypothesis HP8 : forall s, wf s -> wf (w_P o 8 s) /\ cs cn (w_P o 8 s) = perm 8 (cs cn s).
Hypothesis HP6 : forall s, wf s -> wf (w_P o 6 s) /\ cs cn (w_P o 6 s) = perm 6 (cs cn s).
Let f64 x := x <? 2 ^ 64.
Let s64 s := f64 (X0 s) && f64 (X1 s) && f64 (X2 s) && f64 (X3 s) && f64 (X4 s).
Hypothesis Haead : f64 (c_aead o) = true /\ cn (c_aead o) = 0x00001000808c0001.
Hypothesis Hmac : f64 (c_mac o) = true /\ cn (c_mac o) = 0x0010200080cc0005.
Hypothesis Hprf : f64 (c_prf o) = true /\ cn (c_prf o) = 0x0010200000cc0006.
Hypothesis Hhash : s64 (c_hash o) = true /\ cs cn (c_hash o) = w64_HASH_IV.
Hypothesis Hxof : s64 (c_xof o) = true /\ cs cn (c_xof o) = w64_XOF_IV.
Hypothesis Hprfs : forallb (fun k => f64 (N.lxor (c_prfs o) (w_prfs_mlen o (N.of_nat k)))
  && (cn (N.lxor (c_prfs o) (w_prfs_mlen o (N.of_nat k))) =? prfs_iv (N.of_nat k))) (seq 0 17) = true.

Lemma Hpi' i : i < 64 -> pi i < 64 /\ inv i < 64 /\ pi (inv i) = i /\ inv (pi i) = i.
Proof.
  intros Hi. rewrite forallb_forall in Hpi. specialize (Hpi (N.to_nat i)).
  rewrite N2Nat.id in Hpi. rewrite !andb_true_iff in Hpi.
  destruct Hpi as [[[A B] C] D]; [apply in_seq_N; assumption|].
  apply N.ltb_lt in A, B. apply N.eqb_eq in C, D. auto.
Qed.

Lemma cn_inv x : fits 64 x -> bitperm pi (bitperm inv x) = x.
Proof.
  intros Hx. apply (fits_ext 64); [apply fits_bitperm|exact Hx|]. intros i Hi.
  rewrite !testbit_bitperm. destruct (Hpi' i Hi) as (A & B & C & D).
  apply N.ltb_lt in A. rewrite A, D. apply N.ltb_lt in Hi. rewrite Hi. reflexivity.
Qed.

Lemma hash_iv_ok : xs w64_HASH_IV = hash_init iv_hash256.
Proof.
  unfold hash_init. change (iv_hash256 ++ zeros 32) with (wb 0x0000080100cc0002 ++ zeros 32).
  rewrite <- xs_iv, <- xs_P12 by (apply wf_iv; reflexivity). apply (f_equal xs). vm_compute. reflexivity.
Qed.
Lemma xof_iv_ok : xs w64_XOF_IV = hash_init iv_xof128.
Proof.
  unfold hash_init. change (iv_xof128 ++ zeros 32) with (wb 0x0000080000cc0003 ++ zeros 32).
  rewrite <- xs_iv, <- xs_P12 by (apply wf_iv; reflexivity). apply (f_equal xs). vm_compute. reflexivity.
Qed.

Lemma s64_wf s : s64 s = true -> wf s.
Proof.
  unfold s64, f64. rewrite !andb_true_iff, !N.ltb_lt. intros [[[[A B] C] D] E].
  repeat split; assumption.
Qed.

Lemma mk_laws : word_laws cn e o.
Proof.
  constructor.
  - intros w. apply fits_bitperm.
  - intros l Hl. rewrite Hin, U64LE_in, Hg by (try exact Hl; apply fits_le_num_8, Hl).
    split; [apply fits_bitperm|]. apply cn_inv, fits_le_num_8, Hl.
  - intros w Hw. rewrite Hout, Hh by exact Hw. apply U64LE_out, fits_bitperm.
  - intros a b. apply bitperm_lxor.
  - intros a Ha. apply (bitperm_eq_0 pi inv); [|exact Ha]. intros i Hi.
    destruct (Hpi' i Hi) as (A & B & C & D). auto.
  - intros i Hi. rewrite forallb_forall in Hpad. specialize (Hpad (N.to_nat i)).
    rewrite N2Nat.id, andb_true_iff in Hpad. destruct Hpad as [A B]; [apply in_seq_N; assumption|].
    apply N.ltb_lt in A. apply N.eqb_eq in B. auto.
  - apply andb_true_iff in Hdsep. destruct Hdsep as [A B].
    apply N.ltb_lt in A. apply N.eqb_eq in B. auto.
  - intros w n Hw Hn. rewrite Hclear. split; [apply fits_land, Hw|].
    rewrite clear_mask by (auto; apply fits_bitperm).
    unfold cn. rewrite bitperm_land. f_equal.
    rewrite forallb_forall in Hmask. specialize (Hmask (N.to_nat n)).
    rewrite N2Nat.id in Hmask. apply N.eqb_eq, Hmask, in_seq_N, Hn.
  - exact HP12.
  - exact HP8.
  - exact HP6.
  - destruct Haead as [A ->]. apply N.ltb_lt in A. auto.
  - destruct Hhash as [A ->]. split; [apply s64_wf, A|apply hash_iv_ok].
  - destruct Hxof as [A ->]. split; [apply s64_wf, A|apply xof_iv_ok].
  - destruct Hmac as [A ->]. apply N.ltb_lt in A. auto.
  - destruct Hprf as [A ->]. apply N.ltb_lt in A. auto.
  - intros n Hn. rewrite forallb_forall in Hprfs. specialize (Hprfs n).
    rewrite andb_true_iff in Hprfs. destruct Hprfs as [A B]; [apply in_seq_le; assumption|].
    apply N.ltb_lt in A. apply N.eqb_eq in B. rewrite B. split; [exact A|].
    apply (prfs_iv_ok n Hn).
  - intros w Hw. rewrite Hout, Hh by exact Hw.
    destruct e; cbn [U64LE]; [apply fits_bitperm|apply fits_swap64, fits_bitperm].
Qed.
End Mk.

(** ** opt64, opt64_lowsize, opt32, opt32_lowsize *)

Definition pi64 (i : N) : N := i.
Lemma pi64_lt i : i < 64 -> pi64 i < 64.
Proof. auto. Qed.
Definition cn64 := bitperm pi64.

Lemma cn64_id x : fits 64 x -> cn64 x = x.
Proof.
  intros Hx. apply (fits_ext 64); [apply fits_bitperm|exact Hx|]. intros i Hi.
  unfold cn64. rewrite testbit_bitperm. apply N.ltb_lt in Hi. rewrite Hi. reflexivity.
Qed.

Lemma cs64_id s : wf s -> cs cn64 s = s.
Proof.
  destruct s as [x0 x1 x2 x3 x4]. intros (H0 & H1 & H2 & H3 & H4). unfold cs. cbn [X0 X1 X2 X3 X4] in *.
  rewrite !cn64_id by assumption. reflexivity.
Qed.

Lemma w64_ROR_ok n x : In n rots -> fits 64 x ->
  fits 64 (w64_ROR x n) /\ bitperm pi64 (w64_ROR x n) = rotr (bitperm pi64 x) n.
Proof.
  intros Hn Hx. change (w64_ROR x n) with (ror64 x n).
  assert (n < 64) by (cbv [In rots] in Hn; lia).
  rewrite ror64_rotr by assumption. change (bitperm pi64) with cn64.
  rewrite !cn64_id by (auto using fits_rotr). auto using fits_rotr.
Qed.

Lemma xshift_sigma x r1 l1 r2 l2 : fits 64 x -> 0 < r1 -> r1 < 64 -> 0 < r2 -> r2 < 64 ->
  l1 = 64 - r1 -> l2 = 64 - r2 -> xshift x r1 l1 r2 l2 = sigma x r1 r2.
Proof.
  intros Hx A1 B1 A2 B2 -> ->. unfold xshift, sigma.
  assert (H : forall r, 0 < r -> r < 64 -> N.lxor (shrw x r) (shlw 64 x (64 - r)) = rotr x r).
  { intros r Hr0 Hr. rewrite <- ror64_rotr by assumption. unfold ror64.
    rewrite land63, N.mod_small by lia. symmetry. apply lor_shl_r. apply fits_shr, Hx. }
  rewrite (N.lxor_assoc _ (shrw x r2)), !H by assumption. reflexivity.
Qed.

Lemma ROUND_s_ok s c : wf s -> fits 64 c ->
  wf (ROUND_s s c) /\ cs cn64 (ROUND_s s c) = round (cs cn64 s) (cn64 c).
Proof.
  intros Hs Hc. rewrite (cn64_id c Hc), (cs64_id s Hs).
  assert (E : ROUND_s s c = round s c).
  { destruct s as [x0 x1 x2 x3 x4]. destruct Hs as (H0 & H1 & H2 & H3 & H4). cbn [X0 X1 X2 X3 X4] in *.
    unfold ROUND_s.
    rewrite !xshift_sigma by (try reflexivity; auto 14 using fits_lxor, fits_land, fits_notw).
    apply round_intro; sbox_eq. }
  rewrite E. split; [apply wf_round|apply cs64_id, wf_round].
Qed.

Lemma w64_P12_unrolled R : (forall s c, wf s -> fits 64 c -> wf (R s c) /\ cs cn64 (R s c) = round (cs cn64 s) (cn64 c)) ->
  forall s, wf s -> wf (Punrolled R w64_RCk 12 s) /\ cs cn64 (Punrolled R w64_RCk 12 s) = perm 12 (cs cn64 s).
Proof. intros HR s Hs. rewrite Punrolled_12. apply perm_list; [exact HR|vm_compute; reflexivity|vm_compute; reflexivity|exact Hs]. Qed.
Lemma w64_P8_unrolled R : (forall s c, wf s -> fits 64 c -> wf (R s c) /\ cs cn64 (R s c) = round (cs cn64 s) (cn64 c)) ->
  forall s, wf s -> wf (Punrolled R w64_RCk 8 s) /\ cs cn64 (Punrolled R w64_RCk 8 s) = perm 8 (cs cn64 s).
Proof. intros HR s Hs. rewrite Punrolled_8. apply perm_list; [exact HR|vm_compute; reflexivity|vm_compute; reflexivity|exact Hs]. Qed.
Lemma w64_P6_unrolled R : (forall s c, wf s -> fits 64 c -> wf (R s c) /\ cs cn64 (R s c) = round (cs cn64 s) (cn64 c)) ->
  forall s, wf s -> wf (Punrolled R w64_RCk 6 s) /\ cs cn64 (Punrolled R w64_RCk 6 s) = perm 6 (cs cn64 s).
Proof. intros HR s Hs. rewrite Punrolled_6. apply perm_list; [exact HR|vm_compute; reflexivity|vm_compute; reflexivity|exact Hs]. Qed.
Lemma w64_P12_loop R : (forall s c, wf s -> fits 64 c -> wf (R s c) /\ cs cn64 (R s c) = round (cs cn64 s) (cn64 c)) ->
  forall s, wf s -> let P := Ploop R w64_RC w64_START w64_INC w64_END 12 s in
  wf P /\ cs cn64 P = perm 12 (cs cn64 s).
Proof.
  intros HR s Hs P. unfold P, Ploop. rewrite (PROUNDS_steps _ _ _ _ 11) by (vm_compute; reflexivity || lia).
  apply perm_list; [exact HR|vm_compute; reflexivity|vm_compute; reflexivity|exact Hs].
Qed.
Lemma w64_P8_loop R : (forall s c, wf s -> fits 64 c -> wf (R s c) /\ cs cn64 (R s c) = round (cs cn64 s) (cn64 c)) ->
  forall s, wf s -> let P := Ploop R w64_RC w64_START w64_INC w64_END 8 s in
  wf P /\ cs cn64 P = perm 8 (cs cn64 s).
Proof.
  intros HR s Hs P. unfold P, Ploop. rewrite (PROUNDS_steps _ _ _ _ 7) by (vm_compute; reflexivity || lia).
  apply perm_list; [exact HR|vm_compute; reflexivity|vm_compute; reflexivity|exact Hs].
Qed.
Lemma w64_P6_loop R : (forall s c, wf s -> fits 64 c -> wf (R s c) /\ cs cn64 (R s c) = round (cs cn64 s) (cn64 c)) ->
  forall s, wf s -> let P := Ploop R w64_RC w64_START w64_INC w64_END 6 s in
  wf P /\ cs cn64 P = perm 6 (cs cn64 s).
Proof.
  intros HR s Hs P. unfold P, Ploop. rewrite (PROUNDS_steps _ _ _ _ 5) by (vm_compute; reflexivity || lia).
  apply perm_list; [exact HR|vm_compute; reflexivity|vm_compute; reflexivity|exact Hs].
Qed.

Lemma w64_laws P e :
  (forall s, wf s -> wf (P 12 s) /\ cs cn64 (P 12 s) = perm 12 (cs cn64 s)) ->
  (forall s, wf s -> wf (P 8 s) /\ cs cn64 (P 8 s) = perm 8 (cs cn64 s)) ->
  (forall s, wf s -> wf (P 6 s) /\ cs cn64 (P 6 s) = perm 6 (cs cn64 s)) ->
  word_laws cn64 e (w64 P e).
Proof.
  intros H12 H8 H6.
  apply (mk_laws pi64 pi64 e (w64 P e) (fun x => x) (fun x => x)) with (mask := fun n => shlw 64 (N.ones 64) (8 * n)).
  - vm_compute; reflexivity.
  - reflexivity.
  - reflexivity.
  - intros x Hx. symmetry. apply (cn64_id x Hx).
  - intros x Hx. symmetry. apply (cn64_id x Hx).
  - vm_compute; reflexivity.
  - vm_compute; reflexivity.
  - reflexivity.
  - vm_compute; reflexivity.
  - exact H12.
  - exact H8.
  - exact H6.
  - split; vm_compute; reflexivity.
  - split; vm_compute; reflexivity.
  - split; vm_compute; reflexivity.
  - split; vm_compute; reflexivity.
  - split; vm_compute; reflexivity.
  - vm_compute; reflexivity.
Qed.

Lemma opt64_laws e : word_laws cn64 e (opt64 e).
Proof. apply w64_laws; [apply w64_P12_unrolled|apply w64_P8_unrolled|apply w64_P6_unrolled]; apply ROUND_t_ok; auto using pi64_lt, w64_ROR_ok. Qed.
Lemma opt32_laws e : word_laws cn64 e (opt32 e).
Proof. apply w64_laws; [apply w64_P12_unrolled|apply w64_P8_unrolled|apply w64_P6_unrolled]; apply ROUND_s_ok. Qed.
Lemma opt64_lowsize_laws e : word_laws cn64 e (opt64_lowsize e).
Proof. apply w64_laws; [apply w64_P12_loop|apply w64_P8_loop|apply w64_P6_loop]; apply ROUND_x_ok; auto using pi64_lt, w64_ROR_ok. Qed.
Lemma opt32_lowsize_laws e : word_laws cn64 e (opt32_lowsize e).
Proof. apply w64_laws; [apply w64_P12_loop|apply w64_P8_loop|apply w64_P6_loop]; apply ROUND_s_ok. Qed.
