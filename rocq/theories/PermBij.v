(** * PermBij.v -- the Ascon permutation is a bijection on 320-bit states. *)
From Coq Require Import Arith Bool NArith ZArith List Lia Init.Byte.
From Coq Require Import ZifyBool ZifyNat ZifyN.
From Verif Require Import Words WordFacts Spec SpecFacts RoundFacts.
Import ListNotations.
Local Open Scope N_scope.

(** ** The S-box layer *)

Definition sbox_inv_table : list N :=
  map (fun v => hd 0 (filter (fun u => sbox u =? v) (map N.of_nat (seq 0 32)))) (map N.of_nat (seq 0 32)).
Definition sbox_inv (v : N) : N := nth (N.to_nat v) sbox_inv_table 0.

Definition all32 (P : N -> bool) : bool := forallb P (map N.of_nat (seq 0 32)).

Lemma all32_spec P : all32 P = true -> forall v, v < 32 -> P v = true.
Proof.
  unfold all32. rewrite forallb_forall. intros H v Hv. apply H.
  apply in_map_iff. exists (N.to_nat v). split; [apply N2Nat.id|]. apply in_seq. lia.
Qed.

Lemma sbox_inv_l v : v < 32 -> sbox_inv (sbox v) = v.
Proof. intros H. apply N.eqb_eq. apply (all32_spec (fun v => sbox_inv (sbox v) =? v)); auto. Qed.
Lemma sbox_inv_r v : v < 32 -> sbox (sbox_inv v) = v.
Proof. intros H. apply N.eqb_eq. apply (all32_spec (fun v => sbox (sbox_inv v) =? v)); auto. Qed.
Lemma sbox_lt v : v < 32 -> sbox v < 32.
Proof. intros H. apply N.ltb_lt. apply (all32_spec (fun v => sbox v <? 32)); auto. Qed.
Lemma sbox_inv_lt v : v < 32 -> sbox_inv v < 32.
Proof. intros H. apply N.ltb_lt. apply (all32_spec (fun v => sbox_inv v <? 32)); auto. Qed.

(** State from columns. *)
Definition of_columns (f : N -> N) : state :=
  St (of_bits 64 (fun i => N.testbit (f i) 4)) (of_bits 64 (fun i => N.testbit (f i) 3))
     (of_bits 64 (fun i => N.testbit (f i) 2)) (of_bits 64 (fun i => N.testbit (f i) 1))
     (of_bits 64 (fun i => N.testbit (f i) 0)).

Lemma column_lt s i : column s i < 32.
Proof. unfold column, bitval. repeat match goal with |- context [if ?b then _ else _] => destruct b end; lia. Qed.

Lemma bits5 v : v < 32 ->
  bitval (N.testbit v 4) 16 + bitval (N.testbit v 3) 8 + bitval (N.testbit v 2) 4 +
  bitval (N.testbit v 1) 2 + bitval (N.testbit v 0) 1 = v.
Proof.
  intros H. apply N.eqb_eq.
  apply (all32_spec (fun v => bitval (N.testbit v 4) 16 + bitval (N.testbit v 3) 8 + bitval (N.testbit v 2) 4 +
    bitval (N.testbit v 1) 2 + bitval (N.testbit v 0) 1 =? v)); auto.
Qed.

Lemma column_of_columns f i : i < 64 -> f i < 32 -> column (of_columns f) i = f i.
Proof.
  intros Hi Hf. unfold column, of_columns. cbn [X0 X1 X2 X3 X4]. rewrite !testbit_of_bits.
  replace (i <? N.of_nat 64) with true by lia. cbn [andb]. apply bits5, Hf.
Qed.

Lemma column_bits s i :
  N.testbit (column s i) 4 = N.testbit (X0 s) i /\ N.testbit (column s i) 3 = N.testbit (X1 s) i /\
  N.testbit (column s i) 2 = N.testbit (X2 s) i /\ N.testbit (column s i) 1 = N.testbit (X3 s) i /\
  N.testbit (column s i) 0 = N.testbit (X4 s) i.
Proof.
  unfold column. destruct (N.testbit (X0 s) i), (N.testbit (X1 s) i), (N.testbit (X2 s) i),
    (N.testbit (X3 s) i), (N.testbit (X4 s) i); repeat split; reflexivity.
Qed.

Lemma of_columns_column s f : wf s -> (forall i, i < 64 -> f i = column s i) -> of_columns f = s.
Proof.
  intros (H0 & H1 & H2 & H3 & H4) Hf. destruct s as [x0 x1 x2 x3 x4].
  unfold of_columns. cbn [X0 X1 X2 X3 X4] in *.
  pose proof (fun i => column_bits (St x0 x1 x2 x3 x4) i) as CB. cbn [X0 X1 X2 X3 X4] in CB.
  f_equal; (apply (fits_ext 64); [apply (fits_of_bits 64)|assumption|]);
    intros i Hi; rewrite testbit_of_bits; replace (i <? N.of_nat 64) with true by lia; cbn [andb];
    rewrite Hf by exact Hi; apply CB.
Qed.

Lemma pS_of_columns s : pS s = of_columns (fun i => sbox (column s i)).
Proof. reflexivity. Qed.

Definition pS_inv (s : state) : state := of_columns (fun i => sbox_inv (column s i)).

Lemma pS_inv_l s : wf s -> pS_inv (pS s) = s.
Proof.
  intros H. apply of_columns_column; [exact H|]. intros i Hi.
  rewrite pS_of_columns, column_of_columns by (auto using sbox_lt, column_lt).
  apply sbox_inv_l, column_lt.
Qed.
Lemma pS_inv_r s : wf s -> pS (pS_inv s) = s.
Proof.
  intros H. rewrite pS_of_columns. apply of_columns_column; [exact H|]. intros i Hi.
  unfold pS_inv. rewrite column_of_columns by (auto using sbox_inv_lt, column_lt).
  apply sbox_inv_r, column_lt.
Qed.

(** ** The linear layer: sigma to the 64th power is the identity *)

Lemma sigma_sq x a b : sigma (sigma x a b) a b = sigma x (2 * a) (2 * b).
Proof.
  unfold sigma. rewrite !rotr_lxor, !rotr_rotr.
  replace (2 * a) with (a + a) by lia. replace (2 * b) with (b + b) by lia.
  rewrite (N.add_comm b a).
  apply N.bits_inj; intro i. rewrite !N.lxor_spec.
  destruct (N.testbit x i), (N.testbit (rotr x a) i), (N.testbit (rotr x b) i),
    (N.testbit (rotr x (a + a)) i), (N.testbit (rotr x (a + b)) i), (N.testbit (rotr x (b + b)) i); reflexivity.
Qed.

Definition iter_sigma (n : nat) (a b x : N) : N := Nat.iter n (fun x => sigma x a b) x.

Lemma iter_add {A} n m (f : A -> A) x : Nat.iter (n + m) f x = Nat.iter n f (Nat.iter m f x).
Proof. induction n as [|n IH]; [reflexivity|]. cbn [Nat.add Nat.iter nat_rect]. f_equal. exact IH. Qed.

Lemma iter_S {A} n (f : A -> A) x : Nat.iter (S n) f x = f (Nat.iter n f x).
Proof. reflexivity. Qed.

Lemma iter_sigma_pow k : forall a b x,
  Nat.iter (2 ^ k) (fun x => sigma x a b) x = sigma x (2 ^ N.of_nat k * a) (2 ^ N.of_nat k * b).
Proof.
  induction k as [|k IH]; intros a b x.
  - change (2 ^ N.of_nat 0) with 1. rewrite !N.mul_1_l. reflexivity.
  - replace (2 ^ S k)%nat with (2 ^ k + 2 ^ k)%nat by (cbn [Nat.pow]; lia).
    rewrite iter_add, !IH, sigma_sq.
    replace (2 ^ N.of_nat (S k)) with (2 * 2 ^ N.of_nat k)
      by (rewrite Nat2N.inj_succ, N.pow_succ_r'; reflexivity).
    rewrite <- !N.mul_assoc. reflexivity.
Qed.

Lemma sigma_64 a b x : fits 64 x -> Nat.iter 64 (fun x => sigma x a b) x = x.
Proof.
  intros H. change 64%nat with (2 ^ 6)%nat. rewrite iter_sigma_pow.
  change (2 ^ N.of_nat 6) with 64. unfold sigma.
  rewrite <- (rotr_mod x (64 * a)), <- (rotr_mod x (64 * b)).
  rewrite !(N.mul_comm 64), !N.mod_mul by lia.
  rewrite N.lxor_nilpotent, N.lxor_0_r. reflexivity.
Qed.

Definition sigma_inv (x a b : N) : N := Nat.iter 63 (fun x => sigma x a b) x.

Lemma sigma_inv_r x a b : fits 64 x -> sigma (sigma_inv x a b) a b = x.
Proof.
  intros H. etransitivity; [|apply (sigma_64 a b x H)]. unfold sigma_inv. symmetry.
  apply (iter_S 63 (fun x => sigma x a b) x).
Qed.
Lemma sigma_inv_l x a b : fits 64 x -> sigma_inv (sigma x a b) a b = x.
Proof.
  intros H. unfold sigma_inv. rewrite <- (sigma_64 a b x H) at 2.
  change 64%nat with (63 + 1)%nat. rewrite iter_add.
  change (Nat.iter 1 (fun x => sigma x a b) x) with (sigma x a b). reflexivity.
Qed.
Lemma fits_sigma_inv x a b : fits 64 x -> fits 64 (sigma_inv x a b).
Proof.
  intros H. unfold sigma_inv. generalize 63%nat as n. induction n as [|n IH]; [exact H|].
  cbn [Nat.iter nat_rect]. apply fits_sigma. exact IH.
Qed.

Definition pL_inv (s : state) : state :=
  St (sigma_inv (X0 s) 19 28) (sigma_inv (X1 s) 61 39) (sigma_inv (X2 s) 1 6)
     (sigma_inv (X3 s) 10 17) (sigma_inv (X4 s) 7 41).

Lemma pL_inv_l s : wf s -> pL_inv (pL s) = s.
Proof.
  intros (H0 & H1 & H2 & H3 & H4). destruct s as [x0 x1 x2 x3 x4]. unfold pL_inv, pL. cbn [X0 X1 X2 X3 X4] in *.
  rewrite !sigma_inv_l by assumption. reflexivity.
Qed.
Lemma pL_inv_r s : wf s -> pL (pL_inv s) = s.
Proof.
  intros (H0 & H1 & H2 & H3 & H4). destruct s as [x0 x1 x2 x3 x4]. unfold pL_inv, pL. cbn [X0 X1 X2 X3 X4] in *.
  rewrite !sigma_inv_r by assumption. reflexivity.
Qed.
Lemma wf_pL_inv s : wf s -> wf (pL_inv s).
Proof. intros (?&?&?&?&?). repeat split; apply fits_sigma_inv; assumption. Qed.
Lemma wf_pS_inv s : wf (pS_inv s).
Proof. repeat split; apply (fits_of_bits 64). Qed.
Lemma wf_pC c s : fits 64 c -> wf s -> wf (pC c s).
Proof. intros ? (?&?&?&?&?). repeat split; cbn; auto using fits_lxor. Qed.
Lemma pC_pC c s : pC c (pC c s) = s.
Proof.
  destruct s as [x0 x1 x2 x3 x4]. unfold pC. cbn [X0 X1 X2 X3 X4].
  rewrite N.lxor_assoc, N.lxor_nilpotent, N.lxor_0_r. reflexivity.
Qed.

(** ** Rounds and the permutation *)

Definition round_inv (s : state) (c : N) : state := pC c (pS_inv (pL_inv s)).

Lemma round_inv_l s c : wf s -> fits 64 c -> round_inv (round s c) c = s.
Proof.
  intros H Hc. unfold round_inv, round. rewrite pL_inv_l by apply wf_pS.
  rewrite pS_inv_l by (apply wf_pC; assumption). apply pC_pC.
Qed.
Lemma round_inv_r s c : wf s -> fits 64 c -> round (round_inv s c) c = s.
Proof.
  intros H Hc. unfold round_inv, round. rewrite pC_pC.
  rewrite pS_inv_r by (apply wf_pL_inv; assumption). apply pL_inv_r, H.
Qed.
Lemma wf_round_inv s c : wf s -> fits 64 c -> wf (round_inv s c).
Proof. intros H Hc. apply wf_pC; [exact Hc|]. apply wf_pS_inv. Qed.

Lemma rounds_bij cs : (forall c, In c cs -> fits 64 c) ->
  (forall s, wf s -> fold_left round_inv (rev cs) (fold_left round cs s) = s) /\
  (forall s, wf s -> fold_left round cs (fold_left round_inv (rev cs) s) = s) /\
  (forall s, wf s -> wf (fold_left round_inv (rev cs) s)).
Proof.
  induction cs as [|c cs IH]; intros Hc; [auto|].
  destruct IH as (I1 & I2 & I3); [intros; apply Hc; right; assumption|].
  assert (Fc : fits 64 c) by (apply Hc; left; reflexivity).
  cbn [rev fold_left]. split; [|split]; intros s H; rewrite fold_left_app; cbn [fold_left].
  - rewrite I1 by apply wf_round. apply round_inv_l; assumption.
  - rewrite round_inv_r by (auto using I3). apply I2, H.
  - apply wf_round_inv; [apply I3, H|exact Fc].
Qed.

Lemma rc_fits n c : In c (skipn n round_constants) -> fits 64 c.
Proof.
  intros H. assert (H' : In c round_constants).
  { rewrite <- (firstn_skipn n round_constants). apply in_or_app. right; exact H. }
  assert (forall c, In c round_constants -> c < 2 ^ 64) as E.
  { apply Forall_forall. repeat constructor. }
  exact (E c H').
Qed.

Definition perm_inv (rnd : nat) (s : state) : state :=
  fold_left round_inv (rev (skipn (16 - rnd) round_constants)) s.

Theorem perm_inv_l n s : wf s -> perm_inv n (perm n s) = s.
Proof. intros H. apply rounds_bij; [apply rc_fits|exact H]. Qed.
Theorem perm_inv_r n s : wf s -> perm n (perm_inv n s) = s.
Proof. intros H. apply rounds_bij; [apply rc_fits|exact H]. Qed.
Lemma wf_perm_inv n s : wf s -> wf (perm_inv n s).
Proof. intros H. apply rounds_bij; [apply rc_fits|exact H]. Qed.

(** On 40-byte strings. *)
Definition p_inv (rnd : nat) (S : bytes) : bytes := bytes_of_state (perm_inv rnd (state_of_bytes S)).

Theorem p_inv_l n S : length S = 40%nat -> p_inv n (p n S) = S.
Proof.
  intros H. unfold p_inv, p. rewrite state_of_bytes_of_state by (apply wf_perm, wf_state_of_bytes).
  rewrite perm_inv_l by apply wf_state_of_bytes. apply bytes_of_state_of_bytes, H.
Qed.
Theorem p_inv_r n S : length S = 40%nat -> p n (p_inv n S) = S.
Proof.
  intros H. unfold p_inv, p. rewrite state_of_bytes_of_state by (apply wf_perm_inv, wf_state_of_bytes).
  rewrite perm_inv_r by apply wf_state_of_bytes. apply bytes_of_state_of_bytes, H.
Qed.
Theorem p_inj n S1 S2 : length S1 = 40%nat -> length S2 = 40%nat -> p n S1 = p n S2 -> S1 = S2.
Proof. intros H1 H2 E. rewrite <- (p_inv_l n S1 H1), E. apply p_inv_l, H2. Qed.
Lemma length_p_inv n S : length (p_inv n S) = 40%nat.
Proof. apply length_bytes_of_state. Qed.
