(** * NeonRound.v -- the NEON round is the Ascon round, with x2 held
    complemented and whatever the other registers hold. *)
From Coq Require Import Arith NArith ZArith List Lia Bool Init.Byte.
From Coq Require Import ZifyBool ZifyNat ZifyN.
From Verif Require Import Words WordFacts Spec SpecFacts RoundFacts CMem ModelRef StateRep RefRound RefPrim
  ModelCommon ModelWords WordLaws WordInst ComPrim ModelNeon.
Import ListNotations.
Local Open Scope N_scope.

(** vsri then vsli of the same source is a rotation: nothing of the old
    destination is left. *)
Lemma vrot d m k : 0 < k -> k < 64 -> vsli (vsri d m k) m (64 - k) = rotr m k.
Proof.
  intros H0 Hk. apply N.bits_inj. intro i. unfold vsli, vsri.
  rewrite !N.lor_spec, !N.land_spec, N.lor_spec, N.land_spec, !testbit_shlw, testbit_shrw, !testbit_ones, testbit_rotr.
  destruct (N.ltb_spec i 64) as [Hi|Hi].
  - cbn [andb]. destruct (N.ltb_spec i (64 - k)) as [H|H].
    + replace (64 - k <=? i) with false by lia. cbn [andb]. rewrite andb_false_r, andb_true_r, orb_false_l, orb_false_r.
      rewrite N.mod_small by lia. reflexivity.
    + replace (64 - k <=? i) with true by lia. rewrite andb_false_r. cbn [andb orb].
      replace (i + k) with (i - (64 - k) + 1 * 64) by lia. rewrite N.mod_add, N.mod_small by lia. reflexivity.
  - replace (i <? 64 - k) with false by lia. rewrite andb_false_r. reflexivity.
Qed.

(** x0 to x4 in d0 to d4, x2 complemented *)
Definition neg (s : state) : state := St (X0 s) (X1 s) (notw 64 (X2 s)) (X3 s) (X4 s).
Definition holds (r : dregs) (s : state) : Prop := ststate r = neg s.

Definition subst_code (off : N) : list neon := firstn 16 (nROUND off).
Definition lin_code : list neon := skipn 16 (nROUND 0).
Lemma nROUND_split off : nROUND off = subst_code off ++ lin_code.
Proof. reflexivity. Qed.
Lemma execs_app a b r : execs (a ++ b) r = execs b (execs a r).
Proof. apply fold_left_app. Qed.

Local Ltac run := cbv [ststate execs subst_code lin_code nROUND firstn skipn fold_left exec setd N.eqb Pos.eqb N.mul Pos.mul N.add Pos.add Pos.succ].

Lemma notw_notw w x : notw w (notw w x) = x.
Proof. unfold notw. rewrite N.lxor_assoc, N.lxor_nilpotent. apply N.lxor_0_r. Qed.
Local Ltac xor_eq :=
  let i := fresh "i" in apply N.bits_inj; intro i; rewrite !N.lxor_spec;
  repeat match goal with |- context [N.testbit ?a i] => destruct (N.testbit a i) end; reflexivity.

Lemma lin_ok r :
  ststate (execs lin_code r) =
  St (sigma (r 0) 19 28) (sigma (r 1) 61 39) (sigma (r 2) 1 6) (sigma (r 3) 10 17) (sigma (r 4) 7 41).
Proof.
  run. generalize (r 0) (r 1) (r 2) (r 3) (r 4). intros x0 x1 x2 x3 x4.
  repeat match goal with |- context [vsli (vsri ?d ?x ?k) ?x ?j] =>
    replace (vsli (vsri d x k) x j) with (rotr x k) by (symmetry; apply (vrot d x k); lia) end.
  unfold sigma. f_equal; xor_eq.
Qed.

Lemma subst_ok r s off c : wf s -> holds r s -> nth (N.to_nat (off / 8)) neon_C 0 = notw 64 c -> fits 64 c ->
  ststate (execs (subst_code off) r) = neg (pS (pC c s)).
Proof.
  intros (F0 & F1 & F2 & F3 & F4) H Hc Fc. unfold holds, ststate, neg in H. inversion H as [[H0 H1 H2 H3 H4]]. clear H.
  run. rewrite H0, H1, H2, H3, H4, Hc. unfold neg. clear H0 H1 H2 H3 H4 Hc.
  f_equal; symmetry; [sbox_eq|sbox_eq| |sbox_eq|sbox_eq].
  match goal with |- _ = ?y => replace (X2 (pS (pC c s))) with (notw 64 y) by (symmetry; sbox_eq) end.
  apply notw_notw.
Qed.

Lemma wf_pSC c s : wf (pS (pC c s)).
Proof. repeat split; apply (fits_of_bits 64). Qed.

(** The result depends on d0 to d4 only. *)
Lemma nROUND_only off r r' : ststate r = ststate r' -> ststate (execs (nROUND off) r) = ststate (execs (nROUND off) r').
Proof.
  intros E. rewrite nROUND_split, !execs_app, !lin_ok. unfold ststate in E. inversion E as [[E0 E1 E2 E3 E4]].
  run. rewrite E0, E1, E2, E3, E4. reflexivity.
Qed.
Lemma nrounds_only offs : forall r r', ststate r = ststate r' ->
  ststate (execs (flat_map nROUND offs) r) = ststate (execs (flat_map nROUND offs) r').
Proof.
  induction offs as [|o l IH]; intros r r' E; [exact E|].
  change (flat_map nROUND (o :: l)) with (nROUND o ++ flat_map nROUND l). rewrite !execs_app. apply IH, nROUND_only, E.
Qed.

(** Twelve constants: the complements of those of the standard. *)
Lemma nROUND_ok r s off c : wf s -> holds r s -> nth (N.to_nat (off / 8)) neon_C 0 = notw 64 c -> fits 64 c ->
  holds (execs (nROUND off) r) (round s c).
Proof.
  intros Hs H Hc Fc. rewrite nROUND_split, execs_app.
  pose proof (subst_ok r s off c Hs H Hc Fc) as E. set (r1 := execs (subst_code off) r) in *.
  destruct (wf_pSC c s) as (F0 & F1 & F2 & F3 & F4). unfold ststate, neg in E. inversion E as [[E0 E1 E2 E3 E4]].
  unfold holds. rewrite lin_ok, E0, E1, E2, E3, E4, sigma_notw. reflexivity.
Qed.

Lemma nrounds_ok cs : forall offs r s, wf s -> holds r s -> Forall (fits 64) cs ->
  map (fun off => nth (N.to_nat (off / 8)) neon_C 0) offs = map (notw 64) cs ->
  holds (execs (flat_map nROUND offs) r) (fold_left round cs s) /\ wf (fold_left round cs s).
Proof.
  induction cs as [|c cs IH]; intros offs r s Hs H F E; destruct offs as [|off offs]; try discriminate E; [split; assumption|].
  inversion F as [|? ? Fc Fcs]; subst. cbn [map] in E.
  change (flat_map nROUND (off :: offs)) with (nROUND off ++ flat_map nROUND offs). rewrite execs_app. cbn [fold_left].
  apply IH; [apply wf_round|apply nROUND_ok; auto; congruence|exact Fcs|congruence].
Qed.

Lemma VMVN_ok r : ststate (execs [VMVN 2 2] r) = neg (ststate r).
Proof. reflexivity. Qed.
Lemma neg_neg s : neg (neg s) = s.
Proof. destruct s as [x0 x1 x2 x3 x4]. unfold neg. cbn [X0 X1 X2 X3 X4]. rewrite notw_notw. reflexivity. Qed.

(** [vmvn d2], the rounds, [vmvn d2]: the permutation on d0 to d4 *)
Lemma code_ok cs offs r s : wf s -> ststate r = s -> Forall (fits 64) cs ->
  map (fun off => nth (N.to_nat (off / 8)) neon_C 0) offs = map (notw 64) cs ->
  ststate (execs ([VMVN 2 2] ++ flat_map nROUND offs ++ [VMVN 2 2]) r) = fold_left round cs s /\ wf (fold_left round cs s).
Proof.
  intros Hs H F E. rewrite !execs_app.
  destruct (nrounds_ok cs offs (execs [VMVN 2 2] r) s Hs) as [G W]; [|exact F|exact E|].
  - unfold holds. rewrite VMVN_ok, H. reflexivity.
  - split; [|exact W]. rewrite VMVN_ok. unfold holds in G. rewrite G. apply neg_neg.
Qed.
Lemma fits_all l : forallb (fun c => c <? 2 ^ 64) l = true -> Forall (fits 64) l.
Proof. intros H. apply Forall_forall. intros c Hc. rewrite forallb_forall in H. apply N.ltb_lt, H, Hc. Qed.
Lemma p12_ok r s : wf s -> ststate r = s ->
  ststate (execs ([VMVN 2 2] ++ P12ROUNDS ++ [VMVN 2 2]) r) = perm 12 s /\ wf (perm 12 s).
Proof.
  intros Hs H.
  apply (code_ok (skipn (16 - 12) round_constants) [0; 8; 16; 24; 32; 40; 48; 56; 64; 72; 80; 88] r s Hs H); [apply fits_all|]; vm_compute; reflexivity.
Qed.
Lemma p8_ok r s : wf s -> ststate r = s ->
  ststate (execs round_code r) = perm 8 s /\ wf (perm 8 s).
Proof.
  intros Hs H.
  apply (code_ok (skipn (16 - 8) round_constants) [32; 40; 48; 56; 64; 72; 80; 88] r s Hs H); [apply fits_all|]; vm_compute; reflexivity.
Qed.
Lemma p6_ok r s : wf s -> ststate r = s ->
  ststate (execs ([VMVN 2 2] ++ P6ROUNDS ++ [VMVN 2 2]) r) = perm 6 s /\ wf (perm 6 s).
Proof.
  intros Hs H.
  apply (code_ok (skipn (16 - 6) round_constants) [48; 56; 64; 72; 80; 88] r s Hs H); [apply fits_all|]; vm_compute; reflexivity.
Qed.

Lemma code_only offs r r' : ststate r = ststate r' ->
  ststate (execs ([VMVN 2 2] ++ flat_map nROUND offs ++ [VMVN 2 2]) r) =
  ststate (execs ([VMVN 2 2] ++ flat_map nROUND offs ++ [VMVN 2 2]) r').
Proof.
  intros E. rewrite !execs_app, !VMVN_ok. f_equal. apply nrounds_only. rewrite !VMVN_ok, E. reflexivity.
Qed.
Lemma round_code_only r r' : ststate r = ststate r' -> ststate (execs round_code r) = ststate (execs round_code r').
Proof. exact (code_only [32; 40; 48; 56; 64; 72; 80; 88] r r'). Qed.

Lemma ldst u s : ststate (ldstate u s) = s.
Proof. destruct s. reflexivity. Qed.

Lemma nP12 u s : wf s -> nP u 12 s = perm 12 s /\ wf (perm 12 s).
Proof. intros Hs. exact (p12_ok (ldstate u s) s Hs (ldst u s)). Qed.
Lemma nP8 u s : wf s -> nP u 8 s = perm 8 s /\ wf (perm 8 s).
Proof. intros Hs. exact (p8_ok (ldstate u s) s Hs (ldst u s)). Qed.
Lemma nP6 u s : wf s -> nP u 6 s = perm 6 s /\ wf (perm 6 s).
Proof. intros Hs. exact (p6_ok (ldstate u s) s Hs (ldst u s)). Qed.

Lemma nP_only u u' nr s : nP u nr s = nP u' nr s.
Proof.
  assert (E : forall offs s, nP_asm (flat_map nROUND offs) u s = nP_asm (flat_map nROUND offs) u' s).
  { intros offs s0. unfold nP_asm. apply code_only. rewrite !ldst. reflexivity. }
  unfold nP, P12ROUNDS, P8ROUNDS, P6ROUNDS. rewrite !E. reflexivity.
Qed.

Theorem neon_laws u e : word_laws cn64 e (neon_ops u e).
Proof.
  apply w64_laws; intros s Hs.
  - destruct (nP12 u s Hs) as [-> W]. rewrite !cs64_id by assumption. auto.
  - destruct (nP8 u s Hs) as [-> W]. rewrite !cs64_id by assumption. auto.
  - destruct (nP6 u s Hs) as [-> W]. rewrite !cs64_id by assumption. auto.
Qed.
