(** * RefRound.v -- the reference permutation is Ascon-p. *)
From Coq Require Import Arith NArith List Lia Bool Init.Byte.
From Verif Require Import Words WordFacts Spec SpecFacts RoundFacts ModelRef.
Import ListNotations.
Local Open Scope N_scope.

Lemma lxor3_sigma x a b : fits 64 x -> a < 64 -> b < 64 ->
  N.lxor (N.lxor x (ROR x a)) (ROR x b) = sigma x a b.
Proof.
  intros Hx Ha Hb. change ROR with ror64. rewrite !ror64_rotr by assumption.
  unfold sigma. apply N.lxor_assoc.
Qed.

Lemma ref_round_ok s c : wf s -> fits 64 c -> ROUND s c = round s c.
Proof.
  destruct s as [x0 x1 x2 x3 x4].
  intros (H0 & H1 & H2 & H3 & H4) Hc. cbn [X0 X1 X2 X3 X4] in *.
  unfold ROUND.
  rewrite !lxor3_sigma by (try reflexivity; auto 12 using fits_lxor, fits_land, fits_notw).
  apply round_intro; sbox_eq.
Qed.

(** Any round function that agrees with [round] gives the permutation. *)
Lemma perm_of_rounds (R : state -> N -> state) cs s :
  (forall s c, wf s -> In c cs -> R s c = round s c) -> wf s ->
  fold_left R cs s = fold_left round cs s.
Proof.
  revert s; induction cs as [|c cs IH]; intros s HR Hs; [reflexivity|].
  cbn [fold_left]. rewrite HR by (cbn; auto). apply IH; [|apply wf_round].
  intros s' c' Hs' Hc'. apply HR; cbn; auto.
Qed.

Lemma fits_small w x n : x < 2 ^ n -> n <= w -> fits w x.
Proof. intros H Hn. apply (fits_le n); assumption. Qed.

Lemma round_constants_fits c : In c round_constants -> c < 256.
Proof.
  intros H. assert (E : forallb (fun c => c <? 256) round_constants = true) by reflexivity.
  rewrite forallb_forall in E. apply N.ltb_lt, E, H.
Qed.

Lemma fits64_of_lt256 c : c < 256 -> fits 64 c.
Proof. intros H. apply (fits_small 64 c 8); [exact H|lia]. Qed.

Lemma P12_perm s : wf s -> P12 s = perm 12 s.
Proof.
  intros H. change (P12 s) with (fold_left ROUND (skipn 4 round_constants) s).
  apply (perm_of_rounds ROUND); [|exact H].
  intros s' c Hs' Hc. apply ref_round_ok; [exact Hs'|].
  apply fits64_of_lt256, round_constants_fits. apply (in_or_app (firstn 4 round_constants)).
  right. exact Hc.
Qed.

Lemma P8_perm s : wf s -> P8 s = perm 8 s.
Proof.
  intros H. change (P8 s) with (fold_left ROUND (skipn 8 round_constants) s).
  apply (perm_of_rounds ROUND); [|exact H].
  intros s' c Hs' Hc. apply ref_round_ok; [exact Hs'|].
  apply fits64_of_lt256, round_constants_fits. apply (in_or_app (firstn 8 round_constants)).
  right. exact Hc.
Qed.

Lemma P6_perm s : wf s -> P6 s = perm 6 s.
Proof.
  intros H. change (P6 s) with (fold_left ROUND (skipn 10 round_constants) s).
  apply (perm_of_rounds ROUND); [|exact H].
  intros s' c Hs' Hc. apply ref_round_ok; [exact Hs'|].
  apply fits64_of_lt256, round_constants_fits. apply (in_or_app (firstn 10 round_constants)).
  right. exact Hc.
Qed.
