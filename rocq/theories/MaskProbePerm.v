(** * MaskProbePerm.v -- the values computed by the masked permutation. *)
From Coq Require Import Arith Bool NArith ZArith List Lia Init.Byte.
From Coq Require Import ZifyBool ZifyNat ZifyN.
From Verif Require Import Words WordFacts Spec SpecFacts RoundFacts CMem ModelRef ModelCommon ModelWords WordLaws BitExp WordInst WordInstBi
  PermBij ModelMask ModelMaskCode MaskVal MaskRound MaskPerm MaskArr MaskProbe MaskProbeStep MaskProbeRound MaskProbeLin.
Import ListNotations.
Local Open Scope N_scope.

Lemma next_7 (a b c d e f g : step) s : next (run [a; b; c; d; e; f; g]) s = next g (next f (next e (next d (next c (next b (next a s)))))).
Proof. reflexivity. Qed.
Lemma next_6 (a b c d e f : step) s : next (run [a; b; c; d; e; f]) s = next f (next e (next d (next c (next b (next a s))))).
Proof. reflexivity. Qed.

Section Perm.
Variable ns : nat.
Hypothesis Hns : (2 <= ns <= 4)%nat.
Let Hn : okn ns. Proof. unfold okn. lia. Qed.

Lemma Good_SBOX i : (i < 2)%nat -> Good ns (t_SBOX i ns).
Proof.
  intros Hi. unfold t_SBOX. apply Good_run.
  constructor; [exact (Good_aff1 ns Hns i Hi)|].
  do 5 (constructor; [apply (Good_gate ns Hns); lia|]).
  constructor; [exact (Good_aff2 ns Hns i Hi)|constructor].
Qed.
Lemma Good_ROUND co ce : fits 32 co -> fits 32 ce -> Good ns (t_ROUND co ce ns).
Proof.
  intros Hco Hce. apply Good_run.
  constructor; [apply Good_const; auto; lia|].
  constructor; [apply Good_SBOX; lia|].
  constructor; [apply Good_const; auto; lia|].
  constructor; [apply Good_SBOX; lia|].
  constructor; [apply Good_mre; lia|].
  constructor; [apply (Good_lin ns Hns)|constructor].
Qed.
Lemma Good_MP nr : Good ns (t_MP nr ns).
Proof.
  apply Good_run. constructor; [apply Good_load, Hns|].
  apply Forall_forall. intros st Hin. apply in_map_iff in Hin. destruct Hin as (j & <- & _).
  apply Good_ROUND; apply mconst_fits.
Qed.

Lemma next_gate' c a b i s : (c < 6)%nat -> (a < 6)%nat -> (b < 6)%nat -> c <> a -> c <> b -> a <> b -> (i < 2)%nat ->
  next (t_MXORBIC c a b i ns) s = setw s c (MXORBIC (getw s c) (getw s a) (getw s b) i ns).
Proof. intros. apply (next_gate ns Hns); assumption. Qed.
Lemma next_SBOX i s : (i < 2)%nat -> next (t_SBOX i ns) s = SBOX s i ns.
Proof.
  intros Hi. rewrite SBOX_parts. etransitivity; [apply next_7|].
  change (run (map (t_AFFINE1 i) (seq 0 ns))) with (t_aff1 ns i).
  change (run (t_AFFINE2 i 0 :: t_not i :: map (t_AFFINE2 i) (seq 1 (ns - 1)))) with (t_aff2 ns i).
  rewrite (next_aff2 ns Hns), (next_aff1 ns Hns), !next_gate' by lia. reflexivity.
Qed.
Lemma next_ROUND co ce s : next (t_ROUND co ce ns) s = ROUND_ s co ce ns.
Proof.
  rewrite ROUND_parts. etransitivity; [apply next_6|].
  change (run (map t_LINEAR (rev (seq 0 ns)))) with (t_lin ns).
  rewrite (next_lin ns Hns), (next_mre ns Hns), !next_SBOX by lia. reflexivity.
Qed.
Lemma next_MP nr s : (nr = 8 \/ nr = 12)%nat -> next (t_MP nr ns) s = MP s nr ns.
Proof.
  intros Hnr. unfold MP. rewrite MPROUNDS_list by (destruct Hnr; subst; cbn; lia).
  replace (12 - (12 - nr))%nat with nr by lia. unfold t_MP. rewrite next_cons.
  change (next (t_load ns) s) with s. generalize (seq (12 - nr) nr). intros l. revert s.
  induction l as [|j l IH]; intros s; [reflexivity|]. cbn [map fold_left]. rewrite next_cons, next_ROUND. apply IH.
Qed.
End Perm.
