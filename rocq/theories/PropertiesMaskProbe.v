(** * PropertiesMaskProbe.v -- C48: no single value which the masked
    permutation of the leveled implementation for ARMv6 computes depends on
    the state it permutes.

    The values are those of [t_MP] (ModelMaskCode.v): everything one
    instruction of the permutation writes to a register or to memory.  What
    it means that a masked state holds a state, and that the distribution of
    a value is the same for two states, is said in SpecShare.v. *)
From Coq Require Import Arith Bool NArith ZArith List Lia Init.Byte.
From Coq Require Import ZifyBool ZifyNat ZifyN.
From Verif Require Import Words WordFacts Spec SpecFacts RoundFacts CMem ModelRef ModelCommon ModelWords WordLaws BitExp WordInst WordInstBi
  PermBij ModelMask SpecShare ModelMaskCode MaskVal MaskRound MaskPerm MaskArr MaskProbe MaskProbeStep MaskProbeRound MaskProbeLin MaskProbePerm
  MaskShare MaskShareVal.
Import ListNotations.
Local Open Scope N_scope.

(** The program whose values are listed is the one of ModelMask.v: it leaves
    the state the masked encryption and decryption go on with. *)
Theorem C48_program : forall nr ns s, (nr = 8 \/ nr = 12)%nat -> (2 <= ns <= 4)%nat ->
  snd (t_MP nr ns s) = MP s nr ns.
Proof. intros nr ns s Hnr Hns. exact (next_MP ns Hns nr s Hnr). Qed.

(** Each value has the same distribution whatever state is held, if the
    sharing of the state is chosen uniformly. *)
Theorem C48_probe : forall nr ns n S T, (2 <= ns <= 4)%nat -> wf S -> wf T ->
  same_distribution ns S T (fun s => nth n (fst (t_MP nr ns s)) 0).
Proof.
  intros nr ns n S T Hns HS HT. assert (Hn : okn ns) by (unfold okn; lia).
  destruct (Good_MP ns Hns nr) as (len & Fv & L & _ & P).
  assert (C : coup (Sh ns (vals_of S)) (Sh ns (vals_of T)) (probe (t_MP nr ns) n)).
  { destruct (Nat.lt_ge_cases n len) as [Hlt|Hge]; [apply P; auto using vok_vals|].
    apply (coup_ext _ _ (fun _ => 0)).
    1,2: intros s [Ha _]; unfold probe; rewrite nth_overflow; [reflexivity|rewrite L by exact Ha; exact Hge].
    apply coup_blind; auto using vok_vals. exists (fun _ _ => 0%nat). split; [lia|reflexivity]. }
  destruct C as (f & g & C1 & C2). exists f. split.
  - exists g. split.
    + intros s Hs. apply sharing_Sh in Hs; [|exact Hn]. destruct (C1 s Hs) as (A & B & _).
      split; [apply sharing_Sh; assumption|exact B].
    + intros t Ht. apply sharing_Sh in Ht; [|exact Hn]. destruct (C2 t Ht) as (A & B).
      split; [apply sharing_Sh; assumption|exact B].
  - intros s Hs. apply sharing_Sh in Hs; [|exact Hn]. apply (C1 s Hs).
Qed.

(** The sharings are as uniform after the permutation as before it: it maps
    those of a state one to one onto those of the permuted state.  So the
    claim above holds for the next call, too, without fresh randomness. *)
Theorem C48_uniform : forall nr ns S, (nr = 8 \/ nr = 12)%nat -> (2 <= ns <= 4)%nat -> wf S ->
  one_to_one ns S (perm nr S) (fun s => MP s nr ns).
Proof.
  intros nr ns S Hnr Hns HS. assert (Hn : okn ns) by (unfold okn; lia).
  assert (HT : wf (perm nr S)) by apply wf_perm, HS.
  destruct (Good_MP ns Hns nr) as (len & Fv & _ & B & _).
  destruct (B (vals_of S) (vok_vals S)) as (_ & g & B1 & B2).
  assert (Fwd : forall s, sharing ns S s -> sharing ns (perm nr S) (MP s nr ns)).
  { intros s Hs. pose proof Hs as Hs'. apply sharing_Sh in Hs'; [|exact Hn]. destruct (B1 s Hs') as ((HA & _) & _).
    rewrite (next_MP ns Hns nr s Hnr) in HA.
    apply sharing_V in Hs; [|exact Hn|exact HS]. destruct Hs as ((Ho & _) & Hz & HV).
    destruct (MP_ok nr ns s ltac:(tauto) Hn Ho Hz) as (_ & Z & E).
    apply sharing_V; [exact Hn|exact HT|]. rewrite HV in E. auto. }
  (* the values after the permutation are those of [perm nr S] *)
  assert (Ev : veq (vals_of (perm nr S)) (Fv (vals_of S))).
  { pose proof (Sh_plain ns S ltac:(lia)) as Hp. destruct (B1 _ Hp) as ((_ & E) & _).
    apply sharing_Sh in Hp; [|exact Hn]. apply Fwd, sharing_Sh in Hp; [|exact Hn]. destruct Hp as (_ & E').
    rewrite (next_MP ns Hns nr _ Hnr) in E. intros k i Hk Hi. rewrite <- E' by assumption. apply E; assumption. }
  exists g. split.
  - intros s Hs. split; [apply Fwd, Hs|]. apply sharing_Sh in Hs; [|exact Hn]. destruct (B1 s Hs) as (_ & E).
    rewrite (next_MP ns Hns nr s Hnr) in E. exact E.
  - intros t Ht. apply sharing_Sh in Ht; [|exact Hn]. destruct Ht as [HA HE].
    assert (Ht : Sh ns (Fv (vals_of S)) t).
    { split; [exact HA|]. intros k i Hk Hi. rewrite <- Ev by assumption. apply HE; assumption. }
    destruct (B2 t Ht) as [H1 H2]. rewrite (next_MP ns Hns nr _ Hnr) in H2.
    split; [apply sharing_Sh; assumption|exact H2].
Qed.

(** So are the sharings during a sequence of calls. *)
Theorem C48_sequence : forall l ns n nr S T, (2 <= ns <= 4)%nat -> Forall (fun r => r = 8 \/ r = 12)%nat l -> wf S -> wf T ->
  same_distribution ns S T (fun s => nth n (fst (t_MP nr ns (fold_left (fun s r => MP s r ns) l s))) 0).
Proof.
  induction l as [|r l IH]; intros ns n nr S T Hns Hl HS HT; [apply C48_probe; assumption|].
  pose proof (Forall_inv Hl) as Hr. apply Forall_inv_tail in Hl.
  destruct (C48_uniform r ns S Hr Hns HS) as (gS & S1 & S2). destruct (C48_uniform r ns T Hr Hns HT) as (gT & T1 & T2).
  destruct (IH ns n nr (perm r S) (perm r T) Hns Hl ltac:(apply wf_perm, HS) ltac:(apply wf_perm, HT)) as (f & (g & F1 & F2) & F3).
  exists (fun s => gT (f (MP s r ns))). split.
  - exists (fun t => gS (g (MP t r ns))). split.
    + intros s Hs. destruct (S1 s Hs) as [A1 A2]. destruct (F1 _ A1) as [A3 A4]. destruct (T2 _ A3) as [A5 A6].
      split; [exact A5|]. rewrite A6, A4. exact A2.
    + intros t Ht. destruct (T1 t Ht) as [A1 A2]. destruct (F2 _ A1) as [A3 A4]. destruct (S2 _ A3) as [A5 A6].
      split; [exact A5|]. rewrite A6, A4. exact A2.
  - intros s Hs. destruct (S1 s Hs) as [A1 A2]. destruct (F1 _ A1) as [A3 A4]. destruct (T2 _ A3) as [A5 A6].
    cbn [fold_left]. rewrite A6. apply F3, A1.
Qed.

(** ** Examples *)

(** One share is not enough: then the first value tells some states apart. *)
Theorem C48_one_share_leaks :
  ~ same_distribution 1 (St 0 0 0 0 0) (St 1 0 0 0 0) (fun s => nth 0 (fst (t_MP 12 1 s)) 0).
Proof.
  intros (f & (g & F1 & _) & Hq).
  assert (Hn : okn 1) by (unfold okn; lia).
  pose proof (proj2 (sharing_Sh 1 (St 0 0 0 0 0) _ Hn) (Sh_plain 1 (St 0 0 0 0 0) ltac:(lia))) as H0.
  specialize (Hq _ H0). destruct (F1 _ H0) as [((P0 & _) & H1 & _) _]. revert Hq H1.
  change (nth 0 (fst (t_MP 12 1 (plain (St 0 0 0 0 0)))) 0) with 0.
  generalize (f (plain (St 0 0 0 0 0))). intros t.
  change (nth 0 (fst (t_MP 12 1 t)) 0) with (h0 (m0 (y0 t))). intros E H. specialize (H 0 eq_refl). revert H.
  change (word_bit 1 (y0 t) 0) with (xorb (N.testbit (h0 (m0 (y0 t))) 0) false). rewrite E. discriminate.
Qed.

(** Two values may depend on the state: with two shares, the two that are
    loaded first determine part of it. *)
Theorem C48_two_values_leak :
  ~ same_distribution 2 (St 0 0 0 0 0) (St 1 0 0 0 0)
      (fun s => (nth 0 (fst (t_MP 12 2 s)) 0, nth 2 (fst (t_MP 12 2 s)) 0)).
Proof.
  intros (f & (g & F1 & _) & Hq).
  assert (Hn : okn 2) by (unfold okn; lia).
  pose proof (proj2 (sharing_Sh 2 (St 0 0 0 0 0) _ Hn) (Sh_plain 2 (St 0 0 0 0 0) ltac:(lia))) as H0.
  specialize (Hq _ H0). destruct (F1 _ H0) as [((P0 & _) & H1 & _) _]. revert Hq H1.
  generalize (f (plain (St 0 0 0 0 0))). intros t.
  change (nth 0 (fst (t_MP 12 2 t)) 0) with (h0 (m0 (y0 t))). change (nth 2 (fst (t_MP 12 2 t)) 0) with (h0 (m1 (y0 t))).
  change (nth 0 (fst (t_MP 12 2 (plain (St 0 0 0 0 0)))) 0) with 0. change (nth 2 (fst (t_MP 12 2 (plain (St 0 0 0 0 0)))) 0) with 0.
  intros E H. apply pair_equal_spec in E. destruct E as [E0 E1]. specialize (H 0 eq_refl). revert H.
  change (word_bit 2 (y0 t) 0) with (xorb (N.testbit (h0 (m0 (y0 t))) 0) (xorb (N.testbit (h0 (m1 (y0 t))) 5) false)).
  rewrite E0, E1. discriminate.
Qed.

(** add [m] to share 1 of the first half of the first word, and to share 0
    what compensates for it *)
Definition remask (s : mstate) (m : N) : mstate := xxor (xxor s 0 1 0 m) 0 0 0 (rotr32 m 5).
(** The statement is about something: with four shares 12 rounds compute
    8712 values, and a state has sharings with shares other than 0. *)
Theorem C48_case :
  N.of_nat (length (fst (t_MP 12 4 (plain (St 1 2 3 4 5))))) = 8712 /\
  sharing 4 (St 1 2 3 4 5) (remask (plain (St 1 2 3 4 5)) 0xdeadbeef) /\
  h0 (m1 (y0 (remask (plain (St 1 2 3 4 5)) 0xdeadbeef))) = 0xdeadbeef.
Proof.
  assert (Hn : okn 4) by (unfold okn; lia). split; [vm_compute; reflexivity|]. split; [|vm_compute; reflexivity].
  apply sharing_Sh; [exact Hn|]. destruct (Sh_plain 4 (St 1 2 3 4 5) ltac:(lia)) as [HA HV].
  revert HA HV. generalize (plain (St 1 2 3 4 5)) (vals_of (St 1 2 3 4 5)). intros s v HA HV.
  assert (A1 : All 4 (xxor s 0 1 0 0xdeadbeef)) by (apply All_xxor; try lia; [reflexivity|exact HA]).
  split.
  - apply All_xxor; try lia; [apply fits_rotr32|exact A1].
  - intros k i Hk Hi. unfold remask. rewrite !vof_xxor by (assumption || lia).
    rewrite (HV k i Hk Hi). destruct (_ && _)%bool; [|reflexivity].
    change (5 * N.of_nat 0) with 0. change (5 * N.of_nat 1) with 5. rewrite (rotr32_0 (rotr32 _ 5)) by apply fits_rotr32.
    apply lxor_cancel.
Qed.

Print Assumptions C48_program.
Print Assumptions C48_probe.
Print Assumptions C48_uniform.
Print Assumptions C48_sequence.
Print Assumptions C48_one_share_leaks.
Print Assumptions C48_two_values_leak.
Print Assumptions C48_case.
