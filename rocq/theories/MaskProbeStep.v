(** * MaskProbeStep.v -- the steps of the masked permutation, one by one. *)
From Coq Require Import Arith Bool NArith ZArith List Lia Init.Byte.
From Coq Require Import ZifyBool ZifyNat ZifyN.
From Verif Require Import Words WordFacts Spec SpecFacts RoundFacts CMem ModelRef ModelCommon ModelWords ModelMask
  ModelMaskCode MaskVal MaskRound MaskProbe.
Import ListNotations.
Local Open Scope N_scope.

Definition probe (st : step) (n : nat) : mstate -> N := fun s => nth n (fst (st s)) 0.
Definition next (st : step) : mstate -> mstate := fun s => snd (st s).

(** [len] values; the shared values become [Fv v]; no value computed depends
    on the shared values. *)
Definition good (ns len : nat) (Fv : vals -> vals) (st : step) : Prop :=
  (forall s, All ns s -> length (fst (st s)) = len) /\
  (forall v, vok v -> vok (Fv v) /\ bij (Sh ns v) (Sh ns (Fv v)) (next st)) /\
  (forall n, (n < len)%nat -> forall v v', vok v -> vok v' -> coup (Sh ns v) (Sh ns v') (probe st n)).

Lemma good_andthen ns l1 l2 F1 F2 a b : good ns l1 F1 a -> good ns l2 F2 b ->
  good ns (l1 + l2) (fun v => F2 (F1 v)) (andthen a b).
Proof.
  intros (A1 & A2 & A3) (B1 & B2 & B3).
  assert (AA : forall s, All ns s -> All ns (next a s)).
  { intros s Ha. destruct (A2 (vof ns s)) as (_ & g & H & _); [intros k i; apply fits_D|].
    apply (H s). split; [exact Ha|]. intros k i _ _. reflexivity. }
  split; [|split].
  - intros s Ha. unfold andthen. cbn [fst]. rewrite app_length, A1, B1 by (auto; apply AA, Ha). reflexivity.
  - intros v Hv. destruct (A2 v Hv) as [V1 G1]. destruct (B2 _ V1) as [V2 G2]. split; [exact V2|].
    apply (bij_comp _ _ _ _ _ G1 G2).
  - intros n Hn v v' Hv Hv'. destruct (Nat.lt_ge_cases n l1) as [L|L].
    + apply (coup_ext _ _ (probe a n)).
      1,2: intros s [Ha _]; unfold probe, andthen; cbn [fst]; rewrite app_nth1 by (rewrite A1; assumption); reflexivity.
      apply A3; assumption.
    + apply (coup_ext _ _ (fun s => probe b (n - l1) (next a s))).
      1,2: intros s [Ha _]; unfold probe, andthen; cbn [fst]; rewrite app_nth2, A1 by (rewrite ?A1; assumption); reflexivity.
      destruct (A2 v Hv) as [V1 G1]. destruct (A2 v' Hv') as [V2 G2].
      apply (coup_pre _ _ _ _ (next a) _ G1 G2). apply B3; auto. lia.
Qed.
Lemma good_skip ns : good ns 0 (fun v => v) skip.
Proof.
  split; [reflexivity|]. split; [|intros n H; lia]. intros v Hv. split; [exact Hv|]. apply bij_id.
Qed.
Definition Good (ns : nat) (st : step) : Prop := exists len Fv, good ns len Fv st.
Lemma Good_run ns l : Forall (Good ns) l -> Good ns (run l).
Proof.
  induction 1 as [|a l (n1 & F1 & H1) _ (n2 & F2 & H2)].
  - exists 0%nat, (fun v => v). apply good_skip.
  - exists (n1 + n2)%nat, (fun v => F2 (F1 v)). exact (good_andthen ns n1 n2 F1 F2 a (run l) H1 H2).
Qed.

(** blind probes *)
Lemma good_blind ns len Fv st : okn ns ->
  (forall s, All ns s -> length (fst (st s)) = len) ->
  (forall v, vok v -> vok (Fv v) /\ bij (Sh ns v) (Sh ns (Fv v)) (next st)) ->
  (forall n, (n < len)%nat -> blind ns (probe st n)) -> good ns len Fv st.
Proof. intros Hns H1 H2 H3. split; [exact H1|]. split; [exact H2|]. intros. apply coup_blind; auto. Qed.

(** ** Steps that work on one share *)

Definition eqslice (d : nat) (s s' : mstate) : Prop :=
  forall k i, (k < 6)%nat -> (i < 2)%nat -> xget s k d i = xget s' k d i.
Definition onshare (d : nat) (st : step) : Prop :=
  exists len, forall s, okm s -> length (fst (st s)) = len /\ okm (next st s) /\
  (forall d', (d' < 4)%nat -> d' <> d -> eqslice d' (next st s) s) /\
  forall s', okm s' -> eqslice d s s' -> fst (st s) = fst (st s') /\ eqslice d (next st s) (next st s').

Lemma onshare_skip d : onshare d skip.
Proof.
  exists 0%nat. intros s Hs. split; [reflexivity|]. split; [exact Hs|]. split; [intros d' _ _ k i _ _; reflexivity|].
  intros s' _ E. split; [reflexivity|exact E].
Qed.
Lemma onshare_andthen d a b : onshare d a -> onshare d b -> onshare d (andthen a b).
Proof.
  intros (n1 & H1) (n2 & H2). exists (n1 + n2)%nat. intros s Hs.
  destruct (H1 s Hs) as (L1 & O1 & K1 & E1). destruct (H2 _ O1) as (L2 & O2 & K2 & E2).
  unfold andthen, next in *. cbn [fst snd] in *. split; [rewrite app_length; lia|]. split; [exact O2|]. split.
  - intros d' Hd' Hne k i Hk Hi. rewrite (K2 d' Hd' Hne k i Hk Hi). apply K1; assumption.
  - intros s' Hs' E. destruct (E1 s' Hs' E) as [F1 G1]. destruct (H1 s' Hs') as (_ & O1' & _).
    destruct (E2 _ O1' G1) as [F2 G2]. split; [rewrite F1, F2; reflexivity|exact G2].
Qed.
Lemma onshare_run d l : Forall (onshare d) l -> onshare d (run l).
Proof. induction 1; [apply onshare_skip|apply onshare_andthen; assumption]. Qed.

(** a sequence of such steps, on various shares less than [ns] *)
Lemma All_keep ns d s s' : (d < ns)%nat -> All ns s -> okm s' -> (forall d', (d' < 4)%nat -> d' <> d -> eqslice d' s' s) -> All ns s'.
Proof.
  intros Hd [_ Hz] Ho H. split; [exact Ho|]. intros k d' i Hk Hd' Hi. rewrite (H d' ltac:(lia) ltac:(lia) k i Hk Hi). apply Hz; assumption.
Qed.
Definition sliced (ns : nat) (st : step) : Prop :=
  (exists len, forall s, All ns s -> length (fst (st s)) = len) /\
  (forall s, All ns s -> All ns (next st s)) /\
  (forall n, exists d, (d < ns)%nat /\ forall s s', All ns s -> All ns s' -> eqslice d s s' -> probe st n s = probe st n s') /\
  (forall d s s', (d < 4)%nat -> All ns s -> All ns s' -> eqslice d s s' -> eqslice d (next st s) (next st s')).
Lemma sliced_onshare ns d st : (d < ns)%nat -> onshare d st -> sliced ns st.
Proof.
  intros Hd (len & H). split; [|split; [|split]].
  - exists len. intros s [Ho _]. apply H, Ho.
  - intros s Ha. destruct (H s (proj1 Ha)) as (_ & Ho & K & _). apply (All_keep ns d s); assumption.
  - intros n. exists d. split; [exact Hd|]. intros s s' Ha Ha' E. unfold probe.
    destruct (H s (proj1 Ha)) as (_ & _ & _ & F). destruct (F s' (proj1 Ha') E) as [-> _]. reflexivity.
  - intros d' s s' Hd' Ha Ha' E. destruct (H s (proj1 Ha)) as (_ & _ & K & F).
    destruct (Nat.eq_dec d' d) as [->|Hne]; [apply F; [apply Ha'|exact E]|].
    destruct (H s' (proj1 Ha')) as (_ & _ & K' & _). intros k i Hk Hi.
    rewrite (K d' Hd' Hne k i Hk Hi), (K' d' Hd' Hne k i Hk Hi). apply E; assumption.
Qed.
Lemma sliced_skip ns : (0 < ns)%nat -> sliced ns skip.
Proof.
  intros H. split; [exists 0%nat; reflexivity|]. split; [auto|]. split; [|auto].
  intros n. exists 0%nat. split; [exact H|]. intros. unfold probe, skip. cbn [fst]. destruct n; reflexivity.
Qed.
Lemma sliced_andthen ns a b : (0 < ns <= 4)%nat -> sliced ns a -> sliced ns b -> sliced ns (andthen a b).
Proof.
  intros Hns ((n1 & L1) & A1 & P1 & S1) ((n2 & L2) & A2 & P2 & S2). split; [|split; [|split]].
  - exists (n1 + n2)%nat. intros s Ha. unfold andthen. cbn [fst]. rewrite app_length, L1, L2 by (auto; apply A1, Ha). reflexivity.
  - intros s Ha. apply A2, A1, Ha.
  - intros n. destruct (Nat.lt_ge_cases n n1) as [L|L].
    + destruct (P1 n) as (d & Hd & H). exists d. split; [exact Hd|]. intros s s' Ha Ha' E. specialize (H s s' Ha Ha' E).
      unfold probe, andthen in *. cbn [fst]. rewrite !app_nth1 by (rewrite L1; assumption). exact H.
    + destruct (P2 (n - n1)%nat) as (d & Hd & H). exists d. split; [exact Hd|]. intros s s' Ha Ha' E.
      specialize (H _ _ (A1 s Ha) (A1 s' Ha') (S1 d s s' ltac:(lia) Ha Ha' E)).
      unfold probe, andthen, next in *. cbn [fst]. rewrite !app_nth2, !L1 by (rewrite ?L1; assumption). exact H.
  - intros d s s' Hd Ha Ha' E. apply (S2 d (next a s) (next a s')); [exact Hd|apply A1, Ha|apply A1, Ha'|apply S1; assumption].
Qed.
Lemma sliced_run ns l : (0 < ns <= 4)%nat -> Forall (sliced ns) l -> sliced ns (run l).
Proof. intros Hns. induction 1; [apply sliced_skip; lia|apply sliced_andthen; assumption]. Qed.
Lemma sliced_blind ns st : (2 <= ns)%nat -> sliced ns st -> forall n, blind ns (probe st n).
Proof.
  intros Hns (_ & _ & P & _) n. destruct (P n) as (d & Hd & H).
  exists (fun _ _ => match d with O => 1%nat | _ => 0%nat end). split; [destruct d; lia|].
  intros s s' Ha Ha' E. apply H; [assumption..|]. intros k i Hk Hi. apply E; try assumption. destruct d; lia.
Qed.

Lemma onshare_eor k j d i : (k < 6)%nat -> (j < 6)%nat -> (d < 4)%nat -> (i < 2)%nat -> onshare d (t_eor k j d i).
Proof.
  intros Hk Hj Hd Hi. exists 1%nat. intros s Hs. split; [reflexivity|]. split; [apply okm_xxor; [exact Hs|apply Hs]|].
  unfold next, t_eor. cbn [fst snd]. split.
  - intros d' Hd' Hne k' i' Hk' Hi'. rewrite xget_xxor by assumption. replace (d =? d')%nat with false by lia.
    rewrite andb_false_r. reflexivity.
  - intros s' Hs' E. rewrite !E by assumption. split; [reflexivity|]. intros k' i' Hk' Hi'. rewrite !xget_xxor by assumption.
    rewrite !E by assumption. reflexivity.
Qed.
Lemma onshare_const i v : (i < 2)%nat -> fits 32 v -> onshare 0 (t_const i v).
Proof.
  intros Hi Hv. exists 2%nat. intros s Hs. split; [reflexivity|]. split; [apply okm_xxor; assumption|].
  unfold next, t_const. cbn [fst snd]. split.
  - intros d' Hd' Hne k' i' Hk' Hi'. rewrite xget_xxor by (try assumption; lia). replace (0 =? d')%nat with false by lia.
    rewrite andb_false_r. reflexivity.
  - intros s' Hs' E. rewrite !E by (assumption || lia). split; [reflexivity|]. intros k' i' Hk' Hi'.
    rewrite !xget_xxor by (assumption || lia). rewrite !E by assumption. reflexivity.
Qed.
Lemma okm_xset s k d i v : okm s -> fits 32 v -> okm (xset s k d i v).
Proof. intros H Hv. apply okm_setw; [exact H|]. apply okw_wset; auto. Qed.
Lemma onshare_not i : (i < 2)%nat -> onshare 0 (t_not i).
Proof.
  intros Hi. exists 1%nat. intros s Hs. split; [reflexivity|].
  split; [apply okm_xset; [assumption|apply fits_notw, (Hs 2%nat)]|].
  unfold next, t_not. cbn [fst snd]. split.
  - intros d' Hd' Hne k' i' Hk' Hi'. rewrite xget_xset by (try assumption; lia). replace (0 =? d')%nat with false by lia.
    rewrite andb_false_r. reflexivity.
  - intros s' Hs' E. rewrite !E by (assumption || lia). split; [reflexivity|]. intros k' i' Hk' Hi'.
    rewrite !xget_xset by (assumption || lia). rewrite !E by assumption. reflexivity.
Qed.
Lemma getw_high s k : (6 <= k)%nat -> getw s k = getw s 5.
Proof. intros H. do 6 (destruct k as [|k]; [lia|]). reflexivity. Qed.
Lemma xget_LINEAR s d k d' i : okm s -> (k < 6)%nat -> (d < 4)%nat -> (d' < 4)%nat -> (i < 2)%nat ->
  xget (LINEAR s d) k d' i =
  if (d =? d')%nat then (if (i =? 0)%nat then fst (lin_word k (xget s k d 0) (xget s k d 1)) else snd (lin_word k (xget s k d 0) (xget s k d 1)))
  else xget s k d' i.
Proof.
  intros Hs Hk Hd Hd' Hi. unfold xget. rewrite LINEAR_word by assumption. unfold lin_share.
  destruct (lin_word k (wget (getw s k) d 0) (wget (getw s k) d 1)) as [a b]. cbn [fst snd].
  rewrite !wget_wset_eq by (assumption || lia).
  destruct (Nat.eqb_spec d d') as [->|]; [|reflexivity]. hcases Hi; reflexivity.
Qed.
Lemma onshare_LINEAR d : (d < 4)%nat -> onshare d (t_LINEAR d).
Proof.
  intros Hd. exists 40%nat. intros s Hs. split; [reflexivity|]. split; [apply okm_LINEAR, Hs|].
  unfold next, t_LINEAR. cbn [fst snd]. split.
  - intros d' Hd' Hne k i Hk Hi. rewrite xget_LINEAR by assumption. replace (d =? d')%nat with false by lia. reflexivity.
  - intros s' Hs' E. split.
    + cbv zeta. rewrite !E by lia. reflexivity.
    + intros k i Hk Hi. rewrite !xget_LINEAR by assumption. rewrite Nat.eqb_refl, !E by lia. reflexivity.
Qed.

(** ** The steps *)

Section Steps.
Variable ns : nat.
Hypothesis Hns : (2 <= ns <= 4)%nat.
Let Hn : okn ns. Proof. unfold okn. lia. Qed.

Lemma Good_const i v : (i < 2)%nat -> fits 32 v -> Good ns (t_const i v).
Proof.
  intros Hi Hv. pose proof (sliced_onshare ns 0 _ ltac:(lia) (onshare_const i v Hi Hv)) as S.
  exists 2%nat, (fun w => vset w 2 i (N.lxor (w 2%nat i) v)). apply good_blind; [exact Hn|reflexivity| |].
  - intros w Hw. split.
    + intros k j. unfold vset. destruct (_ && _)%bool; [apply fits_lxor; auto|apply Hw].
    + apply (bij_of ns _ (fun s => xxor s 2 0 i v) (fun w => vset w 2 i (N.lxor (w 2%nat i) v))).
      1,2: intros s Ha; (split; [apply All_xxor; auto; lia|]); apply x_ext; intros k d j Hk Hd Hj;
        unfold next, t_const; cbn [snd]; rewrite !xget_xxor by (assumption || lia);
        destruct ((2 =? k) && (0 =? d) && (i =? j))%nat; [apply lxor_cancel|reflexivity].
      * intros s u Ha Hu k j Hk Hj. unfold next, t_const. cbn [snd]. rewrite vof_xxor by (assumption || lia).
        unfold vset. destruct (Nat.eqb_spec 2 k) as [<-|]; [|apply Hu; assumption].
        destruct (Nat.eqb_spec i j) as [<-|]; [|apply Hu; assumption]. cbn [andb]. rewrite Hu by assumption.
        f_equal. apply rotr32_0, Hv.
      * intros u u' _ _ H k j Hk Hj. specialize (H k j Hk Hj). unfold vset in H.
        destruct (Nat.eqb_spec 2 k) as [E1|]; [|exact H]. destruct (Nat.eqb_spec i j) as [E2|]; [|exact H].
        subst k j. cbn [andb] in H. rewrite <- (lxor_cancel (u 2%nat i) v), H. apply lxor_cancel.
      * exact Hw.
  - intros n _. apply sliced_blind; [lia|exact S].
Qed.

Lemma flat_len {A B} (f : A -> list B) m l : (forall x, length (f x) = m) -> length (flat_map f l) = (length l * m)%nat.
Proof. intros H. induction l as [|x l IH]; [reflexivity|]. cbn. rewrite app_length, H, IH. reflexivity. Qed.

(** loading: each value is a share of one word *)
Lemma nth_flat {A} (f : A -> list N) m l : (forall x, length (f x) = m) -> forall n, (n < length l * m)%nat ->
  forall x0, exists j r, (r < m)%nat /\ In (nth j l x0) l /\ nth n (flat_map f l) 0 = nth r (f (nth j l x0)) 0 /\ (j, r) = (n / m, n mod m)%nat.
Proof.
  intros H. induction l as [|x l IH]; intros n Hn' x0; [cbn in Hn'; lia|].
  cbn [flat_map length] in *. assert (Hm : (m <> 0)%nat) by (destruct m; lia).
  destruct (Nat.lt_ge_cases n m) as [L|L].
  - exists 0%nat, n. split; [exact L|]. split; [left; reflexivity|]. split.
    + apply app_nth1. rewrite H. exact L.
    + rewrite Nat.div_small, Nat.mod_small by exact L. reflexivity.
  - destruct (IH (n - m)%nat ltac:(lia) x0) as (j & r & Hr & Hin & E & Ejr). exists (S j), r.
    split; [exact Hr|]. split; [right; exact Hin|]. split.
    + rewrite app_nth2, H by (rewrite H; exact L). exact E.
    + injection Ejr as -> ->. f_equal.
      * replace n with (m + (n - m))%nat at 2 by lia.
        replace (m + (n - m))%nat with (n - m + 1 * m)%nat by lia. rewrite Nat.div_add by exact Hm. lia.
      * replace n with (n - m + 1 * m)%nat at 2 by lia. rewrite Nat.mod_add by exact Hm. reflexivity.
Qed.
Lemma Good_load : Good ns (t_load ns).
Proof.
  set (f := fun s k => flat_map (fun d => [xget s k d 0; xget s k d 1]) (seq 0 ns)).
  assert (Lf : forall s k, length (f s k) = (ns * 2)%nat).
  { intros s k. unfold f. rewrite (flat_len _ 2) by reflexivity. rewrite seq_length. reflexivity. }
  exists (6 * (ns * 2))%nat, (fun v => v). apply good_blind; [exact Hn| | |].
  - intros s _. unfold t_load. cbn [fst]. rewrite (flat_len _ (ns * 2)) by (intros; apply Lf). reflexivity.
  - intros v Hv. split; [exact Hv|]. apply bij_id.
  - intros n Hlt.
    assert (P : exists k d i, (k < 6)%nat /\ (d < ns)%nat /\ (i < 2)%nat /\ forall s, probe (t_load ns) n s = xget s k d i).
    { exists (n / (ns * 2))%nat, (n mod (ns * 2) / 2)%nat, (n mod (ns * 2) mod 2)%nat.
      assert (Hk : (n / (ns * 2) < 6)%nat) by (apply Nat.div_lt_upper_bound; lia).
      assert (Hr : (n mod (ns * 2) < ns * 2)%nat) by (apply Nat.mod_upper_bound; lia).
      assert (Hd : (n mod (ns * 2) / 2 < ns)%nat) by (apply Nat.div_lt_upper_bound; lia).
      assert (Hi : (n mod (ns * 2) mod 2 < 2)%nat) by (apply Nat.mod_upper_bound; lia).
      repeat split; [exact Hk|exact Hd|exact Hi|].
      intros s. unfold probe, t_load. cbn [fst]. change (flat_map _ (seq 0 6)) with (flat_map (f s) (seq 0 6)).
      destruct (nth_flat (f s) (ns * 2) (seq 0 6) (Lf s) n ltac:(rewrite seq_length; lia) 0%nat) as (j & r & _ & _ & -> & E).
      apply pair_equal_spec in E; destruct E as [-> ->]. rewrite seq_nth by exact Hk. unfold f.
      destruct (nth_flat (fun d => [xget s (0 + n / (ns * 2)) d 0; xget s (0 + n / (ns * 2)) d 1]) 2 (seq 0 ns) ltac:(reflexivity)
        (n mod (ns * 2))%nat ltac:(rewrite seq_length; lia) 0%nat) as (j & r & _ & _ & -> & E).
      apply pair_equal_spec in E; destruct E as [-> ->]. rewrite seq_nth by exact Hd. cbn [Nat.add].
      revert Hi. generalize (n mod (ns * 2) mod 2)%nat. intros i Hi. hcases Hi; reflexivity. }
    destruct P as (k & d & i & Hk & Hd & Hi & P).
    exists (fun _ _ => match d with O => 1%nat | _ => 0%nat end). split; [destruct d; lia|].
    intros s s' _ _ E. rewrite !P. apply E; try assumption. destruct d; lia.
Qed.
End Steps.
