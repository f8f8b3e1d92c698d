(** * MaskArr.v -- share buffers and the 64-bit values they stand for. *)
From Coq Require Import Arith Bool NArith ZArith List Lia Btauto Init.Byte.
From Coq Require Import ZifyBool ZifyNat ZifyN.
From Verif Require Import Words WordFacts Spec SpecFacts RoundFacts ModelRef StateRep RefRound RefPrim ModelCommon
  ModelWords WordLaws BitExp WordInst WordInstBi ModelMask MaskVal MaskRound MaskPerm CMem Contract CMemFacts.
Import ListNotations.
Local Open Scope N_scope.

(** ** The canonical value of a masked word *)

Definition val (ns : nat) (w : mword) : N := cn32 (J ns w).

Lemma V_val ns s : V ns s = St (val ns (y0 s)) (val ns (y1 s)) (val ns (y2 s)) (val ns (y3 s)) (val ns (y4 s)).
Proof. reflexivity. Qed.
Lemma fits_val ns w : fits 64 (val ns w).
Proof. apply fits_bitperm. Qed.
Lemma wf_V ns s : wf (V ns s).
Proof. rewrite V_val. repeat split; apply fits_val. Qed.

Lemma val_lxor n m k w a b : (forall i, (i < 2)%nat -> D n w i = N.lxor (D m a i) (D k b i)) ->
  val n w = N.lxor (val m a) (val k b).
Proof.
  intros H. unfold val, J. rewrite !H by lia. rewrite <- lxor_ofw by apply fits_D. apply bitperm_lxor.
Qed.
Lemma val_eq n m w a : (forall i, (i < 2)%nat -> D n w i = D m a i) -> val n w = val m a.
Proof. intros H. unfold val, J. rewrite !H by lia. reflexivity. Qed.

Lemma D_MXOR_le n m a b i : okn n -> (1 <= m <= n)%nat -> (i < 2)%nat ->
  D n (MXOR a b m) i = N.lxor (D n a i) (D m b i).
Proof.
  intros H Hm Hi. open_word a. open_word b.
  assert (E : m = 1%nat \/ m = 2%nat \/ m = 3%nat \/ m = 4%nat) by (unfold okn in H; lia).
  destruct E as [->|[->|[->| ->]]]; ncases H; try lia; hcases Hi; cv; rot_norm; bits_btauto.
Qed.
Lemma val_MXOR n m a b : okn n -> (1 <= m <= n)%nat -> val n (MXOR a b m) = N.lxor (val n a) (val m b).
Proof. intros. apply val_lxor. intros. apply D_MXOR_le; assumption. Qed.
Lemma val_MREDUCE n m w : okn n -> (1 <= m <= n)%nat -> okw w -> val m (MREDUCE w n m) = val n w.
Proof. intros. apply val_eq. intros. apply D_MREDUCE; assumption. Qed.
Lemma val_MEXPAND n m w : okn m -> (1 <= n <= m)%nat -> okw w -> val m (MEXPAND w n m) = val n w.
Proof. intros. apply val_eq. intros. apply D_MEXPAND; assumption. Qed.
Lemma val_MREFRESH R g n w : okn n -> okw w -> val n (fst (MREFRESH R g w n)) = val n w.
Proof. intros. apply val_eq. intros. apply D_MREFRESH; assumption. Qed.
Lemma val_zero n w : (forall i, (i < 2)%nat -> D n w i = 0) -> val n w = 0.
Proof. intros H. unfold val, J. rewrite !H by lia. apply bitperm_0. Qed.
Lemma val_MREUSE n w : okn n -> okw w -> val n (MREUSE w 0 n) = 0.
Proof. intros. apply val_zero. intros. apply D_MREUSE; assumption. Qed.
Lemma val_MZERO R g n : okn n -> val n (fst (MZERO R g n)) = 0.
Proof. intros. apply val_zero. intros. apply D_MZERO; assumption. Qed.

(** the shares from [m] on are 0 *)
Definition high0 (m : nat) (w : mword) : Prop := forall d i, (m <= d)%nat -> (d < 4)%nat -> wget w d i = 0.
Lemma D_high0 n m w i : okn n -> (1 <= m <= n)%nat -> high0 m w -> D n w i = D m w i.
Proof.
  intros H Hm Hh.
  assert (E : m = 1%nat \/ m = 2%nat \/ m = 3%nat \/ m = 4%nat) by (unfold okn in H; lia).
  pose proof (Hh 1%nat i) as A1. pose proof (Hh 2%nat i) as A2. pose proof (Hh 3%nat i) as A3.
  destruct E as [->|[->|[->| ->]]]; ncases H; try lia; unfold D;
    rewrite ?A1, ?A2, ?A3, ?rotr32_zero, ?N.lxor_0_r by lia; reflexivity.
Qed.
Lemma val_high0 n m w : okn n -> (1 <= m <= n)%nat -> high0 m w -> val n w = val m w.
Proof. intros. apply val_eq. intros. apply D_high0; assumption. Qed.

(** a constant [c0 + c1] added to share 0 *)
Lemma val_wxor0 n w v0 v1 : okn n -> fits 32 v0 -> fits 32 v1 ->
  val n (wxor (wxor w 0 0 v0) 0 1 v1) = N.lxor (val n w) (cn32 (ofw LE v0 v1)).
Proof.
  intros H H0 H1. unfold val, J.
  destruct (D_wxor0_other n (wxor w 0 0 v0) v1 H) as [_ B]. rewrite B.
  destruct (D_wxor0_other n w v0 H) as [A _].
  rewrite (D_wxor0 n w 0 v0), (D_wxor0 n (wxor w 0 0 v0) 1 v1), A by (auto; lia).
  rewrite <- lxor_ofw by (auto using fits_D). apply bitperm_lxor.
Qed.

(** ** Rotations *)

Lemma ror64_any x n : fits 64 x -> n < 64 -> w64_ROR x n = rotr x n.
Proof. intros Hx Hn. change (w64_ROR x n) with (ror64 x n). apply ror64_rotr; assumption. Qed.
Lemma cn32_rot a b k : fits 32 a -> fits 32 b -> In k [0; 5; 10; 15] ->
  cn32 (ofw LE (rotr32 a k) (rotr32 b k)) = rotr (cn32 (ofw LE a b)) (2 * k).
Proof.
  intros Ha Hb Hk. apply (fits_ext 64); [apply fits_bitperm|apply fits_rotr|]. intros i Hi.
  rewrite testbit_rotr. unfold cn32. rewrite !testbit_bitperm.
  replace (i <? 64) with true by lia. replace ((i + 2 * k) mod 64 <? 64) with true by (symmetry; apply N.ltb_lt, N.mod_lt; lia).
  cbn [andb]. rewrite !testbit_ofw by (auto using fits_rotr32). rewrite !testbit_rotr32.
  assert (C : forallb (fun k => forallb (fun i => let i := N.of_nat i in
      let j := pi32 ((i + 2 * k) mod 64) in
      Bool.eqb (pi32 i <? 32) (j <? 32) &&
      (if j <? 32 then (pi32 i + k) mod 32 =? j else ((pi32 i - 32) + k) mod 32 =? j - 32) &&
      (if j <? 32 then true else pi32 i - 32 <? 32)) (seq 0 64)) [0; 5; 10; 15] = true) by (vm_compute; reflexivity).
  rewrite forallb_forall in C. specialize (C k Hk). rewrite forallb_forall in C.
  specialize (C (N.to_nat i)). rewrite N2Nat.id in C. cbv zeta in C.
  specialize (C ltac:(apply in_seq; lia)). apply andb_true_iff in C as [C C3]. apply andb_true_iff in C as [C1 C2].
  apply Bool.eqb_prop in C1. rewrite <- C1 in *.
  destruct (pi32 i <? 32).
  - apply N.eqb_eq in C2. rewrite C2. reflexivity.
  - apply N.eqb_eq in C2. rewrite C2, C3. reflexivity.
Qed.

(** ** The 64-bit words in a buffer *)

(** share [d] is rotated by [10 d] *)
Fixpoint sumrot (f : nat -> N) (n : nat) : N :=
  match n with O => 0 | S n => N.lxor (sumrot f n) (rotr (f n) (10 * N.of_nat n)) end.
Lemma sumrot_ext f g n : (forall d, (d < n)%nat -> f d = g d) -> sumrot f n = sumrot g n.
Proof. induction n as [|n IH]; intros H; cbn [sumrot]; [reflexivity|]. rewrite IH, H by (intros; try apply H; lia). reflexivity. Qed.
Lemma fits_sumrot f n : fits 64 (sumrot f n).
Proof. induction n; cbn [sumrot]; [apply fits_0|]. apply fits_lxor; [assumption|apply fits_rotr]. Qed.

Lemma val_sumrot ns w : okn ns -> okw w ->
  val ns w = sumrot (fun d => cn32 (ofw LE (wget w d 0) (wget w d 1))) ns.
Proof.
  intros H Hw. unfold val, J.
  assert (E : forall d k, In k [0; 5; 10; 15] ->
    cn32 (ofw LE (rotr32 (wget w d 0) k) (rotr32 (wget w d 1) k)) = rotr (cn32 (ofw LE (wget w d 0) (wget w d 1))) (2 * k))
    by (intros; apply cn32_rot; auto).
  assert (L : forall a b c d, fits 32 a -> fits 32 b -> fits 32 c -> fits 32 d ->
    cn32 (ofw LE (N.lxor a c) (N.lxor b d)) = N.lxor (cn32 (ofw LE a b)) (cn32 (ofw LE c d))).
  { intros. rewrite <- lxor_ofw by assumption. apply bitperm_lxor. }
  assert (I : forall k, In k [0; 5; 10; 15] <-> k = 0 \/ k = 5 \/ k = 10 \/ k = 15) by (intros; cbn; split; intuition lia).
  ncases H; cbn [D sumrot]; rewrite ?L by (auto 6 using fits_lxor, fits_rotr32);
    rewrite ?E by (apply I; lia); cbn [N.of_nat]; rewrite N.lxor_0_l; reflexivity.
Qed.

Definition acell (a : arr) (i v : N) : Prop := nth_error (a_cells a) (N.to_nat i) = Some (Some v) /\ fits 32 v.
(** the word of [ns] shares from acell [o] on *)
Definition aval (a : arr) (ns : nat) (o x : N) : Prop :=
  exists f : nat -> N, x = sumrot f ns /\
  forall d, (d < ns)%nat -> fits 64 (f d) /\ acell a (o + N.of_nat d) (trunc 32 (f d)) /\
    acell a (o + N.of_nat d + N.of_nat ns) (shrw (f d) 32).

Lemma join_halves x : fits 64 x -> N.lor (shlw 64 (shrw x 32) 32) (trunc 32 x) = x.
Proof.
  intros Hx. apply N.bits_inj; intro i. rewrite N.lor_spec, testbit_shlw, testbit_trunc, testbit_shrw.
  destruct (N.ltb_spec i 32) as [H|H].
  - replace (32 <=? i) with false by lia. rewrite ?andb_false_r. reflexivity.
  - replace (32 <=? i) with true by lia. replace (i - 32 + 32) with i by lia.
    destruct (N.ltb_spec i 64) as [H'|H']; cbn [andb orb]; [apply orb_false_r|].
    rewrite (fits_bit_high 64 x i Hx H'). reflexivity.
Qed.
Lemma ofw_halves x : fits 64 x -> ofw LE (trunc 32 x) (shrw x 32) = x.
Proof. intros H. unfold ofw. rewrite N.lor_comm. apply join_halves, H. Qed.
Lemma fits_shrw32 x : fits 64 x -> fits 32 (shrw x 32).
Proof.
  intros Hx. apply fits_testbit. intros i Hi. rewrite testbit_shrw. apply (fits_bit_high 64 x); [exact Hx|lia].
Qed.

Lemma runs_aget M a i v : acell a i v -> runs (aget a i) M M v.
Proof. intros [H _]. unfold aget, runs. rewrite H. eexists. reflexivity. Qed.

Lemma cn32_inv x : fits 64 x -> cn32 (bitperm inv32 x) = x.
Proof.
  intros Hx. apply (fits_ext 64); [apply fits_bitperm|exact Hx|]. intros i Hi. unfold cn32.
  rewrite !testbit_bitperm. pose proof (pi32_lt i Hi) as Hp. apply N.ltb_lt in Hp. rewrite Hp.
  replace (i <? 64) with true by lia. cbn [andb].
  replace (inv32 (pi32 i)) with i; [reflexivity|]. symmetry. revert i Hi Hp.
  intros i Hi _. revert i Hi. apply (below_check (fun i => inv32 (pi32 i))). vm_compute. reflexivity.
Qed.

Lemma runs_LOADSHARE M a o ns x : fits 64 x -> acell a o (trunc 32 x) -> acell a (o + N.of_nat ns) (shrw x 32) ->
  exists s, runs (LOADSHARE a o ns) M M s /\ fits 32 (h0 s) /\ fits 32 (h1 s) /\ cn32 (ofw LE (h0 s) (h1 s)) = x.
Proof.
  intros Hx C0 C1. eexists. split; [|].
  - unfold LOADSHARE. eapply runs_bind; [apply runs_aget, C0|]. eapply runs_bind; [apply runs_aget, C1|].
    cbv zeta. rewrite join_halves by exact Hx. rewrite deinterleave32_spec by exact Hx. apply runs_ret.
  - cbn [h0 h1]. split; [apply fits_trunc|]. split; [apply fits_shrw32, fits_bitperm|].
    rewrite ofw_halves by apply fits_bitperm. apply cn32_inv, Hx.
Qed.

Ltac step := eapply runs_bind.

Lemma runs_MLOAD M a o ns x : okn ns -> aval a ns o x ->
  exists w, runs (MLOAD a o ns) M M w /\ okw w /\ high0 ns w /\ val ns w = x.
Proof.
  intros H (f & -> & Hf).
  assert (G : exists g : nat -> share, forall d, (d < ns)%nat ->
    runs (LOADSHARE a (o + N.of_nat d) ns) M M (g d) /\ fits 32 (h0 (g d)) /\ fits 32 (h1 (g d)) /\
    cn32 (ofw LE (h0 (g d)) (h1 (g d))) = f d).
  { clear H. assert (G : forall n, (n <= ns)%nat -> exists g : nat -> share, forall d, (d < n)%nat ->
      runs (LOADSHARE a (o + N.of_nat d) ns) M M (g d) /\ fits 32 (h0 (g d)) /\ fits 32 (h1 (g d)) /\
      cn32 (ofw LE (h0 (g d)) (h1 (g d))) = f d); [|apply G; lia].
    induction n as [|n IH]; intros Hn; [exists (fun _ => Sh 0 0); lia|].
    destruct (IH ltac:(lia)) as (g & Hg). destruct (Hf n ltac:(lia)) as (F & C0 & C1).
    destruct (runs_LOADSHARE M a (o + N.of_nat n) ns (f n) F C0 C1) as (s & Hs).
    exists (fun d => if Nat.eqb d n then s else g d). intros d Hd.
    destruct (Nat.eqb_spec d n) as [->|Hne]; [exact Hs|apply Hg; lia]. }
  destruct G as (g & G).
  assert (Z : fits 32 0) by apply fits_0.
  pose (w := MW (g 0%nat) (if (2 <=? ns)%nat then g 1%nat else Sh 0 0)
    (if (3 <=? ns)%nat then g 2%nat else Sh 0 0) (if (4 <=? ns)%nat then g 3%nat else Sh 0 0)).
  assert (Hw : okw w).
  { intros d i. unfold wget, w. unfold okn in H. destruct d as [|[|[|d]]]; cbn [sget m0 m1 m2 m3].
    - destruct (G 0%nat ltac:(lia)) as (_ & A & B & _). destruct i; assumption.
    - destruct (Nat.leb_spec 2 ns); [destruct (G 1%nat ltac:(lia)) as (_ & A & B & _)|]; destruct i; assumption.
    - destruct (Nat.leb_spec 3 ns); [destruct (G 2%nat ltac:(lia)) as (_ & A & B & _)|]; destruct i; assumption.
    - destruct (Nat.leb_spec 4 ns); [destruct (G 3%nat ltac:(lia)) as (_ & A & B & _)|]; destruct i; assumption. }
  exists w. split; [|split; [exact Hw|split]].
  - unfold MLOAD. unfold w. clear w Hw.
    assert (E : forall d, (d < ns)%nat -> forall u k, runs (s <- LOADSHARE a (o + N.of_nat d) ns ;; ret (sset u k s)) M M (sset u k (g d))).
    { intros d Hd u k. step; [apply G, Hd|apply runs_ret]. }
    ncases H; unfold whenC; cbn [Nat.leb].
    + step; [apply (E 0%nat); lia|]. step; [apply runs_ret|]. step; [apply runs_ret|]. apply runs_ret.
    + step; [apply (E 0%nat); lia|]. step; [apply (E 1%nat); lia|]. step; [apply runs_ret|]. apply runs_ret.
    + step; [apply (E 0%nat); lia|]. step; [apply (E 1%nat); lia|]. step; [apply (E 2%nat); lia|]. apply runs_ret.
    + step; [apply (E 0%nat); lia|]. step; [apply (E 1%nat); lia|]. step; [apply (E 2%nat); lia|]. apply (E 3%nat); lia.
  - intros d i Hd Hd4. unfold wget, w. unfold okn in H.
    destruct d as [|[|[|[|d]]]]; try lia; cbn [sget m0 m1 m2 m3];
      match goal with |- context [Nat.leb ?a ?b] => replace (Nat.leb a b) with false by lia end; destruct i; reflexivity.
  - rewrite val_sumrot by assumption. apply sumrot_ext. intros d Hd. destruct (G d Hd) as (_ & _ & _ & <-).
    unfold wget, w, okn in *. destruct d as [|[|[|[|d]]]]; try lia; cbn [sget m0 m1 m2 m3 hget];
      try match goal with |- context [Nat.leb ?a ?b] => replace (Nat.leb a b) with true by lia end; reflexivity.
Qed.

(** ** Stores *)

Lemma length_lset {A} (l : list A) : forall i v, length (lset l i v) = length l.
Proof. induction l as [|x l IH]; intros [|i] v; cbn [lset length]; auto. Qed.
Lemma nth_lset_same {A} (l : list A) : forall i v, (i < length l)%nat -> nth_error (lset l i v) i = Some v.
Proof. induction l as [|x l IH]; intros [|i] v H; cbn [lset length nth_error] in *; try lia; auto. apply IH. lia. Qed.
Lemma nth_lset_other {A} (l : list A) : forall i j v, j <> i -> nth_error (lset l i v) j = nth_error l j.
Proof.
  induction l as [|x l IH]; intros [|i] [|j] v H; cbn [lset nth_error]; try reflexivity; try lia.
  apply IH. lia.
Qed.

(** [b] differs from [a] only in cells satisfying [P] *)
Definition differs (P : N -> Prop) (a b : arr) : Prop :=
  a_base b = a_base a /\ alen b = alen a /\
  forall i, ~ P i -> nth_error (a_cells b) (N.to_nat i) = nth_error (a_cells a) (N.to_nat i).
Lemma differs_refl (P : N -> Prop) a : differs P a a.
Proof. repeat split; reflexivity. Qed.
Lemma differs_trans P Q a b c : differs P a b -> differs Q b c -> differs (fun i => P i \/ Q i) a c.
Proof.
  intros (A1 & A2 & A3) (B1 & B2 & B3). split; [congruence|]. split; [congruence|].
  intros i Hi. rewrite B3, A3; auto.
Qed.
Lemma differs_sub (P Q : N -> Prop) a b : (forall i, P i -> Q i) -> differs P a b -> differs Q a b.
Proof. intros H (A1 & A2 & A3). split; [exact A1|split; [exact A2|]]. intros i Hi. apply A3. intros C. apply Hi, H, C. Qed.
Lemma acell_differs P a b i v : differs P a b -> ~ P i -> acell a i v -> acell b i v.
Proof. intros (_ & _ & H) Hi [C F]. split; [|exact F]. rewrite H by exact Hi. exact C. Qed.
Lemma aval_differs P a b ns o x : differs P a b -> (forall i, o <= i -> i < o + 2 * N.of_nat ns -> ~ P i) ->
  aval a ns o x -> aval b ns o x.
Proof.
  intros H HP (f & -> & Hf). exists f. split; [reflexivity|]. intros d Hd. destruct (Hf d Hd) as (F & C0 & C1).
  split; [exact F|]. split; eapply acell_differs; eauto; apply HP; lia.
Qed.

Lemma runs_aset M a i v : i < alen a -> fits 32 v ->
  exists b, runs (aset a i v) M M b /\ differs (fun j => j = i) a b /\ acell b i v.
Proof.
  intros Hi Hv. exists (Arr (a_base a) (lset (a_cells a) (N.to_nat i) (Some v))). split; [|split].
  - unfold aset, runs. replace (i <? alen a) with true by lia. eexists. reflexivity.
  - split; [reflexivity|]. split; [unfold alen; cbn [a_cells]; rewrite length_lset; reflexivity|].
    intros j Hj. cbn [a_cells]. apply nth_lset_other. lia.
  - split; [|exact Hv]. cbn [a_cells]. apply nth_lset_same. unfold alen in Hi. lia.
Qed.

Lemma runs_STORESHARE M a o s ns : fits 32 (h0 s) -> fits 32 (h1 s) -> (0 < ns)%nat -> o + N.of_nat ns < alen a ->
  let x := cn32 (ofw LE (h0 s) (h1 s)) in
  exists b, runs (STORESHARE a o s ns) M M b /\ differs (fun j => j = o \/ j = o + N.of_nat ns) a b /\
    acell b o (trunc 32 x) /\ acell b (o + N.of_nat ns) (shrw x 32).
Proof.
  intros F0 F1 Hns Ho x.
  destruct (runs_aset M a o (trunc 32 x)) as (a1 & R1 & D1 & C1); [lia|apply fits_trunc|].
  destruct (runs_aset M a1 (o + N.of_nat ns) (shrw x 32)) as (a2 & R2 & D2 & C2);
    [destruct D1 as (_ & -> & _); lia|apply fits_shrw32, fits_bitperm|].
  exists a2. split; [|split; [|split]].
  - unfold STORESHARE. cbv zeta.
    assert (E : N.lor (shlw 64 (h1 s) 32) (h0 s) = ofw LE (h0 s) (h1 s)) by (unfold ofw; apply N.lor_comm).
    rewrite E, interleave32_spec by (apply fits_ofw; assumption). fold cn32. fold x.
    step; [exact R1|exact R2].
  - eapply differs_trans; eassumption.
  - eapply acell_differs; [exact D2| |exact C1]. cbv beta. lia.
  - exact C2.
Qed.

Lemma runs_MSTORE M a o w ns : okn ns -> okw w -> o + 2 * N.of_nat ns <= alen a ->
  exists b, runs (MSTORE a o w ns) M M b /\
    differs (fun j => o <= j /\ j < o + 2 * N.of_nat ns) a b /\ aval b ns o (val ns w).
Proof.
  intros H Hw Ho.
  set (x d := cn32 (ofw LE (wget w d 0) (wget w d 1))).
  (* after [n] stores *)
  pose (Q := fun (n : nat) (b : arr) => differs (fun j => o <= j /\ j < o + 2 * N.of_nat ns) a b /\
    forall d, (d < n)%nat -> acell b (o + N.of_nat d) (trunc 32 (x d)) /\ acell b (o + N.of_nat d + N.of_nat ns) (shrw (x d) 32)).
  assert (St : forall n b, (n < ns)%nat -> Q n b ->
    exists c, runs (STORESHARE b (o + N.of_nat n) (sget w n) ns) M M c /\ Q (S n) c).
  { intros n b Hn [HD HC].
    destruct (runs_STORESHARE M b (o + N.of_nat n) (sget w n) ns) as (c & R & Dc & C0 & C1);
      [apply (Hw n 0%nat)|apply (Hw n 1%nat)|lia|destruct HD as (_ & -> & _); lia|].
    exists c. split; [exact R|]. split.
    - eapply differs_sub; [|eapply differs_trans; [exact HD|exact Dc]]. intros j [?|[?|?]]; lia.
    - intros d Hd. destruct (Nat.eq_dec d n) as [->|Hne]; [split; [exact C0|exact C1]|].
      destruct (HC d ltac:(lia)) as [E0 E1]. split; eapply acell_differs; eauto; cbv beta; lia. }
  assert (Q0 : Q 0%nat a) by (split; [apply differs_refl|lia]).
  assert (Fin : forall b, Q ns b -> differs (fun j => o <= j /\ j < o + 2 * N.of_nat ns) a b /\ aval b ns o (val ns w)).
  { intros b [HD HC]. split; [exact HD|]. exists x. split; [apply val_sumrot; assumption|].
    intros d Hd. split; [apply fits_bitperm|apply HC, Hd]. }
  unfold MSTORE. ncases H; unfold whenC; cbn [Nat.leb].
  - destruct (St 0%nat a ltac:(lia) Q0) as (b1 & R1 & Q1).
    exists b1. split; [|apply Fin, Q1].
    step; [exact R1|]. step; [apply runs_ret|]. step; [apply runs_ret|]. apply runs_ret.
  - destruct (St 0%nat a ltac:(lia) Q0) as (b1 & R1 & Q1). destruct (St 1%nat b1 ltac:(lia) Q1) as (b2 & R2 & Q2).
    exists b2. split; [|apply Fin, Q2].
    step; [exact R1|]. step; [exact R2|]. step; [apply runs_ret|]. apply runs_ret.
  - destruct (St 0%nat a ltac:(lia) Q0) as (b1 & R1 & Q1). destruct (St 1%nat b1 ltac:(lia) Q1) as (b2 & R2 & Q2).
    destruct (St 2%nat b2 ltac:(lia) Q2) as (b3 & R3 & Q3).
    exists b3. split; [|apply Fin, Q3].
    step; [exact R1|]. step; [exact R2|]. step; [exact R3|]. apply runs_ret.
  - destruct (St 0%nat a ltac:(lia) Q0) as (b1 & R1 & Q1). destruct (St 1%nat b1 ltac:(lia) Q1) as (b2 & R2 & Q2).
    destruct (St 2%nat b2 ltac:(lia) Q2) as (b3 & R3 & Q3). destruct (St 3%nat b3 ltac:(lia) Q3) as (b4 & R4 & Q4).
    exists b4. split; [|apply Fin, Q4].
    step; [exact R1|]. step; [exact R2|]. step; [exact R3|]. exact R4.
Qed.

Lemma runs_aoff M a o n : o + n <= alen a -> runs (aoff a o n) M M (o + n).
Proof. intros H. unfold aoff. replace (o + n <=? alen a) with true by lia. apply runs_ret. Qed.
