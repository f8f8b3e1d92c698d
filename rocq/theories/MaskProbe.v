(** * MaskProbe.v -- no single value computed by the masked permutation
    depends on the values that are shared. *)
From Coq Require Import Arith Bool NArith ZArith List Lia Init.Byte.
From Coq Require Import ZifyBool ZifyNat ZifyN.
From Verif Require Import Words WordFacts Spec SpecFacts RoundFacts CMem ModelRef ModelCommon ModelWords ModelMask
  ModelMaskCode MaskVal MaskRound.
Import ListNotations.
Local Open Scope N_scope.

(** ** Reading and writing halves of shares *)

Ltac cases4 d := let E := fresh in match goal with H : (d < 4)%nat |- _ =>
  assert (E : d = 0%nat \/ d = 1%nat \/ d = 2%nat \/ d = 3%nat) by lia; destruct E as [->|[->|[->| ->]]] end.
Ltac cases6 k := let E := fresh in match goal with H : (k < 6)%nat |- _ =>
  assert (E : k = 0%nat \/ k = 1%nat \/ k = 2%nat \/ k = 3%nat \/ k = 4%nat \/ k = 5%nat) by lia;
  destruct E as [->|[->|[->|[->|[->| ->]]]]] end.

Lemma wget_wset_eq w d i v d' i' : (d < 4)%nat -> (i < 2)%nat -> (d' < 4)%nat -> (i' < 2)%nat ->
  wget (wset w d i v) d' i' = if ((d =? d') && (i =? i'))%nat then v else wget w d' i'.
Proof.
  intros Hd Hi Hd' Hi'. destruct w. cases4 d; cases4 d'; hcases Hi; hcases Hi'; reflexivity.
Qed.
Lemma wget_wxor w d i v d' i' : (d < 4)%nat -> (i < 2)%nat -> (d' < 4)%nat -> (i' < 2)%nat ->
  wget (wxor w d i v) d' i' = if ((d =? d') && (i =? i'))%nat then N.lxor (wget w d i) v else wget w d' i'.
Proof. intros. unfold wxor. rewrite wget_wset_eq by assumption. reflexivity. Qed.
Lemma w_ext w w' : (forall d i, (d < 4)%nat -> (i < 2)%nat -> wget w d i = wget w' d i) -> w = w'.
Proof.
  intros H. open_word w. open_word w'. f_equal; f_equal;
  first [exact (H 0 0 ltac:(lia) ltac:(lia))%nat | exact (H 0 1 ltac:(lia) ltac:(lia))%nat
    | exact (H 1 0 ltac:(lia) ltac:(lia))%nat | exact (H 1 1 ltac:(lia) ltac:(lia))%nat
    | exact (H 2 0 ltac:(lia) ltac:(lia))%nat | exact (H 2 1 ltac:(lia) ltac:(lia))%nat
    | exact (H 3 0 ltac:(lia) ltac:(lia))%nat | exact (H 3 1 ltac:(lia) ltac:(lia))%nat].
Qed.
Lemma s_ext s s' : (forall k, (k < 6)%nat -> getw s k = getw s' k) -> s = s'.
Proof.
  intros H. destruct s, s'. f_equal;
  [exact (H 0 ltac:(lia))%nat | exact (H 1 ltac:(lia))%nat | exact (H 2 ltac:(lia))%nat
  | exact (H 3 ltac:(lia))%nat | exact (H 4 ltac:(lia))%nat | exact (H 5 ltac:(lia))%nat].
Qed.
Lemma x_ext s s' : (forall k d i, (k < 6)%nat -> (d < 4)%nat -> (i < 2)%nat -> xget s k d i = xget s' k d i) -> s = s'.
Proof. intros H. apply s_ext. intros k Hk. apply w_ext. intros. apply H; assumption. Qed.
Lemma getw_setw s k v k' : (k < 6)%nat -> (k' < 6)%nat -> getw (setw s k v) k' = if (k =? k')%nat then v else getw s k'.
Proof. intros Hk Hk'. destruct s. cases6 k; cases6 k'; reflexivity. Qed.
Lemma xget_xset s k d i v k' d' i' : (k < 6)%nat -> (d < 4)%nat -> (i < 2)%nat ->
  (k' < 6)%nat -> (d' < 4)%nat -> (i' < 2)%nat ->
  xget (xset s k d i v) k' d' i' = if ((k =? k') && (d =? d') && (i =? i'))%nat then v else xget s k' d' i'.
Proof.
  intros. unfold xget, xset. rewrite getw_setw by assumption. destruct (Nat.eqb_spec k k') as [->|]; [|reflexivity].
  rewrite wget_wset_eq by assumption. reflexivity.
Qed.
Lemma xget_xxor s k d i v k' d' i' : (k < 6)%nat -> (d < 4)%nat -> (i < 2)%nat ->
  (k' < 6)%nat -> (d' < 4)%nat -> (i' < 2)%nat ->
  xget (xxor s k d i v) k' d' i' =
  if ((k =? k') && (d =? d') && (i =? i'))%nat then N.lxor (xget s k' d' i') v else xget s k' d' i'.
Proof.
  intros. change (xxor s k d i v) with (xset s k d i (N.lxor (xget s k d i) v)). rewrite xget_xset by assumption.
  destruct (Nat.eqb_spec k k') as [->|]; [|reflexivity]. destruct (Nat.eqb_spec d d') as [->|]; [|reflexivity].
  destruct (Nat.eqb_spec i i') as [->|]; reflexivity.
Qed.
Lemma lxor_cancel a b : N.lxor (N.lxor a b) b = a.
Proof. rewrite N.lxor_assoc, N.lxor_nilpotent, N.lxor_0_r. reflexivity. Qed.
Lemma notw_notw x : fits 32 x -> notw 32 (notw 32 x) = x.
Proof.
  intros Hx. apply (fits_ext 32); auto using fits_notw. intros i Hi. rewrite !testbit_notw.
  apply N.ltb_lt in Hi. rewrite Hi. cbn [andb]. apply negb_involutive.
Qed.

(** ** Sharings *)

Definition vals := nat -> nat -> N.
Definition vok (v : vals) : Prop := forall k i, fits 32 (v k i).
Definition veq (v v' : vals) : Prop := forall k i, (k < 6)%nat -> (i < 2)%nat -> v k i = v' k i.
Definition vof (ns : nat) (s : mstate) : vals := fun k i => D ns (getw s k) i.
Definition vset (v : vals) (k i : nat) (x : N) : vals :=
  fun k' i' => if ((k =? k') && (i =? i'))%nat then x else v k' i'.
(** the unused shares are 0 *)
Definition All (ns : nat) (s : mstate) : Prop :=
  okm s /\ forall k d i, (k < 6)%nat -> (ns <= d < 4)%nat -> (i < 2)%nat -> xget s k d i = 0.
Definition Sh (ns : nat) (v : vals) (s : mstate) : Prop := All ns s /\ veq (vof ns s) v.

Definition bij (A B : mstate -> Prop) (F : mstate -> mstate) : Prop :=
  exists g, (forall s, A s -> B (F s) /\ g (F s) = s) /\ (forall s, B s -> A (g s) /\ F (g s) = s).
Definition coup (A B : mstate -> Prop) (q : mstate -> N) : Prop :=
  exists f g, (forall s, A s -> B (f s) /\ g (f s) = s /\ q (f s) = q s) /\ (forall s, B s -> A (g s) /\ f (g s) = s).

Lemma bij_id A : bij A A (fun s => s).
Proof. exists (fun s => s). auto. Qed.
Lemma bij_comp A B E F G : bij A B F -> bij B E G -> bij A E (fun s => G (F s)).
Proof.
  intros (f & F1 & F2) (g & G1 & G2). exists (fun s => f (g s)). split.
  - intros s Hs. destruct (F1 s Hs) as [Hb E1]. destruct (G1 _ Hb) as [He E2]. split; [exact He|]. rewrite E2. exact E1.
  - intros s Hs. destruct (G2 s Hs) as [Hb E1]. destruct (F2 _ Hb) as [Ha E2]. split; [exact Ha|]. rewrite E2. exact E1.
Qed.
Lemma coup_pre A B A1 B1 F q : bij A A1 F -> bij B B1 F -> coup A1 B1 q -> coup A B (fun s => q (F s)).
Proof.
  intros (a & A2 & A3) (b & B2 & B3) (f & g & F1 & F2).
  exists (fun s => b (f (F s))), (fun s => a (g (F s))). split.
  - intros s Hs. destruct (A2 s Hs) as [H1 E1]. destruct (F1 _ H1) as (H2 & E2 & E3). destruct (B3 _ H2) as [H3 E4].
    split; [exact H3|]. rewrite E4, E2, E3. auto.
  - intros s Hs. destruct (B2 s Hs) as [H1 E1]. destruct (F2 _ H1) as (H2 & E2). destruct (A3 _ H2) as [H3 E3].
    split; [exact H3|]. rewrite E3, E2. exact E1.
Qed.
Lemma bij_ext (A B : mstate -> Prop) (F F' : mstate -> mstate) : (forall s, A s -> F s = F' s) -> bij A B F -> bij A B F'.
Proof.
  intros E (g & H1 & H2). exists g. split.
  - intros s Hs. rewrite <- E by exact Hs. apply H1, Hs.
  - intros s Hs. destruct (H2 s Hs) as [Ha E2]. split; [exact Ha|]. rewrite <- E by exact Ha. exact E2.
Qed.
Lemma coup_ext (A B : mstate -> Prop) (q q' : mstate -> N) : (forall s, A s -> q s = q' s) -> (forall s, B s -> q s = q' s) -> coup A B q -> coup A B q'.
Proof.
  intros EA EB (f & g & H1 & H2). exists f, g. split; [|exact H2].
  intros s Hs. destruct (H1 s Hs) as (Hb & E1 & E2). rewrite <- (EA _ Hs), <- (EB _ Hb). auto.
Qed.

(** A map of the sharings that acts on the values. *)
Lemma bij_of ns F g Fv v :
  (forall s, All ns s -> All ns (F s) /\ g (F s) = s) -> (forall s, All ns s -> All ns (g s) /\ F (g s) = s) ->
  (forall s v, All ns s -> veq (vof ns s) v -> veq (vof ns (F s)) (Fv v)) ->
  (forall v v', vok v -> vok v' -> veq (Fv v) (Fv v') -> veq v v') -> vok v ->
  bij (Sh ns v) (Sh ns (Fv v)) F.
Proof.
  intros H1 H2 H3 H4 Hv. exists g. split.
  - intros s [Ha Hs]. destruct (H1 s Ha) as [A E]. split; [|exact E]. split; [exact A|]. apply H3; assumption.
  - intros s [Ha Hs]. destruct (H2 s Ha) as [A E]. split; [|exact E]. split; [exact A|].
    apply H4; [intros k i; apply fits_D|exact Hv|].
    intros k i Hk Hi. rewrite <- (H3 (g s) _ A (fun _ _ _ _ => eq_refl) k i Hk Hi), E. apply Hs; assumption.
Qed.

(** ** Translations *)

Lemma D_wxor ns w d i x : okn ns -> (d < ns)%nat -> (i < 2)%nat ->
  D ns (wxor w d i x) i = N.lxor (D ns w i) (rotr32 x (5 * N.of_nat d)).
Proof.
  intros H Hd Hi. open_word w. assert (Hd4 : (d < 4)%nat) by (unfold okn in H; lia).
  ncases H; cases4 d; try lia; hcases Hi; cv;
  match goal with |- context [rotr32 x (5 * N.of_nat ?d)] => let r := eval vm_compute in (5 * N.of_nat d) in
    change (5 * N.of_nat d) with r end; rot_norm; bits_btauto.
Qed.
Lemma D_wxor_other ns w d i x j : okn ns -> (d < ns)%nat -> (i < 2)%nat -> (j < 2)%nat -> i <> j ->
  D ns (wxor w d i x) j = D ns w j.
Proof.
  intros H Hd Hi Hj Hne. open_word w. assert (Hd4 : (d < 4)%nat) by (unfold okn in H; lia).
  ncases H; cases4 d; try lia; hcases Hi; hcases Hj; try lia; reflexivity.
Qed.
Lemma vof_xxor ns s k d i x k' i' : okn ns -> (k < 6)%nat -> (d < ns)%nat -> (i < 2)%nat -> (k' < 6)%nat -> (i' < 2)%nat ->
  vof ns (xxor s k d i x) k' i' =
  if ((k =? k') && (i =? i'))%nat then N.lxor (vof ns s k' i') (rotr32 x (5 * N.of_nat d)) else vof ns s k' i'.
Proof.
  intros H Hk Hd Hi Hk' Hi'. unfold vof, xxor. rewrite getw_setw by assumption.
  destruct (Nat.eqb_spec k k') as [->|]; [|reflexivity]. cbn [andb].
  destruct (Nat.eqb_spec i i') as [->|]; [apply D_wxor; assumption|apply D_wxor_other; assumption].
Qed.
Lemma All_xxor ns s k d i x : (k < 6)%nat -> (d < ns)%nat -> (d < 4)%nat -> (i < 2)%nat -> fits 32 x -> All ns s -> All ns (xxor s k d i x).
Proof.
  intros Hk Hd Hd4 Hi Hx [H1 H2]. split; [apply okm_xxor; assumption|]. intros k' d' i' Hk' Hd' Hi'.
  rewrite xget_xxor by lia. destruct (Nat.eqb_spec d d') as [->|]; [lia|]. rewrite andb_false_r. apply H2; assumption.
Qed.

(** add [dl k i] to share [ch k i] of half [i] of word [k], for the pairs of
    a list *)
Definition pairs6 : list (nat * nat) := list_prod (seq 0 6) (seq 0 2).
Definition xlate (ch : nat -> nat -> nat) (dl : vals) (s : mstate) : mstate :=
  fold_left (fun s '(k, i) => xxor s k (ch k i) i (dl k i)) pairs6 s.

Lemma pairs6_in k i : (k < 6)%nat -> (i < 2)%nat -> In (k, i) pairs6.
Proof. intros. apply in_prod; apply in_seq; lia. Qed.
Lemma in_pairs6 k i : In (k, i) pairs6 -> (k < 6)%nat /\ (i < 2)%nat.
Proof. intros H. apply in_prod_iff in H. destruct H as [H1 H2]. apply in_seq in H1, H2. lia. Qed.
Lemma NoDup_pairs6 : NoDup pairs6.
Proof. vm_compute. repeat (constructor; [cbn; intuition congruence|]). constructor. Qed.

Section Xlate.
Variables (ns : nat) (ch : nat -> nat -> nat) (dl : vals).
Hypothesis Hns : okn ns.
Hypothesis Hch : forall k i, (ch k i < ns)%nat.
Hypothesis Hdl : vok dl.

Lemma ch4 k i : (ch k i < 4)%nat.
Proof. pose proof (Hch k i). unfold okn in Hns. lia. Qed.
Lemma xlate_list l : NoDup l -> (forall k i, In (k, i) l -> (k < 6)%nat /\ (i < 2)%nat) -> forall s, All ns s ->
  let s' := fold_left (fun s '(k, i) => xxor s k (ch k i) i (dl k i)) l s in
  All ns s' /\
  forall k i, (k < 6)%nat -> (i < 2)%nat ->
  (forall d, (d < 4)%nat -> xget s' k d i = if (existsb (fun '(k', i') => (k =? k') && (i =? i')) l && (d =? ch k i))%nat
     then N.lxor (xget s k d i) (dl k i) else xget s k d i) /\
  vof ns s' k i = if existsb (fun '(k', i') => (k =? k') && (i =? i'))%nat l
     then N.lxor (vof ns s k i) (rotr32 (dl k i) (5 * N.of_nat (ch k i))) else vof ns s k i.
Proof.
  intros Hnd. induction Hnd as [|[k0 i0] l Hni Hnd IH]; intros Hl s Ha; cbv zeta.
  - cbn. split; [exact Ha|]. intros k i Hk Hi. split; [intros d Hd|]; reflexivity.
  - destruct (Hl k0 i0 (or_introl eq_refl)) as [Hk0 Hi0]. pose proof (ch4 k0 i0) as Hc4.
    assert (Ha1 : All ns (xxor s k0 (ch k0 i0) i0 (dl k0 i0))) by (apply All_xxor; auto).
    destruct (IH (fun k i H => Hl k i (or_intror H)) _ Ha1) as [A B]. split; [exact A|].
    intros k i Hk Hi. cbn [fold_left existsb]. destruct (B k i Hk Hi) as [B1 B2]. clear A B.
    assert (Hfalse : (k =? k0)%nat && (i =? i0)%nat = true -> existsb (fun '(k', i') => (k =? k') && (i =? i'))%nat l = false).
    { intros E. apply not_true_iff_false. intros X. apply existsb_exists in X. destruct X as ([k' i'] & Hin & X).
      apply andb_prop in E, X. rewrite !Nat.eqb_eq in E, X. destruct E, X; subst. exact (Hni Hin). }
    split.
    + intros d Hd. rewrite B1, xget_xxor by assumption. pose proof (ch4 k i).
      destruct (Nat.eqb_spec k0 k) as [->|E1]; [destruct (Nat.eqb_spec i0 i) as [->|E2]|].
      * rewrite Nat.eqb_refl, Nat.eqb_refl in *. rewrite (Hfalse eq_refl). cbn [andb orb].
        rewrite Nat.eqb_sym. destruct (ch k i =? d)%nat eqn:E; cbn [andb]; rewrite Nat.eqb_sym, E; reflexivity.
      * replace ((k =? k) && (i =? i0))%nat with false by lia. rewrite andb_false_r. cbn [orb]. reflexivity.
      * replace ((k =? k0) && (i =? i0))%nat with false by lia. cbn [andb orb]. reflexivity.
    + rewrite B2, vof_xxor by (auto; apply Hch).
      destruct (Nat.eqb_spec k0 k) as [->|E1]; [destruct (Nat.eqb_spec i0 i) as [->|E2]|].
      * rewrite !Nat.eqb_refl in *. rewrite (Hfalse eq_refl). reflexivity.
      * replace ((k =? k) && (i =? i0))%nat with false by lia. reflexivity.
      * replace ((k =? k0) && (i =? i0))%nat with false by lia. reflexivity.
Qed.
Lemma in_all k i : (k < 6)%nat -> (i < 2)%nat -> existsb (fun '(k', i') => (k =? k') && (i =? i'))%nat pairs6 = true.
Proof. intros. apply existsb_exists. exists (k, i). split; [apply pairs6_in; assumption|]. rewrite !Nat.eqb_refl. reflexivity. Qed.
Lemma All_xlate s : All ns s -> All ns (xlate ch dl s).
Proof. intros H. apply (xlate_list pairs6 NoDup_pairs6 in_pairs6 s H). Qed.
Lemma xget_xlate s k d i : All ns s -> (k < 6)%nat -> (d < 4)%nat -> (i < 2)%nat ->
  xget (xlate ch dl s) k d i = if (d =? ch k i)%nat then N.lxor (xget s k d i) (dl k i) else xget s k d i.
Proof.
  intros H Hk Hd Hi. destruct (xlate_list pairs6 NoDup_pairs6 in_pairs6 s H) as [_ B].
  destruct (B k i Hk Hi) as [B1 _]. specialize (B1 d Hd). rewrite in_all in B1 by assumption. exact B1.
Qed.
Lemma vof_xlate s k i : All ns s -> (k < 6)%nat -> (i < 2)%nat ->
  vof ns (xlate ch dl s) k i = N.lxor (vof ns s k i) (rotr32 (dl k i) (5 * N.of_nat (ch k i))).
Proof.
  intros H Hk Hi. destruct (xlate_list pairs6 NoDup_pairs6 in_pairs6 s H) as [_ B].
  destruct (B k i Hk Hi) as [_ B1]. rewrite in_all in B1 by assumption. exact B1.
Qed.
Lemma xlate_xlate s : All ns s -> xlate ch dl (xlate ch dl s) = s.
Proof.
  intros H. apply x_ext. intros k d i Hk Hd Hi. rewrite !xget_xlate by auto using All_xlate.
  destruct (d =? ch k i)%nat; [apply lxor_cancel|reflexivity].
Qed.
End Xlate.

Definition back (d : nat) (x : N) : N := rotr32 x (32 - 5 * N.of_nat d).
Lemma rotr32_back d x : (d < 4)%nat -> fits 32 x -> rotr32 (back d x) (5 * N.of_nat d) = x.
Proof.
  intros Hd Hx. unfold back. rewrite rotr32_rotr32.
  replace (32 - 5 * N.of_nat d + 5 * N.of_nat d) with 32 by lia. apply rotr32_0, Hx.
Qed.
Definition diff (ch : nat -> nat -> nat) (v v' : vals) : vals := fun k i => back (ch k i) (N.lxor (v k i) (v' k i)).
Lemma vok_diff ch v v' : vok (diff ch v v').
Proof. intros k i. apply fits_rotr32. Qed.
Lemma diff_sym ch v v' : diff ch v v' = diff ch v v' -> forall k i, diff ch v v' k i = diff ch v' v k i.
Proof. intros _ k i. unfold diff. rewrite N.lxor_comm. reflexivity. Qed.

Lemma Sh_xlate ns ch v v' s : okn ns -> (forall k i, (ch k i < ns)%nat) -> vok v -> vok v' ->
  Sh ns v s \/ Sh ns v' s -> All ns (xlate ch (diff ch v v') s) /\
  (Sh ns v s -> Sh ns v' (xlate ch (diff ch v v') s)) /\ (Sh ns v' s -> Sh ns v (xlate ch (diff ch v v') s)).
Proof.
  intros Hns Hch Hv Hv' Hs. assert (Ha : All ns s) by (destruct Hs as [[H _]|[H _]]; exact H).
  assert (A : All ns (xlate ch (diff ch v v') s)) by (apply All_xlate; auto using vok_diff).
  assert (X : forall a b, fits 32 a -> fits 32 b -> N.lxor a (N.lxor a b) = b).
  { intros a b _ _. rewrite <- N.lxor_assoc, N.lxor_nilpotent, N.lxor_0_l. reflexivity. }
  split; [exact A|]. split; intros [_ E]; (split; [exact A|]); intros k i Hk Hi;
    rewrite vof_xlate by (auto using vok_diff); rewrite (E k i Hk Hi); unfold diff;
    (rewrite rotr32_back; [|pose proof (Hch k i); unfold okn in Hns; lia|apply fits_lxor; auto]).
  - apply X; auto.
  - rewrite (N.lxor_comm (v k i)). apply X; auto.
Qed.

(** ** A value that ignores one share of everything *)

Definition blind (ns : nat) (q : mstate -> N) : Prop :=
  exists ch, (forall k i, (ch k i < ns)%nat) /\
  forall s s', All ns s -> All ns s' ->
    (forall k d i, (k < 6)%nat -> (d < ns)%nat -> (i < 2)%nat -> d <> ch k i -> xget s k d i = xget s' k d i) -> q s = q s'.

Lemma coup_blind ns q v v' : okn ns -> blind ns q -> vok v -> vok v' -> coup (Sh ns v) (Sh ns v') q.
Proof.
  intros Hns (ch & Hch & Hq) Hv Hv'. exists (xlate ch (diff ch v v')), (xlate ch (diff ch v v')). split.
  - intros s Hs. destruct (Sh_xlate ns ch v v' s Hns Hch Hv Hv' (or_introl Hs)) as (A & B & _).
    split; [apply B, Hs|]. pose proof (proj1 Hs) as Ha. split; [apply (xlate_xlate ns); auto using vok_diff|].
    apply Hq; [exact A|exact Ha|]. intros k d i Hk Hd Hi Hne. rewrite (xget_xlate ns) by (auto using vok_diff; unfold okn in Hns; lia).
    replace (d =? ch k i)%nat with false by lia. reflexivity.
  - intros s Hs. destruct (Sh_xlate ns ch v v' s Hns Hch Hv Hv' (or_intror Hs)) as (A & _ & B).
    split; [apply B, Hs|]. apply (xlate_xlate ns); auto using vok_diff. apply Hs.
Qed.

(** ** A value masked by a share of a word that does not occur in it *)

Definition fresh_sum (ns : nat) (c d i : nat) (G : mstate -> N) : Prop :=
  (forall s, All ns s -> fits 32 (G s)) /\
  forall s s', All ns s -> All ns s' -> (forall k, (k < 6)%nat -> k <> c -> getw s k = getw s' k) -> G s = G s'.

Section Fresh.
Variables (ns c d i : nat) (G : mstate -> N) (v v' : vals).
Hypothesis Hns : (2 <= ns <= 4)%nat.
Hypothesis Hc : (c < 6)%nat.
Hypothesis Hd : (d < ns)%nat.
Hypothesis Hi : (i < 2)%nat.
Hypothesis HG : fresh_sum ns c d i G.
Hypothesis Hv : vok v.
Hypothesis Hv' : vok v'.
Let e := match d with O => 1%nat | _ => 0%nat end.
Let T (s : mstate) : mstate := xlate (fun _ _ => e) (diff (fun _ _ => e) v v') s.
Let gam (s : mstate) : N := N.lxor (G s) (G (T s)).
Let phi (s : mstate) : mstate :=
  xxor (xxor (T s) c d i (gam s)) c e i (back e (rotr32 (gam s) (5 * N.of_nat d))).
Let Hn : okn ns. Proof. unfold okn. lia. Qed.
Let He : (e < ns)%nat. Proof. unfold e. destruct d; lia. Qed.
Let Hed : e <> d. Proof. unfold e. destruct d; lia. Qed.
Lemma AT s : All ns s -> All ns (T s).
Proof. intros. apply All_xlate; auto using vok_diff. Qed.
Lemma fg s : All ns s -> fits 32 (gam s).
Proof. intros. apply fits_lxor; apply HG; auto using AT. Qed.
Lemma Aphi s : All ns s -> All ns (phi s).
Proof.
  intros Ha. apply All_xxor; [exact Hc|exact He|lia|exact Hi|apply fits_rotr32|].
  apply All_xxor; [exact Hc|exact Hd|lia|exact Hi|apply fg, Ha|]. apply AT, Ha.
Qed.
Lemma vof_phi s : All ns s -> veq (vof ns (phi s)) (vof ns (T s)).
Proof.
  intros Ha k j Hk Hj. unfold phi. rewrite !vof_xxor by (try assumption; lia).
  destruct ((c =? k) && (i =? j))%nat; [|reflexivity].
  rewrite rotr32_back by (try lia; apply fits_rotr32). apply lxor_cancel.
Qed.
Lemma phi_words s k : All ns s -> (k < 6)%nat -> k <> c -> getw (phi s) k = getw (T s) k.
Proof.
  intros Ha Hk Hne. unfold phi, xxor. rewrite !getw_setw by assumption.
  replace (c =? k)%nat with false by lia. reflexivity.
Qed.
Lemma xlate_words ch dl s s' k : (forall k i, (ch k i < ns)%nat) -> vok dl -> All ns s -> All ns s' -> (k < 6)%nat ->
  getw s k = getw s' k -> getw (xlate ch dl s) k = getw (xlate ch dl s') k.
Proof.
  intros H1 H2 Ha Ha' Hk E. apply w_ext. intros d' i' Hd' Hi'.
  change (wget (getw ?x k) d' i') with (xget x k d' i'). rewrite !(xget_xlate ns) by assumption.
  unfold xget. rewrite E. reflexivity.
Qed.
Lemma gam_phi s : All ns s -> gam (phi s) = gam s.
Proof.
  intros Ha. unfold gam. pose proof (AT s Ha) as A1. pose proof (Aphi s Ha) as A2. pose proof (AT _ A2) as A3.
  destruct HG as [_ H]. rewrite (H (phi s) (T s) A2 A1) by (intros; apply phi_words; assumption).
  rewrite (H (T (phi s)) s A3 Ha); [apply N.lxor_comm|].
  intros k Hk Hne. transitivity (getw (T (T s)) k).
  - apply xlate_words; auto using vok_diff. apply phi_words; assumption.
  - f_equal. apply (xlate_xlate ns); auto using vok_diff.
Qed.
Lemma xget_T s k d' j : All ns s -> (k < 6)%nat -> (d' < 4)%nat -> (j < 2)%nat ->
  xget (T s) k d' j = if (d' =? e)%nat then N.lxor (xget s k d' j) (diff (fun _ _ => e) v v' k j) else xget s k d' j.
Proof. intros. unfold T. apply (xget_xlate ns); auto using vok_diff. Qed.
Lemma xget_phi s k d' j : All ns s -> (k < 6)%nat -> (d' < 4)%nat -> (j < 2)%nat ->
  xget (phi s) k d' j =
  if ((c =? k) && (e =? d') && (i =? j))%nat then N.lxor (xget (T s) k d' j) (back e (rotr32 (gam s) (5 * N.of_nat d)))
  else if ((c =? k) && (d =? d') && (i =? j))%nat then N.lxor (xget (T s) k d' j) (gam s) else xget (T s) k d' j.
Proof.
  intros Ha Hk Hd' Hj. assert (e < 4)%nat by lia. assert (d < 4)%nat by lia.
  unfold phi. rewrite !xget_xxor by assumption.
  destruct (Nat.eqb_spec e d'), (Nat.eqb_spec d d'); try congruence; rewrite ?andb_true_r, ?andb_false_r; reflexivity.
Qed.
Lemma phi_phi s : All ns s -> phi (phi s) = s.
Proof.
  intros Ha. apply x_ext. intros k d' j Hk Hd' Hj. rewrite xget_phi by auto using Aphi.
  rewrite gam_phi, xget_T, xget_phi, xget_T by auto using Aphi.
  generalize (diff (fun _ _ => e) v v' k j) (gam s) (back e (rotr32 (gam s) (5 * N.of_nat d))) (xget s k d' j).
  revert Hed. generalize e as e0. clear. intros e0 Hed a b f x.
  destruct (Nat.eqb_spec c k), (Nat.eqb_spec i j), (Nat.eqb_spec d' e0), (Nat.eqb_spec d d'), (Nat.eqb_spec e0 d');
    try congruence; cbn [andb]; rewrite ?lxor_cancel; try reflexivity.
  rewrite (N.lxor_assoc x a f), (N.lxor_comm a f), <- (N.lxor_assoc x f a), lxor_cancel, lxor_cancel. reflexivity.
Qed.
Lemma coup_fresh q : (forall s, All ns s -> q s = N.lxor (xget s c d i) (G s)) -> coup (Sh ns v) (Sh ns v') q.
Proof.
  intros Hq. exists phi, phi.
  assert (S : forall s, Sh ns v s \/ Sh ns v' s -> (Sh ns v s -> Sh ns v' (phi s)) /\ (Sh ns v' s -> Sh ns v (phi s))).
  { intros s Hs. assert (Ha : All ns s) by (destruct Hs as [[H _]|[H _]]; exact H).
    destruct (Sh_xlate ns (fun _ _ => e) v v' s Hn (fun _ _ => He) Hv Hv' Hs) as (_ & B1 & B2).
    split; intros X; (split; [apply Aphi, Ha|]); intros k j Hk Hj; rewrite vof_phi by assumption;
      [apply (B1 X)|apply (B2 X)]; assumption. }
  split.
  - intros s Hs. destruct (S s (or_introl Hs)) as [S1 _]. pose proof (proj1 Hs) as Ha.
    split; [apply S1, Hs|]. split; [apply phi_phi, Ha|]. rewrite !Hq by auto using Aphi.
    destruct HG as [_ H]. rewrite (H (phi s) (T s) (Aphi s Ha) (AT s Ha)) by (intros; apply phi_words; assumption).
    assert (e < 4)%nat by lia. assert (d < 4)%nat by lia.
    rewrite xget_phi, xget_T by assumption. rewrite !Nat.eqb_refl. replace (e =? d)%nat with false by lia. replace (d =? e)%nat with false by lia. cbn [andb].
    unfold gam. rewrite <- N.lxor_assoc, lxor_cancel. reflexivity.
  - intros s Hs. destruct (S s (or_intror Hs)) as [_ S1]. split; [apply S1, Hs|apply phi_phi, Hs].
Qed.
End Fresh.
