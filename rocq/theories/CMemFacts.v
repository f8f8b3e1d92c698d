(** * CMemFacts.v -- reasoning rules for the C fragment. *)
From Coq Require Import Arith Bool NArith ZArith List Lia Init.Byte.
From Coq Require Import ZifyBool ZifyNat ZifyN.
From Verif Require Import Words WordFacts CMem Contract.
Import ListNotations.
Local Open Scope N_scope.

(** ** Running *)

Lemma runs_ret {A} (v : A) M : runs (ret v) M M v.
Proof. eexists; reflexivity. Qed.

Lemma runs_bind {A B} (c : C A) (f : A -> C B) M M1 M2 a b :
  runs c M M1 a -> runs (f a) M1 M2 b -> runs (bind c f) M M2 b.
Proof.
  intros [t H] [t' H']. exists (t ++ t'). unfold bind. rewrite H, H'. reflexivity.
Qed.

Lemma runs_branch b M : runs (branch b) M M b.
Proof. eexists; reflexivity. Qed.

Lemma runs_padd p n M : p + n < 2 ^ 64 -> (n <> 0 -> p <> 0) -> runs (padd p n) M M (p + n).
Proof.
  intros H1 H2. unfold padd.
  assert (E : (p =? 0) && negb (n =? 0) = false) by lia.
  rewrite E. replace (2 ^ 64 <=? p + n) with false by lia. apply runs_ret.
Qed.

Lemma runs_det {A} (c : C A) M M1 M2 v1 v2 : runs c M M1 v1 -> runs c M M2 v2 -> M1 = M2 /\ v1 = v2.
Proof. intros [t1 H1] [t2 H2]. rewrite H1 in H2. inversion H2; auto. Qed.

(** ** Buffers *)

Lemma len_app l1 l2 : len (l1 ++ l2) = len l1 + len l2.
Proof. unfold len. rewrite app_length. lia. Qed.

Lemma len_nil : len [] = 0.
Proof. reflexivity. Qed.

Lemma len_cons b l : len (b :: l) = 1 + len l.
Proof. unfold len. cbn [length]. lia. Qed.

Lemma len_0 l : len l = 0 -> l = [].
Proof. destruct l; [auto|]. rewrite len_cons. lia. Qed.

Lemma readable_nil M p : p < 2 ^ 64 -> readable M p [].
Proof.
  intros H. split; [|split].
  - rewrite len_nil. lia.
  - congruence.
  - cbn [length]. intros; lia.
Qed.

Lemma readable_nonnull M p l : readable M p l -> len l <> 0 -> p <> 0.
Proof. intros (_ & H & _) Hl. apply H. intros ->. apply Hl. reflexivity. Qed.

Lemma readable_bound M p l : readable M p l -> p + len l < 2 ^ 64.
Proof. intros (H & _). exact H. Qed.

Lemma readable_app M p l1 l2 :
  readable M p (l1 ++ l2) -> readable M p l1 /\ readable M (p + len l1) l2.
Proof.
  intros (Hb & Hn & Hr). rewrite len_app in Hb. repeat split.
  - lia.
  - intros H. apply Hn. destruct l1; [congruence|discriminate].
  - intros i Hi. rewrite Hr by (rewrite app_length; lia). rewrite app_nth1 by exact Hi. reflexivity.
  - lia.
  - intros H. assert (p <> 0) by (apply Hn; intros E; apply app_eq_nil in E; tauto).
    unfold NULL. lia.
  - intros i Hi. unfold len. replace (p + N.of_nat (length l1) + N.of_nat i)
      with (p + N.of_nat (length l1 + i)) by lia.
    rewrite Hr by (rewrite app_length; lia).
    rewrite app_nth2 by lia. f_equal. f_equal. lia.
Qed.

Lemma readable_app_intro M p l1 l2 :
  readable M p l1 -> readable M (p + len l1) l2 -> (len l2 <> 0 -> p <> 0) ->
  readable M p (l1 ++ l2).
Proof.
  intros (Hb1 & Hn1 & Hr1) (Hb2 & Hn2 & Hr2) Hp. split; [|split].
  - rewrite len_app. lia.
  - intros H. destruct l1; [|apply Hn1; discriminate]. destruct l2; [cbn in H; congruence|].
    apply Hp. rewrite len_cons. lia.
  - intros i Hi. rewrite app_length in Hi.
    destruct (Nat.lt_ge_cases i (length l1)) as [L|L].
    + rewrite app_nth1 by exact L. apply Hr1. exact L.
    + rewrite app_nth2 by exact L. rewrite <- Hr2 by lia. f_equal. unfold len. lia.
Qed.

Lemma readable_cons M p b l :
  readable M p (b :: l) -> p <> 0 /\ rd M p = Some b /\ readable M (p + 1) l.
Proof.
  intros H. change (b :: l) with ([b] ++ l) in H.
  destruct (readable_app _ _ _ _ H) as (H1 & H2).
  split; [eapply readable_nonnull; [exact H1|unfold len; cbn [length]; lia]|].
  split; [|exact H2].
  destruct H1 as (_ & _ & H1). specialize (H1 0%nat). cbn [length nth] in H1.
  rewrite <- H1 by lia. f_equal. change (N.of_nat 0) with 0. lia.
Qed.

Lemma writable_bound M p n : writable M p n -> p + n < 2 ^ 64.
Proof. intros (H & _). exact H. Qed.

Lemma writable_split M p n1 n2 :
  writable M p (n1 + n2) -> writable M p n1 /\ writable M (p + n1) n2.
Proof.
  intros (Hb & Hn & Hw). unfold NULL in *. repeat split; unfold NULL; try lia.
  - intros a Ha1 Ha2. apply Hw; lia.
  - intros a Ha1 Ha2. apply Hw; lia.
Qed.

(** ** Writing *)

Lemma write_app M p l1 l2 : write M p (l1 ++ l2) = write (write M p l1) (p + len l1) l2.
Proof.
  revert M p; induction l1 as [|b l1 IH]; intros M p.
  - cbn [app write]. rewrite len_nil, N.add_0_r. reflexivity.
  - cbn [app write]. rewrite IH, len_cons. f_equal. lia.
Qed.

Lemma write_outside M p l a : outside p (len l) a -> write M p l a = M a.
Proof.
  revert M p; induction l as [|b l IH]; intros M p H; [reflexivity|].
  cbn [write]. rewrite len_cons in H. unfold outside in *. rewrite IH by lia.
  unfold upd. replace (a =? p) with false by lia. reflexivity.
Qed.

Lemma write_inside M p l i : (i < length l)%nat ->
  write M p l (p + N.of_nat i) = RW (Some (nth i l x00)).
Proof.
  revert M p i; induction l as [|b l IH]; intros M p i H; [cbn in H; lia|].
  cbn [write]. destruct i as [|i].
  - rewrite write_outside by (unfold outside; lia).
    unfold upd. replace (p + N.of_nat 0 =? p) with true by lia. reflexivity.
  - cbn [length] in H. replace (p + N.of_nat (S i)) with (p + 1 + N.of_nat i) by lia.
    rewrite IH by lia. reflexivity.
Qed.

Lemma write_cases M p l a :
  (outside p (len l) a /\ write M p l a = M a) \/
  (exists i, (i < length l)%nat /\ a = p + N.of_nat i /\ write M p l a = RW (Some (nth i l x00))).
Proof.
  destruct (N.lt_ge_cases a p) as [H|H].
  - left. assert (outside p (len l) a) by (left; exact H). split; [auto|]. apply write_outside; auto.
  - destruct (N.lt_ge_cases a (p + len l)) as [H'|H'].
    + right. exists (N.to_nat (a - p)). unfold len in H'. split; [lia|].
      split; [lia|]. rewrite <- (write_inside M p l (N.to_nat (a - p))) by lia. f_equal. lia.
    + left. assert (outside p (len l) a) by (right; exact H'). split; [auto|]. apply write_outside; auto.
Qed.

Lemma can_write_write M p l a : can_write M a = true -> can_write (write M p l) a = true.
Proof.
  intros H. unfold can_write in *.
  destruct (write_cases M p l a) as [(_ & ->)|(i & _ & _ & ->)]; auto.
Qed.

Lemma writable_write M p l q n : writable M q n -> writable (write M p l) q n.
Proof.
  intros (Hb & Hn & Hw). split; [exact Hb|]. split; [exact Hn|].
  intros a H1 H2. apply can_write_write, Hw; assumption.
Qed.

Lemma readable_write_disjoint M p l q l' :
  readable M q l' -> disjoint p (len l) q (len l') -> readable (write M p l) q l'.
Proof.
  intros (Hb & Hn & Hr) Hd. split; [exact Hb|]. split; [exact Hn|].
  intros i Hi. rewrite <- (Hr i Hi). unfold rd.
  destruct l as [|b l]; [reflexivity|].
  rewrite write_outside; [reflexivity|]. unfold outside, disjoint, len in *. cbn [length] in *. lia.
Qed.

Lemma readable_write_self M p l : p + len l < 2 ^ 64 -> (l <> [] -> p <> 0) ->
  readable (write M p l) p l.
Proof.
  intros Hb Hn. split; [exact Hb|]. split; [exact Hn|].
  intros i Hi. unfold rd. rewrite write_inside by exact Hi. reflexivity.
Qed.

Lemma disjoint_sym p n q m : disjoint p n q m -> disjoint q m p n.
Proof. unfold disjoint. tauto. Qed.

(** ** Loads and stores *)

Lemma runs_ldb M p b : p <> 0 -> rd M p = Some b -> runs (ldb p) M M b.
Proof.
  intros Hp Hr. unfold runs, ldb. replace (p =? 0) with false by lia. rewrite Hr.
  eexists; reflexivity.
Qed.

Lemma runs_ld M p l i : readable M p l -> (i < length l)%nat ->
  runs (ld p (N.of_nat i)) M M (nth i l x00).
Proof.
  intros (Hb & Hn & Hr) Hi. unfold NULL in Hn.
  assert (l <> []) by (intros ->; cbn in Hi; lia). unfold len in Hb.
  unfold ld. eapply runs_bind; [apply runs_padd; [lia|auto]|].
  apply runs_ldb; [specialize (Hn H); lia|]. apply Hr, Hi.
Qed.

Lemma runs_stb M p b : p <> 0 -> can_write M p = true -> runs (stb p b) M (upd M p b) tt.
Proof.
  intros Hp Hr. unfold runs, stb. replace (p =? 0) with false by lia. rewrite Hr.
  eexists; reflexivity.
Qed.

Lemma runs_st M p n i b : writable M p n -> i < n -> runs (st p i b) M (upd M (p + i) b) tt.
Proof.
  intros (Hb & Hn & Hw) Hi. unfold NULL in Hn.
  unfold st. eapply runs_bind; [apply runs_padd; [lia|intros; apply Hn; lia]|].
  apply runs_stb; [specialize (Hn ltac:(lia)); lia|]. apply Hw; lia.
Qed.

Lemma read_bytes_readable M l : forall p, readable M p l -> read_bytes (length l) M p = Some l.
Proof.
  induction l as [|b l IH]; intros p H; [reflexivity|].
  destruct (readable_cons _ _ _ _ H) as (_ & Hr & H').
  cbn [length read_bytes]. rewrite Hr, (IH _ H'). reflexivity.
Qed.

Lemma runs_memcpy_in M p l n : readable M p l -> n = len l -> p <> 0 ->
  runs (memcpy_in p n) M M l.
Proof.
  intros H -> Hp. unfold runs, memcpy_in. pose proof (readable_bound _ _ _ H) as Hb.
  replace (p =? 0) with false by lia. replace (2 ^ 64 <=? p + len l) with false by lia.
  unfold len. rewrite Nat2N.id, read_bytes_readable by exact H. eexists; reflexivity.
Qed.

Lemma all_writable_ok M n : forall p, (forall a, p <= a -> a < p + N.of_nat n -> can_write M a = true) ->
  all_writable n M p = true.
Proof.
  induction n as [|n IH]; intros p H; [reflexivity|]. cbn [all_writable].
  rewrite H by lia. cbn [andb]. apply IH. intros a H1 H2. apply H; lia.
Qed.

Lemma runs_memcpy_out M p l : writable M p (len l) -> p <> 0 ->
  runs (memcpy_out p l) M (write M p l) tt.
Proof.
  intros (Hb & Hn & Hw) Hp. unfold runs, memcpy_out.
  replace (p =? 0) with false by lia.
  replace (2 ^ 64 <=? p + N.of_nat (length l)) with false by (unfold len in *; lia).
  rewrite all_writable_ok by exact Hw. eexists; reflexivity.
Qed.

Lemma length_to_host e n x : length (to_host e n x) = n.
Proof. destruct e; cbn [to_host]; rewrite ?rev_length; apply length_le_bytes. Qed.

Lemma from_to_host e n x : fits (8 * N.of_nat n) x -> from_host e (to_host e n x) = x.
Proof.
  intros H. destruct e; cbn [to_host from_host]; rewrite ?rev_involutive, le_num_le_bytes;
    apply trunc_fits; exact H.
Qed.

Lemma runs_store_ull e M p x : writable M p 8 ->
  runs (store_ull e p x) M (write M p (to_host e 8 x)) tt.
Proof.
  intros H. unfold store_ull. apply runs_memcpy_out.
  - unfold len. rewrite length_to_host. exact H.
  - destruct H as (_ & H & _). apply H. discriminate.
Qed.

Lemma runs_load_ull e M p x : readable M p (to_host e 8 x) -> fits 64 x ->
  runs (load_ull e p) M M x.
Proof.
  intros H Hx. unfold load_ull. eapply runs_bind.
  - apply runs_memcpy_in with (l := to_host e 8 x); [exact H| |].
    + unfold len. rewrite length_to_host. reflexivity.
    + eapply readable_nonnull; [exact H|]. unfold len. rewrite length_to_host. discriminate.
  - rewrite from_to_host by exact Hx. apply runs_ret.
Qed.

(** ** Loops *)

Lemma runs_for_O {S} i (body : N -> S -> C S) s M : runs (for_loop 0 i body s) M M s.
Proof. cbn [for_loop]. eapply runs_bind; [apply runs_branch|apply runs_ret]. Qed.

Lemma runs_for_S {S} k i (body : N -> S -> C S) s s1 s2 M M1 M2 :
  runs (body i s) M M1 s1 -> runs (for_loop k (i + 1) body s1) M1 M2 s2 ->
  runs (for_loop (Datatypes.S k) i body s) M M2 s2.
Proof.
  intros H1 H2. cbn [for_loop]. eapply runs_bind; [apply runs_branch|].
  eapply runs_bind; eassumption.
Qed.

Lemma runs_while_end {S} f (cond : S -> bool) body s M :
  cond s = false -> runs (while (Datatypes.S f) cond body s) M M s.
Proof.
  intros H. cbn [while]. eapply runs_bind; [apply runs_branch|]. rewrite H. apply runs_ret.
Qed.

Lemma runs_while_step {S} f (cond : S -> bool) body s s1 s2 M M1 M2 :
  cond s = true -> runs (body s) M M1 s1 -> runs (while f cond body s1) M1 M2 s2 ->
  runs (while (Datatypes.S f) cond body s) M M2 s2.
Proof.
  intros H H1 H2. cbn [while]. eapply runs_bind; [apply runs_branch|]. rewrite H.
  eapply runs_bind; eassumption.
Qed.

Lemma sub64_small a b : b <= a -> a < 2 ^ 64 -> sub64 a b = a - b.
Proof.
  intros H1 H2. unfold sub64. rewrite trunc_mod.
  replace (a + 2 ^ 64 - b) with (a - b + 1 * 2 ^ 64) by lia.
  rewrite N.mod_add by (apply N.pow_nonzero; lia). apply N.mod_small. lia.
Qed.

Lemma add64_small a b : a + b < 2 ^ 64 -> add64 a b = a + b.
Proof. intros H. unfold add64. rewrite trunc_mod. apply N.mod_small. exact H. Qed.
