(** * Ct.v -- two program logics over the C fragment.

    [ct R c1 c2]: whenever both computations finish, from any two
    memories, they show the observer the same events and their values are
    related by [R].  ("Constant time" when [c1] and [c2] are one function
    applied to the same public arguments.)

    [post Q c]: from any memory, [c] does not run out of loop fuel, and if
    it finishes its value satisfies [Q].  (It may go wrong otherwise.) *)
From Coq Require Import Bool Arith NArith ZArith List Lia Init.Byte ZifyBool ZifyNat ZifyN.
From Verif Require Import Words WordFacts CMem Contract CMemFacts.
Import ListNotations.
Local Open Scope N_scope.

Definition ct {A} (R : A -> A -> Prop) (c1 c2 : C A) : Prop :=
  forall M1 M2 t1 t2 N1 N2 v1 v2,
  c1 M1 = Done t1 N1 v1 -> c2 M2 = Done t2 N2 v2 -> t1 = t2 /\ R v1 v2.

Definition any {A} (_ _ : A) : Prop := True.

Lemma ct_weaken {A} (R R' : A -> A -> Prop) c1 c2 :
  ct R c1 c2 -> (forall a b, R a b -> R' a b) -> ct R' c1 c2.
Proof.
  intros H HR M1 M2 t1 t2 N1 N2 v1 v2 E1 E2.
  destruct (H _ _ _ _ _ _ _ _ E1 E2). auto.
Qed.
Lemma ct_ret {A} (R : A -> A -> Prop) a b : R a b -> ct R (ret a) (ret b).
Proof. intros H M1 M2 t1 t2 N1 N2 v1 v2 E1 E2. inversion E1; inversion E2; subst. auto. Qed.
Lemma ct_fail_l {A} (R : A -> A -> Prop) e c : ct R (fail e) c.
Proof. intros M1 M2 t1 t2 N1 N2 v1 v2 E1. discriminate E1. Qed.
Lemma ct_bind {A B} (R : A -> A -> Prop) (Q : B -> B -> Prop) c1 c2 f1 f2 :
  ct R c1 c2 -> (forall a b, R a b -> ct Q (f1 a) (f2 b)) -> ct Q (bind c1 f1) (bind c2 f2).
Proof.
  intros H HF M1 M2 t1 t2 N1 N2 v1 v2 E1 E2. unfold bind in E1, E2.
  destruct (c1 M1) as [s1 O1 a1|] eqn:D1; [|discriminate].
  destruct (c2 M2) as [s2 O2 a2|] eqn:D2; [|discriminate].
  destruct (H _ _ _ _ _ _ _ _ D1 D2) as [-> HR].
  destruct (f1 a1 O1) as [u1 P1 b1|] eqn:F1; [|discriminate].
  destruct (f2 a2 O2) as [u2 P2 b2|] eqn:F2; [|discriminate].
  inversion E1; inversion E2; subst.
  destruct (HF _ _ HR _ _ _ _ _ _ _ _ F1 F2) as [-> HQ]. auto.
Qed.
Lemma ct_branch b : ct (fun x y => x = b /\ y = b) (branch b) (branch b).
Proof. intros M1 M2 t1 t2 N1 N2 v1 v2 E1 E2. inversion E1; inversion E2; subst. auto. Qed.
Lemma ct_padd p n : ct (fun x y => x = p + n /\ y = p + n) (padd p n) (padd p n).
Proof.
  unfold padd. destruct (_ && _); [apply ct_fail_l|]. destruct (_ <=? _); [apply ct_fail_l|].
  apply ct_ret. auto.
Qed.
Lemma ct_ldb p : ct any (ldb p) (ldb p).
Proof.
  intros M1 M2 t1 t2 N1 N2 v1 v2 E1 E2. unfold ldb in *. destruct (p =? 0); [discriminate|].
  destruct (rd M1 p); [|discriminate]. destruct (rd M2 p); [|discriminate].
  inversion E1; inversion E2; subst. split; constructor.
Qed.
Lemma ct_stb p b b' : ct any (stb p b) (stb p b').
Proof.
  intros M1 M2 t1 t2 N1 N2 v1 v2 E1 E2. unfold stb in *. destruct (p =? 0); [discriminate|].
  destruct (can_write M1 p); [|discriminate]. destruct (can_write M2 p); [|discriminate].
  inversion E1; inversion E2; subst. split; constructor.
Qed.
Lemma ct_ld p i : ct any (ld p i) (ld p i).
Proof. unfold ld. eapply ct_bind; [apply ct_padd|]. intros a b [-> ->]. apply ct_ldb. Qed.
Lemma ct_st p i b b' : ct any (st p i b) (st p i b').
Proof. unfold st. eapply ct_bind; [apply ct_padd|]. intros x y [-> ->]. apply ct_stb. Qed.

Lemma length_read_bytes n M : forall q l, read_bytes n M q = Some l -> length l = n.
Proof.
  induction n as [|n IH]; intros q l E; cbn [read_bytes] in E; [inversion E; reflexivity|].
  destruct (rd M q); [|discriminate]. destruct (read_bytes n M (q + 1)) as [r|] eqn:Er; [|discriminate].
  inversion E; subst. cbn [length]. f_equal. apply (IH _ _ Er).
Qed.
Lemma ct_memcpy_in p n :
  ct (fun a b => length a = N.to_nat n /\ length b = N.to_nat n) (memcpy_in p n) (memcpy_in p n).
Proof.
  intros M1 M2 t1 t2 N1 N2 v1 v2 E1 E2. unfold memcpy_in in *. destruct (p =? 0); [discriminate|].
  destruct (_ <=? _); [discriminate|].
  destruct (read_bytes (N.to_nat n) M1 p) eqn:R1; [|discriminate].
  destruct (read_bytes (N.to_nat n) M2 p) eqn:R2; [|discriminate].
  apply length_read_bytes in R1, R2. inversion E1; inversion E2; subst. auto.
Qed.
Lemma ct_memcpy_out p l l' : length l = length l' -> ct any (memcpy_out p l) (memcpy_out p l').
Proof.
  intros HL M1 M2 t1 t2 N1 N2 v1 v2 E1 E2. unfold memcpy_out in *. rewrite HL in E1.
  destruct (p =? 0); [discriminate|]. destruct (_ <=? _); [discriminate|].
  destruct (all_writable _ M1 p); [|discriminate]. destruct (all_writable _ M2 p); [|discriminate].
  inversion E1; inversion E2; subst. split; constructor.
Qed.
Lemma ct_store_ull e p x y : ct any (store_ull e p x) (store_ull e p y).
Proof. apply ct_memcpy_out. rewrite !length_to_host. reflexivity. Qed.

Lemma ct_for {S} (R : S -> S -> Prop) (b1 b2 : N -> S -> C S) :
  (forall i s1 s2, R s1 s2 -> ct R (b1 i s1) (b2 i s2)) ->
  forall k i s1 s2, R s1 s2 -> ct R (for_loop k i b1 s1) (for_loop k i b2 s2).
Proof.
  intros HB k. induction k as [|k IH]; intros i s1 s2 HR; cbn [for_loop].
  - eapply ct_bind; [apply ct_branch|]. intros _ _ _. apply ct_ret, HR.
  - eapply ct_bind; [apply ct_branch|]. intros _ _ _.
    eapply ct_bind; [apply HB, HR|]. intros a b Hab. apply IH, Hab.
Qed.
Lemma ct_while {S} (R : S -> S -> Prop) cond (b1 b2 : S -> C S) :
  (forall s1 s2, R s1 s2 -> cond s1 = cond s2) ->
  (forall s1 s2, R s1 s2 -> ct R (b1 s1) (b2 s2)) ->
  forall f s1 s2, R s1 s2 -> ct R (while f cond b1 s1) (while f cond b2 s2).
Proof.
  intros HC HB f. induction f as [|f IH]; intros s1 s2 HR; cbn [while]; [apply ct_fail_l|].
  rewrite (HC _ _ HR). eapply ct_bind; [apply ct_branch|]. intros _ _ [-> ->].
  destruct (cond s2).
  - eapply ct_bind; [apply HB, HR|]. intros a b Hab. apply IH, Hab.
  - apply ct_ret, HR.
Qed.
Lemma ct_with_local {A} (R : A -> A -> Prop) sp n b1 b2 :
  (ct R (b1 sp) (b2 sp)) -> ct R (with_local sp n b1) (with_local sp n b2).
Proof.
  intros H M1 M2 t1 t2 N1 N2 v1 v2 E1 E2. unfold with_local in *.
  destruct (sp =? 0); [discriminate|]. destruct (_ <=? _); [discriminate|].
  destruct (all_fresh _ M1 sp); [|discriminate]. destruct (all_fresh _ M2 sp); [|discriminate].
  destruct (b1 sp _) as [s1 O1 a1|] eqn:D1; [|discriminate].
  destruct (b2 sp (set_range M2 _ _ _)) as [s2 O2 a2|] eqn:D2; [|discriminate].
  inversion E1; inversion E2; subst. apply (H _ _ _ _ _ _ _ _ D1 D2).
Qed.

(** ** Fuel *)

Definition post {A} (Q : A -> Prop) (c : C A) : Prop :=
  forall M, match c M with Done _ _ v => Q v | Bad e => e <> ErrFuel end.

Lemma post_weaken {A} (Q Q' : A -> Prop) c : post Q c -> (forall v, Q v -> Q' v) -> post Q' c.
Proof. intros H HQ M. specialize (H M). destruct (c M); auto. Qed.
Lemma post_ret {A} (Q : A -> Prop) v : Q v -> post Q (ret v).
Proof. intros H M. exact H. Qed.
Lemma post_fail {A} (Q : A -> Prop) e : e <> ErrFuel -> post Q (fail e).
Proof. intros H M. exact H. Qed.
Lemma post_bind {A B} (Q : A -> Prop) (R : B -> Prop) c f :
  post Q c -> (forall v, Q v -> post R (f v)) -> post R (bind c f).
Proof.
  intros H HF M. unfold bind. specialize (H M). destruct (c M) as [t M1 v|]; [|exact H].
  specialize (HF v H M1). destruct (f v M1); exact HF.
Qed.
Lemma post_branch b : post (fun x => x = b) (branch b).
Proof. intros M. reflexivity. Qed.
Lemma post_padd p n : post (fun q => q = p + n) (padd p n).
Proof.
  unfold padd. destruct (_ && _); [apply post_fail; discriminate|].
  destruct (_ <=? _); [apply post_fail; discriminate|]. apply post_ret. reflexivity.
Qed.
Lemma post_ldb p : post (fun _ => True) (ldb p).
Proof. intros M. unfold ldb. destruct (p =? 0); [discriminate|]. destruct (rd M p); [exact I|discriminate]. Qed.
Lemma post_stb p b : post (fun _ => True) (stb p b).
Proof. intros M. unfold stb. destruct (p =? 0); [discriminate|]. destruct (can_write M p); [exact I|discriminate]. Qed.
Lemma post_ld p i : post (fun _ => True) (ld p i).
Proof. eapply post_bind; [apply post_padd|]. intros. apply post_ldb. Qed.
Lemma post_st p i b : post (fun _ => True) (st p i b).
Proof. eapply post_bind; [apply post_padd|]. intros. apply post_stb. Qed.
Lemma post_memcpy_in p n : post (fun _ => True) (memcpy_in p n).
Proof.
  intros M. unfold memcpy_in. destruct (p =? 0); [discriminate|]. destruct (_ <=? _); [discriminate|].
  destruct (read_bytes _ M p); [exact I|discriminate].
Qed.
Lemma post_memcpy_out p l : post (fun _ => True) (memcpy_out p l).
Proof.
  intros M. unfold memcpy_out. destruct (p =? 0); [discriminate|]. destruct (_ <=? _); [discriminate|].
  destruct (all_writable _ M p); [exact I|discriminate].
Qed.
Lemma post_store_ull e p x : post (fun _ => True) (store_ull e p x).
Proof. apply post_memcpy_out. Qed.
Lemma post_load_ull e p : post (fun x => True) (load_ull e p).
Proof. eapply post_bind; [apply post_memcpy_in|]. intros. apply post_ret. exact I. Qed.
Lemma post_for {S} (I : S -> Prop) (body : N -> S -> C S) :
  (forall i s, I s -> post I (body i s)) ->
  forall k i s, I s -> post I (for_loop k i body s).
Proof.
  intros HB k. induction k as [|k IH]; intros i s HI; cbn [for_loop].
  - eapply post_bind; [apply post_branch|]. intros _ _. apply post_ret, HI.
  - eapply post_bind; [apply post_branch|]. intros _ _. eapply post_bind; [apply HB, HI|].
    intros v Hv. apply IH, Hv.
Qed.
Lemma post_while {S} (I : S -> Prop) (mu : S -> nat) cond (body : S -> C S) :
  (forall s, I s -> cond s = true -> post (fun s' => I s' /\ (mu s' < mu s)%nat) (body s)) ->
  forall f s, I s -> (mu s < f)%nat -> post (fun s' => I s' /\ cond s' = false) (while f cond body s).
Proof.
  intros HB f. induction f as [|f IH]; intros s HI Hf; [lia|]. cbn [while].
  eapply post_bind; [apply post_branch|]. intros b ->. destruct (cond s) eqn:E.
  - eapply post_bind; [apply (HB s HI E)|]. intros s' [HI' Hm]. apply IH; [exact HI'|lia].
  - apply post_ret. auto.
Qed.
Lemma post_with_local {A} (Q : A -> Prop) sp n body :
  post Q (body sp) -> post Q (with_local sp n body).
Proof.
  intros H M. unfold with_local. destruct (sp =? 0); [discriminate|]. destruct (_ <=? _); [discriminate|].
  destruct (all_fresh _ M sp); [|discriminate].
  specialize (H (set_range M sp n (RW None))). destruct (body sp _); exact H.
Qed.
