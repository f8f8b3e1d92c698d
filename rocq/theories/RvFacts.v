(** * RvFacts.v -- facts about the machine of ModelRv.v. *)
From Coq Require Import Bool Arith NArith ZArith List Lia Init.Byte Strings.Byte ZifyBool ZifyNat ZifyN.
From Verif Require Import Words WordFacts Spec SpecFacts Asm ModelRv CMem Contract CMemFacts.
Import ListNotations.
Local Open Scope N_scope.

(** Registers hold 32 bits, x0 is 0. *)
Definition rok (r : regs) : Prop := r 0%nat = 0 /\ forall i, fits 32 (r i).
(** [r'] differs from [r] at most in the registers [l]. *)
Definition memb (i : nat) (l : list nat) : bool := existsb (Nat.eqb i) l.
Definition except (l : list nat) (r r' : regs) : Prop := forall i, memb i l = false -> r' i = r i.

Lemma except_refl l r : except l r r. Proof. intros i _. reflexivity. Qed.
Lemma memb_app i l1 l2 : memb i (l1 ++ l2) = memb i l1 || memb i l2.
Proof. unfold memb. apply existsb_app. Qed.
Lemma except_trans l r1 r2 r3 : except l r1 r2 -> except l r2 r3 -> except l r1 r3.
Proof. intros H1 H2 i Hi. rewrite (H2 i Hi). apply H1, Hi. Qed.
Definition subl (l l' : list nat) : bool := forallb (fun i => memb i l') l.
Lemma except_sub l l' r r' : subl l l' = true -> except l r r' -> except l' r r'.
Proof.
  intros S H i Hi. apply H. unfold memb in *. destruct (existsb (Nat.eqb i) l) eqn:E; [|reflexivity].
  apply existsb_exists in E. destruct E as (j & Hj & E). apply Nat.eqb_eq in E. subst j.
  unfold subl in S. rewrite forallb_forall in S. specialize (S i Hj). unfold memb in S. congruence.
Qed.
Lemma except_set l r r' d v : memb d l = true -> except l r r' -> except l r (setr r' d v).
Proof.
  intros Hd H i Hi. unfold setr. destruct (Nat.eqb_spec i d) as [->|]; [congruence|]. apply H, Hi.
Qed.
Lemma rok_set r d v : rok r -> d <> 0%nat -> fits 32 v -> rok (setr r d v).
Proof.
  intros [H0 H] Hd Hv. split.
  - unfold setr. destruct (Nat.eqb_spec 0 d); [congruence|exact H0].
  - intros i. unfold setr. destruct (Nat.eqb i d); [exact Hv|apply H].
Qed.
Lemma rok_fits r i : rok r -> fits 32 (r i). Proof. intros [_ H]. apply H. Qed.
Lemma rok_0 r : rok r -> r 0%nat = 0. Proof. intros [H _]. exact H. Qed.

(** ** Word expressions over registers *)
Fixpoint fev (r : regs) (t : wx) : N :=
  match t with
  | Reg i => r i
  | Cst n => n
  | Xor a b => N.lxor (fev r a) (fev r b)
  | And a b => N.land (fev r a) (fev r b)
  | Or a b => N.lor (fev r a) (fev r b)
  | Not w a => notw w (fev r a)
  | Shl w a n => shlw w (fev r a) n
  | Shr a n => shrw (fev r a) n
  | Ror w a n => rorw w (fev r a) n
  | RorV w a b => rorw w (fev r a) (fev r b mod w)
  | Add w a b => trunc w (fev r a + fev r b)
  | Sub w a b => trunc w (2 ^ w + fev r a - fev r b)
  | Tab l i => nth (N.to_nat (fev r i)) l 0
  end.
Fixpoint reglt (t : wx) : bool :=
  match t with
  | Reg i => (i <? 32)%nat
  | Cst _ => true
  | Xor a b | And a b | Or a b | RorV _ a b | Add _ a b | Sub _ a b => reglt a && reglt b
  | Not _ a | Shl _ a _ | Shr a _ | Ror _ a _ => reglt a
  | Tab _ i => reglt i
  end.
Lemma nth_rl r i : (i < 32)%nat -> nth i (rl r) 0 = r i.
Proof.
  intros H. unfold rl. rewrite (nth_indep _ 0 (r 0%nat)) by (rewrite map_length, seq_length; exact H).
  rewrite (map_nth r), seq_nth by exact H. reflexivity.
Qed.
Lemma weval_rl r t : reglt t = true -> weval (rl r) t = fev r t.
Proof.
  induction t; cbn [reglt weval fev]; intros H;
    repeat match goal with H : _ && _ = true |- _ => apply andb_prop in H; destruct H end;
    rewrite ?IHt1, ?IHt2, ?IHt by assumption; try reflexivity.
  apply nth_rl, Nat.ltb_lt, H.
Qed.
(** Expressions whose value has 32 bits. *)
Fixpoint wok (t : wx) : bool :=
  match t with
  | Reg i => true
  | Cst n => n <? 2 ^ 32
  | Xor a b | Or a b => wok a && wok b
  | And a b => wok a
  | Not w a => (w =? 32) && wok a
  | Shl w _ _ | Add w _ _ | Sub w _ _ => w =? 32
  | Shr a _ => wok a
  | Ror w a n => (w =? 32) && wok a
  | _ => false
  end.
Lemma fits_rorw w x n : fits w x -> fits w (rorw w x n).
Proof. intros H. unfold rorw. apply fits_lor; [apply fits_shrw, H|apply fits_shlw]. Qed.
Lemma fev_fits r t : rok r -> wok t = true -> fits 32 (fev r t).
Proof.
  intros Hr. induction t; cbn [wok fev]; intros H; try discriminate;
    repeat match goal with H : _ && _ = true |- _ => apply andb_prop in H; destruct H end;
    repeat match goal with H : (_ =? 32) = true |- _ => apply N.eqb_eq in H; subst end.
  - apply Hr.
  - unfold fits. lia.
  - apply fits_lxor; auto.
  - apply fits_land; auto.
  - apply fits_lor; auto.
  - apply fits_notw; auto.
  - apply fits_shlw.
  - apply fits_shrw; auto.
  - apply fits_rorw; auto.
  - apply fits_trunc.
  - apply fits_trunc.
Qed.
Lemma rok_op r d t : rok r -> d <> 0%nat -> wok t = true -> rok (setr r d (fev r t)).
Proof. intros. apply rok_set; auto. apply fev_fits; assumption. Qed.

(** ** Straight-line code *)
Lemma st_nil r M : runs (exec [] r) M M r. Proof. apply runs_ret. Qed.
Lemma st_app a b r M M1 M2 r1 r2 : runs (exec a r) M M1 r1 -> runs (exec b r1) M1 M2 r2 -> runs (exec (a ++ b) r) M M2 r2.
Proof.
  revert r M. induction a as [|i a IH]; intros r M Ha Hb; cbn [exec app] in *.
  - destruct Ha as [t Ha]. injection Ha as _ <- <-. exact Hb.
  - destruct Ha as [t Ha]. unfold bind in Ha. destruct (step i r M) as [t1 M' r'|] eqn:E; [|discriminate].
    destruct (exec a r' M') as [t2 M'' r''|] eqn:E2; [|discriminate]. injection Ha as _ -> ->.
    eapply runs_bind; [exists t1; exact E|]. apply IH; [exists t2; exact E2|exact Hb].
Qed.
Lemma st_op d t l r M M' r' : reglt t = true ->
  runs (exec l (setr r d (fev r t))) M M' r' -> runs (exec (Op d t :: l) r) M M' r'.
Proof.
  intros Ht H. cbn [exec step]. eapply runs_bind; [apply runs_ret|]. rewrite weval_rl by exact Ht. exact H.
Qed.
Lemma st_fn d f a b c l r M M' r' :
  runs (exec l (setr r d (f (r a) (r b) (r c)))) M M' r' -> runs (exec (Fn d f a b c :: l) r) M M' r'.
Proof. intros H. cbn [exec step]. eapply runs_bind; [apply runs_ret|exact H]. Qed.

Lemma addr_ok r b o p : r b + o = p -> p < 2 ^ 32 -> addr r b o = p.
Proof. intros <- H. unfold addr. apply trunc_fits. exact H. Qed.
Lemma aligned4_ok p : p mod 4 = 0 -> aligned4 p = true.
Proof. intros H. unfold aligned4. change 3 with (N.ones 2). rewrite N.land_ones. apply N.eqb_eq, H. Qed.
Lemma st_lw d b o bs l r M M' r' p : r b + o = p -> p < 2 ^ 32 -> p mod 4 = 0 -> readable M p bs -> length bs = 4%nat ->
  runs (exec l (setr r d (le_num bs))) M M' r' -> runs (exec (Lw d b o :: l) r) M M' r'.
Proof.
  intros Hp Hb Ha Hr Hl H. cbn [exec step]. rewrite (addr_ok r b o p Hp Hb), (aligned4_ok p Ha).
  eapply runs_bind; [|exact H]. eapply runs_bind; [|apply runs_ret].
  apply (runs_memcpy_in M p bs 4 Hr).
  - unfold len. rewrite Hl. reflexivity.
  - apply (readable_nonnull M p bs Hr). unfold len. lia.
Qed.
Lemma st_sw s b o l r M M' r' p : r b + o = p -> p < 2 ^ 32 -> p mod 4 = 0 -> writable M p 4 ->
  runs (exec l r) (write M p (le_bytes 4 (r s))) M' r' -> runs (exec (Sw s b o :: l) r) M M' r'.
Proof.
  intros Hp Hb Ha Hw H. cbn [exec step]. rewrite (addr_ok r b o p Hp Hb), (aligned4_ok p Ha).
  eapply runs_bind; [|exact H]. eapply runs_bind; [|apply runs_ret].
  apply runs_memcpy_out; [exact Hw|apply Hw; discriminate].
Qed.
Lemma st_lbu d b o v l r M M' r' p : r b + o = p -> p < 2 ^ 32 -> readable M p [v] ->
  runs (exec l (setr r d (b2n v))) M M' r' -> runs (exec (Lbu d b o :: l) r) M M' r'.
Proof.
  intros Hp Hb Hr H. cbn [exec step]. rewrite (addr_ok r b o p Hp Hb).
  eapply runs_bind; [|exact H]. eapply runs_bind; [apply (runs_memcpy_in M p [v] 1 Hr); [reflexivity|]|].
  - apply (readable_nonnull M p [v] Hr). discriminate.
  - replace (b2n v) with (le_num [v]); [apply runs_ret|]. cbn [le_num]. rewrite N.shiftl_0_l, N.lor_0_r. reflexivity.
Qed.
Lemma st_sb s b o l r M M' r' p : r b + o = p -> p < 2 ^ 32 -> writable M p 1 ->
  runs (exec l r) (write M p [n2b (r s)]) M' r' -> runs (exec (Sb s b o :: l) r) M M' r'.
Proof.
  intros Hp Hb Hw H. cbn [exec step]. rewrite (addr_ok r b o p Hp Hb).
  eapply runs_bind; [|exact H]. eapply runs_bind; [|apply runs_ret].
  apply (runs_memcpy_out M p (le_bytes 1 (r s))); [exact Hw|apply Hw; discriminate].
Qed.

(** ** Structured code *)
Lemma st_then f g r M M1 M2 r1 r2 : runs (f r) M M1 r1 -> runs (g r1) M1 M2 r2 -> runs (andthen f g r) M M2 r2.
Proof. intros H1 H2. unfold andthen. eapply runs_bind; eassumption. Qed.
Lemma st_cond b yes no r M M' r' : runs (if b r : bool then yes r else no r) M M' r' -> runs (cond b yes no r) M M' r'.
Proof. intros H. unfold cond. eapply runs_bind; [apply runs_branch|]. exact H. Qed.
Lemma st_skip r M : runs (skip r) M M r. Proof. apply runs_ret. Qed.
Lemma st_call link a f r M M' r' : runs (f (setr r link a)) M M' r' -> r' link = a -> runs (call link a f r) M M' r'.
Proof.
  intros H E. unfold call. eapply runs_bind; [exact H|]. rewrite E, N.eqb_refl. apply runs_ret.
Qed.

(** Signed comparisons of small numbers. *)
Lemma s32_small x : x < 2 ^ 31 -> s32 x = Z.of_N x.
Proof. intros H. unfold s32. replace (x <? 2 ^ 31) with true by lia. reflexivity. Qed.

(** Immediates and addresses. *)
Lemma trunc_sub a n : n <= a -> a < 2 ^ 32 -> n < 2 ^ 32 -> trunc 32 (a + neg n) = a - n.
Proof.
  intros H1 H2 H3. rewrite trunc_mod. unfold neg.
  destruct (N.eq_dec n 0) as [->|D].
  - replace (a + (2 ^ 32 - 0)) with (a + 1 * 2 ^ 32) by lia. rewrite N.mod_add by discriminate.
    rewrite N.mod_small by lia. lia.
  - replace (a + (2 ^ 32 - n)) with ((a - n) + 1 * 2 ^ 32) by lia. rewrite N.mod_add by discriminate.
    apply N.mod_small. lia.
Qed.
Lemma trunc_add a n : a + n < 2 ^ 32 -> trunc 32 (a + n) = a + n.
Proof. intros H. apply trunc_fits. exact H. Qed.
