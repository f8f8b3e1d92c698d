(** * RvMode.v -- the mode of the RISC-V implementations, for any variant
    whose parts obey [laws]. *)
From Coq Require Import Bool Arith NArith ZArith List Lia Init.Byte Strings.Byte ZifyBool ZifyNat ZifyN.
From Verif Require Import Words WordFacts Spec SpecFacts Spec12 Spec12Facts StateRep Asm ModelRv CMem Contract CMemFacts RvFacts RvRound.
Import ListNotations.
Local Open Scope N_scope.

(** ** Memory up to the stack frame *)
Definition near (F n : N) (M0 M : mem) : Prop :=
  (forall a, outside F n a -> M a = M0 a) /\ (forall a, can_write M0 a = true -> can_write M a = true).
Lemma near_refl F n M : near F n M M. Proof. split; auto. Qed.
Lemma near_trans F n M1 M2 M3 : near F n M1 M2 -> near F n M2 M3 -> near F n M1 M3.
Proof. intros [A B] [C D]. split; [|auto]. intros a Ha. rewrite (C a Ha). apply A, Ha. Qed.
Lemma near_frame F n M p l : F <= p -> p + len l <= F + n -> near F n M (write M p l).
Proof.
  intros H1 H2. split; [|intros a; apply can_write_write].
  intros a Ha. apply write_outside. unfold outside in *. lia.
Qed.
Lemma near_write F n M0 M p l : near F n M0 M -> near F n (write M0 p l) (write M p l).
Proof.
  intros [A B]. split; intros a; unfold can_write; destruct (write_cases M p l a) as [[Ho E]|(i & Hi & E & _)].
  - intros Ha. rewrite E, (A a Ha). symmetry. apply write_outside, Ho.
  - intros _. subst a. rewrite !write_inside by exact Hi. reflexivity.
  - rewrite E, (write_outside M0) by exact Ho. apply B.
  - subst a. rewrite !write_inside by exact Hi. reflexivity.
Qed.
Lemma near_wider F n n' M0 M : n <= n' -> near F n M0 M -> near F n' M0 M.
Proof. intros H [A B]. split; [|exact B]. intros a Ha. apply A. unfold outside in *. lia. Qed.
Lemma near_readable F n M0 M p l : near F n M0 M -> readable M0 p l -> disjoint F n p (len l) -> 0 < n -> readable M p l.
Proof.
  intros [A _] (H1 & H2 & H3) Hd Hn. split; [exact H1|split; [exact H2|]].
  intros i Hi. rewrite <- (H3 i Hi). unfold rd. rewrite A; [reflexivity|]. unfold outside, disjoint, len in *. lia.
Qed.
Lemma near_writable F n M0 M p k : near F n M0 M -> writable M0 p k -> writable M p k.
Proof. intros [_ B] (H1 & H2 & H3). split; [exact H1|split; [exact H2|]]. intros a X Y. apply B, (H3 a X Y). Qed.

Lemma mod4_16 a : a mod 4 = 0 -> (a + 16) mod 4 = 0.
Proof. intros H. change 16 with (4 * 4). rewrite N.mod_add by discriminate. exact H. Qed.

(** ** Stores of four words; parts of the frame *)
Lemma mod4_add a n : a mod 4 = 0 -> n mod 4 = 0 -> (a + n) mod 4 = 0.
Proof. intros Ha Hn. rewrite N.add_mod, Ha, Hn by discriminate. reflexivity. Qed.
Lemma sws_ok b p q s t k r M M' r' : r b mod 4 = 0 -> r b + 16 < 2 ^ 32 -> writable M (r b) 16 ->
  runs (exec k r) (write M (r b) (le_bytes 4 (r p) ++ le_bytes 4 (r q) ++ le_bytes 4 (r s) ++ le_bytes 4 (r t))) M' r' ->
  runs (exec (Sw p b 0 :: Sw q b 4 :: Sw s b 8 :: Sw t b 12 :: k) r) M M' r'.
Proof.
  intros Ha Hb Hw H.
  destruct (writable_split M (r b) 4 12 Hw) as [W1 W']. destruct (writable_split M (r b + 4) 4 8 W') as [W2 W''].
  destruct (writable_split M (r b + 4 + 4) 4 4 W'') as [W3 W4].
  apply st_sw with (p := r b); [lia|lia|exact Ha|exact W1|].
  apply st_sw with (p := r b + 4); [lia|lia|apply mod4_add; [exact Ha|reflexivity]|apply writable_write; exact W2|].
  apply st_sw with (p := r b + 4 + 4); [lia|lia|repeat (apply mod4_add; [|reflexivity]); exact Ha|do 2 apply writable_write; exact W3|].
  apply st_sw with (p := r b + 4 + 4 + 4); [lia|lia|repeat (apply mod4_add; [|reflexivity]); exact Ha|do 3 apply writable_write; exact W4|].
  rewrite !write_app in H. unfold len in H. rewrite !length_le_bytes in H. exact H.
Qed.
Lemma readable_overwrite M p a b t : readable M p (a ++ b) -> length a = length t -> readable (write M p t) p (t ++ b).
Proof.
  intros H E. assert (El : len a = len t) by (unfold len; lia).
  destruct (readable_app M p a b H) as [H1 H2]. apply readable_app_intro.
  - apply readable_write_self; [rewrite <- El; apply (readable_bound _ _ _ H1)|].
    intros D. destruct H1 as (_ & H1 & _). refine (H1 _). intros ->. destruct t; [exact (D eq_refl)|discriminate].
  - apply readable_write_disjoint; [rewrite <- El; exact H2|]. unfold disjoint. lia.
  - intros D. apply (readable_nonnull _ _ _ H). rewrite len_app. lia.
Qed.
Lemma readable_overwrite_mid M p a b c t : readable M p (a ++ b ++ c) -> length b = length t ->
  readable (write M (p + len a) t) p (a ++ t ++ c).
Proof.
  intros H E. destruct (readable_app M p a _ H) as [H1 H2].
  apply readable_app_intro; [|apply (readable_overwrite _ _ b); assumption|
    intros D; apply (readable_nonnull _ _ _ H); rewrite !len_app in *; unfold len in *; lia].
  apply readable_write_disjoint; [exact H1|]. unfold disjoint. lia.
Qed.
Lemma length_zeros n : length (zeros n) = n. Proof. apply repeat_length. Qed.


(** Bytes of the state in two registers. *)
Section laws.
Variable ldw : bytes -> N.
Variables ph pl : N -> N.
Definition hi (a : bytes) : N := half ph (ldw a).
Definition lo (a : bytes) : N := half pl (ldw a).
Definition Wd (r : regs) (h l : nat) (a : bytes) : Prop := length a = 8%nat /\ r h = hi a /\ r l = lo a.
Definition ldstate (S : bytes) : state :=
  let g i := ldw (firstn 8 (skipn (8 * i)%nat S)) in St (g 0%nat) (g 1%nat) (g 2%nat) (g 3%nat) (g 4%nat).
(** The 16 bytes at any address [p], in whole words. *)
Definition tag_at (M : mem) (p : N) (t : bytes) : Prop :=
  exists w, readable M (p - p mod 4) w /\ length w = (if p mod 4 =? 0 then 16%nat else 20%nat) /\
            t = firstn 16 (skipn (N.to_nat (p mod 4)) w).

Record laws (V : variant) (P : params) : Prop := {
  l_xor : forall a b, length a = 8%nat -> length b = 8%nat -> ldw (xor_into a b) = N.lxor (ldw a) (ldw b);
  l_inj : forall a b, length a = 8%nat -> length b = 8%nat -> hi a = hi b -> lo a = lo b -> a = b;
  l_perm : perm_law ph pl (v_data V) (v_perm V);
  l_plen : forall n S, length (perm_of P n S) = 40%nat;
  l_pst : forall n S, length S = 40%nat -> ldstate (perm_of P n S) = perm n (ldstate S);
  l_load : forall e ln b r M l0 l1, rok r -> readable M (r b) (l0 ++ l1) -> length l0 = 8%nat -> length l1 = 8%nat ->
    r b mod 4 = 0 -> r b + 16 < 2 ^ 32 -> memb b tregs = false -> fits 32 (lab e ln) ->
    exists r', runs (v_load V e ln b r) M M r' /\ Wd r' 28 29 l0 /\ Wd r' 30 31 l1 /\ rok r' /\ except tregs r r';
  l_store : forall r M a0 a1, rok r -> Wd r 8 9 a0 -> Wd r 18 19 a1 -> writable M (r 10%nat) 16 -> r 10%nat mod 4 = 0 ->
    r 10%nat + 16 < 2 ^ 32 ->
    exists r', runs (v_store V r) M (write M (r 10%nat) (a0 ++ a1)) r' /\ rok r' /\ except [5; 6; 7]%nat r r';
  l_conv : forall e ln r M a0 a1, rok r -> Wd r 28 29 a0 -> Wd r 30 31 a1 -> fits 32 (lab e ln) ->
    exists r', runs (v_conv V e ln r) M M r' /\ rok r' /\ except tregs r r' /\
      let '(p, q, s, t) := v_first V in
      r' p = le_num (firstn 4 a0) /\ r' q = le_num (skipn 4 a0) /\ r' s = le_num (firstn 4 a1) /\ r' t = le_num (skipn 4 a1);
  l_first : v_first V = le_first \/ v_first V = be_first;
  l_reload : forall e ln r M l0 l1, rok r -> readable M (r 2%nat) (l0 ++ l1) -> length l0 = 8%nat -> length l1 = 8%nat ->
    r 2%nat mod 4 = 0 -> r 2%nat + 16 < 2 ^ 32 -> fits 32 (lab e ln) ->
    exists r', runs (v_reload V e ln r) M M r' /\ Wd r' 8 9 l0 /\ Wd r' 18 19 l1 /\ rok r' /\
      except ([8; 9; 18; 19]%nat ++ tregs) r r';
  l_pad : n2b (v_pad V) = pad_of P /\ v_pad V < 256;
  l_sep : forall r M a, rok r -> Wd r 24 25 a ->
    exists r', runs (v_sep V r) M M r' /\ Wd r' 24 25 (xor_at 7 a [sep_of P]) /\ rok r' /\ except ([24; 25]%nat ++ tregs) r r';
  l_iv : fst (v_iv V) = hi (iv_of P) /\ snd (v_iv V) = lo (iv_of P) /\ length (iv_of P) = 8%nat;
  l_tag : forall e ln r M t0 t1, rok r -> tag_at M (r 13%nat) (t0 ++ t1) -> length t0 = 8%nat -> length t1 = 8%nat ->
    r 13%nat + 20 < 2 ^ 32 -> fits 32 (lab e ln) ->
    exists r', runs (v_tag V e ln r) M M r' /\ Wd r' 28 29 t0 /\ Wd r' 30 31 t1 /\ rok r' /\ except (26%nat :: tregs) r r'
}.

Variables (V : variant) (P : params) (L : laws V P) (e : env).
Hypothesis Hlab : forall n, fits 32 (lab e n).

(** ** The state *)
Lemma hi_xor a b : length a = 8%nat -> length b = 8%nat -> hi (xor_into a b) = N.lxor (hi a) (hi b).
Proof. intros. unfold hi. rewrite (l_xor V P L) by assumption. apply half_lxor. Qed.
Lemma lo_xor a b : length a = 8%nat -> length b = 8%nat -> lo (xor_into a b) = N.lxor (lo a) (lo b).
Proof. intros. unfold lo. rewrite (l_xor V P L) by assumption. apply half_lxor. Qed.
Lemma fits_hi a : fits 32 (hi a). Proof. apply fits_half. Qed.
Lemma fits_lo a : fits 32 (lo a). Proof. apply fits_half. Qed.

Record S5 (r : regs) (a0 a1 a2 a3 a4 : bytes) : Prop := {
  s_0 : Wd r 8 9 a0; s_1 : Wd r 18 19 a1; s_2 : Wd r 20 21 a2; s_3 : Wd r 22 23 a3; s_4 : Wd r 24 25 a4 }.
Definition cat5 (a0 a1 a2 a3 a4 : bytes) : bytes := a0 ++ a1 ++ a2 ++ a3 ++ a4.
Definition SS (r : regs) (S : bytes) : Prop := exists a0 a1 a2 a3 a4, S = cat5 a0 a1 a2 a3 a4 /\ S5 r a0 a1 a2 a3 a4.

Lemma Wd_except r r' l h w a : except l r r' -> memb h l = false -> memb w l = false -> Wd r h w a -> Wd r' h w a.
Proof. intros E H1 H2 (A & B & C). split; [exact A|]. rewrite (E h H1), (E w H2). split; assumption. Qed.
Lemma SS_except r r' l S : except l r r' -> forallb (fun i => negb (memb i l)) sregs = true -> SS r S -> SS r' S.
Proof.
  intros E H (a0 & a1 & a2 & a3 & a4 & HS & [H0 H1 H2 H3 H4]).
  unfold sregs in H. cbn [forallb] in H.
  repeat match goal with H : _ && _ = true |- _ => apply andb_prop in H; destruct H as [? H] end.
  exists a0, a1, a2, a3, a4. split; [exact HS|].
  constructor; (eapply Wd_except; [exact E|apply negb_true_iff; assumption|apply negb_true_iff; assumption|assumption]).
Qed.
Lemma SS_length r S : SS r S -> length S = 40%nat.
Proof.
  intros (a0 & a1 & a2 & a3 & a4 & -> & [[H0 _] [H1 _] [H2 _] [H3 _] [H4 _]]). unfold cat5. rewrite !app_length. lia.
Qed.
Lemma split8 (S : bytes) n : length S = (8 * Datatypes.S n)%nat -> exists a b, S = a ++ b /\ length a = 8%nat /\ length b = (8 * n)%nat.
Proof.
  intros H. exists (firstn 8 S), (skipn 8 S). split; [symmetry; apply firstn_skipn|].
  rewrite firstn_length_le, skipn_length by lia. lia.
Qed.
Lemma split5 (S : bytes) : length S = 40%nat -> exists a0 a1 a2 a3 a4, S = cat5 a0 a1 a2 a3 a4 /\
  length a0 = 8%nat /\ length a1 = 8%nat /\ length a2 = 8%nat /\ length a3 = 8%nat /\ length a4 = 8%nat.
Proof.
  intros H. destruct (split8 S 4 H) as (a0 & b0 & -> & H0 & Hb0).
  destruct (split8 b0 3 Hb0) as (a1 & b1 & -> & H1 & Hb1). destruct (split8 b1 2 Hb1) as (a2 & b2 & -> & H2 & Hb2).
  destruct (split8 b2 1 Hb2) as (a3 & a4 & -> & H3 & H4). exists a0, a1, a2, a3, a4. repeat split; assumption.
Qed.
Lemma ldstate_cat a0 a1 a2 a3 a4 : length a0 = 8%nat -> length a1 = 8%nat -> length a2 = 8%nat -> length a3 = 8%nat ->
  length a4 = 8%nat -> ldstate (cat5 a0 a1 a2 a3 a4) = St (ldw a0) (ldw a1) (ldw a2) (ldw a3) (ldw a4).
Proof.
  intros H0 H1 H2 H3 H4. unfold ldstate, cat5.
  assert (G : forall (a b : bytes) n, length a = 8%nat -> skipn (8 + n) (a ++ b) = skipn n b).
  { intros a b n Ha. rewrite <- (skipn_skipn n 8 (a ++ b)). rewrite skipn_app_exact by exact Ha. reflexivity. }
  change (8 * 0)%nat with 0%nat. change (8 * 1)%nat with (8 + 0)%nat. change (8 * 2)%nat with (8 + (8 + 0))%nat.
  change (8 * 3)%nat with (8 + (8 + (8 + 0)))%nat. change (8 * 4)%nat with (8 + (8 + (8 + (8 + 0))))%nat.
  rewrite !G by assumption. cbn [skipn].
  rewrite !(firstn_app_exact 8) by assumption. rewrite firstn_all2 by lia. reflexivity.
Qed.
Lemma SS_W r S : SS r S -> W ph pl r (ldstate S).
Proof.
  intros (a0 & a1 & a2 & a3 & a4 & -> & [(H0 & A0 & B0) (H1 & A1 & B1) (H2 & A2 & B2) (H3 & A3 & B3) (H4 & A4 & B4)]).
  rewrite ldstate_cat by assumption. constructor; assumption.
Qed.
Lemma W_SS r S : length S = 40%nat -> W ph pl r (ldstate S) -> SS r S.
Proof.
  intros HS HW. destruct (split5 S HS) as (a0 & a1 & a2 & a3 & a4 & -> & H0 & H1 & H2 & H3 & H4).
  rewrite ldstate_cat in HW by assumption. destruct HW as [A0 B0 A1 B1 A2 B2 A3 B3 A4 B4]. cbn [X0 X1 X2 X3 X4] in *.
  exists a0, a1, a2, a3, a4. split; [reflexivity|]. constructor; (split; [assumption|split; assumption]).
Qed.

Definition data_ok (M : mem) : Prop := readable M (tab e) (v_data V) /\ tab e + len (v_data V) < 2 ^ 32.

Lemma perm_ok ln a r S M : rok r -> SS r S -> data_ok M ->
  exists r', runs (v_perm V e ln a r) M M r' /\ SS r' (perm_of P (if a then 12%nat else 8%nat) S) /\ rok r' /\
    except (sregs ++ tregs) r r'.
Proof.
  intros Hr HS [D1 D2]. destruct (l_perm V P L e ln a r _ M Hr (SS_W r S HS) (Hlab ln) D1 D2) as (r' & R & HW & Hr' & E).
  exists r'. split; [exact R|split; [|split; [exact Hr'|exact E]]].
  apply W_SS; [apply (l_plen V P L)|]. rewrite (l_pst V P L) by (exact (SS_length r S HS)). exact HW.
Qed.

Lemma xor_into_app2 (a b c d : bytes) : length a = length b -> xor_into (a ++ c) (b ++ d) = xor_into a b ++ xor_into c d.
Proof.
  revert b. induction a as [|x a IH]; intros [|y b] H; cbn in *; try lia; [reflexivity|]. rewrite IH by lia. reflexivity.
Qed.
Lemma Wd_xor r h w r' a b (va vb : N) : Wd r h w a -> length b = 8%nat -> va = hi b -> vb = lo b ->
  r' h = N.lxor (r h) va -> r' w = N.lxor (r w) vb -> Wd r' h w (xor_into a b).
Proof.
  intros (Ha & A & B) Hb -> -> E1 E2. split; [rewrite length_xor_into; exact Ha|].
  rewrite E1, E2, A, B, hi_xor, lo_xor by assumption. split; reflexivity.
Qed.
Ltac rks := repeat (apply rok_op; [|discriminate|reflexivity]); assumption.
Ltac ops := repeat (apply st_op; [reflexivity|]); apply st_nil.
Ltac exs := repeat (apply except_set; [reflexivity|]); apply except_refl.

(** l.178-181 *)
Lemma xor_block_ok r S l0 l1 M : rok r -> SS r S -> Wd r 28 29 l0 -> Wd r 30 31 l1 ->
  exists r', runs (exec xor_block r) M M r' /\ SS r' (xor_into S (l0 ++ l1)) /\ rok r' /\ except [8; 9; 18; 19]%nat r r'.
Proof.
  intros Hr (a0 & a1 & a2 & a3 & a4 & -> & [H0 H1 H2 H3 H4]) (Z0 & A0 & B0) (Z1 & A1 & B1).
  eexists. split; [unfold xor_block; ops|]. split; [|split].
  - exists (xor_into a0 l0), (xor_into a1 l1), a2, a3, a4. split.
    + unfold cat5. rewrite xor_into_app2 by (destruct H0; lia).
      rewrite xor_into_app_l by (destruct H1; lia). reflexivity.
    + constructor.
      * apply (Wd_xor r 8 9 _ a0 l0 (r 28%nat) (r 29%nat)); try assumption; reflexivity.
      * apply (Wd_xor r 18 19 _ a1 l1 (r 30%nat) (r 31%nat)); try assumption; reflexivity.
      * exact H2.
      * exact H3.
      * exact H4.
  - rks.
  - exs.
Qed.
(** l.191-195 *)
Lemma take_block_ok r S l0 l1 M : rok r -> SS r S -> Wd r 28 29 l0 -> Wd r 30 31 l1 ->
  exists r', runs (exec take_block r) M M r' /\ SS r' ((l0 ++ l1) ++ skipn 16 S) /\ rok r' /\ except [8; 9; 18; 19]%nat r r'.
Proof.
  intros Hr (a0 & a1 & a2 & a3 & a4 & -> & [H0 H1 H2 H3 H4]) Z0 Z1.
  eexists. split; [unfold take_block; ops|]. split; [|split].
  - exists l0, l1, a2, a3, a4. split.
    + unfold cat5. replace (skipn 16 (a0 ++ a1 ++ a2 ++ a3 ++ a4)) with (a2 ++ a3 ++ a4); [rewrite <- app_assoc; reflexivity|].
      rewrite (app_assoc a0 a1). symmetry. apply skipn_app_exact. rewrite app_length. destruct H0, H1. lia.
    + constructor; [exact Z0|exact Z1|exact H2|exact H3|exact H4].
  - rks.
  - exs.
Qed.

(** ** Copying bytes, l.147-165 *)
Lemma readable_tail M p b l : readable M p (b :: l) -> readable M p [b] /\ readable M (p + 1) l.
Proof. intros H. apply (readable_app M p [b] l) in H. exact H. Qed.
Lemma blt_small a b r : r a < 2 ^ 31 -> r b < 2 ^ 31 -> blt a b r = (r a <? r b).
Proof. intros Ha Hb. unfold blt. rewrite !s32_small by assumption. lia. Qed.
Lemma memcpy_loop l : forall f i r M, rok r -> (length l < f)%nat -> readable M (r 7%nat) l -> writable M (r 6%nat) (len l) ->
  disjoint (r 6%nat) (len l) (r 7%nat) (len l) -> r 6%nat + len l < 2 ^ 32 -> r 7%nat + len l < 2 ^ 32 ->
  r 28%nat = i -> r 14%nat = i + len l -> i + len l < 2 ^ 31 ->
  exists r', runs (while f (blt 28 14) (fun r => r <- exec [Lbu 29 7 0; Sb 29 6 0; addi 6 6 1; addi 7 7 1; addi 28 28 1] r ;; exec [] r) r)
      M (write M (r 6%nat) l) r' /\ rok r' /\ except [6; 7; 28; 29]%nat r r'.
Proof.
  induction l as [|b l IH]; intros f i r M Hr Hf Hrd Hwr Hdj H6 H7 Hi H14 Hb; (destruct f as [|f]; [cbn in Hf; lia|]).
  - exists r. split; [|split; [exact Hr|apply except_refl]]. apply runs_while_end.
    rewrite blt_small; rewrite ?Hi, ?H14, len_nil in *; lia.
  - rewrite len_cons in *. destruct (readable_tail _ _ _ _ Hrd) as [Rb Rl].
    destruct (writable_split M (r 6%nat) 1 (len l) Hwr) as [Wb Wl].
    set (r1 := setr (setr (setr (setr r 29 (b2n b)) 6 (r 6%nat + 1)) 7 (r 7%nat + 1)) 28 (r 28%nat + 1)).
    set (M1 := write M (r 6%nat) [b]).
    assert (Hr1 : rok r1).
    { unfold r1. repeat (apply rok_set; [|discriminate|]); [exact Hr|..]; unfold fits; try lia.
      pose proof (b2n_lt b). lia. }
    destruct (IH f (i + 1) r1 M1) as (r2 & R2 & Hr2 & E2).
    + exact Hr1.
    + cbn in Hf. lia.
    + change (r1 7%nat) with (r 7%nat + 1). apply readable_write_disjoint; [exact Rl|].
      change (len [b]) with 1. unfold disjoint in *. lia.
    + apply writable_write. exact Wl.
    + change (r1 7%nat) with (r 7%nat + 1). change (r1 6%nat) with (r 6%nat + 1). unfold disjoint in *. lia.
    + change (r1 6%nat) with (r 6%nat + 1). lia.
    + change (r1 7%nat) with (r 7%nat + 1). lia.
    + change (r1 28%nat) with (r 28%nat + 1). lia.
    + change (r1 14%nat) with (r 14%nat). lia.
    + lia.
    + exists r2. split; [|split; [exact Hr2|]].
      * apply runs_while_step with (s1 := r1) (M1 := M1); [| |exact R2].
        -- rewrite blt_small; lia.
        -- eapply runs_bind; [|apply st_nil].
           apply (st_lbu 29 7 0 b _ _ _ _ _ (r 7%nat)); [lia|lia|exact Rb|].
           apply (st_sb 29 6 0 _ _ _ _ _ (r 6%nat)); [cbn; lia|lia|exact Wb|].
           change (n2b (setr r 29 (b2n b) 29%nat)) with (n2b (b2n b)). rewrite n2b_b2n. fold M1.
           apply st_op; [reflexivity|]. apply st_op; [reflexivity|]. apply st_op; [reflexivity|].
           cbn [fev]. change (setr r 29 (b2n b) 6%nat) with (r 6%nat). rewrite (trunc_add (r 6%nat)) by lia.
           change (setr (setr r 29 (b2n b)) 6 (r 6%nat + 1) 7%nat) with (r 7%nat). rewrite (trunc_add (r 7%nat)) by lia.
           change (setr (setr (setr r 29 (b2n b)) 6 (r 6%nat + 1)) 7 (r 7%nat + 1) 28%nat) with (r 28%nat).
           rewrite (trunc_add (r 28%nat)) by lia. apply st_nil.
      * apply except_trans with r1; [unfold r1; exs|exact E2].
Qed.
Lemma memcpy_ok ln l r M : rok r -> readable M (r 7%nat) l -> writable M (r 6%nat) (len l) ->
  disjoint (r 6%nat) (len l) (r 7%nat) (len l) -> r 6%nat + len l < 2 ^ 32 -> r 7%nat + len l < 2 ^ 32 ->
  r 14%nat = len l -> len l < 2 ^ 31 ->
  exists r', runs (call 5 (lab e ln) ascon_memcpy r) M (write M (r 6%nat) l) r' /\ rok r' /\ except tregs r r'.
Proof.
  intros Hr Hrd Hwr Hdj H6 H7 H14 Hb.
  set (r1 := setr (setr r 5 (lab e ln)) 28 0).
  assert (Hr1 : rok r1).
  { unfold r1. repeat (apply rok_set; [|discriminate|]); [exact Hr|apply Hlab|apply fits_0]. }
  destruct (memcpy_loop l (S (N.to_nat (r 14%nat))) 0 r1 M Hr1) as (r2 & R2 & Hr2 & E2); try assumption.
  - unfold len in *. lia.
  - reflexivity.
  - exists r2. split; [|split; [exact Hr2|]].
    + apply st_call; [|rewrite (E2 5%nat eq_refl); reflexivity].
      unfold ascon_memcpy. apply st_then with (M1 := M) (r1 := r1); [apply st_op; [reflexivity|]; apply st_nil|].
      unfold loop. eapply runs_bind; [apply st_nil|]. exact R2.
    + apply except_trans with r1; [unfold r1; exs|]. apply (except_sub [6; 7; 28; 29]%nat); [reflexivity|exact E2].
Qed.

(** ** The duplex *)
Inductive md := Ab | En | De.
Definition mdv (m : md) : N := match m with Ab => 0 | En => 1 | De => 0xffffffff end.
Definition blk (m : md) (S b : bytes) : bytes := match m with De => b ++ skipn 16 S | _ => xor_into S b end.
Definition outb (m : md) (S b : bytes) : bytes := match m with Ab => [] | _ => xor_into b S end.
Definition fin (m : md) (S t : bytes) : bytes :=
  match m with De => xor_at (length t) (t ++ skipn (length t) S) [pad_of P] | _ => xor_into S (t ++ [pad_of P]) end.
Definition dd (m : md) (f : nat) (S l : bytes) : bytes * bytes :=
  match m with Ab => (d_absorb P f S l, []) | En => d_encrypt P f S l | De => d_decrypt P f S l end.
Lemma dd_short m f S l : (length l < 16)%nat -> dd m f S l = (fin m S l, outb m S l).
Proof.
  intros H. apply Nat.ltb_lt in H.
  destruct m, f; cbn [dd d_absorb d_encrypt d_decrypt fin outb]; rewrite ?H; reflexivity.
Qed.
Lemma dd_long m f S b l : length b = 16%nat ->
  dd m (Datatypes.S f) S (b ++ l) =
  (fst (dd m f (perm_of P 8 (blk m S b)) l), outb m S b ++ snd (dd m f (perm_of P 8 (blk m S b)) l)).
Proof.
  intros H. assert (E : Nat.ltb (length (b ++ l)) 16 = false) by (apply Nat.ltb_ge; rewrite app_length; lia).
  destruct m; cbn [dd d_absorb d_encrypt d_decrypt blk outb]; rewrite E, (firstn_app_exact 16), (skipn_app_exact 16) by exact H.
  - reflexivity.
  - destruct (d_encrypt P f (perm_of P 8 (xor_into S b)) l). reflexivity.
  - destruct (d_decrypt P f (perm_of P 8 (b ++ skipn 16 S)) l). reflexivity.
Qed.

Lemma beq_mode m r : rok r -> r 17%nat = mdv m -> beq 17 0 r = match m with Ab => true | _ => false end.
Proof. intros Hr H. unfold beq. rewrite H, (rok_0 r Hr). destruct m; reflexivity. Qed.
Lemma bge_mode m r : rok r -> r 17%nat = mdv m -> bge 17 0 r = match m with De => false | _ => true end.
Proof. intros Hr H. unfold bge. rewrite H, (rok_0 r Hr). destruct m; reflexivity. Qed.

(** What a text of [l] bytes at iptr needs. *)
Record pre (m : md) (r : regs) (M : mem) (l : bytes) : Prop := {
  p_in : readable M (r 13%nat) l; p_inb : r 13%nat + len l < 2 ^ 32;
  p_ina : 16 <= len l -> r 13%nat mod 4 = 0;
  p_len : r 14%nat = len l; p_lenb : len l < 2 ^ 31; p_mode : r 17%nat = mdv m;
  p_out : m <> Ab -> writable M (r 10%nat) (len l) /\ r 10%nat + len l < 2 ^ 32 /\
    (16 <= len l -> r 10%nat mod 4 = 0) /\ disjoint (r 10%nat) (len l) (r 13%nat) (len l) /\
    disjoint (r 10%nat) (len l) (tab e) (len (v_data V))
}.
Definition wout (m : md) (M : mem) (p : N) (l : bytes) : mem := match m with Ab => M | _ => write M p l end.

Definition body : code :=
  v_load V e 1189 13 >>> exec xor_block >>>
     cond (beq 17 0) skip (v_store V) >>>
     cond (bge 17 0) skip (exec take_block) >>>
     v_perm V e 199 false >>>
     exec [addi 10 10 16; addi 13 13 16; addi 14 14 (neg 16)].
Lemma body_ok m r S b l M : rok r -> SS r S -> pre m r M (b ++ l) -> length b = 16%nat -> data_ok M ->
  exists r', runs (body r) M (wout m M (r 10%nat) (outb m S b)) r' /\
    SS r' (perm_of P 8 (blk m S b)) /\ rok r' /\ pre m r' (wout m M (r 10%nat) (outb m S b)) l /\
    (m <> Ab -> r' 10%nat = r 10%nat + 16) /\ r' 13%nat = r 13%nat + 16 /\
    data_ok (wout m M (r 10%nat) (outb m S b)) /\
    except ([10; 13; 14]%nat ++ sregs ++ tregs) r r'.
Proof.
  intros Hr HS [Pi Pib Pia Pl Plb Pm Po] Hb HD.
  assert (Lb : len b = 16) by (unfold len; lia).
  rewrite len_app, Lb in *.
  destruct (readable_app M _ b l Pi) as [Pi1 Pi2]. rewrite Lb in Pi2.
  assert (H40 := SS_length r S HS).
  set (l0 := firstn 8 b). set (l1 := skipn 8 b).
  assert (Eb : b = l0 ++ l1) by (symmetry; apply firstn_skipn).
  assert (L0 : length l0 = 8%nat) by (apply firstn_length_le; lia).
  assert (L1 : length l1 = 8%nat) by (unfold l1; rewrite skipn_length; lia).
  destruct (l_load V P L e 1189 13%nat r M l0 l1 Hr ltac:(rewrite <- Eb; exact Pi1) L0 L1 (Pia ltac:(lia)) ltac:(lia)
              eq_refl (Hlab _)) as (r1 & R1 & T0 & T1 & Hr1 & E1).
  assert (HS1 : SS r1 S) by (apply (SS_except r r1 _ S E1); [reflexivity|exact HS]).
  destruct (xor_block_ok r1 S l0 l1 M Hr1 HS1 T0 T1) as (r2 & R2 & HS2 & Hr2 & E2).
  rewrite <- Eb in HS2.
  assert (T0' : Wd r2 28 29 l0) by (apply (Wd_except r1 r2 _ 28 29 l0 E2); [reflexivity|reflexivity|exact T0]).
  assert (T1' : Wd r2 30 31 l1) by (apply (Wd_except r1 r2 _ 30 31 l1 E2); [reflexivity|reflexivity|exact T1]).
  assert (G2 : forall i, memb i ([8; 9; 18; 19]%nat ++ tregs) = false -> r2 i = r i).
  { intros i Hi. rewrite memb_app in Hi. apply orb_false_iff in Hi. destruct Hi as [Ha Hc].
    rewrite (E2 i Ha). apply (E1 i Hc). }
  (* output *)
  set (M1 := wout m M (r 10%nat) (outb m S b)).
  assert (X3 : exists r3, runs (cond (beq 17 0) skip (v_store V) r2) M M1 r3 /\ SS r3 (xor_into S b) /\ rok r3 /\
             except [5; 6; 7]%nat r2 r3).
  { assert (C := beq_mode m r2 Hr2 ltac:(rewrite (G2 17%nat eq_refl); exact Pm)).
    assert (D : m = Ab \/ m <> Ab) by (destruct m; [left; reflexivity|right; discriminate|right; discriminate]).
    destruct D as [->|D].
    - exists r2. split; [apply st_cond; rewrite C; apply st_skip|].
      split; [exact HS2|split; [exact Hr2|apply except_refl]].
    - destruct (Po D) as (Pw & Pwb & Pwa & _ & _).
      replace (match m with Ab => true | _ => false end) with false in C by (destruct m; congruence).
      pose proof HS2 as (a0 & a1 & a2 & a3 & a4 & HE & [H0 H1 _ _ _]).
      assert (E10 : r2 10%nat = r 10%nat) by (apply G2; reflexivity).
      destruct (l_store V P L r2 M a0 a1 Hr2 H0 H1) as (r3 & R3 & Hr3 & E3).
      + rewrite E10. apply (writable_split M _ 16 (len l)). exact Pw.
      + rewrite E10. apply Pwa. lia.
      + rewrite E10. lia.
      + exists r3. split; [apply st_cond; rewrite C|].
        * replace M1 with (write M (r2 10%nat) (a0 ++ a1)); [exact R3|]. rewrite E10.
          assert (EE : a0 ++ a1 = xor_into b S).
          { transitivity (firstn 16 (xor_into S b)).
            - rewrite HE. unfold cat5. rewrite app_assoc. symmetry. apply firstn_app_exact.
              rewrite app_length. destruct H0, H1. lia.
            - rewrite firstn_xor_into, (firstn_all2 b) by lia. symmetry. rewrite <- Hb. apply Spec12Facts.xor_comm_firstn. lia. }
          unfold M1. rewrite EE. destruct m; [congruence|reflexivity|reflexivity].
        * split; [apply (SS_except r2 r3 _ _ E3); [reflexivity|exact HS2]|]. split; [exact Hr3|exact E3]. }
  destruct X3 as (r3 & R3 & HS3 & Hr3 & E3).
  assert (HD1 : data_ok M1).
  { destruct HD as [D1 D2]. split; [|exact D2]. unfold M1. destruct m; [exact D1| |];
      (destruct Po as (_ & _ & _ & _ & Pd); [discriminate|]; apply readable_write_disjoint; [exact D1|];
       cbn [outb]; unfold disjoint, len in *; rewrite length_xor_into, Hb; lia). }
  assert (X4 : exists r4, runs (cond (bge 17 0) skip (exec take_block) r3) M1 M1 r4 /\ SS r4 (blk m S b) /\ rok r4 /\
             except [8; 9; 18; 19]%nat r3 r4).
  { assert (C := bge_mode m r3 Hr3 ltac:(rewrite (E3 17%nat eq_refl), (G2 17%nat eq_refl); exact Pm)).
    destruct m.
    1,2: exists r3; (split; [apply st_cond; rewrite C; apply st_skip|]); split; [exact HS3|split; [exact Hr3|apply except_refl]].
    destruct (take_block_ok r3 (xor_into S b) l0 l1 M1 Hr3 HS3) as (r4 & R4 & HS4 & Hr4 & E4).
    - apply (Wd_except r2 r3 _ 28 29 l0 E3); [reflexivity|reflexivity|exact T0'].
    - apply (Wd_except r2 r3 _ 30 31 l1 E3); [reflexivity|reflexivity|exact T1'].
    - exists r4. split; [apply st_cond; rewrite C; exact R4|]. split; [|split; [exact Hr4|exact E4]].
      rewrite <- Eb in HS4. rewrite skipn_xor_into in HS4 by lia. exact HS4. }
  destruct X4 as (r4 & R4 & HS4 & Hr4 & E4).
  destruct (perm_ok 199 false r4 _ M1 Hr4 HS4 HD1) as (r5 & R5 & HS5 & Hr5 & E5).
  assert (G5 : forall i, memb i (sregs ++ tregs) = false -> r5 i = r i).
  { intros i Hi. rewrite (E5 i Hi). 
    assert (E14 : except (sregs ++ tregs) r r4).
    { apply except_trans with r1; [apply (except_sub tregs); [reflexivity|exact E1]|].
      apply except_trans with r2; [apply (except_sub [8; 9; 18; 19]%nat); [reflexivity|exact E2]|].
      apply except_trans with r3; [apply (except_sub [5; 6; 7]%nat); [reflexivity|exact E3]|].
      apply (except_sub [8; 9; 18; 19]%nat); [reflexivity|exact E4]. }
    apply E14, Hi. }
  set (r6 := setr (setr (setr r5 10 (trunc 32 (r 10%nat + 16))) 13 (r 13%nat + 16)) 14 (len l)).
  exists r6.
  assert (Rall : runs (body r) M M1 r6).
  { unfold body.
    apply st_then with (M1 := M) (r1 := r1); [exact R1|]. apply st_then with (M1 := M) (r1 := r2); [exact R2|].
    apply st_then with (M1 := M1) (r1 := r3); [exact R3|]. apply st_then with (M1 := M1) (r1 := r4); [exact R4|].
    apply st_then with (M1 := M1) (r1 := r5); [exact R5|].
    apply st_op; [reflexivity|]. apply st_op; [reflexivity|]. apply st_op; [reflexivity|].
    cbn [fev].
    rewrite (G5 10%nat eq_refl).
    change (setr r5 10 (trunc 32 (r 10%nat + 16)) 13%nat) with (r5 13%nat). rewrite (G5 13%nat eq_refl).
    rewrite (trunc_add (r 13%nat) 16) by lia.
    change (setr (setr r5 10 (trunc 32 (r 10%nat + 16))) 13 (r 13%nat + 16) 14%nat) with (r5 14%nat).
    rewrite (G5 14%nat eq_refl), Pl, trunc_sub by lia. replace (16 + len l - 16) with (len l) by lia. apply st_nil. }
  assert (E10 : m <> Ab -> r6 10%nat = r 10%nat + 16).
  { intros D. destruct (Po D) as (_ & Pwb & _). change (r6 10%nat) with (trunc 32 (r 10%nat + 16)). apply trunc_add. lia. }
  split; [exact Rall|]. split; [|split; [|split; [|split; [exact E10|split; [reflexivity|split; [exact HD1|]]]]]].
  - apply (SS_except r5 r6 [10; 13; 14]%nat); [unfold r6; exs|reflexivity|exact HS5].
  - unfold r6. repeat (apply rok_set; [|discriminate|]); [exact Hr5|apply fits_trunc| |]; unfold fits; lia.
  - change (r6 13%nat) with (r 13%nat + 16). constructor.
    + change (r6 13%nat) with (r 13%nat + 16).
      unfold M1. destruct m; [exact Pi2| |]; (destruct Po as (_ & _ & _ & Pd & _); [discriminate|];
       apply readable_write_disjoint; [exact Pi2|]; cbn [outb]; unfold disjoint, len in *; rewrite length_xor_into, Hb; lia).
    + change (r6 13%nat) with (r 13%nat + 16). lia.
    + change (r6 13%nat) with (r 13%nat + 16). intros _. apply mod4_16, Pia. lia.
    + reflexivity.
    + lia.
    + change (r6 17%nat) with (r5 17%nat). rewrite (G5 17%nat eq_refl). exact Pm.
    + intros D. rewrite (E10 D). change (r6 13%nat) with (r 13%nat + 16). destruct (Po D) as (Pw & Pwb & Pwa & Pd1 & Pd2).
      split; [|split; [lia|split; [intros _; apply mod4_16, Pwa; lia|]]].
      * unfold M1. replace (wout m M (r 10%nat) (outb m S b)) with (write M (r 10%nat) (xor_into b S))
          by (destruct m; [congruence|reflexivity|reflexivity]).
        apply writable_write. apply (writable_split M _ 16 (len l)). exact Pw.
      * unfold disjoint in *. split; lia.
  - apply except_trans with r5; [|unfold r6; exs].
    intros i Hi. apply G5. rewrite memb_app in Hi. apply orb_false_iff in Hi. apply Hi.
Qed.

Lemma dloop_ok m : forall n l f S r M, (length l <= n)%nat -> (length l < f)%nat -> rok r -> SS r S -> pre m r M l ->
  r 5%nat = 16 -> data_ok M ->
  exists head tail out1 S1 r',
    l = head ++ tail /\ (length tail < 16)%nat /\ (m <> Ab -> length out1 = length head) /\
    runs (while f (bge 14 5) (fun r => r <- body r ;; exec [li 5 16] r) r) M (wout m M (r 10%nat) out1) r' /\
    SS r' S1 /\ rok r' /\ pre m r' (wout m M (r 10%nat) out1) tail /\
    (m <> Ab -> r' 10%nat = r 10%nat + len head) /\ r' 13%nat = r 13%nat + len head /\
    data_ok (wout m M (r 10%nat) out1) /\
    (forall g, (length l <= g)%nat -> dd m g S l = (fin m S1 tail, out1 ++ outb m S1 tail)) /\
    (m = Ab -> out1 = []) /\
    except ([10; 13; 14]%nat ++ sregs ++ tregs) r r'.
Proof.
  induction n as [n IH] using lt_wf_ind. intros l f S r M Hn Hf Hr HS Hp H5 HD.
  destruct f as [|f]; [lia|]. pose proof Hp as [_ _ _ Pl Plb _ _].
  assert (C : bge 14 5 r = (16 <=? len l)) by (rewrite bge_small; rewrite ?Pl, ?H5; [reflexivity|lia|reflexivity]).
  destruct (N.leb_spec 16 (len l)) as [H16|H16].
  - set (b := firstn 16 l). set (l' := skipn 16 l).
    assert (El : l = b ++ l') by (symmetry; apply firstn_skipn).
    assert (Hb : length b = 16%nat) by (apply firstn_length_le; unfold len in H16; lia).
    assert (Hl' : length l = (16 + length l')%nat) by (rewrite El, app_length; lia).
    rewrite El in Hp.
    destruct (body_ok m r S b l' M Hr HS Hp Hb HD) as (r1 & R1 & HS1 & Hr1 & Hp1 & E10 & E13 & HD1 & E1).
    set (M1 := wout m M (r 10%nat) (outb m S b)) in *.
    set (r2 := setr r1 5 16).
    assert (Hr2 : rok r2) by (apply rok_set; [exact Hr1|discriminate|reflexivity]).
    assert (HS2 : SS r2 (perm_of P 8 (blk m S b))).
    { apply (SS_except r1 r2 [5%nat]); [unfold r2; exs|reflexivity|exact HS1]. }
    assert (Hp2 : pre m r2 M1 l') by (destruct Hp1; constructor; assumption).
    destruct (IH (length l') ltac:(lia) l' f _ r2 M1 (le_n _) ltac:(lia) Hr2 HS2 Hp2 eq_refl HD1)
      as (head & tail & out1 & S1 & r3 & El2 & Ht & Hlo & R3 & HS3 & Hr3 & Hp3 & E103 & E133 & HD3 & Hdd & Hab & E3).
    assert (Wm : wout m M1 (r2 10%nat) out1 = wout m M (r 10%nat) (outb m S b ++ out1)).
    { unfold M1. change (r2 10%nat) with (r1 10%nat). destruct m; [reflexivity| |];
        (cbn [wout]; rewrite E10 by discriminate; rewrite write_app; f_equal;
         cbn [outb]; unfold len; rewrite length_xor_into, Hb; reflexivity). }
    rewrite Wm in *.
    exists (b ++ head), tail, (outb m S b ++ out1), S1, r3.
    split; [rewrite <- app_assoc, <- El2; exact El|]. split; [exact Ht|].
    split; [|split; [|split; [exact HS3|split; [exact Hr3|split; [exact Hp3|split; [|split; [|split; [exact HD3|split; [|split]]]]]]]]].
    + intros D. rewrite !app_length, (Hlo D), Hb. f_equal. destruct m; [congruence| |]; cbn [outb]; rewrite length_xor_into; exact Hb.
    + apply runs_while_step with (s1 := r2) (M1 := M1); [exact C| |exact R3].
      eapply runs_bind; [exact R1|]. apply st_op; [reflexivity|]. apply st_nil.
    + intros D. rewrite (E103 D). change (r2 10%nat) with (r1 10%nat). rewrite (E10 D), len_app. unfold len at 2. rewrite Hb. lia.
    + rewrite E133. change (r2 13%nat) with (r1 13%nat). rewrite E13, len_app. unfold len at 2. rewrite Hb. lia.
    + intros g Hg. destruct g as [|g]; [lia|]. rewrite El, dd_long by exact Hb. rewrite (Hdd g ltac:(lia)).
      cbn [fst snd]. rewrite app_assoc. reflexivity.
    + intros ->. rewrite (Hab eq_refl). reflexivity.
    + apply except_trans with r1; [exact E1|]. apply except_trans with r2; [unfold r2; exs|exact E3].
  - exists [], l, [], S, r. 
    assert (Hl : (length l < 16)%nat) by (unfold len in H16; lia).
    assert (Wm : wout m M (r 10%nat) [] = M) by (destruct m; reflexivity).
    rewrite Wm. rewrite len_nil, !N.add_0_r.
    split; [reflexivity|]. split; [exact Hl|]. split; [reflexivity|].
    split; [apply runs_while_end; exact C|]. split; [exact HS|]. split; [exact Hr|]. split; [exact Hp|].
    split; [reflexivity|]. split; [reflexivity|]. split; [exact HD|].
    split; [intros g _; apply dd_short, Hl|]. split; [reflexivity|]. apply except_refl.
Qed.
Lemma duplex_loop_ok m l S r M : rok r -> SS r S -> pre m r M l -> data_ok M ->
  exists head tail out1 S1 r',
    l = head ++ tail /\ (length tail < 16)%nat /\ (m <> Ab -> length out1 = length head) /\
    runs (duplex_loop V e r) M (wout m M (r 10%nat) out1) r' /\
    SS r' S1 /\ rok r' /\ pre m r' (wout m M (r 10%nat) out1) tail /\
    (m <> Ab -> r' 10%nat = r 10%nat + len head) /\ r' 13%nat = r 13%nat + len head /\
    data_ok (wout m M (r 10%nat) out1) /\
    dd m (length l) S l = (fin m S1 tail, out1 ++ outb m S1 tail) /\
    (m = Ab -> out1 = []) /\
    except ([10; 13; 14]%nat ++ sregs ++ tregs) r r'.
Proof.
  intros Hr HS Hp HD. set (r1 := setr r 5 16).
  assert (E1 : except [5%nat] r r1) by (unfold r1; exs).
  destruct (dloop_ok m (length l) l (Datatypes.S (N.to_nat (r1 14%nat))) S r1 M (le_n _)) as
    (head & tail & out1 & S1 & r3 & El2 & Ht & Hlo & R3 & HS3 & Hr3 & Hp3 & E103 & E133 & HD3 & Hdd & Hab & E3).
  - change (r1 14%nat) with (r 14%nat). rewrite (p_len _ _ _ _ Hp). unfold len. lia.
  - apply rok_set; [exact Hr|discriminate|reflexivity].
  - apply (SS_except r r1 _ _ E1); [reflexivity|exact HS].
  - destruct Hp as [Pi Pib Pia Pl Plb Pm Po]. constructor; assumption.
  - reflexivity.
  - exact HD.
  - exists head, tail, out1, S1, r3. change (r1 10%nat) with (r 10%nat) in *. change (r1 13%nat) with (r 13%nat) in *.
    split; [exact El2|]. split; [exact Ht|]. split; [exact Hlo|]. split.
    + unfold duplex_loop, loop. eapply runs_bind; [apply st_op; [reflexivity|]; apply st_nil|]. exact R3.
    + split; [exact HS3|]. split; [exact Hr3|]. split; [exact Hp3|]. split; [exact E103|]. split; [exact E133|].
      split; [exact HD3|]. split; [apply Hdd, le_n|]. split; [exact Hab|].
      apply except_trans with r1; [|exact E3]. apply (except_sub [5%nat]); [reflexivity|exact E1].
Qed.

(** ** The last block, l.209-268 *)
Record fr (r : regs) (M : mem) (t : bytes) (m : md) : Prop := {
  f_w : writable M (r 2%nat) 16; f_a : r 2%nat mod 4 = 0; f_b : r 2%nat + 16 < 2 ^ 32;
  f_i : disjoint (r 2%nat) 16 (r 13%nat) (len t); f_o : m <> Ab -> disjoint (r 2%nat) 16 (r 10%nat) (len t);
  f_t : disjoint (r 2%nat) 16 (tab e) (len (v_data V)) }.

Lemma first_words r M a0 a1 M' r' k : r 2%nat mod 4 = 0 -> r 2%nat + 16 < 2 ^ 32 -> writable M (r 2%nat) 16 ->
  length a0 = 8%nat -> length a1 = 8%nat ->
  (let '(p, q, s, t) := v_first V in
      r p = le_num (firstn 4 a0) /\ r q = le_num (skipn 4 a0) /\ r s = le_num (firstn 4 a1) /\ r t = le_num (skipn 4 a1)) ->
  runs (exec k r) (write M (r 2%nat) (a0 ++ a1)) M' r' ->
  runs (exec (sws 2 (v_first V) ++ k) r) M M' r'.
Proof.
  intros Ha Hb Hw H0 H1. destruct (v_first V) as [[[p q] s] t]. intros (Ep & Eq & Es & Et) H.
  unfold sws. cbn [app]. apply sws_ok; [exact Ha|exact Hb|exact Hw|].
  rewrite Ep, Eq, Es, Et, !le_bytes_le_num by (rewrite ?firstn_length_le, ?skipn_length; lia).
  rewrite (app_assoc (firstn 4 a0)), !firstn_skipn. exact H.
Qed.

Lemma end_ok m r S t M : rok r -> SS r S -> pre m r M t -> (length t < 16)%nat -> data_ok M -> fr r M t m ->
  exists r' M', runs (duplex_end V e r) M M' r' /\ near (r 2%nat) 16 (wout m M (r 10%nat) (outb m S t)) M' /\
    SS r' (fin m S t) /\ rok r' /\ (m <> Ab -> r' 10%nat = r 10%nat + len t) /\ r' 13%nat = r 13%nat + len t /\
    except ([10; 13]%nat ++ sregs ++ tregs) r r'.
Proof.
  intros Hr HS [Pi Pib _ Pl _ Pm Po] Ht HD [Fw Fa Fb Fi Fo Ft].
  set (F := r 2%nat) in *. set (n := length t) in *.
  assert (Ln : len t = N.of_nat n) by reflexivity.
  assert (H40 := SS_length r S HS).
  assert (F64 : F + 16 < 2 ^ 64) by lia.
  assert (F0 : F <> 0) by (apply Fw; discriminate).
  (* zeros *)
  set (r1 := setr (setr r 6 F) 7 (r 13%nat)).
  set (M1 := write M F (zeros 16)).
  assert (Hr1 : rok r1) by (unfold r1; repeat (apply rok_set; [|discriminate|apply Hr]); exact Hr).
  assert (R1 : runs (exec [Sw 0 2 0; Sw 0 2 4; Sw 0 2 8; Sw 0 2 12; mv 6 2; mv 7 13] r) M M1 r1).
  { apply sws_ok; [exact Fa|exact Fb|exact Fw|]. rewrite (rok_0 r Hr).
    apply st_op; [reflexivity|]. apply st_op; [reflexivity|]. apply st_nil. }
  assert (Q1 : readable M1 F (zeros 16)) by (apply readable_write_self; [exact F64|intros _; exact F0]).
  (* copy *)
  set (M2 := write M1 F t).
  destruct (memcpy_ok 217 t r1 M1 Hr1) as (r2 & R2 & Hr2 & E2).
  { change (r1 7%nat) with (r 13%nat). apply readable_write_disjoint; [exact Pi|exact Fi]. }
  { change (r1 6%nat) with F. apply writable_write. replace 16 with (len t + (16 - len t)) in Fw by lia.
    apply (writable_split _ _ _ _ Fw). }
  { change (r1 6%nat) with F. change (r1 7%nat) with (r 13%nat). unfold disjoint in *. lia. }
  { change (r1 6%nat) with F. lia. }
  { change (r1 7%nat) with (r 13%nat). lia. }
  { exact Pl. }
  { lia. }
  change (r1 6%nat) with F in R2. fold M2 in R2.
  assert (Q2 : readable M2 F (t ++ [x00] ++ zeros (15 - n))).
  { apply (readable_overwrite _ _ (zeros n)); [|apply length_zeros].
    replace (zeros n ++ [x00] ++ zeros (15 - n)) with (zeros 16); [exact Q1|].
    replace 16%nat with (n + (1 + (15 - n)))%nat at 1 by lia. unfold zeros. rewrite !repeat_app. reflexivity. }
  (* padding *)
  assert (G2 : except tregs r r2).
  { apply except_trans with r1; [unfold r1; exs|exact E2]. }
  set (bl := t ++ [pad_of P] ++ zeros (15 - n)).
  assert (Lbl : length bl = 16%nat) by (unfold bl; rewrite !app_length, length_zeros; cbn [length]; lia).
  set (M3 := write M2 (F + len t) [pad_of P]).
  set (r3 := setr (setr (setr r2 6 (F + len t)) 5 (b2n x00)) 5 (v_pad V)).
  destruct (l_pad V P L) as [Pd1 Pd2].
  assert (R3 : runs (exec [add 6 2 14; Lbu 5 6 0; xori 5 5 (v_pad V); Sb 5 6 0] r2) M2 M3 r3).
  { apply st_op; [reflexivity|]. cbn [fev]. rewrite (G2 2%nat eq_refl), (G2 14%nat eq_refl), Pl. fold F.
    rewrite trunc_add by lia.
    apply (st_lbu 5 6 0 x00 _ _ _ _ _ (F + len t)); [apply N.add_0_r|lia| |].
    - apply (readable_app M2 F t) in Q2. destruct Q2 as [_ Q2]. apply (readable_app M2 _ [x00]) in Q2. apply Q2.
    - apply st_op; [reflexivity|]. cbn [fev].
      change (setr (setr r2 6 (F + len t)) 5 (b2n x00) 5%nat) with (b2n x00). change (b2n x00) with 0 at 2. rewrite N.lxor_0_l.
      fold r3. apply (st_sb 5 6 0 _ _ _ _ _ (F + len t)); [apply N.add_0_r|lia| |].
      + do 2 apply writable_write. replace 16 with (len t + (16 - len t)) in Fw by lia.
        apply writable_split in Fw. destruct Fw as [_ Fw]. replace (16 - len t) with (1 + (15 - len t)) in Fw by lia.
        apply (writable_split _ _ _ _ Fw).
      + change (r3 5%nat) with (v_pad V). rewrite Pd1. apply st_nil. }
  assert (Hr3 : rok r3).
  { unfold r3. apply rok_set; [|discriminate|unfold fits; lia]. apply rok_set; [|discriminate|apply fits_0].
    apply rok_set; [exact Hr2|discriminate|unfold fits; lia]. }
  assert (Q3 : readable M3 F bl) by (apply (readable_overwrite_mid M2 F t [x00]); [exact Q2|reflexivity]).
  assert (G3 : except tregs r r3).
  { apply except_trans with r2; [exact G2|]. unfold r3; exs. }
  assert (N3 : near F 16 M M3).
  { apply near_trans with M1; [apply near_frame; [lia|unfold len; rewrite length_zeros; lia]|].
    apply near_trans with M2; [apply near_frame; lia|]. apply near_frame; [lia|]. change (len [pad_of P]) with 1. lia. }
  (* xor *)
  set (l0 := firstn 8 bl). set (l1 := skipn 8 bl).
  assert (Eb : bl = l0 ++ l1) by (symmetry; apply firstn_skipn).
  assert (L0 : length l0 = 8%nat) by (apply firstn_length_le; lia).
  assert (L1 : length l1 = 8%nat) by (unfold l1; rewrite skipn_length; lia).
  assert (E32 : r3 2%nat = F) by (apply (G3 2%nat eq_refl)).
  destruct (l_load V P L e 1247 2%nat r3 M3 l0 l1 Hr3) as (r4 & R4 & T0 & T1 & Hr4 & E4);
    [rewrite E32, <- Eb; exact Q3|exact L0|exact L1|rewrite E32; exact Fa|rewrite E32; exact Fb|reflexivity|apply Hlab|].
  assert (G4 : except tregs r r4) by (apply except_trans with r3; [exact G3|exact E4]).
  assert (HS4 : SS r4 S) by (apply (SS_except r r4 _ S G4); [reflexivity|exact HS]).
  destruct (xor_block_ok r4 S l0 l1 M3 Hr4 HS4 T0 T1) as (r5 & R5 & HS5 & Hr5 & E5).
  rewrite <- Eb in HS5. set (S' := xor_into S bl) in *.
  assert (ES : S' = xor_into S (t ++ [pad_of P])).
  { unfold S', bl. rewrite app_assoc. apply xor_into_app_zeros. rewrite app_length. cbn [length]. lia. }
  assert (EO : firstn n S' = xor_into t S).
  { rewrite ES, firstn_xor_into, (firstn_app_exact n t) by reflexivity. symmetry. apply xor_comm_firstn. lia. }
  assert (H40' : length S' = 40%nat) by (unfold S'; rewrite length_xor_into; exact H40).
  assert (G5 : except ([8; 9; 18; 19]%nat ++ tregs) r r5).
  { apply except_trans with r4; [apply (except_sub tregs); [reflexivity|exact G4]|].
    apply (except_sub [8; 9; 18; 19]%nat); [reflexivity|exact E5]. }
  assert (E52 : r5 2%nat = F) by exact (G5 2%nat eq_refl).
  (* output *)
  assert (X6 : exists r6 M6, runs (cond (beq 17 0) skip
     (exec [mv 28 8; mv 29 9; mv 30 18; mv 31 19] >>> v_conv V e 1260 >>> exec (sws 2 (v_first V)) >>>
      exec [mv 6 10; mv 7 2] >>> call 5 (lab e 247) ascon_memcpy) r5) M3 M6 r6 /\
     rok r6 /\ except tregs r5 r6 /\ near F 16 (wout m M (r 10%nat) (outb m S t)) M6 /\
     (m <> Ab -> readable M6 F (firstn 16 S'))).
  { assert (C := beq_mode m r5 Hr5 ltac:(rewrite (G5 17%nat eq_refl); exact Pm)).
    assert (D : m = Ab \/ m <> Ab) by (destruct m; [left; reflexivity|right; discriminate|right; discriminate]).
    destruct D as [->|D].
    - exists r5, M3. split; [apply st_cond; rewrite C; apply st_skip|].
      split; [exact Hr5|split; [apply except_refl|split; [exact N3|congruence]]].
    - destruct (Po D) as (Pw & Pwb & _ & Pdi & Pdt). specialize (Fo D).
      replace (match m with Ab => true | _ => false end) with false in C by (destruct m; congruence).
      replace (wout m M (r 10%nat) (outb m S t)) with (write M (r 10%nat) (xor_into t S))
        by (destruct m; [congruence|reflexivity|reflexivity]).
      pose proof HS5 as (a0 & a1 & a2 & a3 & a4 & HE & [H0 H1 _ _ _]).
      assert (A0 : length a0 = 8%nat) by apply H0. assert (A1 : length a1 = 8%nat) by apply H1.
      assert (EA : a0 ++ a1 = firstn 16 S').
      { rewrite HE. unfold cat5. rewrite (app_assoc a0 a1). symmetry. apply firstn_app_exact. rewrite app_length. lia. }
      set (q1 := setr (setr (setr (setr r5 28 (r5 8%nat)) 29 (r5 9%nat)) 30 (r5 18%nat)) 31 (r5 19%nat)).
      assert (Hq1 : rok q1) by (unfold q1; repeat (apply rok_set; [|discriminate|apply Hr5]); exact Hr5).
      assert (W0 : Wd q1 28 29 a0) by (exact H0). assert (W1 : Wd q1 30 31 a1) by exact H1.
      destruct (l_conv V P L e 1260 q1 M3 a0 a1 Hq1 W0 W1 (Hlab _)) as (q2 & RQ2 & Hq2 & EQ2 & Hf).
      assert (GQ2 : except tregs r5 q2) by (apply except_trans with q1; [unfold q1; exs|exact EQ2]).
      assert (Eq22 : q2 2%nat = F) by (rewrite (GQ2 2%nat eq_refl); exact E52).
      set (M4 := write M3 F (a0 ++ a1)).
      assert (LA : len (a0 ++ a1) = 16) by (rewrite len_app; unfold len; rewrite A0, A1; reflexivity).
      assert (Q4 : readable M4 F (firstn n S' ++ skipn n (firstn 16 S'))).
      { replace (firstn n S') with (firstn n (firstn 16 S')) by (rewrite firstn_firstn; f_equal; lia).
        rewrite firstn_skipn, <- EA. apply readable_write_self; [rewrite LA; exact F64|intros _; exact F0]. }
      set (q3 := setr (setr q2 6 (r 10%nat)) 7 F).
      assert (E10 : q2 10%nat = r 10%nat) by (rewrite (GQ2 10%nat eq_refl); exact (G5 10%nat eq_refl)).
      assert (E14 : q2 14%nat = len t) by (rewrite (GQ2 14%nat eq_refl), (G5 14%nat eq_refl); exact Pl).
      assert (Hq3 : rok q3).
      { unfold q3. apply rok_set; [|discriminate|unfold F; apply Hr]. apply rok_set; [exact Hq2|discriminate|apply Hr]. }
      assert (LO : length (firstn n S') = n) by (apply firstn_length_le; lia).
      assert (LO' : len (firstn n S') = len t) by (unfold len; rewrite LO; reflexivity).
      assert (N4 : near F 16 M M4).
      { apply near_trans with M3; [exact N3|]. apply near_frame; [lia|]. lia. }
      destruct (memcpy_ok 247 (firstn n S') q3 M4 Hq3) as (r6 & R6 & Hr6 & E6); rewrite ?LO'.
      { apply (readable_app M4 F _ _ Q4). }
      { change (q3 6%nat) with (r 10%nat). apply (near_writable F 16 M); [exact N4|exact Pw]. }
      { change (q3 6%nat) with (r 10%nat). change (q3 7%nat) with F. unfold disjoint in *. lia. }
      { change (q3 6%nat) with (r 10%nat). lia. }
      { change (q3 7%nat) with F. lia. }
      { exact E14. }
      { lia. }
      change (q3 6%nat) with (r 10%nat) in R6.
      exists r6, (write M4 (r 10%nat) (firstn n S')).
      split; [|split; [exact Hr6|split; [|split]]].
      + apply st_cond. rewrite C.
        apply st_then with (M1 := M3) (r1 := q1); [do 4 (apply st_op; [reflexivity|]); apply st_nil|].
        apply st_then with (M1 := M3) (r1 := q2); [exact RQ2|].
        apply st_then with (M1 := M4) (r1 := q2).
        * rewrite <- (app_nil_r (sws 2 (v_first V))). unfold M4. rewrite <- Eq22.
          apply first_words with (a0 := a0) (a1 := a1); try assumption; [rewrite Eq22; exact Fa|rewrite Eq22; exact Fb| |apply st_nil].
          rewrite Eq22. apply (near_writable F 16 M); assumption.
        * apply st_then with (M1 := M4) (r1 := q3); [|exact R6].
          apply st_op; [reflexivity|]. apply st_op; [reflexivity|]. cbn [fev].
          change (setr q2 6 (q2 10%nat) 2%nat) with (q2 2%nat). rewrite E10, Eq22. apply st_nil.
      + apply except_trans with q2; [exact GQ2|]. apply except_trans with q3; [unfold q3; exs|exact E6].
      + rewrite EO. apply near_write. exact N4.
      + intros _. apply readable_write_disjoint.
        * replace (firstn 16 S') with (firstn n S' ++ skipn n (firstn 16 S')); [exact Q4|].
          replace (firstn n S') with (firstn n (firstn 16 S')) by (rewrite firstn_firstn; f_equal; lia). apply firstn_skipn.
        * rewrite LO'. rewrite <- EA, LA. unfold disjoint in *. lia. }
  destruct X6 as (r6 & M6 & R6 & Hr6 & E6 & N6 & Q6).
  assert (G6 : except ([8; 9; 18; 19]%nat ++ tregs) r r6).
  { apply except_trans with r5; [exact G5|]. apply (except_sub tregs); [reflexivity|exact E6]. }
  assert (HS6 : SS r6 S') by (apply (SS_except r5 r6 _ S' E6); [reflexivity|exact HS5]).
  assert (E62 : r6 2%nat = F) by exact (G6 2%nat eq_refl).
  (* reload *)
  assert (X7 : exists r7 M7, runs (cond (bge 17 0) skip
     (exec [mv 6 2; mv 7 13] >>> call 5 (lab e 254) ascon_memcpy >>> v_reload V e 1281) r6) M6 M7 r7 /\
     rok r7 /\ except ([8; 9; 18; 19]%nat ++ tregs) r6 r7 /\ near F 16 M6 M7 /\ SS r7 (fin m S t)).
  { assert (C := bge_mode m r6 Hr6 ltac:(rewrite (G6 17%nat eq_refl); exact Pm)).
    assert (D : m = De \/ m <> De) by (destruct m; [right; discriminate|right; discriminate|left; reflexivity]).
    destruct D as [->|D].
    - specialize (Q6 ltac:(discriminate)). destruct Po as (Pw & Pwb & _ & Pdi & Pdt); [discriminate|].
      set (q1 := setr (setr r6 6 F) 7 (r 13%nat)).
      assert (Hq1 : rok q1).
      { unfold q1. apply rok_set; [|discriminate|apply Hr]. apply rok_set; [exact Hr6|discriminate|unfold F; apply Hr]. }
      assert (LF : length (firstn 16 S') = 16%nat) by (apply firstn_length_le; lia).
      destruct (memcpy_ok 254 t q1 M6 Hq1) as (q2 & RQ2 & Hq2 & EQ2).
      { change (q1 7%nat) with (r 13%nat). apply (near_readable F 16 (write M (r 10%nat) (xor_into t S))); [exact N6| | |reflexivity].
        - apply readable_write_disjoint; [exact Pi|]. unfold len in *. rewrite length_xor_into. exact Pdi.
        - exact Fi. }
      { change (q1 6%nat) with F. apply (near_writable F 16 (write M (r 10%nat) (xor_into t S))); [exact N6|].
        apply writable_write. replace 16 with (len t + (16 - len t)) in Fw by lia. apply (writable_split _ _ _ _ Fw). }
      { change (q1 6%nat) with F. change (q1 7%nat) with (r 13%nat). unfold disjoint in *. lia. }
      { change (q1 6%nat) with F. lia. }
      { change (q1 7%nat) with (r 13%nat). lia. }
      { change (q1 14%nat) with (r6 14%nat). rewrite (G6 14%nat eq_refl). exact Pl. }
      { lia. }
      change (q1 6%nat) with F in RQ2.
      set (M7 := write M6 F t) in *. set (x := t ++ skipn n (firstn 16 S')).
      assert (Lx : length x = 16%nat) by (unfold x; rewrite app_length, skipn_length, LF; fold n; lia).
      assert (Q7 : readable M7 F x).
      { apply (readable_overwrite _ _ (firstn n (firstn 16 S'))); [rewrite firstn_skipn; exact Q6|].
        rewrite firstn_length_le by lia. reflexivity. }
      assert (Eq22 : q2 2%nat = F) by (rewrite (EQ2 2%nat eq_refl); exact E62).
      destruct (l_reload V P L e 1281 q2 M7 (firstn 8 x) (skipn 8 x) Hq2) as (r7 & R7 & W0 & W1 & Hr7 & E7).
      { rewrite firstn_skipn, Eq22. exact Q7. }
      { apply firstn_length_le. lia. }
      { rewrite skipn_length. lia. }
      { rewrite Eq22. exact Fa. }
      { rewrite Eq22. exact Fb. }
      { apply Hlab. }
      exists r7, M7. split; [|split; [exact Hr7|split; [|split]]].
      + apply st_cond. rewrite C.
        apply st_then with (M1 := M6) (r1 := q1).
        * apply st_op; [reflexivity|]. apply st_op; [reflexivity|]. cbn [fev]. rewrite E62.
          change (setr r6 6 F 13%nat) with (r6 13%nat). rewrite (G6 13%nat eq_refl). apply st_nil.
        * apply st_then with (M1 := M7) (r1 := q2); [exact RQ2|exact R7].
      + apply except_trans with q1; [unfold q1; exs|].
        apply except_trans with q2; [apply (except_sub tregs); [reflexivity|exact EQ2]|exact E7].
      + apply near_frame; [lia|lia].
      + assert (E6' : except ([8; 9; 18; 19]%nat ++ tregs) r6 r7).
        { apply except_trans with q1; [unfold q1; exs|].
          apply except_trans with q2; [apply (except_sub tregs); [reflexivity|exact EQ2]|exact E7]. }
        destruct HS6 as (a0 & a1 & a2 & a3 & a4 & HE & [H0 H1 H2 H3 H4]).
        assert (A0 : length a0 = 8%nat) by apply H0. assert (A1 : length a1 = 8%nat) by apply H1.
        exists (firstn 8 x), (skipn 8 x), a2, a3, a4. split.
        * unfold cat5. rewrite (app_assoc (firstn 8 x)), firstn_skipn. unfold fin.
          rewrite xor_at_app_r by reflexivity. unfold x. rewrite <- app_assoc. fold n. f_equal.
          assert (EK : skipn n S' = xor_into (skipn n S) [pad_of P]).
          { rewrite ES. assert (HSn : S = firstn n S ++ skipn n S) by (symmetry; apply firstn_skipn).
            rewrite HSn at 1. rewrite xor_into_app2 by (rewrite firstn_length_le by lia; reflexivity).
            apply skipn_app_exact. rewrite length_xor_into. apply firstn_length_le. lia. }
          rewrite <- EK. rewrite HE. unfold cat5. rewrite (app_assoc a0 a1).
          assert (LA : length (a0 ++ a1) = 16%nat) by (rewrite app_length; lia).
          rewrite (firstn_app_exact 16) by exact LA. rewrite skipn_app, LA.
          replace (n - 16)%nat with 0%nat by lia. reflexivity.
        * constructor; [exact W0|exact W1| | |];
            (eapply Wd_except; [exact E6'|reflexivity|reflexivity|assumption]).
    - exists r6, M6. replace (match m with De => false | _ => true end) with true in C by (destruct m; congruence).
      split; [apply st_cond; rewrite C; apply st_skip|]. split; [exact Hr6|]. split; [apply except_refl|].
      split; [apply near_refl|]. rewrite ES in HS6. destruct m; [exact HS6|exact HS6|congruence]. }
  destruct X7 as (r7 & M7 & R7 & Hr7 & E7 & N7 & HS7).
  assert (G7 : except ([8; 9; 18; 19]%nat ++ tregs) r r7) by (apply except_trans with r6; [exact G6|exact E7]).
  set (r8 := setr (setr r7 10 (trunc 32 (r 10%nat + len t))) 13 (r 13%nat + len t)).
  exists r8, M7.
  split; [|split; [apply near_trans with M6; assumption|split; [|split; [|split; [|split; [reflexivity|]]]]]].
  - unfold duplex_end.
    apply st_then with (M1 := M1) (r1 := r1); [exact R1|]. apply st_then with (M1 := M2) (r1 := r2); [exact R2|].
    apply st_then with (M1 := M3) (r1 := r3); [exact R3|]. apply st_then with (M1 := M3) (r1 := r4); [exact R4|].
    apply st_then with (M1 := M3) (r1 := r5); [exact R5|]. apply st_then with (M1 := M6) (r1 := r6); [exact R6|].
    apply st_then with (M1 := M7) (r1 := r7); [exact R7|].
    apply st_op; [reflexivity|]. apply st_op; [reflexivity|]. cbn [fev].
    change (setr r7 10 (trunc 32 (r7 10%nat + r7 14%nat)) 13%nat) with (r7 13%nat).
    change (setr r7 10 (trunc 32 (r7 10%nat + r7 14%nat)) 14%nat) with (r7 14%nat).
    rewrite (G7 10%nat eq_refl), (G7 14%nat eq_refl), (G7 13%nat eq_refl), Pl, (trunc_add (r 13%nat)) by lia. apply st_nil.
  - apply (SS_except r7 r8 [10; 13]%nat); [unfold r8; exs|reflexivity|exact HS7].
  - unfold r8. apply rok_set; [|discriminate|unfold fits; lia]. apply rok_set; [exact Hr7|discriminate|apply fits_trunc].
  - intros D. destruct (Po D) as (_ & Pwb & _). change (r8 10%nat) with (trunc 32 (r 10%nat + len t)). apply trunc_add. lia.
  - apply except_trans with r7; [|unfold r8; exs]. apply (except_sub ([8; 9; 18; 19]%nat ++ tregs)); [reflexivity|exact G7].
Qed.

(** ** The whole duplex *)
Lemma duplex_ok m l S r M : rok r -> SS r S -> pre m r M l -> data_ok M -> fr r M l m ->
  exists r' M', runs (ascon_duplex V e r) M M' r' /\
    near (r 2%nat) 16 (wout m M (r 10%nat) (snd (dd m (length l) S l))) M' /\
    SS r' (fst (dd m (length l) S l)) /\ rok r' /\ (m <> Ab -> r' 10%nat = r 10%nat + len l) /\ r' 13%nat = r 13%nat + len l /\
    except ([10; 13; 14]%nat ++ sregs ++ tregs) r r'.
Proof.
  intros Hr HS Hp HD [Fw Fa Fb Fi Fo Ft].
  destruct (duplex_loop_ok m l S r M Hr HS Hp HD) as
    (head & tail & out1 & S1 & r1 & El & Ht & Hlo & R1 & HS1 & Hr1 & Hp1 & E10 & E13 & HD1 & Hdd & Hab & E1).
  assert (Ll : len l = len head + len tail) by (rewrite El; apply len_app).
  set (M1 := wout m M (r 10%nat) out1) in *.
  assert (E12 : r1 2%nat = r 2%nat) by (apply (E1 2%nat eq_refl)).
  destruct (end_ok m r1 S1 tail M1 Hr1 HS1 Hp1 Ht HD1) as (r2 & M2 & R2 & N2 & HS2 & Hr2 & F10 & F13 & E2).
  { constructor; rewrite ?E12; try assumption.
    - unfold M1. destruct m; [exact Fw|apply writable_write, Fw|apply writable_write, Fw].
    - rewrite E13. unfold disjoint in *. lia.
    - intros D. rewrite (E10 D). specialize (Fo D). unfold disjoint in *. lia. }
  rewrite E12 in N2.
  exists r2, M2. rewrite Hdd. cbn [fst snd].
  split; [unfold ascon_duplex; apply st_then with (M1 := M1) (r1 := r1); assumption|].
  split; [|split; [exact HS2|split; [exact Hr2|split; [|split]]]].
  - replace (wout m M (r 10%nat) (out1 ++ outb m S1 tail)) with (wout m M1 (r1 10%nat) (outb m S1 tail)); [exact N2|].
    unfold M1. assert (D : m = Ab \/ m <> Ab) by (destruct m; [left; reflexivity|right; discriminate|right; discriminate]).
    destruct D as [->|D]; [reflexivity|]. rewrite (E10 D).
    replace (len head) with (len out1) by (unfold len; rewrite (Hlo D); reflexivity).
    destruct m; [congruence| |]; cbn [wout]; rewrite write_app; reflexivity.
  - intros D. rewrite (F10 D), (E10 D). lia.
  - rewrite F13, E13. lia.
  - apply except_trans with r1; [exact E1|].
    apply (except_sub ([10; 13]%nat ++ sregs ++ tregs)); [reflexivity|exact E2].
Qed.
End laws.
