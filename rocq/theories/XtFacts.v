(** * XtFacts.v -- facts about the machine of ModelXt.v: code on registers and
    words of the stack frame, the permutation, reversal of bytes, copying. *)
From Coq Require Import Bool Arith NArith ZArith List Lia Init.Byte Strings.Byte ZifyBool ZifyNat ZifyN.
From Verif Require Import Words WordFacts Spec SpecFacts Spec12 Asm ModelRv ModelXt CMem Contract CMemFacts RvFacts RvRound RvMode RvWords.
Import ListNotations.
Local Open Scope N_scope.

Lemma st_lu d b o bs l r M M' r' p : r b + o = p -> p < 2 ^ 32 -> readable M p bs -> length bs = 4%nat ->
  runs (exec l (setr r d (le_num bs))) M M' r' -> runs (exec (Lu d b o :: l) r) M M' r'.
Proof.
  intros Hp Hb Hr Hl H. cbn [exec step]. rewrite (addr_ok r b o p Hp Hb).
  eapply runs_bind; [|exact H]. eapply runs_bind; [|apply runs_ret].
  apply (runs_memcpy_in M p bs 4 Hr).
  - unfold len. rewrite Hl. reflexivity.
  - apply (readable_nonnull M p bs Hr). unfold len. lia.
Qed.
Lemma st_su s b o l r M M' r' p : r b + o = p -> p < 2 ^ 32 -> writable M p 4 ->
  runs (exec l r) (write M p (le_bytes 4 (r s))) M' r' -> runs (exec (Su s b o :: l) r) M M' r'.
Proof.
  intros Hp Hb Hw H. cbn [exec step]. rewrite (addr_ok r b o p Hp Hb).
  eapply runs_bind; [|exact H]. eapply runs_bind; [|apply runs_ret].
  apply runs_memcpy_out; [exact Hw|apply Hw; discriminate].
Qed.

(** ** The stack frame

    [n] bytes at [F]; among the words from the [lo]-th on, those in [K] have
    been written and have the values [g]. *)
Section frame.
Variables (F n : N) (lo : nat).
Record frame (K : list nat) (g : regs) (M : mem) : Prop := {
  f_slot : forall j, memb j K = true -> (lo <= j)%nat -> 4 * N.of_nat j + 4 <= n -> readable M (F + 4 * N.of_nat j) (le_bytes 4 (g j));
  f_fits : forall j, fits 32 (g j);
  f_w : writable M F n;  f_b : F + n < 2 ^ 32 }.

Definition slot (o : N) : nat := N.to_nat (o / 4).
Definition slot_ok (o : N) : bool := (o mod 4 =? 0) && (lo <=? slot o)%nat && (o + 4 <=? n).
Definition reg_ok (d : nat) : bool := negb (Nat.eqb d 0) && negb (Nat.eqb d 2).
Definition ok1 (K : list nat) (i : ins) : bool :=
  match i with
  | Op d t => reglt t && wok t && reg_ok d
  | Lu d b o => Nat.eqb b 2 && reg_ok d && slot_ok o && memb (slot o) K
  | Su s b o => Nat.eqb b 2 && slot_ok o
  | _ => false
  end.
Definition sx1 (x : regs * regs) (i : ins) : regs * regs :=
  match i with
  | Op d t => (setr (fst x) d (fev (fst x) t), snd x)
  | Lu d b o => (setr (fst x) d (snd x (slot o)), snd x)
  | Su s b o => (fst x, setr (snd x) (slot o) (fst x s))
  | _ => x
  end.
Definition grow (K : list nat) (i : ins) : list nat := match i with Su s b o => slot o :: K | _ => K end.
Fixpoint oks (K : list nat) (l : list ins) : bool := match l with [] => true | i :: l => ok1 K i && oks (grow K i) l end.
Definition grows (K : list nat) (l : list ins) : list nat := fold_left grow l K.
Definition sx (l : list ins) (x : regs * regs) : regs * regs := fold_left sx1 l x.

Lemma slot_spec o : slot_ok o = true -> (lo <= slot o)%nat /\ o = 4 * N.of_nat (slot o) /\ o + 4 <= n.
Proof.
  unfold slot_ok. intros H. apply andb_prop in H. destruct H as [H H3]. apply andb_prop in H. destruct H as [H1 H2].
  split; [lia|]. split; [|lia]. unfold slot. rewrite N2Nat.id. apply N.eqb_eq in H1. pose proof (N.div_mod' o 4). lia.
Qed.
Lemma frame_write K g M o v : frame K g M -> slot_ok o = true -> fits 32 v ->
  frame (slot o :: K) (setr g (slot o) v) (write M (F + o) (le_bytes 4 v)).
Proof.
  intros [H1 H2 H3 H4] Ho Hv. destruct (slot_spec o Ho) as (A & B & C). constructor.
  - intros j HK Hj Hn. unfold setr. destruct (Nat.eqb_spec j (slot o)) as [->|D].
    + rewrite <- B. apply readable_write_self; unfold len; rewrite ?length_le_bytes; [lia|]. intros _.
      destruct H3 as (_ & H3 & _). unfold NULL in *. specialize (H3 ltac:(lia)). lia.
    + apply readable_write_disjoint; [apply H1; try assumption|].
      * unfold memb in HK. cbn [existsb] in HK. apply orb_prop in HK. destruct HK as [HK|HK]; [apply Nat.eqb_eq in HK; lia|exact HK].
      * unfold disjoint, len. rewrite !length_le_bytes. lia.
  - intros j. unfold setr. destruct (Nat.eqb j (slot o)); [exact Hv|apply H2].
  - apply writable_write, H3.
  - exact H4.
Qed.
Lemma frame_out K g M p l : frame K g M -> disjoint F n p (len l) -> frame K g (write M p l).
Proof.
  intros [H1 H2 H3 H4] D. constructor; [|exact H2|apply writable_write, H3|exact H4].
  intros j HK Hj Hn. apply readable_write_disjoint; [apply H1; assumption|].
  unfold disjoint, len in *. rewrite length_le_bytes. lia.
Qed.
Lemma frame_low K g M p l : frame K g M -> F <= p -> p + len l <= F + 4 * N.of_nat lo -> frame K g (write M p l).
Proof.
  intros [H1 H2 H3 H4] D1 D2. constructor; [|exact H2|apply writable_write, H3|exact H4].
  intros j HK Hj Hn. apply readable_write_disjoint; [apply H1; assumption|].
  unfold disjoint, len in *. rewrite length_le_bytes. lia.
Qed.
(** Only the low part has changed. *)
Lemma frame_near_low K g M0 M : frame K g M0 -> near F (4 * N.of_nat lo) M0 M -> frame K g M.
Proof.
  intros [H1 H2 H3 H4] [A B]. constructor; [|exact H2| |exact H4].
  - intros j HK Hj Hn. destruct (H1 j HK Hj Hn) as (X & Y & Z). split; [exact X|split; [exact Y|]].
    intros i Hi. rewrite <- (Z i Hi). unfold rd. rewrite A; [reflexivity|]. unfold outside. lia.
  - destruct H3 as (X & Y & Z). split; [exact X|split; [exact Y|]]. intros a Ha Hb. apply B, Z; assumption.
Qed.
Lemma frame_sub K K' g M : subl K' K = true -> frame K g M -> frame K' g M.
Proof.
  intros Hs [H1 H2 H3 H4]. constructor; [|exact H2|exact H3|exact H4].
  intros j HK. apply H1. unfold subl in Hs. rewrite forallb_forall in Hs. apply Hs.
  unfold memb in HK. apply existsb_exists in HK. destruct HK as (i & Hi & E). apply Nat.eqb_eq in E. subst. exact Hi.
Qed.
Lemma memb_grows j l : forall K, memb j K = true -> memb j (grows K l) = true.
Proof.
  induction l as [|i l IH]; intros K H; [exact H|]. cbn [grows fold_left]. apply IH.
  destruct i; try exact H. cbn [grow]. unfold memb in *. cbn [existsb]. rewrite H. apply orb_true_r.
Qed.
Lemma memb_in j K : In j K -> memb j K = true.
Proof. intros H. unfold memb. apply existsb_exists. exists j. split; [exact H|apply Nat.eqb_refl]. Qed.
Lemma grows_sub K l : subl K (grows K l) = true.
Proof. unfold subl. apply forallb_forall. intros j Hj. apply memb_grows, memb_in, Hj. Qed.
Lemma le_num_4 v : fits 32 v -> le_num (le_bytes 4 v) = v.
Proof. intros H. rewrite le_num_le_bytes. apply trunc_fits. exact H. Qed.
Lemma sx1_ok K i r g M : ok1 K i = true -> frame K g M -> r 2%nat = F -> rok r ->
  exists M1, runs (exec [i] r) M M1 (fst (sx1 (r, g) i)) /\ frame (grow K i) (snd (sx1 (r, g) i)) M1 /\ near F n M M1 /\ rok (fst (sx1 (r, g) i)) /\ fst (sx1 (r, g) i) 2%nat = F.
Proof.
  intros Hi HF H2 Hr. destruct i as [d t|? ? ? ? ?|? ? ?|? ? ?|? ? ?|? ? ?|d b o|s b o]; try discriminate; cbn [ok1] in Hi.
  - apply andb_prop in Hi. destruct Hi as [Hi Hd]. apply andb_prop in Hi. destruct Hi as [Ht Hw]. unfold reg_ok in Hd.
    exists M. split; [|split; [exact HF|split; [apply near_refl|split]]].
    + apply st_op; [exact Ht|]. apply st_nil.
    + apply rok_op; [exact Hr|lia|exact Hw].
    + cbn [sx1 fst]. unfold setr. destruct (Nat.eqb_spec 2 d); [subst; cbn in Hd; discriminate|exact H2].
  - apply andb_prop in Hi. destruct Hi as [Hi HK]. apply andb_prop in Hi. destruct Hi as [Hi Ho]. apply andb_prop in Hi. destruct Hi as [Hb Hd]. unfold reg_ok in Hd.
    apply Nat.eqb_eq in Hb. subst b. destruct (slot_spec o Ho) as (A & B & C).
    exists M. split; [|split; [exact HF|split; [apply near_refl|split]]].
    + apply (st_lu d 2 o (le_bytes 4 (g (slot o))) _ _ _ _ _ (F + o)).
      * rewrite H2. reflexivity.
      * pose proof (f_b K g M HF). lia.
      * rewrite B at 1. apply (f_slot K g M HF); [exact HK|exact A|lia].
      * apply length_le_bytes.
      * rewrite le_num_4 by apply (f_fits K g M HF). apply st_nil.
    + apply rok_set; [exact Hr|lia|apply (f_fits K g M HF)].
    + cbn [sx1 fst]. unfold setr. destruct (Nat.eqb_spec 2 d); [subst; cbn in Hd; discriminate|exact H2].
  - apply andb_prop in Hi. destruct Hi as [Hb Ho]. apply Nat.eqb_eq in Hb. subst b.
    destruct (slot_spec o Ho) as (A & B & C).
    exists (write M (F + o) (le_bytes 4 (r s))). split; [|split; [|split; [|split]]].
    + apply (st_su s 2 o _ _ _ _ _ (F + o)).
      * rewrite H2. reflexivity.
      * pose proof (f_b K g M HF). lia.
      * pose proof (f_w K g M HF) as W. destruct W as (W1 & W2 & W3). split; [lia|]. split.
        -- intros _. unfold NULL in *. specialize (W2 ltac:(lia)). lia.
        -- intros a Ha Hb. apply W3; lia.
      * apply st_nil.
    + apply frame_write; [exact HF|exact Ho|apply Hr].
    + apply near_frame; [lia|]. unfold len. rewrite length_le_bytes. lia.
    + exact Hr.
    + exact H2.
Qed.
Lemma sx_ok l : forall K, oks K l = true -> forall r g M, frame K g M -> r 2%nat = F -> rok r ->
  exists M', runs (exec l r) M M' (fst (sx l (r, g))) /\ frame (grows K l) (snd (sx l (r, g))) M' /\ near F n M M' /\ rok (fst (sx l (r, g))) /\ fst (sx l (r, g)) 2%nat = F.
Proof.
  induction l as [|i l IH]; intros K H r g M HF H2 Hr.
  - exists M. split; [apply st_nil|]. split; [exact HF|]. split; [apply near_refl|]. split; [exact Hr|exact H2].
  - cbn [oks] in H. apply andb_prop in H. destruct H as [Hi Hl].
    destruct (sx1_ok K i r g M Hi HF H2 Hr) as (M1 & R1 & F1 & N1 & Hr1 & H21).
    cbn [sx fold_left grows]. fold (sx l (sx1 (r, g) i)). fold (grows (grow K i) l).
    rewrite (surjective_pairing (sx1 (r, g) i)).
    destruct (IH _ Hl _ _ M1 F1 H21 Hr1) as (M2 & R2 & F2 & N2 & Hr2 & H22).
    exists M2. split; [|split; [exact F2|split; [apply near_trans with M1; assumption|split; assumption]]].
    change (i :: l) with ([i] ++ l). apply st_app with (M1 := M1) (r1 := fst (sx1 (r, g) i)); assumption.
Qed.
End frame.
Arguments f_slot {F n lo K g M}. Arguments f_fits {F n lo K g M}. Arguments f_w {F n lo K g M}. Arguments f_b {F n lo K g M}.

(** ** The permutation *)
Lemma times_ok rnd : round_check hi_n lo_n rnd = true -> forall m r s M, (m <= 12)%nat ->
  rok r -> W hi_n lo_n r s -> r 6%nat = 0x3c + 15 * N.of_nat m ->
  exists r', runs (times m (exec (pbody rnd)) r) M M r' /\ W hi_n lo_n r' (fold_left round (rcs m) s) /\ rok r' /\
    except (sregs ++ [6; 28; 29; 30]%nat) r r'.
Proof.
  intros Hc. induction m as [|m IH]; intros r s M Hm Hr HW H6.
  - exists r. split; [|split; [exact HW|split; [exact Hr|apply except_refl]]].
    cbn [times]. eapply runs_bind; [apply runs_branch|]. apply runs_ret.
  - destruct (pbody_ok rnd r s M m Hc Hr HW) as (r1 & R1 & W1 & Hr1 & H61 & E1); [lia|lia|].
    destruct (IH r1 (round s (0x4b + 15 * N.of_nat m)) M) as (r2 & R2 & W2 & Hr2 & E2); [lia|exact Hr1|exact W1|exact H61|].
    exists r2. split; [|split; [exact W2|split; [exact Hr2|exact (except_trans _ _ _ _ E1 E2)]]].
    cbn [times]. eapply runs_bind; [apply runs_branch|]. eapply runs_bind; [exact R1|exact R2].
Qed.
Definition rounds_of (a : bool) : nat := if a then 12%nat else 8%nat.
Lemma rounds_ok rnd (a : bool) r s M : round_check hi_n lo_n rnd = true -> rok r -> W hi_n lo_n r s ->
  r 6%nat = (if a then 0xf0 else 0xb4) -> r 30%nat = N.of_nat (rounds_of a) ->
  exists r', runs (xt_rounds rnd r) M M r' /\ W hi_n lo_n r' (perm (rounds_of a) s) /\ rok r' /\
    except (sregs ++ [6; 28; 29; 30]%nat) r r'.
Proof.
  intros Hc Hr HW H6 H30.
  destruct (times_ok rnd Hc (rounds_of a) r s M) as (r' & R & W' & Hr' & E); [destruct a; cbn; lia|exact Hr|exact HW|rewrite H6; destruct a; reflexivity|].
  exists r'. split; [|split; [|split; [exact Hr'|exact E]]].
  - unfold xt_rounds, floop. rewrite H30. rewrite Nat2N.id. replace (N.of_nat (rounds_of a) =? 0) with false by (destruct a; reflexivity).
    exact R.
  - rewrite rcs_perm by (destruct a; [left|right]; reflexivity). exact W'.
Qed.
Lemma check_xt : round_check hi_n lo_n xt_round = true. Proof. vm_compute. reflexivity. Qed.
Lemma check_xh : round_check hi_n lo_n xh_round = true. Proof. vm_compute. reflexivity. Qed.

(** ** Reversal of the bytes of a word *)
Lemma bytes4 v : fits 32 v -> exists b0 b1 b2 b3, v = le_num [b0; b1; b2; b3].
Proof.
  intros H. pose proof (length_le_bytes 4 v) as L. pose proof (le_num_4 v H) as E. revert L E. generalize (le_bytes 4 v).
  intros l L E. do 5 (destruct l as [|? l]; [try discriminate L|]); [|discriminate L]. exists b, b0, b1, b2. symmetry. exact E.
Qed.
Definition src8 (s t : N) : N := N.lor (shrw t 8) (shlw 32 s (32 - 8)).
Lemma src8_words w s : length w = 4%nat -> length s = 4%nat -> src8 (le_num s) (le_num w) = le_num (firstn 4 (skipn 1 (w ++ s))).
Proof. intros Hw Hs. exact (shift_words 1 w s ltac:(lia) Hw Hs). Qed.
Lemma xrev8_val v : fits 32 v ->
  src8 v (src8 (src8 (shrw v 16) v) (src8 (shrw v 16) v)) = rev8f v.
Proof.
  intros H. destruct (bytes4 v H) as (b0 & b1 & b2 & b3 & ->).
  assert (E : shrw (le_num [b0; b1; b2; b3]) 16 = le_num [b2; b3; x00; x00]).
  { pose proof (shift_words 2 [b0; b1; b2; b3] [x00; x00; x00; x00] ltac:(lia) eq_refl eq_refl) as X.
    cbn [firstn skipn app] in X. rewrite <- X. change (le_num [x00; x00; x00; x00]) with 0.
    change (8 * N.of_nat 2) with 16. replace (shlw 32 0 (32 - 16)) with 0 by reflexivity. rewrite N.lor_0_r. reflexivity. }
  rewrite E. rewrite (src8_words [b0; b1; b2; b3]) by reflexivity. cbn [firstn skipn app].
  rewrite (src8_words [b1; b2; b3; b2]) by reflexivity. cbn [firstn skipn app].
  rewrite (src8_words [b2; b3; b2; b1]) by reflexivity. cbn [firstn skipn app].
  rewrite rev8_le by reflexivity. reflexivity.
Qed.
Lemma xrev8_ok d x r M : rok r -> x <> 6%nat -> (x < 32)%nat -> d <> 0%nat ->
  exists r', runs (exec (xrev8 d x) r) M M r' /\ r' d = rev8f (r x) /\ except [6%nat; d] r r' /\ rok r'.
Proof.
  intros Hr Hx Hx32 Hd. assert (X : Nat.ltb x 32 = true) by (apply Nat.ltb_lt; exact Hx32).
  eexists. split; [|split; [|split]].
  - unfold xrev8. apply st_op; [cbn [reglt]; exact X|]. apply st_op; [cbn [reglt]; rewrite X; reflexivity|].
    apply st_op; [reflexivity|]. apply st_op; [cbn [reglt]; rewrite X; reflexivity|]. apply st_nil.
  - set (r1 := setr r 6 _). set (r2 := setr r1 6 _). set (r3 := setr r2 6 _).
    assert (E : forall q v, setr q 6 v x = q x).
    { intros q v. unfold setr. replace (Nat.eqb x 6) with false by (symmetry; apply Nat.eqb_neq; exact Hx). reflexivity. }
    assert (A1 : r1 6%nat = shrw (r x) 16) by reflexivity.
    assert (B1 : r1 x = r x) by apply E.
    assert (A2 : r2 6%nat = src8 (shrw (r x) 16) (r x)) by (rewrite <- A1, <- B1; reflexivity).
    assert (B2 : r2 x = r x) by (unfold r2; rewrite E; exact B1).
    assert (A3 : r3 6%nat = src8 (r2 6%nat) (r2 6%nat)) by reflexivity.
    assert (B3 : r3 x = r x) by (unfold r3; rewrite E; exact B2).
    rewrite <- xrev8_val by apply Hr. rewrite <- A2, <- A3, <- B3.
    unfold setr at 1. rewrite Nat.eqb_refl. reflexivity.
  - apply except_set; [unfold memb; cbn [existsb]; rewrite Nat.eqb_refl, !orb_true_r; reflexivity|].
    do 3 (apply except_set; [reflexivity|]). apply except_refl.
  - apply rok_op; [|exact Hd|reflexivity]. do 3 (apply rok_op; [|discriminate|reflexivity]). exact Hr.
Qed.

(** ** Copying *)
Ltac exs := repeat (apply except_set; [reflexivity|]); apply except_refl.
Lemma xmemcpy_loop l : forall f i r M, rok r -> (length l < f)%nat -> readable M (r 30%nat) l -> writable M (r 6%nat) (len l) ->
  disjoint (r 6%nat) (len l) (r 30%nat) (len l) -> r 6%nat + len l < 2 ^ 32 -> r 30%nat + len l < 2 ^ 32 ->
  r 28%nat = i -> r 22%nat = i + len l -> i + len l < 2 ^ 32 ->
  exists r', runs (while f (bltu 28 22) (fun r => r <- exec [l8ui 29 30 0; s8i 29 6 0; addi 6 6 1; addi 30 30 1; addi 28 28 1] r ;; exec [] r) r)
      M (write M (r 6%nat) l) r' /\ rok r' /\ except [6; 30; 28; 29]%nat r r'.
Proof.
  induction l as [|b l IH]; intros f i r M Hr Hf Hrd Hwr Hdj H6 H7 Hi H14 Hb; (destruct f as [|f]; [cbn in Hf; lia|]).
  - exists r. split; [|split; [exact Hr|apply except_refl]]. apply runs_while_end.
    unfold bltu. rewrite ?Hi, ?H14, len_nil in *; lia.
  - rewrite len_cons in *. destruct (readable_tail _ _ _ _ Hrd) as [Rb Rl].
    destruct (writable_split M (r 6%nat) 1 (len l) Hwr) as [Wb Wl].
    set (r1 := setr (setr (setr (setr r 29 (b2n b)) 6 (r 6%nat + 1)) 30 (r 30%nat + 1)) 28 (r 28%nat + 1)).
    set (M1 := write M (r 6%nat) [b]).
    assert (Hr1 : rok r1).
    { unfold r1. repeat (apply rok_set; [|discriminate|]); [exact Hr|..]; unfold fits; try lia.
      pose proof (b2n_lt b). lia. }
    destruct (IH f (i + 1) r1 M1) as (r2 & R2 & Hr2 & E2).
    + exact Hr1.
    + cbn in Hf. lia.
    + change (r1 30%nat) with (r 30%nat + 1). apply readable_write_disjoint; [exact Rl|].
      change (len [b]) with 1. unfold disjoint in *. lia.
    + apply writable_write. exact Wl.
    + change (r1 30%nat) with (r 30%nat + 1). change (r1 6%nat) with (r 6%nat + 1). unfold disjoint in *. lia.
    + change (r1 6%nat) with (r 6%nat + 1). lia.
    + change (r1 30%nat) with (r 30%nat + 1). lia.
    + change (r1 28%nat) with (r 28%nat + 1). lia.
    + change (r1 22%nat) with (r 22%nat). lia.
    + lia.
    + exists r2. split; [|split; [exact Hr2|]].
      * apply runs_while_step with (s1 := r1) (M1 := M1); [| |exact R2].
        -- unfold bltu. lia.
        -- eapply runs_bind; [|apply st_nil].
           apply (st_lbu 29 30 0 b _ _ _ _ _ (r 30%nat)); [lia|lia|exact Rb|].
           apply (st_sb 29 6 0 _ _ _ _ _ (r 6%nat)); [cbn; lia|lia|exact Wb|].
           change (n2b (setr r 29 (b2n b) 29%nat)) with (n2b (b2n b)). rewrite n2b_b2n. fold M1.
           apply st_op; [reflexivity|]. apply st_op; [reflexivity|]. apply st_op; [reflexivity|].
           cbn [fev]. change (setr r 29 (b2n b) 6%nat) with (r 6%nat). rewrite (trunc_add (r 6%nat)) by lia.
           change (setr (setr r 29 (b2n b)) 6 (r 6%nat + 1) 30%nat) with (r 30%nat). rewrite (trunc_add (r 30%nat)) by lia.
           change (setr (setr (setr r 29 (b2n b)) 6 (r 6%nat + 1)) 30 (r 30%nat + 1) 28%nat) with (r 28%nat).
           rewrite (trunc_add (r 28%nat)) by lia. apply st_nil.
      * apply except_trans with r1; [unfold r1; exs|exact E2].
Qed.
Lemma xmemcpy_ok a l r M : fits 32 a -> rok r -> readable M (r 30%nat) l -> writable M (r 6%nat) (len l) ->
  disjoint (r 6%nat) (len l) (r 30%nat) (len l) -> r 6%nat + len l < 2 ^ 32 -> r 30%nat + len l < 2 ^ 32 ->
  r 22%nat = len l -> len l < 2 ^ 32 ->
  exists r', runs (call 1 a xt_memcpy r) M (write M (r 6%nat) l) r' /\ rok r' /\ except [1; 6; 30; 28; 29]%nat r r'.
Proof.
  intros Ha Hr Hrd Hwr Hdj H6 H7 H14 Hb.
  set (r1 := setr (setr r 1 a) 28 0).
  assert (Hr1 : rok r1).
  { unfold r1. repeat (apply rok_set; [|discriminate|]); [exact Hr|exact Ha|apply fits_0]. }
  destruct (xmemcpy_loop l (S (N.to_nat (r 22%nat))) 0 r1 M Hr1) as (r2 & R2 & Hr2 & E2); try assumption.
  - unfold len in *. lia.
  - reflexivity.
  - exists r2. split; [|split; [exact Hr2|]].
    + apply st_call; [|rewrite (E2 1%nat eq_refl); reflexivity].
      unfold xt_memcpy. apply st_then with (M1 := M) (r1 := r1); [apply st_op; [reflexivity|]; apply st_nil|].
      unfold loop. eapply runs_bind; [apply st_nil|]. exact R2.
    + apply except_trans with r1; [unfold r1; exs|]. apply (except_sub [6; 30; 28; 29]%nat); [reflexivity|exact E2].
Qed.

(** ** The permutation with a part of the state on the stack *)
Lemma W_ext ph pl r r' s : (forall i, r' i = r i) -> W ph pl r s -> W ph pl r' s.
Proof. intros E [H1 H2 H3 H4 H5 H6 H7 H8 H9 H10]. constructor; rewrite E; assumption. Qed.
(** Registers of the state, those on the stack from there. *)
Definition mrg (st : list (nat * N)) (r g : regs) : regs := fst (sx (loads st) (r, g)).
Lemma loads_snd st : forall r g, snd (sx (loads st) (r, g)) = g.
Proof. induction st as [|[x o] st IH]; intros r g; [reflexivity|]. exact (IH (setr r x (g (slot o))) g). Qed.
Lemma stores_fst st : forall r g, fst (sx (stores st) (r, g)) = r.
Proof. induction st as [|[x o] st IH]; intros r g; [reflexivity|]. exact (IH r (setr g (slot o) (r x))). Qed.
Lemma permute_noload_ok F n lo K rnd st (a : bool) r g s M : round_check hi_n lo_n rnd = true ->
  oks n lo K (stores st) = true ->
  frame F n lo K g M -> r 2%nat = F -> rok r -> W hi_n lo_n r s ->
  r 6%nat = (if a then 0xf0 else 0xb4) -> r 30%nat = N.of_nat (rounds_of a) ->
  exists r' M', runs (permute_noload rnd st r) M M' r' /\ W hi_n lo_n r' (perm (rounds_of a) s) /\ rok r' /\
    except (sregs ++ [6; 28; 29; 30]%nat) r r' /\ frame F n lo (grows K (stores st)) (snd (sx (stores st) (r', g))) M' /\ near F n M M'.
Proof.
  intros Hc Hst HF H2 Hr HW H6 H30.
  destruct (rounds_ok rnd a r s M Hc Hr HW H6 H30) as (r1 & R1 & W1 & Hr1 & E1).
  destruct (sx_ok F n lo (stores st) K Hst r1 g M HF ltac:(rewrite (E1 2%nat eq_refl); exact H2) Hr1) as (M2 & R2 & F2 & N2 & _ & _).
  rewrite stores_fst in R2. exists r1, M2.
  split; [unfold permute_noload; apply st_then with (M1 := M) (r1 := r1); assumption|].
  split; [exact W1|]. split; [exact Hr1|]. split; [exact E1|]. split; [exact F2|exact N2].
Qed.
Lemma permute_ok F n lo K rnd st (a : bool) r g s M : round_check hi_n lo_n rnd = true ->
  oks n lo K (stores st) = true -> oks n lo K (loads st) = true -> subl (map fst st) sregs = true ->
  frame F n lo K g M -> r 2%nat = F -> rok r -> W hi_n lo_n (mrg st r g) s ->
  r 6%nat = (if a then 0xf0 else 0xb4) -> r 30%nat = N.of_nat (rounds_of a) ->
  exists r' M', runs (permute rnd st r) M M' r' /\ W hi_n lo_n r' (perm (rounds_of a) s) /\ rok r' /\
    except (sregs ++ [6; 28; 29; 30]%nat) r r' /\ frame F n lo K (snd (sx (stores st) (r', g))) M' /\ near F n M M'.
Proof.
  intros Hc Hst Hld Hsub HF H2 Hr HW H6 H30.
  destruct (sx_ok F n lo (loads st) K Hld r g M HF H2 Hr) as (M1 & R1 & F1 & N1 & Hr1 & H21).
  rewrite loads_snd in F1. apply (frame_sub _ _ _ _ K) in F1; [|apply grows_sub]. fold (mrg st r g) in *.
  assert (E1 : except (map fst st) r (mrg st r g)).
  { clear. unfold mrg. revert r. induction st as [|[x o] st IH]; intros r; [apply except_refl|].
    intros i Hi. change (fst (sx (loads st) (setr r x (g (slot o)), g)) i = r i). cbn [map] in Hi. unfold memb in Hi. cbn [existsb fst] in Hi. apply orb_false_iff in Hi. destruct Hi as [Hx Hi].
    rewrite (IH (setr r x (g (slot o))) i Hi). unfold setr. rewrite Hx. reflexivity. }
  assert (KK : forall i, memb i sregs = false -> mrg st r g i = r i).
  { intros i Hi. exact (except_sub _ _ _ _ Hsub E1 i Hi). }
  destruct (permute_noload_ok F n lo K rnd st a (mrg st r g) g s M1 Hc Hst F1 H21 Hr1 HW) as (r' & M' & R & W' & Hr' & E' & F' & N').
  { rewrite KK by reflexivity. exact H6. }
  { rewrite KK by reflexivity. exact H30. }
  exists r', M'. split; [unfold permute; apply st_then with (M1 := M1) (r1 := mrg st r g); assumption|].
  split; [exact W'|]. split; [exact Hr'|]. split; [|split; [apply (frame_sub _ _ _ _ K) in F'; [exact F'|apply grows_sub]|apply near_trans with M1; assumption]].
  apply except_trans with (mrg st r g); [|exact E']. apply (except_sub (map fst st)); [|exact E1].
  unfold subl in *. rewrite forallb_forall in *. intros i Hi. rewrite memb_app, (Hsub i Hi). reflexivity.
Qed.

(** ** The buffer at the start of the frame: copy, padding *)
Definition pad_code (a : N) : code :=
  call 1 a xt_memcpy >>> exec [movi 28 0x80; add 6 2 22; l8ui 30 6 0; xor 30 30 28; s8i 30 6 0].
Lemma pad_ok F B a t r M : fits 32 a -> rok r -> r 2%nat = F -> r 6%nat = F -> (length t < B)%nat ->
  readable M F (zeros B) -> writable M F (N.of_nat B) -> F + N.of_nat B < 2 ^ 32 ->
  readable M (r 30%nat) t -> r 30%nat + len t < 2 ^ 32 -> disjoint F (N.of_nat B) (r 30%nat) (len t) -> r 22%nat = len t ->
  exists r' M', runs (pad_code a r) M M' r' /\ readable M' F (t ++ [x80] ++ zeros (B - 1 - length t)) /\
    near F (N.of_nat B) M M' /\ rok r' /\ except [1; 6; 30; 28; 29]%nat r r'.
Proof.
  intros Ha Hr H2 H6 Ht Q1 Fw Fb Pi Pib Pd Pl.
  set (n := length t) in *. assert (Ln : len t = N.of_nat n) by reflexivity.
  assert (Wt : writable M F (len t) /\ writable M (F + len t) 1).
  { replace (N.of_nat B) with (len t + (1 + (N.of_nat B - len t - 1))) in Fw by lia.
    destruct (writable_split _ _ _ _ Fw) as [W1 W2]. split; [exact W1|]. apply (writable_split _ _ _ _ W2). }
  destruct Wt as [Wt Wp].
  set (M2 := write M F t).
  destruct (xmemcpy_ok a t r M Ha Hr Pi) as (r2 & R2 & Hr2 & E2).
  { rewrite H6. exact Wt. }
  { rewrite H6. unfold disjoint in *. lia. }
  { rewrite H6. lia. }
  { lia. }
  { exact Pl. }
  { lia. }
  rewrite H6 in R2. fold M2 in R2.
  assert (Q2 : readable M2 F (t ++ [x00] ++ zeros (B - 1 - n))).
  { apply (readable_overwrite _ _ (zeros n)); [|apply length_zeros].
    replace (zeros n ++ [x00] ++ zeros (B - 1 - n)) with (zeros B); [exact Q1|].
    replace B with (n + (1 + (B - 1 - n)))%nat at 1 by lia. unfold zeros. rewrite !repeat_app. reflexivity. }
  set (M3 := write M2 (F + len t) [x80]).
  set (r3 := setr (setr (setr (setr r2 28 0x80) 6 (F + len t)) 30 (b2n x00)) 30 0x80).
  exists r3, M3. split; [|split; [|split; [|split]]].
  - apply st_then with (M1 := M2) (r1 := r2); [exact R2|].
    apply st_op; [reflexivity|]. cbn [fev].
    apply st_op; [reflexivity|]. cbn [fev].
    change (setr r2 28 128 2%nat) with (r2 2%nat). change (setr r2 28 128 22%nat) with (r2 22%nat).
    rewrite (E2 2%nat eq_refl), (E2 22%nat eq_refl), Pl, H2, trunc_add by lia.
    apply (st_lbu 30 6 0 x00 _ _ _ _ _ (F + len t)); [apply N.add_0_r|lia| |].
    + apply (readable_app M2 F t) in Q2. destruct Q2 as [_ Q2]. apply (readable_app M2 _ [x00]) in Q2. apply Q2.
    + apply st_op; [reflexivity|]. cbn [fev].
      change (N.lxor (setr (setr (setr r2 28 128) 6 (F + len t)) 30 (b2n x00) 30%nat)
        (setr (setr (setr r2 28 128) 6 (F + len t)) 30 (b2n x00) 28%nat)) with 128. fold r3.
      apply (st_sb 30 6 0 _ _ _ _ _ (F + len t)); [apply N.add_0_r|lia| |].
      * apply writable_write. exact Wp.
      * change (n2b (r3 30%nat)) with x80. apply st_nil.
  - apply (readable_overwrite_mid M2 F t [x00]); [exact Q2|reflexivity].
  - apply near_trans with M2; [apply near_frame; lia|]. apply near_frame; [lia|]. change (len [x80]) with 1. lia.
  - unfold r3. repeat (apply rok_set; [|discriminate|]); try reflexivity; [exact Hr2|unfold fits; lia].
  - apply except_trans with r2; [exact E2|]. unfold r3. exs.
Qed.
