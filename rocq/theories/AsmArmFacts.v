(** * AsmArmFacts.v -- the ARM assembly computes the Ascon permutation. *)
From Coq Require Import Arith NArith ZArith List Lia Bool.
From Coq Require Import ZifyBool ZifyNat ZifyN.
From Verif Require Import Words WordFacts Spec SpecFacts RoundFacts StateRep CMem ModelRef ModelCommon ModelWords
  WordLaws WordInst WordInstBi Asm AsmArm ArmCode Poly AsmRound ModelArm.
Import ListNotations.
Local Open Scope N_scope.

(** Cells of the two halves of word [k] when bit [j] of a word of the
    representation is bit [rho j] of the canonical word. *)
Definition half_lo (rho : N -> N) (k : N) : cell := SB (map (fun i => 64 * k + rho (N.of_nat i)) (seq 0 32)).
Definition half_hi (rho : N -> N) (k : N) : cell := SB (map (fun i => 64 * k + rho (32 + N.of_nat i)) (seq 0 32)).
Definition words (rho : N -> N) (ks : list N) : list cell := flat_map (fun k => [half_lo rho k; half_hi rho k]) ks.
Definition straight : list N := [0; 1; 2; 3; 4].
Definition pick (ks : list N) (s : state) : state :=
  let x i := word s (nth i ks 0) in St (x 0%nat) (x 1%nat) (x 2%nat) (x 3%nat) (x 4%nat).

Lemma nth_error_map_seq (f : nat -> N) n i : nth_error (map f (seq 0 n)) i = if (i <? n)%nat then Some (f i) else None.
Proof.
  destruct (Nat.ltb_spec i n) as [H|H].
  - rewrite nth_error_map. rewrite (nth_error_nth' _ 0%nat) by (rewrite seq_length; exact H).
    rewrite seq_nth by exact H. reflexivity.
  - apply nth_error_None. rewrite map_length, seq_length. exact H.
Qed.

Section Rep.
Variables (pi rho : N -> N).
Hypothesis Hinv : forall i, i < 64 -> pi i < 64 /\ rho i < 64 /\ pi (rho i) = i /\ rho (pi i) = i.
Let cn := bitperm pi.

Lemma cell_lo s ctx x k : fits 64 x -> word s k = cn x -> cell_ok 32 s ctx (w0 LE x) (half_lo rho k).
Proof.
  intros Hx Hw i. unfold lbit. rewrite nth_error_map_seq. cbn [w0]. rewrite testbit_trunc.
  destruct (Nat.ltb_spec i 32) as [H|H].
  - replace (N.of_nat i <? 32) with true by lia. cbn [andb].
    destruct (Hinv (N.of_nat i) ltac:(lia)) as (_ & H1 & H2 & _).
    rewrite stbit_word by exact H1. rewrite Hw. unfold cn. rewrite testbit_bitperm, H2.
    replace (rho (N.of_nat i) <? 64) with true by lia. reflexivity.
  - replace (N.of_nat i <? 32) with false by lia. reflexivity.
Qed.
Lemma cell_hi s ctx x k : fits 64 x -> word s k = cn x -> cell_ok 32 s ctx (w1 LE x) (half_hi rho k).
Proof.
  intros Hx Hw i. unfold lbit. rewrite nth_error_map_seq. cbn [w1]. rewrite testbit_shrw.
  destruct (Nat.ltb_spec i 32) as [H|H].
  - destruct (Hinv (32 + N.of_nat i) ltac:(lia)) as (_ & H1 & H2 & _).
    rewrite stbit_word by exact H1. rewrite Hw. unfold cn. rewrite testbit_bitperm, H2.
    replace (rho (32 + N.of_nat i) <? 64) with true by lia. rewrite N.add_comm. reflexivity.
  - apply (fits_bit_high 64); [exact Hx|lia].
Qed.
Lemma halves_ok s ctx : wf s -> Forall2 (cell_ok 32 (cs cn s) ctx) (halves LE s) (words rho straight).
Proof.
  intros (H0 & H1 & H2 & H3 & H4). destruct s as [x0 x1 x2 x3 x4]. cbn [X0 X1 X2 X3 X4] in *.
  unfold halves, words, straight. cbn [flat_map app X0 X1 X2 X3 X4].
  repeat (constructor; [solve [apply cell_lo; [assumption|reflexivity] | apply cell_hi; [assumption|reflexivity]]|]).
  constructor.
Qed.

Lemma word_back s ctx a b k : fits 64 (word s k) -> cell_ok 32 s ctx a (half_lo rho k) -> cell_ok 32 s ctx b (half_hi rho k) ->
  fits 64 (ofw LE a b) /\ cn (ofw LE a b) = word s k.
Proof.
  intros Hf Ha Hb.
  assert (A : forall i, i < 32 -> N.testbit a i = N.testbit (word s k) (rho i)).
  { intros i Hi. rewrite <- (N2Nat.id i) at 1. rewrite Ha. unfold lbit. rewrite nth_error_map_seq.
    replace (N.to_nat i <? 32)%nat with true by lia. rewrite N2Nat.id. apply stbit_word, Hinv. lia. }
  assert (B : forall i, i < 32 -> N.testbit b i = N.testbit (word s k) (rho (32 + i))).
  { intros i Hi. rewrite <- (N2Nat.id i) at 1. rewrite Hb. unfold lbit. rewrite nth_error_map_seq.
    replace (N.to_nat i <? 32)%nat with true by lia. rewrite N2Nat.id. apply stbit_word, Hinv. lia. }
  assert (Fa : fits 32 a).
  { apply fits_testbit. intros i Hi. rewrite <- (N2Nat.id i), Ha. unfold lbit. rewrite nth_error_map_seq.
    replace (N.to_nat i <? 32)%nat with false by lia. reflexivity. }
  assert (Fb : fits 32 b).
  { apply fits_testbit. intros i Hi. rewrite <- (N2Nat.id i), Hb. unfold lbit. rewrite nth_error_map_seq.
    replace (N.to_nat i <? 32)%nat with false by lia. reflexivity. }
  assert (T : forall i, N.testbit (ofw LE a b) i = (i <? 64) && N.testbit (word s k) (rho i)).
  { intros i. unfold ofw. rewrite N.lor_spec, testbit_shlw.
    destruct (N.ltb_spec i 64) as [H|H]; cbn [andb].
    - destruct (N.leb_spec 32 i) as [H'|H']; cbn [andb].
      + rewrite B by lia. replace (32 + (i - 32)) with i by lia.
        rewrite (fits_bit_high 32 a i) by (assumption || lia). rewrite ?orb_false_l, ?orb_false_r. reflexivity.
      + rewrite A by lia. rewrite ?orb_false_l, ?orb_false_r. reflexivity.
    - rewrite (fits_bit_high 32 a i) by (assumption || lia). rewrite ?orb_false_l, ?orb_false_r. reflexivity. }
  split.
  - apply fits_testbit. intros i Hi. rewrite T. replace (i <? 64) with false by lia. reflexivity.
  - apply N.bits_inj. intros i. unfold cn. rewrite testbit_bitperm.
    destruct (N.ltb_spec i 64) as [H|H]; cbn [andb].
    + destruct (Hinv i H) as (H1 & _ & _ & H4). rewrite T, H4. replace (pi i <? 64) with true by lia. reflexivity.
    + symmetry. apply (fits_bit_high 64); [exact Hf|lia].
Qed.

Lemma wf_word s k : wf s -> fits 64 (word s k).
Proof. intros (H0 & H1 & H2 & H3 & H4). destruct k as [|[[p|p|]|[p|[p|p|]|]|]]; assumption. Qed.

Lemma F2_cons (P : N -> cell -> Prop) rs c l : Forall2 P rs (c :: l) -> exists v r, rs = v :: r /\ P v c /\ Forall2 P r l.
Proof. intros H. inversion H; subst. eauto. Qed.
Lemma unhalves_ok s ctx rs ks tl : wf s -> length ks = 5%nat -> Forall2 (cell_ok 32 s ctx) rs (words rho ks ++ tl) ->
  wf (unhalves LE rs) /\ cs cn (unhalves LE rs) = pick ks s.
Proof.
  intros Hs Hl H.
  destruct ks as [|k0 [|k1 [|k2 [|k3 [|k4 [|]]]]]]; try discriminate.
  unfold words in H. cbn [flat_map app] in H.
  destruct (F2_cons _ _ _ _ H) as (v0 & q0 & -> & C0 & Q0).
  destruct (F2_cons _ _ _ _ Q0) as (v1 & q1 & -> & C1 & Q1).
  destruct (F2_cons _ _ _ _ Q1) as (v2 & q2 & -> & C2 & Q2).
  destruct (F2_cons _ _ _ _ Q2) as (v3 & q3 & -> & C3 & Q3).
  destruct (F2_cons _ _ _ _ Q3) as (v4 & q4 & -> & C4 & Q4).
  destruct (F2_cons _ _ _ _ Q4) as (v5 & q5 & -> & C5 & Q5).
  destruct (F2_cons _ _ _ _ Q5) as (v6 & q6 & -> & C6 & Q6).
  destruct (F2_cons _ _ _ _ Q6) as (v7 & q7 & -> & C7 & Q7).
  destruct (F2_cons _ _ _ _ Q7) as (v8 & q8 & -> & C8 & Q8).
  destruct (F2_cons _ _ _ _ Q8) as (v9 & q9 & -> & C9 & Q9).
  unfold unhalves. cbn [nth Nat.mul Nat.add].
  destruct (word_back s ctx _ _ k0 (wf_word s k0 Hs) C0 C1) as [F0 E0].
  destruct (word_back s ctx _ _ k1 (wf_word s k1 Hs) C2 C3) as [F1 E1].
  destruct (word_back s ctx _ _ k2 (wf_word s k2 Hs) C4 C5) as [F2 E2].
  destruct (word_back s ctx _ _ k3 (wf_word s k3 Hs) C6 C7) as [F3 E3].
  destruct (word_back s ctx _ _ k4 (wf_word s k4 Hs) C8 C9) as [F4 E4].
  split; [repeat split; assumption|].
  unfold cs, pick. cbn [X0 X1 X2 X3 X4 nth]. rewrite E0, E1, E2, E3, E4. reflexivity.
Qed.
End Rep.

(** ** Asm statements *)

Definition ctx0 : list N := repeat 0 32.
Lemma ctx0_ok : ctx_ok 32 ctx0.
Proof. split; [reflexivity|]. repeat constructor. Qed.
Definition lay5 (rho : N -> N) (ks : list N) (tl : list cell) : layout := Lay (words rho ks ++ tl) [] [].
Definition JJ : list cell := [J; J; J; J; J].
(** Where ROUND5 leaves the words: x0 has word 3, x1 word 4, x2 word 0 .. *)
Definition turned : list N := [3; 4; 0; 1; 2].

Lemma junk_ok s t : length t = 5%nat -> Forall (fits 32) t -> Forall2 (cell_ok 32 s ctx0) t JJ.
Proof.
  intros Hl H. destruct t as [|a [|b [|c [|d [|e [|]]]]]]; try discriminate.
  rewrite Forall_forall in H. unfold JJ. repeat constructor; apply H; cbn; tauto.
Qed.

Section Block.
Variables (pi rho : N -> N).
Hypothesis Hinv : forall i, i < 64 -> pi i < 64 /\ rho i < 64 /\ pi (rho i) = i /\ rho (pi i) = i.
Let cn := bitperm pi.

Lemma wf_cs s : wf (cs cn s).
Proof. repeat split; apply fits_bitperm. Qed.
Lemma wf_s_of oc s : wf s -> wf (s_of oc s).
Proof. intros H. destruct oc; [apply wf_round|exact H]. Qed.
Lemma lay_start s t tl : wf s -> Forall2 (cell_ok 32 (cs cn s) ctx0) t tl ->
  lay_ok 32 ctx0 (cs cn s) (Mach (halves LE s ++ t) [] 0 []) (lay5 rho straight tl).
Proof.
  intros Hs Ht. constructor; [|constructor|constructor|reflexivity].
  unfold lay5. cbn [regs l_regs]. apply Forall2_app; [apply (halves_ok pi rho Hinv), Hs|exact Ht].
Qed.

Lemma block_ok p oc tl tl' ks : check 32 9 p oc (lay5 rho straight tl) (lay5 rho ks tl') = true -> length ks = 5%nat ->
  forall s t, wf s -> Forall2 (cell_ok 32 (cs cn s) ctx0) t tl ->
  exists s', asm_block LE t p s = Some s' /\ wf s' /\ cs cn s' = pick ks (s_of oc (cs cn s)).
Proof.
  intros H Hk s t Hs Ht.
  destruct (check_sound 32 9 p oc _ _ ctx0 H ctx0_ok (cs cn s) _ (lay_start s t tl Hs Ht)) as (M & E & [R _ _ _]).
  unfold asm_block. rewrite (run_mono _ _ _ _ E FUEL) by (unfold FUEL; lia).
  destruct (unhalves_ok pi rho Hinv _ ctx0 _ ks tl' (wf_s_of oc _ (wf_cs s)) Hk R) as [W C].
  eexists. split; [reflexivity|]. split; assumption.
Qed.

Lemma pick_straight s : pick straight s = s.
Proof. destruct s; reflexivity. Qed.

(** An asm loop of rounds. *)
Lemma block_loop_ok code tab a b tl steps ks :
  iters 32 9 [Ops (arm_ops tab code)] a b (lay5 rho straight tl) steps = true ->
  (length steps <= 60)%nat -> length ks = 5%nat ->
  forall tl', last_lay (lay5 rho straight tl) steps = lay5 rho ks tl' ->
  forall s t, wf s -> Forall2 (cell_ok 32 (cs cn s) ctx0) t tl ->
  exists s', asm_block LE t [DoWhile [Ops (arm_ops tab code)] a b] s = Some s' /\ wf s' /\ cs cn s' = pick ks (s_chain (cs cn s) steps).
Proof.
  intros H Hl Hk tl' Hlast s t Hs Ht.
  destruct (iters_sound 32 ctx0 9 _ a b steps ctx0_ok _ (cs cn s) _ H (lay_start s t tl Hs Ht)) as (M & E & [R _ _ _]).
  unfold asm_block. rewrite (run_mono _ _ _ _ E FUEL) by (unfold FUEL; lia).
  rewrite Hlast in R.
  assert (W0 : wf (s_chain (cs cn s) steps)).
  { unfold s_chain. generalize (wf_cs s). generalize (cs cn s) as q. induction steps as [|i l IH] in |- *; intros q Hq; [exact Hq|].
    cbn [fold_left]. apply IH, wf_s_of, Hq. }
  destruct (unhalves_ok pi rho Hinv _ ctx0 _ ks tl' W0 Hk R) as [W C].
  eexists. split; [reflexivity|]. split; assumption.
Qed.
End Block.

Lemma inv64_ok : forall i, i < 64 -> pi64 i < 64 /\ pi64 i < 64 /\ pi64 (pi64 i) = i /\ pi64 (pi64 i) = i.
Proof. intros i H. unfold pi64. auto. Qed.
Lemma inv32_ok : forall i, i < 64 -> pi32 i < 64 /\ inv32 i < 64 /\ pi32 (inv32 i) = i /\ inv32 (pi32 i) = i.
Proof.
  intros i H. unfold pi32, inv32.
  pose proof (N.div_mod i 2 ltac:(lia)). pose proof (N.mod_lt i 2 ltac:(lia)).
  pose proof (N.div_mod i 32 ltac:(lia)). pose proof (N.mod_lt i 32 ltac:(lia)).
  assert (i / 2 < 32) by (apply N.div_lt_upper_bound; lia).
  assert (i / 32 < 2) by (apply N.div_lt_upper_bound; lia).
  repeat split; lia.
Qed.

(** ** Unrolled drivers *)

(** ROUND5 with its words put back in order. *)
Definition unturn (R5 : state -> N -> state) (s : state) (c : N) : state :=
  let '(St x0 x1 x2 x3 x4) := R5 s c in St x2 x3 x4 x0 x1.
Lemma unturn_eq R5 s c x0 x1 x2 x3 x4 : R5 s c = St x0 x1 x2 x3 x4 -> unturn R5 s c = St x2 x3 x4 x0 x1.
Proof. intros E. unfold unturn. rewrite E. reflexivity. Qed.
Ltac unroll := repeat match goal with
  | |- (match ?R5 ?a ?c with St _ _ _ _ _ => _ end) = _ =>
    let E := fresh "E" in destruct (R5 a c) eqn:E; rewrite fold_cons, (unturn_eq R5 a c _ _ _ _ _ E); clear E
  end.
Lemma P12ROUNDS5_fold R5 RC s : P12ROUNDS5 R5 RC s = fold_left (unturn R5) (map RC [0;1;2;3;4;5;6;7;8;9;10;11]) s.
Proof. unfold P12ROUNDS5. destruct s. cbn [map]. unroll. reflexivity. Qed.
Lemma P8ROUNDS5_fold R5 RC s : P8ROUNDS5 R5 RC s = fold_left (unturn R5) (map RC [4;5;6;7;8;9;10;11]) s.
Proof. unfold P8ROUNDS5. destruct s. cbn [map]. unroll. reflexivity. Qed.
Lemma P6ROUNDS5_fold R5 RC s : P6ROUNDS5 R5 RC s = fold_left (unturn R5) (map RC [6;7;8;9;10;11]) s.
Proof. unfold P6ROUNDS5. destruct s. cbn [map]. unroll. reflexivity. Qed.
Lemma P12ROUNDS5i_fold R5 R RC s :
  P12ROUNDS5i R5 R RC s = fold_left R (map RC [10;11]) (fold_left (unturn R5) (map RC [0;1;2;3;4;5;6;7;8;9]) s).
Proof.
  unfold P12ROUNDS5i. destruct s.
  transitivity (fold_left R (map RC [10;11]) (P12ROUNDS5i R5 (fun s _ => s) RC (St X0 X1 X2 X3 X4))).
  - unfold P12ROUNDS5i. repeat match goal with |- (match ?R5 ?a ?c with St _ _ _ _ _ => _ end) = _ => destruct (R5 a c) end. reflexivity.
  - f_equal. unfold P12ROUNDS5i. cbn [map]. unroll. reflexivity.
Qed.
Lemma P8ROUNDS5i_fold R5 R RC s :
  P8ROUNDS5i R5 R RC s = fold_left R (map RC [9;10;11]) (fold_left (unturn R5) (map RC [4;5;6;7;8]) s).
Proof.
  destruct s.
  transitivity (fold_left R (map RC [9;10;11]) (P8ROUNDS5i R5 (fun s _ => s) RC (St X0 X1 X2 X3 X4))).
  - unfold P8ROUNDS5i. repeat match goal with |- (match ?R5 ?a ?c with St _ _ _ _ _ => _ end) = _ => destruct (R5 a c) end. reflexivity.
  - f_equal. unfold P8ROUNDS5i. cbn [map]. unroll. reflexivity.
Qed.
Lemma P6ROUNDS5i_fold R5 R RC s :
  P6ROUNDS5i R5 R RC s = fold_left R (map RC [11]) (fold_left (unturn R5) (map RC [6;7;8;9;10]) s).
Proof.
  destruct s.
  transitivity (fold_left R (map RC [11]) (P6ROUNDS5i R5 (fun s _ => s) RC (St X0 X1 X2 X3 X4))).
  - unfold P6ROUNDS5i. repeat match goal with |- (match ?R5 ?a ?c with St _ _ _ _ _ => _ end) = _ => destruct (R5 a c) end. reflexivity.
  - f_equal. unfold P6ROUNDS5i. cbn [map]. unroll. reflexivity.
Qed.

(** ** The directories *)

Definition RCs (RC : N -> N) : list (N * N) :=
  map (fun k => (RC k, nth (N.to_nat (4 + k)) round_constants 0)) [0;1;2;3;4;5;6;7;8;9;10;11].
Definition is_round (cn : N -> N) (R : state -> N -> state) (l : list (N * N)) : Prop :=
  forall c rc, In (c, rc) l -> forall s, wf s -> wf (R s c) /\ cs cn (R s c) = round (cs cn s) rc.

Lemma fold_is_round cn R l : is_round cn R l -> forall s, wf s ->
  wf (fold_left R (map fst l) s) /\ cs cn (fold_left R (map fst l) s) = fold_left round (map snd l) (cs cn s).
Proof.
  induction l as [|[c rc] l IH]; intros H s Hs; [split; [exact Hs|reflexivity]|].
  destruct (H c rc (or_introl eq_refl) s Hs) as [W E].
  cbn [map fst snd]. rewrite !fold_cons, <- E. apply IH; [|exact W].
  intros c' rc' I'. apply H. right. exact I'.
Qed.
Lemma is_round_sub cn R l l' : is_round cn R l -> incl l' l -> is_round cn R l'.
Proof. intros H I' c rc Hc. apply H, I', Hc. Qed.

(** A round as an asm statement with the words in order, or turned. *)
Section Rounds.
Variables (pi rho : N -> N).
Hypothesis Hinv : forall i, i < 64 -> pi i < 64 /\ rho i < 64 /\ pi (rho i) = i /\ rho (pi i) = i.
Variable code : N -> list arm.
Let cn := bitperm pi.
Variable R : state -> N -> state.
Hypothesis HR : forall s c, R s c = or_zero (asm_block LE scratch [Ops (arm_ops [] (code c))] s).

Definition check_rounds (ks : list N) (l : list (N * N)) : bool :=
  forallb (fun t => check 32 9 [Ops (arm_ops [] (code (fst t)))] (Some (snd t)) (lay5 rho straight JJ) (lay5 rho ks JJ)) l.

Lemma scratch_ok s : Forall2 (cell_ok 32 s ctx0) scratch JJ.
Proof. repeat constructor. Qed.

Lemma rounds_ok l : check_rounds straight l = true -> is_round cn R l.
Proof.
  intros H c rc I' s Hs. unfold check_rounds in H. rewrite forallb_forall in H. specialize (H (c, rc) I'). cbn [fst snd] in H.
  destruct (block_ok pi rho Hinv _ _ _ _ _ H eq_refl s scratch Hs (scratch_ok _)) as (s' & E & W & C).
  rewrite HR, E. cbn [or_zero]. rewrite pick_straight in C. split; assumption.
Qed.
Lemma rounds5_ok l : check_rounds turned l = true -> is_round cn (unturn R) l.
Proof.
  intros H c rc I' s Hs. unfold check_rounds in H. rewrite forallb_forall in H. specialize (H (c, rc) I'). cbn [fst snd] in H.
  destruct (block_ok pi rho Hinv _ _ _ _ _ H eq_refl s scratch Hs (scratch_ok _)) as (s' & E & W & C).
  unfold unturn. rewrite HR, E. cbn [or_zero]. destruct s' as [x0 x1 x2 x3 x4]. destruct W as (W0 & W1 & W2 & W3 & W4).
  split; [repeat split; assumption|].
  unfold pick in C. cbn [s_of turned nth] in C.
  rewrite <- (pick_straight (round (cs cn s) rc)). unfold pick. cbn [straight nth].
  change (cs (bitperm pi) s) with (cs cn s) in C. revert C. generalize (round (cs cn s) rc) as q. intros q C.
  unfold cs in *. cbn [X0 X1 X2 X3 X4] in *. injection C as C0 C1 C2 C3 C4. fold cn in C0, C1, C2, C3, C4.
  rewrite C0, C1, C2, C3, C4. reflexivity.
Qed.
End Rounds.

Definition perm_ok (cn : N -> N) (P : N -> state -> state) (nr : N) : Prop :=
  forall s, wf s -> wf (P nr s) /\ cs cn (P nr s) = perm (N.to_nat nr) (cs cn s).

Lemma P5_ok cn R5 RC : is_round cn (unturn R5) (RCs RC) ->
  perm_ok cn (P5 R5 RC) 12 /\ perm_ok cn (P5 R5 RC) 8 /\ perm_ok cn (P5 R5 RC) 6.
Proof.
  intros H. assert (G : forall n, is_round cn (unturn R5) (skipn n (RCs RC))).
  { intros n. apply (is_round_sub _ _ _ _ H). intros x Hx. rewrite <- (firstn_skipn n). apply in_or_app. right. exact Hx. }
  split; [|split]; intros s Hs.
  - change (P5 R5 RC 12 s) with (P12ROUNDS5 R5 RC s). rewrite P12ROUNDS5_fold. exact (fold_is_round cn _ _ (G 0%nat) s Hs).
  - change (P5 R5 RC 8 s) with (P8ROUNDS5 R5 RC s). rewrite P8ROUNDS5_fold. exact (fold_is_round cn _ _ (G 4%nat) s Hs).
  - change (P5 R5 RC 6 s) with (P6ROUNDS5 R5 RC s). rewrite P6ROUNDS5_fold. exact (fold_is_round cn _ _ (G 6%nat) s Hs).
Qed.

Lemma P5i_ok cn R5 R RC : is_round cn (unturn R5) (RCs RC) -> is_round cn R (RCs RC) ->
  perm_ok cn (P5i R5 R RC) 12 /\ perm_ok cn (P5i R5 R RC) 8 /\ perm_ok cn (P5i R5 R RC) 6.
Proof.
  intros H H'. assert (G : forall n m, is_round cn (unturn R5) (firstn m (skipn n (RCs RC)))).
  { intros n m. apply (is_round_sub _ _ _ _ H). intros x Hx. rewrite <- (firstn_skipn n). apply in_or_app. right.
    rewrite <- (firstn_skipn m). apply in_or_app. left. exact Hx. }
  assert (G' : forall n, is_round cn R (skipn n (RCs RC))).
  { intros n. apply (is_round_sub _ _ _ _ H'). intros x Hx. rewrite <- (firstn_skipn n). apply in_or_app. right. exact Hx. }
  split; [|split]; intros s Hs.
  - change (P5i R5 R RC 12 s) with (P12ROUNDS5i R5 R RC s). rewrite P12ROUNDS5i_fold.
    destruct (fold_is_round cn _ _ (G 0%nat 10%nat) s Hs) as [W E].
    destruct (fold_is_round cn _ _ (G' 10%nat) _ W) as [W' E']. split; [exact W'|].
    etransitivity; [exact E'|]. rewrite E. unfold perm. rewrite <- fold_left_app. reflexivity.
  - change (P5i R5 R RC 8 s) with (P8ROUNDS5i R5 R RC s). rewrite P8ROUNDS5i_fold.
    destruct (fold_is_round cn _ _ (G 4%nat 5%nat) s Hs) as [W E].
    destruct (fold_is_round cn _ _ (G' 9%nat) _ W) as [W' E']. split; [exact W'|].
    etransitivity; [exact E'|]. rewrite E. unfold perm. rewrite <- fold_left_app. reflexivity.
  - change (P5i R5 R RC 6 s) with (P6ROUNDS5i R5 R RC s). rewrite P6ROUNDS5i_fold.
    destruct (fold_is_round cn _ _ (G 6%nat 5%nat) s Hs) as [W E].
    destruct (fold_is_round cn _ _ (G' 11%nat) _ W) as [W' E']. split; [exact W'|].
    etransitivity; [exact E'|]. rewrite E. unfold perm. rewrite <- fold_left_app. reflexivity.
Qed.

(** ROUND and ROUND5 of each directory, all twelve constants. *)
Lemma armv6_R5 : check_rounds pi64 (fun c => armv6_ROUND5 (trunc 32 c)) turned (RCs w64_RCk) = true.
Proof. vm_compute. reflexivity. Qed.
Lemma armv7m_R5 : check_rounds pi64 (fun c => armv7m_ROUND5 (trunc 32 c)) turned (RCs w64_RCk) = true.
Proof. vm_compute. reflexivity. Qed.
Definition bi_code (code : N -> N -> list arm) (c : N) : list arm := code (trunc 32 c) (trunc 32 (shrw c 32)).
Lemma bi32_armv6_R5 : check_rounds inv32 (bi_code bi32_armv6_ROUND5) turned (RCs bi32_RCk) = true.
Proof. vm_compute. reflexivity. Qed.
Lemma bi32_armv7m_R5 : check_rounds inv32 (bi_code bi32_armv7m_ROUND5) turned (RCs bi32_RCk) = true.
Proof. vm_compute. reflexivity. Qed.
Lemma bi32_armv7m_R : check_rounds inv32 (bi_code bi32_armv7m_ROUND) straight (RCs bi32_RCk) = true.
Proof. vm_compute. reflexivity. Qed.

(** The rounds of the loops, [n] of them: the layouts after each. *)
Definition steps (n : nat) (f : N -> layout) : list (option N * layout) :=
  map (fun k => (Some (nth (16 - n + k) round_constants 0), f (N.of_nat k + 1))) (seq 0 n).
Lemma s_chain_steps n f s : (n <= 12)%nat -> s_chain s (steps n f) = perm n s.
Proof.
  intros H. unfold s_chain, perm.
  assert (G : forall m s, (m <= n)%nat -> fold_left (fun s t => s_of (fst t) s) (map (fun k => (Some (nth (16 - n + k) round_constants 0), f (N.of_nat k + 1))) (seq (n - m) m)) s
    = fold_left round (skipn (16 - m) round_constants) s).
  { induction m as [|m IH]; intros q Hm; [reflexivity|].
    cbn [seq map fold_left fst s_of]. replace (S (n - S m)) with (n - m)%nat by lia.
    rewrite IH by lia. replace (16 - n + (n - S m))%nat with (16 - S m)%nat by lia.
    replace (skipn (16 - S m) round_constants) with (nth (16 - S m) round_constants 0 :: skipn (16 - m) round_constants); [reflexivity|].
    assert (Hm' : (m < 12)%nat) by lia. clear - Hm'. do 12 (destruct m as [|m]; [reflexivity|]). lia. }
  unfold steps. specialize (G n s (le_n n)). rewrite Nat.sub_diag in G. exact G.
Qed.

Section Loop.
Variables (pi rho : N -> N).
Hypothesis Hinv : forall i, i < 64 -> pi i < 64 /\ rho i < 64 /\ pi (rho i) = i /\ rho (pi i) = i.
Let cn := bitperm pi.
Variables (code : list arm) (tab : list N) (a b : wx) (cells : N -> list cell) (n : nat).
Definition lay_at (k : N) : layout := lay5 rho straight (cells k).
Definition check_loop : bool := iters 32 9 [Ops (arm_ops tab code)] a b (lay_at 0) (steps n lay_at).

Lemma last_lay_steps : exists k, last_lay (lay_at 0) (steps n lay_at) = lay_at k.
Proof.
  unfold steps. generalize 0 at 1 as k0. generalize (fun k => Some (nth (16 - n + k) round_constants 0)) as g.
  intros g. induction (seq 0 n) as [|i l IH]; intros k0; [exists k0; reflexivity|]. cbn [map last_lay]. apply IH.
Qed.
(** For whatever the scratch operands [t] contain. *)
Lemma loop_ok : check_loop = true -> (n <= 12)%nat ->
  forall s t, wf s -> Forall2 (cell_ok 32 (cs cn s) ctx0) t (cells 0) ->
  exists s', asm_block LE t [DoWhile [Ops (arm_ops tab code)] a b] s = Some s' /\ wf s' /\ cs cn s' = perm n (cs cn s).
Proof.
  intros H Hn s t Hs Ht. destruct last_lay_steps as [k Hk].
  destruct (block_loop_ok pi rho Hinv code tab a b (cells 0) (steps n lay_at) straight H) with (tl' := cells k) (s := s) (t := t)
    as (s' & E & W & C); auto.
  - unfold steps. rewrite map_length, seq_length. lia.
  - exists s'. rewrite pick_straight, s_chain_steps in C by exact Hn. auto.
Qed.
End Loop.

(** Scratch cells: [c64] of armv6, armv7m; [c64m] of armv6m; bi32. *)
Definition c64 (n : N) (k : N) : list cell := [J; J; J; K (start64 n - 15 * k); J].
Definition c64m (n : N) (k : N) : list cell := [J; K (start64 n - 15 * k); J; J; J].
Definition cbi (n : N) (k : N) : list cell := [J; J; J; K (start_bi n + 2 * k); K 24].
Definition cbim (n : N) (k : N) : list cell := [K 24; K (start_bi n + 2 * k); J; J; J].

Lemma armv7m_loop n : In n [12; 8; 6] -> check_loop pi64 armv7m_ROUND_LOOP [] (Reg rC) (Cst 60) (c64 n) (N.to_nat n) = true.
Proof. intros H. cbn [In] in H. destruct H as [<-|[<-|[<-|[]]]]; vm_compute; reflexivity. Qed.
Lemma armv6_loop n : In n [12; 8; 6] -> check_loop pi64 armv6_ROUND_LOOP [] (Reg rC) (Cst 60) (c64 n) (N.to_nat n) = true.
Proof. intros H. cbn [In] in H. destruct H as [<-|[<-|[<-|[]]]]; vm_compute; reflexivity. Qed.
Lemma armv6m_loop n : In n [12; 8; 6] -> check_loop pi64 armv6m_ROUND_LOOP [] (Reg tmp1) (Cst 60) (c64m n) (N.to_nat n) = true.
Proof. intros H. cbn [In] in H. destruct H as [<-|[<-|[<-|[]]]]; vm_compute; reflexivity. Qed.
Lemma bi32_armv7m_loop n : In n [12; 8; 6] -> check_loop inv32 bi32_armv7m_ROUND_LOOP bi32_constants (Reg rC) (Reg rE) (cbi n) (N.to_nat n) = true.
Proof. intros H. cbn [In] in H. destruct H as [<-|[<-|[<-|[]]]]; vm_compute; reflexivity. Qed.
Lemma bi32_armv6m_loop n : In n [12; 8; 6] -> check_loop inv32 bi32_armv6m_ROUND_LOOP bi32_constants (Reg tmp1) (Reg tmp0) (cbim n) (N.to_nat n) = true.
Proof. intros H. cbn [In] in H. destruct H as [<-|[<-|[<-|[]]]]; vm_compute; reflexivity. Qed.

Lemma nr_le n : In n [12; 8; 6] -> (N.to_nat n <= 12)%nat.
Proof. cbn [In]. lia. Qed.
(** From a loop to [perm_ok]. *)
Lemma loop_perm pi rho (Hinv : forall i, i < 64 -> pi i < 64 /\ rho i < 64 /\ pi (rho i) = i /\ rho (pi i) = i)
    code tab a b cells (t : N -> list N) P :
  (forall n s, P n s = or_zero (asm_block LE (t n) [DoWhile [Ops (arm_ops tab code)] a b] s)) ->
  (forall n, In n [12; 8; 6] -> check_loop rho code tab a b (cells n) (N.to_nat n) = true) ->
  (forall n s, Forall2 (cell_ok 32 s ctx0) (t n) (cells n 0)) ->
  forall n, In n [12; 8; 6] -> perm_ok (bitperm pi) P n.
Proof.
  intros HP H Ht n Hn s Hs.
  destruct (loop_ok pi rho Hinv _ _ _ _ _ _ (H n Hn) (nr_le n Hn) s (t n) Hs (Ht n _)) as (s' & E & W & C).
  rewrite HP, E. split; assumption.
Qed.
Ltac cells_tac := intros; repeat (constructor; [cbn [cell_ok]; try exact (fits_trunc 32 0); unfold start64, start_bi; lia|]); constructor.
Lemma armv7m_small_P n : In n [12; 8; 6] -> perm_ok cn64 (asm_loop LE armv7m_ROUND_LOOP) n.
Proof. apply (loop_perm pi64 pi64 inv64_ok armv7m_ROUND_LOOP [] (Reg rC) (Cst 60) c64 (fun nr => [0; 0; 0; start64 nr; 0])); [reflexivity|apply armv7m_loop|cells_tac]. Qed.
Lemma armv6_lowsize_P n : In n [12; 8; 6] -> perm_ok cn64 (asm_loop LE armv6_ROUND_LOOP) n.
Proof. apply (loop_perm pi64 pi64 inv64_ok armv6_ROUND_LOOP [] (Reg rC) (Cst 60) c64 (fun nr => [0; 0; 0; start64 nr; 0])); [reflexivity|apply armv6_loop|cells_tac]. Qed.
Lemma armv6m_P n : In n [12; 8; 6] -> perm_ok cn64 (asm_loop_m LE armv6m_ROUND_LOOP) n.
Proof. apply (loop_perm pi64 pi64 inv64_ok armv6m_ROUND_LOOP [] (Reg tmp1) (Cst 60) c64m (fun nr => [0; start64 nr; 0; 0; 0])); [reflexivity|apply armv6m_loop|cells_tac]. Qed.
Lemma bi32_armv7m_small_P n : In n [12; 8; 6] -> perm_ok cn32 (asm_loop_bi LE bi32_armv7m_ROUND_LOOP) n.
Proof. apply (loop_perm pi32 inv32 inv32_ok bi32_armv7m_ROUND_LOOP bi32_constants (Reg rC) (Reg rE) cbi (fun nr => [0; 0; 0; start_bi nr; 24])); [reflexivity|apply bi32_armv7m_loop|cells_tac]. Qed.
Lemma bi32_armv6m_P n : In n [12; 8; 6] -> perm_ok cn32 (asm_loop_bi_m LE bi32_armv6m_ROUND_LOOP) n.
Proof. apply (loop_perm pi32 inv32 inv32_ok bi32_armv6m_ROUND_LOOP bi32_constants (Reg tmp1) (Reg tmp0) cbim (fun nr => [24; start_bi nr; 0; 0; 0])); [reflexivity|apply bi32_armv6m_loop|cells_tac]. Qed.

Lemma armv6_P n : In n [12; 8; 6] -> perm_ok cn64 (P5 (asm_ROUND LE armv6_ROUND5) w64_RCk) n.
Proof.
  destruct (P5_ok cn64 (asm_ROUND LE armv6_ROUND5) w64_RCk) as (A & B & C).
  { apply (rounds5_ok pi64 pi64 inv64_ok) with (2 := armv6_R5). intros s c. unfold asm_ROUND, asm_ROUND_bi, bi_code. reflexivity. }
  cbn [In]. intros [<-|[<-|[<-|[]]]]; assumption.
Qed.
Lemma armv7m_P n : In n [12; 8; 6] -> perm_ok cn64 (P5 (asm_ROUND LE armv7m_ROUND5) w64_RCk) n.
Proof.
  destruct (P5_ok cn64 (asm_ROUND LE armv7m_ROUND5) w64_RCk) as (A & B & C).
  { apply (rounds5_ok pi64 pi64 inv64_ok) with (2 := armv7m_R5). intros s c. unfold asm_ROUND, asm_ROUND_bi, bi_code. reflexivity. }
  cbn [In]. intros [<-|[<-|[<-|[]]]]; assumption.
Qed.
Lemma bi32_armv6_P n : In n [12; 8; 6] -> perm_ok cn32 (P5 (asm_ROUND_bi LE bi32_armv6_ROUND5) bi32_RCk) n.
Proof.
  destruct (P5_ok cn32 (asm_ROUND_bi LE bi32_armv6_ROUND5) bi32_RCk) as (A & B & C).
  { apply (rounds5_ok pi32 inv32 inv32_ok) with (2 := bi32_armv6_R5). intros s c. unfold asm_ROUND, asm_ROUND_bi, bi_code. reflexivity. }
  cbn [In]. intros [<-|[<-|[<-|[]]]]; assumption.
Qed.
Lemma bi32_armv7m_P n : In n [12; 8; 6] ->
  perm_ok cn32 (P5i (asm_ROUND_bi LE bi32_armv7m_ROUND5) (asm_ROUND_bi LE bi32_armv7m_ROUND) bi32_RCk) n.
Proof.
  destruct (P5i_ok cn32 (asm_ROUND_bi LE bi32_armv7m_ROUND5) (asm_ROUND_bi LE bi32_armv7m_ROUND) bi32_RCk) as (A & B & C).
  { apply (rounds5_ok pi32 inv32 inv32_ok) with (2 := bi32_armv7m_R5). intros s c. unfold asm_ROUND, asm_ROUND_bi, bi_code. reflexivity. }
  { apply (rounds_ok pi32 inv32 inv32_ok) with (2 := bi32_armv7m_R). intros s c. unfold asm_ROUND, asm_ROUND_bi, bi_code. reflexivity. }
  cbn [In]. intros [<-|[<-|[<-|[]]]]; assumption.
Qed.

(** ** armv6m_lowsize/permutations.S *)

(** At the entry, in the loop, at the return. *)
Definition S_entry (n : N) : layout :=
  Lay [Sv 0; K n; J; J; Sv 4; Sv 5; Sv 6; Sv 7; Sv 8; Sv 9; Sv 10; Sv 11; J; J; Sv 14; J; J; J; J] [] (words pi64 straight).
Definition S_loop (n k : N) : layout :=
  let lo := half_lo pi64 in let hi := half_hi pi64 in
  Lay [J; K (start64 n - 15 * k); lo 4; lo 0; lo 3; lo 2; J; lo 1; hi 0; hi 1; hi 4; hi 3; hi 2; J; J; J; J; J; J]
      [J; Sv 0; J; Sv 8; Sv 9; Sv 10; Sv 11; Sv 4; Sv 5; Sv 6; Sv 7; Sv 14] [J; J; J; J; J; J; J; J; J; J].
Definition S_exit : layout :=
  Lay [J; J; J; J; Sv 4; Sv 5; Sv 6; Sv 7; Sv 8; Sv 9; Sv 10; Sv 11; J; J; J; Sv 14; J; J; J] [] (words pi64 straight).

Lemma S_prologue_ok n : In n [12; 8; 6] -> check 32 9 [Ops (arm_ops [] armv6m_S_prologue)] None (S_entry n) (S_loop n 0) = true.
Proof. intros H. cbn [In] in H. destruct H as [<-|[<-|[<-|[]]]]; vm_compute; reflexivity. Qed.
Lemma S_iters_ok n : In n [12; 8; 6] -> iters 32 9 [Ops (arm_ops [] armv6m_S_body)] (Reg r1) (Cst 60) (S_loop n 0) (steps (N.to_nat n) (S_loop n)) = true.
Proof. intros H. cbn [In] in H. destruct H as [<-|[<-|[<-|[]]]]; vm_compute; reflexivity. Qed.
Lemma S_last n : In n [12; 8; 6] -> last_lay (S_loop n 0) (steps (N.to_nat n) (S_loop n)) = S_loop n n.
Proof. intros H. cbn [In] in H. destruct H as [<-|[<-|[<-|[]]]]; vm_compute; reflexivity. Qed.
Lemma S_epilogue_ok n : In n [12; 8; 6] -> check 32 9 [Ops (arm_ops [] armv6m_S_epilogue)] None (S_loop n n) S_exit = true.
Proof. intros H. cbn [In] in H. destruct H as [<-|[<-|[<-|[]]]]; vm_compute; reflexivity. Qed.

Definition S_ctx (addr n : N) (c : list N) : list N := addr :: n :: c ++ repeat 0 16.
Lemma S_ctx_ok addr n c : In n [12; 8; 6] -> fits 32 addr -> length c = 14%nat -> Forall (fits 32) c -> ctx_ok 32 (S_ctx addr n c).
Proof.
  intros Hn Ha Hl Hc. split; [unfold S_ctx; cbn [length]; rewrite app_length, repeat_length; lia|]. unfold S_ctx.
  constructor; [exact Ha|]. constructor; [|apply Forall_app; split; [exact Hc|repeat constructor]].
  cbn [In] in Hn. destruct Hn as [<-|[<-|[<-|[]]]]; unfold fits; lia.
Qed.
Lemma S_entry_ok n s addr c u : wf s -> length c = 14%nat -> Forall (fits 32) c -> length u = 3%nat -> Forall (fits 32) u ->
  lay_ok 32 (S_ctx addr n c) s (Mach (addr :: n :: c ++ u) [] addr (halves LE s)) (S_entry n).
Proof.
  intros Hs Hl Hc Hlu Hu.
  constructor; cbn [regs stk obj base l_regs l_stk l_obj S_entry]; [|constructor| |reflexivity].
  - do 14 (destruct c as [|? c]; [discriminate|]). destruct c; [|discriminate].
    do 3 (destruct u as [|? u]; [discriminate|]). destruct u; [|discriminate].
    rewrite Forall_forall in Hc, Hu. unfold S_ctx. cbn [app].
    repeat (constructor; [cbn [cell_ok nth app]; first [reflexivity | apply Hc; cbn; tauto | apply Hu; cbn; tauto]|]). constructor.
  - rewrite <- (cs64_id s Hs) at 1. apply (halves_ok pi64 pi64 inv64_ok), Hs.
Qed.

(** The whole function: the state becomes Ascon-p[nr] of it, the registers
    r4 to r11 and the stack are as before, and control returns to lr. *)
Theorem armv6m_S_ok n : In n [12; 8; 6] -> forall s addr c u, wf s -> fits 32 addr -> length c = 14%nat -> Forall (fits 32) c ->
  length u = 3%nat -> Forall (fits 32) u ->
  exists M, asm_call LE armv6m_S_prog addr c u n s = Some M /\
    wf (unhalves LE (obj M)) /\ unhalves LE (obj M) = perm (N.to_nat n) s /\
    length (obj M) = 10%nat /\ stk M = [] /\ base M = addr /\
    (forall i, (4 <= i <= 11)%nat -> nth i (regs M) 0 = nth (i - 2) c 0) /\
    nth pc (regs M) 0 = nth 12 c 0.
Proof.
  intros Hn s addr c u Hs Ha Hl Hc Hlu Hu.
  set (ctx := S_ctx addr n c).
  assert (C : ctx_ok 32 ctx) by (apply S_ctx_ok; assumption).
  pose proof (S_entry_ok n s addr c u Hs Hl Hc Hlu Hu) as L0. fold ctx in L0.
  destruct (check_sound _ _ _ _ _ _ ctx (S_prologue_ok n Hn) C s _ L0) as (M1 & E1 & L1). cbn [s_of] in L1.
  destruct (iters_sound 32 ctx 9 _ _ _ _ C _ s _ (S_iters_ok n Hn) L1) as (M2 & E2 & L2).
  rewrite s_chain_steps in L2 by (apply nr_le, Hn). rewrite (S_last n Hn) in L2.
  destruct (check_sound _ _ _ _ _ _ ctx (S_epilogue_ok n Hn) C _ _ L2) as (M3 & E3 & [R T O B]). cbn [s_of] in R, T, O.
  exists M3. split; [|].
  - unfold asm_call. eapply run_mono.
    + change armv6m_S_prog with ([Ops (arm_ops [] armv6m_S_prologue)] ++ ([DoWhile [Ops (arm_ops [] armv6m_S_body)] (Reg r1) (Cst 60)] ++ [Ops (arm_ops [] armv6m_S_epilogue)])).
      eapply run_app; [|exact E1]. eapply run_app; [exact E3|exact E2].
    + unfold steps. rewrite map_length, seq_length. pose proof (nr_le n Hn). unfold FUEL. lia.
  - assert (Wp : wf (perm (N.to_nat n) s)).
    { destruct (armv7m_small_P n Hn s Hs) as [_ E]. rewrite (cs64_id s Hs) in E. rewrite <- E. apply (wf_cs pi64). }
    assert (O' : Forall2 (cell_ok 32 (perm (N.to_nat n) s) ctx) (obj M3) (words pi64 straight ++ [])) by (rewrite app_nil_r; exact O).
    destruct (unhalves_ok pi64 pi64 inv64_ok _ ctx _ straight [] Wp eq_refl O') as [W E].
    change (bitperm pi64) with cn64 in E.
    split; [exact W|]. split; [rewrite (cs64_id _ W), pick_straight in E; exact E|].
    split; [clear - O; revert O; generalize (obj M3) as l; intros l O; do 10 (apply F2_cons in O; destruct O as (? & ? & -> & _ & O)); inversion O; reflexivity|].
    split; [inversion T; reflexivity|]. split; [exact B|].
    clear - R Hl. unfold S_exit in R. cbn [l_regs] in R.
    do 19 (match type of R with Forall2 _ _ (_ :: _) => apply F2_cons in R; let v := fresh "v" in let r := fresh "r" in let C := fresh "C" in destruct R as (v & r & -> & C & R) end).
    inversion R; subst. cbn [cell_ok] in *. unfold ctx, S_ctx in *.
    do 14 (destruct c as [|? c]; [discriminate|]). destruct c; [|discriminate]. cbn [nth app] in *. subst.
    split.
    + intros i Hi. assert (D : i = 4%nat \/ i = 5%nat \/ i = 6%nat \/ i = 7%nat \/ i = 8%nat \/ i = 9%nat \/ i = 10%nat \/ i = 11%nat) by lia.
      destruct D as [->|[->|[->|[->|[->|[->|[->| ->]]]]]]]; reflexivity.
    + reflexivity.
Qed.

Lemma armv6m_lowsize_P n : In n [12; 8; 6] -> perm_ok cn64 (armv6m_S_P LE) n.
Proof.
  intros Hn s Hs.
  destruct (armv6m_S_ok n Hn s 0 (repeat 0 14) (repeat 0 3) Hs ltac:(unfold fits; lia) eq_refl ltac:(repeat constructor) eq_refl ltac:(repeat constructor))
    as (M & E & W & P & _).
  unfold armv6m_S_P. rewrite E. cbn [or_zero]. split; [exact W|]. rewrite (cs64_id _ W), (cs64_id _ Hs). exact P.
Qed.

(** ** Word laws *)

Ltac arm_laws l H := apply l; apply H; cbn [In]; tauto.
Lemma armv6_laws : word_laws cn64 LE (armv6 LE).
Proof. arm_laws w64_laws armv6_P. Qed.
Lemma armv7m_laws : word_laws cn64 LE (armv7m LE).
Proof. arm_laws w64_laws armv7m_P. Qed.
Lemma armv6m_laws : word_laws cn64 LE (armv6m LE).
Proof. arm_laws w64_laws armv6m_P. Qed.
Lemma armv7m_small_laws : word_laws cn64 LE (armv7m_small LE).
Proof. arm_laws w64_laws armv7m_small_P. Qed.
Lemma armv6_lowsize_laws : word_laws cn64 LE (armv6_lowsize LE).
Proof. arm_laws w64_laws armv6_lowsize_P. Qed.
Lemma armv6m_lowsize_laws : word_laws cn64 LE (armv6m_lowsize LE).
Proof. arm_laws w64_laws armv6m_lowsize_P. Qed.
Lemma bi32_armv6_laws : word_laws cn32 LE (bi32_armv6 LE).
Proof. arm_laws bi32_ops_laws bi32_armv6_P. Qed.
Lemma bi32_armv6m_laws : word_laws cn32 LE (bi32_armv6m LE).
Proof. arm_laws bi32_ops_laws bi32_armv6m_P. Qed.
Lemma bi32_armv7m_laws : word_laws cn32 LE (bi32_armv7m LE).
Proof. arm_laws bi32_ops_laws bi32_armv7m_P. Qed.
Lemma bi32_armv7m_small_laws : word_laws cn32 LE (bi32_armv7m_small LE).
Proof. arm_laws bi32_ops_laws bi32_armv7m_small_P. Qed.
