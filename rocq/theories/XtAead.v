(** * XtAead.v -- the duplex of ModelXt.v. *)
From Coq Require Import Bool Arith NArith ZArith List Lia Init.Byte Strings.Byte ZifyBool ZifyNat ZifyN.
From Verif Require Import Words WordFacts Spec SpecFacts Spec12 Spec12Facts StateRep Asm ModelRv ModelXt CMem Contract CMemFacts RvFacts RvRound RvMode RvWords RvInst RvLaws XtSpec XtFacts XtHash.
Import ListNotations.
Local Open Scope N_scope.
Local Strategy 1000 [rev8f].
Local Notation P := ascon128a_v12.
Local Notation wdx := (Wd_xor be_num hi_n lo_n rv32b ascon128a_v12 laws_rv32b).

(** ** State in registers and on the stack *)
Definition mx (r g : regs) : regs := mrg xt_state r g.
Lemma mx_val r g i : mx r g i = if Nat.eqb i 25 then g 9%nat else if Nat.eqb i 24 then g 8%nat else if Nat.eqb i 23 then g 7%nat else
  if Nat.eqb i 22 then g 6%nat else if Nat.eqb i 21 then g 5%nat else if Nat.eqb i 20 then g 4%nat else r i.
Proof. reflexivity. Qed.
Definition slots : list nat := [4; 5; 6; 7; 8; 9]%nat.
Lemma BS_keep l lg r r' g g' S : except l r r' -> except lg g g' ->
  forallb (fun i => negb (memb i l)) [8; 9; 18; 19]%nat = true -> forallb (fun i => negb (memb i lg)) slots = true ->
  BS (mx r g) S -> BS (mx r' g') S.
Proof.
  intros E G A B (a0 & a1 & a2 & a3 & a4 & -> & [(L0 & X0 & Y0) (L1 & X1 & Y1) (L2 & X2 & Y2) (L3 & X3 & Y3) (L4 & X4 & Y4)]).
  exists a0, a1, a2, a3, a4. split; [reflexivity|].
  assert (KA : forall i, In i [8; 9; 18; 19]%nat -> r' i = r i).
  { intros i Hi. apply E. rewrite forallb_forall in A. apply negb_true_iff, A, Hi. }
  assert (KB : forall i, In i slots -> g' i = g i).
  { intros i Hi. apply G. rewrite forallb_forall in B. apply negb_true_iff, B, Hi. }
  rewrite !mx_val in *. cbn [Nat.eqb] in *.
  constructor; (split; [assumption|]); rewrite !mx_val; cbn [Nat.eqb]; rewrite ?KA, ?KB by (cbn; tauto); split; assumption.
Qed.
Lemma BS_stored r g S : BS r S -> BS (mx r (snd (sx (stores xt_state) (r, g)))) S.
Proof.
  apply BS_ext. intros i. rewrite mx_val.
  do 6 (match goal with |- (if Nat.eqb i ?n then _ else _) = _ => destruct (Nat.eqb_spec i n) as [->|_]; [reflexivity|] end).
  reflexivity.
Qed.
(** Slots a duplex call overwrites *)
Definition gtmp : list nat := [4; 5; 6; 7; 8; 9; 15; 16; 17; 22]%nat.

(** ** Blocks of 16 bytes *)
Lemma rev8_ok a r M : fits 32 a -> rok r ->
  exists r', runs (call 1 a xt_rev8 r) M M r' /\ r' 28%nat = rev8f (r 28%nat) /\ r' 29%nat = rev8f (r 29%nat) /\
    r' 24%nat = rev8f (r 24%nat) /\ r' 25%nat = rev8f (r 25%nat) /\ rok r' /\ except [1; 6; 24; 25; 28; 29]%nat r r'.
Proof.
  intros Ha Hr. set (r0 := setr r 1 a).
  assert (Hr0 : rok r0) by (apply rok_set; [exact Hr|discriminate|exact Ha]).
  destruct (xrev8_ok 24 24 r0 M Hr0) as (r1 & R1 & V1 & E1 & Hr1); [discriminate|lia|discriminate|].
  destruct (xrev8_ok 25 25 r1 M Hr1) as (r2 & R2 & V2 & E2 & Hr2); [discriminate|lia|discriminate|].
  destruct (xrev8_ok 28 28 r2 M Hr2) as (r3 & R3 & V3 & E3 & Hr3); [discriminate|lia|discriminate|].
  destruct (xrev8_ok 29 29 r3 M Hr3) as (r4 & R4 & V4 & E4 & Hr4); [discriminate|lia|discriminate|].
  exists r4. split; [|split; [|split; [|split; [|split; [|split; [exact Hr4|]]]]]].
  - apply st_call.
    + unfold xt_rev8. apply st_app with (M1 := M) (r1 := r1); [exact R1|]. apply st_app with (M1 := M) (r1 := r2); [exact R2|].
      apply st_app with (M1 := M) (r1 := r3); assumption.
    + rewrite (E4 1%nat eq_refl), (E3 1%nat eq_refl), (E2 1%nat eq_refl), (E1 1%nat eq_refl). reflexivity.
  - rewrite (E4 28%nat eq_refl), V3, (E2 28%nat eq_refl), (E1 28%nat eq_refl). reflexivity.
  - rewrite V4, (E3 29%nat eq_refl), (E2 29%nat eq_refl), (E1 29%nat eq_refl). reflexivity.
  - rewrite (E4 24%nat eq_refl), (E3 24%nat eq_refl), (E2 24%nat eq_refl), V1. reflexivity.
  - rewrite (E4 25%nat eq_refl), (E3 25%nat eq_refl), V2, (E1 25%nat eq_refl). reflexivity.
  - apply except_trans with r0; [unfold r0; exs|]. apply except_trans with r1; [apply (except_sub [6; 24]%nat); [reflexivity|exact E1]|].
    apply except_trans with r2; [apply (except_sub [6; 25]%nat); [reflexivity|exact E2]|].
    apply except_trans with r3; [apply (except_sub [6; 28]%nat); [reflexivity|exact E3]|].
    apply (except_sub [6; 29]%nat); [reflexivity|exact E4].
Qed.
Lemma split16 (l : bytes) : length l = 16%nat -> exists a b, l = a ++ b /\ length a = 8%nat /\ length b = 8%nat.
Proof.
  intros H. exists (firstn 8 l), (skipn 8 l). split; [symmetry; apply firstn_skipn|].
  rewrite firstn_length_le, skipn_length by lia. split; lia.
Qed.
Section labels.
Variable lab : N -> N.
Hypothesis Hlab : forall n, fits 32 (lab n).
Lemma load_ok b ln r M l0 l1 : rok r -> readable M (r b) (l0 ++ l1) -> length l0 = 8%nat -> length l1 = 8%nat -> r b + 16 < 2 ^ 32 ->
  memb b [0; 1; 24; 25; 28; 29]%nat = false ->
  exists r', runs (xt_load lab b ln r) M M r' /\ BW r' 28 29 l0 /\ BW r' 24 25 l1 /\ rok r' /\ except [1; 6; 24; 25; 28; 29]%nat r r'.
Proof.
  intros Hr HR L0 L1 Hb Hm.
  destruct (split44 l0 L0) as (E0 & A0 & B0). destruct (split44 l1 L1) as (E1 & A1 & B1).
  set (x0 := firstn 4 l0) in *. set (y0 := skipn 4 l0) in *. set (x1 := firstn 4 l1) in *. set (y1 := skipn 4 l1) in *.
  assert (HR' := HR). rewrite E0, E1, <- !app_assoc in HR'.
  destruct (readable_app _ _ _ _ HR') as [Q0 HR1]. destruct (readable_app _ _ _ _ HR1) as [Q1 HR2].
  destruct (readable_app _ _ _ _ HR2) as [Q2 Q3].
  assert (Z : len x0 = 4 /\ len y0 = 4 /\ len x1 = 4) by (unfold len; lia). destruct Z as (Z0 & Z1 & Z2). rewrite ?Z0, ?Z1, ?Z2 in *.
  set (r1 := setr (setr (setr (setr r 28 (le_num x0)) 29 (le_num y0)) 24 (le_num x1)) 25 (le_num y1)).
  assert (Hr1 : rok r1).
  { unfold r1. repeat (apply rok_set; [|discriminate|]); [exact Hr|..]; apply fits_le4; assumption. }
  destruct (rev8_ok (lab ln) r1 M (Hlab _) Hr1) as (r2 & R2 & V0 & V1 & V2 & V3 & Hr2 & E2).
  pose proof (be_To l0 L0) as T0. pose proof (be_To l1 L1) as T1. fold x0 y0 in T0. fold x1 y1 in T1. injection T0 as T0 T0'. injection T1 as T1 T1'.
  change (r1 28%nat) with (le_num x0) in V0. change (r1 29%nat) with (le_num y0) in V1.
  change (r1 24%nat) with (le_num x1) in V2. change (r1 25%nat) with (le_num y1) in V3.
  exists r2. split; [|split; [|split; [|split; [exact Hr2|]]]].
  - unfold xt_load. apply st_then with (M1 := M) (r1 := r1); [|exact R2].
    assert (NB : forall q d v, memb d [24; 25; 28; 29]%nat = true -> setr q d v b = q b).
    { intros q d v Hd. unfold setr. destruct (Nat.eqb_spec b d) as [->|]; [|reflexivity]. exfalso. clear - Hd Hm. revert Hd Hm.
      do 30 (destruct d as [|d]; [cbn; congruence|]). cbn. congruence. }
    apply (st_lu 28 b 0 x0 _ _ _ _ _ (r b)); [lia|lia|exact Q0|exact A0|].
    apply (st_lu 29 b 4 y0 _ _ _ _ _ (r b + 4)); [rewrite NB by reflexivity; reflexivity|lia|exact Q1|exact B0|].
    apply (st_lu 24 b 8 x1 _ _ _ _ _ (r b + 4 + 4)); [rewrite !NB by reflexivity; lia|lia|exact Q2|exact A1|].
    apply (st_lu 25 b 12 y1 _ _ _ _ _ (r b + 4 + 4 + 4)); [rewrite !NB by reflexivity; lia|lia|exact Q3|exact B1|]. apply st_nil.
  - split; [exact L0|]. unfold hi, lo. rewrite V0, V1. split; assumption.
  - split; [exact L1|]. unfold hi, lo. rewrite V2, V3. split; assumption.
  - apply except_trans with r1; [unfold r1; exs|exact E2].
Qed.
Lemma xor_block_ok r g S l0 l1 M : rok r -> BS (mx r g) S -> BW r 28 29 l0 -> BW r 24 25 l1 ->
  exists r', runs (exec xt_xor_block r) M M r' /\ BS (mx r' g) (xor_into S (l0 ++ l1)) /\ rok r' /\ except [8; 9; 18; 19]%nat r r'.
Proof.
  intros Hr (a0 & a1 & a2 & a3 & a4 & -> & [H0 H1 H2 H3 H4]) (Z0 & A0 & B0) (Z1 & A1 & B1).
  eexists. split; [unfold xt_xor_block; do 4 (apply st_op; [reflexivity|]); apply st_nil|]. split; [|split].
  - exists (xor_into a0 l0), (xor_into a1 l1), a2, a3, a4. split.
    + unfold cat5. rewrite xor_into_app2 by (destruct H0; lia).
      rewrite xor_into_app_l by (destruct H1; lia). reflexivity.
    + constructor; [| |exact H2|exact H3|exact H4].
      * apply (wdx (mx r g) 8 9 _ a0 l0 (r 28%nat) (r 29%nat))%nat; try assumption; reflexivity.
      * apply (wdx (mx r g) 18 19 _ a1 l1 (r 24%nat) (r 25%nat))%nat; try assumption; reflexivity.
  - repeat (apply rok_op; [|discriminate|reflexivity]). exact Hr.
  - exs.
Qed.
Lemma take_block_ok r g S l0 l1 M : rok r -> BS (mx r g) S -> BW r 28 29 l0 -> BW r 24 25 l1 ->
  exists r', runs (exec xt_take_block r) M M r' /\ BS (mx r' g) ((l0 ++ l1) ++ skipn 16 S) /\ rok r' /\ except [8; 9; 18; 19]%nat r r'.
Proof.
  intros Hr (a0 & a1 & a2 & a3 & a4 & -> & [H0 H1 H2 H3 H4]) Z0 Z1.
  eexists. split; [unfold xt_take_block; do 4 (apply st_op; [reflexivity|]); apply st_nil|]. split; [|split].
  - exists l0, l1, a2, a3, a4. split.
    + unfold cat5. replace (skipn 16 (a0 ++ a1 ++ a2 ++ a3 ++ a4)) with (a2 ++ a3 ++ a4); [rewrite <- app_assoc; reflexivity|].
      rewrite (app_assoc a0 a1). symmetry. apply skipn_app_exact. rewrite app_length. destruct H0, H1. lia.
    + constructor; [exact Z0|exact Z1|exact H2|exact H3|exact H4].
  - repeat (apply rok_op; [|discriminate|reflexivity]). exact Hr.
  - exs.
Qed.
(** One word, reversed, at x + o *)
Lemma rev_store_ok x o r M : rok r -> (x < 32)%nat -> x <> 6%nat -> r 20%nat + o + 4 < 2 ^ 32 -> writable M (r 20%nat + o) 4 ->
  exists r', runs (exec (xrev8 6 x ++ [s32i 6 20 o]) r) M (write M (r 20%nat + o) (le_bytes 4 (rev8f (r x)))) r' /\ rok r' /\ except [6]%nat r r'.
Proof.
  intros Hr Hx H6 Hb Hw.
  destruct (xrev8_ok 6 x r M Hr H6 Hx) as (r1 & R1 & V1 & E1 & Hr1); [discriminate|].
  exists r1. split; [|split; [exact Hr1|apply (except_sub [6; 6]%nat); [reflexivity|exact E1]]].
  apply st_app with (M1 := M) (r1 := r1); [exact R1|].
  apply (st_su 6 20 o _ _ _ _ _ (r 20%nat + o)); [rewrite (E1 20%nat eq_refl); reflexivity|lia|exact Hw|].
  rewrite V1. apply st_nil.
Qed.
Lemma app4 {A} (a b c d e f g h : list A) : a ++ b ++ c ++ d ++ e ++ f ++ g ++ h = (a ++ b) ++ (c ++ d) ++ (e ++ f) ++ (g ++ h).
Proof. rewrite <- !app_assoc. reflexivity. Qed.
Lemma store_block_ok r g S M : rok r -> BS (mx r g) S -> writable M (r 20%nat) 16 -> r 20%nat + 16 < 2 ^ 32 ->
  exists r', runs (exec xt_store_block r) M (write M (r 20%nat) (firstn 16 S)) r' /\ rok r' /\ except [6]%nat r r'.
Proof.
  intros Hr (a0 & a1 & a2 & a3 & a4 & -> & [H0 H1 H2 H3 H4]) Hw Hb.
  destruct (writable_parts M _ Hw) as (W0 & W1 & W2 & W3).
  assert (A0 : length a0 = 8%nat) by apply H0. assert (A1 : length a1 = 8%nat) by apply H1.
  replace (firstn 16 (cat5 a0 a1 a2 a3 a4)) with (a0 ++ a1).
  2: { unfold cat5. rewrite (app_assoc a0 a1). symmetry. apply firstn_app_exact. rewrite app_length. lia. }
  pose proof (rev_bytes (mx r g) 8 9 a0 H0) as B0. pose proof (rev_bytes (mx r g) 18 19 a1 H1) as B1.
  change (mx r g 8%nat) with (r 8%nat) in B0. change (mx r g 9%nat) with (r 9%nat) in B0.
  change (mx r g 18%nat) with (r 18%nat) in B1. change (mx r g 19%nat) with (r 19%nat) in B1.
  set (p := r 20%nat) in *.
  destruct (rev_store_ok 8 0 r M Hr) as (r1 & R1 & Hr1 & E1); [lia|discriminate|fold p; lia|rewrite N.add_0_r; exact W0|].
  fold p in R1. rewrite N.add_0_r in R1. set (w0 := le_bytes 4 (rev8f (r 8%nat))) in *.
  destruct (rev_store_ok 9 4 r1 (write M p w0) Hr1) as (r2 & R2 & Hr2 & E2);
    [lia|discriminate|rewrite (E1 20%nat eq_refl); fold p; lia|rewrite (E1 20%nat eq_refl); apply writable_write; exact W1|].
  rewrite (E1 20%nat eq_refl), (E1 9%nat eq_refl) in R2. fold p in R2. set (w1 := le_bytes 4 (rev8f (r 9%nat))) in *.
  assert (E12 : except [6]%nat r r2) by (apply except_trans with r1; assumption).
  destruct (rev_store_ok 18 8 r2 (write (write M p w0) (p + 4) w1) Hr2) as (r3 & R3 & Hr3 & E3);
    [lia|discriminate|rewrite (E12 20%nat eq_refl); fold p; lia|rewrite (E12 20%nat eq_refl); do 2 apply writable_write; exact W2|].
  rewrite (E12 20%nat eq_refl), (E12 18%nat eq_refl) in R3. fold p in R3. set (w2 := le_bytes 4 (rev8f (r 18%nat))) in *.
  assert (E13 : except [6]%nat r r3) by (apply except_trans with r2; assumption).
  destruct (rev_store_ok 19 12 r3 (write (write (write M p w0) (p + 4) w1) (p + 8) w2) Hr3) as (r4 & R4 & Hr4 & E4);
    [lia|discriminate|rewrite (E13 20%nat eq_refl); fold p; lia|rewrite (E13 20%nat eq_refl); do 3 apply writable_write; exact W3|].
  rewrite (E13 20%nat eq_refl), (E13 19%nat eq_refl) in R4. fold p in R4. set (w3 := le_bytes 4 (rev8f (r 19%nat))) in *.
  exists r4. split; [|split; [exact Hr4|apply except_trans with r3; assumption]].
  rewrite <- B0, <- B1, <- app_assoc, <- sw_write by apply length_le_bytes.
  unfold xt_store_block. rewrite app4.
  apply st_app with (M1 := write M p w0) (r1 := r1); [exact R1|].
  apply st_app with (M1 := write (write M p w0) (p + 4) w1) (r1 := r2); [exact R2|].
  apply st_app with (M1 := write (write (write M p w0) (p + 4) w1) (p + 8) w2) (r1 := r3); assumption.
Qed.
End labels.
