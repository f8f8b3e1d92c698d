(** * XtMode.v -- the duplex of ModelXt.v: blocks, padding, the whole text. *)
From Coq Require Import Bool Arith NArith ZArith List Lia Init.Byte Strings.Byte ZifyBool ZifyNat ZifyN.
From Verif Require Import Words WordFacts Spec SpecFacts Spec12 Spec12Facts StateRep Asm ModelRv ModelXt CMem Contract CMemFacts RvFacts RvRound RvMode RvWords RvInst RvLaws XtSpec XtFacts XtHash XtAead.
Import ListNotations.
Local Open Scope N_scope.
Local Strategy 1000 [rev8f].
Local Notation P := ascon128a_v12.

Section mode.
Variable lab : N -> N.
Hypothesis Hlab : forall n, fits 32 (lab n).
Variable F : N.
Notation frm := (frame F 96 4).

(** Slots: state 4-9, key 10-13, output, input and length of the text 19-21,
    return address 23; the mode 18; the return address of the duplex 22. *)
Definition KC : list nat := [4; 5; 6; 7; 8; 9; 10; 11; 12; 13; 19; 20; 21; 23]%nat.
Definition KM : list nat := 18%nat :: KC.
Definition KD : list nat := 22%nat :: KM.

(** Slots a block overwrites *)
Definition ltmp : list nat := [4; 5; 6; 7; 8; 9; 15; 16; 17]%nat.
Record inv (K : list nat) (r g : regs) (M : mem) (S : bytes) : Prop := {
  i_f : frm K g M; i_2 : r 2%nat = F; i_r : rok r; i_s : BS (mx r g) S }.
Lemma BS_len r S : BS r S -> length S = 40%nat. Proof. exact (SS_length be_num hi_n lo_n r S). Qed.
(** State registers that are always in registers, temporary ones *)
Lemma inv_r l K r r' g M S : inv K r g M S -> rok r' -> except l r r' ->
  forallb (fun i => negb (memb i l)) [2; 8; 9; 18; 19]%nat = true -> inv K r' g M S.
Proof.
  intros [A B C D] Hr E H. cbn [forallb] in H.
  apply andb_prop in H. destruct H as [H2 H]. constructor; [exact A| |exact Hr|].
  - rewrite E; [exact B|]. apply negb_true_iff, H2.
  - apply (BS_keep l [] r r' g g S); [exact E|apply except_refl|exact H|reflexivity|exact D].
Qed.
Lemma inv_m K r g M M' S : inv K r g M S -> frm K g M' -> inv K r g M' S.
Proof. intros [A B C D] H. constructor; assumption. Qed.
Lemma inv_sub K K' r g M S : subl K' K = true -> inv K r g M S -> inv K' r g M S.
Proof. intros H [A B C D]. constructor; try assumption. apply (frame_sub _ _ _ K); assumption. Qed.

(** ascon_permute called *)
Lemma xperm_ok K (a : bool) ln r g M S : oks 96 4 K (loads xt_state) = true ->
  inv K r g M S -> r 6%nat = (if a then 0xf0 else 0xb4) -> r 30%nat = N.of_nat (rounds_of a) ->
  exists r' g' M', runs (call 1 (lab ln) (permute xt_round xt_state) r) M M' r' /\ inv K r' g' M' (p_be (rounds_of a) S) /\
    near F 96 M M' /\ except (sregs ++ [1; 6; 28; 29; 30]%nat) r r' /\ except slots g g' /\ BS r' (p_be (rounds_of a) S).
Proof.
  intros HK [HF H2 Hr HS] H6 H30.
  set (r1 := setr r 1 (lab ln)).
  assert (Hr1 : rok r1) by (apply rok_set; [exact Hr|discriminate|apply Hlab]).
  assert (E1 : except [1]%nat r r1) by (unfold r1; exs).
  assert (HS1 : BS (mx r1 g) S) by (apply (BS_keep [1]%nat [] r r1 g g S E1 (except_refl _ _)); [reflexivity|reflexivity|exact HS]).
  destruct (permute_ok F 96 4 K xt_round xt_state a r1 g (ldstate be_num S) M check_xt eq_refl HK eq_refl HF H2 Hr1
    (SS_W _ _ _ _ _ HS1) H6 H30) as (r2 & M2 & R2 & W2 & Hr2 & E2 & F2 & N2).
  set (g2 := snd (sx (stores xt_state) (r2, g))) in *.
  assert (HB : BS r2 (p_be (rounds_of a) S)) by (apply W_BS; [exact W2|exact (BS_len _ _ HS)]).
  exists r2, g2, M2. split; [|split; [|split; [exact N2|split; [|split; [|exact HB]]]]].
  - apply st_call; [exact R2|]. rewrite (E2 1%nat eq_refl). reflexivity.
  - constructor; [exact F2|rewrite (E2 2%nat eq_refl); exact H2|exact Hr2|]. apply BS_stored. exact HB.
  - apply except_trans with r1; [apply (except_sub [1]%nat); [reflexivity|exact E1]|].
    apply (except_sub (sregs ++ [6; 28; 29; 30]%nat)); [reflexivity|exact E2].
  - unfold g2. exs.
Qed.

(** What a text of [l] bytes needs *)
Record xpre (m : md) (r g : regs) (M : mem) (l : bytes) : Prop := {
  x_in : readable M (r 21%nat) l; x_inb : r 21%nat + len l < 2 ^ 32; x_fi : disjoint F 96 (r 21%nat) (len l);
  x_len : r 22%nat = len l; x_mode : r 23%nat = mdv m; x_slot : g 18%nat = mdv m;
  x_out : m <> Ab -> writable M (r 20%nat) (len l) /\ r 20%nat + len l < 2 ^ 32 /\
    disjoint (r 20%nat) (len l) (r 21%nat) (len l) /\ disjoint F 96 (r 20%nat) (len l)
}.
Lemma beqz_mode m r : r 23%nat = mdv m -> beqz 23 r = match m with Ab => true | _ => false end.
Proof. intros H. unfold beqz. rewrite H. destruct m; reflexivity. Qed.
Lemma bgez_mode x m r : r x = mdv m -> bgez x r = match m with De => false | _ => true end.
Proof. intros H. unfold bgez. rewrite H. destruct m; reflexivity. Qed.
Lemma md_cases m : m = Ab \/ m <> Ab. Proof. destruct m; [left; reflexivity|right; discriminate|right; discriminate]. Qed.
Lemma wout_eq m M p S b : m <> Ab -> wout m M p (outb m S b) = write M p (xor_into b S).
Proof. destruct m; [congruence|reflexivity|reflexivity]. Qed.
Lemma wout_frame m K g M p S b : frm K g M -> (m <> Ab -> disjoint F 96 p (len b)) -> frm K g (wout m M p (outb m S b)).
Proof.
  intros H D. destruct (md_cases m) as [->|Hm]; [exact H|]. rewrite wout_eq by exact Hm. apply frame_out; [exact H|].
  unfold len in *. rewrite length_xor_into. exact (D Hm).
Qed.
Lemma wout_readable m M p S b q l : readable M q l -> (m <> Ab -> disjoint p (len b) q (len l)) -> readable (wout m M p (outb m S b)) q l.
Proof.
  intros H D. destruct (md_cases m) as [->|Hm]; [exact H|]. rewrite wout_eq by exact Hm. apply readable_write_disjoint; [exact H|].
  unfold len in *. rewrite length_xor_into. exact (D Hm).
Qed.
Lemma wout_writable m M p l q n : writable M q n -> writable (wout m M p l) q n.
Proof. destruct m; [intros H; exact H|apply writable_write|apply writable_write]. Qed.

(** ** A block of 16 bytes, l.233-296 *)
Definition xsave : list ins := [s32i 20 2 60; s32i 21 2 64; s32i 22 2 68] ++ xt_perm false.
Definition xback : list ins := [l32i 20 2 60; l32i 21 2 64; l32i 22 2 68; l32i 23 2 72; addi 20 20 16; addi 21 21 16; addi 22 22 (neg 16)].
Definition xbody : code :=
  xt_load lab 21 238 >>> exec xt_xor_block >>> cond (beqz 23) skip (exec xt_store_block) >>> cond (bgez 23) skip (exec xt_take_block) >>>
  exec xsave >>> call 1 (lab 287) (permute xt_round xt_state) >>> exec xback.
Lemma xbody_ok m r g S b l M : inv KD r g M S -> xpre m r g M (b ++ l) -> length b = 16%nat ->
  let M0 := wout m M (r 20%nat) (outb m S b) in
  exists r' g' M', runs (xbody r) M M' r' /\ inv KD r' g' M' (p_be 8 (blk m S b)) /\ near F 96 M0 M' /\ xpre m r' g' M' l /\
    (m <> Ab -> r' 20%nat = r 20%nat + 16) /\ r' 21%nat = r 21%nat + 16 /\ except ltmp g g'.
Proof.
  intros HI [Pi Pib Pf Pl Pm Pg Po] Hb M0.
  assert (Lb : len b = 16) by (unfold len; lia). rewrite len_app, Lb in *.
  destruct (readable_app M _ b l Pi) as [Pi1 Pi2]. rewrite Lb in Pi2.
  destruct (split16 b Hb) as (l0 & l1 & Eb & L0 & L1).
  pose proof (i_r _ _ _ _ _ HI) as Hr. pose proof (BS_len _ _ (i_s _ _ _ _ _ HI)) as L40.
  destruct (load_ok lab Hlab 21 238 r M l0 l1 Hr ltac:(rewrite <- Eb; exact Pi1) L0 L1 ltac:(lia) eq_refl) as (r1 & R1 & V0 & V1 & Hr1 & E1).
  assert (I1 : inv KD r1 g M S) by (apply (inv_r _ _ _ _ _ _ _ HI Hr1 E1); reflexivity).
  destruct (xor_block_ok r1 g S l0 l1 M Hr1 (i_s _ _ _ _ _ I1) V0 V1) as (r2 & R2 & HS2 & Hr2 & E2). rewrite <- Eb in HS2.
  assert (G2 : except ([8; 9; 18; 19] ++ [1; 6; 24; 25; 28; 29])%nat r r2).
  { apply except_trans with r1; [apply (except_sub [1; 6; 24; 25; 28; 29]%nat); [reflexivity|exact E1]|].
    apply (except_sub [8; 9; 18; 19]%nat); [reflexivity|exact E2]. }
  assert (X3 : exists r3, runs (cond (beqz 23) skip (exec xt_store_block) r2) M M0 r3 /\ rok r3 /\ except [6]%nat r2 r3).
  { assert (C := beqz_mode m r2 ltac:(rewrite (G2 23%nat eq_refl); exact Pm)).
    destruct (md_cases m) as [->|Hm].
    - exists r2. split; [apply st_cond; rewrite C; apply st_skip|]. split; [exact Hr2|apply except_refl].
    - destruct (Po Hm) as (Pw & Pwb & _ & _). replace (match m with Ab => true | _ => false end) with false in C by (destruct m; congruence).
      assert (E20 : r2 20%nat = r 20%nat) by exact (G2 20%nat eq_refl).
      destruct (store_block_ok lab Hlab r2 g _ M Hr2 HS2) as (r3 & R3 & Hr3 & E3).
      + rewrite E20. apply (writable_split M _ 16 (len l)). exact Pw.
      + rewrite E20. lia.
      + exists r3. split; [apply st_cond; rewrite C|split; assumption].
        unfold M0. rewrite wout_eq by exact Hm. replace (xor_into b S) with (firstn 16 (xor_into S b)); [rewrite <- E20; exact R3|].
        rewrite firstn_xor_into, (firstn_all2 b) by lia. symmetry. rewrite <- Hb. apply xor_comm_firstn. lia. }
  destruct X3 as (r3 & R3 & Hr3 & E3).
  assert (HS3 : BS (mx r3 g) (xor_into S b)).
  { apply (BS_keep [6]%nat [] r2 r3 g g _ E3 (except_refl _ _)); [reflexivity|reflexivity|exact HS2]. }
  assert (X4 : exists r4, runs (cond (bgez 23) skip (exec xt_take_block) r3) M0 M0 r4 /\ BS (mx r4 g) (blk m S b) /\ rok r4 /\
             except [8; 9; 18; 19]%nat r3 r4).
  { assert (C := bgez_mode 23 m r3 ltac:(rewrite (E3 23%nat eq_refl), (G2 23%nat eq_refl); exact Pm)).
    destruct m.
    1,2: exists r3; (split; [apply st_cond; rewrite C; apply st_skip|]); split; [exact HS3|split; [exact Hr3|apply except_refl]].
    destruct (take_block_ok r3 g (xor_into S b) l0 l1 M0 Hr3 HS3) as (r4 & R4 & HS4 & Hr4 & E4).
    - apply (Wd_except be_num hi_n lo_n r2 r3 _ 28 29 l0 E3); [reflexivity|reflexivity|].
      apply (Wd_except be_num hi_n lo_n r1 r2 _ 28 29 l0 E2); [reflexivity|reflexivity|exact V0].
    - apply (Wd_except be_num hi_n lo_n r2 r3 _ 24 25 l1 E3); [reflexivity|reflexivity|].
      apply (Wd_except be_num hi_n lo_n r1 r2 _ 24 25 l1 E2); [reflexivity|reflexivity|exact V1].
    - exists r4. split; [apply st_cond; rewrite C; exact R4|]. split; [|split; [exact Hr4|exact E4]].
      rewrite <- Eb in HS4. rewrite skipn_xor_into in HS4 by lia. exact HS4. }
  destruct X4 as (r4 & R4 & HS4 & Hr4 & E4).
  assert (G4 : except ([8; 9; 18; 19] ++ [1; 6; 24; 25; 28; 29])%nat r r4).
  { apply except_trans with r2; [exact G2|]. apply except_trans with r3; [apply (except_sub [6]%nat); [reflexivity|exact E3]|].
    apply (except_sub [8; 9; 18; 19]%nat); [reflexivity|exact E4]. }
  assert (FM0 : frm KD g M0).
  { apply wout_frame; [exact (i_f _ _ _ _ _ HI)|]. intros Hm. destruct (Po Hm) as (_ & _ & _ & Pd). rewrite Lb. clear - Pd. unfold disjoint in *. lia. }
  assert (H24 : r4 2%nat = F) by (rewrite (G4 2%nat eq_refl); exact (i_2 _ _ _ _ _ HI)).
  destruct (sx_ok F 96 4 xsave KD eq_refl r4 g M0 FM0 H24 Hr4) as (M5 & R5 & F5 & N5 & Hr5 & H25).
  set (r5 := fst (sx xsave (r4, g))) in *. set (g5 := snd (sx xsave (r4, g))) in *.
  change (grows KD xsave) with (17 :: 16 :: 15 :: KD)%nat in F5. set (KE := (17 :: 16 :: 15 :: KD)%nat) in *.
  assert (E5 : except [6; 30]%nat r4 r5) by exs.
  assert (GE5 : except [15; 16; 17]%nat g g5) by exs.
  assert (I5 : inv KE r5 g5 M5 (blk m S b)).
  { constructor; [exact F5|exact H25|exact Hr5|]. apply (BS_keep [6; 30]%nat [15; 16; 17]%nat r4 r5 g g5 _ E5 GE5); [reflexivity|reflexivity|exact HS4]. }
  destruct (xperm_ok KE false 287 r5 g5 M5 _ eq_refl I5 eq_refl eq_refl) as (r6 & g6 & M6 & R6 & I6 & N6 & E6 & GE6 & _).
  change (rounds_of false) with 8%nat in I6.
  destruct (sx_ok F 96 4 xback KE eq_refl r6 g6 M6 (i_f _ _ _ _ _ I6) (i_2 _ _ _ _ _ I6) (i_r _ _ _ _ _ I6)) as (M7 & R7 & F7 & N7 & Hr7 & H27).
  set (r7 := fst (sx xback (r6, g6))) in *. change (snd (sx xback (r6, g6))) with g6 in F7. change (grows KE xback) with KE in F7.
  assert (E7 : except [20; 21; 22; 23]%nat r6 r7) by exs.
  assert (I7 : inv KE r7 g6 M7 (p_be 8 (blk m S b))).
  { constructor; [exact F7|exact H27|exact Hr7|]. apply (BS_keep [20; 21; 22; 23]%nat [] r6 r7 g6 g6 _ E7 (except_refl _ _)); [reflexivity|reflexivity|exact (i_s _ _ _ _ _ I6)]. }
  assert (N07 : near F 96 M0 M7) by (apply near_trans with M5; [exact N5|]; apply near_trans with M6; assumption).
  assert (V15 : g6 15%nat = r 20%nat) by (rewrite (GE6 15%nat eq_refl); exact (G4 20%nat eq_refl)).
  assert (V16 : g6 16%nat = r 21%nat) by (rewrite (GE6 16%nat eq_refl); exact (G4 21%nat eq_refl)).
  assert (V17 : g6 17%nat = r 22%nat) by (rewrite (GE6 17%nat eq_refl); exact (G4 22%nat eq_refl)).
  assert (V18 : g6 18%nat = g 18%nat) by (rewrite (GE6 18%nat eq_refl); exact (GE5 18%nat eq_refl)).
  assert (W20 : r7 20%nat = trunc 32 (r 20%nat + 16)) by (rewrite <- V15; reflexivity).
  assert (W21 : r7 21%nat = r 21%nat + 16).
  { transitivity (trunc 32 (g6 16%nat + 16)); [reflexivity|]. rewrite V16. apply trunc_add. lia. }
  assert (W22 : r7 22%nat = len l).
  { transitivity (trunc 32 (g6 17%nat + neg 16)); [reflexivity|]. rewrite V17, Pl, trunc_sub by lia. lia. }
  assert (W23 : r7 23%nat = mdv m) by (rewrite <- Pg, <- V18; reflexivity).
  assert (O20 : m <> Ab -> r7 20%nat = r 20%nat + 16).
  { intros Hm. rewrite W20. apply trunc_add. destruct (Po Hm) as (_ & Pwb & _). lia. }
  exists r7, g6, M7. split; [|split; [|split; [exact N07|split; [|split; [exact O20|split; [exact W21|]]]]]].
  - unfold xbody. apply st_then with (M1 := M) (r1 := r1); [exact R1|]. apply st_then with (M1 := M) (r1 := r2); [exact R2|].
    apply st_then with (M1 := M0) (r1 := r3); [exact R3|]. apply st_then with (M1 := M0) (r1 := r4); [exact R4|].
    apply st_then with (M1 := M5) (r1 := r5); [exact R5|]. apply st_then with (M1 := M6) (r1 := r6); [exact R6|exact R7].
  - apply (inv_sub KE); [reflexivity|exact I7].
  - constructor.
    + rewrite W21. apply (near_readable F 96 M0); [exact N07| |clear - Pf; unfold disjoint in *; lia|reflexivity].
      apply wout_readable; [exact Pi2|]. intros Hm. destruct (Po Hm) as (_ & _ & Pd & _). rewrite Lb. clear - Pd. unfold disjoint in *. lia.
    + rewrite W21. lia.
    + rewrite W21. clear - Pf. unfold disjoint in *. lia.
    + exact W22.
    + exact W23.
    + rewrite V18. exact Pg.
    + intros Hm. rewrite (O20 Hm), W21. destruct (Po Hm) as (Pw & Pwb & Pd & Pfd). split; [|split; [lia|clear - Pd Pfd; unfold disjoint in *; lia]].
      apply (near_writable F 96 M0); [exact N07|]. apply wout_writable. apply (writable_split M _ 16 (len l)). exact Pw.
  - apply except_trans with g5; [apply (except_sub [15; 16; 17]%nat); [reflexivity|exact GE5]|].
    apply (except_sub slots); [reflexivity|exact GE6].
Qed.

Lemma wout_app m M p a b q : (m = Ab -> a = [] ) -> (m <> Ab -> q = p + len a) -> wout m (wout m M p a) q b = wout m M p (a ++ b).
Proof.
  intros A Q. destruct (md_cases m) as [->|Hm]; [reflexivity|]. rewrite (Q Hm).
  destruct m; [congruence| |]; cbn [wout]; rewrite write_app; reflexivity.
Qed.
Lemma near_wout n m M M' p l : near F n M M' -> near F n (wout m M p l) (wout m M' p l).
Proof. destruct m; [intros H; exact H|apply near_write|apply near_write]. Qed.
Lemma dloop_ok m : forall n l f r g S M, (length l <= n)%nat -> (length l < f)%nat -> inv KD r g M S -> xpre m r g M l ->
  exists head tail out1 S1 r' g' M',
    l = head ++ tail /\ (length tail < 16)%nat /\ (m <> Ab -> length out1 = length head) /\
    runs (while f (bgeui 22 16) (fun r => r <- xbody r ;; exec [] r) r) M M' r' /\
    inv KD r' g' M' S1 /\ near F 96 (wout m M (r 20%nat) out1) M' /\ xpre m r' g' M' tail /\
    (m <> Ab -> r' 20%nat = r 20%nat + len head) /\ r' 21%nat = r 21%nat + len head /\
    (forall k, (length l <= k)%nat -> dd P m k S l = (fin P m S1 tail, out1 ++ outb m S1 tail)) /\
    (m = Ab -> out1 = []) /\ except ltmp g g'.
Proof.
  induction n as [n IH] using lt_wf_ind. intros l f r g S M Hn Hf HI Hp.
  destruct f as [|f]; [lia|].
  assert (C : bgeui 22 16 r = (16 <=? len l)) by (unfold bgeui; rewrite (x_len _ _ _ _ _ Hp); reflexivity).
  destruct (N.leb_spec 16 (len l)) as [H16|H16].
  - set (b := firstn 16 l). set (l' := skipn 16 l).
    assert (El : l = b ++ l') by (symmetry; apply firstn_skipn).
    assert (Hb : length b = 16%nat) by (apply firstn_length_le; unfold len in H16; lia).
    assert (Hl' : length l = (16 + length l')%nat) by (rewrite El, app_length; lia).
    rewrite El in Hp.
    destruct (xbody_ok m r g S b l' M HI Hp Hb) as (r1 & g1 & M1 & R1 & I1 & N1 & Hp1 & E20 & E21 & G1).
    destruct (IH (length l') ltac:(lia) l' f r1 g1 _ M1 (le_n _) ltac:(lia) I1 Hp1)
      as (head & tail & out1 & S1 & r3 & g3 & M3 & El2 & Ht & Hlo & R3 & I3 & N3 & Hp3 & E203 & E213 & Hdd & Hab & G3).
    assert (Lo : m <> Ab -> len (outb m S b) = 16).
    { intros D. unfold len. destruct m; [congruence| |]; cbn [outb]; rewrite length_xor_into, Hb; reflexivity. }
    exists (b ++ head), tail, (outb m S b ++ out1), S1, r3, g3, M3.
    split; [rewrite <- app_assoc, <- El2; exact El|]. split; [exact Ht|].
    split; [|split; [|split; [exact I3|split; [|split; [exact Hp3|split; [|split; [|split; [|split]]]]]]]].
    + intros D. rewrite !app_length, (Hlo D), Hb. f_equal. specialize (Lo D). unfold len in Lo. lia.
    + apply runs_while_step with (s1 := r1) (M1 := M1); [exact C| |exact R3].
      eapply runs_bind; [exact R1|]. apply st_nil.
    + rewrite <- (wout_app m M _ (outb m S b) out1 (r1 20%nat)).
      * apply near_trans with (wout m M1 (r1 20%nat) out1); [apply near_wout; exact N1|exact N3].
      * intros ->. reflexivity.
      * intros D. rewrite (E20 D), (Lo D). reflexivity.
    + intros D. rewrite (E203 D), (E20 D), len_app. unfold len at 2. rewrite Hb. lia.
    + rewrite E213, E21, len_app. unfold len at 2. rewrite Hb. lia.
    + intros k Hk. destruct k as [|k]; [lia|]. rewrite El, dd_long by exact Hb.
      change (perm_of P 8 (blk m S b)) with (p_be 8 (blk m S b)). rewrite (Hdd k ltac:(lia)).
      cbn [fst snd]. rewrite app_assoc. reflexivity.
    + intros ->. rewrite (Hab eq_refl). reflexivity.
    + apply except_trans with g1; assumption.
  - assert (Hl : (length l < 16)%nat) by (unfold len in H16; lia).
    exists [], l, [], S, r, g, M.
    replace (wout m M (r 20%nat) []) with M by (destruct m; reflexivity).
    rewrite len_nil, !N.add_0_r.
    split; [reflexivity|]. split; [exact Hl|]. split; [reflexivity|].
    split; [apply runs_while_end; exact C|]. split; [exact HI|]. split; [apply near_refl|]. split; [exact Hp|].
    split; [reflexivity|]. split; [reflexivity|].
    split; [intros k _; apply dd_short, Hl|]. split; [reflexivity|]. apply except_refl.
Qed.
Lemma duplex_loop_ok m l r g S M : inv KD r g M S -> xpre m r g M l ->
  exists head tail out1 S1 r' g' M',
    l = head ++ tail /\ (length tail < 16)%nat /\ (m <> Ab -> length out1 = length head) /\
    runs (xt_duplex_loop lab r) M M' r' /\
    inv KD r' g' M' S1 /\ near F 96 (wout m M (r 20%nat) out1) M' /\ xpre m r' g' M' tail /\
    (m <> Ab -> r' 20%nat = r 20%nat + len head) /\ r' 21%nat = r 21%nat + len head /\
    dd P m (length l) S l = (fin P m S1 tail, out1 ++ outb m S1 tail) /\
    (m = Ab -> out1 = []) /\ except ltmp g g'.
Proof.
  intros HI Hp.
  destruct (dloop_ok m (length l) l (Datatypes.S (N.to_nat (r 22%nat))) r g S M (le_n _)) as
    (head & tail & out1 & S1 & r3 & g3 & M3 & El2 & Ht & Hlo & R3 & I3 & N3 & Hp3 & E203 & E213 & Hdd & Hab & G3).
  - rewrite (x_len _ _ _ _ _ Hp). unfold len. lia.
  - exact HI.
  - exact Hp.
  - exists head, tail, out1, S1, r3, g3, M3.
    split; [exact El2|]. split; [exact Ht|]. split; [exact Hlo|]. split.
    + unfold xt_duplex_loop, loop. eapply runs_bind; [apply st_nil|]. exact R3.
    + split; [exact I3|]. split; [exact N3|]. split; [exact Hp3|]. split; [exact E203|]. split; [exact E213|].
      split; [apply Hdd, le_n|]. split; [exact Hab|exact G3].
Qed.

(** ** The last block, l.300-365 *)
Definition ttmp : list nat := [1; 6; 24; 25; 28; 29; 30]%nat.
Lemma store4_ok x y z w b l r M M' r' : writable M (r b) 16 -> r b + 16 < 2 ^ 32 ->
  runs (exec l r) (write M (r b) (le_bytes 4 (r x) ++ le_bytes 4 (r y) ++ le_bytes 4 (r z) ++ le_bytes 4 (r w))) M' r' ->
  runs (exec (s32i x b 0 :: s32i y b 4 :: s32i z b 8 :: s32i w b 12 :: l) r) M M' r'.
Proof.
  intros Hw Hb H. destruct (writable_parts M _ Hw) as (W0 & W1 & W2 & W3).
  rewrite <- sw_write in H by apply length_le_bytes.
  apply (st_su x b 0 _ _ _ _ _ (r b)); [lia|lia|exact W0|].
  apply (st_su y b 4 _ _ _ _ _ (r b + 4)); [lia|lia|apply writable_write, W1|].
  apply (st_su z b 8 _ _ _ _ _ (r b + 8)); [lia|lia|do 2 apply writable_write; exact W2|].
  apply (st_su w b 12 _ _ _ _ _ (r b + 12)); [lia|lia|do 3 apply writable_write; exact W3|exact H].
Qed.
Definition zcode : list ins := [movi 6 0; s32i 6 2 0; s32i 6 2 4; s32i 6 2 8; s32i 6 2 12; mov 6 2; mov 30 21].
Lemma zeros_ok r g S M : inv KD r g M S -> runs (exec zcode r) M (write M F (zeros 16)) (setr (setr (setr r 6 0) 6 F) 30 (r 21%nat)).
Proof.
  intros [HF H2 Hr HS]. unfold zcode. apply st_op; [reflexivity|]. cbn [fev]. set (r0 := setr r 6 0).
  assert (E2 : r0 2%nat = F) by exact H2.
  apply store4_ok.
  - rewrite E2. exact (frame_buf F 96 4 KD g M HF ltac:(lia)).
  - rewrite E2. pose proof (f_b HF). lia.
  - rewrite E2. change (r0 6%nat) with 0. change (le_bytes 4 0 ++ le_bytes 4 0 ++ le_bytes 4 0 ++ le_bytes 4 0) with (zeros 16).
    apply st_op; [reflexivity|]. apply st_op; [reflexivity|]. cbn [fev].
    change (setr r0 6 (r0 2%nat) 21%nat) with (r 21%nat). rewrite E2. apply st_nil.
Qed.
(** Output of the last block, l.327-342 *)
Definition ocode : code :=
  exec [mov 28 8; mov 29 9; mov 24 18; mov 25 19] >>> call 1 (lab 334) xt_rev8 >>>
  exec [s32i 28 2 0; s32i 29 2 4; s32i 24 2 8; s32i 25 2 12; mov 6 20; mov 30 2] >>> call 1 (lab 342) xt_memcpy.
Lemma ocode_ok r g S n M : r 2%nat = F -> rok r -> BS (mx r g) S -> writable M F 16 -> F + 16 < 2 ^ 32 -> (n < 16)%nat ->
  r 22%nat = N.of_nat n -> writable M (r 20%nat) (N.of_nat n) -> r 20%nat + N.of_nat n < 2 ^ 32 -> disjoint F 16 (r 20%nat) (N.of_nat n) ->
  exists r', runs (ocode r) M (write (write M F (firstn 16 S)) (r 20%nat) (firstn n S)) r' /\ rok r' /\ except ttmp r r'.
Proof.
  intros H2 Hr HS Wf Fb Hn H22 Hw Hb Hd.
  assert (L40 := BS_len _ _ HS).
  pose proof HS as (a0 & a1 & a2 & a3 & a4 & HE & [H0 H1 _ _ _]).
  assert (A0 : length a0 = 8%nat) by apply H0. assert (A1 : length a1 = 8%nat) by apply H1.
  assert (EA : a0 ++ a1 = firstn 16 S).
  { rewrite HE. unfold cat5. rewrite (app_assoc a0 a1). symmetry. apply firstn_app_exact. rewrite app_length. lia. }
  pose proof (rev_bytes (mx r g) 8 9 a0 H0) as B0. pose proof (rev_bytes (mx r g) 18 19 a1 H1) as B1.
  change (mx r g 8%nat) with (r 8%nat) in B0. change (mx r g 9%nat) with (r 9%nat) in B0.
  change (mx r g 18%nat) with (r 18%nat) in B1. change (mx r g 19%nat) with (r 19%nat) in B1.
  set (q1 := setr (setr (setr (setr r 28 (r 8%nat)) 29 (r 9%nat)) 24 (r 18%nat)) 25 (r 19%nat)).
  assert (Hq1 : rok q1) by (unfold q1; repeat (apply rok_set; [|discriminate|apply Hr]); exact Hr).
  destruct (rev8_ok (lab 334) q1 M (Hlab _) Hq1) as (q2 & R2 & V0 & V1 & V2 & V3 & Hq2 & E2).
  change (q1 28%nat) with (r 8%nat) in V0. change (q1 29%nat) with (r 9%nat) in V1.
  change (q1 24%nat) with (r 18%nat) in V2. change (q1 25%nat) with (r 19%nat) in V3.
  assert (G2 : except ttmp r q2).
  { apply except_trans with q1; [unfold q1; exs|]. apply (except_sub [1; 6; 24; 25; 28; 29]%nat); [reflexivity|exact E2]. }
  assert (E22 : q2 2%nat = F) by (rewrite (G2 2%nat eq_refl); exact H2).
  set (M1 := write M F (firstn 16 S)).
  set (q3 := setr (setr q2 6 (r 20%nat)) 30 F).
  assert (Hq3 : rok q3).
  { unfold q3. apply rok_set; [|discriminate|unfold fits; lia]. apply rok_set; [exact Hq2|discriminate|apply Hr]. }
  assert (R3 : runs (exec [s32i 28 2 0; s32i 29 2 4; s32i 24 2 8; s32i 25 2 12; mov 6 20; mov 30 2] q2) M M1 q3).
  { apply store4_ok.
    - rewrite E22. exact Wf.
    - rewrite E22. lia.
    - rewrite E22, V0, V1, V2, V3.
      replace (le_bytes 4 (rev8f (r 8%nat)) ++ le_bytes 4 (rev8f (r 9%nat)) ++ le_bytes 4 (rev8f (r 18%nat)) ++ le_bytes 4 (rev8f (r 19%nat)))
        with (firstn 16 S) by (rewrite <- EA, <- B0, <- B1, <- app_assoc; reflexivity).
      apply st_op; [reflexivity|]. apply st_op; [reflexivity|]. cbn [fev].
      change (setr q2 6 (q2 20%nat) 2%nat) with (q2 2%nat). rewrite E22, (G2 20%nat eq_refl). apply st_nil. }
  assert (LO : length (firstn n S) = n) by (apply firstn_length_le; lia).
  assert (LO' : len (firstn n S) = N.of_nat n) by (unfold len; rewrite LO; reflexivity).
  assert (L16 : len (firstn 16 S) = 16) by (unfold len; rewrite firstn_length_le by lia; reflexivity).
  destruct (xmemcpy_ok (lab 342) (firstn n S) q3 M1 (Hlab _) Hq3) as (r6 & R6 & Hr6 & E6); rewrite ?LO'.
  { change (q3 30%nat) with F. assert (Q : readable M1 F (firstn n S ++ skipn n (firstn 16 S))).
    { replace (firstn n S) with (firstn n (firstn 16 S)) by (rewrite firstn_firstn; f_equal; lia).
      rewrite firstn_skipn. apply readable_write_self; [rewrite L16; lia|]. intros _. apply Wf. discriminate. }
    apply (readable_app _ _ _ _ Q). }
  { change (q3 6%nat) with (r 20%nat). apply writable_write. exact Hw. }
  { change (q3 6%nat) with (r 20%nat). change (q3 30%nat) with F. clear - Hd Hn. unfold disjoint in *. lia. }
  { exact Hb. }
  { change (q3 30%nat) with F. lia. }
  { change (q3 22%nat) with (q2 22%nat). rewrite (G2 22%nat eq_refl). exact H22. }
  { lia. }
  change (q3 6%nat) with (r 20%nat) in R6.
  exists r6. split; [|split; [exact Hr6|]].
  - unfold ocode. apply st_then with (M1 := M) (r1 := q1); [do 4 (apply st_op; [reflexivity|]); apply st_nil|].
    apply st_then with (M1 := M) (r1 := q2); [exact R2|]. apply st_then with (M1 := M1) (r1 := q3); [exact R3|exact R6].
  - apply except_trans with q2; [exact G2|]. apply except_trans with q3; [unfold q3; exs|].
    apply (except_sub [1; 6; 30; 28; 29]%nat); [reflexivity|exact E6].
Qed.
(** The ciphertext replaces the state, l.344-359 *)
Definition rcode : code := exec [mov 6 2; mov 30 21] >>> call 1 (lab 349) xt_memcpy >>> xt_load lab 2 355 >>> exec xt_take_block.
Lemma rcode_ok r g S t M : r 2%nat = F -> rok r -> BS (mx r g) S -> writable M F 16 -> F + 16 < 2 ^ 32 -> (length t < 16)%nat ->
  r 22%nat = len t -> readable M (r 21%nat) t -> r 21%nat + len t < 2 ^ 32 -> disjoint F 16 (r 21%nat) (len t) ->
  readable M F (firstn 16 S) ->
  exists r', runs (rcode r) M (write M F t) r' /\ rok r' /\ except ([8; 9; 18; 19]%nat ++ ttmp) r r' /\ BS (mx r' g) (t ++ skipn (length t) S).
Proof.
  intros H2 Hr HS Wf Fb Hn H22 Hrd Hb Hd Q6. set (n := length t) in *.
  assert (L40 := BS_len _ _ HS).
  assert (Ln : len t = N.of_nat n) by reflexivity.
  set (q1 := setr (setr r 6 F) 30 (r 21%nat)).
  assert (Hq1 : rok q1).
  { unfold q1. apply rok_set; [|discriminate|apply Hr]. apply rok_set; [exact Hr|discriminate|unfold fits; lia]. }
  assert (LF : length (firstn 16 S) = 16%nat) by (apply firstn_length_le; lia).
  destruct (xmemcpy_ok (lab 349) t q1 M (Hlab _) Hq1) as (q2 & RQ2 & Hq2 & EQ2).
  { exact Hrd. }
  { change (q1 6%nat) with F. replace 16 with (len t + (16 - len t)) in Wf by lia. apply (writable_split _ _ _ _ Wf). }
  { change (q1 6%nat) with F. change (q1 30%nat) with (r 21%nat). clear - Hd Hn Ln. unfold disjoint in *. lia. }
  { change (q1 6%nat) with F. lia. }
  { exact Hb. }
  { exact H22. }
  { lia. }
  change (q1 6%nat) with F in RQ2.
  set (M7 := write M F t) in *. set (x := t ++ skipn n (firstn 16 S)).
  assert (Lx : length x = 16%nat) by (unfold x; rewrite app_length, skipn_length, LF; fold n; lia).
  assert (Q7 : readable M7 F x).
  { apply (readable_overwrite _ _ (firstn n (firstn 16 S))); [rewrite firstn_skipn; exact Q6|].
    rewrite firstn_length_le by lia. reflexivity. }
  assert (Eq22 : q2 2%nat = F) by (rewrite (EQ2 2%nat eq_refl); exact H2).
  assert (E02 : except ttmp r q2).
  { apply except_trans with q1; [unfold q1; exs|]. apply (except_sub [1; 6; 30; 28; 29]%nat); [reflexivity|exact EQ2]. }
  destruct (split16 x Lx) as (l0 & l1 & Eb & L0 & L1).
  destruct (load_ok lab Hlab 2 355 q2 M7 l0 l1 Hq2) as (q3 & RQ3 & W0 & W1 & Hq3 & EQ3);
    [rewrite <- Eb, Eq22; exact Q7|exact L0|exact L1|rewrite Eq22; exact Fb|reflexivity|].
  assert (E03 : except ttmp r q3).
  { apply except_trans with q2; [exact E02|]. apply (except_sub [1; 6; 24; 25; 28; 29]%nat); [reflexivity|exact EQ3]. }
  assert (HS3 : BS (mx q3 g) S) by (apply (BS_keep ttmp [] r q3 g g S E03 (except_refl _ _)); [reflexivity|reflexivity|exact HS]).
  destruct (take_block_ok q3 g S l0 l1 M7 Hq3 HS3 W0 W1) as (q4 & RQ4 & HS4 & Hq4 & EQ4).
  exists q4. split; [|split; [exact Hq4|split]].
  - unfold rcode. apply st_then with (M1 := M) (r1 := q1).
    { apply st_op; [reflexivity|]. apply st_op; [reflexivity|]. cbn [fev]. rewrite H2. apply st_nil. }
    apply st_then with (M1 := M7) (r1 := q2); [exact RQ2|]. apply st_then with (M1 := M7) (r1 := q3); [exact RQ3|exact RQ4].
  - apply except_trans with q3; [apply (except_sub ttmp); [reflexivity|exact E03]|].
    apply (except_sub [8; 9; 18; 19]%nat); [reflexivity|exact EQ4].
  - rewrite <- Eb in HS4. replace (t ++ skipn n S) with (x ++ skipn 16 S); [exact HS4|].
    unfold x. rewrite <- app_assoc. f_equal. rewrite <- (firstn_skipn 16 S) at 3. rewrite (skipn_app n (firstn 16 S)), LF.
    replace (n - 16)%nat with 0%nat by lia. reflexivity.
Qed.

Lemma end_ok m r g S t M : inv KD r g M S -> xpre m r g M t -> (length t < 16)%nat ->
  exists r' M', runs (xt_duplex_end lab r) M M' r' /\ inv KD r' g M' (fin P m S t) /\
    near F 96 (wout m M (r 20%nat) (outb m S t)) M' /\ (m <> Ab -> r' 20%nat = r 20%nat + len t) /\ r' 21%nat = r 21%nat + len t /\
    r' 1%nat = g 22%nat.
Proof.
  intros HI [Pi Pib Pf Pl Pm Pg Po] Ht. pose proof HI as [HF H2 Hr HS]. set (n := length t) in *.
  assert (Ln : len t = N.of_nat n) by reflexivity.
  assert (L40 := BS_len _ _ HS). assert (FB := f_b HF).
  assert (W16 : writable M F 16) by exact (frame_buf F 96 4 KD g M HF ltac:(lia)).
  assert (F0 : F <> 0) by (apply W16; discriminate).
  pose proof (zeros_ok r g S M HI) as R1. set (r1 := setr (setr (setr r 6 0) 6 F) 30 (r 21%nat)) in *. set (M1 := write M F (zeros 16)) in *.
  assert (Hr1 : rok r1).
  { unfold r1. apply rok_set; [|discriminate|apply Hr]. apply rok_set; [|discriminate|unfold fits; lia]. apply rok_set; [exact Hr|discriminate|apply fits_0]. }
  assert (N1 : near F 16 M M1) by (apply near_frame; [lia|]; unfold len; rewrite length_zeros; lia).
  assert (Df : disjoint F 16 (r 21%nat) (len t)) by (clear - Pf; unfold disjoint in *; lia).
  destruct (pad_ok F 16 (lab 309) t r1 M1 (Hlab _) Hr1 H2 eq_refl Ht) as (r2 & M2 & R2 & Q2 & N2 & Hr2 & E2).
  { apply readable_write_self; [unfold len; rewrite length_zeros; lia|intros _; exact F0]. }
  { apply writable_write. exact W16. }
  { change (N.of_nat 16) with 16. lia. }
  { apply readable_write_disjoint; [exact Pi|]. unfold len at 1. rewrite length_zeros. exact Df. }
  { exact Pib. }
  { exact Df. }
  { exact Pl. }
  set (bl := t ++ [x80] ++ zeros (16 - 1 - length t)) in *. change (N.of_nat 16) with 16 in N2.
  assert (Lbl : length bl = 16%nat) by (unfold bl; rewrite !app_length, length_zeros; cbn [length]; lia).
  destruct (split16 bl Lbl) as (l0 & l1 & Eb & L0 & L1).
  assert (E02 : except ttmp r r2).
  { apply except_trans with r1; [unfold r1; exs|]. apply (except_sub [1; 6; 30; 28; 29]%nat); [reflexivity|exact E2]. }
  assert (H22 : r2 2%nat = F) by (rewrite (E02 2%nat eq_refl); exact H2).
  destruct (load_ok lab Hlab 2 321 r2 M2 l0 l1 Hr2) as (r3 & R3 & T0 & T1 & Hr3 & E3);
    [rewrite <- Eb, H22; exact Q2|exact L0|exact L1|rewrite H22; lia|reflexivity|].
  assert (E03 : except ttmp r r3).
  { apply except_trans with r2; [exact E02|]. apply (except_sub [1; 6; 24; 25; 28; 29]%nat); [reflexivity|exact E3]. }
  assert (HS3 : BS (mx r3 g) S) by (apply (BS_keep ttmp [] r r3 g g S E03 (except_refl _ _)); [reflexivity|reflexivity|exact HS]).
  destruct (xor_block_ok r3 g S l0 l1 M2 Hr3 HS3 T0 T1) as (r4 & R4 & HS4 & Hr4 & E4).
  rewrite <- Eb in HS4. set (S' := xor_into S bl) in *.
  assert (ES : S' = xor_into S (t ++ [x80])).
  { unfold S', bl. rewrite app_assoc. apply xor_into_app_zeros. rewrite app_length. cbn [length]. fold n. lia. }
  assert (EO : firstn n S' = xor_into t S).
  { rewrite ES, firstn_xor_into, (firstn_app_exact n t) by reflexivity. symmetry. apply xor_comm_firstn. fold n. lia. }
  assert (E04 : except ([8; 9; 18; 19]%nat ++ ttmp) r r4).
  { apply except_trans with r3; [apply (except_sub ttmp); [reflexivity|exact E03]|].
    apply (except_sub [8; 9; 18; 19]%nat); [reflexivity|exact E4]. }
  assert (N02 : near F 16 M M2) by (apply near_trans with M1; assumption).
  assert (L16 : len (firstn 16 S') = 16) by (unfold len; rewrite firstn_length_le; [reflexivity|unfold S'; rewrite length_xor_into; lia]).
  (* output *)
  assert (X5 : exists r5 M5, runs (cond (beqz 23) skip ocode r4) M2 M5 r5 /\ rok r5 /\ except ttmp r4 r5 /\
     near F 16 (wout m M (r 20%nat) (outb m S t)) M5 /\ (m <> Ab -> readable M5 F (firstn 16 S'))).
  { assert (C := beqz_mode m r4 ltac:(rewrite (E04 23%nat eq_refl); exact Pm)).
    destruct (md_cases m) as [->|D].
    - exists r4, M2. split; [apply st_cond; rewrite C; apply st_skip|]. split; [exact Hr4|].
      split; [apply except_refl|]. split; [exact N02|congruence].
    - destruct (Po D) as (Pw & Pwb & Pdi & Pdf). replace (match m with Ab => true | _ => false end) with false in C by (destruct m; congruence).
      rewrite wout_eq by exact D.
      destruct (ocode_ok r4 g S' n M2) as (r5 & R5 & Hr5 & E5); rewrite ?(E04 20%nat eq_refl); try assumption.
      { rewrite (E04 2%nat eq_refl). exact H2. }
      { apply (near_writable F 16 M); assumption. }
      { lia. }
      { rewrite (E04 22%nat eq_refl). exact Pl. }
      { apply (near_writable F 16 M); [exact N02|exact Pw]. }
      { rewrite <- Ln. clear - Pdf. unfold disjoint in *. lia. }
      rewrite (E04 20%nat eq_refl), EO in R5.
      eexists r5, _. split; [apply st_cond; rewrite C; exact R5|]. split; [exact Hr5|]. split; [exact E5|].
      assert (Lo : len (xor_into t S) = len t) by (unfold len; rewrite length_xor_into; reflexivity).
      split.
      + apply near_write. apply near_trans with M2; [exact N02|]. apply near_frame; [lia|rewrite L16; lia].
      + intros _. apply readable_write_disjoint.
        * apply readable_write_self; [rewrite L16; lia|intros _; exact F0].
        * rewrite L16, Lo. clear - Pdf. unfold disjoint in *. lia. }
  destruct X5 as (r5 & M5 & R5 & Hr5 & E5 & N5 & Q5).
  assert (E05 : except ([8; 9; 18; 19]%nat ++ ttmp) r r5).
  { apply except_trans with r4; [exact E04|]. apply (except_sub ttmp); [reflexivity|exact E5]. }
  assert (HS5 : BS (mx r5 g) S') by (apply (BS_keep ttmp [] r4 r5 g g S' E5 (except_refl _ _)); [reflexivity|reflexivity|exact HS4]).
  (* the state *)
  assert (X6 : exists r6 M6, runs (cond (bgez 23) skip rcode r5) M5 M6 r6 /\ rok r6 /\ except ([8; 9; 18; 19]%nat ++ ttmp) r5 r6 /\
     near F 16 M5 M6 /\ BS (mx r6 g) (fin P m S t)).
  { assert (C := bgez_mode 23 m r5 ltac:(rewrite (E05 23%nat eq_refl); exact Pm)).
    assert (D : m = De \/ m <> De) by (destruct m; [right; discriminate|right; discriminate|left; reflexivity]).
    destruct D as [->|D].
    - destruct Po as (Pw & Pwb & Pdi & Pdf); [discriminate|].
      destruct (rcode_ok r5 g S' t M5) as (r6 & R6 & Hr6 & E6 & HS6); rewrite ?(E05 2%nat eq_refl), ?(E05 21%nat eq_refl), ?(E05 22%nat eq_refl); try assumption.
      { apply (near_writable F 16 (wout De M (r 20%nat) (outb De S t))); [exact N5|]. apply wout_writable. exact W16. }
      { lia. }
      { apply (near_readable F 16 (wout De M (r 20%nat) (outb De S t))); [exact N5| |exact Df|reflexivity].
        apply wout_readable; [exact Pi|]. intros _. exact Pdi. }
      { apply Q5. discriminate. }
      eexists r6, _. split; [apply st_cond; rewrite C; exact R6|]. split; [exact Hr6|]. split; [exact E6|].
      split; [apply near_frame; [lia|rewrite Ln; lia]|].
      replace (fin P De S t) with (t ++ skipn (length t) S'); [exact HS6|]. unfold fin. rewrite xor_at_app_r by reflexivity. f_equal. fold n.
      rewrite ES. assert (HSn : S = firstn n S ++ skipn n S) by (symmetry; apply firstn_skipn).
      rewrite HSn at 1. rewrite xor_into_app2 by (rewrite firstn_length_le by lia; reflexivity).
      apply skipn_app_exact. rewrite length_xor_into. apply firstn_length_le. lia.
    - exists r5, M5. replace (match m with De => false | _ => true end) with true in C by (destruct m; congruence).
      split; [apply st_cond; rewrite C; apply st_skip|]. split; [exact Hr5|]. split; [apply except_refl|].
      split; [apply near_refl|]. rewrite ES in HS5. destruct m; [exact HS5|exact HS5|congruence]. }
  destruct X6 as (r6 & M6 & R6 & Hr6 & E6 & N6 & HS6).
  assert (E06 : except ([8; 9; 18; 19]%nat ++ ttmp) r r6) by (apply except_trans with r5; assumption).
  assert (FM6 : frm KD g M6).
  { apply (frame_near_low F 96 4 KD g (wout m M (r 20%nat) (outb m S t))).
    - apply wout_frame; [exact HF|]. intros D. apply (Po D).
    - apply near_trans with M5; assumption. }
  assert (H26 : r6 2%nat = F) by (rewrite (E06 2%nat eq_refl); exact H2).
  set (tailc := [add 20 20 22; add 21 21 22; l32i 1 2 88]).
  destruct (sx_ok F 96 4 tailc KD eq_refl r6 g M6 FM6 H26 Hr6) as (M7 & R7 & F7 & N7 & Hr7 & H27).
  set (r7 := fst (sx tailc (r6, g))) in *. change (snd (sx tailc (r6, g))) with g in F7. change (grows KD tailc) with KD in F7.
  assert (E7 : except [1; 20; 21]%nat r6 r7) by exs.
  exists r7, M7. split; [|split; [|split; [|split; [|split; [|reflexivity]]]]].
  - change (xt_duplex_end lab) with (exec zcode >>> call 1 (lab 309) xt_memcpy >>> exec [movi 28 0x80; add 6 2 22; l8ui 30 6 0; xor 30 30 28; s8i 30 6 0] >>>
      xt_load lab 2 321 >>> exec xt_xor_block >>> cond (beqz 23) skip ocode >>> cond (bgez 23) skip rcode >>> exec tailc).
    apply st_then with (M1 := M1) (r1 := r1); [exact R1|]. apply then_assoc.
    apply st_then with (M1 := M2) (r1 := r2); [exact R2|].
    apply st_then with (M1 := M2) (r1 := r3); [exact R3|]. apply st_then with (M1 := M2) (r1 := r4); [exact R4|].
    apply st_then with (M1 := M5) (r1 := r5); [exact R5|]. apply st_then with (M1 := M6) (r1 := r6); [exact R6|exact R7].
  - constructor; [exact F7|exact H27|exact Hr7|].
    apply (BS_keep [1; 20; 21]%nat [] r6 r7 g g _ E7 (except_refl _ _)); [reflexivity|reflexivity|exact HS6].
  - apply near_trans with M6; [|exact N7]. apply (near_wider F 16 96); [lia|]. apply near_trans with M5; assumption.
  - intros D. destruct (Po D) as (_ & Pwb & _). change (r7 20%nat) with (trunc 32 (r6 20%nat + r6 22%nat)).
    rewrite (E06 20%nat eq_refl), (E06 22%nat eq_refl), Pl. apply trunc_add. exact Pwb.
  - change (r7 21%nat) with (trunc 32 (r6 21%nat + r6 22%nat)).
    rewrite (E06 21%nat eq_refl), (E06 22%nat eq_refl), Pl. apply trunc_add. exact Pib.
Qed.

(** ** The whole duplex, l.229-365 *)
Lemma duplex_ok m l r g S M : inv KM r g M S -> xpre m r g M l ->
  exists r' g' M', runs (xt_duplex lab r) M M' r' /\ inv KD r' g' M' (fst (dd P m (length l) S l)) /\
    near F 96 (wout m M (r 20%nat) (snd (dd P m (length l) S l))) M' /\
    (m <> Ab -> r' 20%nat = r 20%nat + len l) /\ r' 21%nat = r 21%nat + len l /\ except gtmp g g' /\ r' 1%nat = r 1%nat.
Proof.
  intros HI Hp. pose proof HI as [HF H2 Hr HS].
  destruct (sx_ok F 96 4 [s32i 1 2 88] KM eq_refl r g M HF H2 Hr) as (M0 & R0 & F0 & N0 & _ & _).
  change (fst (sx [s32i 1 2 88] (r, g))) with r in R0. set (g0 := snd (sx [s32i 1 2 88] (r, g))) in *.
  change (grows KM [s32i 1 2 88]) with KD in F0.
  assert (G0 : except [22]%nat g g0) by exs.
  assert (I0 : inv KD r g0 M0 S).
  { constructor; [exact F0|exact H2|exact Hr|]. apply (BS_keep [] [22]%nat r r g g0 S (except_refl _ _) G0); [reflexivity|reflexivity|exact HS]. }
  assert (P0 : xpre m r g0 M0 l).
  { destruct Hp as [Pi Pib Pf Pl Pm Pg Po]. constructor; try assumption.
    - apply (near_readable F 96 M); [exact N0|exact Pi|exact Pf|lia].
    - intros D. destruct (Po D) as (Pw & Px). split; [|exact Px]. apply (near_writable F 96 M); assumption. }
  destruct (duplex_loop_ok m l r g0 S M0 I0 P0) as
    (head & tail & out1 & S1 & r1 & g1 & M1 & El & Ht & Hlo & R1 & I1 & N1 & P1 & E20 & E21 & Hdd & Hab & G1).
  destruct (end_ok m r1 g1 S1 tail M1 I1 P1 Ht) as (r2 & M2 & R2 & I2 & N2 & F20 & F21 & E1).
  assert (Ll : len l = len head + len tail) by (rewrite El; apply len_app).
  exists r2, g1, M2. rewrite Hdd. cbn [fst snd].
  split; [|split; [exact I2|split; [|split; [|split; [|split]]]]].
  - unfold xt_duplex. apply st_then with (M1 := M0) (r1 := r); [exact R0|]. apply st_then with (M1 := M1) (r1 := r1); assumption.
  - rewrite <- (wout_app m M _ out1 _ (r1 20%nat) Hab).
    + apply near_trans with (wout m M1 (r1 20%nat) (outb m S1 tail)); [|exact N2]. apply near_wout.
      apply near_trans with (wout m M0 (r 20%nat) out1); [apply near_wout; exact N0|exact N1].
    + intros D. rewrite (E20 D). unfold len. rewrite (Hlo D). reflexivity.
  - intros D. rewrite (F20 D), (E20 D). lia.
  - rewrite F21, E21. lia.
  - apply except_trans with g0; [apply (except_sub [22]%nat); [reflexivity|exact G0]|apply (except_sub ltmp); [reflexivity|exact G1]].
  - rewrite E1, (G1 22%nat eq_refl). reflexivity.
Qed.
End mode.
