(** * RvTop.v -- ascon_core and the C functions around it, for any variant
    whose parts obey [laws]. *)
From Coq Require Import Bool Arith NArith ZArith List Lia Init.Byte Strings.Byte ZifyBool ZifyNat ZifyN.
From Verif Require Import Words WordFacts Spec SpecFacts Spec12 Spec12Facts StateRep Asm ModelRv CMem Contract CMemFacts ApiSpec RvSpec RvFacts RvRound RvMode RvCore.
Import ListNotations.
Local Open Scope N_scope.

Lemma tag_at_words M p T : readable M p T -> length T = 16%nat -> tag_words M p -> p + 20 < 2 ^ 32 -> tag_at M p T.
Proof.
  intros (T1 & T2 & T3) LT [H4 Hw] B20. unfold len in T1. rewrite LT in T1.
  pose proof (N.mod_lt p 4 ltac:(discriminate)) as Hs. set (s := p mod 4) in *.
  assert (S4 : s <= p) by lia.
  set (n := if s =? 0 then 16%nat else 20%nat).
  set (g := fun i => match rd M (p - s + N.of_nat i) with Some b => b | None => x00 end).
  assert (Hn : (p - s) + N.of_nat n <= p + 16 + (4 - s) mod 4).
  { unfold n. destruct (N.eqb_spec s 0) as [E|E].
    - rewrite E. change ((4 - 0) mod 4) with 0. lia.
    - rewrite (N.mod_small (4 - s)) by lia. lia. }
  exists (map g (seq 0 n)). split; [|split].
  - split; [|split].
    + unfold len. rewrite map_length, seq_length. fold s. unfold n. destruct (s =? 0); lia.
    + intros _. fold s. unfold NULL. lia.
    + intros i Hi. rewrite map_length, seq_length in Hi. fold s.
      rewrite (nth_indep _ x00 (g 0%nat)) by (rewrite map_length, seq_length; exact Hi).
      rewrite map_nth, seq_nth by exact Hi. cbn [plus]. unfold g.
      destruct (rd M (p - s + N.of_nat i)) eqn:E; [reflexivity|]. exfalso. apply (Hw (p - s + N.of_nat i)); [lia|lia|exact E].
  - rewrite map_length, seq_length. reflexivity.
  - apply nth_ext with (d := x00) (d' := x00).
    + rewrite firstn_length_le; [exact LT|]. rewrite skipn_length, map_length, seq_length. unfold n.
      destruct (N.eqb_spec s 0); lia.
    + rewrite LT. intros i Hi. rewrite nth_firstn. replace (i <? 16)%nat with true by lia. rewrite nth_skipn. fold s.
      assert (Hj : (N.to_nat s + i < n)%nat) by (unfold n; destruct (N.eqb_spec s 0); lia).
      rewrite (nth_indep (map g (seq 0 n)) x00 (g 0%nat)) by (rewrite map_length, seq_length; exact Hj).
      rewrite map_nth, seq_nth by exact Hj. cbn [plus]. unfold g.
      replace (p - s + N.of_nat (N.to_nat s + i)) with (p + N.of_nat i) by lia. rewrite T3 by lia. reflexivity.
Qed.
Lemma tag_words_near F n M M' p : near F n M M' -> F mod 4 = 0 -> n mod 4 = 0 -> disjoint F n p 16 -> 0 < n -> tag_words M p -> tag_words M' p.
Proof.
  intros [A _] HF Hn Hd Hp [H4 Hw]. split; [exact H4|]. intros a H1 H2. unfold rd. rewrite A; [apply (Hw a H1 H2)|].
  unfold outside. unfold disjoint in Hd.
  assert (EF := N.div_mod F 4 ltac:(discriminate)). assert (En := N.div_mod n 4 ltac:(discriminate)).
  assert (Ep := N.div_mod p 4 ltac:(discriminate)). pose proof (N.mod_lt p 4 ltac:(discriminate)) as Hs.
  rewrite HF in EF. rewrite Hn in En. set (s := p mod 4) in *. set (q := p / 4) in *. set (f := F / 4) in *. set (u := n / 4) in *.
  assert (E4 : (4 - s) mod 4 = if s =? 0 then 0 else 4 - s).
  { destruct (N.eqb_spec s 0) as [->|]; [reflexivity|]. apply N.mod_small. lia. }
  rewrite E4 in H2. clear - Ep EF En Hs H1 H2 Hd Hp. destruct (N.eqb_spec s 0); lia.
Qed.
Lemma tag_words_write M p q l : tag_words M p -> tag_words (write M q l) p.
Proof.
  intros [H4 Hw]. split; [exact H4|]. intros a H1 H2. specialize (Hw a H1 H2). unfold rd in *.
  destruct (write_cases M q l a) as [[_ E]|(i & _ & _ & E)]; rewrite E; [exact Hw|discriminate].
Qed.

Section top.
Variable ldw : bytes -> N.
Variables ph pl : N -> N.
Variables (V : variant) (P : params) (L : laws ldw ph pl V P) (e : env).
Hypothesis Hlab : forall n, fits 32 (lab e n).
Local Notation fold16 := (foldx ldw ph pl).
Ltac exs := repeat (apply except_set; [reflexivity|]); apply except_refl.

Definition room (m : md) (l : bytes) : N := match m with En => len l + 16 | _ => len l end.
(** What ascon_core demands at its start. *)
Record cpre (m : md) (r : regs) (M : mem) (k n ad l T : bytes) : Prop := {
  c_rok : rok r; c_m : m <> Ab; c_mode : r 17%nat = marg m;
  c_sp : 80 <= r 2%nat; c_fa : (r 2%nat - 80) mod 4 = 0; c_fw : writable M (r 2%nat - 80) 80;
  c_data : data_ok V e M; c_fd : disjoint (r 2%nat - 80) 80 (tab e) (len (v_data V));
  c_n : readable M (r 15%nat) n; c_nl : length n = 16%nat; c_na : r 15%nat mod 4 = 0; c_nb : r 15%nat + 16 < 2 ^ 32;
  c_fn : disjoint (r 2%nat - 80) 80 (r 15%nat) 16;
  c_k : readable M (r 16%nat) k; c_kl : length k = 16%nat; c_ka : r 16%nat mod 4 = 0; c_kb : r 16%nat + 16 < 2 ^ 32;
  c_fk : disjoint (r 2%nat - 80) 80 (r 16%nat) 16;
  c_a : readable M (r 13%nat) ad; c_ab : r 13%nat + len ad < 2 ^ 32; c_aa : 16 <= len ad -> r 13%nat mod 4 = 0;
  c_al : r 14%nat = len ad; c_als : len ad < 2 ^ 31; c_faa : disjoint (r 2%nat - 80) 80 (r 13%nat) (len ad);
  c_i : readable M (r 11%nat) l; c_ib : r 11%nat + len l < 2 ^ 32; c_ia : 16 <= len l -> r 11%nat mod 4 = 0;
  c_il : r 12%nat = len l; c_ils : len l < 2 ^ 31; c_fi : disjoint (r 2%nat - 80) 80 (r 11%nat) (len l);
  c_o : writable M (r 10%nat) (room m l); c_ob : r 10%nat + room m l < 2 ^ 32; c_oa : 16 <= len l -> r 10%nat mod 4 = 0;
  c_oi : disjoint (r 10%nat) (len l) (r 11%nat) (len l); c_od : disjoint (r 10%nat) (len l) (tab e) (len (v_data V));
  c_fo : disjoint (r 2%nat - 80) 80 (r 10%nat) (room m l);
  c_t : m = De -> readable M (r 11%nat + len l) T /\ length T = 16%nat /\ tag_words M (r 11%nat + len l) /\
    r 11%nat + len l + 20 < 2 ^ 32 /\ disjoint (r 10%nat) (len l) (r 11%nat + len l) 16 /\
    disjoint (r 2%nat - 80) 80 (r 11%nat + len l) 16
}.
Definition ideal (m : md) (M : mem) (p : N) (out tag : bytes) : mem :=
  match m with En => write M p (out ++ tag) | _ => write M p out end.
Definition verdict (m : md) (tag T : bytes) : N :=
  match m with De => if fold16 (xor_into tag T) =? 0 then 0 else 0xffffffff | _ => 0 end.

Lemma dd_snd_length m S l : m <> Ab -> length (snd (dd P m (length l) S l)) = length l.
Proof.
  intros Hm. generalize (le_n (length l)). generalize (length l) at 2 3 as g. intros g. revert l S.
  induction g as [|g IH]; intros l S Hg.
  - rewrite dd_short by lia. cbn [snd]. destruct m; [congruence| |]; cbn [outb]; apply length_xor_into.
  - destruct (Nat.lt_ge_cases (length l) 16) as [H|H].
    + rewrite dd_short by exact H. cbn [snd]. destruct m; [congruence| |]; cbn [outb]; apply length_xor_into.
    + assert (El : l = firstn 16 l ++ skipn 16 l) by (symmetry; apply firstn_skipn).
      assert (Hb : length (firstn 16 l) = 16%nat) by (apply firstn_length_le; exact H).
      rewrite El at 1. rewrite dd_long by exact Hb. cbn [snd]. rewrite app_length, IH by (rewrite skipn_length; lia).
      rewrite skipn_length. destruct m; [congruence| |]; cbn [outb]; rewrite length_xor_into; lia.
Qed.
Lemma disjoint_less p n q a b : disjoint p n q b -> a <= b -> disjoint p n q a.
Proof. unfold disjoint. lia. Qed.

Lemma core_ok m r M k n ad l T : cpre m r M k n ad l T ->
  let '(S1, out) := dd P m (length l) (d_ad P (d_init P k n) ad) l in
  exists r' M', runs (ascon_core V e r) M M' r' /\ near (r 2%nat - 80) 80 (ideal m M (r 10%nat) out (d_tag P k S1)) M' /\
    r' 10%nat = verdict m (d_tag P k S1) T /\ rok r' /\
    except ([10; 13; 14; 15; 16; 17]%nat ++ tregs) r r'.
Proof.
  intros [Hr Hm Hmd Hsp Fa Fw HD Hfd Qn Ln An Bn Dn Qk Lk Ak Bk Dk Qa Ba Aa La Las Da Qi Bi Ai Li Lis Di Wo Bo Ao Doi Dod Do Ht].
  set (F := r 2%nat - 80) in *.
  assert (F2 : r 2%nat < 2 ^ 32) by apply (proj2 Hr 2%nat).
  assert (Fb : F + 80 < 2 ^ 32) by (clear - F2 Hsp; lia).
  assert (Wo' : writable M (r 10%nat) (len l)).
  { destruct m; [congruence| |exact Wo]. apply (writable_split M (r 10%nat) (len l) 16). exact Wo. }
  assert (Rl : len l <= room m l) by (clear; destruct m; cbn [room]; lia).
  assert (Bo' : r 10%nat + len l < 2 ^ 32) by (clear - Bo Rl; lia).
  assert (Do' : disjoint F 80 (r 10%nat) (len l)) by (apply (disjoint_less _ _ _ _ _ Do Rl)).
  assert (Lsnd := dd_snd_length m (d_ad P (d_init P k n) ad) l Hm).
  (* prologue *)
  set (r1 := setr r 2 F).
  assert (Hr1 : rok r1) by (apply rok_set; [exact Hr|discriminate|unfold fits; lia]).
  assert (E1 : except [2%nat] r r1) by (unfold r1; exs).
  destruct (saves_ok F r1 saved 80 M eq_refl ltac:(lia) eq_refl Fa Fb Fw) as (M1 & R1 & N1 & K1 & _).
  assert (R1' : runs (exec prologue r) M M1 r1).
  { unfold prologue. apply st_op; [reflexivity|]. cbn [fev]. rewrite trunc_sub by (try exact F2; try exact Hsp; reflexivity). exact R1. }
  assert (NR : forall p b, readable M p b -> disjoint F 80 p (len b) -> readable M1 p b).
  { intros p b Hp Hd. apply (near_readable F 80 M); [exact N1|exact Hp|exact Hd|reflexivity]. }
  assert (HD1 : data_ok V e M1) by (apply (data_near V e Hlab F 80 M); [exact N1|reflexivity|discriminate|exact Hfd|exact HD]).
  assert (L16n : len n = 16) by (unfold len; rewrite Ln; reflexivity). assert (L16k : len k = 16) by (unfold len; rewrite Lk; reflexivity).
  (* initialisation *)
  destruct (init_ok ldw ph pl V P L e Hlab m r1 M1 k n Hr1 Hm Hmd HD1) as (r2 & R2 & HS2 & HK2 & Hr2 & Hm2 & E2).
  { apply NR; [exact Qn|rewrite L16n; exact Dn]. }
  { exact Ln. } { exact An. } { exact Bn. }
  { apply NR; [exact Qk|rewrite L16k; exact Dk]. }
  { exact Lk. } { exact Ak. } { exact Bk. }
  assert (G2 : except ([2; 15; 16; 17; 26; 27]%nat ++ sregs ++ tregs) r r2).
  { apply except_trans with r1; [apply (except_sub [2%nat]); [reflexivity|exact E1]|].
    apply (except_sub ([15; 16; 17; 26; 27]%nat ++ sregs ++ tregs)); [reflexivity|exact E2]. }
  assert (E22 : r2 2%nat = F) by (rewrite (E2 2%nat eq_refl); reflexivity).
  assert (W1 : writable M1 F 80) by (apply (near_writable F 80 M); [exact N1|exact Fw]).
  (* associated data *)
  assert (E213 := G2 13%nat eq_refl). assert (E214 := G2 14%nat eq_refl).
  destruct (ad_ok ldw ph pl V P L e Hlab m r2 M1 _ k ad F Hr2 HS2 HK2 Hm2 E22 Fa Fb W1 HD1 Hfd) as
    (r3 & M3 & R3 & N3 & HS3 & HK3 & Hr3 & E3).
  { rewrite E213. apply NR; [exact Qa|exact Da]. }
  { rewrite E213. exact Ba. } { rewrite E213. exact Aa. } { rewrite E214. exact La. } { exact Las. } { rewrite E213. exact Da. }
  assert (N03 : near F 80 M M3) by (apply near_trans with M1; [exact N1|apply (near_wider F 28); [discriminate|exact N3]]).
  assert (G3 : except ([1; 2; 13; 14; 15; 16; 17; 26; 27]%nat ++ sregs ++ tregs) r r3).
  { apply except_trans with r2; [apply (except_sub ([2; 15; 16; 17; 26; 27]%nat ++ sregs ++ tregs)); [reflexivity|exact G2]|].
    apply (except_sub ([1; 13; 14]%nat ++ sregs ++ tregs)); [reflexivity|exact E3]. }
  assert (E32 : r3 2%nat = F) by (rewrite (E3 2%nat eq_refl); exact E22).
  assert (E317 : r3 17%nat = mdv m) by (rewrite (E3 17%nat eq_refl); exact Hm2).
  assert (E310 := G3 10%nat eq_refl). assert (E311 := G3 11%nat eq_refl). assert (E312 := G3 12%nat eq_refl).
  (* text *)
  assert (X := text_ok ldw ph pl V P L e Hlab m r3 M3 _ k l F Hm Hr3 HS3 HK3 E317 E32 Fa Fb).
  rewrite E310, E311, E312 in X.
  specialize (X (near_writable F 80 M M3 F 80 N03 Fw)).
  specialize (X (data_near V e Hlab F 80 M M3 N03 eq_refl (N.le_refl 80) Hfd HD) Hfd).
  specialize (X (near_readable F 80 M M3 _ _ N03 Qi Di eq_refl) Bi Ai Li Lis Di).
  specialize (X (near_writable F 80 M M3 _ _ N03 Wo') Bo' Ao Doi Dod Do').
  destruct (dd P m (length l) (d_ad P (d_init P k n) ad) l) as [S1 out] eqn:Ed. cbn [snd] in Lsnd.
  assert (Lo : len out = len l) by (unfold len; rewrite Lsnd; reflexivity).
  destruct X as (r4 & M4 & R4 & N4 & HS4 & Hr4 & E410 & E413 & E4).
  assert (N04 : near F 80 (write M (r 10%nat) out) M4).
  { apply near_trans with (write M3 (r 10%nat) out); [apply near_write; exact N03|apply (near_wider F 28); [discriminate|exact N4]]. }
  assert (K4 : kept F r1 saved M4).
  { apply (near_kept F 28 r1 saved (write M3 (r 10%nat) out)); [exact N4|reflexivity| |].
    - apply write_kept; [|rewrite Lo; exact Do'|].
      + apply (near_kept F 28 r1 saved M1); [exact N3|reflexivity|exact K1|].
        intros x Hx. apply (forallb_forall (fun x => 28 <=? snd x) saved) in Hx; [apply N.leb_le, Hx|reflexivity].
      + intros x Hx. apply (forallb_forall (fun x => snd x + 4 <=? 80) saved) in Hx; [apply N.leb_le, Hx|reflexivity].
    - intros x Hx. apply (forallb_forall (fun x => 28 <=? snd x) saved) in Hx; [apply N.leb_le, Hx|reflexivity]. }
  assert (E42 : r4 2%nat = F) by (rewrite (E4 2%nat eq_refl); exact E32).
  assert (E417 : r4 17%nat = mdv m) by (rewrite (E4 17%nat eq_refl); exact E317).
  assert (Etag : skipn 24 (xor_at 24 (perm_of P 12 (xor_at 16 S1 k)) k) = d_tag P k S1).
  { unfold xor_at at 1. apply skipn_app_exact. apply firstn_length_le. rewrite (l_plen ldw ph pl V P L). lia. }
  assert (G4 : except ([1; 2; 10; 13; 14; 15; 16; 17; 26; 27]%nat ++ sregs ++ tregs) r r4).
  { apply except_trans with r3; [apply (except_sub ([1; 2; 13; 14; 15; 16; 17; 26; 27]%nat ++ sregs ++ tregs)); [reflexivity|exact G3]|].
    apply (except_sub ([1; 10; 13; 14]%nat ++ sregs ++ tregs)); [reflexivity|exact E4]. }
  (* tag *)
  assert (Y : exists r5 M5, runs (core_tag V e r4) M4 M5 r5 /\ rok r5 /\ near F 80 (ideal m M (r 10%nat) out (d_tag P k S1)) M5 /\
    r5 10%nat = verdict m (d_tag P k S1) T /\ kept F r1 saved M5 /\ except (10%nat :: 26%nat :: tregs) r4 r5).
  { assert (Dm : m = En \/ m = De) by (destruct m; [congruence|left; reflexivity|right; reflexivity]).
    destruct Dm as [->| ->].
    - cbn [room] in *. destruct (writable_split M (r 10%nat) (len l) 16 Wo) as [_ Wt].
      assert (Lt : len (d_tag P k S1) = 16).
      { unfold d_tag, len. rewrite length_xor_into, skipn_length, (l_plen ldw ph pl V P L). reflexivity. }
      destruct (tag_store_ok ldw ph pl V P L e Hlab r4 M4 _ Hr4 HS4 E417) as (r5 & R5 & Hr5 & V5 & E5).
      { rewrite E410. apply (near_writable F 80 (write M (r 10%nat) out)); [exact N04|]. apply writable_write. exact Wt. }
      { rewrite E410. clear - Bo; lia. }
      rewrite Etag, E410 in R5.
      exists r5, (write M4 (r 10%nat + len l) (d_tag P k S1)).
      split; [exact R5|]. split; [exact Hr5|]. split; [|split; [exact V5|split]].
      + unfold ideal. rewrite write_app, Lo. apply near_write. exact N04.
      + apply write_kept; [exact K4|rewrite Lt; clear - Do; unfold disjoint in *; lia|].
        intros x Hx. apply (forallb_forall (fun x => snd x + 4 <=? 80) saved) in Hx; [apply N.leb_le, Hx|reflexivity].
      + apply (except_sub (10%nat :: tregs)); [reflexivity|exact E5].
    - destruct (Ht eq_refl) as (QT & LT & WT & BT & DT & FT).
      assert (L16 : len T = 16) by (unfold len; rewrite LT; reflexivity).
      destruct (tag_check_ok ldw ph pl V P L e Hlab r4 M4 _ T Hr4 HS4 E417) as (r5 & R5 & Hr5 & V5 & E5).
      { rewrite E413. apply tag_at_words; [|exact LT| |exact BT].
        - apply (near_readable F 80 (write M (r 10%nat) out)); [exact N04| |rewrite L16; exact FT|reflexivity].
          apply readable_write_disjoint; [exact QT|rewrite Lo, L16; exact DT].
        - apply (tag_words_near F 80 (write M (r 10%nat) out)); [exact N04|exact Fa|reflexivity|exact FT|reflexivity|].
          apply tag_words_write. exact WT. }
      { exact LT. }
      { rewrite E413. exact BT. }
      exists r5, M4. rewrite Etag in V5.
      split; [exact R5|]. split; [exact Hr5|]. split; [exact N04|]. split; [exact V5|]. split; [exact K4|exact E5]. }
  destruct Y as (r5 & M5 & R5 & Hr5 & N5 & V5 & K5 & E5).
  assert (E52 : r5 2%nat = F) by (rewrite (E5 2%nat eq_refl); exact E42).
  (* epilogue *)
  set (r6 := setr (restore r1 saved r5) 2 (r 2%nat)).
  assert (R6 : runs (exec epilogue r5) M5 M5 r6).
  { unfold epilogue. apply (restores_ok F r1 saved); [exact (proj2 Hr1)|exact E52|exact Fa|exact Fb|exact K5| |].
    - intros x Hx. apply (forallb_forall (fun x => negb (Nat.eqb (fst x) 2) && (snd x mod 4 =? 0) && (snd x + 4 <=? 80)) saved) in Hx;
        [|reflexivity].
      apply andb_prop in Hx. destruct Hx as [Hx H3]. apply andb_prop in Hx. destruct Hx as [H1 H2].
      split; [apply Nat.eqb_neq, negb_true_iff, H1|]. split; [apply N.eqb_eq, H2|apply N.leb_le, H3].
    - apply st_op; [reflexivity|]. cbn [fev].
      change (restore r1 saved r5 2%nat) with (r5 2%nat). rewrite E52. replace (F + 80) with (r 2%nat) by (clear - F2 Hsp; lia).
      rewrite (trunc_fits 32 (r 2%nat)) by exact F2. apply st_nil. }
  assert (Hr6 : rok r6).
  { unfold r6. apply rok_set; [|discriminate|exact F2]. unfold restore, saved. cbn [fold_left fst].
    repeat (apply rok_set; [|discriminate|apply Hr1]). exact Hr5. }
  exists r6, M5. split; [|split; [exact N5|split; [|split; [exact Hr6|]]]].
  - unfold ascon_core.
    apply st_then with (M1 := M1) (r1 := r1); [exact R1'|]. apply st_then with (M1 := M1) (r1 := r2); [exact R2|].
    apply st_then with (M1 := M3) (r1 := r3); [exact R3|]. apply st_then with (M1 := M4) (r1 := r4); [exact R4|].
    apply st_then with (M1 := M5) (r1 := r5); [exact R5|exact R6].
  - change (r6 10%nat) with (r5 10%nat). exact V5.
  - intros i Hi.
    assert (G5 : except ([1; 2; 10; 13; 14; 15; 16; 17; 26; 27]%nat ++ sregs ++ tregs) r r5).
    { apply except_trans with r4; [exact G4|]. apply (except_sub (10%nat :: 26%nat :: tregs)); [reflexivity|exact E5]. }
    destruct (memb i (1 :: 2 :: 26 :: 27 :: sregs)%nat) eqn:Es.
    + do 28 (destruct i as [|i]; [first [discriminate Es|reflexivity]|]). discriminate Es.
    + transitivity (r5 i).
      * assert (H : forall l r0 i, memb i (map fst l) = false -> restore r1 l r0 i = r0 i).
        { clear. induction l as [|x l IH]; intros r0 i Hi; [reflexivity|]. unfold restore in *. cbn [fold_left map memb existsb] in *.
          unfold memb in Hi. cbn [existsb] in Hi. apply orb_false_iff in Hi. destruct Hi as [H1 H2]. rewrite IH by exact H2.
          unfold setr. rewrite H1. reflexivity. }
        unfold r6, setr. destruct (Nat.eqb_spec i 2) as [->|]; [discriminate Es|]. apply H.
        destruct (memb i (map fst saved)) eqn:E; [|reflexivity]. exfalso.
        assert (S : subl (map fst saved) (1 :: 2 :: 26 :: 27 :: sregs)%nat = true) by reflexivity.
        unfold memb in E. apply existsb_exists in E. destruct E as (j & Hj & Eij). apply Nat.eqb_eq in Eij. subst j.
        unfold subl in S. rewrite forallb_forall in S. specialize (S i Hj). congruence.
      * apply G5. destruct (memb i ([1; 2; 10; 13; 14; 15; 16; 17; 26; 27]%nat ++ sregs ++ tregs)) eqn:E; [|reflexivity]. exfalso.
        assert (S : subl ([1; 2; 10; 13; 14; 15; 16; 17; 26; 27]%nat ++ sregs ++ tregs)
                       (([10; 13; 14; 15; 16; 17]%nat ++ tregs) ++ (1 :: 2 :: 26 :: 27 :: sregs)%nat) = true) by reflexivity.
        unfold memb in E. apply existsb_exists in E. destruct E as (j & Hj & Eij). apply Nat.eqb_eq in Eij. subst j.
        unfold subl in S. rewrite forallb_forall in S. specialize (S i Hj). rewrite memb_app, Hi, Es in S. discriminate S.
Qed.

(** ** The C functions *)
Definition args (r : regs) (o i il a al n k md : N) : regs :=
  setr (setr (setr (setr (setr (setr (setr (setr r 10 o) 11 i) 12 il) 13 a) 14 al) 15 n) 16 k) 17 md.
Lemma call_core_ok m r M o i ad np kp k n adb l T :
  let r0 := args r o i (len l) ad (len adb) np kp (marg m) in
  rok r -> cpre m (setr r0 1 (r 1%nat)) M k n adb l T ->
  let '(S1, out) := dd P m (length l) (d_ad P (d_init P k n) adb) l in
  exists r' M', runs (call_core V e r o i (len l) ad (len adb) np kp (marg m)) M M' r' /\
    near (r 2%nat - 80) 80 (ideal m M o out (d_tag P k S1)) M' /\
    r' 10%nat = verdict m (d_tag P k S1) T /\
    forall j, memb j ([10; 11; 12; 13; 14; 15; 16; 17]%nat ++ tregs) = false -> r' j = r j.
Proof.
  intros r0 Hr Hc. assert (X := core_ok m _ M k n adb l T Hc).
  destruct (dd P m (length l) (d_ad P (d_init P k n) adb) l) as [S1 out].
  destruct X as (r' & M' & R & N & Vd & Hr' & E).
  exists r', M'. split; [|split; [exact N|split; [exact Vd|]]].
  - unfold call_core. apply st_call; [exact R|]. rewrite (E 1%nat eq_refl). reflexivity.
  - intros j Hj. rewrite memb_app in Hj. apply orb_false_iff in Hj. destruct Hj as [H1 H2].
    rewrite E.
    + unfold r0, args, setr. unfold memb in H1. cbn [existsb] in H1.
      repeat (apply orb_false_iff in H1; destruct H1 as [? H1]).
      repeat match goal with H : Nat.eqb j _ = false |- _ => rewrite H; clear H end.
      destruct (Nat.eqb_spec j 1) as [->|]; reflexivity.
    + rewrite memb_app, H2, orb_false_r. unfold memb in *. cbn [existsb] in *.
      repeat (apply orb_false_iff in H1; destruct H1 as [? H1]).
      repeat match goal with H : Nat.eqb j _ = false |- _ => rewrite H; clear H end. reflexivity.
Qed.
Lemma env_rok r M : rv_env V e r M -> rok r.
Proof. intros X. split; [apply X|exact (re_regs _ _ _ _ X)]. Qed.
Lemma args_rok r o i il a al n k m : rok r -> o < 2 ^ 32 -> i < 2 ^ 32 -> il < 2 ^ 32 -> a < 2 ^ 32 -> al < 2 ^ 32 ->
  n < 2 ^ 32 -> k < 2 ^ 32 -> rok (setr (args r o i il a al n k (marg m)) 1 (r 1%nat)).
Proof.
  intros Hr. intros. unfold args. apply rok_set; [|discriminate|apply Hr].
  apply rok_set; [|discriminate|destruct m; reflexivity].
  repeat (apply rok_set; [|discriminate|assumption]). exact Hr.
Qed.
Lemma mod4_sub80 x : 80 <= x -> x mod 4 = 0 -> (x - 80) mod 4 = 0.
Proof.
  intros H E. apply N.mod_divide in E; [|discriminate]. destruct E as [q ->].
  replace (q * 4 - 80) with ((q - 20) * 4) by lia. apply N.mod_mul. discriminate.
Qed.
Lemma encrypt_cpre r M c clen m ad npub k mb adb nb kb x : rv_encrypt_pre V e r M c clen m ad npub k mb adb nb kb -> length x = 8%nat ->
  cpre En (setr (args r c m (len mb) ad (len adb) npub k (marg En)) 1 (r 1%nat)) (write M clen x) kb nb adb mb [].
Proof.
  intros [X [Ek En' Qk Qn Qa Qm Wc Wl Dk Dn Da Dm Ov _ _ Ba Bm Bc] [C1 C2] [Cl1 Cl2] [M1 M2] [A1 A2] [N1 N2] [K1 K2] Na Ka Lm La Ct Clt] Lx.
  assert (L8 : len x = 8) by (unfold len; rewrite Lx; reflexivity).
  destruct (Ov) as [_ Ov']. specialize (Ov' eq_refl). cbn [no_overlap] in *.
  specialize (Ba eq_refl). specialize (Bm eq_refl). specialize (Bc eq_refl).
  assert (L16k : len kb = 16) by (unfold len; rewrite Ek; reflexivity). assert (L16n : len nb = 16) by (unfold len; rewrite En'; reflexivity).
  assert (X0 := X). destruct X as [Z Rg Lb Sp Al St Da1 Tb Se].
  constructor; cbn [room].
  - apply args_rok; [exact (env_rok r M X0)|clear - C1; lia|clear - M1; lia|clear - Lm; lia|clear - A1; lia|clear - La; lia|clear - N1; lia|clear - K1; lia].
  - discriminate.
  - reflexivity.
  - exact Sp.
  - exact (mod4_sub80 _ Sp Al).
  - apply writable_write. exact St.
  - split; [|exact Tb]. apply readable_write_disjoint; [exact Da1|rewrite L8; exact Clt].
  - exact Se.
  - apply readable_write_disjoint; [exact Qn|rewrite L8, L16n; exact Dn].
  - exact En'.
  - exact Na.
  - exact N1.
  - exact N2.
  - apply readable_write_disjoint; [exact Qk|rewrite L8, L16k; exact Dk].
  - exact Ek.
  - exact Ka.
  - exact K1.
  - exact K2.
  - apply readable_write_disjoint; [exact Qa|rewrite L8; exact Da].
  - exact A1.
  - exact (proj2 Ba).
  - reflexivity.
  - exact La.
  - exact A2.
  - apply readable_write_disjoint; [exact Qm|rewrite L8; exact Dm].
  - exact M1.
  - exact (proj2 Bm).
  - reflexivity.
  - exact Lm.
  - exact M2.
  - apply writable_write. exact Wc.
  - exact C1.
  - exact (proj2 Bc).
  - exact Ov'.
  - change (setr (args r c m (len mb) ad (len adb) npub k (marg En)) 1 (r 1%nat) 10%nat) with c. clear - Ct. unfold disjoint in *. lia.
  - exact C2.
  - discriminate.
Qed.
Lemma encrypt_dd kb nb adb mb : let '(S1, out) := dd P En (length mb) (d_ad P (d_init P kb nb) adb) mb in
  out ++ d_tag P kb S1 = duplex_encrypt P kb nb adb mb.
Proof. unfold duplex_encrypt. cbn [dd]. destruct (d_encrypt P (length mb) (d_ad P (d_init P kb nb) adb) mb). reflexivity. Qed.
Lemma rv_encrypt_ok r M c clen m ad nsec npub k mb adb nb kb : rv_encrypt_pre V e r M c clen m ad npub k mb adb nb kb ->
  rv_returns r (rv_encrypt V e r c clen m (len mb) ad (len adb) nsec npub k) M
    (write (write M clen (to_host LE 8 (len mb + 16))) c (duplex_encrypt P kb nb adb mb)) 0%Z.
Proof.
  intros H. assert (Lx : length (to_host LE 8 (len mb + 16)) = 8%nat) by apply length_to_host.
  assert (X := call_core_ok En r (write M clen (to_host LE 8 (len mb + 16))) c m ad npub k kb nb adb mb []).
  cbv zeta in X. specialize (X (env_rok r M (xe_env _ _ _ _ _ _ _ _ _ _ _ _ _ _ H)) (encrypt_cpre r M c clen m ad npub k mb adb nb kb _ H Lx)).
  assert (Y := encrypt_dd kb nb adb mb).
  destruct (dd P En (length mb) (d_ad P (d_init P kb nb) adb) mb) as [S1 out].
  destruct X as (r' & M' & R & [N _] & Vd & _). exists M'. split.
  - unfold rv_encrypt. eapply runs_bind.
    + replace (add64 (len mb) 16) with (len mb + 16).
      * apply runs_store_ull. apply (ep_clen _ _ _ _ _ _ _ _ _ _ _ _ (xe_common _ _ _ _ _ _ _ _ _ _ _ _ _ _ H)).
      * symmetry. apply add64_small. pose proof (xe_ml _ _ _ _ _ _ _ _ _ _ _ _ _ _ H). lia.
    + rewrite !trunc_fits by (unfold fits; pose proof (xe_ml _ _ _ _ _ _ _ _ _ _ _ _ _ _ H); pose proof (xe_adl _ _ _ _ _ _ _ _ _ _ _ _ _ _ H); lia).
      eapply runs_bind; [exact R|]. rewrite Vd. apply runs_ret.
  - intros a Ha. rewrite (N a Ha). unfold ideal. rewrite Y. reflexivity.
Qed.

Lemma decrypt_cpre r M m mlen c ad npub k ct adb nb kb x : rv_decrypt_pre V e r M m mlen c ad npub k ct adb nb kb -> length x = 8%nat ->
  cpre De (setr (args r m c (len (ct_body ct)) ad (len adb) npub k (marg De)) 1 (r 1%nat)) (write M mlen x) kb nb adb (ct_body ct) (ct_tag ct) /\
  len (ct_body ct) = len ct - 16.
Proof.
  intros [X [Lc Ek En' Qk Qn Qa Qc Wm Wl Dk Dn Da Dc Ov _ _ Dml Ba Bm Bc] [M1 M2] [Ml1 Ml2] [C1 C2] [A1 A2] [N1 N2] [K1 K2] Na Ka Lcl La Mt Mlt Tw End] Lx.
  assert (L8 : len x = 8) by (unfold len; rewrite Lx; reflexivity).
  destruct (Ov) as [_ Ov']. specialize (Ov' eq_refl). cbn [no_overlap] in *.
  specialize (Ba eq_refl). specialize (Bm eq_refl). specialize (Bc eq_refl).
  assert (L16k : len kb = 16) by (unfold len; rewrite Ek; reflexivity). assert (L16n : len nb = 16) by (unfold len; rewrite En'; reflexivity).
  assert (X0 := X). destruct X as [Z Rg Lb Sp Al St Da1 Tb Se].
  assert (Ect : ct = ct_body ct ++ ct_tag ct) by (symmetry; apply firstn_skipn).
  assert (Lct : (16 <= length ct)%nat) by (unfold len in Lc; clear - Lc; lia).
  assert (Lbn : length (ct_body ct) = (length ct - 16)%nat) by (apply firstn_length_le; clear - Lct; lia).
  assert (Lb' : len (ct_body ct) = len ct - 16) by (unfold len; rewrite Lbn; clear - Lct; lia).
  assert (Lt : length (ct_tag ct) = 16%nat) by (unfold ct_tag; rewrite skipn_length; clear - Lct; lia).
  assert (Lt' : len (ct_tag ct) = 16) by (unfold len; rewrite Lt; reflexivity).
  rewrite Ect in Qc. destruct (readable_app M c _ _ Qc) as [Qb Qt].
  split; [|exact Lb'].
  constructor; cbn [room].
  - apply args_rok; [exact (env_rok r M X0)|clear - M1; lia|clear - C1; lia|rewrite Lb'; clear - Lcl; lia|clear - A1; lia|clear - La; lia|clear - N1; lia|clear - K1; lia].
  - discriminate.
  - reflexivity.
  - exact Sp.
  - exact (mod4_sub80 _ Sp Al).
  - apply writable_write. exact St.
  - split; [|exact Tb]. apply readable_write_disjoint; [exact Da1|rewrite L8; exact Mlt].
  - exact Se.
  - apply readable_write_disjoint; [exact Qn|rewrite L8, L16n; exact Dn].
  - exact En'.
  - exact Na.
  - exact N1.
  - exact N2.
  - apply readable_write_disjoint; [exact Qk|rewrite L8, L16k; exact Dk].
  - exact Ek.
  - exact Ka.
  - exact K1.
  - exact K2.
  - apply readable_write_disjoint; [exact Qa|rewrite L8; exact Da].
  - exact A1.
  - exact (proj2 Ba).
  - reflexivity.
  - exact La.
  - exact A2.
  - apply readable_write_disjoint; [exact Qb|rewrite L8, Lb'; change (disjoint mlen 8 c (len ct - 16)); clear - Dc Lc; unfold disjoint in *; lia].
  - change (setr (args r m c (len (ct_body ct)) ad (len adb) npub k (marg De)) 1 (r 1%nat) 11%nat) with c. rewrite Lb'. clear - C1 Lc. lia.
  - rewrite Lb'. exact (proj2 Bc).
  - reflexivity.
  - rewrite Lb'. clear - Lcl Lc. lia.
  - change (setr (args r m c (len (ct_body ct)) ad (len adb) npub k (marg De)) 1 (r 1%nat) 11%nat) with c. rewrite Lb'.
    change (disjoint (r 2%nat - 80) 80 c (len ct - 16)). clear - C2 Lc. unfold disjoint in *. lia.
  - rewrite Lb'. apply writable_write. exact Wm.
  - rewrite Lb'. exact M1.
  - rewrite Lb'. exact (proj2 Bm).
  - rewrite Lb'. change (disjoint m (len ct - 16) c (len ct - 16)). clear - Ov' Lc. unfold disjoint in *. lia.
  - rewrite Lb'. exact Mt.
  - rewrite Lb'. exact M2.
  - intros _. change (setr (args r m c (len (ct_body ct)) ad (len adb) npub k (marg De)) 1 (r 1%nat) 11%nat) with c.
    change (setr (args r m c (len (ct_body ct)) ad (len adb) npub k (marg De)) 1 (r 1%nat) 10%nat) with m.
    change (setr (args r m c (len (ct_body ct)) ad (len adb) npub k (marg De)) 1 (r 1%nat) 2%nat) with (r 2%nat).
    rewrite Lb' in *.
    split; [apply readable_write_disjoint; [exact Qt|rewrite L8, Lt'; clear - Dc Lc; unfold disjoint in *; lia]|].
    split; [exact Lt|]. split; [apply tag_words_write; exact Tw|]. split; [clear - End Lc; lia|].
    split; [clear - Ov' Lc; unfold disjoint in *; lia|clear - C2 Lc; unfold disjoint in *; lia].
Qed.
Lemma decrypt_dd kb nb adb cb : let '(S1, out) := dd P De (length cb) (d_ad P (d_init P kb nb) adb) cb in
  (out, d_tag P kb S1) = duplex_open P kb nb adb cb.
Proof. unfold duplex_open. cbn [dd]. destruct (d_decrypt P (length cb) (d_ad P (d_init P kb nb) adb) cb). reflexivity. Qed.
Lemma rv_decrypt_ok r M m mlen nsec c ad npub k ct adb nb kb mb t : rv_decrypt_pre V e r M m mlen c ad npub k ct adb nb kb ->
  duplex_open P kb nb adb (ct_body ct) = (mb, t) ->
  rv_returns r (rv_decrypt V e r m mlen nsec c (len ct) ad (len adb) npub k) M
    (write (write M mlen (to_host LE 8 (len ct - 16))) m mb)
    (if (fold16 (xor_into t (ct_tag ct)) =? 0)%N then 0 else -1)%Z.
Proof.
  intros H Ho. assert (Lx : length (to_host LE 8 (len ct - 16)) = 8%nat) by apply length_to_host.
  destruct (decrypt_cpre r M m mlen c ad npub k ct adb nb kb _ H Lx) as [HC Lb].
  assert (X := call_core_ok De r (write M mlen (to_host LE 8 (len ct - 16))) m c ad npub k kb nb adb (ct_body ct) (ct_tag ct)).
  cbv zeta in X. specialize (X (env_rok r M (xd_env _ _ _ _ _ _ _ _ _ _ _ _ _ _ H)) HC).
  assert (Y := decrypt_dd kb nb adb (ct_body ct)). rewrite Ho in Y.
  destruct (dd P De (length (ct_body ct)) (d_ad P (d_init P kb nb) adb) (ct_body ct)) as [S1 out].
  injection Y as -> Et. rewrite Et in X.
  destruct X as (r' & M' & R & [N _] & Vd & _). exists M'. split.
  - pose proof (dp_len _ _ _ _ _ _ _ _ _ _ _ _ (xd_common _ _ _ _ _ _ _ _ _ _ _ _ _ _ H)) as L16.
    pose proof (xd_cl _ _ _ _ _ _ _ _ _ _ _ _ _ _ H) as Lc. pose proof (xd_adl _ _ _ _ _ _ _ _ _ _ _ _ _ _ H) as La.
    pose proof (dp_mlen _ _ _ _ _ _ _ _ _ _ _ _ (xd_common _ _ _ _ _ _ _ _ _ _ _ _ _ _ H)) as Wl.
    unfold rv_decrypt. eapply runs_bind; [apply runs_branch|].
    replace (len ct <? 16) with false by (symmetry; apply N.ltb_ge; exact L16).
    replace (sub64 (len ct) 16) with (len ct - 16) by (symmetry; apply sub64_small; [exact L16|clear - Lc; lia]).
    eapply runs_bind; [apply runs_store_ull; exact Wl|]. eapply runs_bind.
    + apply runs_load_ull with (x := len ct - 16); [|unfold fits; clear - Lc; lia].
      apply readable_write_self; [|intros _; apply Wl; discriminate].
      unfold len at 1. rewrite Lx. exact (proj1 Wl).
    + rewrite !trunc_fits by (unfold fits; clear - Lc La; lia). rewrite Lb in R. eapply runs_bind; [exact R|].
      rewrite Vd. unfold verdict. destruct (fold16 (xor_into t (ct_tag ct)) =? 0); apply runs_ret.
  - intros a Ha. rewrite (N a Ha). reflexivity.
Qed.
End top.
