(** * RvRound.v -- the permutation of the RISC-V implementations. *)
From Coq Require Import Bool Arith NArith ZArith List Lia Init.Byte Strings.Byte ZifyBool ZifyNat ZifyN.
From Verif Require Import Words WordFacts Spec SpecFacts Asm AsmRound ModelRv CMem Contract CMemFacts RvFacts.
Import ListNotations.
Local Open Scope N_scope.

(** ** Halves of 64-bit words *)
Definition half (pos : N -> N) (x : N) : N := of_bits 32 (fun i => N.testbit x (pos i)).
(** low and high half; even and odd bits *)
Definition lo_n (i : N) : N := i.
Definition hi_n (i : N) : N := 32 + i.
Definition lo_b (i : N) : N := 2 * i.
Definition hi_b (i : N) : N := 2 * i + 1.

Lemma testbit_half pos x i : N.testbit (half pos x) i = (i <? 32) && N.testbit x (pos i).
Proof. exact (testbit_of_bits 32 (fun i => N.testbit x (pos i)) i). Qed.
Lemma fits_half pos x : fits 32 (half pos x).
Proof. exact (fits_of_bits 32 _). Qed.
Lemma half_lxor pos x y : half pos (N.lxor x y) = N.lxor (half pos x) (half pos y).
Proof.
  apply N.bits_inj. intros i. rewrite N.lxor_spec, !testbit_half, N.lxor_spec.
  destruct (i <? 32); reflexivity.
Qed.

(** Registers of the state. *)
Record W (ph pl : N -> N) (r : regs) (s : state) : Prop := {
  W0h : r 8%nat = half ph (X0 s); W0l : r 9%nat = half pl (X0 s);
  W1h : r 18%nat = half ph (X1 s); W1l : r 19%nat = half pl (X1 s);
  W2h : r 20%nat = half ph (X2 s); W2l : r 21%nat = half pl (X2 s);
  W3h : r 22%nat = half ph (X3 s); W3l : r 23%nat = half pl (X3 s);
  W4h : r 24%nat = half ph (X4 s); W4l : r 25%nat = half pl (X4 s)
}.
Definition sregs : list nat := [8; 9; 18; 19; 20; 21; 22; 23; 24; 25]%nat.
Definition tregs : list nat := [5; 6; 7; 28; 29; 30; 31]%nat.

(** ** The round *)
Definition hl (pos : N -> N) (k : N) : list N := map (fun i => 64 * k + pos (N.of_nat i)) (seq 0 32).
Definition cellof (ph pl : N -> N) (i : nat) : AsmRound.cell :=
  match i with
  | 8%nat => SB (hl ph 0) | 9%nat => SB (hl pl 0) | 18%nat => SB (hl ph 1) | 19%nat => SB (hl pl 1)
  | 20%nat => SB (hl ph 2) | 21%nat => SB (hl pl 2) | 22%nat => SB (hl ph 3) | 23%nat => SB (hl pl 3)
  | 24%nat => SB (hl ph 4) | 25%nat => SB (hl pl 4)
  | 28%nat | 29%nat | 30%nat => J
  | _ => Sv i
  end.
Definition rlay (ph pl : N -> N) : layout := Lay (map (cellof ph pl) (seq 0 32)) [] [].
Definition to_op (i : ins) : op := match i with Op d t => Set_ d t | _ => Pop 0 end.
Definition isop (i : ins) : bool := match i with Op d t => reglt t && (d <? 32)%nat && negb (Nat.eqb d 0) && wok t | _ => false end.
Definition round_check (ph pl : N -> N) (l : list ins) : bool :=
  forallb isop l && check 32 2 [Ops (map to_op l)] (Some 0) (rlay ph pl) (rlay ph pl).


Definition pexec (l : list ins) (r : regs) : regs :=
  fold_left (fun r i => match i with Op d t => setr r d (fev r t) | _ => r end) l r.
Lemma exec_pexec l : forallb isop l = true -> forall r M, runs (exec l r) M M (pexec l r).
Proof.
  induction l as [|i l IH]; intros H r M; [apply st_nil|].
  cbn [forallb] in H. apply andb_prop in H. destruct H as [Hi H].
  destruct i as [d t| | | | | | |]; try discriminate. cbn [isop] in Hi.
  apply andb_prop in Hi. destruct Hi as [Hi _]. apply andb_prop in Hi. destruct Hi as [Hi _].
  apply andb_prop in Hi. destruct Hi as [Hi _]. apply st_op; [exact Hi|]. apply (IH H).
Qed.
Lemma pexec_rok l : forallb isop l = true -> forall r, rok r -> rok (pexec l r).
Proof.
  induction l as [|i l IH]; intros H r Hr; [exact Hr|].
  cbn [forallb] in H. apply andb_prop in H. destruct H as [Hi H].
  destruct i as [d t| | | | | | |]; try discriminate. cbn [isop] in Hi.
  apply andb_prop in Hi. destruct Hi as [Hi Hw]. apply andb_prop in Hi. destruct Hi as [_ Hd].
  apply (IH H). apply rok_op; [exact Hr|lia|exact Hw].
Qed.
Lemma map_upd (f : nat -> N) (l : list nat) d v : NoDup l -> (forall i, nth_error l i = Some d -> i = d) ->
  nth_error l d = Some d -> map (fun i => if Nat.eqb i d then v else f i) l = Asm.upd (map f l) d v.
Proof.
  intros _ H1 H2. apply nth_ext with (d := 0) (d' := 0).
  - assert (L : forall (l : list N) d v, length (Asm.upd l d v) = length l).
    { intros l0. induction l0 as [|x l0 IH]; intros [|d0] v0; cbn; auto. }
    rewrite L, !map_length. reflexivity.
  - rewrite map_length. intros n Hn.
    assert (G : forall (l : list N) d v n, nth n (Asm.upd l d v) 0 = if Nat.eqb n d && (n <? length l)%nat then v else nth n l 0).
    { intros l0. induction l0 as [|x l0 IH]; intros [|d0] v0 [|n0]; cbn [Asm.upd nth Nat.eqb andb length];
        rewrite ?andb_false_r; try reflexivity. exact (IH d0 v0 n0). }
    destruct (nth_error l n) as [j|] eqn:E; [|apply nth_error_None in E; lia].
    erewrite nth_error_nth; [|rewrite nth_error_map, E; reflexivity].
    rewrite G, map_length. erewrite (nth_error_nth (map f l)); [|rewrite nth_error_map, E; reflexivity].
    replace (n <? length l)%nat with true by lia. rewrite andb_true_r.
    destruct (Nat.eqb_spec j d) as [->|D1]; destruct (Nat.eqb_spec n d) as [->|D2]; try reflexivity; exfalso.
    + apply D2, H1, E.
    + rewrite H2 in E. injection E as <-. apply D1. reflexivity.
Qed.
Lemma rl_setr r d v : (d < 32)%nat -> rl (setr r d v) = Asm.upd (rl r) d v.
Proof.
  intros H. unfold rl, setr. apply map_upd.
  - apply seq_NoDup.
  - intros i E. assert (Hi : (i < 32)%nat).
    { rewrite <- (seq_length 32 0). apply nth_error_Some. congruence. }
    rewrite nth_error_nth' with (d := 0%nat) in E by (rewrite seq_length; exact Hi).
    rewrite seq_nth in E by exact Hi. injection E as E. lia.
  - rewrite nth_error_nth' with (d := 0%nat) by (rewrite seq_length; exact H).
    rewrite seq_nth by exact H. reflexivity.
Qed.
Lemma pexec_asm l b : forallb isop l = true -> forall r,
  Asm.exec (map to_op l) (Mach (rl r) [] b []) = Some (Mach (rl (pexec l r)) [] b []).
Proof.
  induction l as [|i l IH]; intros H r; [reflexivity|].
  cbn [forallb] in H. apply andb_prop in H. destruct H as [Hi H].
  destruct i as [d t| | | | | | |]; try discriminate. cbn [isop] in Hi.
  apply andb_prop in Hi. destruct Hi as [Hi _]. apply andb_prop in Hi. destruct Hi as [Hi _].
  apply andb_prop in Hi. destruct Hi as [Ht Hd].
  cbn [map to_op Asm.exec Asm.step]. rewrite weval_rl by exact Ht.
  rewrite <- rl_setr by (apply Nat.ltb_lt, Hd). exact (IH H _).
Qed.

Definition pos_ok (pos : N -> N) : Prop := forall i, i < 32 -> pos i < 64.
Lemma cell_half w s ctx v pos k : pos_ok pos -> k < 5 ->
  cell_ok w s ctx v (SB (hl pos k)) <-> v = half pos (word s k).
Proof.
  intros Hp Hk.
  assert (E : forall i, lbit s (hl pos k) i = N.testbit (half pos (word s k)) (N.of_nat i)).
  { intros i. unfold lbit, hl. rewrite nth_error_map, testbit_half.
    destruct (Nat.ltb_spec i 32) as [H|H].
    - rewrite nth_error_nth' with (d := 0%nat) by (rewrite seq_length; exact H).
      rewrite seq_nth by exact H. cbn [option_map Nat.add]. replace (N.of_nat i <? 32) with true by lia.
      rewrite stbit_word by (apply Hp; lia). reflexivity.
    - replace (nth_error (seq 0 32) i) with (@None nat) by (symmetry; apply nth_error_None; rewrite seq_length; exact H).
      replace (N.of_nat i <? 32) with false by lia. reflexivity. }
  cbn [cell_ok]. split.
  - intros H. apply N.bits_inj. intros i. rewrite <- (N2Nat.id i). rewrite <- E. apply H.
  - intros -> i. symmetry. apply E.
Qed.
Lemma Forall2_nth_lay {A B} (R : A -> B -> Prop) l1 l2 i d1 d2 : Forall2 R l1 l2 -> (i < length l2)%nat -> R (nth i l1 d1) (nth i l2 d2).
Proof.
  intros H. revert i. induction H as [|x y l1 l2 H _ IH]; intros i Hi; cbn in Hi; [lia|].
  destruct i; [exact H|]. apply IH. lia.
Qed.
Lemma Forall2_map_seq (R : N -> AsmRound.cell -> Prop) (f : nat -> N) (g : nat -> AsmRound.cell) n m :
  (forall i, (n <= i < n + m)%nat -> R (f i) (g i)) -> Forall2 R (map f (seq n m)) (map g (seq n m)).
Proof.
  revert n. induction m as [|m IH]; intros n H; [constructor|]. cbn [seq map].
  constructor; [apply H; lia|]. apply IH. intros i Hi. apply H. lia.
Qed.

Lemma W_lay ph pl r s : pos_ok ph -> pos_ok pl -> rok r -> W ph pl r s ->
  lay_ok 32 (rl r) s (Mach (rl r) [] (r 0%nat) []) (rlay ph pl).
Proof.
  intros Hh Hl Hr [H1 H2 H3 H4 H5 H6 H7 H8 H9 H10]. constructor; cbn [regs stk obj base l_regs l_stk l_obj rlay].
  - unfold rl at 2. apply Forall2_map_seq. intros i [_ Hi]. cbn in Hi.
    assert (Sg : cell_ok 32 s (rl r) (r i) (Sv i)) by (cbn [cell_ok]; symmetry; apply nth_rl; exact Hi).
    assert (Jg : cell_ok 32 s (rl r) (r i) J) by (cbn [cell_ok]; apply Hr).
    do 32 (destruct i as [|i]; [cbn [cellof]; first
      [exact Sg | exact Jg | (apply cell_half; [assumption|reflexivity|]; cbn [word]; assumption)]|]).
    lia.
  - constructor.
  - constructor.
  - unfold base_of. change (32 =? 8) with false. cbv iota. symmetry. apply nth_rl. lia.
Qed.
Lemma ctx_rl r : rok r -> ctx_ok 32 (rl r).
Proof.
  intros Hr. split; [unfold rl; rewrite map_length; apply seq_length|].
  apply Forall_forall. intros x Hx. unfold rl in Hx. apply in_map_iff in Hx. destruct Hx as (i & <- & _). apply Hr.
Qed.
(** The clobbered registers besides the state. *)
Lemma round_sound ph pl l r s : pos_ok ph -> pos_ok pl -> round_check ph pl l = true -> rok r -> W ph pl r s ->
  W ph pl (pexec l r) (round s 0) /\ rok (pexec l r) /\
  forall i, (i < 32)%nat -> memb i (sregs ++ [28; 29; 30]%nat) = false -> pexec l r i = r i.
Proof.
  intros Hh Hl Hc Hr HW. unfold round_check in Hc. apply andb_prop in Hc. destruct Hc as [Hi Hc].
  destruct (check_sound 32 2 _ (Some 0) _ _ (rl r) Hc (ctx_rl r Hr) s _ (W_lay ph pl r s Hh Hl Hr HW)) as (M' & E & HL).
  cbn [run] in E. rewrite (pexec_asm l (r 0%nat) Hi r) in E. injection E as <-.
  destruct HL as [HL _ _ _]. cbn [Asm.regs rlay l_regs s_of] in HL.
  assert (G : forall i, (i < 32)%nat -> cell_ok 32 (round s 0) (rl r) (pexec l r i) (cellof ph pl i)).
  { intros i H. pose proof (Forall2_nth_lay _ _ _ i 0 (cellof ph pl 0%nat) HL) as F.
    rewrite nth_rl in F by exact H. rewrite map_nth, seq_nth in F by exact H. apply F.
    rewrite map_length, seq_length. exact H. }
  split; [|split].
  - constructor.
    + exact (proj1 (cell_half _ _ _ _ ph 0 Hh eq_refl) (G 8%nat ltac:(lia))).
    + exact (proj1 (cell_half _ _ _ _ pl 0 Hl eq_refl) (G 9%nat ltac:(lia))).
    + exact (proj1 (cell_half _ _ _ _ ph 1 Hh eq_refl) (G 18%nat ltac:(lia))).
    + exact (proj1 (cell_half _ _ _ _ pl 1 Hl eq_refl) (G 19%nat ltac:(lia))).
    + exact (proj1 (cell_half _ _ _ _ ph 2 Hh eq_refl) (G 20%nat ltac:(lia))).
    + exact (proj1 (cell_half _ _ _ _ pl 2 Hl eq_refl) (G 21%nat ltac:(lia))).
    + exact (proj1 (cell_half _ _ _ _ ph 3 Hh eq_refl) (G 22%nat ltac:(lia))).
    + exact (proj1 (cell_half _ _ _ _ pl 3 Hl eq_refl) (G 23%nat ltac:(lia))).
    + exact (proj1 (cell_half _ _ _ _ ph 4 Hh eq_refl) (G 24%nat ltac:(lia))).
    + exact (proj1 (cell_half _ _ _ _ pl 4 Hl eq_refl) (G 25%nat ltac:(lia))).
  - apply pexec_rok; assumption.
  - intros i H Hm. specialize (G i H). rewrite <- (nth_rl r i H).
    do 32 (destruct i as [|i]; [first [discriminate Hm | exact G]|]). lia.
Qed.
Lemma pexec_high l : forallb isop l = true -> forall r i, (32 <= i)%nat -> pexec l r i = r i.
Proof.
  induction l as [|x l IH]; intros H r i Hi; [reflexivity|].
  cbn [forallb] in H. apply andb_prop in H. destruct H as [Hx H].
  destruct x as [d t| | | | | | |]; try discriminate. cbn [isop] in Hx.
  apply andb_prop in Hx. destruct Hx as [Hx _]. apply andb_prop in Hx. destruct Hx as [Hx _].
  apply andb_prop in Hx. destruct Hx as [_ Hd]. apply Nat.ltb_lt in Hd.
  change (pexec (Op d t :: l) r) with (pexec l (setr r d (fev r t))). rewrite (IH H) by exact Hi.
  unfold setr. destruct (Nat.eqb_spec i d); [lia|reflexivity].
Qed.
Lemma round_except ph pl l r s : pos_ok ph -> pos_ok pl -> round_check ph pl l = true -> rok r -> W ph pl r s ->
  except (sregs ++ [28; 29; 30]%nat) r (pexec l r).
Proof.
  intros Hh Hl Hc Hr HW i Hi. destruct (Nat.ltb_spec i 32) as [H|H].
  - apply (round_sound ph pl l r s Hh Hl Hc Hr HW); assumption.
  - unfold round_check in Hc. apply andb_prop in Hc. apply pexec_high; [apply Hc|exact H].
Qed.
Lemma round_const s c : round (pC c s) 0 = round s c.
Proof. unfold round, pC. cbn [X0 X1 X2 X3 X4]. rewrite N.lxor_0_r. reflexivity. Qed.
Lemma runs_round ph pl l r s M : pos_ok ph -> pos_ok pl -> round_check ph pl l = true -> rok r -> W ph pl r s ->
  exists r', runs (exec l r) M M r' /\ W ph pl r' (round s 0) /\ rok r' /\ except (sregs ++ [28; 29; 30]%nat) r r'.
Proof.
  intros Hh Hl Hc Hr HW. exists (pexec l r).
  destruct (round_sound ph pl l r s Hh Hl Hc Hr HW) as (A & B & _).
  split; [|split; [exact A|split; [exact B|exact (round_except ph pl l r s Hh Hl Hc Hr HW)]]].
  unfold round_check in Hc. apply andb_prop in Hc. apply exec_pexec. apply Hc.
Qed.

(** The last [n] round constants. *)
Fixpoint rcs (n : nat) : list N := match n with O => [] | S m => (0x4b + 15 * N.of_nat m) :: rcs m end.
Lemma rcs_perm n s : (n = 12 \/ n = 8)%nat -> perm n s = fold_left round (rcs n) s.
Proof. intros [->| ->]; reflexivity. Qed.

Lemma W_except ph pl r r' s l : except l r r' -> forallb (fun i => negb (memb i l)) sregs = true -> W ph pl r s -> W ph pl r' s.
Proof.
  intros E H [H1 H2 H3 H4 H5 H6 H7 H8 H9 H10]. unfold sregs in H. cbn [forallb] in H.
  repeat match goal with H : _ && _ = true |- _ => apply andb_prop in H; destruct H as [? H] end.
  constructor; rewrite E by (apply negb_true_iff; assumption); assumption.
Qed.

(** ** asm_rv32i, asm_rv32b, asm_fsr_rv32b *)
Lemma pos_hn : pos_ok hi_n. Proof. intros i H. unfold hi_n. lia. Qed.
Lemma pos_ln : pos_ok lo_n. Proof. intros i H. unfold lo_n. lia. Qed.
Lemma half_lo_small c : c < 2 ^ 32 -> half lo_n c = c.
Proof.
  intros H. apply N.bits_inj. intros i. rewrite testbit_half. unfold lo_n.
  rewrite (fits_bit 32 c i H) at 2. reflexivity.
Qed.
Lemma half_hi_small c : c < 2 ^ 32 -> half hi_n c = 0.
Proof.
  intros H. apply N.bits_inj. intros i. rewrite testbit_half, N.bits_0. unfold hi_n.
  rewrite (fits_bit_high 32 c) by (try exact H; lia). apply andb_false_r.
Qed.
Lemma W_const_n r s c : c < 2 ^ 32 -> W hi_n lo_n r s ->
  W hi_n lo_n (setr r 21 (N.lxor (r 21%nat) c)) (pC c s).
Proof.
  intros Hc [H1 H2 H3 H4 H5 H6 H7 H8 H9 H10]. constructor; unfold pC; cbn [X0 X1 X2 X3 X4]; try assumption.
  - change (setr r 21 (N.lxor (r 21%nat) c) 20%nat) with (r 20%nat).
    rewrite half_lxor, (half_hi_small c Hc), N.lxor_0_r. exact H5.
  - change (setr r 21 (N.lxor (r 21%nat) c) 21%nat) with (N.lxor (r 21%nat) c).
    rewrite half_lxor, (half_lo_small c Hc), H6. reflexivity.
Qed.

Definition pbody (rnd : list ins) : list ins := [ModelRv.xor 21 21 6] ++ rnd ++ [addi 6 6 (neg 15)].
Lemma pbody_ok rnd r s M m : round_check hi_n lo_n rnd = true -> rok r -> W hi_n lo_n r s -> (m < 12)%nat ->
  r 6%nat = 0x4b + 15 * N.of_nat m ->
  exists r', runs (exec (pbody rnd) r) M M r' /\ W hi_n lo_n r' (round s (0x4b + 15 * N.of_nat m)) /\ rok r' /\
    r' 6%nat = 0x3c + 15 * N.of_nat m /\ except (sregs ++ [6; 28; 29; 30]%nat) r r'.
Proof.
  intros Hc Hr HW Hm H6. set (c := 0x4b + 15 * N.of_nat m) in *.
  assert (Hcb : c < 2 ^ 32) by (unfold c; lia).
  set (r1 := setr r 21 (N.lxor (r 21%nat) (r 6%nat))).
  assert (Hr1 : rok r1) by (apply rok_set; [exact Hr|discriminate|apply fits_lxor; apply Hr]).
  assert (HW1 : W hi_n lo_n r1 (pC c s)) by (unfold r1; rewrite H6; apply W_const_n; assumption).
  destruct (runs_round hi_n lo_n rnd r1 _ M pos_hn pos_ln Hc Hr1 HW1) as (r2 & R2 & W2 & Hr2 & E2).
  rewrite round_const in W2.
  exists (setr r2 6 (trunc 32 (r2 6%nat + neg 15))).
  assert (H26 : r2 6%nat = c) by (rewrite (E2 6%nat eq_refl); exact H6).
  assert (V : trunc 32 (r2 6%nat + neg 15) = 0x3c + 15 * N.of_nat m).
  { rewrite H26, trunc_sub; unfold c; lia. }
  rewrite V.
  split; [|split; [|split; [|split]]].
  - unfold pbody. apply st_app with (M1 := M) (r1 := r1).
    + apply st_op; [reflexivity|]. apply st_nil.
    + apply st_app with (M1 := M) (r1 := r2); [exact R2|]. apply st_op; [reflexivity|]. cbn [fev]. rewrite V. apply st_nil.
  - apply (W_except hi_n lo_n r2 _ _ [6%nat]); [|reflexivity|exact W2]. apply except_set; [reflexivity|apply except_refl].
  - apply rok_set; [exact Hr2|discriminate|]. unfold fits. lia.
  - reflexivity.
  - apply except_set; [reflexivity|]. apply except_trans with r1.
    + apply except_set; [reflexivity|apply except_refl].
    + apply (except_sub (sregs ++ [28; 29; 30]%nat)); [reflexivity|exact E2].
Qed.
Lemma bge_small a b r : r a < 2 ^ 31 -> r b < 2 ^ 31 -> bge a b r = (r b <=? r a).
Proof. intros Ha Hb. unfold bge. rewrite !s32_small by assumption. lia. Qed.
Lemma ploop_ok rnd : round_check hi_n lo_n rnd = true -> forall m f r s M, (m <= 12)%nat -> (m < f)%nat ->
  rok r -> W hi_n lo_n r s -> r 6%nat = 0x3c + 15 * N.of_nat m -> r 31%nat = 0x4b ->
  exists r', runs (while f (bge 6 31) (exec (pbody rnd)) r) M M r' /\ W hi_n lo_n r' (fold_left round (rcs m) s) /\ rok r' /\
    except (sregs ++ [6; 28; 29; 30]%nat) r r'.
Proof.
  intros Hc. induction m as [|m IH]; intros f r s M Hm Hf Hr HW H6 H31; (destruct f as [|f]; [lia|]).
  - exists r. split; [|split; [exact HW|split; [exact Hr|apply except_refl]]].
    apply runs_while_end. rewrite bge_small by lia. lia.
  - destruct (pbody_ok rnd r s M m Hc Hr HW) as (r1 & R1 & W1 & Hr1 & H61 & E1); [lia|lia|].
    destruct (IH f r1 (round s (0x4b + 15 * N.of_nat m)) M) as (r2 & R2 & W2 & Hr2 & E2);
      [lia|lia|exact Hr1|exact W1|exact H61|rewrite (E1 31%nat eq_refl); exact H31|].
    exists r2. split; [|split; [exact W2|split; [exact Hr2|exact (except_trans _ _ _ _ E1 E2)]]].
    apply runs_while_step with (s1 := r1) (M1 := M); [|exact R1|exact R2].
    rewrite bge_small by lia. lia.
Qed.

Definition perm_law (ph pl : N -> N) (data : bytes) (pf : env -> N -> bool -> code) : Prop :=
  forall e ln a r s M, rok r -> W ph pl r s -> fits 32 (lab e ln) -> readable M (tab e) data -> tab e + len data < 2 ^ 32 ->
  exists r', runs (pf e ln a r) M M r' /\ W ph pl r' (perm (if a then 12%nat else 8%nat) s) /\ rok r' /\
    except (sregs ++ tregs) r r'.

Lemma perm_with_ok rnd : round_check hi_n lo_n rnd = true -> perm_law hi_n lo_n [] (perm_with rnd).
Proof.
  intros Hc e ln a r s M Hr HW Hlab _ _.
  set (m := if a then 11%nat else 7%nat).
  set (r1 := setr r 6 (if a then 0xf0 else 0xb4)).
  set (r2 := setr r1 5 (lab e ln)).
  set (r3 := setr r2 31 0x4b).
  assert (Hr1 : rok r1) by (apply rok_set; [exact Hr|discriminate|destruct a; reflexivity]).
  assert (Hr2 : rok r2) by (apply rok_set; [exact Hr1|discriminate|exact Hlab]).
  assert (Hr3 : rok r3) by (apply rok_set; [exact Hr2|discriminate|reflexivity]).
  assert (E3 : except [5; 6; 31]%nat r r3).
  { do 3 (apply except_set; [reflexivity|]). apply except_refl. }
  assert (HW3 : W hi_n lo_n r3 s) by (apply (W_except hi_n lo_n r _ _ _ E3); [reflexivity|exact HW]).
  assert (H6 : r3 6%nat = 0x4b + 15 * N.of_nat m) by (unfold m; destruct a; reflexivity).
  destruct (pbody_ok rnd r3 s M m Hc Hr3 HW3) as (r4 & R4 & W4 & Hr4 & H64 & E4); [unfold m; destruct a; lia|exact H6|].
  destruct (ploop_ok rnd Hc m 32 r4 _ M ltac:(unfold m; destruct a; lia) ltac:(unfold m; destruct a; lia) Hr4 W4 H64)
    as (r5 & R5 & W5 & Hr5 & E5).
  { rewrite (E4 31%nat eq_refl). reflexivity. }
  exists r5. split; [|split; [|split; [exact Hr5|]]].
  - unfold perm_with. apply st_then with (M1 := M) (r1 := r1).
    + apply st_op; [reflexivity|]. apply st_nil.
    + apply st_call.
      * unfold permute_with. apply st_then with (M1 := M) (r1 := r3).
        -- apply st_op; [reflexivity|]. apply st_nil.
        -- apply st_then with (M1 := M) (r1 := r4); [exact R4|exact R5].
      * rewrite (E5 5%nat eq_refl), (E4 5%nat eq_refl). reflexivity.
  - rewrite rcs_perm by (destruct a; [left|right]; reflexivity).
    replace (rcs (if a then 12%nat else 8%nat)) with ((0x4b + 15 * N.of_nat m) :: rcs m) by (unfold m; destruct a; reflexivity).
    exact W5.
  - apply except_trans with r3; [apply (except_sub [5; 6; 31]%nat); [reflexivity|exact E3]|].
    apply except_trans with r4.
    + apply (except_sub (sregs ++ [6; 28; 29; 30]%nat)); [reflexivity|exact E4].
    + apply (except_sub (sregs ++ [6; 28; 29; 30]%nat)); [reflexivity|exact E5].
Qed.

Lemma check_i : round_check hi_n lo_n (round_with sbox_i linear_i) = true. Proof. vm_compute. reflexivity. Qed.
Lemma check_b : round_check hi_n lo_n (round_with sbox_b linear_i) = true. Proof. vm_compute. reflexivity. Qed.
Lemma check_fsr : round_check hi_n lo_n (round_with sbox_b linear_fsr) = true. Proof. vm_compute. reflexivity. Qed.
Lemma check_bi : round_check hi_b lo_b round_bi = true. Proof. vm_compute. reflexivity. Qed.

(** ** asm_bi32_rv32b *)
Lemma pos_hb : pos_ok hi_b. Proof. intros i H. unfold hi_b. lia. Qed.
Lemma pos_lb : pos_ok lo_b. Proof. intros i H. unfold lo_b. lia. Qed.
(** The two bytes of the table for the round constants, [m] rounds before the end. *)
Definition btab (j : nat) : N := b2n (nth j bi_table x00).
Lemma btab_const m : (m < 12)%nat ->
  btab (2 * (11 - m)) = half lo_b (0x4b + 15 * N.of_nat m) /\ btab (2 * (11 - m) + 1) = half hi_b (0x4b + 15 * N.of_nat m) /\
  btab (2 * (11 - m)) <> 0.
Proof.
  intros H. do 12 (destruct m as [|m]; [vm_compute; split; [reflexivity|split; [reflexivity|discriminate]]|]). lia.
Qed.
Lemma readable_byte M p l j : readable M p l -> (j < length l)%nat -> readable M (p + N.of_nat j) [nth j l x00].
Proof.
  intros (H1 & H2 & H3) Hj. unfold Contract.len in *. split; [|split].
  - unfold Contract.len. cbn [length]. lia.
  - intros _ E. apply H2; [destruct l; [cbn in Hj; lia|discriminate]|]. unfold NULL in *. lia.
  - intros i Hi. cbn [length] in Hi. destruct i; [|lia]. rewrite N.add_0_r. exact (H3 j Hj).
Qed.
Lemma bbody_ok e r s M m : rok r -> W hi_b lo_b r s -> (m < 12)%nat -> readable M (tab e) bi_table ->
  tab e + len bi_table < 2 ^ 32 -> r 6%nat = tab e + N.of_nat (2 * (11 - m)) -> r 7%nat = btab (2 * (11 - m)) ->
  exists r', runs (exec ([ModelRv.xor 21 21 7; Lbu 7 6 1; ModelRv.xor 20 20 7] ++ round_bi ++ [addi 6 6 2]) r) M M r' /\
    W hi_b lo_b r' (round s (0x4b + 15 * N.of_nat m)) /\ rok r' /\
    r' 6%nat = tab e + N.of_nat (2 * (12 - m)) /\ except (sregs ++ [6; 7; 28; 29; 30]%nat) r r'.
Proof.
  intros Hr HW Hm Ht Htb H6 H7. set (c := 0x4b + 15 * N.of_nat m) in *.
  assert (Hlt : len bi_table = 25) by reflexivity.
  destruct (btab_const m Hm) as (Ce & Co & _). fold c in Ce, Co.
  set (o := btab (2 * (11 - m) + 1)) in *.
  set (r1 := setr (setr (setr r 21 (N.lxor (r 21%nat) (r 7%nat))) 7 o) 20 (N.lxor (r 20%nat) o)).
  assert (Fo : fits 32 o) by (rewrite Co; apply fits_half).
  assert (Hr1 : rok r1).
  { unfold r1. apply rok_set; [|discriminate|apply fits_lxor; [apply Hr|exact Fo]].
    apply rok_set; [|discriminate|exact Fo]. apply rok_set; [exact Hr|discriminate|apply fits_lxor; apply Hr]. }
  assert (HW1 : W hi_b lo_b r1 (pC c s)).
  { destruct HW as [H1 H2 H3 H4 H5 H6' H7' H8 H9 H10]. constructor; unfold pC; cbn [X0 X1 X2 X3 X4]; try assumption.
    - change (r1 20%nat) with (N.lxor (r 20%nat) o). rewrite half_lxor, <- Co, <- H5. reflexivity.
    - change (r1 21%nat) with (N.lxor (r 21%nat) (r 7%nat)). rewrite half_lxor, <- Ce, <- H6', <- H7. reflexivity. }
  destruct (runs_round hi_b lo_b round_bi r1 _ M pos_hb pos_lb check_bi Hr1 HW1) as (r2 & R2 & W2 & Hr2 & E2).
  rewrite round_const in W2.
  assert (H26 : r2 6%nat = r 6%nat) by (rewrite (E2 6%nat eq_refl); reflexivity).
  assert (V : trunc 32 (r2 6%nat + 2) = tab e + N.of_nat (2 * (12 - m))).
  { rewrite H26, H6, trunc_add by lia. lia. }
  exists (setr r2 6 (tab e + N.of_nat (2 * (12 - m)))).
  split; [|split; [|split; [|split]]].
  - apply st_app with (M1 := M) (r1 := r1).
    + apply st_op; [reflexivity|].
      apply (st_lbu 7 6 1 (nth (2 * (11 - m) + 1) bi_table x00) _ _ _ _ _ (tab e + N.of_nat (2 * (11 - m) + 1))).
      * change (setr r 21 (fev r (Xor (Reg 21) (Reg 7))) 6%nat) with (r 6%nat). rewrite H6. lia.
      * lia.
      * apply readable_byte; [exact Ht|]. cbn [length bi_table]. lia.
      * apply st_op; [reflexivity|]. apply st_nil.
    + apply st_app with (M1 := M) (r1 := r2); [exact R2|]. apply st_op; [reflexivity|]. cbn [fev]. rewrite V. apply st_nil.
  - apply (W_except hi_b lo_b r2 _ _ [6%nat]); [|reflexivity|exact W2]. apply except_set; [reflexivity|apply except_refl].
  - apply rok_set; [exact Hr2|discriminate|]. unfold fits. lia.
  - reflexivity.
  - apply except_set; [reflexivity|]. apply except_trans with r1.
    + do 3 (apply except_set; [reflexivity|]). apply except_refl.
    + apply (except_sub (sregs ++ [28; 29; 30]%nat)); [reflexivity|exact E2].
Qed.
Lemma bloop_ok e : forall m f r s M, (m <= 12)%nat -> (m < f)%nat ->
  rok r -> W hi_b lo_b r s -> readable M (tab e) bi_table -> tab e + len bi_table < 2 ^ 32 ->
  r 6%nat = tab e + N.of_nat (2 * (12 - m)) -> r 7%nat = btab (2 * (12 - m)) ->
  exists r', runs (while f (fun r => negb (beq 7 0 r)) (fun r => r <- exec ([ModelRv.xor 21 21 7; Lbu 7 6 1; ModelRv.xor 20 20 7] ++ round_bi ++ [addi 6 6 2]) r ;; exec [Lbu 7 6 0] r) r) M M r' /\
    W hi_b lo_b r' (fold_left round (rcs m) s) /\ rok r' /\ except (sregs ++ [6; 7; 28; 29; 30]%nat) r r'.
Proof.
  induction m as [|m IH]; intros f r s M Hm Hf Hr HW Ht Htb H6 H7; (destruct f as [|f]; [lia|]).
  - exists r. split; [|split; [exact HW|split; [exact Hr|apply except_refl]]].
    apply runs_while_end. unfold beq. rewrite H7, (rok_0 r Hr). reflexivity.
  - assert (Hlt : len bi_table = 25) by reflexivity.
    assert (Hm2 : (12 - S m = 11 - m)%nat) by lia. rewrite Hm2 in *.
    destruct (bbody_ok e r s M m Hr HW ltac:(lia) Ht Htb H6 H7) as (r1 & R1 & W1 & Hr1 & H61 & E1).
    set (r2 := setr r1 7 (btab (2 * (12 - m)))).
    assert (F : fits 32 (btab (2 * (12 - m)))) by (apply (fits_le 8); [lia|apply fits_b2n]).
    destruct (IH f r2 (round s (0x4b + 15 * N.of_nat m)) M) as (r3 & R3 & W3 & Hr3 & E3).
    + lia.
    + lia.
    + apply rok_set; [exact Hr1|discriminate|exact F].
    + apply (W_except hi_b lo_b r1 _ _ [7%nat]); [|reflexivity|exact W1]. apply except_set; [reflexivity|apply except_refl].
    + exact Ht.
    + exact Htb.
    + exact H61.
    + reflexivity.
    + exists r3. split; [|split; [exact W3|split; [exact Hr3|]]].
      * apply runs_while_step with (s1 := r2) (M1 := M); [| |exact R3].
        -- unfold beq. rewrite H7, (rok_0 r Hr). destruct (btab_const m ltac:(lia)) as (_ & _ & B).
           destruct (N.eqb_spec (btab (2 * (11 - m))) 0); [contradiction|reflexivity].
        -- eapply runs_bind; [exact R1|].
           apply (st_lbu 7 6 0 (nth (2 * (12 - m)) bi_table x00) _ _ _ _ _ (tab e + N.of_nat (2 * (12 - m)))).
           ++ rewrite H61. lia.
           ++ lia.
           ++ apply readable_byte; [exact Ht|]. cbn [length bi_table]. lia.
           ++ apply st_nil.
      * apply except_trans with r1; [exact E1|]. apply except_trans with r2; [|exact E3].
        apply except_set; [reflexivity|apply except_refl].
Qed.
Lemma perm_bi_ok : perm_law hi_b lo_b bi_table perm_bi.
Proof.
  intros e ln a r s M Hr HW Hlab Ht Htb. assert (Hlt : len bi_table = 25) by reflexivity.
  set (m := if a then 12%nat else 8%nat).
  set (r1 := setr r 6 (if a then tab e else tab e + 8)).
  set (r2 := setr r1 5 (lab e ln)).
  set (r3 := setr r2 7 (btab (2 * (12 - m)))).
  assert (Hr1 : rok r1) by (apply rok_set; [exact Hr|discriminate|unfold fits; destruct a; lia]).
  assert (Hr2 : rok r2) by (apply rok_set; [exact Hr1|discriminate|exact Hlab]).
  assert (Hr3 : rok r3).
  { apply rok_set; [exact Hr2|discriminate|]. apply (fits_le 8); [lia|apply fits_b2n]. }
  assert (E3 : except [5; 6; 7]%nat r r3).
  { do 3 (apply except_set; [reflexivity|]). apply except_refl. }
  assert (HW3 : W hi_b lo_b r3 s) by (apply (W_except hi_b lo_b r _ _ _ E3); [reflexivity|exact HW]).
  assert (H6 : r3 6%nat = tab e + N.of_nat (2 * (12 - m))).
  { change (r3 6%nat) with (if a then tab e else tab e + 8). unfold m. destruct a; cbn; lia. }
  destruct (bloop_ok e m 32 r3 s M ltac:(unfold m; destruct a; lia) ltac:(unfold m; destruct a; lia) Hr3 HW3 Ht Htb H6 eq_refl)
    as (r4 & R4 & W4 & Hr4 & E4).
  exists r4. split; [|split; [|split; [exact Hr4|]]].
  - unfold perm_bi. apply st_then with (M1 := M) (r1 := r1).
    + apply st_op; [destruct a; reflexivity|]. apply st_nil.
    + apply st_call.
      * unfold permute_bi, loop. eapply runs_bind with (a := r3); [|exact R4].
        apply (st_lbu 7 6 0 (nth (2 * (12 - m)) bi_table x00) _ _ _ _ _ (tab e + N.of_nat (2 * (12 - m)))).
        -- change (setr r1 5 (lab e ln) 6%nat) with (r3 6%nat). rewrite H6. lia.
        -- unfold m; destruct a; lia.
        -- apply readable_byte; [exact Ht|]. cbn [length bi_table]. unfold m; destruct a; lia.
        -- apply st_nil.
      * rewrite (E4 5%nat eq_refl). reflexivity.
  - rewrite rcs_perm by (destruct a; [left|right]; reflexivity). exact W4.
  - apply except_trans with r3; [apply (except_sub [5; 6; 7]%nat); [reflexivity|exact E3]|].
    apply (except_sub (sregs ++ [6; 7; 28; 29; 30]%nat)); [reflexivity|exact E4].
Qed.
