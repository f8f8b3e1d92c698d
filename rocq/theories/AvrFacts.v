(** * AvrFacts.v -- src/avr/permutations.S computes Ascon-p. *)
From Coq Require Import Bool Arith NArith ZArith List Lia ZifyBool ZifyNat ZifyN.
From Verif Require Import Words WordFacts Spec SpecFacts CMem ModelRef RoundFacts StateRep Asm Poly AsmRound AsmAvr AvrCode AsmArmFacts ModelAvr
  Opt8Aead.
Import ListNotations.
Local Open Scope N_scope.

(** Byte [j] of word [k]. *)
Definition byte_cell (k j : N) : cell := SB (map (fun i => 64 * k + 8 * j + N.of_nat i) (seq 0 8)).
Definition word_cells (k : N) : list cell := map (byte_cell k) [0; 1; 2; 3; 4; 5; 6; 7].
Definition J8 : list cell := repeat J 8.

(** Context: the pointer (two bytes), then the registers r0 to r17 (numbers 2
    to 19), r28 and r29 (20 and 21). *)
Definition A_entry (n : N) : layout :=
  Lay (map Sv (seq 2 18) ++ [J; J; J; J; K n; J; Sv 0; Sv 1; J; J; Sv 20; Sv 21; J; J] ++ [J; J; J]) []
      (flat_map word_cells [0; 1; 2; 3; 4]).
Definition A_loop (n k : N) : layout :=
  Lay ([K 60; K 0] ++ repeat J 16 ++ word_cells 2 ++ [J; K (60 + 15 * (n - k)); Sv 20; Sv 21; Sv 0; Sv 1] ++ [J; J; J])
      (rev (Sv 2 :: map Sv (seq 4 16)))
      (word_cells 0 ++ word_cells 1 ++ J8 ++ word_cells 3 ++ word_cells 4).
Definition A_exit : layout :=
  Lay ([Sv 2; K 0] ++ map Sv (seq 4 16) ++ repeat J 10 ++ [Sv 20; Sv 21; J; J] ++ [J; J; J]) []
      (flat_map word_cells [0; 1; 2; 3; 4]).

Lemma avr_pre_ok n : In n [12; 8; 6] -> check 8 40 avr_pre None (A_entry n) (A_loop n 0) = true.
Proof. intros H. cbn [In] in H. destruct H as [<-|[<-|[<-|[]]]]; vm_compute; reflexivity. Qed.
Lemma avr_iters_ok n : In n [12; 8; 6] -> iters 8 40 avr_body (Reg rcon) (Reg rstop) (A_loop n 0) (steps (N.to_nat n) (A_loop n)) = true.
Proof. intros H. cbn [In] in H. destruct H as [<-|[<-|[<-|[]]]]; vm_compute; reflexivity. Qed.
Lemma avr_last n : In n [12; 8; 6] -> last_lay (A_loop n 0) (steps (N.to_nat n) (A_loop n)) = A_loop n n.
Proof. intros H. cbn [In] in H. destruct H as [<-|[<-|[<-|[]]]]; vm_compute; reflexivity. Qed.
Lemma avr_post_ok n : In n [12; 8; 6] -> check 8 40 avr_post None (A_loop n n) A_exit = true.
Proof. intros H. cbn [In] in H. destruct H as [<-|[<-|[<-|[]]]]; vm_compute; reflexivity. Qed.

(** ** The state in memory *)

Definition byte_at (x j : N) : N := b2n (n2b (N.shiftr x (8 * j))).
Lemma byte_cell_iff s ctx v k j : wf s -> k < 5 -> j < 8 ->
  cell_ok 8 s ctx v (byte_cell k j) <-> v = byte_at (word s k) j.
Proof.
  intros Hs Hk Hj. cbn [cell_ok byte_cell].
  assert (E : forall i, lbit s (map (fun i => 64 * k + 8 * j + N.of_nat i) (seq 0 8)) i = N.testbit (byte_at (word s k) j) (N.of_nat i)).
  { intros i. unfold lbit. rewrite (nth_error_map_seq (fun i => 64 * k + 8 * j + N.of_nat i)).
    unfold byte_at. fold (bbit (n2b (N.shiftr (word s k) (8 * j))) (N.of_nat i)). rewrite bbit_n2b, testbit_shiftr.
    destruct (Nat.ltb_spec i 8), (N.ltb_spec (N.of_nat i) 8); try (exfalso; lia); cbn [andb]; [|reflexivity].
    rewrite <- N.add_assoc, stbit_word by lia. f_equal. lia. }
  split.
  - intros H. apply N.bits_inj. intros i. rewrite <- (N2Nat.id i), H. apply E.
  - intros -> i. symmetry. apply E.
Qed.
Lemma le8 x : map b2n (le_bytes 8 x) = map (byte_at x) [0; 1; 2; 3; 4; 5; 6; 7].
Proof.
  cbn [le_bytes map]. unfold byte_at. rewrite !N.shiftr_shiftr. reflexivity.
Qed.
Lemma word_cells_iff s ctx vs k : wf s -> k < 5 ->
  Forall2 (cell_ok 8 s ctx) vs (word_cells k) <-> vs = map b2n (le_bytes 8 (word s k)).
Proof.
  intros Hs Hk. rewrite le8. unfold word_cells. split.
  - intros H. repeat (apply F2_cons in H; destruct H as (? & ? & -> & ?C & H); apply byte_cell_iff in C; [|assumption|lia|lia]; subst).
    inversion H; subst. reflexivity.
  - intros ->. repeat (constructor; [apply byte_cell_iff; try assumption; try lia; reflexivity|]). constructor.
Qed.
Lemma state_cells_iff s ctx vs : wf s ->
  Forall2 (cell_ok 8 s ctx) vs (flat_map word_cells [0; 1; 2; 3; 4]) <-> vs = map b2n (bytes_of_state s).
Proof.
  intros Hs. unfold bytes_of_state. rewrite !map_app. cbn [flat_map]. rewrite app_nil_r. split.
  - intros H.
    apply Forall2_app_inv_r in H. destruct H as (v0 & r0 & H0 & H & ->).
    apply Forall2_app_inv_r in H. destruct H as (v1 & r1 & H1 & H & ->).
    apply Forall2_app_inv_r in H. destruct H as (v2 & r2 & H2 & H & ->).
    apply Forall2_app_inv_r in H. destruct H as (v3 & v4 & H3 & H4 & ->).
    apply word_cells_iff in H0, H1, H2, H3, H4; try assumption; try lia. subst. reflexivity.
  - intros ->. repeat (apply Forall2_app); apply word_cells_iff; try assumption; try lia; reflexivity.
Qed.

(** ** The function *)

Definition A_ctx (r : list N) : list N :=
  nth 24 r 0 :: nth 25 r 0 :: firstn 18 r ++ [nth 28 r 0; nth 29 r 0] ++ repeat 0 10.
Lemma fits_nth (r : list N) i : Forall (fits 8) r -> fits 8 (nth i r 0).
Proof. intros H. destruct (nth_in_or_default i r 0) as [I|E]; [rewrite Forall_forall in H; apply H, I|rewrite E; unfold fits; lia]. Qed.
Lemma A_ctx_ok r : length r = 32%nat -> Forall (fits 8) r -> ctx_ok 8 (A_ctx r).
Proof.
  intros Hl H. split.
  - unfold A_ctx. cbn [length]. rewrite !app_length, firstn_length, repeat_length. cbn [length]. lia.
  - unfold A_ctx. constructor; [apply fits_nth, H|]. constructor; [apply fits_nth, H|].
    apply Forall_app. split; [|constructor; [apply fits_nth, H|constructor; [apply fits_nth, H|repeat constructor]]].
    apply Forall_forall. intros x I. rewrite Forall_forall in H. apply H. rewrite <- (firstn_skipn 18 r). apply in_or_app. left. exact I.
Qed.
Lemma A_entry_ok n s r f : wf s -> length r = 32%nat -> Forall (fits 8) r -> nth 22 r 0 = n ->
  length f = 3%nat -> Forall (fits 8) f ->
  lay_ok 8 (A_ctx r) s (Mach (r ++ f) [] (avr_addr r) (map b2n (bytes_of_state s))) (A_entry n).
Proof.
  intros Hs Hl Hr Hn Hlf Hf.
  constructor; cbn [regs stk obj base l_regs l_stk l_obj A_entry].
  - do 32 (destruct r as [|? r]; [discriminate|]). destruct r; [|discriminate].
    do 3 (destruct f as [|? f]; [discriminate|]). destruct f; [|discriminate].
    rewrite Forall_forall in Hr, Hf. unfold A_ctx. cbn [nth] in Hn. subst n.
    cbn [app map seq nth firstn repeat].
    repeat (constructor; [cbn [cell_ok nth]; first [reflexivity | apply Hr; cbn; tauto | apply Hf; cbn; tauto]|]). constructor.
  - constructor.
  - apply state_cells_iff; [exact Hs|reflexivity].
  - reflexivity.
Qed.

(** For every state, whatever the registers and flags contain: the function
    returns with the state permuted, the stack pointer and the registers r2
    to r17, r28, r29 as before, and r1 zero. *)
Theorem avr_P_ok n : In n [12; 8; 6] -> forall s r f, length s = 40%nat ->
  length r = 32%nat -> Forall (fits 8) r -> nth 22 r 0 = n -> length f = 3%nat -> Forall (fits 8) f ->
  exists M, avr_call r f s = Some M /\
    map n2b (obj M) = p (N.to_nat n) s /\ obj M = map b2n (p (N.to_nat n) s) /\ stk M = [] /\ base M = avr_addr r /\
    (forall i, (2 <= i <= 17 \/ i = 28 \/ i = 29)%nat -> nth i (regs M) 0 = nth i r 0) /\ nth 1 (regs M) 0 = 0.
Proof.
  intros Hn s r f Hls Hl Hr Hnr Hlf Hf.
  set (q := state_of_bytes s). assert (Wq : wf q) by apply wf_state_of_bytes.
  assert (Es : s = bytes_of_state q) by (symmetry; apply bytes_of_state_of_bytes, Hls).
  pose proof (A_ctx_ok r Hl Hr) as C.
  pose proof (A_entry_ok n q r f Wq Hl Hr Hnr Hlf Hf) as L0. rewrite <- Es in L0.
  destruct (check_sound _ _ _ _ _ _ _ (avr_pre_ok n Hn) C _ _ L0) as (M1 & E1 & L1). cbn [s_of] in L1.
  destruct (iters_sound 8 _ 40 _ _ _ _ C _ q _ (avr_iters_ok n Hn) L1) as (M2 & E2 & L2).
  rewrite s_chain_steps in L2 by (apply nr_le, Hn). rewrite (avr_last n Hn) in L2.
  destruct (check_sound _ _ _ _ _ _ _ (avr_post_ok n Hn) C _ _ L2) as (M3 & E3 & [R T O B]). cbn [s_of] in R, T, O.
  exists M3. split.
  - unfold avr_call. eapply run_mono.
    + unfold avr_P_prog. eapply run_app; [|exact E1]. eapply run_app; [exact E3|exact E2].
    + unfold steps. rewrite map_length, seq_length. pose proof (nr_le n Hn). unfold AFUEL. lia.
  - assert (Wp : wf (perm (N.to_nat n) q)) by (apply wf_perm, Wq).
    cbn [l_obj A_exit] in O. apply state_cells_iff in O; [|exact Wp].
    assert (O' : obj M3 = map b2n (p (N.to_nat n) s)) by exact O.
    split; [rewrite O', map_map; rewrite (map_ext _ (fun x => x)) by apply n2b_b2n; apply map_id|].
    split; [exact O'|]. split; [inversion T; reflexivity|]. split; [rewrite B; reflexivity|].
    clear - R Hl. unfold A_exit in R. cbn [l_regs] in R.
    do 32 (destruct r as [|? r]; [discriminate|]). destruct r; [|discriminate].
    cbn [app map seq repeat] in R. unfold A_ctx in R. cbn [app nth firstn repeat] in R.
    do 35 (match type of R with Forall2 _ _ (_ :: _) => apply F2_cons in R; let v := fresh "v" in let r := fresh "r" in let C := fresh "C" in destruct R as (v & r & -> & C & R) end).
    inversion R; subst. cbn [cell_ok nth] in *. subst. split; [|reflexivity].
    intros i Hi. assert (D : In i [2;3;4;5;6;7;8;9;10;11;12;13;14;15;16;17;28;29]%nat) by (cbn [In]; lia).
    clear Hi. cbn [In] in D. repeat (destruct D as [<-|D]; [reflexivity|]). destruct D.
Qed.
Lemma avr_P_leak n : In n [12; 8; 6] -> forall s s' r r' f f', length s = 40%nat -> length s' = 40%nat ->
  length r = 32%nat -> length r' = 32%nat -> Forall (fits 8) r -> Forall (fits 8) r' -> nth 22 r 0 = n -> nth 22 r' 0 = n ->
  length f = 3%nat -> length f' = 3%nat -> Forall (fits 8) f -> Forall (fits 8) f' ->
  run_leak AFUEL avr_P_prog (avr_start r f s) = run_leak AFUEL avr_P_prog (avr_start r' f' s').
Proof.
  intros Hn s s' r r' f f' Hls Hls' Hl Hl' Hr Hr' Hnr Hnr' Hlf Hlf' Hf Hf'.
  pose proof (A_ctx_ok r Hl Hr) as C. pose proof (A_ctx_ok r' Hl' Hr') as C'.
  pose proof (A_entry_ok n _ r f (wf_state_of_bytes s) Hl Hr Hnr Hlf Hf) as L0. rewrite bytes_of_state_of_bytes in L0 by exact Hls.
  pose proof (A_entry_ok n _ r' f' (wf_state_of_bytes s') Hl' Hr' Hnr' Hlf' Hf') as L0'. rewrite bytes_of_state_of_bytes in L0' by exact Hls'.
  destruct (check_sound _ _ _ _ _ _ _ (avr_pre_ok n Hn) C _ _ L0) as (M1 & E1 & L1). cbn [s_of] in L1.
  destruct (check_sound _ _ _ _ _ _ _ (avr_pre_ok n Hn) C' _ _ L0') as (M1' & E1' & L1'). cbn [s_of] in L1'.
  pose proof (check_leak _ _ _ _ _ _ _ _ (avr_pre_ok n Hn) C C' _ _ _ _ L0 L0') as K1.
  destruct (iters_sound 8 _ 40 _ _ _ _ C _ _ _ (avr_iters_ok n Hn) L1) as (M2 & E2 & L2).
  destruct (iters_sound 8 _ 40 _ _ _ _ C' _ _ _ (avr_iters_ok n Hn) L1') as (M2' & E2' & L2').
  pose proof (iters_leak 8 _ _ 40 _ _ _ _ C C' _ _ _ _ _ (avr_iters_ok n Hn) L1 L1') as K2.
  rewrite s_chain_steps in L2, L2' by (apply nr_le, Hn). rewrite (avr_last n Hn) in L2, L2'.
  destruct (check_sound _ _ _ _ _ _ _ (avr_post_ok n Hn) C _ _ L2) as (M3 & E3 & _).
  destruct (check_sound _ _ _ _ _ _ _ (avr_post_ok n Hn) C' _ _ L2') as (M3' & E3' & _).
  pose proof (check_leak _ _ _ _ _ _ _ _ (avr_post_ok n Hn) C C' _ _ _ _ L2 L2') as K3.
  pose proof (run_app _ _ _ _ E3 _ _ _ E2) as E23. pose proof (run_app _ _ _ _ E3' _ _ _ E2') as E23'.
  pose proof (run_app _ _ _ _ E23 _ _ _ E1) as E. pose proof (run_app _ _ _ _ E23' _ _ _ E1') as E'.
  assert (Hf2 : (40 + (40 + length (steps (N.to_nat n) (A_loop n)) + 1 + 40) <= AFUEL)%nat).
  { unfold steps. rewrite map_length, seq_length. pose proof (nr_le n Hn). unfold AFUEL. lia. }
  unfold avr_start, avr_P_prog.
  rewrite (run_leak_mono _ _ _ _ E _ Hf2), (run_leak_mono _ _ _ _ E' _ Hf2).
  rewrite (run_leak_app _ _ _ _ E23 _ _ _ E1), (run_leak_app _ _ _ _ E23' _ _ _ E1').
  rewrite (run_leak_app _ _ _ _ E3 _ _ _ E2), (run_leak_app _ _ _ _ E3' _ _ _ E2').
  rewrite K1, K2, K3. reflexivity.
Qed.
Lemma avr_regs_ok n : In n [12; 8; 6] -> length (avr_regs n) = 32%nat /\ Forall (fits 8) (avr_regs n) /\ nth 22 (avr_regs n) 0 = n.
Proof. intros H. cbn [In] in H. destruct H as [<-|[<-|[<-|[]]]]; repeat split; repeat constructor. Qed.
Lemma avr_P_spec n : In n [12; 8; 6] -> forall s, length s = 40%nat -> avr_P n s = p (N.to_nat n) s.
Proof.
  intros Hn s Hs. destruct (avr_regs_ok n Hn) as (Hl & Hr & Hq).
  destruct (avr_P_ok n Hn s (avr_regs n) [0; 0; 0] Hs Hl Hr Hq eq_refl ltac:(repeat constructor)) as (M & E & P & _).
  unfold avr_P. rewrite E. exact P.
Qed.
Lemma avr_P_conforming : conforming avr_P.
Proof. intros s Hs. split; [apply (avr_P_spec 12)|apply (avr_P_spec 8)]; cbn; auto. Qed.
