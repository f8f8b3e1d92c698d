(** * PropertiesAsm.v -- the assembly permutations (C42).

    Asm.v gives the meaning of instructions, AsmArm.v and ArmCode.v the ARM
    code of /repo/src as data; an asm statement has the ten 32-bit halves of
    the state and five scratch operands in registers. *)
From Coq Require Import Bool Arith NArith ZArith List Lia ZifyBool ZifyNat ZifyN.
From Verif Require Import Words WordFacts Spec SpecFacts CMem ModelRef RoundFacts StateRep ModelCommon ModelWords WordLaws WordInst WordInstBi
  Asm Poly AsmArm ArmCode AsmRound ModelArm AsmArmFacts.
Import ListNotations.
Local Open Scope N_scope.

(** ** Specification *)

(** How a state in memory stands for a state of the standard: as it is, or
    with the even bits of every word in its lower half and the odd bits in
    its upper half. *)
Inductive rep_kind := Plain | Interleaved.
Definition interleaved_bit (x : N) (i : N) : bool := N.testbit x (if N.even i then i / 2 else 32 + i / 2).
Definition stands_for (k : rep_kind) (x v : N) : Prop :=
  forall i, i < 64 -> N.testbit v i = match k with Plain => N.testbit x i | Interleaved => interleaved_bit x i end.
Definition state_for (k : rep_kind) (x v : state) : Prop :=
  stands_for k (X0 x) (X0 v) /\ stands_for k (X1 x) (X1 v) /\ stands_for k (X2 x) (X2 v) /\
  stands_for k (X3 x) (X3 v) /\ stands_for k (X4 x) (X4 v).

(** An asm statement of the library: its code; for each scratch operand the
    value the C code gives to it, [None] if it is not initialised; in which
    order the operands hold the five words of the result; the
    representation; the function it is to compute. *)
Record statement := Stmt {
  st_code : list stm;
  st_scratch : list (option N);
  st_words : state -> state;
  st_rep : rep_kind;
  st_fun : state -> state
}.
Definition in_order (s : state) : state := s.
(** ROUND5: word i of the result is in operand (i + 2) mod 5. *)
Definition two_on (s : state) : state := St (X2 s) (X3 s) (X4 s) (X0 s) (X1 s).

Definition free : list (option N) := [None; None; None; None; None].
Definition round_nr (k : N) (s : state) : state := round s (nth (N.to_nat (4 + k)) round_constants 0).
Definition round_ks : list N := [0; 1; 2; 3; 4; 5; 6; 7; 8; 9; 10; 11].

(** The statements of armv6, armv7m (64-bit words), of bi32_armv6 and
    bi32_armv7m: one for every round constant. *)
Definition round_statements : list statement :=
  map (fun k => Stmt [Ops (arm_ops [] (armv6_ROUND5 (trunc 32 (w64_RCk k))))] free two_on Plain (round_nr k)) round_ks ++
  map (fun k => Stmt [Ops (arm_ops [] (armv7m_ROUND5 (trunc 32 (w64_RCk k))))] free two_on Plain (round_nr k)) round_ks ++
  map (fun k => Stmt [Ops (arm_ops [] (bi32_armv6_ROUND5 (trunc 32 (bi32_RCk k)) (trunc 32 (shrw (bi32_RCk k) 32))))]
                     free two_on Interleaved (round_nr k)) round_ks ++
  map (fun k => Stmt [Ops (arm_ops [] (bi32_armv7m_ROUND5 (trunc 32 (bi32_RCk k)) (trunc 32 (shrw (bi32_RCk k) 32))))]
                     free two_on Interleaved (round_nr k)) round_ks ++
  map (fun k => Stmt [Ops (arm_ops [] (bi32_armv7m_ROUND (trunc 32 (bi32_RCk k)) (trunc 32 (shrw (bi32_RCk k) 32))))]
                     free in_order Interleaved (round_nr k)) round_ks.
(** The loops of armv7m_small and armv7m_lowsize, armv6_lowsize, armv6m,
    bi32_armv7m_small and bi32_armv6m: a whole permutation each. *)
Definition loop_statements : list statement :=
  map (fun n => Stmt (loop_prog armv7m_ROUND_LOOP rC) [None; None; None; Some (start64 n); None] in_order Plain (perm (N.to_nat n))) [12; 8; 6] ++
  map (fun n => Stmt (loop_prog armv6_ROUND_LOOP rC) [None; None; None; Some (start64 n); None] in_order Plain (perm (N.to_nat n))) [12; 8; 6] ++
  map (fun n => Stmt (loop_prog armv6m_ROUND_LOOP tmp1) [None; Some (start64 n); None; None; None] in_order Plain (perm (N.to_nat n))) [12; 8; 6] ++
  map (fun n => Stmt (loop_prog_bi bi32_armv7m_ROUND_LOOP rC rE) [None; None; None; Some (start_bi n); Some 24] in_order Interleaved (perm (N.to_nat n))) [12; 8; 6] ++
  map (fun n => Stmt (loop_prog_bi bi32_armv6m_ROUND_LOOP tmp1 tmp0) [Some 24; Some (start_bi n); None; None; None] in_order Interleaved (perm (N.to_nat n))) [12; 8; 6].

(** Scratch contents that meet the initialisation. *)
Definition meets (t : list N) (sc : list (option N)) : Prop :=
  Forall2 (fun v o => match o with Some c => v = c | None => v < 2 ^ 32 end) t sc.
(** The machine before the statement. *)
Definition before (s : state) (t : list N) : mach := Mach (halves LE s ++ t) [] 0 [].

(** The statement terminates, leaves the stack as it was and computes its
    function, whatever the uninitialised scratch operands contain. *)
Definition computes (S : statement) : Prop :=
  forall s v t, wf s -> wf v -> state_for (st_rep S) s v -> meets t (st_scratch S) ->
  exists M, run FUEL (st_code S) (before s t) = Some M /\ stk M = [] /\
    wf (st_words S (unhalves LE (regs M))) /\
    state_for (st_rep S) (st_words S (unhalves LE (regs M))) (st_fun S v).
(** Addresses of table reads, amounts of rotations and branches are the same
    for every state and whatever the scratch operands contain. *)
Definition silent (S : statement) : Prop :=
  forall s s' t t', wf s -> wf s' -> meets t (st_scratch S) -> meets t' (st_scratch S) ->
  run_leak FUEL (st_code S) (before s t) = run_leak FUEL (st_code S) (before s' t').

(** ** Facts *)

Definition pi_of (k : rep_kind) : N -> N := match k with Plain => pi64 | Interleaved => pi32 end.
Definition rho_of (k : rep_kind) : N -> N := match k with Plain => pi64 | Interleaved => inv32 end.
Lemma inv_of k : forall i, i < 64 -> pi_of k i < 64 /\ rho_of k i < 64 /\ pi_of k (rho_of k i) = i /\ rho_of k (pi_of k i) = i.
Proof. destruct k; [exact inv64_ok|exact inv32_ok]. Qed.
Definition view (k : rep_kind) (s : state) : state := cs (bitperm (pi_of k)) s.
Lemma stands_eq k x v : fits 64 v -> stands_for k x v <-> v = bitperm (pi_of k) x.
Proof.
  intros F.
  assert (E : forall i, i < 64 -> match k with Plain => N.testbit x i | Interleaved => interleaved_bit x i end = N.testbit x (pi_of k i)).
  { intros i Hi. destruct k; cbn [pi_of]; [reflexivity|]. unfold interleaved_bit, pi32. f_equal.
    pose proof (N.div_mod i 2 ltac:(lia)). pose proof (N.mod_lt i 2 ltac:(lia)).
    destruct (N.even i) eqn:Ev.
    - apply N.even_spec in Ev. destruct Ev as [j ->]. rewrite (N.mul_comm 2 j), N.mod_mul by lia. lia.
    - rewrite <- N.negb_odd in Ev. apply negb_false_iff, N.odd_spec in Ev. destruct Ev as [j ->].
      replace ((2 * j + 1) mod 2) with 1; [lia|]. apply N.mod_unique with j; lia. }
  split.
  - intros H. apply N.bits_inj. intros i. rewrite testbit_bitperm.
    destruct (N.ltb_spec i 64) as [Hi|Hi]; cbn [andb].
    + rewrite (H i Hi). apply E, Hi.
    + apply (fits_bit_high 64); assumption.
  - intros -> i Hi. rewrite testbit_bitperm. replace (i <? 64) with true by lia. symmetry. apply E, Hi.
Qed.
Lemma state_for_view k x v : wf v -> state_for k x v <-> v = view k x.
Proof.
  destruct x as [x0 x1 x2 x3 x4], v as [v0 v1 v2 v3 v4]. intros (F0 & F1 & F2 & F3 & F4). cbn [X0 X1 X2 X3 X4] in *.
  unfold state_for, view, cs. cbn [X0 X1 X2 X3 X4]. rewrite !stands_eq by assumption. split.
  - intros (-> & -> & -> & -> & ->). reflexivity.
  - intros H. injection H as -> -> -> -> ->. auto.
Qed.

Definition cells_of (sc : list (option N)) : list cell := map (fun o => match o with Some c => K c | None => J end) sc.
Lemma meets_ok t sc s : meets t sc -> Forall2 (cell_ok 32 s ctx0) t (cells_of sc).
Proof.
  induction 1 as [|v o t sc H _ IH]; [constructor|]. constructor; [|exact IH].
  destruct o; cbn [cell_ok]; [exact H|]. unfold fits. exact H.
Qed.

(** From the final layout to the result. *)
Lemma result_ok k q M ks tl words : wf q -> length ks = 5%nat -> lay_ok 32 ctx0 q M (lay5 (rho_of k) ks tl) ->
  (forall x, words (pick ks x) = x) -> (forall x, wf x -> wf (words x)) ->
  (forall x, view k (words x) = words (view k x)) ->
  stk M = [] /\ wf (words (unhalves LE (regs M))) /\ state_for k (words (unhalves LE (regs M))) q.
Proof.
  intros Wq Hl [R T _ _] Hw Wfw Hv. split; [inversion T; reflexivity|].
  destruct (unhalves_ok (pi_of k) (rho_of k) (inv_of k) q ctx0 (regs M) ks tl Wq Hl R) as [W E].
  split; [apply Wfw, W|]. apply state_for_view; [exact Wq|]. rewrite Hv. unfold view. rewrite E, Hw. reflexivity.
Qed.
Lemma wf_view k s : wf (view k s).
Proof. apply (wf_cs (pi_of k)). Qed.

Lemma round_good code sc k n c ks words : nth (N.to_nat (4 + n)) round_constants 0 = c ->
  check 32 9 code (Some c) (lay5 (rho_of k) straight (cells_of sc)) (lay5 (rho_of k) ks JJ) = true ->
  length ks = 5%nat -> (forall x, words (pick ks x) = x) -> (forall x, wf x -> wf (words x)) ->
  (forall x, view k (words x) = words (view k x)) ->
  computes (Stmt code sc words k (round_nr n)) /\ silent (Stmt code sc words k (round_nr n)).
Proof.
  intros Hc H Hl Hw Wfw Hv. split.
  - intros s v t Hs Wv Hv' Ht. cbn [st_code st_rep st_scratch st_words st_fun] in *.
    apply state_for_view in Hv'; [|exact Wv]. subst v.
    destruct (check_sound _ _ _ _ _ _ ctx0 H ctx0_ok (view k s) _ (lay_start (pi_of k) (rho_of k) (inv_of k) s t _ Hs (meets_ok t sc _ Ht)))
      as (M & E & L).
    exists M. split; [apply (run_mono 9); [exact E|unfold FUEL; lia]|].
    cbn [s_of] in L. rewrite <- Hc in L.
    exact (result_ok k (round_nr n (view k s)) M ks JJ words (wf_round _ _) Hl L Hw Wfw Hv).
  - intros s s' t t' Hs Hs' Ht Ht'. cbn [st_code st_scratch] in *.
    pose proof (lay_start (pi_of k) (rho_of k) (inv_of k) s t _ Hs (meets_ok t sc _ Ht)) as L.
    pose proof (lay_start (pi_of k) (rho_of k) (inv_of k) s' t' _ Hs' (meets_ok t' sc _ Ht')) as L'.
    destruct (check_sound _ _ _ _ _ _ ctx0 H ctx0_ok _ _ L) as (M & E & _).
    destruct (check_sound _ _ _ _ _ _ ctx0 H ctx0_ok _ _ L') as (M' & E' & _).
    unfold before. rewrite (run_leak_mono _ _ _ _ E FUEL), (run_leak_mono _ _ _ _ E' FUEL) by (unfold FUEL; lia).
    exact (check_leak _ _ _ _ _ _ ctx0 ctx0 H ctx0_ok ctx0_ok _ _ _ _ L L').
Qed.

Lemma wf_perm n s : wf s -> wf (perm n s).
Proof. intros H. unfold perm. revert s H. induction (skipn _ _) as [|c l IH]; intros s H; [exact H|]. cbn [fold_left]. apply IH, wf_round. Qed.
Lemma loop_good code tab a b cells sc k n : In n [12; 8; 6] ->
  check_loop (rho_of k) code tab a b (cells n) (N.to_nat n) = true -> cells n 0 = cells_of sc ->
  computes (Stmt [DoWhile [Ops (arm_ops tab code)] a b] sc in_order k (perm (N.to_nat n))) /\
  silent (Stmt [DoWhile [Ops (arm_ops tab code)] a b] sc in_order k (perm (N.to_nat n))).
Proof.
  intros Hn H Hcells. unfold check_loop, lay_at at 1 in H. rewrite Hcells in H.
  assert (Hfuel : (9 + length (steps (N.to_nat n) (lay_at (rho_of k) (cells n))) + 1 <= FUEL)%nat).
  { unfold steps. rewrite map_length, seq_length. pose proof (nr_le n Hn). unfold FUEL. lia. }
  split.
  - intros s v t Hs Wv Hv' Ht. cbn [st_code st_rep st_scratch st_words st_fun] in *.
    apply state_for_view in Hv'; [|exact Wv]. subst v.
    destruct (iters_sound _ ctx0 _ _ _ _ _ ctx0_ok _ (view k s) _ H (lay_start (pi_of k) (rho_of k) (inv_of k) s t _ Hs (meets_ok t sc _ Ht)))
      as (M & E & L).
    rewrite s_chain_steps in L by (apply nr_le, Hn).
    destruct (last_lay_steps (rho_of k) (cells n) (N.to_nat n)) as [j Hj].
    unfold lay_at at 1 in Hj. rewrite Hcells in Hj. rewrite Hj in L.
    exists M. split; [apply (run_mono _ _ _ _ E), Hfuel|].
    refine (result_ok k _ M straight _ in_order (wf_perm _ _ (wf_view k s)) eq_refl L _ _ _).
    + exact pick_straight.
    + intros x Hx. exact Hx.
    + reflexivity.
  - intros s s' t t' Hs Hs' Ht Ht'. cbn [st_code st_scratch] in *.
    pose proof (lay_start (pi_of k) (rho_of k) (inv_of k) s t _ Hs (meets_ok t sc _ Ht)) as L.
    pose proof (lay_start (pi_of k) (rho_of k) (inv_of k) s' t' _ Hs' (meets_ok t' sc _ Ht')) as L'.
    destruct (iters_sound _ ctx0 _ _ _ _ _ ctx0_ok _ _ _ H L) as (M & E & _).
    destruct (iters_sound _ ctx0 _ _ _ _ _ ctx0_ok _ _ _ H L') as (M' & E' & _).
    unfold before. rewrite (run_leak_mono _ _ _ _ E FUEL Hfuel), (run_leak_mono _ _ _ _ E' FUEL Hfuel).
    exact (iters_leak _ ctx0 ctx0 _ _ _ _ _ ctx0_ok ctx0_ok _ _ _ _ _ H L L').
Qed.

Lemma two_on_pick x : two_on (pick turned x) = x.
Proof. destruct x; reflexivity. Qed.
Lemma wf_two_on x : wf x -> wf (two_on x).
Proof. destruct x. unfold wf, two_on. cbn. tauto. Qed.
Lemma view_two_on k x : view k (two_on x) = two_on (view k x).
Proof. reflexivity. Qed.

(** One family of rounds. *)
Lemma rounds_good (code : N -> list arm) RC k ks words : check_rounds (rho_of k) code ks (RCs RC) = true ->
  length ks = 5%nat -> (forall x, words (pick ks x) = x) -> (forall x, wf x -> wf (words x)) ->
  (forall x, view k (words x) = words (view k x)) ->
  forall S, In S (map (fun j => Stmt [Ops (arm_ops [] (code (RC j)))] free words k (round_nr j)) round_ks) ->
  computes S /\ silent S.
Proof.
  intros H Hl Hw Wfw Hv S HS. apply in_map_iff in HS. destruct HS as (j & <- & Hj).
  unfold check_rounds in H. rewrite forallb_forall in H.
  specialize (H (RC j, nth (N.to_nat (4 + j)) round_constants 0)). cbn [fst snd] in H.
  apply (round_good _ free k j _ ks words eq_refl); auto. apply H. unfold RCs.
  apply in_map_iff. exists j. split; [reflexivity|exact Hj].
Qed.

Lemma all_good S : In S (round_statements ++ loop_statements) -> computes S /\ silent S.
Proof.
  intros H. unfold round_statements, loop_statements in H. rewrite !in_app_iff in H.
  destruct H as [[H|[H|[H|[H|H]]]]|[H|[H|[H|[H|H]]]]].
  - exact (rounds_good (fun c => armv6_ROUND5 (trunc 32 c)) w64_RCk Plain turned two_on armv6_R5 eq_refl two_on_pick wf_two_on (view_two_on _) S H).
  - exact (rounds_good (fun c => armv7m_ROUND5 (trunc 32 c)) w64_RCk Plain turned two_on armv7m_R5 eq_refl two_on_pick wf_two_on (view_two_on _) S H).
  - exact (rounds_good (bi_code bi32_armv6_ROUND5) bi32_RCk Interleaved turned two_on bi32_armv6_R5 eq_refl two_on_pick wf_two_on (view_two_on _) S H).
  - exact (rounds_good (bi_code bi32_armv7m_ROUND5) bi32_RCk Interleaved turned two_on bi32_armv7m_R5 eq_refl two_on_pick wf_two_on (view_two_on _) S H).
  - exact (rounds_good (bi_code bi32_armv7m_ROUND) bi32_RCk Interleaved straight in_order bi32_armv7m_R eq_refl pick_straight (fun x Hx => Hx) (fun x => eq_refl) S H).
  - apply in_map_iff in H. destruct H as (n & <- & Hn).
    apply (loop_good _ _ _ _ c64 _ Plain n Hn (armv7m_loop n Hn)). cbn [In] in Hn. destruct Hn as [<-|[<-|[<-|[]]]]; reflexivity.
  - apply in_map_iff in H. destruct H as (n & <- & Hn).
    apply (loop_good _ _ _ _ c64 _ Plain n Hn (armv6_loop n Hn)). cbn [In] in Hn. destruct Hn as [<-|[<-|[<-|[]]]]; reflexivity.
  - apply in_map_iff in H. destruct H as (n & <- & Hn).
    apply (loop_good _ _ _ _ c64m _ Plain n Hn (armv6m_loop n Hn)). cbn [In] in Hn. destruct Hn as [<-|[<-|[<-|[]]]]; reflexivity.
  - apply in_map_iff in H. destruct H as (n & <- & Hn).
    apply (loop_good _ _ _ _ cbi _ Interleaved n Hn (bi32_armv7m_loop n Hn)). cbn [In] in Hn. destruct Hn as [<-|[<-|[<-|[]]]]; reflexivity.
  - apply in_map_iff in H. destruct H as (n & <- & Hn).
    apply (loop_good _ _ _ _ cbim _ Interleaved n Hn (bi32_armv6m_loop n Hn)). cbn [In] in Hn. destruct Hn as [<-|[<-|[<-|[]]]]; reflexivity.
Qed.

(** The call of the function of permutations.S: observations. *)
Lemma armv6m_S_leak n : In n [12; 8; 6] -> forall s s' addr addr' c c' u u',
  wf s -> wf s' -> fits 32 addr -> fits 32 addr' -> length c = 14%nat -> length c' = 14%nat -> Forall (fits 32) c -> Forall (fits 32) c' ->
  length u = 3%nat -> length u' = 3%nat -> Forall (fits 32) u -> Forall (fits 32) u' ->
  run_leak FUEL armv6m_S_prog (Mach (addr :: n :: c ++ u) [] addr (halves LE s)) =
  run_leak FUEL armv6m_S_prog (Mach (addr' :: n :: c' ++ u') [] addr' (halves LE s')).
Proof.
  intros Hn s s' addr addr' c c' u u' Hs Hs' Ha Ha' Hl Hl' Hc Hc' Hlu Hlu' Hu Hu'.
  pose proof (S_ctx_ok addr n c Hn Ha Hl Hc) as C. pose proof (S_ctx_ok addr' n c' Hn Ha' Hl' Hc') as C'.
  pose proof (S_entry_ok n s addr c u Hs Hl Hc Hlu Hu) as L0.
  pose proof (S_entry_ok n s' addr' c' u' Hs' Hl' Hc' Hlu' Hu') as L0'.
  destruct (check_sound _ _ _ _ _ _ _ (S_prologue_ok n Hn) C _ _ L0) as (M1 & E1 & L1). cbn [s_of] in L1.
  destruct (check_sound _ _ _ _ _ _ _ (S_prologue_ok n Hn) C' _ _ L0') as (M1' & E1' & L1'). cbn [s_of] in L1'.
  pose proof (check_leak _ _ _ _ _ _ _ _ (S_prologue_ok n Hn) C C' _ _ _ _ L0 L0') as K1.
  destruct (iters_sound 32 _ 9 _ _ _ _ C _ s _ (S_iters_ok n Hn) L1) as (M2 & E2 & L2).
  destruct (iters_sound 32 _ 9 _ _ _ _ C' _ s' _ (S_iters_ok n Hn) L1') as (M2' & E2' & L2').
  pose proof (iters_leak 32 _ _ 9 _ _ _ _ C C' _ _ _ _ _ (S_iters_ok n Hn) L1 L1') as K2.
  rewrite s_chain_steps in L2, L2' by (apply nr_le, Hn). rewrite (S_last n Hn) in L2, L2'.
  destruct (check_sound _ _ _ _ _ _ _ (S_epilogue_ok n Hn) C _ _ L2) as (M3 & E3 & _).
  destruct (check_sound _ _ _ _ _ _ _ (S_epilogue_ok n Hn) C' _ _ L2') as (M3' & E3' & _).
  pose proof (check_leak _ _ _ _ _ _ _ _ (S_epilogue_ok n Hn) C C' _ _ _ _ L2 L2') as K3.
  change armv6m_S_prog with ([Ops (arm_ops [] armv6m_S_prologue)] ++ ([DoWhile [Ops (arm_ops [] armv6m_S_body)] (Reg r1) (Cst 60)] ++ [Ops (arm_ops [] armv6m_S_epilogue)])).
  pose proof (run_app _ _ _ _ E3 _ _ _ E2) as E23. pose proof (run_app _ _ _ _ E3' _ _ _ E2') as E23'.
  pose proof (run_app _ _ _ _ E23 _ _ _ E1) as E. pose proof (run_app _ _ _ _ E23' _ _ _ E1') as E'.
  assert (Hf : (9 + (9 + length (steps (N.to_nat n) (S_loop n)) + 1 + 9) <= FUEL)%nat).
  { unfold steps. rewrite map_length, seq_length. pose proof (nr_le n Hn). unfold FUEL. lia. }
  rewrite (run_leak_mono _ _ _ _ E _ Hf), (run_leak_mono _ _ _ _ E' _ Hf).
  rewrite (run_leak_app _ _ _ _ E23 _ _ _ E1), (run_leak_app _ _ _ _ E23' _ _ _ E1').
  rewrite (run_leak_app _ _ _ _ E3 _ _ _ E2), (run_leak_app _ _ _ _ E3' _ _ _ E2').
  rewrite K1, K2, K3. reflexivity.
Qed.

(** ** C42 *)

(** Every asm statement of the ARM directories computes a round, or a
    permutation, of the standard. *)
Theorem C42_asm_statements_compute_ascon_p : forall S, In S (round_statements ++ loop_statements) -> computes S.
Proof. intros S H. apply (all_good S H). Qed.

(** No asm statement lets an observer of addresses and branches see the state. *)
Theorem C42_asm_statements_constant_time : forall S, In S (round_statements ++ loop_statements) -> silent S.
Proof. intros S H. apply (all_good S H). Qed.

(** The function P of armv6m_lowsize/permutations.S, called with the address
    of the state in r0 and the number of rounds in r1, whatever the other
    registers ([c]) and the memory below the stack ([u]) contain: it returns to the
    address in lr with the state permuted in place, the stack pointer and
    the registers r4 to r11 (callee-saved) as they were. *)
Theorem C42_function_follows_calling_convention : forall n, In n [12; 8; 6] -> forall s addr c u,
  wf s -> addr < 2 ^ 32 -> length c = 14%nat -> Forall (fun v => v < 2 ^ 32) c ->
  length u = 3%nat -> Forall (fun v => v < 2 ^ 32) u ->
  exists M, run FUEL armv6m_S_prog (Mach (addr :: n :: c ++ u) [] addr (halves LE s)) = Some M /\
    unhalves LE (obj M) = perm (N.to_nat n) s /\ length (obj M) = 10%nat /\
    stk M = [] /\ base M = addr /\
    (forall i, (4 <= i <= 11)%nat -> nth i (regs M) 0 = nth i (addr :: n :: c) 0) /\
    nth 15 (regs M) 0 = nth 14 (addr :: n :: c) 0.
Proof.
  intros n Hn s addr c u Hs Ha Hl Hc Hlu Hu.
  destruct (armv6m_S_ok n Hn s addr c u Hs Ha Hl Hc Hlu Hu) as (M & E & _ & P & L & T & B & R & Q).
  exists M. split; [exact E|]. split; [exact P|]. split; [exact L|]. split; [exact T|]. split; [exact B|].
  split; [|exact Q]. intros i Hi. rewrite (R i Hi). destruct i as [|[|i]]; [lia|lia|]. cbn [nth]. f_equal. lia.
Qed.
Theorem C42_function_constant_time : forall n, In n [12; 8; 6] -> forall s s' addr addr' c c' u u',
  wf s -> wf s' -> addr < 2 ^ 32 -> addr' < 2 ^ 32 -> length c = 14%nat -> length c' = 14%nat ->
  Forall (fun v => v < 2 ^ 32) c -> Forall (fun v => v < 2 ^ 32) c' ->
  length u = 3%nat -> length u' = 3%nat -> Forall (fun v => v < 2 ^ 32) u -> Forall (fun v => v < 2 ^ 32) u' ->
  run_leak FUEL armv6m_S_prog (Mach (addr :: n :: c ++ u) [] addr (halves LE s)) =
  run_leak FUEL armv6m_S_prog (Mach (addr' :: n :: c' ++ u') [] addr' (halves LE s')).
Proof. intros n Hn. exact (armv6m_S_leak n Hn). Qed.

(** The hypotheses are met: an initial state of the hash, odd scratch values;
    the observations of a loop of 12 rounds are its branches. *)
Definition demo_state : state := St 0x0000080100cc0002 0 0x0123456789abcdef 0 0xffffffffffffffff.
Example C42_cases :
  length (round_statements ++ loop_statements) = 75%nat /\
  wf demo_state /\ state_for Plain demo_state demo_state /\
  meets [7; 8; 9; start64 12; 0xffffffff] [None; None; None; Some (start64 12); None] /\
  run_leak FUEL (loop_prog armv7m_ROUND_LOOP rC) (before demo_state [7; 8; 9; start64 12; 0xffffffff])
    = [0; 0; 0; 0; 0; 0; 0; 0; 0; 0; 0; 1].
Proof.
  split; [reflexivity|]. split; [repeat split|]. split; [repeat split; intros i _; reflexivity|].
  split; [repeat constructor|vm_compute; reflexivity].
Qed.

Print Assumptions C42_asm_statements_compute_ascon_p.
Print Assumptions C42_asm_statements_constant_time.
Print Assumptions C42_function_follows_calling_convention.
Print Assumptions C42_function_constant_time.
