(** * RvCT.v -- two runs of the RISC-V code show the same branches and
    addresses: a relational logic for the machine of ModelRv.v. *)
From Coq Require Import Bool Arith NArith ZArith List Lia Init.Byte Strings.Byte ZifyBool ZifyNat ZifyN.
From Verif Require Import Words WordFacts Asm ModelRv CMem Contract CMemFacts RvFacts RvRound.
Import ListNotations.
Local Open Scope N_scope.

(** ** Relations between two runs: equal registers [L]; the bytes [T] of both
    memories as in [Q]; [X] holds of the registers of the first run. *)
Definition eqon (L : list nat) (r1 r2 : regs) : Prop := forall i, memb i L = true -> r1 i = r2 i.
Definition meq (T : N -> Prop) (Q M1 M2 : mem) : Prop := forall a, T a -> rd M1 a = rd Q a /\ rd M2 a = rd Q a.
Definition rel := regs -> regs -> mem -> mem -> Prop.
Definition J (T : N -> Prop) (Q : mem) (L : list nat) (X : regs -> Prop) : rel := fun r1 r2 M1 M2 =>
  eqon L r1 r2 /\ meq T Q M1 M2 /\ X r1.
Definition two (P : rel) (f : code) (R : rel) : Prop := forall r1 r2 M1 M2 t1 t2 M1' M2' r1' r2',
  P r1 r2 M1 M2 -> f r1 M1 = Done t1 M1' r1' -> f r2 M2 = Done t2 M2' r2' -> t1 = t2 /\ R r1' r2' M1' M2'.

Lemma eqon_sub L L' r1 r2 : subl L' L = true -> eqon L r1 r2 -> eqon L' r1 r2.
Proof.
  intros H E i Hi. apply E. unfold subl in H. rewrite forallb_forall in H. apply H.
  unfold memb in Hi. apply existsb_exists in Hi. destruct Hi as (j & Hj & X). apply Nat.eqb_eq in X. subst. exact Hj.
Qed.
Lemma eqon_set L r1 r2 d v : eqon L r1 r2 -> eqon (d :: L) (setr r1 d v) (setr r2 d v).
Proof.
  intros E i Hi. unfold setr. destruct (Nat.eqb i d) eqn:D; [reflexivity|]. apply E.
  unfold memb in *. cbn [existsb] in Hi. rewrite D in Hi. exact Hi.
Qed.
Definition del (d : nat) (L : list nat) : list nat := filter (fun i => negb (Nat.eqb i d)) L.
Lemma memb_del i d L : memb i (del d L) = memb i L && negb (Nat.eqb i d).
Proof.
  unfold memb, del. induction L as [|x L IH]; [reflexivity|]. cbn [filter existsb].
  destruct (Nat.eqb_spec x d) as [D|D]; cbn [negb existsb]; rewrite IH;
    destruct (Nat.eqb_spec i x) as [E|E]; cbn [orb]; try reflexivity.
  - replace (Nat.eqb i d) with true by (symmetry; apply Nat.eqb_eq; congruence). rewrite andb_false_r. reflexivity.
  - replace (Nat.eqb i d) with false by (symmetry; apply Nat.eqb_neq; congruence). reflexivity.
Qed.
Lemma eqon_del L r1 r2 d v1 v2 : eqon L r1 r2 -> eqon (del d L) (setr r1 d v1) (setr r2 d v2).
Proof.
  intros E i Hi. rewrite memb_del in Hi. apply andb_prop in Hi. destruct Hi as [Hi Hd]. apply negb_true_iff in Hd.
  unfold setr. rewrite Hd. apply E, Hi.
Qed.

(** ** Straight-line code *)
Fixpoint rgs (t : wx) : list nat :=
  match t with
  | Reg i => [i]
  | Cst _ => []
  | Xor a b | And a b | Or a b | RorV _ a b | Add _ a b | Sub _ a b => rgs a ++ rgs b
  | Not _ a | Shl _ a _ | Shr a _ | Ror _ a _ => rgs a
  | Tab _ i => rgs i
  end.
Lemma subl_app a b L : subl (a ++ b) L = subl a L && subl b L.
Proof. unfold subl. apply forallb_app. Qed.
Lemma fev_eqon L r1 r2 t : eqon L r1 r2 -> subl (rgs t) L = true -> fev r1 t = fev r2 t.
Proof.
  intros E. induction t; cbn [rgs fev]; rewrite ?subl_app; intros H;
    repeat match goal with H : _ && _ = true |- _ => apply andb_prop in H; destruct H end;
    rewrite ?IHt1, ?IHt2, ?IHt by assumption; try reflexivity.
  apply E. unfold subl in H. cbn in H. rewrite andb_true_r in H. exact H.
Qed.
Definition dst (i : ins) : option nat :=
  match i with Op d _ | Fn d _ _ _ _ | Lw d _ _ | Lbu d _ _ | Lu d _ _ => Some d | _ => None end.
Definition dsts (l : list ins) : list nat := flat_map (fun i => match dst i with Some d => [d] | None => [] end) l.
(** [L]: registers equal in both runs; [W]: registers with the number of bytes
    from there on that may be written. *)
Definition store_ok (W : list (nat * N)) (b : nat) (n : N) : bool := existsb (fun w => Nat.eqb (fst w) b && (n <=? snd w)) W.
Definition set_public (d : nat) (p : bool) (L : list nat) : list nat := if p then d :: del d L else del d L.
Fixpoint ct (W : list (nat * N)) (L : list nat) (l : list ins) : option (list nat) :=
  match l with
  | [] => Some L
  | i :: l =>
    let W' := match dst i with Some d => filter (fun w => negb (Nat.eqb (fst w) d)) W | None => W end in
    match i with
    | Op d t => if reglt t then ct W' (set_public d (subl (rgs t) L) L) l else None
    | Fn d f a b c => ct W' (set_public d (memb a L && memb b L && memb c L) L) l
    | Lw d b o | Lbu d b o | Lu d b o => if memb b L then ct W' (del d L) l else None
    | Sw s b o | Su s b o => if memb b L && store_ok W b (o + 4) then ct W' L l else None
    | Sb s b o => if memb b L && store_ok W b (o + 1) then ct W' L l else None
    end
  end.
Definition safe (T : N -> Prop) (p n : N) : Prop := p + n < 2 ^ 32 /\ forall a, p <= a -> a < p + n -> ~ T a.
Definition safes (T : N -> Prop) (W : list (nat * N)) (r : regs) : Prop := forall b n, In (b, n) W -> safe T (r b) n.

Lemma bind_done {A B} (c : C A) (f : A -> C B) M t M' v : bind c f M = Done t M' v ->
  exists t1 M1 a t2, c M = Done t1 M1 a /\ f a M1 = Done t2 M' v /\ t = t1 ++ t2.
Proof.
  unfold bind. destruct (c M) as [t1 M1 a|]; [|discriminate]. destruct (f a M1) as [t2 M2 b|] eqn:E; [|discriminate].
  intros H. injection H as <- <- <-. exists t1, M1, a, t2. split; [reflexivity|split; [exact E|reflexivity]].
Qed.
Lemma ret_done {A} (v : A) M t M' v' : ret v M = Done t M' v' -> t = [] /\ M' = M /\ v' = v.
Proof. unfold ret. intros H. injection H as <- <- <-. repeat split. Qed.
Lemma in_done p n M t M' l : memcpy_in p n M = Done t M' l -> t = [ERead p n] /\ M' = M /\ read_bytes (N.to_nat n) M p = Some l.
Proof.
  unfold memcpy_in. destruct (p =? 0); [discriminate|]. destruct (2 ^ 64 <=? p + n); [discriminate|].
  destruct (read_bytes _ M p); [|discriminate]. intros H. injection H as <- <- <-. repeat split.
Qed.
Lemma out_done p l M t M' v : memcpy_out p l M = Done t M' v -> t = [EWrite p (len l)] /\ M' = write M p l.
Proof.
  unfold memcpy_out. destruct (p =? 0); [discriminate|]. destruct (2 ^ 64 <=? _); [discriminate|].
  destruct (all_writable _ M p); [|discriminate]. intros H. injection H as <- <-. split; reflexivity.
Qed.
Lemma step_done_ld d b o M r t M' r' : step (Lw d b o) r M = Done t M' r' ->
  t = [ERead (addr r b o) 4] /\ M' = M /\ exists l, read_bytes 4 M (addr r b o) = Some l /\ r' = setr r d (le_num l).
Proof.
  cbn [step]. destruct (aligned4 _); [|discriminate]. intros H.
  destruct (bind_done _ _ _ _ _ _ H) as (u1 & N1 & l & u2 & H1 & H2 & ->).
  destruct (in_done _ _ _ _ _ _ H1) as (-> & -> & E). destruct (ret_done _ _ _ _ _ H2) as (-> & -> & ->).
  split; [reflexivity|split; [reflexivity|]]. exists l. split; [exact E|reflexivity].
Qed.
Lemma step_done_lu d b o M r t M' r' : step (Lu d b o) r M = Done t M' r' ->
  t = [ERead (addr r b o) 4] /\ M' = M /\ exists l, read_bytes 4 M (addr r b o) = Some l /\ r' = setr r d (le_num l).
Proof.
  cbn [step]. intros H.
  destruct (bind_done _ _ _ _ _ _ H) as (u1 & N1 & l & u2 & H1 & H2 & ->).
  destruct (in_done _ _ _ _ _ _ H1) as (-> & -> & E). destruct (ret_done _ _ _ _ _ H2) as (-> & -> & ->).
  split; [reflexivity|split; [reflexivity|]]. exists l. split; [exact E|reflexivity].
Qed.
Lemma step_done_lbu d b o M r t M' r' : step (Lbu d b o) r M = Done t M' r' ->
  t = [ERead (addr r b o) 1] /\ M' = M /\ exists l, read_bytes 1 M (addr r b o) = Some l /\ r' = setr r d (le_num l).
Proof.
  cbn [step]. intros H.
  destruct (bind_done _ _ _ _ _ _ H) as (u1 & N1 & l & u2 & H1 & H2 & ->).
  destruct (in_done _ _ _ _ _ _ H1) as (-> & -> & E). destruct (ret_done _ _ _ _ _ H2) as (-> & -> & ->).
  split; [reflexivity|split; [reflexivity|]]. exists l. split; [exact E|reflexivity].
Qed.
Lemma step_done_sw s b o M r t M' r' : step (Sw s b o) r M = Done t M' r' ->
  t = [EWrite (addr r b o) 4] /\ M' = write M (addr r b o) (le_bytes 4 (r s)) /\ r' = r.
Proof.
  cbn [step]. destruct (aligned4 _); [|discriminate]. intros H.
  destruct (bind_done _ _ _ _ _ _ H) as (u1 & N1 & [] & u2 & H1 & H2 & ->).
  destruct (out_done _ _ _ _ _ _ H1) as (-> & ->). destruct (ret_done _ _ _ _ _ H2) as (-> & -> & ->).
  unfold len. rewrite length_le_bytes. split; [reflexivity|split; reflexivity].
Qed.
Lemma step_done_su s b o M r t M' r' : step (Su s b o) r M = Done t M' r' ->
  t = [EWrite (addr r b o) 4] /\ M' = write M (addr r b o) (le_bytes 4 (r s)) /\ r' = r.
Proof.
  cbn [step]. intros H.
  destruct (bind_done _ _ _ _ _ _ H) as (u1 & N1 & [] & u2 & H1 & H2 & ->).
  destruct (out_done _ _ _ _ _ _ H1) as (-> & ->). destruct (ret_done _ _ _ _ _ H2) as (-> & -> & ->).
  unfold len. rewrite length_le_bytes. split; [reflexivity|split; reflexivity].
Qed.
Lemma step_done_sb s b o M r t M' r' : step (Sb s b o) r M = Done t M' r' ->
  t = [EWrite (addr r b o) 1] /\ M' = write M (addr r b o) (le_bytes 1 (r s)) /\ r' = r.
Proof.
  cbn [step]. intros H.
  destruct (bind_done _ _ _ _ _ _ H) as (u1 & N1 & [] & u2 & H1 & H2 & ->).
  destruct (out_done _ _ _ _ _ _ H1) as (-> & ->). destruct (ret_done _ _ _ _ _ H2) as (-> & -> & ->).
  unfold len. rewrite length_le_bytes. split; [reflexivity|split; reflexivity].
Qed.
Lemma addr_eqon L r1 r2 b o : eqon L r1 r2 -> memb b L = true -> addr r1 b o = addr r2 b o.
Proof. intros E H. unfold addr. rewrite (E b H). reflexivity. Qed.
Lemma meq_write T Q M1 M2 p l1 l2 : meq T Q M1 M2 -> length l1 = length l2 ->
  (forall a, p <= a -> a < p + len l1 -> ~ T a) -> meq T Q (write M1 p l1) (write M2 p l2).
Proof.
  intros H E S a Ta. assert (O : outside p (len l1) a).
  { unfold outside. destruct (N.ltb_spec a p); [left; assumption|]. destruct (N.ltb_spec a (p + len l1)); [|right; assumption].
    exfalso. exact (S a ltac:(assumption) ltac:(assumption) Ta). }
  unfold rd. rewrite !write_outside; [apply H, Ta| |exact O]. unfold len in *. rewrite <- E. exact O.
Qed.
Lemma store_safe T W r b n : store_ok W b n = true -> safes T W r -> safe T (r b) n.
Proof.
  intros H S. unfold store_ok in H. apply existsb_exists in H. destruct H as ((b' & m) & Hi & E).
  cbn [fst snd] in E. apply andb_prop in E. destruct E as [E1 E2]. apply Nat.eqb_eq in E1. subst b'.
  destruct (S b m Hi) as [A B]. apply N.leb_le in E2. split; [lia|]. intros a H1 H2. apply B; lia.
Qed.
Lemma safes_set T W r d v : safes T W r -> safes T (filter (fun w => negb (Nat.eqb (fst w) d)) W) (setr r d v).
Proof.
  intros S b n Hi. apply filter_In in Hi. destruct Hi as [Hi Hd]. cbn [fst] in Hd. apply negb_true_iff in Hd.
  unfold setr. rewrite Hd. apply S, Hi.
Qed.
Lemma except_cons d l r v r' : except l (setr r d v) r' -> except (d :: l) r r'.
Proof.
  intros E i Hi. unfold memb in Hi. cbn [existsb] in Hi. apply orb_false_iff in Hi. destruct Hi as [D Hi].
  rewrite (E i Hi). unfold setr. rewrite D. reflexivity.
Qed.
Lemma memb_In i L : memb i L = true <-> In i L.
Proof.
  unfold memb. rewrite existsb_exists. split.
  - intros (x & H & E). apply Nat.eqb_eq in E. subst. exact H.
  - intros H. exists i. split; [exact H|apply Nat.eqb_refl].
Qed.

Lemma step_ct T Q W L l i L' r1 r2 M1 M2 t1 t2 M1' M2' r1' r2' : ct W L (i :: l) = Some L' ->
  eqon L r1 r2 -> meq T Q M1 M2 -> safes T W r1 ->
  step i r1 M1 = Done t1 M1' r1' -> step i r2 M2 = Done t2 M2' r2' ->
  exists W1 L1, ct W1 L1 l = Some L' /\ t1 = t2 /\ eqon L1 r1' r2' /\ meq T Q M1' M2' /\ safes T W1 r1' /\
    except (match dst i with Some d => [d] | None => [] end) r1 r1'.
Proof.
  intros H E HM HS S1 S2.
  assert (EX : forall r d v, except [d] r (setr r d v)).
  { intros r d v. apply except_set; [unfold memb; cbn; rewrite Nat.eqb_refl; reflexivity|apply except_refl]. }
  destruct i as [d t|d f a b c|d b o|s b o|d b o|s b o|d b o|s b o]; cbn [ct dst] in H.
  - destruct (reglt t) eqn:RL; [|discriminate]. cbn [step] in S1, S2. rewrite weval_rl in S1, S2 by exact RL.
    destruct (ret_done _ _ _ _ _ S1) as (-> & -> & ->). destruct (ret_done _ _ _ _ _ S2) as (-> & -> & ->).
    eexists; eexists. split; [exact H|]. split; [reflexivity|]. split; [|split; [exact HM|split; [apply safes_set; exact HS|apply EX]]].
    unfold set_public. destruct (subl (rgs t) L) eqn:P.
    + rewrite (fev_eqon L r1 r2 t E P). apply eqon_set. intros i Hi. apply E. rewrite memb_del in Hi. apply andb_prop in Hi. apply Hi.
    + apply eqon_del, E.
  - cbn [step] in S1, S2.
    destruct (ret_done _ _ _ _ _ S1) as (-> & -> & ->). destruct (ret_done _ _ _ _ _ S2) as (-> & -> & ->).
    eexists; eexists. split; [exact H|]. split; [reflexivity|]. split; [|split; [exact HM|split; [apply safes_set; exact HS|apply EX]]].
    unfold set_public. destruct (memb a L && memb b L && memb c L) eqn:P.
    + apply andb_prop in P. destruct P as [P Pc]. apply andb_prop in P. destruct P as [Pa Pb].
      rewrite (E a Pa), (E b Pb), (E c Pc). apply eqon_set. intros i Hi. apply E. rewrite memb_del in Hi. apply andb_prop in Hi. apply Hi.
    + apply eqon_del, E.
  - destruct (memb b L) eqn:P; [|discriminate].
    destruct (step_done_ld _ _ _ _ _ _ _ _ S1) as (-> & -> & l1 & _ & ->). destruct (step_done_ld _ _ _ _ _ _ _ _ S2) as (-> & -> & l2 & _ & ->).
    eexists; eexists. split; [exact H|]. rewrite (addr_eqon L r1 r2 b o E P). split; [reflexivity|].
    split; [apply eqon_del, E|split; [exact HM|split; [apply safes_set; exact HS|apply EX]]].
  - destruct (memb b L && store_ok W b (o + 4)) eqn:P; [|discriminate]. apply andb_prop in P. destruct P as [P1 P2].
    destruct (step_done_sw _ _ _ _ _ _ _ _ S1) as (-> & -> & ->). destruct (step_done_sw _ _ _ _ _ _ _ _ S2) as (-> & -> & ->).
    eexists; eexists. split; [exact H|]. rewrite (addr_eqon L r1 r2 b o E P1). split; [reflexivity|].
    split; [exact E|split; [|split; [exact HS|apply except_refl]]].
    destruct (store_safe T W r1 b (o + 4) P2 HS) as [B1 B2].
    rewrite <- (addr_eqon L r1 r2 b o E P1), (addr_ok r1 b o (r1 b + o) eq_refl) by lia.
    apply meq_write; [exact HM|rewrite !length_le_bytes; reflexivity|].
    unfold len. rewrite length_le_bytes. intros a H1 H2. apply B2; lia.
  - destruct (memb b L) eqn:P; [|discriminate].
    destruct (step_done_lbu _ _ _ _ _ _ _ _ S1) as (-> & -> & l1 & _ & ->). destruct (step_done_lbu _ _ _ _ _ _ _ _ S2) as (-> & -> & l2 & _ & ->).
    eexists; eexists. split; [exact H|]. rewrite (addr_eqon L r1 r2 b o E P). split; [reflexivity|].
    split; [apply eqon_del, E|split; [exact HM|split; [apply safes_set; exact HS|apply EX]]].
  - destruct (memb b L && store_ok W b (o + 1)) eqn:P; [|discriminate]. apply andb_prop in P. destruct P as [P1 P2].
    destruct (step_done_sb _ _ _ _ _ _ _ _ S1) as (-> & -> & ->). destruct (step_done_sb _ _ _ _ _ _ _ _ S2) as (-> & -> & ->).
    eexists; eexists. split; [exact H|]. rewrite (addr_eqon L r1 r2 b o E P1). split; [reflexivity|].
    split; [exact E|split; [|split; [exact HS|apply except_refl]]].
    destruct (store_safe T W r1 b (o + 1) P2 HS) as [B1 B2].
    rewrite <- (addr_eqon L r1 r2 b o E P1), (addr_ok r1 b o (r1 b + o) eq_refl) by lia.
    apply meq_write; [exact HM|rewrite !length_le_bytes; reflexivity|].
    unfold len. rewrite length_le_bytes. intros a H1 H2. apply B2; lia.
  - destruct (memb b L) eqn:P; [|discriminate].
    destruct (step_done_lu _ _ _ _ _ _ _ _ S1) as (-> & -> & l1 & _ & ->). destruct (step_done_lu _ _ _ _ _ _ _ _ S2) as (-> & -> & l2 & _ & ->).
    eexists; eexists. split; [exact H|]. rewrite (addr_eqon L r1 r2 b o E P). split; [reflexivity|].
    split; [apply eqon_del, E|split; [exact HM|split; [apply safes_set; exact HS|apply EX]]].
  - destruct (memb b L && store_ok W b (o + 4)) eqn:P; [|discriminate]. apply andb_prop in P. destruct P as [P1 P2].
    destruct (step_done_su _ _ _ _ _ _ _ _ S1) as (-> & -> & ->). destruct (step_done_su _ _ _ _ _ _ _ _ S2) as (-> & -> & ->).
    eexists; eexists. split; [exact H|]. rewrite (addr_eqon L r1 r2 b o E P1). split; [reflexivity|].
    split; [exact E|split; [|split; [exact HS|apply except_refl]]].
    destruct (store_safe T W r1 b (o + 4) P2 HS) as [B1 B2].
    rewrite <- (addr_eqon L r1 r2 b o E P1), (addr_ok r1 b o (r1 b + o) eq_refl) by lia.
    apply meq_write; [exact HM|rewrite !length_le_bytes; reflexivity|].
    unfold len. rewrite length_le_bytes. intros a H1 H2. apply B2; lia.
Qed.
Lemma exec_ct T Q l : forall W L L' r1 r2 M1 M2 t1 t2 M1' M2' r1' r2', ct W L l = Some L' ->
  eqon L r1 r2 -> meq T Q M1 M2 -> safes T W r1 ->
  exec l r1 M1 = Done t1 M1' r1' -> exec l r2 M2 = Done t2 M2' r2' ->
  t1 = t2 /\ eqon L' r1' r2' /\ meq T Q M1' M2' /\ except (dsts l) r1 r1'.
Proof.
  induction l as [|i l IH]; intros W L L' r1 r2 M1 M2 t1 t2 M1' M2' r1' r2' H E HM HS X1 X2.
  - cbn [ct] in H. injection H as <-. destruct (ret_done _ _ _ _ _ X1) as (-> & -> & ->).
    destruct (ret_done _ _ _ _ _ X2) as (-> & -> & ->). split; [reflexivity|split; [exact E|split; [exact HM|apply except_refl]]].
  - cbn [exec] in X1, X2.
    destruct (bind_done _ _ _ _ _ _ X1) as (u1 & N1 & q1 & v1 & S1 & Y1 & ->).
    destruct (bind_done _ _ _ _ _ _ X2) as (u2 & N2 & q2 & v2 & S2 & Y2 & ->).
    destruct (step_ct T Q W L l i L' _ _ _ _ _ _ _ _ _ _ H E HM HS S1 S2) as (W1 & L1 & H' & -> & E' & HM' & HS' & EX).
    destruct (IH W1 L1 L' _ _ _ _ _ _ _ _ _ _ H' E' HM' HS' Y1 Y2) as (-> & E'' & HM'' & EX').
    split; [reflexivity|split; [exact E''|split; [exact HM''|]]].
    intros j Hj. unfold dsts in Hj. cbn [flat_map] in Hj. rewrite memb_app in Hj. apply orb_false_iff in Hj. destruct Hj as [A B].
    rewrite (EX' j B). apply EX, A.
Qed.

(** ** Rules *)
Definition stable (l : list nat) (X : regs -> Prop) : Prop := forall r r', except l r r' -> X r -> X r'.
Lemma stable_sub l l' X : subl l l' = true -> stable l' X -> stable l X.
Proof. intros S H r r' E. apply H, (except_sub l l' _ _ S E). Qed.
Lemma two_block T Q W L L' (X X' : regs -> Prop) l : match ct W L l with Some K => subl L' K | None => false end = true ->
  (forall r, X r -> safes T W r) -> (forall r r', except (dsts l) r r' -> X r -> X' r') ->
  two (J T Q L X) (exec l) (J T Q L' X').
Proof.
  intros H HS HX r1 r2 M1 M2 t1 t2 M1' M2' r1' r2' (E & HM & Xr) X1 X2.
  destruct (ct W L l) as [K|] eqn:C; [|discriminate].
  destruct (exec_ct T Q l W L K _ _ _ _ _ _ _ _ _ _ C E HM (HS r1 Xr) X1 X2) as (-> & E' & HM' & EX).
  split; [reflexivity|]. split; [exact (eqon_sub K L' _ _ H E')|]. split; [exact HM'|]. exact (HX _ _ EX Xr).
Qed.
(** Register operations only. *)
Definition isreg (i : ins) : bool := match i with Op _ t => reglt t | Fn _ _ _ _ _ => true | _ => false end.
Definition calc (l : list ins) (r : regs) : regs :=
  fold_left (fun r i => match i with Op d t => setr r d (fev r t) | Fn d f a b c => setr r d (f (r a) (r b) (r c)) | _ => r end) l r.
Lemma exec_calc l : forallb isreg l = true -> forall r M, exec l r M = Done [] M (calc l r).
Proof.
  induction l as [|i l IH]; intros H r M; [reflexivity|].
  cbn [forallb] in H. apply andb_prop in H. destruct H as [Hi H].
  destruct i as [d t|d f a b c| | | | | |]; try discriminate; cbn [exec step isreg] in *; unfold bind, ret.
  - rewrite weval_rl by exact Hi. rewrite (IH H). reflexivity.
  - rewrite (IH H). reflexivity.
Qed.
Lemma two_calc T Q L L' (X X' : regs -> Prop) l : match ct [] L l with Some K => subl L' K | None => false end = true ->
  forallb isreg l = true -> (forall r, X r -> X' (calc l r)) -> two (J T Q L X) (exec l) (J T Q L' X').
Proof.
  intros H HO HX r1 r2 M1 M2 t1 t2 M1' M2' r1' r2' (E & HM & Xr) X1 X2.
  destruct (ct [] L l) as [K|] eqn:C; [|discriminate].
  destruct (exec_ct T Q l [] L K _ _ _ _ _ _ _ _ _ _ C E HM ltac:(intros b n []) X1 X2) as (-> & E' & HM' & EX).
  split; [reflexivity|]. split; [exact (eqon_sub K L' _ _ H E')|]. split; [exact HM'|].
  rewrite (exec_calc l HO) in X1. injection X1 as _ _ <-. apply HX, Xr.
Qed.
Lemma exec_app_done a b r M t M' r' : exec (a ++ b) r M = Done t M' r' ->
  exists t1 M1 r1 t2, exec a r M = Done t1 M1 r1 /\ exec b r1 M1 = Done t2 M' r' /\ t = t1 ++ t2.
Proof.
  revert r M t. induction a as [|i a IH]; intros r M t H.
  - exists [], M, r, t. split; [reflexivity|split; [exact H|reflexivity]].
  - cbn [app exec] in H. destruct (bind_done _ _ _ _ _ _ H) as (u1 & N1 & q1 & v1 & S1 & Y1 & ->).
    destruct (IH _ _ _ Y1) as (t1 & M1 & r1 & t2 & E1 & E2 & ->).
    exists (u1 ++ t1), M1, r1, t2. split; [|split; [exact E2|apply app_assoc]].
    cbn [exec]. unfold bind. rewrite S1, E1. reflexivity.
Qed.
Lemma two_app P R S a b : two P (exec a) R -> two R (exec b) S -> two P (exec (a ++ b)) S.
Proof.
  intros Ha Hb r1 r2 M1 M2 t1 t2 M1' M2' r1' r2' HP X1 X2.
  destruct (exec_app_done _ _ _ _ _ _ _ X1) as (u1 & N1 & q1 & v1 & S1 & Y1 & ->).
  destruct (exec_app_done _ _ _ _ _ _ _ X2) as (u2 & N2 & q2 & v2 & S2 & Y2 & ->).
  destruct (Ha _ _ _ _ _ _ _ _ _ _ HP S1 S2) as [-> HR]. destruct (Hb _ _ _ _ _ _ _ _ _ _ HR Y1 Y2) as [-> HS].
  split; [reflexivity|exact HS].
Qed.
(** Loads of known cells. *)
Lemma read_bytes_ext n M1 M2 : forall p, (forall a, p <= a -> a < p + N.of_nat n -> rd M1 a = rd M2 a) -> read_bytes n M1 p = read_bytes n M2 p.
Proof.
  induction n as [|n IH]; intros p H; [reflexivity|]. cbn [read_bytes]. rewrite (H p) by lia.
  rewrite (IH (p + 1)); [reflexivity|]. intros a H1 H2. apply H; lia.
Qed.
Definition known (T : N -> Prop) (Q : mem) (p : N) (l : bytes) : Prop :=
  readable Q p l /\ forall a, p <= a -> a < p + len l -> T a.
Lemma known_read T Q M1 M2 p l : known T Q p l -> meq T Q M1 M2 ->
  read_bytes (length l) M1 p = Some l /\ read_bytes (length l) M2 p = Some l.
Proof.
  intros [K1 K2] HM. rewrite <- (read_bytes_readable Q l p K1).
  split; apply read_bytes_ext; intros a H1 H2; apply HM, K2; unfold len; assumption.
Qed.
Lemma two_lw_known T Q L (X X' : regs -> Prop) d b o : memb b L = true ->
  (forall r, X r -> exists l, length l = 4%nat /\ known T Q (addr r b o) l /\ X' (setr r d (le_num l))) ->
  two (J T Q L X) (exec [Lw d b o]) (J T Q (d :: L) X').
Proof.
  intros Hb HX r1 r2 M1 M2 t1 t2 M1' M2' r1' r2' (E & HM & Xr) X1 X2. cbn [exec] in X1, X2.
  destruct (bind_done _ _ _ _ _ _ X1) as (u1 & N1 & q1 & v1 & S1 & Y1 & ->).
  destruct (bind_done _ _ _ _ _ _ X2) as (u2 & N2 & q2 & v2 & S2 & Y2 & ->).
  destruct (ret_done _ _ _ _ _ Y1) as (-> & -> & ->). destruct (ret_done _ _ _ _ _ Y2) as (-> & -> & ->).
  destruct (step_done_ld _ _ _ _ _ _ _ _ S1) as (-> & -> & l1 & R1 & ->). destruct (step_done_ld _ _ _ _ _ _ _ _ S2) as (-> & -> & l2 & R2 & ->).
  destruct (HX r1 Xr) as (l & Hl & K & HX'). destruct (known_read T Q M1 M2 _ l K HM) as [A B]. rewrite Hl in A, B.
  rewrite <- (addr_eqon L r1 r2 b o E Hb) in *. rewrite A in R1. rewrite B in R2. injection R1 as <-. injection R2 as <-.
  split; [reflexivity|]. split; [apply eqon_set, E|split; [exact HM|exact HX']].
Qed.
Lemma two_lbu_known T Q L (X X' : regs -> Prop) d b o : memb b L = true ->
  (forall r, X r -> exists v, known T Q (addr r b o) [v] /\ X' (setr r d (b2n v))) ->
  two (J T Q L X) (exec [Lbu d b o]) (J T Q (d :: L) X').
Proof.
  intros Hb HX r1 r2 M1 M2 t1 t2 M1' M2' r1' r2' (E & HM & Xr) X1 X2. cbn [exec] in X1, X2.
  destruct (bind_done _ _ _ _ _ _ X1) as (u1 & N1 & q1 & v1 & S1 & Y1 & ->).
  destruct (bind_done _ _ _ _ _ _ X2) as (u2 & N2 & q2 & v2 & S2 & Y2 & ->).
  destruct (ret_done _ _ _ _ _ Y1) as (-> & -> & ->). destruct (ret_done _ _ _ _ _ Y2) as (-> & -> & ->).
  destruct (step_done_lbu _ _ _ _ _ _ _ _ S1) as (-> & -> & l1 & R1 & ->). destruct (step_done_lbu _ _ _ _ _ _ _ _ S2) as (-> & -> & l2 & R2 & ->).
  destruct (HX r1 Xr) as (l & K & HX'). destruct (known_read T Q M1 M2 _ _ K HM) as [A B]. cbn [length] in A, B.
  rewrite <- (addr_eqon L r1 r2 b o E Hb) in *. rewrite A in R1. rewrite B in R2. injection R1 as <-. injection R2 as <-.
  assert (V : le_num [l] = b2n l) by (cbn [le_num]; rewrite N.shiftl_0_l, N.lor_0_r; reflexivity). rewrite V.
  split; [reflexivity|]. split; [apply eqon_set, E|split; [exact HM|exact HX']].
Qed.
Lemma exec_except l : forall r M t M' r', exec l r M = Done t M' r' -> except (dsts l) r r'.
Proof.
  induction l as [|i l IH]; intros r M t M' r' H.
  - destruct (ret_done _ _ _ _ _ H) as (_ & _ & ->). apply except_refl.
  - cbn [exec] in H. destruct (bind_done _ _ _ _ _ _ H) as (u1 & N1 & q1 & v1 & S1 & Y1 & ->).
    assert (G : except (match dst i with Some d => [d] | None => [] end) r q1).
    { assert (EX : forall r d v, except [d] r (setr r d v)).
      { intros r0 d v. apply except_set; [unfold memb; cbn; rewrite Nat.eqb_refl; reflexivity|apply except_refl]. }
      destruct i as [d t|d f a b c|d b o|s b o|d b o|s b o|d b o|s b o]; cbn [dst].
      - destruct (ret_done _ _ _ _ _ S1) as (_ & _ & ->). apply EX.
      - destruct (ret_done _ _ _ _ _ S1) as (_ & _ & ->). apply EX.
      - destruct (step_done_ld _ _ _ _ _ _ _ _ S1) as (_ & _ & l1 & _ & ->). apply EX.
      - destruct (step_done_sw _ _ _ _ _ _ _ _ S1) as (_ & _ & ->). apply except_refl.
      - destruct (step_done_lbu _ _ _ _ _ _ _ _ S1) as (_ & _ & l1 & _ & ->). apply EX.
      - destruct (step_done_sb _ _ _ _ _ _ _ _ S1) as (_ & _ & ->). apply except_refl.
      - destruct (step_done_lu _ _ _ _ _ _ _ _ S1) as (_ & _ & l1 & _ & ->). apply EX.
      - destruct (step_done_su _ _ _ _ _ _ _ _ S1) as (_ & _ & ->). apply except_refl. }
    intros j Hj. unfold dsts in Hj. cbn [flat_map] in Hj. rewrite memb_app in Hj. apply orb_false_iff in Hj. destruct Hj as [A B].
    rewrite (IH _ _ _ _ _ Y1 j B). apply G, A.
Qed.
Lemma two_skip T Q L L' (X X' : regs -> Prop) : subl L' L = true -> (forall r, X r -> X' r) -> two (J T Q L X) skip (J T Q L' X').
Proof.
  intros H HX r1 r2 M1 M2 t1 t2 M1' M2' r1' r2' (E & HM & Xr) X1 X2.
  destruct (ret_done _ _ _ _ _ X1) as (-> & -> & ->). destruct (ret_done _ _ _ _ _ X2) as (-> & -> & ->).
  split; [reflexivity|]. split; [exact (eqon_sub L L' _ _ H E)|split; [exact HM|apply HX, Xr]].
Qed.
Lemma two_then P R S f g : two P f R -> two R g S -> two P (f >>> g) S.
Proof.
  intros Hf Hg r1 r2 M1 M2 t1 t2 M1' M2' r1' r2' HP X1 X2. unfold andthen in X1, X2.
  destruct (bind_done _ _ _ _ _ _ X1) as (u1 & N1 & q1 & v1 & S1 & Y1 & ->).
  destruct (bind_done _ _ _ _ _ _ X2) as (u2 & N2 & q2 & v2 & S2 & Y2 & ->).
  destruct (Hf _ _ _ _ _ _ _ _ _ _ HP S1 S2) as [-> HR]. destruct (Hg _ _ _ _ _ _ _ _ _ _ HR Y1 Y2) as [-> HS].
  split; [reflexivity|exact HS].
Qed.
Lemma two_pre (P P' : rel) f R : (forall r1 r2 M1 M2, P' r1 r2 M1 M2 -> P r1 r2 M1 M2) -> two P f R -> two P' f R.
Proof. intros H F r1 r2 M1 M2 t1 t2 M1' M2' r1' r2' HP. apply F, H, HP. Qed.
Lemma two_post (P R R' : rel) f : (forall r1 r2 M1 M2, R r1 r2 M1 M2 -> R' r1 r2 M1 M2) -> two P f R -> two P f R'.
Proof.
  intros H F r1 r2 M1 M2 t1 t2 M1' M2' r1' r2' HP X1 X2. destruct (F _ _ _ _ _ _ _ _ _ _ HP X1 X2) as [E HR].
  split; [exact E|apply H, HR].
Qed.
Lemma two_cond T Q L X b yes no R : (forall r1 r2, eqon L r1 r2 -> b r1 = b r2) ->
  two (J T Q L (fun r => X r /\ b r = true)) yes R -> two (J T Q L (fun r => X r /\ b r = false)) no R ->
  two (J T Q L X) (cond b yes no) R.
Proof.
  intros Hb Hy Hn r1 r2 M1 M2 t1 t2 M1' M2' r1' r2' (E & HM & Xr) X1 X2. unfold cond in X1, X2.
  destruct (bind_done _ _ _ _ _ _ X1) as (u1 & N1 & q1 & v1 & S1 & Y1 & ->).
  destruct (bind_done _ _ _ _ _ _ X2) as (u2 & N2 & q2 & v2 & S2 & Y2 & ->).
  unfold branch in S1, S2. injection S1 as <- <- <-. injection S2 as <- <- <-.
  rewrite <- (Hb r1 r2 E) in *. destruct (b r1) eqn:B.
  - destruct (Hy _ _ _ _ _ _ _ _ _ _ (conj E (conj HM (conj Xr B))) Y1 Y2) as [-> HR]. split; [reflexivity|exact HR].
  - destruct (Hn _ _ _ _ _ _ _ _ _ _ (conj E (conj HM (conj Xr B))) Y1 Y2) as [-> HR]. split; [reflexivity|exact HR].
Qed.
Lemma two_while T Q L X b body : (forall r1 r2, eqon L r1 r2 -> b r1 = b r2) ->
  two (J T Q L (fun r => X r /\ b r = true)) body (J T Q L X) ->
  forall f, two (J T Q L X) (fun r => while f b body r) (J T Q L (fun r => X r /\ b r = false)).
Proof.
  intros Hb Hy. induction f as [|f IH]; intros r1 r2 M1 M2 t1 t2 M1' M2' r1' r2' (E & HM & Xr) X1 X2; cbn [while] in X1, X2; [discriminate|].
  destruct (bind_done _ _ _ _ _ _ X1) as (u1 & N1 & q1 & v1 & S1 & Y1 & ->).
  destruct (bind_done _ _ _ _ _ _ X2) as (u2 & N2 & q2 & v2 & S2 & Y2 & ->).
  unfold branch in S1, S2. injection S1 as <- <- <-. injection S2 as <- <- <-.
  rewrite <- (Hb r1 r2 E) in *. destruct (b r1) eqn:B.
  - destruct (bind_done _ _ _ _ _ _ Y1) as (w1 & K1 & p1 & z1 & A1 & B1 & ->).
    destruct (bind_done _ _ _ _ _ _ Y2) as (w2 & K2 & p2 & z2 & A2 & B2 & ->).
    destruct (Hy _ _ _ _ _ _ _ _ _ _ (conj E (conj HM (conj Xr B))) A1 A2) as [-> HR].
    destruct (IH _ _ _ _ _ _ _ _ _ _ HR B1 B2) as [-> HS]. split; [reflexivity|exact HS].
  - destruct (ret_done _ _ _ _ _ Y1) as (-> & -> & ->). destruct (ret_done _ _ _ _ _ Y2) as (-> & -> & ->).
    split; [reflexivity|]. split; [exact E|split; [exact HM|split; [exact Xr|exact B]]].
Qed.
Lemma two_loop T Q L X P fuel test b body : (forall r1 r2, eqon L r1 r2 -> fuel r1 = fuel r2) ->
  (forall r1 r2, eqon L r1 r2 -> b r1 = b r2) ->
  two P (exec test) (J T Q L X) ->
  two (J T Q L (fun r => X r /\ b r = true)) (body >>> exec test) (J T Q L X) ->
  two P (loop fuel test b body) (J T Q L (fun r => X r /\ b r = false)).
Proof.
  intros HF Hb Ht Hy r1 r2 M1 M2 t1 t2 M1' M2' r1' r2' HP X1 X2. unfold loop in X1, X2.
  destruct (bind_done _ _ _ _ _ _ X1) as (u1 & N1 & q1 & v1 & S1 & Y1 & ->).
  destruct (bind_done _ _ _ _ _ _ X2) as (u2 & N2 & q2 & v2 & S2 & Y2 & ->).
  destruct (Ht _ _ _ _ _ _ _ _ _ _ HP S1 S2) as [-> HR].
  rewrite <- (HF q1 q2 (proj1 HR)) in Y2.
  destruct (two_while T Q L X b _ Hb Hy (fuel q1) _ _ _ _ _ _ _ _ _ _ HR Y1 Y2) as [-> HS].
  split; [reflexivity|exact HS].
Qed.
Lemma two_call T Q L L' (X X1 X' : regs -> Prop) link a f : (forall r, X r -> X1 (setr r link a)) ->
  two (J T Q (link :: L) X1) f (J T Q L' X') ->
  two (J T Q L X) (call link a f) (J T Q (link :: L') X').
Proof.
  intros HX Hf r1 r2 M1 M2 t1 t2 M1' M2' r1' r2' (E & HM & Xr) Y1 Y2. unfold call in Y1, Y2.
  destruct (bind_done _ _ _ _ _ _ Y1) as (u1 & N1 & q1 & v1 & S1 & Z1 & ->).
  destruct (bind_done _ _ _ _ _ _ Y2) as (u2 & N2 & q2 & v2 & S2 & Z2 & ->).
  assert (HP : J T Q (link :: L) X1 (setr r1 link a) (setr r2 link a) M1 M2).
  { split; [apply eqon_set, E|split; [exact HM|apply HX, Xr]]. }
  destruct (Hf _ _ _ _ _ _ _ _ _ _ HP S1 S2) as [-> (E' & HM' & Xr')].
  destruct (q1 link =? a) eqn:A1; [|discriminate]. destruct (q2 link =? a) eqn:A2; [|discriminate].
  destruct (ret_done _ _ _ _ _ Z1) as (-> & -> & ->). destruct (ret_done _ _ _ _ _ Z2) as (-> & -> & ->).
  apply N.eqb_eq in A1, A2. split; [reflexivity|]. split; [|split; [exact HM'|exact Xr']].
  intros i Hi. unfold memb in Hi. cbn [existsb] in Hi. destruct (Nat.eqb_spec i link) as [D|D]; [rewrite D; congruence|].
  apply E'. exact Hi.
Qed.
