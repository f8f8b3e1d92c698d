(** * AsmRound.v -- recognising an Ascon round in assembly code.

    A layout says what every cell of the machine (register, stack slot, word
    of the state object) contains: some bits of the Ascon state, a constant,
    a value of the context, or anything.  The context is a list of 32 values
    that do not change; the first is the pointer argument (the first two if
    words have 8 bits), the others are
    the contents of registers that the code has to restore.  [check] decides, by symbolic
    execution, whether a program takes layout [L] of any state s to layout
    [L'] of [round s c]; [check_sound] says what a positive answer means for
    the machine. *)
From Coq Require Import Arith NArith PArith List Lia Bool.
From Coq Require Import ZifyBool ZifyNat ZifyN.
From Verif Require Import Words WordFacts Spec SpecFacts RoundFacts StateRep Asm Poly.
Import ListNotations.
Local Open Scope N_scope.

Definition word (s : state) (k : N) : N :=
  match k with 0 => X0 s | 1 => X1 s | 2 => X2 s | 3 => X3 s | _ => X4 s end.
(** Bit [p] of the state: bit [p mod 64] of word [p / 64]. *)
Definition stbit (s : state) (p : N) : bool := N.testbit (word s (p / 64)) (p mod 64).

Inductive cell :=
| SB (l : list N)     (** these bits of the state, least significant first *)
| K (n : N)           (** the constant [n] *)
| Sv (k : nat)        (** the value number [k] of the context *)
| J.                  (** any word *)

Record layout := Lay { l_regs : list cell; l_stk : list cell; l_obj : list cell }.

Definition lbit (s : state) (l : list N) (i : nat) : bool :=
  match nth_error l i with Some p => stbit s p | None => false end.
Definition cell_ok (w : N) (s : state) (ctx : list N) (v : N) (c : cell) : Prop :=
  match c with
  | SB l => forall i, N.testbit v (N.of_nat i) = lbit s l i
  | K n => v = n
  | Sv k => v = nth k ctx 0
  | J => fits w v
  end.
(** The pointer argument: 16 bits if words have 8 bits. *)
Definition base_of (w : N) (ctx : list N) : N :=
  if w =? 8 then N.lor (nth 0 ctx 0) (shlw 16 (nth 1 ctx 0) 8) else nth 0 ctx 0.
Record lay_ok (w : N) (ctx : list N) (s : state) (M : mach) (L : layout) : Prop := {
  lo_regs : Forall2 (cell_ok w s ctx) (regs M) (l_regs L);
  lo_stk : Forall2 (cell_ok w s ctx) (stk M) (l_stk L);
  lo_obj : Forall2 (cell_ok w s ctx) (obj M) (l_obj L);
  lo_base : base M = base_of w ctx
}.
Definition ctx_ok (w : N) (ctx : list N) : Prop := length ctx = 32%nat /\ Forall (fits w) ctx.

(** ** The round as polynomials *)

Definition psb0 (a b c d e : poly) := let a := padd a e in let e := padd e d in let c := padd c b in
  padd (padd a (pmul (pnot b) c)) (padd e (pmul (pnot a) b)).
Definition psb1 (a b c d e : poly) := let a := padd a e in let e := padd e d in let c := padd c b in
  padd (padd b (pmul (pnot c) d)) (padd a (pmul (pnot b) c)).
Definition psb2 (a b c d e : poly) := let a := padd a e in let e := padd e d in let c := padd c b in
  pnot (padd c (pmul (pnot d) e)).
Definition psb3 (a b c d e : poly) := let a := padd a e in let e := padd e d in let c := padd c b in
  padd (padd d (pmul (pnot e) a)) (padd c (pmul (pnot d) e)).
Definition psb4 (a b c d e : poly) := let a := padd a e in let e := padd e d in let c := padd c b in
  padd e (pmul (pnot a) b).

Definition var (p : N) : poly := pvar (N.succ_pos p).
Definition psub (c k i : N) : poly :=
  let f := match k with 0 => psb0 | 1 => psb1 | 2 => psb2 | 3 => psb3 | _ => psb4 end in
  f (var i) (var (64 + i)) (padd (var (128 + i)) (pbit (N.testbit c i))) (var (192 + i)) (var (256 + i)).
Definition rot1 (k : N) : N := match k with 0 => 19 | 1 => 61 | 2 => 1 | 3 => 10 | _ => 7 end.
Definition rot2 (k : N) : N := match k with 0 => 28 | 1 => 39 | 2 => 6 | 3 => 17 | _ => 41 end.
Definition pround (c p : N) : poly :=
  let k := p / 64 in let i := p mod 64 in
  padd (psub c k i) (padd (psub c k ((i + rot1 k) mod 64)) (psub c k ((i + rot2 k) mod 64))).

Ltac peval_rw := rewrite ?peval_padd, ?peval_pmul, ?peval_pnot, ?peval_padd, ?peval_pmul, ?peval_pnot.
Lemma peval_psb0 x a b c d e : peval x (psb0 a b c d e) = sb0 (peval x a) (peval x b) (peval x c) (peval x d) (peval x e).
Proof. unfold psb0, sb0. repeat peval_rw. reflexivity. Qed.
Lemma peval_psb1 x a b c d e : peval x (psb1 a b c d e) = sb1 (peval x a) (peval x b) (peval x c) (peval x d) (peval x e).
Proof. unfold psb1, sb1. repeat peval_rw. reflexivity. Qed.
Lemma peval_psb2 x a b c d e : peval x (psb2 a b c d e) = sb2 (peval x a) (peval x b) (peval x c) (peval x d) (peval x e).
Proof. unfold psb2, sb2. repeat peval_rw. reflexivity. Qed.
Lemma peval_psb3 x a b c d e : peval x (psb3 a b c d e) = sb3 (peval x a) (peval x b) (peval x c) (peval x d) (peval x e).
Proof. unfold psb3, sb3. repeat peval_rw. reflexivity. Qed.
Lemma peval_psb4 x a b c d e : peval x (psb4 a b c d e) = sb4 (peval x a) (peval x b) (peval x c) (peval x d) (peval x e).
Proof. unfold psb4, sb4. repeat peval_rw. reflexivity. Qed.

Definition env_of (s : state) (x : env) : Prop := forall p, p < 320 -> x (N.succ_pos p) = stbit s p.

Lemma stbit_word s k i : i < 64 -> stbit s (64 * k + i) = N.testbit (word s k) i.
Proof.
  intros H. unfold stbit. replace ((64 * k + i) / 64) with k by (apply N.div_unique with i; lia).
  replace ((64 * k + i) mod 64) with i by (apply N.mod_unique with k; lia). reflexivity.
Qed.
Lemma peval_psub s x c k i : env_of s x -> k < 5 -> i < 64 ->
  peval x (psub c k i) = N.testbit (word (pS (pC c s)) k) i.
Proof.
  intros E Hk Hi.
  assert (V : forall j, j < 5 -> peval x (var (64 * j + i)) = N.testbit (word s j) i).
  { intros j Hj. unfold var. rewrite peval_pvar, E by lia. apply stbit_word, Hi. }
  pose proof (V 0 ltac:(lia)) as V0. pose proof (V 1 ltac:(lia)) as V1. pose proof (V 2 ltac:(lia)) as V2.
  pose proof (V 3 ltac:(lia)) as V3. pose proof (V 4 ltac:(lia)) as V4. clear V.
  change (64 * 0 + i) with i in V0. change (64 * 1 + i) with (64 + i) in V1. change (64 * 2 + i) with (128 + i) in V2.
  change (64 * 3 + i) with (192 + i) in V3. change (64 * 4 + i) with (256 + i) in V4.
  cbn [word] in V0, V1, V2, V3, V4.
  assert (G : (i <? 64) = true) by lia.
  assert (Hc : k = 0 \/ k = 1 \/ k = 2 \/ k = 3 \/ k = 4) by lia.
  unfold psub. destruct Hc as [->|[->|[->|[->| ->]]]]; cbn [word].
  - rewrite peval_psb0, pS_bit0, G. cbn [andb]. unfold pC; cbn [X0 X1 X2 X3 X4].
    rewrite V0, V1, V3, V4, peval_padd, V2, peval_pbit, N.lxor_spec. reflexivity.
  - rewrite peval_psb1, pS_bit1, G. cbn [andb]. unfold pC; cbn [X0 X1 X2 X3 X4].
    rewrite V0, V1, V3, V4, peval_padd, V2, peval_pbit, N.lxor_spec. reflexivity.
  - rewrite peval_psb2, pS_bit2, G. cbn [andb]. unfold pC; cbn [X0 X1 X2 X3 X4].
    rewrite V0, V1, V3, V4, peval_padd, V2, peval_pbit, N.lxor_spec. reflexivity.
  - rewrite peval_psb3, pS_bit3, G. cbn [andb]. unfold pC; cbn [X0 X1 X2 X3 X4].
    rewrite V0, V1, V3, V4, peval_padd, V2, peval_pbit, N.lxor_spec. reflexivity.
  - rewrite peval_psb4, pS_bit4, G. cbn [andb]. unfold pC; cbn [X0 X1 X2 X3 X4].
    rewrite V0, V1, V3, V4, peval_padd, V2, peval_pbit, N.lxor_spec. reflexivity.
Qed.
Lemma word_pL s k : k < 5 -> word (pL s) k = sigma (word s k) (rot1 k) (rot2 k).
Proof.
  intros Hk. assert (Hc : k = 0 \/ k = 1 \/ k = 2 \/ k = 3 \/ k = 4) by lia.
  destruct Hc as [->|[->|[->|[->| ->]]]]; reflexivity.
Qed.
Lemma peval_pround s x c p : env_of s x -> p < 320 -> peval x (pround c p) = stbit (round s c) p.
Proof.
  intros E Hp. unfold pround, stbit, round.
  assert (Hk : p / 64 < 5) by (apply N.div_lt_upper_bound; lia).
  assert (Hi : p mod 64 < 64) by (apply N.mod_lt; lia).
  rewrite word_pL by exact Hk. unfold sigma. rewrite !N.lxor_spec, !testbit_rotr.
  replace (p mod 64 <? 64) with true by lia. cbn [andb].
  rewrite !peval_padd, !(peval_psub s x c) by (try assumption; apply N.mod_lt; lia). reflexivity.
Qed.

(** ** Symbolic layouts *)

(** Junk and context: variables from 321 on, 64 for each word; the context
    has the numbers 0 to 31, the cells the following ones. *)
Definition jvar (w k : N) : sword := map (fun i => var (320 + 64 * k + N.of_nat i)) (seq 0 (N.to_nat w)).
Definition sym1 (w k : N) (c : cell) : sword :=
  match c with
  | SB l => map var l
  | K n => sconst (N.to_nat (N.size n)) n
  | Sv k => jvar w (N.of_nat k)
  | J => jvar w k
  end.
Fixpoint sym (w k : N) (l : list cell) : list sword :=
  match l with [] => [] | c :: r => sym1 w k c :: sym w (k + 1) r end.
Definition len {A} (l : list A) : N := N.of_nat (length l).
Definition sbase_of (w : N) : sword := if w =? 8 then zip por (jvar w 0) (sshl 16 8 (jvar w 1)) else jvar w 0.
Definition sinit (w : N) (L : layout) : smach :=
  SMach (sym w 32 (l_regs L)) (sym w (32 + len (l_regs L)) (l_stk L)) (sbase_of w)
        (sym w (32 + len (l_regs L) + len (l_stk L)) (l_obj L)).

Fixpoint bits_eqb (n : nat) (a b : sword) : bool :=
  match n with
  | O => true
  | S n => (if list_eq_dec (list_eq_dec Pos.eq_dec) (nth n a []) (nth n b []) then true else false) && bits_eqb n a b
  end.
Definition sweqb (a b : sword) : bool := bits_eqb (Nat.max (length a) (length b)) a b.
Definition chk1 (w : N) (f : N -> poly) (v : sword) (c : cell) : bool :=
  match c with
  | SB l => sweqb v (map f l)
  | K n => match is_const v with Some m => m =? n | None => false end
  | Sv k => sweqb v (jvar w (N.of_nat k))
  | J => fitsb (N.to_nat w) v
  end.
Fixpoint chks (w : N) (f : N -> poly) (vs : list sword) (l : list cell) : bool :=
  match vs, l with
  | [], [] => true
  | v :: vs, c :: l => chk1 w f v c && chks w f vs l
  | _, _ => false
  end.

Definition bits_lt (l : list cell) : bool :=
  forallb (fun c => match c with SB l => forallb (fun p => p <? 320) l | Sv k => (k <? 32)%nat | _ => true end) l.
Definition lay_wf (L : layout) : bool := bits_lt (l_regs L) && bits_lt (l_stk L) && bits_lt (l_obj L).

Definition chk (w : N) (f : N -> poly) (M : smach) (L : layout) : bool :=
  chks w f (sregs M) (l_regs L) && chks w f (sstk M) (l_stk L) && chks w f (sobj M) (l_obj L) && sweqb (sbase M) (sbase_of w).

(** Program [p] performs the round with constant [c] ([Some c]), or only
    moves data ([None]), from layout [L] to layout [L']. *)
Definition f_of (oc : option N) : N -> poly := match oc with Some c => pround c | None => var end.
Definition check (w : N) (fuel : nat) (p : list stm) (oc : option N) (L L' : layout) : bool :=
  (w <=? 64) && lay_wf L && lay_wf L' &&
  match srun fuel p (sinit w L) with Some S' => chk w (f_of oc) S' L' | None => false end.
Definition s_of (oc : option N) (s : state) : state := match oc with Some c => round s c | None => s end.

(** ** Soundness *)

Lemma sweqb_ok e v a b : sweqb a b = true -> rep e v a -> rep e v b.
Proof.
  intros H R i. rewrite R. f_equal. unfold sbit. unfold sweqb in H.
  destruct (Nat.ltb_spec i (Nat.max (length a) (length b))) as [Hi|Hi].
  - revert Hi H. generalize (Nat.max (length a) (length b)) as n. induction n as [|n IH]; intros Hi H; [lia|].
    cbn [bits_eqb] in H. apply andb_prop in H. destruct H as [H1 H2].
    destruct (Nat.eq_dec i n) as [->|D]; [|apply IH; [lia|exact H2]].
    destruct (list_eq_dec (list_eq_dec Pos.eq_dec) (nth n a []) (nth n b [])) as [E|]; [exact E|discriminate].
  - rewrite !nth_overflow by lia. reflexivity.
Qed.

(** The environment of a machine: state bits, then the bits of all cells. *)
Definition envM (s : state) (vs : list N) : env := fun v =>
  let p := Pos.pred_N v in
  if p <? 320 then stbit s p
  else N.testbit (nth (N.to_nat ((p - 320) / 64)) vs 0) ((p - 320) mod 64).
Lemma envM_st s vs : env_of s (envM s vs).
Proof.
  intros p Hp. unfold envM. rewrite N.pos_pred_succ. replace (p <? 320) with true by lia. reflexivity.
Qed.
Lemma envM_j s vs k i : i < 64 -> envM s vs (N.succ_pos (320 + 64 * k + i)) = N.testbit (nth (N.to_nat k) vs 0) i.
Proof.
  intros Hi. unfold envM. rewrite N.pos_pred_succ. replace (320 + 64 * k + i <? 320) with false by lia.
  replace (320 + 64 * k + i - 320) with (64 * k + i) by lia.
  replace ((64 * k + i) / 64) with k by (apply N.div_unique with i; lia).
  replace ((64 * k + i) mod 64) with i by (apply N.mod_unique with k; lia). reflexivity.
Qed.
Lemma rep_jvar s vs w k v : w <= 64 -> nth (N.to_nat k) vs 0 = v -> fits w v -> rep (envM s vs) v (jvar w k).
Proof.
  intros Hw <- F i. unfold sbit, jvar. destruct (Nat.ltb_spec i (N.to_nat w)) as [H|H].
  - set (f := fun j => var (320 + 64 * k + N.of_nat j)).
    rewrite (nth_indep _ [] (f 0%nat)) by (rewrite map_length, seq_length; exact H).
    rewrite (map_nth f), seq_nth by exact H. unfold f, var. rewrite peval_pvar, envM_j by lia.
    rewrite Nat.add_0_l. reflexivity.
  - rewrite (nth_overflow (map _ _)) by (rewrite map_length, seq_length; exact H).
    rewrite (fits_bit_high w) by (assumption || lia). reflexivity.
Qed.
Lemma nth_map_poly (f : N -> poly) l i : nth i (map f l) [] = match nth_error l i with Some p => f p | None => [] end.
Proof.
  revert i. induction l as [|p l IH]; intros i; [destruct i; reflexivity|].
  destruct i; [reflexivity|apply IH].
Qed.
Lemma nth_error_lt l i p : forallb (fun p => p <? 320) l = true -> nth_error l i = Some p -> p < 320.
Proof. intros H E. apply nth_error_In in E. rewrite forallb_forall in H. specialize (H p E). lia. Qed.

Lemma rep_sym1 s ctx vs w k v c : w <= 64 -> ctx_ok w ctx -> bits_lt [c] = true ->
  nth (N.to_nat k) (ctx ++ vs) 0 = v -> cell_ok w s ctx v c -> rep (envM s (ctx ++ vs)) v (sym1 w k c).
Proof.
  intros Hw [Cl Cf] B Hk H. destruct c as [l|n|j|]; cbn [cell_ok sym1] in *.
  - intros i. rewrite H. unfold sbit, lbit. rewrite nth_map_poly.
    destruct (nth_error l i) as [p|] eqn:E; [|reflexivity].
    unfold var. rewrite peval_pvar. symmetry. apply envM_st.
    cbn [bits_lt forallb] in B. rewrite andb_true_r in B. exact (nth_error_lt l i p B E).
  - subst n. apply rep_sconst, fits_size.
  - cbn [bits_lt forallb] in B. rewrite andb_true_r in B. apply Nat.ltb_lt in B.
    rewrite H. apply rep_jvar; [exact Hw| |].
    + rewrite Nat2N.id. apply app_nth1. lia.
    + rewrite Forall_forall in Cf. apply Cf, nth_In. lia.
  - apply rep_jvar; auto.
Qed.
Lemma rep_sym s ctx us' w : w <= 64 -> ctx_ok w ctx -> forall us l pre post, us' = pre ++ us ++ post ->
  bits_lt l = true -> Forall2 (cell_ok w s ctx) us l -> reps (envM s (ctx ++ us')) us (sym w (32 + len pre) l).
Proof.
  intros Hw C us l. revert us. induction l as [|c l IH]; intros us pre post E B H; destruct us as [|v us1]; try (inversion H; fail).
  - constructor.
  - assert (H1 : cell_ok w s ctx v c) by (inversion H; assumption).
    assert (H2 : Forall2 (cell_ok w s ctx) us1 l) by (inversion H; assumption).
    cbn [sym]. cbn [bits_lt forallb] in B. apply andb_prop in B. destruct B as [B1 B2].
    constructor.
    + apply rep_sym1; auto.
      * cbn [bits_lt forallb]. rewrite B1. reflexivity.
      * destruct C as [Cl _]. unfold len. rewrite E, app_nth2 by lia.
        replace (N.to_nat (32 + N.of_nat (length pre)) - length ctx)%nat with (length pre) by lia.
        rewrite app_nth2, Nat.sub_diag by lia. reflexivity.
    + replace (32 + len pre + 1) with (32 + len (pre ++ [v])) by (unfold len; rewrite app_length; cbn; lia).
      apply (IH us1 (pre ++ [v]) post); [|exact B2|exact H2].
      rewrite E, <- app_assoc. reflexivity.
Qed.

Lemma chk1_ok s e w (f : N -> poly) s' v sv c ctx : env_of s e -> bits_lt [c] = true ->
  (forall k, (k < 32)%nat -> rep e (nth k ctx 0) (jvar w (N.of_nat k))) ->
  (forall p, p < 320 -> peval e (f p) = stbit s' p) -> chk1 w f sv c = true -> rep e v sv -> cell_ok w s' ctx v c.
Proof.
  intros E B Rb F H R. destruct c as [l|n|k|]; cbn [chk1 cell_ok] in *.
  - intros i. rewrite (sweqb_ok _ _ _ _ H R i). unfold sbit, lbit. rewrite nth_map_poly.
    destruct (nth_error l i) as [p|] eqn:El; [|reflexivity]. apply F.
    cbn [bits_lt forallb] in B. rewrite andb_true_r in B. exact (nth_error_lt l i p B El).
  - destruct (is_const sv) as [m|] eqn:Em; [|discriminate]. rewrite (is_const_ok e _ _ _ Em R). lia.
  - cbn [bits_lt forallb] in B. rewrite andb_true_r in B. apply Nat.ltb_lt in B.
    exact (rep_inj e _ _ _ (sweqb_ok _ _ _ _ H R) (Rb k B)).
  - apply Nat.leb_le in H. rewrite <- (N2Nat.id w). exact (rep_fits e v sv _ R H).
Qed.
Lemma chks_ok s e w (f : N -> poly) s' ctx : env_of s e ->
  (forall k, (k < 32)%nat -> rep e (nth k ctx 0) (jvar w (N.of_nat k))) ->
  (forall p, p < 320 -> peval e (f p) = stbit s' p) -> forall l vs svs, bits_lt l = true ->
  chks w f svs l = true -> reps e vs svs -> Forall2 (cell_ok w s' ctx) vs l.
Proof.
  intros E Rb F. induction l as [|c l IH]; intros vs svs B H R; destruct svs as [|sv svs]; try discriminate; inversion R; subst.
  - constructor.
  - cbn [chks] in H. apply andb_prop in H. destruct H as [H1 H2].
    cbn [bits_lt forallb] in B. apply andb_prop in B. destruct B as [B1 B2].
    constructor; [|eapply IH; eassumption].
    eapply chk1_ok; try eassumption. cbn [bits_lt forallb]. rewrite B1. reflexivity.
Qed.

Lemma rep_ctx w ctx s vs : w <= 64 -> ctx_ok w ctx ->
  forall k, (k < 32)%nat -> rep (envM s (ctx ++ vs)) (nth k ctx 0) (jvar w (N.of_nat k)).
Proof.
  intros Hw [Cl Cf] k Hk. apply rep_jvar; [exact Hw| |].
  - rewrite Nat2N.id. apply app_nth1. lia.
  - rewrite Forall_forall in Cf. apply Cf, nth_In. lia.
Qed.
Lemma rep_base w ctx s vs : w <= 64 -> ctx_ok w ctx -> rep (envM s (ctx ++ vs)) (base_of w ctx) (sbase_of w).
Proof.
  intros Hw C. unfold base_of, sbase_of. pose proof (rep_ctx w ctx s vs Hw C) as R.
  destruct (w =? 8); [|exact (R 0%nat ltac:(lia))].
  apply rep_or; [exact (R 0%nat ltac:(lia))|]. exact (rep_shl _ 16 8 _ _ (R 1%nat ltac:(lia))).
Qed.
Lemma rep_init w ctx s M L : w <= 64 -> ctx_ok w ctx -> lay_wf L = true -> lay_ok w ctx s M L ->
  rep_mach (envM s (ctx ++ regs M ++ stk M ++ obj M)) M (sinit w L).
Proof.
  intros Hw C W [Hr Hs Ho Hb].
  unfold lay_wf in W. apply andb_prop in W. destruct W as [W Wo]. apply andb_prop in W. destruct W as [Wr Ws].
  set (vs := regs M ++ stk M ++ obj M).
  assert (Hlr : length (regs M) = length (l_regs L)) by (clear - Hr; induction Hr; cbn; congruence).
  assert (Hls : length (stk M) = length (l_stk L)) by (clear - Hs; induction Hs; cbn; congruence).
  constructor; unfold sinit; cbn [sregs sstk sbase sobj].
  - apply (rep_sym s ctx vs w Hw C (regs M) (l_regs L) [] (stk M ++ obj M)); [reflexivity|exact Wr|exact Hr].
  - replace (len (l_regs L)) with (len (regs M)) by (unfold len; lia).
    apply (rep_sym s ctx vs w Hw C (stk M) (l_stk L) (regs M) (obj M)); [reflexivity|exact Ws|exact Hs].
  - rewrite Hb. exact (rep_base w ctx s vs Hw C).
  - replace (32 + len (l_regs L) + len (l_stk L)) with (32 + len (regs M ++ stk M)) by (unfold len; rewrite app_length; lia).
    apply (rep_sym s ctx vs w Hw C (obj M) (l_obj L) (regs M ++ stk M) []); [|exact Wo|exact Ho].
    unfold vs. rewrite app_nil_r, app_assoc. reflexivity.
Qed.

Theorem check_sound w fuel p oc L L' ctx : check w fuel p oc L L' = true -> ctx_ok w ctx ->
  forall s M, lay_ok w ctx s M L -> exists M', run fuel p M = Some M' /\ lay_ok w ctx (s_of oc s) M' L'.
Proof.
  unfold check. intros H C s M HL.
  destruct (srun fuel p (sinit w L)) as [S'|] eqn:E; [|rewrite !andb_false_r in H; discriminate].
  apply andb_prop in H. destruct H as [H HC]. apply andb_prop in H. destruct H as [H W'].
  apply andb_prop in H. destruct H as [Hw W]. apply N.leb_le in Hw.
  unfold lay_wf in W'. apply andb_prop in W'. destruct W' as [W' Wo']. apply andb_prop in W'. destruct W' as [Wr' Ws'].
  set (vs := regs M ++ stk M ++ obj M). set (e := envM s (ctx ++ vs)).
  pose proof (rep_ctx w ctx s vs Hw C) as Rb. fold e in Rb.
  pose proof (rep_init w ctx s M L Hw C W HL) as R. fold vs in R. fold e in R.
  destruct (srun_sound e fuel p M _ S' R E) as (M' & E' & [R1 R2 R3 R4]).
  unfold chk in HC. apply andb_prop in HC. destruct HC as [HC C4]. apply andb_prop in HC. destruct HC as [HC C3].
  apply andb_prop in HC. destruct HC as [C1 C2].
  assert (F : forall q, q < 320 -> peval e (f_of oc q) = stbit (s_of oc s) q).
  { intros q Hq. destruct oc as [c|]; cbn [f_of s_of].
    - apply peval_pround; [apply envM_st|exact Hq].
    - unfold var. rewrite peval_pvar. apply envM_st, Hq. }
  exists M'. split; [exact E'|].
  constructor; [| | |exact (rep_inj e _ _ _ (sweqb_ok _ _ _ _ C4 R3) (rep_base w ctx s vs Hw C))].
  - eapply chks_ok with (s := s) (e := e); try eassumption. apply envM_st.
  - eapply chks_ok with (s := s) (e := e); try eassumption. apply envM_st.
  - eapply chks_ok with (s := s) (e := e); try eassumption. apply envM_st.
Qed.
(** Two executions from the same layout are observed alike. *)
Theorem check_leak w fuel p oc L L' ctx ctx' : check w fuel p oc L L' = true -> ctx_ok w ctx -> ctx_ok w ctx' ->
  forall s s' M M', lay_ok w ctx s M L -> lay_ok w ctx' s' M' L -> run_leak fuel p M = run_leak fuel p M'.
Proof.
  unfold check. intros H C C' s s' M M' HL HL'.
  destruct (srun fuel p (sinit w L)) as [S'|] eqn:E; [|rewrite !andb_false_r in H; discriminate].
  apply andb_prop in H. destruct H as [H _]. apply andb_prop in H. destruct H as [H _].
  apply andb_prop in H. destruct H as [Hw W]. apply N.leb_le in Hw.
  exact (srun_leak _ _ fuel p M M' _ S' (rep_init w ctx s M L Hw C W HL) (rep_init w ctx' s' M' L Hw C' W HL') E).
Qed.

(** ** Sequences of rounds *)

Lemma run_app f q M1 M2 : run f q M1 = Some M2 -> forall n p M, run n p M = Some M1 -> run (n + f) (p ++ q) M = Some M2.
Proof.
  intros H2. induction n as [|n IH]; intros p M H; [discriminate|].
  destruct p as [|[l|body a b] p]; cbn [run app] in *.
  - injection H as ->. apply (run_mono f); [exact H2|lia].
  - cbn [run Nat.add]. destruct (exec l M); [|discriminate]. apply IH, H.
  - cbn [run Nat.add]. destruct (run n body M) as [M'|] eqn:E; [|discriminate].
    rewrite (run_mono n body M M' E (n + f)) by lia.
    destruct (weval (regs M') a =? weval (regs M') b); [apply IH, H|exact (IH (DoWhile body a b :: p) M' H)].
Qed.

(** Layout and state after a sequence of steps. *)
Fixpoint last_lay (L : layout) (l : list (option N * layout)) : layout :=
  match l with [] => L | (_, L') :: r => last_lay L' r end.
Definition s_chain (s : state) (l : list (option N * layout)) : state := fold_left (fun s t => s_of (fst t) s) l s.

(** A loop whose iterations are given: what each computes and the layout
    it leaves; the loop condition must be decided by the layout's constants. *)
Definition cell_const (c : cell) : N := match c with K n => n | _ => 0 end.
Definition wx_const (l : list cell) (t : wx) : bool :=
  match t with Reg r => match nth r l J with K _ => true | _ => false end | Cst _ => true | _ => false end.
Fixpoint iters (w : N) (fuel : nat) (body : list stm) (a b : wx) (L : layout) (l : list (option N * layout)) : bool :=
  match l with
  | [] => false
  | (oc, L') :: r =>
    let k := map cell_const (l_regs L') in
    check w fuel body oc L L' && wx_const (l_regs L') a && wx_const (l_regs L') b &&
    match r with
    | [] => weval k a =? weval k b
    | _ => negb (weval k a =? weval k b) && iters w fuel body a b L' r
    end
  end.
Lemma wx_const_ok w s ctx vs l t : Forall2 (cell_ok w s ctx) vs l -> wx_const l t = true -> weval vs t = weval (map cell_const l) t.
Proof.
  intros H. destruct t; cbn [wx_const weval]; try (intros; discriminate); [|reflexivity].
  revert r. induction H as [|v c vs l H _ IH]; intros r; [destruct r; discriminate|].
  destruct r as [|r]; [|exact (IH r)]. cbn. destruct c; try discriminate. intros _. exact H.
Qed.
Theorem iters_sound w ctx fuel body a b l : ctx_ok w ctx -> forall L s M, iters w fuel body a b L l = true -> lay_ok w ctx s M L ->
  exists M', run (fuel + length l + 1) [DoWhile body a b] M = Some M' /\ lay_ok w ctx (s_chain s l) M' (last_lay L l).
Proof.
  intros C. induction l as [|[oc L'] l IH]; intros L s M H HL; [discriminate|].
  cbn [iters last_lay] in *. unfold s_chain. cbn [fold_left fst]. fold (s_chain (s_of oc s) l).
  apply andb_prop in H. destruct H as [H Hr]. apply andb_prop in H. destruct H as [H Hb].
  apply andb_prop in H. destruct H as [H Ha].
  destruct (check_sound w fuel body oc L L' ctx H C s M HL) as (M1 & E1 & HL1).
  pose proof (wx_const_ok _ _ _ _ _ _ (lo_regs _ _ _ _ _ HL1) Ha) as Va.
  pose proof (wx_const_ok _ _ _ _ _ _ (lo_regs _ _ _ _ _ HL1) Hb) as Vb.
  destruct l as [|i l].
  - exists M1. split; [|exact HL1]. replace (fuel + length [(oc, L')] + 1)%nat with (S (S fuel)) by (cbn; lia).
    pose proof (run_mono fuel body M M1 E1 (S fuel) ltac:(lia)) as E2.
    assert (E3 : run (S fuel) [] M1 = Some M1) by reflexivity. revert E2 E3. generalize (S fuel) as n.
    intros n E2 E3. cbn [run]. rewrite E2, Va, Vb, Hr. exact E3.
  - apply andb_prop in Hr. destruct Hr as [Hn Hr].
    destruct (IH L' _ M1 Hr HL1) as (M2 & E2 & HL2).
    exists M2. split; [|exact HL2].
    replace (fuel + length ((oc, L') :: i :: l) + 1)%nat with (S (fuel + length (i :: l) + 1)) by (cbn [length]; lia).
    revert E2. assert (E3 := run_mono fuel body M M1 E1 (fuel + length (i :: l) + 1) ltac:(lia)). revert E3.
    generalize (fuel + length (i :: l) + 1)%nat as n. intros n E3 E2.
    cbn [run]. rewrite E3, Va, Vb.
    destruct (weval _ a =? weval _ b); [discriminate|]. exact E2.
Qed.

(** ** Observations of sequences and loops *)

Lemma run_leak_mono : forall f p M M', run f p M = Some M' -> forall g, (f <= g)%nat -> run_leak g p M = run_leak f p M.
Proof.
  induction f as [|f IH]; intros p M M' H g Hg; [discriminate|]. destruct g as [|g]; [lia|].
  assert (Hfg : (f <= g)%nat) by lia.
  destruct p as [|[l|body a b] p]; cbn [run run_leak] in *; [reflexivity| |].
  - destruct (exec l M) as [M1|]; [|discriminate]. rewrite (IH p M1 M' H g Hfg). reflexivity.
  - destruct (run f body M) as [M1|] eqn:E; [|discriminate].
    rewrite (run_mono f body M M1 E g Hfg), (IH body M M1 E g Hfg).
    destruct (weval (regs M1) a =? weval (regs M1) b).
    + rewrite (IH p M1 M' H g Hfg). reflexivity.
    + rewrite (IH _ M1 M' H g Hfg). reflexivity.
Qed.
Lemma run_leak_app f q M1 M2 : run f q M1 = Some M2 -> forall n p M, run n p M = Some M1 ->
  run_leak (n + f) (p ++ q) M = run_leak n p M ++ run_leak f q M1.
Proof.
  intros H2. induction n as [|n IH]; intros p M H; [discriminate|].
  destruct p as [|[l|body a b] p]; cbn [run app] in H.
  - injection H as ->. cbn [app run_leak]. apply (run_leak_mono f q M1 M2 H2). lia.
  - cbn [app Nat.add run_leak]. destruct (exec l M) as [M'|]; [|discriminate].
    rewrite (IH p M' H), app_assoc. reflexivity.
  - cbn [app Nat.add run_leak]. destruct (run n body M) as [M'|] eqn:E; [|discriminate].
    rewrite (run_mono n body M M' E (n + f)) by lia.
    rewrite (run_leak_mono n body M M' E (n + f)) by lia.
    destruct (weval (regs M') a =? weval (regs M') b).
    + rewrite (IH p M' H), <- app_assoc. reflexivity.
    + change (DoWhile body a b :: p ++ q) with ((DoWhile body a b :: p) ++ q).
      rewrite (IH _ M' H), <- app_assoc. reflexivity.
Qed.
Theorem iters_leak w ctx ctx' fuel body a b l : ctx_ok w ctx -> ctx_ok w ctx' -> forall L s s' M M',
  iters w fuel body a b L l = true -> lay_ok w ctx s M L -> lay_ok w ctx' s' M' L ->
  run_leak (fuel + length l + 1) [DoWhile body a b] M = run_leak (fuel + length l + 1) [DoWhile body a b] M'.
Proof.
  intros C C'. induction l as [|[oc L'] l IH]; intros L s s' M M' H HL HL'; [discriminate|].
  cbn [iters] in H.
  apply andb_prop in H. destruct H as [H Hr]. apply andb_prop in H. destruct H as [H Hb].
  apply andb_prop in H. destruct H as [H Ha].
  destruct (check_sound w fuel body oc L L' ctx H C s M HL) as (M1 & E1 & HL1).
  destruct (check_sound w fuel body oc L L' ctx' H C' s' M' HL') as (M1' & E1' & HL1').
  pose proof (check_leak w fuel body oc L L' ctx ctx' H C C' s s' M M' HL HL') as HK.
  pose proof (wx_const_ok _ _ _ _ _ _ (lo_regs _ _ _ _ _ HL1) Ha) as Va.
  pose proof (wx_const_ok _ _ _ _ _ _ (lo_regs _ _ _ _ _ HL1) Hb) as Vb.
  pose proof (wx_const_ok _ _ _ _ _ _ (lo_regs _ _ _ _ _ HL1') Ha) as Va'.
  pose proof (wx_const_ok _ _ _ _ _ _ (lo_regs _ _ _ _ _ HL1') Hb) as Vb'.
  replace (fuel + length ((oc, L') :: l) + 1)%nat with (S (fuel + length l + 1)) by (cbn [length]; lia).
  assert (E2 := run_mono fuel body M M1 E1 (fuel + length l + 1) ltac:(lia)).
  assert (E2' := run_mono fuel body M' M1' E1' (fuel + length l + 1) ltac:(lia)).
  assert (K := run_leak_mono fuel body M M1 E1 (fuel + length l + 1) ltac:(lia)).
  assert (K' := run_leak_mono fuel body M' M1' E1' (fuel + length l + 1) ltac:(lia)).
  assert (IHl := fun Hr => IH L' _ _ M1 M1' Hr HL1 HL1').
  assert (Nil : forall X, run_leak (fuel + length l + 1) [] X = []).
  { intros X. replace (fuel + length l + 1)%nat with (S (fuel + length l)) by lia. reflexivity. }
  revert E2 E2' K K' IHl Nil. generalize (fuel + length l + 1)%nat as n. intros n E2 E2' K K' IHl Nil.
  cbn [run_leak]. rewrite E2, E2', K, K', HK, Va, Vb, Va', Vb'.
  destruct l as [|i l].
  - rewrite Hr, !Nil. reflexivity.
  - apply andb_prop in Hr. destruct Hr as [Hn Hr].
    destruct (weval _ a =? weval _ b); [discriminate|]. rewrite (IHl Hr). reflexivity.
Qed.
