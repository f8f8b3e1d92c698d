(** * Poly.v -- symbolic execution of the machine of Asm.v.

    A bit is a polynomial over GF(2) in the input bits (a list of monomials,
    a monomial is a list of variables), a word a list of bits, least
    significant first.  [sexec] runs a program on symbolic words;
    [sexec_sound] relates it to the machine. *)
From Coq Require Import Arith NArith PArith List Lia Bool.
From Coq Require Import ZifyBool ZifyNat ZifyN.
From Verif Require Import Words WordFacts Asm.
Import ListNotations.
Local Open Scope N_scope.

Definition mono := list positive.
Definition poly := list mono.
Definition env := positive -> bool.

Fixpoint meval (e : env) (m : mono) : bool := match m with [] => true | v :: r => e v && meval e r end.
Fixpoint peval (e : env) (p : poly) : bool := match p with [] => false | m :: r => xorb (meval e m) (peval e r) end.

Fixpoint mcmp (a b : mono) : comparison :=
  match a, b with
  | [], [] => Eq | [], _ => Lt | _, [] => Gt
  | x :: a, y :: b => match Pos.compare x y with Eq => mcmp a b | c => c end
  end.
Lemma mcmp_eq : forall a b, mcmp a b = Eq -> a = b.
Proof.
  induction a as [|x a IH]; intros [|y b]; cbn; try discriminate; [reflexivity|].
  destruct (Pos.compare_spec x y) as [->| |]; try discriminate. intros H. f_equal. apply IH, H.
Qed.

Fixpoint mmul (a : mono) : mono -> mono :=
  fix aux (b : mono) : mono :=
    match a, b with
    | [], _ => b
    | _, [] => a
    | x :: a', y :: b' =>
      match Pos.compare x y with
      | Eq => x :: mmul a' b'
      | Lt => x :: mmul a' b
      | Gt => y :: aux b'
      end
    end.
Lemma meval_mmul e : forall a b, meval e (mmul a b) = meval e a && meval e b.
Proof.
  induction a as [|x a IH]; [destruct b; reflexivity|].
  induction b as [|y b IHb]; [cbn; rewrite andb_true_r; reflexivity|].
  cbn. destruct (Pos.compare_spec x y) as [->|H|H]; cbn.
  - rewrite IH. destruct (e y), (meval e a), (meval e b); reflexivity.
  - rewrite IH. cbn. rewrite andb_assoc. reflexivity.
  - cbn in IHb. rewrite IHb. destruct (e x), (e y), (meval e a), (meval e b); reflexivity.
Qed.

Fixpoint padd (p : poly) : poly -> poly :=
  fix aux (q : poly) : poly :=
    match p, q with
    | [], _ => q
    | _, [] => p
    | m :: p', n :: q' =>
      match mcmp m n with
      | Eq => padd p' q'
      | Lt => m :: padd p' q
      | Gt => n :: aux q'
      end
    end.
Lemma peval_padd e : forall p q, peval e (padd p q) = xorb (peval e p) (peval e q).
Proof.
  induction p as [|m p IH]; [destruct q; cbn [padd peval]; rewrite ?xorb_false_l; reflexivity|].
  induction q as [|n q IHq]; [cbn; rewrite xorb_false_r; reflexivity|].
  cbn. destruct (mcmp m n) eqn:E; cbn.
  - apply mcmp_eq in E. subst n. rewrite IH.
    destruct (meval e m), (peval e p), (peval e q); reflexivity.
  - rewrite IH. cbn. rewrite xorb_assoc. reflexivity.
  - cbn in IHq. rewrite IHq. destruct (meval e n), (meval e m), (peval e p), (peval e q); reflexivity.
Qed.

Fixpoint pmul1 (m : mono) (q : poly) : poly :=
  match q with [] => [] | n :: q' => padd [mmul m n] (pmul1 m q') end.
Fixpoint pmul (p q : poly) : poly :=
  match p with [] => [] | m :: p' => padd (pmul1 m q) (pmul p' q) end.
Lemma peval_pmul1 e m q : peval e (pmul1 m q) = meval e m && peval e q.
Proof.
  induction q as [|n q IH]; cbn [pmul1 peval]; [rewrite andb_false_r; reflexivity|].
  rewrite peval_padd, IH. cbn [peval]. rewrite meval_mmul.
  destruct (meval e m), (meval e n), (peval e q); reflexivity.
Qed.
Lemma peval_pmul e p q : peval e (pmul p q) = peval e p && peval e q.
Proof.
  induction p as [|m p IH]; cbn [pmul peval]; [reflexivity|].
  rewrite peval_padd, peval_pmul1, IH. destruct (meval e m), (peval e p), (peval e q); reflexivity.
Qed.

Definition p1 : poly := [[]].
Definition pnot (p : poly) : poly := padd p1 p.
Definition por (p q : poly) : poly := padd (padd p q) (pmul p q).
Definition pbit (b : bool) : poly := if b then p1 else [].
Definition pvar (v : positive) : poly := [[v]].
Lemma peval_p1 e : peval e p1 = true. Proof. reflexivity. Qed.
Lemma peval_pnot e p : peval e (pnot p) = negb (peval e p).
Proof. unfold pnot. rewrite peval_padd. reflexivity. Qed.
Lemma peval_por e p q : peval e (por p q) = peval e p || peval e q.
Proof. unfold por. rewrite !peval_padd, peval_pmul. destruct (peval e p), (peval e q); reflexivity. Qed.
Lemma peval_pbit e b : peval e (pbit b) = b. Proof. destruct b; reflexivity. Qed.
Lemma peval_pvar e v : peval e (pvar v) = e v.
Proof. cbn. rewrite andb_true_r, xorb_false_r. reflexivity. Qed.

(** ** Words *)

Definition sword := list poly.
Definition sbit (l : sword) (i : nat) : poly := nth i l [].
(** [v] is the value of the symbolic word [l]. *)
Definition rep (e : env) (v : N) (l : sword) : Prop :=
  forall i, N.testbit v (N.of_nat i) = peval e (sbit l i).

Lemma rep_inj e v v' l : rep e v l -> rep e v' l -> v = v'.
Proof.
  intros H H'. apply N.bits_inj. intros i. rewrite <- (N2Nat.id i), H, H'. reflexivity.
Qed.
Lemma rep_0 e : rep e 0 [].
Proof. intros i. rewrite N.bits_0. unfold sbit. destruct i; reflexivity. Qed.
Lemma rep_fits e v l w : rep e v l -> (length l <= w)%nat -> fits (N.of_nat w) v.
Proof.
  intros H L. apply fits_testbit. intros i Hi. rewrite <- (N2Nat.id i), H.
  unfold sbit. rewrite nth_overflow by lia. reflexivity.
Qed.

Fixpoint zip (f : poly -> poly -> poly) (a b : sword) : sword :=
  match a, b with
  | [], _ => map (f []) b
  | _, [] => map (fun x => f x []) a
  | x :: a, y :: b => f x y :: zip f a b
  end.
Lemma zip_bit f : f [] [] = [] -> forall a b i, sbit (zip f a b) i = f (sbit a i) (sbit b i).
Proof.
  intros F. unfold sbit.
  assert (G : forall (g : poly -> poly) l i, g [] = [] -> nth i (map g l) [] = g (nth i l [])).
  { intros g l i Hg. rewrite <- Hg at 1. apply map_nth. }
  induction a as [|x a IH]; intros b i.
  - cbn [zip]. rewrite G by exact F. destruct i; reflexivity.
  - destruct b as [|y b].
    + cbn [zip]. rewrite (G (fun x => f x [])) by exact F. f_equal. destruct i; reflexivity.
    + destruct i as [|i]; [reflexivity|]. cbn [zip nth]. apply IH.
Qed.

Definition sconst (w : nat) (n : N) : sword := map (fun i => pbit (N.testbit n (N.of_nat i))) (seq 0 w).
Fixpoint is_const (l : sword) : option N :=
  match l with
  | [] => Some 0
  | b :: r => match is_const r with
              | Some n => match b with
                          | [] => Some (N.double n)
                          | [[]] => Some (N.succ_double n)
                          | _ => None
                          end
              | None => None
              end
  end.
Lemma rep_sconst e w n : fits (N.of_nat w) n -> rep e n (sconst w n).
Proof.
  intros H i. unfold sbit, sconst. destruct (Nat.ltb_spec i w) as [Hi|Hi].
  - rewrite (nth_indep _ [] ((fun i => pbit (N.testbit n (N.of_nat i))) 0%nat)) by (rewrite map_length, seq_length; exact Hi).
    rewrite (map_nth (fun i => pbit (N.testbit n (N.of_nat i)))), seq_nth by exact Hi.
    rewrite peval_pbit. reflexivity.
  - rewrite nth_overflow by (rewrite map_length, seq_length; exact Hi).
    rewrite (fits_bit_high (N.of_nat w)) by (assumption || lia). reflexivity.
Qed.
Lemma rep_is_const e l : forall n, is_const l = Some n -> rep e n l.
Proof.
  induction l as [|b l IH]; intros n H; cbn [is_const] in H; [injection H as <-; apply rep_0|].
  destruct (is_const l) as [k|]; [|discriminate]. specialize (IH k eq_refl).
  assert (D : forall i : nat, N.testbit (N.double k) (N.of_nat (S i)) = N.testbit k (N.of_nat i)).
  { intros i. rewrite N.double_spec. replace (N.of_nat (S i)) with (N.succ (N.of_nat i)) by lia. apply N.double_bits_succ. }
  destruct b as [|[|] [|]]; try discriminate; injection H as <-; intros [|i].
  - destruct k; reflexivity.
  - rewrite D. apply IH.
  - destruct k; reflexivity.
  - replace (N.succ_double k) with (2 * k + N.b2n true) by (destruct k; reflexivity).
    replace (N.of_nat (S i)) with (N.succ (N.of_nat i)) by lia. rewrite N.testbit_succ_r. apply IH.
Qed.
Lemma is_const_ok e l n v : is_const l = Some n -> rep e v l -> v = n.
Proof. intros H R. eapply rep_inj; [exact R|]. apply rep_is_const, H. Qed.

Definition padto (w : nat) (l : sword) : sword := firstn w l ++ repeat [] (w - length l).
Lemma length_padto w l : length (padto w l) = w.
Proof. unfold padto. rewrite app_length, firstn_length, repeat_length. lia. Qed.
Lemma nth_repeat_nil (n i : nat) : nth i (repeat (@nil mono) n) [] = [].
Proof. revert i; induction n; intros [|i]; cbn; auto. Qed.
Lemma padto_bit w l i : sbit (padto w l) i = if (i <? w)%nat then sbit l i else [].
Proof.
  unfold sbit. destruct (Nat.ltb_spec i w) as [H|H].
  - unfold padto. destruct (Nat.ltb_spec i (length l)) as [H'|H'].
    + rewrite app_nth1 by (rewrite firstn_length; lia).
      rewrite <- (firstn_skipn w l) at 2. rewrite app_nth1 by (rewrite firstn_length; lia). reflexivity.
    + rewrite app_nth2 by (rewrite firstn_length; lia). rewrite nth_repeat_nil, nth_overflow by lia. reflexivity.
  - apply nth_overflow. rewrite length_padto. exact H.
Qed.
Lemma firstn_bit w l i : sbit (firstn w l) i = if (i <? w)%nat then sbit l i else [].
Proof.
  unfold sbit. destruct (Nat.ltb_spec i w) as [H|H].
  - rewrite <- (firstn_skipn w l) at 2. destruct (Nat.ltb_spec i (length (firstn w l))) as [H'|H'].
    + rewrite app_nth1 by exact H'. reflexivity.
    + rewrite !nth_overflow; [reflexivity|rewrite app_length, skipn_length in *; rewrite firstn_length in *; lia|exact H'].
  - apply nth_overflow. rewrite firstn_length. lia.
Qed.
Definition strunc (w : nat) (l : sword) : sword := firstn w l.
Definition snot (w : nat) (l : sword) : sword := zip padd (repeat p1 w) l.
Definition sshl (w n : nat) (l : sword) : sword := firstn w (repeat [] n ++ l).
Definition sshr (n : nat) (l : sword) : sword := skipn n l.
Definition srorw (w n : nat) (l : sword) : sword := zip padd (sshr n l) (sshl w (w - n) l).

Lemma rep_zip e g f a b l k v :
  f [] [] = [] -> (forall p q, peval e (f p q) = g (peval e p) (peval e q)) ->
  (forall i, N.testbit v i = g (N.testbit a i) (N.testbit b i)) ->
  rep e a l -> rep e b k -> rep e v (zip f l k).
Proof. intros F G H Ra Rb i. rewrite zip_bit, G, H, Ra, Rb by exact F. reflexivity. Qed.
Lemma rep_xor e a b l k : rep e a l -> rep e b k -> rep e (N.lxor a b) (zip padd l k).
Proof. apply rep_zip with (g := xorb); [reflexivity|apply peval_padd|intros; apply N.lxor_spec]. Qed.
Definition sand (l k : sword) : sword := firstn (Nat.min (length l) (length k)) (zip pmul l k).
Lemma rep_and e a b l k : rep e a l -> rep e b k -> rep e (N.land a b) (sand l k).
Proof.
  intros Ra Rb i. rewrite N.land_spec, Ra, Rb. unfold sand. rewrite firstn_bit.
  destruct (Nat.ltb_spec i (Nat.min (length l) (length k))) as [H|H].
  - rewrite zip_bit, peval_pmul by reflexivity. reflexivity.
  - cbn [peval]. assert (D : (length l <= i \/ length k <= i)%nat) by lia. unfold sbit.
    destruct D as [D|D]; rewrite (nth_overflow _ _ D); cbn [peval]; [reflexivity|apply andb_false_r].
Qed.
Lemma rep_or e a b l k : rep e a l -> rep e b k -> rep e (N.lor a b) (zip por l k).
Proof. apply rep_zip with (g := orb); [reflexivity|apply peval_por|intros; apply N.lor_spec]. Qed.
Lemma rep_ones e w : rep e (N.ones (N.of_nat w)) (repeat p1 w).
Proof.
  intros i. rewrite testbit_ones. unfold sbit. destruct (N.ltb_spec (N.of_nat i) (N.of_nat w)) as [H|H].
  - rewrite (nth_indep _ [] p1) by (rewrite repeat_length; lia). rewrite nth_repeat. reflexivity.
  - rewrite nth_overflow by (rewrite repeat_length; lia). reflexivity.
Qed.
Lemma rep_not e w a l : rep e a l -> rep e (notw (N.of_nat w) a) (snot w l).
Proof. intros H. unfold notw, snot. rewrite N.lxor_comm. apply rep_xor; [apply rep_ones|exact H]. Qed.
Lemma rep_trunc e w a l : rep e a l -> rep e (trunc (N.of_nat w) a) (strunc w l).
Proof.
  intros H i. rewrite testbit_trunc. unfold strunc. rewrite firstn_bit, H.
  destruct (Nat.ltb_spec i w), (N.ltb_spec (N.of_nat i) (N.of_nat w)); try lia; reflexivity.
Qed.
Lemma rep_shl e w n a l : rep e a l -> rep e (shlw (N.of_nat w) a (N.of_nat n)) (sshl w n l).
Proof.
  intros H. unfold shlw, sshl. apply (rep_trunc e w). intros i. rewrite testbit_shiftl.
  unfold sbit. destruct (N.leb_spec (N.of_nat n) (N.of_nat i)) as [L|L].
  - rewrite app_nth2 by (rewrite repeat_length; lia). rewrite repeat_length.
    replace (N.of_nat i - N.of_nat n) with (N.of_nat (i - n)) by lia. apply H.
  - rewrite app_nth1 by (rewrite repeat_length; lia). rewrite nth_repeat_nil. reflexivity.
Qed.
Lemma nth_skipn_poly n (l : sword) i : nth i (skipn n l) [] = nth (n + i) l [].
Proof. revert l. induction n as [|n IH]; intros l; [reflexivity|]. destruct l; [destruct i; reflexivity|]. apply IH. Qed.
Lemma rep_shr e n a l : rep e a l -> rep e (shrw a (N.of_nat n)) (sshr n l).
Proof.
  intros H i. rewrite testbit_shrw. unfold sbit, sshr. rewrite nth_skipn_poly.
  replace (N.of_nat i + N.of_nat n) with (N.of_nat (n + i)) by lia. apply H.
Qed.
(** With [x] of at most [w] bits the two parts of a rotation are disjoint. *)
Lemma rep_ror e w n a l : (n <= w)%nat -> fits (N.of_nat w) a -> rep e a l -> rep e (rorw (N.of_nat w) a (N.of_nat n)) (srorw w n l).
Proof.
  intros Hn Ha H. unfold rorw, srorw.
  replace (N.lor (shrw a (N.of_nat n)) (shlw (N.of_nat w) a (N.of_nat w - N.of_nat n)))
    with (N.lxor (shrw a (N.of_nat n)) (shlw (N.of_nat w) a (N.of_nat (w - n)))).
  - apply rep_xor; [apply rep_shr, H|apply rep_shl, H].
  - replace (N.of_nat w - N.of_nat n) with (N.of_nat (w - n)) by lia.
    apply N.lxor_lor. apply N.bits_inj. intros i. rewrite N.land_spec, testbit_shrw, testbit_shlw, N.bits_0.
    destruct (N.leb_spec (N.of_nat (w - n)) i) as [L|L]; [|rewrite andb_false_r; cbn; rewrite ?andb_false_r; reflexivity].
    rewrite (fits_bit_high (N.of_nat w) a (i + N.of_nat n)) by (assumption || lia). reflexivity.
Qed.

(** Addition: a ripple-carry adder. *)
Definition pmaj (a b c : poly) : poly := padd (pmul a b) (pmul c (padd a b)).
Fixpoint sadd (w : nat) (c : poly) (l k : sword) : sword :=
  match w with
  | O => []
  | S w => let a := hd [] l in let b := hd [] k in
           padd (padd a b) c :: sadd w (pmaj a b c) (tl l) (tl k)
  end.
Lemma rep_hd e v l : rep e v l -> peval e (hd [] l) = N.odd v.
Proof. intros H. specialize (H 0%nat). unfold sbit in H. change (N.of_nat 0) with 0 in H. rewrite <- N.bit0_odd, H. destruct l; reflexivity. Qed.
Lemma rep_tl e v l : rep e v l -> rep e (v / 2) (tl l).
Proof.
  intros H i. specialize (H (S i)). replace (N.of_nat (S i)) with (N.succ (N.of_nat i)) in H by lia.
  rewrite N.testbit_succ_r_div2, N.div2_div in H by lia. rewrite H. destruct l; [destruct i|]; reflexivity.
Qed.
Lemma half_sum a b c : (a + b + N.b2n c) / 2 = a / 2 + b / 2 + N.b2n (xorb (N.odd a && N.odd b) (c && xorb (N.odd a) (N.odd b))) /\
  N.odd (a + b + N.b2n c) = xorb (xorb (N.odd a) (N.odd b)) c.
Proof.
  split.
  - symmetry. apply N.div_unique with (N.b2n (xorb (xorb (N.odd a) (N.odd b)) c)); [destruct (N.odd a), (N.odd b), c; cbn; lia|].
    pose proof (N.div2_odd a) as Ea. pose proof (N.div2_odd b) as Eb. rewrite N.div2_div in Ea, Eb.
    destruct (N.odd a), (N.odd b), c; cbn [N.b2n xorb andb] in *; lia.
  - rewrite !N.odd_add. f_equal. destruct c; reflexivity.
Qed.
Lemma rep_add e : forall w c p a b l k, peval e p = c -> rep e a l -> rep e b k ->
  rep e (trunc (N.of_nat w) (a + b + N.b2n c)) (sadd w p l k).
Proof.
  induction w as [|w IH]; intros c p a b l k Hc Ra Rb.
  - intros i. rewrite testbit_trunc. destruct i; reflexivity.
  - destruct (half_sum a b c) as [H1 H2]. intros i. rewrite testbit_trunc. destruct i as [|i].
    + cbn [sadd]. unfold sbit. cbn [nth]. rewrite !peval_padd, (rep_hd e a l Ra), (rep_hd e b k Rb), Hc.
      change (N.of_nat 0) with 0. rewrite N.bit0_odd, H2. replace (0 <? N.of_nat (S w)) with true by lia.
      rewrite ?andb_true_r. reflexivity.
    + cbn [sadd]. unfold sbit. cbn [nth].
      pose proof (IH (xorb (N.odd a && N.odd b) (c && xorb (N.odd a) (N.odd b))) (pmaj (hd [] l) (hd [] k) p) (a / 2) (b / 2) (tl l) (tl k)) as G.
      assert (Hm : peval e (pmaj (hd [] l) (hd [] k) p) = xorb (N.odd a && N.odd b) (c && xorb (N.odd a) (N.odd b))).
      { unfold pmaj. rewrite peval_padd, !peval_pmul, peval_padd, (rep_hd e a l Ra), (rep_hd e b k Rb), Hc. reflexivity. }
      specialize (G Hm (rep_tl e a l Ra) (rep_tl e b k Rb) i). unfold sbit in G. rewrite <- G, testbit_trunc, <- H1.
      replace (N.of_nat (S i)) with (N.succ (N.of_nat i)) by lia.
      rewrite N.testbit_succ_r_div2, N.div2_div by lia.
      replace (N.succ (N.of_nat i) <? N.of_nat (S w)) with (N.of_nat i <? N.of_nat w); [reflexivity|].
      destruct (N.ltb_spec (N.of_nat i) (N.of_nat w)), (N.ltb_spec (N.succ (N.of_nat i)) (N.of_nat (S w))); lia.
Qed.
Lemma rep_add0 e w a b l k : rep e a l -> rep e b k -> rep e (trunc (N.of_nat w) (a + b)) (sadd w [] l k).
Proof. intros Ra Rb. pose proof (rep_add e w false [] a b l k eq_refl Ra Rb) as H. cbn [N.b2n] in H. rewrite N.add_0_r in H. exact H. Qed.

(** Deciding equality: equal as polynomials, or different in a bit by the
    constant 1. *)
Definition sdecide (a b : sword) : option bool :=
  let d := zip padd a b in
  if forallb (fun p => match p with [] => true | _ => false end) d then Some true
  else if existsb (fun p => match p with [[]] => true | _ => false end) d then Some false
  else None.
Lemma sdecide_ok e v v' a b r : rep e v a -> rep e v' b -> sdecide a b = Some r -> (v =? v') = r.
Proof.
  intros Ra Rb. unfold sdecide. pose proof (rep_xor e v v' a b Ra Rb) as X. revert X. generalize (zip padd a b) as d. intros d X.
  match goal with |- (if ?f then _ else if ?g then _ else _) = _ -> _ => destruct f eqn:F; [|destruct g eqn:Ex; [|discriminate]] end; intros H; injection H as <-.
  - apply N.eqb_eq. apply N.lxor_eq. apply N.bits_inj. intros i. rewrite N.bits_0.
    specialize (X (N.to_nat i)). rewrite N2Nat.id in X. rewrite X.
    rewrite forallb_forall in F. unfold sbit. destruct (nth_in_or_default (N.to_nat i) d []) as [I|D]; [|rewrite D; reflexivity].
    specialize (F _ I). destruct (nth (N.to_nat i) d []); [reflexivity|discriminate].
  - apply N.eqb_neq. intros ->. rewrite N.lxor_nilpotent in X. apply existsb_exists in Ex. destruct Ex as (q & I & Hq).
    destruct (In_nth d q [] I) as (n & _ & Hn). specialize (X n). unfold sbit in X. rewrite Hn, N.bits_0 in X.
    destruct q as [|[|] [|]]; try discriminate.
Qed.

(** ** Expressions *)

Definition const2 (a b : option sword) : option (N * N) :=
  match a, b with
  | Some l, Some k => match is_const l, is_const k with Some x, Some y => Some (x, y) | _, _ => None end
  | _, _ => None
  end.
Definition fitsb (w : nat) (l : sword) : bool := (length l <=? w)%nat.
Fixpoint seval (rs : list sword) (t : wx) : option sword :=
  match t with
  | Reg r => Some (nth r rs [])
  | Cst n => Some (sconst (N.to_nat (N.size n)) n)
  | Xor a b => match seval rs a, seval rs b with Some l, Some k => Some (zip padd l k) | _, _ => None end
  | And a b => match seval rs a, seval rs b with Some l, Some k => Some (sand l k) | _, _ => None end
  | Or a b => match seval rs a, seval rs b with Some l, Some k => Some (zip por l k) | _, _ => None end
  | Not w a => match seval rs a with Some l => Some (snot (N.to_nat w) l) | None => None end
  | Shl w a n => match seval rs a with Some l => Some (sshl (N.to_nat w) (N.to_nat n) l) | None => None end
  | Shr a n => match seval rs a with Some l => Some (sshr (N.to_nat n) l) | None => None end
  | Ror w a n => match seval rs a with
                 | Some l => if (n <=? w) && fitsb (N.to_nat w) l then Some (srorw (N.to_nat w) (N.to_nat n) l) else None
                 | None => None
                 end
  | RorV w a b => match seval rs a, seval rs b with
                  | Some l, Some k => match is_const k with
                      | Some n => if (0 <? w) && fitsb (N.to_nat w) l
                                  then Some (srorw (N.to_nat w) (N.to_nat (n mod w)) l) else None
                      | None => None
                      end
                  | _, _ => None
                  end
  | Add w a b => match seval rs a, seval rs b with Some l, Some k => Some (sadd (N.to_nat w) [] l k) | _, _ => None end
  | Sub w a b => match const2 (seval rs a) (seval rs b) with
                 | Some (x, y) => Some (sconst (N.to_nat w) (trunc w (2 ^ w + x - y))) | None => None end
  | Tab l i => match seval rs i with
               | Some k => match is_const k with
                           | Some n => let v := nth (N.to_nat n) l 0 in Some (sconst (N.to_nat (N.size v)) v)
                           | None => None
                           end
               | None => None
               end
  end.

Lemma fits_size n : fits (N.of_nat (N.to_nat (N.size n))) n.
Proof. rewrite N2Nat.id. unfold fits. apply N.size_gt. Qed.
Lemma const2_ok e a b l k x y : rep e a l -> rep e b k -> const2 (Some l) (Some k) = Some (x, y) -> a = x /\ b = y.
Proof.
  intros Ra Rb. cbn. destruct (is_const l) eqn:E; [|discriminate]. destruct (is_const k) eqn:E'; [|discriminate].
  intros H. injection H as <- <-. split; [exact (is_const_ok e l n a E Ra)|exact (is_const_ok e k n0 b E' Rb)].
Qed.
Lemma rep_nth e rs ss r : Forall2 (rep e) rs ss -> rep e (nth r rs 0) (nth r ss []).
Proof.
  intros H. revert r. induction H as [|v l rs ss H _ IH]; intros r; [destruct r; apply rep_0|].
  destruct r; [exact H|apply IH].
Qed.

Lemma seval_sound e rs ss : Forall2 (rep e) rs ss ->
  forall t l, seval ss t = Some l -> rep e (weval rs t) l.
Proof.
  intros R. induction t; intros lo H; cbn [seval weval] in *.
  - injection H as <-. apply rep_nth, R.
  - injection H as <-. apply rep_sconst, fits_size.
  - destruct (seval ss t1) as [l1|]; [|discriminate]. destruct (seval ss t2) as [l2|]; [|discriminate].
    injection H as <-. apply rep_xor; [apply IHt1|apply IHt2]; reflexivity.
  - destruct (seval ss t1) as [l1|]; [|discriminate]. destruct (seval ss t2) as [l2|]; [|discriminate].
    injection H as <-. apply rep_and; [apply IHt1|apply IHt2]; reflexivity.
  - destruct (seval ss t1) as [l1|]; [|discriminate]. destruct (seval ss t2) as [l2|]; [|discriminate].
    injection H as <-. apply rep_or; [apply IHt1|apply IHt2]; reflexivity.
  - destruct (seval ss t) as [l1|]; [|discriminate]. injection H as <-.
    rewrite <- (N2Nat.id w) at 1. apply rep_not, IHt. reflexivity.
  - destruct (seval ss t) as [l1|]; [|discriminate]. injection H as <-.
    rewrite <- (N2Nat.id w), <- (N2Nat.id n) at 1. apply rep_shl, IHt. reflexivity.
  - destruct (seval ss t) as [l1|]; [|discriminate]. injection H as <-.
    rewrite <- (N2Nat.id n) at 1. apply rep_shr, IHt. reflexivity.
  - destruct (seval ss t) as [l1|]; [|discriminate]. destruct (n <=? w) eqn:E; [|discriminate].
    destruct (fitsb (N.to_nat w) l1) eqn:F; [|discriminate]. injection H as <-.
    apply Nat.leb_le in F. specialize (IHt l1 eq_refl).
    pose proof (rep_ror e (N.to_nat w) (N.to_nat n) _ _ ltac:(lia) (rep_fits e _ _ _ IHt F) IHt) as G.
    rewrite !N2Nat.id in G. exact G.
  - destruct (seval ss t1) as [l1|]; [|discriminate]. destruct (seval ss t2) as [l2|]; [|discriminate].
    destruct (is_const l2) as [n|] eqn:E; [|discriminate].
    destruct (0 <? w) eqn:E0; [|discriminate].
    destruct (fitsb (N.to_nat w) l1) eqn:F; [|discriminate]. injection H as <-.
    apply Nat.leb_le in F. specialize (IHt1 l1 eq_refl). specialize (IHt2 l2 eq_refl).
    rewrite (is_const_ok e _ _ _ E IHt2).
    assert (n mod w < w) by (apply N.mod_lt; lia).
    pose proof (rep_ror e (N.to_nat w) (N.to_nat (n mod w)) _ _ ltac:(lia) (rep_fits e _ _ _ IHt1 F) IHt1) as G.
    rewrite !N2Nat.id in G. exact G.
  - destruct (seval ss t1) as [l1|]; [|discriminate]. destruct (seval ss t2) as [l2|]; [|discriminate].
    injection H as <-. rewrite <- (N2Nat.id w) at 1. apply rep_add0; [apply IHt1|apply IHt2]; reflexivity.
  - destruct (seval ss t1) as [l1|]; [|discriminate]. destruct (seval ss t2) as [l2|]; [|discriminate].
    destruct (const2 (Some l1) (Some l2)) as [[x y]|] eqn:E; [|discriminate]. injection H as <-.
    destruct (const2_ok e _ _ _ _ _ _ (IHt1 l1 eq_refl) (IHt2 l2 eq_refl) E) as [-> ->].
    apply rep_sconst. rewrite N2Nat.id. apply fits_trunc.
  - destruct (seval ss t) as [k|]; [|discriminate]. destruct (is_const k) as [n|] eqn:E; [|discriminate].
    injection H as <-. rewrite (is_const_ok e _ _ _ E (IHt k eq_refl)). apply rep_sconst, fits_size.
Qed.

(** ** Programs *)

Record smach := SMach { sregs : list sword; sstk : list sword; sbase : sword; sobj : list sword }.

Fixpoint sword_eqb (a b : sword) : bool :=
  match a, b with
  | [], [] => true
  | x :: a, y :: b => (if list_eq_dec (list_eq_dec Pos.eq_dec) x y then true else false) && sword_eqb a b
  | _, _ => false
  end.
Lemma sword_eqb_eq : forall a b, sword_eqb a b = true -> a = b.
Proof.
  induction a as [|x a IH]; intros [|y b]; cbn; try discriminate; [reflexivity|].
  destruct (list_eq_dec (list_eq_dec Pos.eq_dec) x y) as [->|]; [|discriminate]. intros H. f_equal. apply IH, H.
Qed.

(** Position of a symbolic address in the object: the distance of the
    pointer, then the displacement [k]. *)
Fixpoint sdist (w : nat) (fuel : nat) (off : N) (l b : sword) : option N :=
  match fuel with
  | O => None
  | S f => match sdecide l (sadd w [] b (sconst (N.to_nat (N.size off)) off)) with
           | Some true => Some off | _ => sdist w f (off + 1) l b end
  end.
Definition sidx (w : N) (l : sword) (k : N) (b : sword) (n : nat) : option nat :=
  match sdist (N.to_nat w) 16 0 l b with
  | Some off => if (off + k <? 2 ^ w) && (N.to_nat (off + k) <? n)%nat then Some (N.to_nat (off + k)) else None
  | None => None
  end.
Lemma sdist_ok e w f : forall off l b v x d, sdist w f off l b = Some d -> rep e v l -> rep e x b ->
  v = trunc (N.of_nat w) (x + d).
Proof.
  induction f as [|f IH]; intros off l b v x d H Rv Rx; [discriminate|]. cbn [sdist] in H.
  destruct (sdecide l _) as [[|]|] eqn:E; try exact (IH _ _ _ _ _ _ H Rv Rx).
  injection H as <-. apply N.eqb_eq. refine (sdecide_ok e _ _ _ _ _ Rv _ E).
  apply rep_add0; [exact Rx|]. apply rep_sconst. rewrite N2Nat.id. unfold fits. apply N.size_gt.
Qed.
Lemma idx_dist w x d k : d + k < 2 ^ w -> idx w (trunc w (x + d) + k) x = N.to_nat (d + k).
Proof.
  intros H. unfold idx, trunc. rewrite !N.land_ones. f_equal.
  assert (P : 2 ^ w <> 0) by (apply N.pow_nonzero; lia).
  pose proof (N.mod_lt x (2 ^ w) P) as Hx.
  rewrite <- (N.mod_small (d + k) (2 ^ w)) at 1 by exact H.
  rewrite <- N.add_assoc, N.add_mod_idemp_l by exact P.
  rewrite (N.div_mod x (2 ^ w) P) at 1.
  replace (2 ^ w * (x / 2 ^ w) + x mod 2 ^ w + d + (k + (2 ^ w - x mod 2 ^ w))) with (d + k + (x / 2 ^ w + 1) * 2 ^ w) by nia.
  apply N.mod_add, P.
Qed.
Lemma sidx_ok e w l k b n i v x : sidx w l k b n = Some i -> rep e v l -> rep e x b -> idx w (v + k) x = i /\ (i <? n)%nat = true.
Proof.
  intros H Rv Rx. unfold sidx in H. destruct (sdist (N.to_nat w) 16 0 l b) as [d|] eqn:E; [|discriminate].
  destruct (d + k <? 2 ^ w) eqn:E1; [|discriminate]. destruct (N.to_nat (d + k) <? n)%nat eqn:E2; [|discriminate].
  injection H as <-. rewrite (sdist_ok e _ _ _ _ _ _ _ _ E Rv Rx), N2Nat.id, idx_dist by lia. auto.
Qed.

Definition sstep (o : op) (M : smach) : option smach :=
  let 'SMach rs st b ob := M in
  match o with
  | Set_ d t => match seval rs t with Some l => Some (SMach (upd rs d l) st b ob) | None => None end
  | Push r => Some (SMach rs (nth r rs [] :: st) b ob)
  | Pop d => match st with v :: st' => Some (SMach (upd rs d v) st' b ob) | [] => None end
  | Shrink n => if Nat.leb n (length st) then Some (SMach rs (skipn n st) b ob) else None
  | LdStk d k => if Nat.ltb k (length st) then Some (SMach (upd rs d (nth k st [])) st b ob) else None
  | StStk k r => if Nat.ltb k (length st) then Some (SMach rs (upd st k (nth r rs [])) b ob) else None
  | LdObj d a k => if sword_eqb (nth a rs []) b && Nat.ltb k (length ob)
                   then Some (SMach (upd rs d (nth k ob [])) st b ob) else None
  | StObj a k r => if sword_eqb (nth a rs []) b && Nat.ltb k (length ob)
                   then Some (SMach rs st b (upd ob k (nth r rs []))) else None
  | LdIdx w d p k => match seval rs p with
      | Some l => match sidx w l k b (length ob) with
                  | Some i => Some (SMach (upd rs d (nth i ob [])) st b ob) | None => None end
      | None => None
      end
  | StIdx w p k r => match seval rs p with
      | Some l => match sidx w l k b (length ob) with
                  | Some i => Some (SMach rs st b (upd ob i (nth r rs []))) | None => None end
      | None => None
      end
  end%bool.
Fixpoint sexec (l : list op) (M : smach) : option smach :=
  match l with
  | [] => Some M
  | o :: r => match sstep o M with Some M' => sexec r M' | None => None end
  end.

Definition reps (e : env) := Forall2 (rep e).
Record rep_mach (e : env) (M : mach) (S : smach) : Prop := {
  rm_regs : reps e (regs M) (sregs S);
  rm_stk : reps e (stk M) (sstk S);
  rm_base : rep e (base M) (sbase S);
  rm_obj : reps e (obj M) (sobj S)
}.

Lemma reps_upd e rs ss r v l : reps e rs ss -> rep e v l -> reps e (upd rs r v) (upd ss r l).
Proof.
  intros H Hv. revert r. induction H as [|x y rs ss H HH IH]; intros r; [constructor|].
  destruct r; cbn [upd]; constructor; auto. apply IH.
Qed.
Lemma reps_length e rs ss : reps e rs ss -> length rs = length ss.
Proof. induction 1; cbn; congruence. Qed.
Lemma reps_skipn e n rs ss : reps e rs ss -> reps e (skipn n rs) (skipn n ss).
Proof. intros H. revert n. induction H; intros [|n]; cbn; try constructor; auto. Qed.

Lemma sstep_sound e M S o S' : rep_mach e M S -> sstep o S = Some S' ->
  exists M', step o M = Some M' /\ rep_mach e M' S'.
Proof.
  intros [R T B O] H. destruct M as [rs st b ob], S as [ss tt c oo]. cbn [regs stk base obj sregs sstk sbase sobj] in *.
  destruct o; cbn [sstep step] in *.
  - destruct (seval ss t) as [l|] eqn:E; [|discriminate]. injection H as <-.
    eexists. split; [reflexivity|]. constructor; cbn; auto. apply reps_upd; [exact R|].
    apply (seval_sound e rs ss R t l E).
  - injection H as <-. eexists. split; [reflexivity|]. constructor; cbn; auto.
    constructor; [|exact T]. apply rep_nth, R.
  - inversion T as [|v l st' tt' Hv HT]; subst; [discriminate|]. injection H as <-.
    eexists. split; [reflexivity|]. constructor; cbn; auto. apply reps_upd; assumption.
  - rewrite (reps_length _ _ _ T). destruct (Nat.leb n (length tt)); [|discriminate]. injection H as <-.
    eexists. split; [reflexivity|]. constructor; cbn; auto. apply reps_skipn, T.
  - rewrite (reps_length _ _ _ T). destruct (Nat.ltb k (length tt)); [|discriminate]. injection H as <-.
    eexists. split; [reflexivity|]. constructor; cbn; auto. apply reps_upd; [exact R|]. apply rep_nth, T.
  - rewrite (reps_length _ _ _ T). destruct (Nat.ltb k (length tt)); [|discriminate]. injection H as <-.
    eexists. split; [reflexivity|]. constructor; cbn; auto. apply reps_upd; [exact T|]. apply rep_nth, R.
  - rewrite (reps_length _ _ _ O). destruct (sword_eqb (nth b0 ss []) c) eqn:E; [|discriminate].
    apply sword_eqb_eq in E. pose proof (rep_nth e rs ss b0 R) as Q. rewrite E in Q.
    rewrite (rep_inj e _ _ _ Q B), N.eqb_refl. cbn [andb] in *.
    destruct (Nat.ltb k (length oo)); [|discriminate]. injection H as <-.
    eexists. split; [reflexivity|]. constructor; cbn; auto. apply reps_upd; [exact R|]. apply rep_nth, O.
  - rewrite (reps_length _ _ _ O). destruct (sword_eqb (nth b0 ss []) c) eqn:E; [|discriminate].
    apply sword_eqb_eq in E. pose proof (rep_nth e rs ss b0 R) as Q. rewrite E in Q.
    rewrite (rep_inj e _ _ _ Q B), N.eqb_refl. cbn [andb] in *.
    destruct (Nat.ltb k (length oo)); [|discriminate]. injection H as <-.
    eexists. split; [reflexivity|]. constructor; cbn; auto. apply reps_upd; [exact O|]. apply rep_nth, R.
  - rewrite (reps_length _ _ _ O). destruct (seval ss p) as [l|] eqn:E; [|discriminate].
    destruct (sidx w l k c (length oo)) as [i|] eqn:Ei; [|discriminate]. injection H as <-.
    destruct (sidx_ok e _ _ _ _ _ _ _ _ Ei (seval_sound e rs ss R p l E) B) as [-> ->].
    eexists. split; [reflexivity|]. constructor; cbn; auto. apply reps_upd; [exact R|]. apply rep_nth, O.
  - rewrite (reps_length _ _ _ O). destruct (seval ss p) as [l|] eqn:E; [|discriminate].
    destruct (sidx w l k c (length oo)) as [i|] eqn:Ei; [|discriminate]. injection H as <-.
    destruct (sidx_ok e _ _ _ _ _ _ _ _ Ei (seval_sound e rs ss R p l E) B) as [-> ->].
    eexists. split; [reflexivity|]. constructor; cbn; auto. apply reps_upd; [exact O|]. apply rep_nth, R.
Qed.

Theorem sexec_sound e l : forall M S S', rep_mach e M S -> sexec l S = Some S' ->
  exists M', exec l M = Some M' /\ rep_mach e M' S'.
Proof.
  induction l as [|o l IH]; intros M S S' R H; cbn [sexec exec] in *.
  - injection H as <-. exists M. auto.
  - destruct (sstep o S) as [S1|] eqn:E; [|discriminate].
    destruct (sstep_sound e M S o S1 R E) as (M1 & E1 & R1). rewrite E1. apply (IH M1 S1 S' R1 H).
Qed.

Fixpoint srun (fuel : nat) (p : list stm) (M : smach) : option smach :=
  match fuel with
  | O => None
  | S f =>
    match p with
    | [] => Some M
    | Ops l :: r => match sexec l M with Some M' => srun f r M' | None => None end
    | DoWhile body a b :: r =>
      match srun f body M with
      | Some M' => match seval (sregs M') a, seval (sregs M') b with
                   | Some x, Some y => match sdecide x y with
                                       | Some true => srun f r M' | Some false => srun f p M' | None => None end
                   | _, _ => None
                   end
      | None => None
      end
    end
  end.

Theorem srun_sound e f : forall p M S S', rep_mach e M S -> srun f p S = Some S' ->
  exists M', run f p M = Some M' /\ rep_mach e M' S'.
Proof.
  induction f as [|f IH]; intros p M S S' R H; [discriminate|].
  destruct p as [|[l|body a b] p]; cbn [srun run] in *.
  - injection H as <-. exists M. auto.
  - destruct (sexec l S) as [S1|] eqn:E; [|discriminate].
    destruct (sexec_sound e l M S S1 R E) as (M1 & E1 & R1). rewrite E1. apply (IH p M1 S1 S' R1 H).
  - destruct (srun f body S) as [S1|] eqn:E; [|discriminate].
    destruct (IH body M S S1 R E) as (M1 & E1 & R1). rewrite E1.
    destruct (seval (sregs S1) a) as [la|] eqn:Ea; [|discriminate].
    destruct (seval (sregs S1) b) as [lb|] eqn:Eb; [|discriminate].
    destruct (sdecide la lb) as [r|] eqn:E2; [|discriminate].
    rewrite (sdecide_ok e _ _ _ _ _ (seval_sound e _ _ (rm_regs _ _ _ R1) a la Ea)
      (seval_sound e _ _ (rm_regs _ _ _ R1) b lb Eb) E2).
    destruct r; [apply (IH p M1 S1 S' R1 H)|apply (IH _ M1 S1 S' R1 H)].
Qed.

Lemma run_mono f : forall p M M', run f p M = Some M' -> forall f', (f <= f')%nat -> run f' p M = Some M'.
Proof.
  induction f as [|f IH]; intros p M M' H f' L; [discriminate|]. destruct f' as [|f']; [lia|].
  destruct p as [|[l|body a b] p]; cbn [run] in *; [exact H| |].
  - destruct (exec l M); [|discriminate]. apply IH; [exact H|lia].
  - destruct (run f body M) as [M1|] eqn:E; [|discriminate]. rewrite (IH _ _ _ E f') by lia.
    destruct (weval (regs M1) a =? weval (regs M1) b); apply IH; (exact H || lia).
Qed.

(** ** Observations do not depend on the symbolic bits *)

Lemma seval_leak e e' rs rs' ss : Forall2 (rep e) rs ss -> Forall2 (rep e') rs' ss ->
  forall t l, seval ss t = Some l -> wleak rs t = wleak rs' t.
Proof.
  intros R R'. induction t; intros lo H; cbn [seval wleak] in *; try reflexivity.
  1-3: destruct (seval ss t1) as [l1|]; [|discriminate]; destruct (seval ss t2) as [l2|]; [|discriminate];
       rewrite (IHt1 l1 eq_refl), (IHt2 l2 eq_refl); reflexivity.
  1-4: destruct (seval ss t) as [l1|]; [|discriminate]; apply (IHt l1 eq_refl).
  - destruct (seval ss t1) as [l1|]; [|discriminate]. destruct (seval ss t2) as [l2|] eqn:E2; [|discriminate].
    rewrite (IHt1 l1 eq_refl), (IHt2 l2 eq_refl).
    destruct (is_const l2) as [n|] eqn:E; [|discriminate].
    rewrite (is_const_ok e _ _ _ E (seval_sound e rs ss R t2 l2 E2)), (is_const_ok e' _ _ _ E (seval_sound e' rs' ss R' t2 l2 E2)).
    reflexivity.
  - destruct (seval ss t1) as [l1|]; [|discriminate]. destruct (seval ss t2) as [l2|]; [|discriminate].
    rewrite (IHt1 l1 eq_refl), (IHt2 l2 eq_refl). reflexivity.
  - destruct (seval ss t1) as [l1|]; [|discriminate]. destruct (seval ss t2) as [l2|]; [|discriminate].
    rewrite (IHt1 l1 eq_refl), (IHt2 l2 eq_refl). reflexivity.
  - destruct (seval ss t) as [k|] eqn:E1; [|discriminate]. destruct (is_const k) as [n|] eqn:E; [|discriminate].
    rewrite (IHt k eq_refl).
    rewrite (is_const_ok e _ _ _ E (seval_sound e rs ss R t k E1)), (is_const_ok e' _ _ _ E (seval_sound e' rs' ss R' t k E1)).
    reflexivity.
Qed.
Theorem sexec_leak e e' l : forall M M' S S', rep_mach e M S -> rep_mach e' M' S -> sexec l S = Some S' ->
  exec_leak l M = exec_leak l M'.
Proof.
  induction l as [|o l IH]; intros M M' S S' R R' H; cbn [sexec exec_leak] in *; [reflexivity|].
  destruct (sstep o S) as [S1|] eqn:E; [|discriminate].
  destruct (sstep_sound e M S o S1 R E) as (M1 & E1 & R1). destruct (sstep_sound e' M' S o S1 R' E) as (M1' & E1' & R1').
  rewrite E1, E1', (IH M1 M1' S1 S' R1 R1' H). f_equal.
  destruct o; try reflexivity; cbn [oleak]; destruct S as [ss tt c oo]; cbn [sstep] in E.
  - destruct (seval ss t) as [l0|] eqn:Et; [|discriminate].
    exact (seval_leak e e' _ _ ss (rm_regs _ _ _ R) (rm_regs _ _ _ R') t l0 Et).
  - destruct (seval ss p) as [l0|] eqn:Et; [|discriminate].
    destruct (sidx w l0 k c (length oo)) as [i|] eqn:Ei; [|discriminate].
    rewrite (seval_leak e e' _ _ ss (rm_regs _ _ _ R) (rm_regs _ _ _ R') p l0 Et).
    destruct (sidx_ok e _ _ _ _ _ _ _ _ Ei (seval_sound e _ ss (rm_regs _ _ _ R) p l0 Et) (rm_base _ _ _ R)) as [-> _].
    destruct (sidx_ok e' _ _ _ _ _ _ _ _ Ei (seval_sound e' _ ss (rm_regs _ _ _ R') p l0 Et) (rm_base _ _ _ R')) as [-> _].
    reflexivity.
  - destruct (seval ss p) as [l0|] eqn:Et; [|discriminate].
    destruct (sidx w l0 k c (length oo)) as [i|] eqn:Ei; [|discriminate].
    rewrite (seval_leak e e' _ _ ss (rm_regs _ _ _ R) (rm_regs _ _ _ R') p l0 Et).
    destruct (sidx_ok e _ _ _ _ _ _ _ _ Ei (seval_sound e _ ss (rm_regs _ _ _ R) p l0 Et) (rm_base _ _ _ R)) as [-> _].
    destruct (sidx_ok e' _ _ _ _ _ _ _ _ Ei (seval_sound e' _ ss (rm_regs _ _ _ R') p l0 Et) (rm_base _ _ _ R')) as [-> _].
    reflexivity.
Qed.
Theorem srun_leak e e' f : forall p M M' S S', rep_mach e M S -> rep_mach e' M' S -> srun f p S = Some S' ->
  run_leak f p M = run_leak f p M'.
Proof.
  induction f as [|f IH]; intros p M M' S S' R R' H; [discriminate|].
  destruct p as [|[l|body a b] p]; cbn [srun run_leak] in *; [reflexivity| |].
  - destruct (sexec l S) as [S1|] eqn:E; [|discriminate].
    destruct (sexec_sound e l M S S1 R E) as (M1 & E1 & R1). destruct (sexec_sound e' l M' S S1 R' E) as (M1' & E1' & R1').
    rewrite E1, E1', (sexec_leak e e' l M M' S S1 R R' E), (IH p M1 M1' S1 S' R1 R1' H). reflexivity.
  - destruct (srun f body S) as [S1|] eqn:E; [|discriminate].
    destruct (srun_sound e f body M S S1 R E) as (M1 & E1 & R1). destruct (srun_sound e' f body M' S S1 R' E) as (M1' & E1' & R1').
    rewrite E1, E1', (IH body M M' S S1 R R' E).
    destruct (seval (sregs S1) a) as [la|] eqn:Ea; [|discriminate].
    destruct (seval (sregs S1) b) as [lb|] eqn:Eb; [|discriminate].
    destruct (sdecide la lb) as [r|] eqn:E2; [|discriminate].
    cbn zeta. rewrite (sdecide_ok e _ _ _ _ _ (seval_sound e _ _ (rm_regs _ _ _ R1) a la Ea)
      (seval_sound e _ _ (rm_regs _ _ _ R1) b lb Eb) E2).
    rewrite (sdecide_ok e' _ _ _ _ _ (seval_sound e' _ _ (rm_regs _ _ _ R1') a la Ea)
      (seval_sound e' _ _ (rm_regs _ _ _ R1') b lb Eb) E2).
    destruct r.
    + rewrite (IH p M1 M1' S1 S' R1 R1' H). reflexivity.
    + rewrite (IH _ M1 M1' S1 S' R1 R1' H). reflexivity.
Qed.
