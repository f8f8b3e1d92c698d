(** * BitExp.v -- deciding that a word expression permutes the bits of its
    argument.

    An expression over one 64-bit variable, built from the bitwise operators
    with constant masks and shift counts, has for each bit position a set of
    argument bits it is the xor of, as long as every [|] combines disjoint
    (or equal) operands.  The analysis computes that set and is proved sound. *)
From Coq Require Import Arith NArith List Lia Bool.
From Coq Require Import ZifyBool ZifyNat ZifyN.
From Verif Require Import Words WordFacts WordLaws.
Import ListNotations.
Local Open Scope N_scope.

Inductive wexp :=
| EVar | EZero
| ELor (a b : wexp) | ELxor (a b : wexp)
| ELand (a : wexp) (m : N)
| EShl (w : N) (a : wexp) (n : N) | EShr (a : wexp) (n : N)
| ETrunc (w : N) (a : wexp)
| EPerm (pi : N -> N) (a : wexp).

Fixpoint weval (x : N) (t : wexp) : N :=
  match t with
  | EVar => x | EZero => 0
  | ELor a b => N.lor (weval x a) (weval x b)
  | ELxor a b => N.lxor (weval x a) (weval x b)
  | ELand a m => N.land (weval x a) m
  | EShl w a n => shlw w (weval x a) n
  | EShr a n => shrw (weval x a) n
  | ETrunc w a => trunc w (weval x a)
  | EPerm pi a => bitperm pi (weval x a)
  end.

(** Sets of bit positions, without repetition, as lists. *)
Fixpoint toggle (j : N) (L : list N) : list N :=
  match L with
  | [] => [j]
  | k :: r => if j =? k then r else k :: toggle j r
  end.
Definition symdiff (A B : list N) : list N := fold_right toggle B A.

Fixpoint eqset (A B : list N) : bool :=
  match A, B with
  | [], [] => true
  | a :: A, b :: B => (a =? b) && eqset A B
  | _, _ => false
  end.

Fixpoint symbit (t : wexp) (i : N) : option (list N) :=
  match t with
  | EVar => Some (if i <? 64 then [i] else [])
  | EZero => Some []
  | ELor a b =>
    match symbit a i, symbit b i with
    | Some A, Some B =>
      match A, B with
      | [], _ => Some B
      | _, [] => Some A
      | _, _ => if eqset A B then Some A else None
      end
    | _, _ => None
    end
  | ELxor a b =>
    match symbit a i, symbit b i with
    | Some A, Some B => Some (symdiff A B)
    | _, _ => None
    end
  | ELand a m => if N.testbit m i then symbit a i else Some []
  | EShl w a n => if (i <? w) && (n <=? i) then symbit a (i - n) else Some []
  | EShr a n => symbit a (i + n)
  | ETrunc w a => if i <? w then symbit a i else Some []
  | EPerm pi a => if i <? 64 then symbit a (pi i) else Some []
  end.

Definition xorbits (x : N) (L : list N) : bool := fold_right (fun j b => xorb (N.testbit x j) b) false L.

Lemma xorbits_toggle x j L : xorbits x (toggle j L) = xorb (N.testbit x j) (xorbits x L).
Proof.
  induction L as [|k L IH]; [reflexivity|]. cbn [toggle].
  destruct (N.eqb_spec j k) as [->|_].
  - cbn [xorbits fold_right]. fold (xorbits x L). rewrite <- xorb_assoc, xorb_nilpotent, xorb_false_l. reflexivity.
  - cbn [xorbits fold_right] in *. fold (xorbits x L) in *. fold (xorbits x (toggle j L)). rewrite IH.
    rewrite <- !xorb_assoc, (xorb_comm (N.testbit x k)). reflexivity.
Qed.

Lemma xorbits_symdiff x A B : xorbits x (symdiff A B) = xorb (xorbits x A) (xorbits x B).
Proof.
  induction A as [|a A IH]; cbn [symdiff fold_right]; [symmetry; apply xorb_false_l|].
  rewrite xorbits_toggle. fold (symdiff A B). rewrite IH. cbn [xorbits fold_right].
  fold (xorbits x A). symmetry. apply xorb_assoc.
Qed.

Lemma eqset_eq A : forall B, eqset A B = true -> A = B.
Proof.
  induction A as [|a A IH]; intros [|b B] H; try discriminate; [reflexivity|].
  cbn [eqset] in H. apply andb_true_iff in H. destruct H as [H1 H2].
  apply N.eqb_eq in H1. subst b. f_equal. apply IH, H2.
Qed.

Lemma symbit_ok x t : fits 64 x -> forall i L, symbit t i = Some L ->
  N.testbit (weval x t) i = xorbits x L.
Proof.
  intros Hx. induction t as [| |a IHa b IHb|a IHa b IHb|a IHa m|w a IHa n|a IHa n|w a IHa|pi a IHa];
    intros i L E; cbn [symbit weval] in *.
  - injection E as <-. destruct (N.ltb_spec i 64); cbn [xorbits fold_right].
    + symmetry. apply xorb_false_r.
    + apply (fits_bit_high 64); [exact Hx|assumption].
  - injection E as <-. apply N.bits_0.
  - rewrite N.lor_spec. destruct (symbit a i) as [A|] eqn:EA; [|discriminate].
    destruct (symbit b i) as [B|] eqn:EB; [|destruct A; discriminate].
    rewrite (IHa _ _ EA), (IHb _ _ EB).
    destruct A as [|a0 A]; [injection E as <-; reflexivity|].
    destruct B as [|b0 B]; [injection E as <-; apply orb_false_r|].
    destruct (eqset (a0 :: A) (b0 :: B)) eqn:EE; [|discriminate].
    apply eqset_eq in EE. rewrite <- EE. injection E as <-. apply orb_diag.
  - rewrite N.lxor_spec. destruct (symbit a i) as [A|] eqn:EA; [|discriminate].
    destruct (symbit b i) as [B|] eqn:EB; [|discriminate].
    injection E as <-. rewrite (IHa _ _ EA), (IHb _ _ EB). symmetry. apply xorbits_symdiff.
  - rewrite N.land_spec. destruct (N.testbit m i).
    + rewrite andb_true_r. apply IHa, E.
    + injection E as <-. apply andb_false_r.
  - rewrite testbit_shlw. destruct (i <? w); cbn [andb] in *; [|injection E as <-; reflexivity].
    destruct (n <=? i); cbn [andb] in *; [|injection E as <-; reflexivity]. apply IHa, E.
  - rewrite testbit_shrw. apply IHa, E.
  - rewrite testbit_trunc. destruct (i <? w); cbn [andb]; [apply IHa, E|injection E as <-; reflexivity].
  - rewrite testbit_bitperm. destruct (i <? 64); cbn [andb]; [apply IHa, E|injection E as <-; reflexivity].
Qed.

(** Every bit [i < 64] of [t] is bit [pi i] of the variable; no others. *)
Definition permutes (t : wexp) (pi : N -> N) : bool :=
  forallb (fun k => match symbit t (N.of_nat k) with
                    | Some [j] => j =? pi (N.of_nat k)
                    | _ => false
                    end) (seq 0 64).

(** No bit above 63 can be set. *)
Fixpoint bound (t : wexp) : N :=
  match t with
  | EVar => 64 | EZero => 0
  | ELor a b => N.max (bound a) (bound b)
  | ELxor a b => N.max (bound a) (bound b)
  | ELand a m => N.min (bound a) (N.size m)
  | EShl w a n => w
  | EShr a n => bound a - n
  | ETrunc w a => N.min w (bound a)
  | EPerm pi a => 64
  end.

Lemma fits_size m : fits (N.size m) m.
Proof. apply N.size_gt. Qed.

Lemma bound_ok x t : fits 64 x -> fits (bound t) (weval x t).
Proof.
  intros Hx. induction t as [| |a IHa b IHb|a IHa b IHb|a IHa m|w a IHa n|a IHa n|w a IHa|pi a IHa]; cbn [bound weval].
  - exact Hx.
  - apply fits_0.
  - apply fits_lor; [apply (fits_le (bound a))|apply (fits_le (bound b))]; auto; lia.
  - apply fits_lxor; [apply (fits_le (bound a))|apply (fits_le (bound b))]; auto; lia.
  - destruct (N.min_spec (bound a) (N.size m)) as [[_ ->]|[_ ->]]; [apply fits_land, IHa|].
    rewrite N.land_comm. apply fits_land, fits_size.
  - apply fits_shlw.
  - apply fits_shr, IHa.
  - destruct (N.min_spec w (bound a)) as [[_ ->]|[Hle ->]]; [apply fits_trunc|].
    rewrite trunc_fits; [exact IHa|]. apply fits_testbit. intros i Hi.
    apply (fits_bit_high (bound a)); [exact IHa|]. lia.
  - apply fits_bitperm.
Qed.

Lemma permutes_ok x t pi : (bound t <=? 64) && permutes t pi = true -> fits 64 x ->
  weval x t = bitperm pi x.
Proof.
  intros H Hx. apply andb_true_iff in H. destruct H as [HB HP]. apply N.leb_le in HB.
  apply (fits_ext 64); [apply (fits_le (bound t)); [exact HB|apply bound_ok, Hx]|apply fits_bitperm|].
  intros i Hi. unfold permutes in HP. rewrite forallb_forall in HP.
  specialize (HP (N.to_nat i)). rewrite N2Nat.id in HP.
  rewrite testbit_bitperm. replace (i <? 64) with true by lia. cbn [andb].
  assert (HI : In (N.to_nat i) (seq 0 64)) by (apply in_seq; lia).
  specialize (HP HI). destruct (symbit t i) as [[|j [|]]|] eqn:E; try discriminate.
  apply N.eqb_eq in HP. subst j. rewrite (symbit_ok x t Hx _ _ E). cbn [xorbits fold_right].
  apply xorb_false_r.
Qed.

(** Reification of a goal [f x = bitperm pi x] whose left side has been
    unfolded to the bitwise operators. *)
Ltac wreify x t :=
  lazymatch t with
  | 0%N => constr:(EZero)
  | N.lor ?a ?b => let a := wreify x a in let b := wreify x b in constr:(ELor a b)
  | N.lxor ?a ?b => let a := wreify x a in let b := wreify x b in constr:(ELxor a b)
  | N.land ?a ?m => let a := wreify x a in constr:(ELand a m)
  | shlw ?w ?a ?n => let a := wreify x a in constr:(EShl w a n)
  | shrw ?a ?n => let a := wreify x a in constr:(EShr a n)
  | trunc ?w ?a => let a := wreify x a in constr:(ETrunc w a)
  | bitperm ?pi ?a => let a := wreify x a in constr:(EPerm pi a)
  | _ => let _ := lazymatch goal with _ => constr_eq t x end in constr:(EVar)
  end.
Ltac bitperm_solve x Hx :=
  lazymatch goal with |- ?t = bitperm ?pi x =>
    let r := wreify x t in
    change (weval x r = bitperm pi x); apply permutes_ok; [vm_compute; reflexivity|exact Hx]
  end.
