(** * SepFacts.v -- domain separation and injectivity of the state updates. *)
From Coq Require Import Bool Arith NArith List Lia Init.Byte Strings.Byte.
From Verif Require Import Words WordFacts Spec SpecFacts PermBij AeadFacts.
Import ListNotations.

(** ** Algorithms and their states before the first permutation *)
Inductive algorithm :=
  | A_aead | A_hash | A_xof | A_cxof | A_mac | A_prf | A_prfs (msglen : nat).
Definition valid_alg (a : algorithm) : Prop := match a with A_prfs n => n <= 16 | _ => True end.
Definition iv_of (a : algorithm) : bytes :=
  match a with
  | A_aead => iv_aead128 | A_hash => iv_hash256 | A_xof => iv_xof128 | A_cxof => iv_cxof128
  | A_mac => iv_mac | A_prf => iv_prf | A_prfs n => iv_prfs n
  end.

Lemma length_iv_of a : length (iv_of a) = 8.
Proof. destruct a; apply length_le_bytes. Qed.

Definition all_algs : list algorithm :=
  [A_aead; A_hash; A_xof; A_cxof; A_mac; A_prf] ++ map A_prfs (seq 0 17).
Definition alg_eq_dec (a b : algorithm) : {a = b} + {a <> b}.
Proof. decide equality. apply Nat.eq_dec. Defined.
Definition bytes_eq_dec := list_eq_dec Byte.byte_eq_dec.

Lemma ivs_distinct_check :
  forallb (fun a => forallb (fun b =>
    if alg_eq_dec a b then true else if bytes_eq_dec (iv_of a) (iv_of b) then false else true) all_algs)
    all_algs = true.
Proof. vm_compute. reflexivity. Qed.

Lemma valid_in a : valid_alg a -> In a all_algs.
Proof.
  intros H. unfold all_algs. apply in_or_app.
  destruct a; try (left; cbn; tauto). right. apply in_map, in_seq. cbn in H. lia.
Qed.

Lemma iv_of_inj a b : valid_alg a -> valid_alg b -> iv_of a = iv_of b -> a = b.
Proof.
  intros Ha Hb E. pose proof ivs_distinct_check as H. rewrite forallb_forall in H.
  specialize (H a (valid_in a Ha)). rewrite forallb_forall in H. specialize (H b (valid_in b Hb)).
  destruct (alg_eq_dec a b) as [|n]; [assumption|]. destruct (bytes_eq_dec (iv_of a) (iv_of b)); congruence.
Qed.

Theorem init_states_distinct a b r1 r2 : valid_alg a -> valid_alg b -> a <> b ->
  length r1 = 32 -> length r2 = 32 ->
  p 12 (iv_of a ++ r1) <> p 12 (iv_of b ++ r2).
Proof.
  intros Ha Hb N L1 L2 E. apply N, iv_of_inj; auto.
  apply p_inj in E; [|rewrite app_length, length_iv_of; lia..].
  assert (F : firstn 8 (iv_of a ++ r1) = firstn 8 (iv_of b ++ r2)) by (rewrite E; reflexivity).
  rewrite !firstn_app_exact in F by apply length_iv_of. exact F.
Qed.

(** ** The steps an encryption performs on the state *)
Inductive step := Xor (B : bytes) | Perm | Separate.
Definition do_step (S : bytes) (s : step) : bytes :=
  match s with Xor B => xor_into S B | Perm => p 8 S | Separate => xor_at 39 S [x80] end.
Fixpoint msg_steps (bs : list bytes) : list step :=
  match bs with
  | [] => []
  | [B] => [Xor B]
  | B :: bs' => Xor B :: Perm :: msg_steps bs'
  end.
Definition ad_steps (bs : list bytes) : list step := flat_map (fun B => [Xor B; Perm]) bs.
Definition encrypt_steps (ad m : bytes) : list step :=
  (match ad with [] => [] | _ => ad_steps (chunks 16 (pad 16 ad)) end) ++
  Separate :: msg_steps (chunks 16 (pad 16 m)).

Lemma fold_ad_steps bs : forall S, fold_left do_step (ad_steps bs) S = absorb 8 S bs.
Proof.
  induction bs as [|B bs IH]; intros S; [reflexivity|].
  cbn [ad_steps flat_map app fold_left do_step]. apply IH.
Qed.
Lemma fold_msg_steps bs : forall S, fold_left do_step (msg_steps bs) S = fst (enc_blocks S bs).
Proof.
  induction bs as [|B bs IH]; intros S; [reflexivity|].
  destruct bs as [|B' bs]; [reflexivity|].
  change (msg_steps (B :: B' :: bs)) with (Xor B :: Perm :: msg_steps (B' :: bs)).
  cbn [fold_left do_step]. rewrite IH.
  change (enc_blocks S (B :: B' :: bs)) with
    (let S1 := xor_into S B in let '(S2, c) := enc_blocks (p 8 S1) (B' :: bs) in (S2, firstn 16 S1 ++ c)).
  cbv zeta. destruct (enc_blocks (p 8 (xor_into S B)) (B' :: bs)); reflexivity.
Qed.

(** The tag is that of the state these steps lead to. *)
Theorem encrypt_by_steps k n ad m :
  skipn (length m) (aead_encrypt k n ad m) =
  aead_tag k (fold_left do_step (encrypt_steps ad m) (aead_init k n)).
Proof.
  unfold encrypt_steps. rewrite fold_left_app. cbn [fold_left].
  set (S0 := fold_left do_step _ (aead_init k n)).
  assert (E0 : do_step S0 Separate = aead_ad (aead_init k n) ad).
  { unfold S0, do_step, aead_ad. destruct ad; [reflexivity|]. rewrite fold_ad_steps. reflexivity. }
  rewrite E0, fold_msg_steps. unfold aead_encrypt.
  set (S := aead_ad (aead_init k n) ad).
  assert (HS : length S = 40) by (apply length_aead_ad, length_aead_init).
  destruct (enc_blocks S (chunks 16 (pad 16 m))) as [S1 c] eqn:E. cbn [fst].
  destruct (dec_enc_blocks m S S1 c HS E) as [H _].
  apply skipn_app_exact. rewrite firstn_length. lia.
Qed.

Lemma ad_steps_inj a b : ad_steps a = ad_steps b -> a = b.
Proof.
  revert b; induction a as [|A a IH]; intros [|B b] E; try reflexivity; try discriminate.
  cbn [ad_steps flat_map app] in E. injection E as -> E. f_equal. apply IH, E.
Qed.
Lemma msg_steps_inj a : forall b, msg_steps a = msg_steps b -> a = b.
Proof.
  induction a as [|A a IH]; intros [|B b] E; try reflexivity; try discriminate.
  - destruct b; discriminate.
  - destruct a; discriminate.
  - destruct a as [|A' a], b as [|B' b]; try discriminate.
    + injection E as ->. reflexivity.
    + change (Xor A :: Perm :: msg_steps (A' :: a) = Xor B :: Perm :: msg_steps (B' :: b)) in E.
      injection E as -> E. f_equal. apply IH, E.
Qed.
Lemma split_at_sep l1 l2 r1 r2 :
  ~ In Separate l1 -> ~ In Separate l2 -> l1 ++ Separate :: r1 = l2 ++ Separate :: r2 ->
  l1 = l2 /\ r1 = r2.
Proof.
  revert l2; induction l1 as [|x l1 IH]; intros [|y l2] H1 H2 E; cbn [app] in E.
  - injection E as ->. auto.
  - injection E as <- E. exfalso. apply H2. left; reflexivity.
  - injection E as -> E. exfalso. apply H1. left; reflexivity.
  - injection E as -> E. destruct (IH l2) as [-> ->]; auto.
    + intros H; apply H1; right; exact H.
    + intros H; apply H2; right; exact H.
Qed.
Lemma no_sep_ad bs : ~ In Separate (ad_steps bs).
Proof.
  unfold ad_steps. rewrite in_flat_map. intros (B & _ & H). cbn in H. destruct H as [H|[H|[]]]; discriminate.
Qed.
Theorem encrypt_steps_inj ad1 m1 ad2 m2 :
  encrypt_steps ad1 m1 = encrypt_steps ad2 m2 -> ad1 = ad2 /\ m1 = m2.
Proof.
  unfold encrypt_steps. intros E. apply split_at_sep in E.
  - destruct E as [E1 E2]. apply msg_steps_inj, padded_blocks_inj in E2; [|lia]. split; [|exact E2].
    destruct ad1 as [|x ad1], ad2 as [|y ad2]; try reflexivity.
    + symmetry in E1. exfalso.
      assert (K' : pad 16 (y :: ad2) = []).
      { apply (chunks_inj 16); [lia|]. rewrite (ad_steps_inj _ [] E1). reflexivity. }
      discriminate K'.
    + exfalso.
      assert (K' : pad 16 (x :: ad1) = []).
      { apply (chunks_inj 16); [lia|]. rewrite (ad_steps_inj _ [] E1). reflexivity. }
      discriminate K'.
    + apply ad_steps_inj, padded_blocks_inj in E1; [exact E1|lia].
  - destruct ad1; [intros []|apply no_sep_ad].
  - destruct ad2; [intros []|apply no_sep_ad].
Qed.
