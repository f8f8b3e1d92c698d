(** * RvInst.v -- straight-line code and loads of the RISC-V implementations. *)
From Coq Require Import Bool Arith NArith ZArith List Lia Init.Byte Strings.Byte ZifyBool ZifyNat ZifyN.
From Verif Require Import Words WordFacts Spec SpecFacts Spec12 Spec12Facts StateRep Asm ModelRv CMem Contract CMemFacts RvFacts RvRound RvMode RvWords.
Import ListNotations.
Local Open Scope N_scope.
(** Order of unfolding, for conversion. *)
Local Strategy 1000 [unzipf zipf packf packuf rev8f].

(** Straight-line code, with the values of the registers simplified. *)
Lemma st_opv d t v l r M M' r' : reglt t = true -> fev r t = v ->
  runs (exec l (setr r d v)) M M' r' -> runs (exec (Op d t :: l) r) M M' r'.
Proof. intros H <-. apply st_op, H. Qed.
Lemma st_fnv d f a b c v l r M M' r' : f (r a) (r b) (r c) = v ->
  runs (exec l (setr r d v)) M M' r' -> runs (exec (Fn d f a b c :: l) r) M M' r'.
Proof. intros <-. apply st_fn. Qed.
Definition loaded (l : nat * nat * nat * nat) (r : regs) (a b c d : N) : regs :=
  let '(p, q, s, t) := l in setr (setr (setr (setr r p a) q b) s c) t d.
Definition mid (l : nat * nat * nat * nat) (r : regs) (p : N) (w0 w1 w2 w3 : bytes) : regs :=
  loaded l (setr r 5 p) (le_num w0) (le_num w1) (le_num w2) (le_num w3).
Ltac opsf := repeat lazymatch goal with |- runs (exec (?i :: _) ?r) _ _ _ =>
  let i' := eval hnf in i in
  lazymatch i' with
  | Op ?d ?t => let v := eval cbv [fev setr Nat.eqb mid loaded] in (fev r t) in
      refine (st_opv d t v _ _ _ _ _ eq_refl _ _); [cbv [fev setr Nat.eqb mid loaded]; reflexivity|]
  | Fn ?d ?f ?a ?b ?c => let v := eval cbv [fev setr Nat.eqb mid loaded] in (f (r a) (r b) (r c)) in
      refine (st_fnv d f a b c v _ _ _ _ _ _ _); [cbv [fev setr Nat.eqb mid loaded]; reflexivity|]
  end end.
Ltac fit := first [apply fits_rev8|apply fits_zip|apply fits_pack|apply fits_unzip|apply fits_le4; assumption|
  apply fits_packu; fit].
Ltac exs := repeat (apply except_set; [reflexivity|]); apply except_refl.

(** ** Words of 8 bytes *)
Lemma le_xor a b : length a = length b -> le_num (xor_into a b) = N.lxor (le_num a) (le_num b).
Proof.
  revert b. induction a as [|x a IH]; intros [|y b] H; cbn in H; try discriminate; [reflexivity|].
  cbn [xor_into le_num]. rewrite IH by lia. apply N.bits_inj. intros i.
  rewrite !N.lor_spec, !N.lxor_spec, !N.lor_spec, !testbit_shiftl, N.lxor_spec.
  unfold bxor. rewrite b2n_n2b, testbit_trunc, N.lxor_spec.
  destruct (N.ltb_spec i 8) as [L|L].
  - replace (8 <=? i) with false by lia. cbn [andb]. rewrite !orb_false_r. reflexivity.
  - replace (8 <=? i) with true by lia. cbn [andb orb].
    assert (X : forall b, N.testbit (b2n b) i = false) by (intros b0; exact (bbit_high b0 i L)).
    rewrite !X. reflexivity.
Qed.
Lemma rev_xor a b : length a = length b -> rev (xor_into a b) = xor_into (rev a) (rev b).
Proof.
  revert b. induction a as [|x a IH]; intros [|y b] H; cbn in H; try discriminate; [reflexivity|].
  cbn [xor_into rev]. rewrite IH by lia. rewrite xor_into_app2 by (rewrite !rev_length; lia). reflexivity.
Qed.
Lemma be_xor a b : length a = length b -> be_num (xor_into a b) = N.lxor (be_num a) (be_num b).
Proof. intros H. unfold be_num. rewrite rev_xor by exact H. apply le_xor. rewrite !rev_length. exact H. Qed.
Lemma be_inj a b : length a = 8%nat -> length b = 8%nat -> be_num a = be_num b -> a = b.
Proof.
  intros Ha Hb E. rewrite <- (rev_involutive a), <- (rev_involutive b). f_equal.
  apply le_num_inj; [rewrite !rev_length; lia|exact E].
Qed.
Lemma fits_be8 a : length a = 8%nat -> fits 64 (be_num a).
Proof. intros H. apply fits_le8. rewrite rev_length. exact H. Qed.

Lemma le_pst n S : length S = 40%nat -> ldstate le_num (p n S) = perm n (ldstate le_num S).
Proof.
  intros _. change (ldstate le_num (p n S)) with (state_of_bytes (bytes_of_state (perm n (state_of_bytes S)))).
  apply state_of_bytes_of_state, wf_perm, wf_state_of_bytes.
Qed.
Lemma length_be8 x : length (be_bytes8 x) = 8%nat. Proof. unfold be_bytes8. rewrite rev_length. apply length_le_bytes. Qed.
Lemma be_word0 a b : length a = 8%nat -> be_word (a ++ b) 0 = be_num a.
Proof. intros H. unfold be_word. change (8 * 0)%nat with 0%nat. cbn [skipn]. rewrite (firstn_app_exact 8) by exact H. reflexivity. Qed.
Lemma be_wordS a b i : length a = 8%nat -> be_word (a ++ b) (S i) = be_word b i.
Proof.
  intros H. unfold be_word. replace (8 * S i)%nat with (8 + 8 * i)%nat by lia.
  rewrite <- skipn_skipn, (skipn_app_exact 8) by exact H. reflexivity.
Qed.
Lemma be_num_be8 x : fits 64 x -> be_num (be_bytes8 x) = x.
Proof. intros H. unfold be_num, be_bytes8. rewrite rev_involutive, le_num_le_bytes. apply trunc_fits, H. Qed.
Lemma be_state_inv s : wf s -> be_state (bytes_of_be_state s) = s.
Proof.
  intros (H0 & H1 & H2 & H3 & H4). unfold be_state, bytes_of_be_state.
  rewrite !be_wordS, !be_word0 by apply length_be8.
  rewrite <- (app_nil_r (be_bytes8 (X4 s))). rewrite be_word0 by apply length_be8.
  rewrite !be_num_be8 by assumption. destruct s; reflexivity.
Qed.
Lemma wf_be_state S : wf (be_state S).
Proof.
  assert (E : forall l : bytes, fits 64 (le_num (rev (firstn 8 l)))).
  { intros l. eapply fits_le; [|apply fits_le_num]. rewrite rev_length, firstn_length. lia. }
  unfold wf, be_state, be_word. cbn [X0 X1 X2 X3 X4]. split; [|split; [|split; [|split]]]; apply E.
Qed.
Lemma be_pst n S : length S = 40%nat -> ldstate be_num (p_be n S) = perm n (ldstate be_num S).
Proof.
  intros _. change (ldstate be_num (p_be n S)) with (be_state (bytes_of_be_state (perm n (be_state S)))).
  apply be_state_inv, wf_perm, wf_be_state.
Qed.
Lemma length_p_be n S : length (p_be n S) = 40%nat.
Proof. unfold p_be, bytes_of_be_state. rewrite !app_length, !length_be8. reflexivity. Qed.
Lemma xor_last a x : length a = 8%nat -> xor_at 7 a [x] = xor_into a (zeros 7 ++ [x]).
Proof.
  intros H. do 9 (destruct a as [|? a]; [cbn in H; try discriminate H|]); [|cbn in H; discriminate H].
  unfold xor_at. cbn -[bxor]. rewrite !bxor_x00_r. reflexivity.
Qed.

(** ** Loads and stores of four words *)
Lemma st_lws b p q s t w0 w1 w2 w3 k r M M' r' : b <> p -> b <> q -> b <> s ->
  readable M (r b) (w0 ++ w1 ++ w2 ++ w3) -> length w0 = 4%nat -> length w1 = 4%nat -> length w2 = 4%nat -> length w3 = 4%nat ->
  r b mod 4 = 0 -> r b + 16 < 2 ^ 32 ->
  runs (exec k (setr (setr (setr (setr r p (le_num w0)) q (le_num w1)) s (le_num w2)) t (le_num w3))) M M' r' ->
  runs (exec (lws b (p, q, s, t) ++ k) r) M M' r'.
Proof.
  intros N1 N2 N3 HR L0 L1 L2 L3 Ha Hb H. cbn [lws app].
  destruct (readable_app M _ _ _ HR) as [R0 HR1]. destruct (readable_app M _ _ _ HR1) as [R1 HR2].
  destruct (readable_app M _ _ _ HR2) as [R2 R3]. unfold len in *. rewrite L0, L1, L2 in *.
  change (N.of_nat 4) with 4 in *.
  assert (E : forall r d v, b <> d -> setr r d v b = r b).
  { intros r0 d v Hd. unfold setr. destruct (Nat.eqb_spec b d); [contradiction|reflexivity]. }
  apply st_lw with (p := r b) (bs := w0); [lia|lia|exact Ha|exact R0|exact L0|].
  apply st_lw with (p := r b + 4) (bs := w1); [rewrite E by exact N1; lia|lia|apply mod4_add; [exact Ha|reflexivity]|exact R1|exact L1|].
  apply st_lw with (p := r b + 4 + 4) (bs := w2); [rewrite !E by assumption; lia|lia|repeat (apply mod4_add; [|reflexivity]); exact Ha|exact R2|exact L2|].
  apply st_lw with (p := r b + 4 + 4 + 4) (bs := w3); [rewrite !E by assumption; lia|lia|repeat (apply mod4_add; [|reflexivity]); exact Ha|exact R3|exact L3|].
  exact H.
Qed.
Lemma parts16 (l0 l1 : bytes) : length l0 = 8%nat -> length l1 = 8%nat ->
  l0 ++ l1 = firstn 4 l0 ++ skipn 4 l0 ++ firstn 4 l1 ++ skipn 4 l1.
Proof. intros H0 H1. rewrite (firstn_skipn 4 l1), app_assoc, firstn_skipn. reflexivity. Qed.
Lemma lws_8 b p q s t l0 l1 k r M M' r' : b <> p -> b <> q -> b <> s ->
  readable M (r b) (l0 ++ l1) -> length l0 = 8%nat -> length l1 = 8%nat -> r b mod 4 = 0 -> r b + 16 < 2 ^ 32 ->
  runs (exec k (setr (setr (setr (setr r p (le_num (firstn 4 l0))) q (le_num (skipn 4 l0))) s (le_num (firstn 4 l1))) t (le_num (skipn 4 l1)))) M M' r' ->
  runs (exec (lws b (p, q, s, t) ++ k) r) M M' r'.
Proof.
  intros N1 N2 N3 HR L0 L1 Ha Hb H. destruct (split44 l0 L0) as (_ & A1 & A2). destruct (split44 l1 L1) as (_ & B1 & B2).
  apply (st_lws b p q s t (firstn 4 l0) (skipn 4 l0) (firstn 4 l1) (skipn 4 l1)); try assumption.
  rewrite <- parts16 by assumption. exact HR.
Qed.
Lemma memb_tregs b : memb b tregs = false -> b <> 28%nat /\ b <> 29%nat /\ b <> 30%nat /\ b <> 31%nat.
Proof. intros H. split; [|split; [|split]]; intros ->; discriminate H. Qed.

Lemma loaded_rok l r a b c d : l = le_first \/ l = be_first -> rok r -> fits 32 a -> fits 32 b -> fits 32 c -> fits 32 d -> rok (loaded l r a b c d).
Proof.
  intros [-> | ->] Hr Ha Hb Hc Hd; unfold loaded, le_first, be_first;
    (do 4 (apply rok_set; [|discriminate|assumption])); exact Hr.
Qed.
Lemma loaded_except l r a b c d : l = le_first \/ l = be_first -> except tregs r (loaded l r a b c d).
Proof. intros [-> | ->]; unfold loaded, le_first, be_first; exs. Qed.

(** ** The tag: four words at any address *)
Lemma mod4_case p : p mod 4 = 0 \/ p mod 4 = 1 \/ p mod 4 = 2 \/ p mod 4 = 3.
Proof. pose proof (N.mod_upper_bound p 4 ltac:(discriminate)). lia. Qed.
Lemma tag_parts o (w : bytes) : (o < 4)%nat -> length w = 20%nat ->
  let w0 := firstn 4 w in let w1 := firstn 4 (skipn 4 w) in let w2 := firstn 4 (skipn 8 w) in
  let w3 := firstn 4 (skipn 12 w) in let w4 := skipn 16 w in
  w = w0 ++ w1 ++ w2 ++ w3 ++ w4 /\ length w0 = 4%nat /\ length w1 = 4%nat /\ length w2 = 4%nat /\ length w3 = 4%nat /\ length w4 = 4%nat /\
  firstn 16 (skipn o w) = firstn 4 (skipn o (w0 ++ w1)) ++ firstn 4 (skipn o (w1 ++ w2)) ++ firstn 4 (skipn o (w2 ++ w3)) ++ firstn 4 (skipn o (w3 ++ w4)).
Proof.
  intros Ho H. cbv zeta.
  do 21 (destruct w as [|? w]; [cbn in H; try discriminate H|]); [|cbn in H; discriminate H].
  split; [reflexivity|]. do 5 (split; [reflexivity|]).
  do 4 (destruct o as [|o]; [reflexivity|]). lia.
Qed.
Lemma fits_word o w0 w1 : fits 32 (le_num (firstn 4 (skipn o (w0 ++ w1)))).
Proof.
  eapply fits_le; [|apply fits_le_num]. rewrite firstn_length. lia.
Qed.
Definition word_at (o : nat) (w0 w1 : bytes) : N := le_num (firstn 4 (skipn o (w0 ++ w1))).

(** What the two macros do: registers [l] hold the four words. *)
Definition tagload_ok (f : nat * nat * nat * nat -> code) : Prop :=
  forall l r M T, l = le_first \/ l = be_first -> rok r -> tag_at M (r 13%nat) T -> r 13%nat + 20 < 2 ^ 32 ->
  exists r', runs (f l r) M M r' /\ rok r' /\ except (26%nat :: tregs) r r' /\
    let '(p, q, s, t) := l in
    r' p = le_num (firstn 4 T) /\ r' q = le_num (firstn 4 (skipn 4 T)) /\ r' s = le_num (firstn 4 (skipn 8 T)) /\ r' t = le_num (skipn 12 T).
Lemma land3 p : N.land p 3 = p mod 4. Proof. change 3 with (N.ones 2). apply N.land_ones. Qed.
Lemma down4 p : (p - p mod 4) mod 4 = 0.
Proof.
  assert (D := N.div_mod' p 4). replace (p - p mod 4) with (p / 4 * 4) by (clear - D; lia). apply N.mod_mul. discriminate.
Qed.
Lemma first_words l r M w0 w1 w2 w3 k : l = le_first \/ l = be_first -> rok r ->
  readable M (r 13%nat - r 13%nat mod 4) (w0 ++ w1 ++ w2 ++ w3) ->
  length w0 = 4%nat -> length w1 = 4%nat -> length w2 = 4%nat -> length w3 = 4%nat -> r 13%nat + 20 < 2 ^ 32 ->
  forall r', runs (exec k (mid l r (r 13%nat - r 13%nat mod 4) w0 w1 w2 w3)) M M r' ->
  runs (exec (([andi 5 13 (neg 4)] ++ lws 5 l) ++ k) r) M M r'.
Proof.
  intros Hl Hr HR L0 L1 L2 L3 HB r' H. rewrite <- app_assoc. cbn [app]. apply st_op; [reflexivity|]. cbn [fev].
  rewrite align_down by apply Hr. set (r1 := setr r 5 (r 13%nat - r 13%nat mod 4)).
  destruct Hl as [-> | ->]; unfold le_first, be_first;
    (apply (st_lws 5 _ _ _ _ w0 w1 w2 w3); [discriminate|discriminate|discriminate|exact HR|exact L0|exact L1|exact L2|exact L3|
     apply down4|change (r1 5%nat) with (r 13%nat - r 13%nat mod 4); clear - HB; lia|exact H]).
Qed.
Lemma mid_rok l r p w0 w1 w2 w3 : l = le_first \/ l = be_first -> rok r -> fits 32 p ->
  length w0 = 4%nat -> length w1 = 4%nat -> length w2 = 4%nat -> length w3 = 4%nat -> rok (mid l r p w0 w1 w2 w3).
Proof.
  intros Hl Hr Hp L0 L1 L2 L3. apply loaded_rok; [exact Hl|apply rok_set; [exact Hr|discriminate|exact Hp]|..]; apply fits_le4; assumption.
Qed.
Lemma mid_except l r p w0 w1 w2 w3 : l = le_first \/ l = be_first -> except tregs r (mid l r p w0 w1 w2 w3).
Proof. intros [-> | ->]; unfold mid, loaded, le_first, be_first; exs. Qed.

(** Both macros differ in the instructions behind the comparison only. *)
Definition tagload_with (rest : nat * nat * nat * nat -> list ins) (l : nat * nat * nat * nat) : code :=
  exec ([andi 5 13 (neg 4)] ++ lws 5 l) >>> cond (beq 5 13) skip (exec (rest l)).
Definition rest_ok (rest : nat * nat * nat * nat -> list ins) : Prop :=
  forall l r M o w0 w1 w2 w3 w4, l = le_first \/ l = be_first -> rok r -> (0 < o)%nat -> (o < 4)%nat -> r 13%nat mod 4 = N.of_nat o ->
  readable M (r 13%nat - r 13%nat mod 4) (w0 ++ w1 ++ w2 ++ w3 ++ w4) -> r 13%nat + 20 < 2 ^ 32 ->
  length w0 = 4%nat -> length w1 = 4%nat -> length w2 = 4%nat -> length w3 = 4%nat -> length w4 = 4%nat ->
  exists r', runs (exec (rest l) (mid l r (r 13%nat - r 13%nat mod 4) w0 w1 w2 w3)) M M r' /\ rok r' /\ except (26%nat :: tregs) r r' /\
    let '(p, q, s, t) := l in
    r' p = word_at o w0 w1 /\ r' q = word_at o w1 w2 /\ r' s = word_at o w2 w3 /\ r' t = word_at o w3 w4.
Lemma tagload_with_ok rest : rest_ok rest -> tagload_ok (tagload_with rest).
Proof.
  intros HT l r M T Hl Hr (w & HR & Lw & ->) HB. set (p := r 13%nat) in *.
  assert (Fp : fits 32 (p - p mod 4)) by (unfold fits; clear - HB; lia).
  destruct (N.eqb_spec (p mod 4) 0) as [E|E].
  - (* aligned *)
    rewrite E. change (skipn (N.to_nat 0) w) with w. rewrite (firstn_all2 w) by (clear - Lw; lia).
    assert (L : exists w0 w1 w2 w3, w = w0 ++ w1 ++ w2 ++ w3 /\ length w0 = 4%nat /\ length w1 = 4%nat /\ length w2 = 4%nat /\ length w3 = 4%nat).
    { exists (firstn 4 w), (firstn 4 (skipn 4 w)), (firstn 4 (skipn 8 w)), (skipn 12 w).
      clear - Lw. do 17 (destruct w as [|? w]; [cbn in Lw; try discriminate Lw|]); [|cbn in Lw; discriminate Lw].
      repeat split. }
    destruct L as (w0 & w1 & w2 & w3 & -> & L0 & L1 & L2 & L3).
    exists (mid l r (p - p mod 4) w0 w1 w2 w3). split; [|split; [|split]].
    + apply st_then with (M1 := M) (r1 := mid l r (p - p mod 4) w0 w1 w2 w3).
      * rewrite <- (app_nil_r (_ ++ lws 5 l)). apply (first_words l r M w0 w1 w2 w3 [] Hl Hr HR L0 L1 L2 L3 HB). apply st_nil.
      * apply st_cond. replace (beq 5 13 (mid l r (p - p mod 4) w0 w1 w2 w3)) with true; [apply st_skip|].
        unfold beq. replace (mid l r (p - p mod 4) w0 w1 w2 w3 5%nat) with (p - p mod 4) by (destruct Hl as [-> | ->]; reflexivity).
        replace (mid l r (p - p mod 4) w0 w1 w2 w3 13%nat) with p by (destruct Hl as [-> | ->]; reflexivity).
        rewrite E, N.sub_0_r. symmetry. apply N.eqb_refl.
    + apply mid_rok; assumption.
    + apply (except_sub tregs); [reflexivity|apply mid_except, Hl].
    + assert (D1 : firstn 4 (w0 ++ w1 ++ w2 ++ w3) = w0) by (apply firstn_app_exact, L0).
      assert (D2 : skipn 4 (w0 ++ w1 ++ w2 ++ w3) = w1 ++ w2 ++ w3) by (apply skipn_app_exact, L0).
      assert (D3 : skipn 8 (w0 ++ w1 ++ w2 ++ w3) = w2 ++ w3).
      { rewrite app_assoc. apply skipn_app_exact. rewrite app_length. clear - L0 L1. lia. }
      assert (D4 : skipn 12 (w0 ++ w1 ++ w2 ++ w3) = w3).
      { rewrite !app_assoc. apply skipn_app_exact. rewrite !app_length. clear - L0 L1 L2. lia. }
      rewrite D1, D2, D3, D4, (firstn_app_exact 4 w1), (firstn_app_exact 4 w2) by assumption.
      destruct Hl as [-> | ->]; unfold le_first, be_first; (split; [|split; [|split]]); reflexivity.
  - (* unaligned *)
    assert (HO : exists o, (0 < o)%nat /\ (o < 4)%nat /\ p mod 4 = N.of_nat o).
    { exists (N.to_nat (p mod 4)). pose proof (N.mod_upper_bound p 4 ltac:(discriminate)) as B. clear - E B. lia. }
    destruct HO as (o & O0 & O4 & Eo).
    destruct (tag_parts o w O4 Lw) as (Ew & L0 & L1 & L2 & L3 & L4 & ET). rewrite Eo, Nat2N.id. rewrite ET. clear ET.
    set (w0 := firstn 4 w) in *. set (w1 := firstn 4 (skipn 4 w)) in *. set (w2 := firstn 4 (skipn 8 w)) in *.
    set (w3 := firstn 4 (skipn 12 w)) in *. set (w4 := skipn 16 w) in *. rewrite Ew in HR.
    destruct (HT l r M o w0 w1 w2 w3 w4 Hl Hr O0 O4 Eo HR HB L0 L1 L2 L3 L4) as (r' & R & Hr' & EX & V).
    exists r'. split; [|split; [exact Hr'|split; [exact EX|]]].
    + apply st_then with (M1 := M) (r1 := mid l r (p - p mod 4) w0 w1 w2 w3).
      * rewrite <- (app_nil_r (_ ++ lws 5 l)). apply (first_words l r M w0 w1 w2 w3 [] Hl Hr); try assumption; [|apply st_nil].
        replace (w0 ++ w1 ++ w2 ++ w3 ++ w4) with ((w0 ++ w1 ++ w2 ++ w3) ++ w4) in HR by (rewrite <- !app_assoc; reflexivity).
        apply (readable_app M _ _ _ HR).
      * apply st_cond. replace (beq 5 13 (mid l r (p - p mod 4) w0 w1 w2 w3)) with false; [exact R|].
        unfold beq. replace (mid l r (p - p mod 4) w0 w1 w2 w3 5%nat) with (p - p mod 4) by (destruct Hl as [-> | ->]; reflexivity).
        replace (mid l r (p - p mod 4) w0 w1 w2 w3 13%nat) with p by (destruct Hl as [-> | ->]; reflexivity).
        symmetry. apply N.eqb_neq. pose proof (N.mod_le p 4 ltac:(discriminate)) as B. clear - E B. lia.
    + assert (F : forall a b : bytes, length a = 4%nat -> length b = 4%nat -> length (firstn 4 (skipn o (a ++ b))) = 4%nat).
      { intros a b A B. rewrite firstn_length, skipn_length, app_length. clear - A B O4. lia. }
      set (v0 := firstn 4 (skipn o (w0 ++ w1))) in *. set (v1 := firstn 4 (skipn o (w1 ++ w2))) in *.
      set (v2 := firstn 4 (skipn o (w2 ++ w3))) in *. set (v3 := firstn 4 (skipn o (w3 ++ w4))) in *.
      assert (K0 : length v0 = 4%nat) by (apply F; assumption). assert (K1 : length v1 = 4%nat) by (apply F; assumption).
      assert (K2 : length v2 = 4%nat) by (apply F; assumption).
      assert (D1 : firstn 4 (v0 ++ v1 ++ v2 ++ v3) = v0) by (apply firstn_app_exact, K0).
      assert (D2 : skipn 4 (v0 ++ v1 ++ v2 ++ v3) = v1 ++ v2 ++ v3) by (apply skipn_app_exact, K0).
      assert (D3 : skipn 8 (v0 ++ v1 ++ v2 ++ v3) = v2 ++ v3).
      { rewrite app_assoc. apply skipn_app_exact. rewrite app_length. clear - K0 K1. lia. }
      assert (D4 : skipn 12 (v0 ++ v1 ++ v2 ++ v3) = v3).
      { rewrite !app_assoc. apply skipn_app_exact. rewrite !app_length. clear - K0 K1 K2. lia. }
      rewrite D1, D2, D3, D4, (firstn_app_exact 4 v1), (firstn_app_exact 4 v2) by assumption.
      exact V.
Qed.

Definition rest_shift (l : nat * nat * nat * nat) : list ins :=
  let '(p, q, s, t) := l in
  [Lw 5 5 16; andi 6 13 3; slli 6 6 3; ModelRv.sub 7 0 6;
   srl p p 6; sll 26 q 7; or p p 26; srl q q 6; sll 26 s 7; or q q 26;
   srl s s 6; sll 26 t 7; or s s 26; srl t t 6; sll 26 5 7; or t t 26].
Definition rest_fsr (l : nat * nat * nat * nat) : list ins :=
  let '(p, q, s, t) := l in
  [Lw 5 5 16; andi 6 13 3; slli 6 6 3; fsr p p q 6; fsr q q s 6; fsr s s t 6; fsr t t 5 6].
Lemma last_word l r M w0 w1 w2 w3 w4 k r' : l = le_first \/ l = be_first ->
  readable M (r 13%nat - r 13%nat mod 4) (w0 ++ w1 ++ w2 ++ w3 ++ w4) -> r 13%nat + 20 < 2 ^ 32 ->
  length w0 = 4%nat -> length w1 = 4%nat -> length w2 = 4%nat -> length w3 = 4%nat -> length w4 = 4%nat ->
  runs (exec k (setr (mid l r (r 13%nat - r 13%nat mod 4) w0 w1 w2 w3) 5 (le_num w4))) M M r' ->
  runs (exec (Lw 5 5 16 :: k) (mid l r (r 13%nat - r 13%nat mod 4) w0 w1 w2 w3)) M M r'.
Proof.
  intros Hl HR HB L0 L1 L2 L3 L4 H. set (b := r 13%nat - r 13%nat mod 4) in *.
  apply st_lw with (p := b + 16) (bs := w4).
  - replace (mid l r b w0 w1 w2 w3 5%nat) with b by (destruct Hl as [-> | ->]; reflexivity). reflexivity.
  - unfold b. clear - HB. lia.
  - apply mod4_add; [apply down4|reflexivity].
  - replace (w0 ++ w1 ++ w2 ++ w3 ++ w4) with ((w0 ++ w1 ++ w2 ++ w3) ++ w4) in HR by (rewrite <- !app_assoc; reflexivity).
    destruct (readable_app M _ _ _ HR) as [_ R4]. unfold len in R4. rewrite !app_length, L0, L1, L2, L3 in R4. exact R4.
  - exact L4.
  - exact H.
Qed.
Lemma shift_amount r o : rok r -> (0 < o)%nat -> (o < 4)%nat -> r 13%nat mod 4 = N.of_nat o ->
  shlw 32 (N.land (r 13%nat) 3) 3 = 8 * N.of_nat o /\ N.land (8 * N.of_nat o) 31 = 8 * N.of_nat o /\
  N.land (8 * N.of_nat o) 63 = 8 * N.of_nat o /\
  N.land (trunc 32 (2 ^ 32 + r 0%nat - 8 * N.of_nat o)) 31 = 32 - 8 * N.of_nat o.
Proof.
  intros Hr O0 O4 Eo. rewrite land3, Eo, (proj1 Hr). clear - O0 O4.
  destruct o as [|o]; [lia|]. do 3 (destruct o as [|o]; [repeat split|]). lia.
Qed.
(** All registers are 32 bits wide if those that were set are. *)
Lemma rok_tag l r r' : l = le_first \/ l = be_first -> rok r -> except (26%nat :: tregs) r r' ->
  fits 32 (r' 5%nat) -> fits 32 (r' 6%nat) -> fits 32 (r' 7%nat) -> fits 32 (r' 26%nat) ->
  (let '(p, q, s, t) := l in fits 32 (r' p) /\ fits 32 (r' q) /\ fits 32 (r' s) /\ fits 32 (r' t)) -> rok r'.
Proof.
  intros Hl Hr EX F5 F6 F7 F26 V. split; [rewrite (EX 0%nat eq_refl); apply Hr|].
  intros i. destruct (memb i (26%nat :: tregs)) eqn:Ei; [|rewrite (EX i Ei); apply Hr].
  unfold memb, tregs in Ei. cbn [existsb] in Ei.
  destruct Hl as [-> | ->]; unfold le_first, be_first in V; destruct V as (V1 & V2 & V3 & V4);
  repeat (apply orb_prop in Ei; destruct Ei as [Ei|Ei]; [apply Nat.eqb_eq in Ei; subst i; assumption|]); discriminate Ei.
Qed.
Lemma rest_shift_ok : rest_ok rest_shift.
Proof.
  intros l r M o w0 w1 w2 w3 w4 Hl Hr O0 O4 Eo HR HB L0 L1 L2 L3 L4.
  destruct (shift_amount r o Hr O0 O4 Eo) as (S1 & S2 & _ & S3).
  set (n := shlw 32 (N.land (r 13%nat) 3) 3). fold n in S1. set (n' := trunc 32 (2 ^ 32 + r 0%nat - n)).
  assert (HW : forall a b, length a = 4%nat -> length b = 4%nat ->
    N.lor (shrw (le_num a) (N.land n 31)) (shlw 32 (le_num b) (N.land n' 31)) = word_at o a b).
  { intros a b A B. unfold n'. rewrite S1, S2, S3. apply shift_words; assumption. }
  assert (Fn : fits 32 n) by apply fits_shlw. assert (Fn' : fits 32 n') by apply fits_trunc.
  assert (X : exists r', runs (exec (rest_shift l) (mid l r (r 13%nat - r 13%nat mod 4) w0 w1 w2 w3)) M M r' /\ except (26%nat :: tregs) r r' /\
    fits 32 (r' 5%nat) /\ fits 32 (r' 6%nat) /\ fits 32 (r' 7%nat) /\ fits 32 (r' 26%nat) /\ let '(p, q, s, t) := l in
    r' p = word_at o w0 w1 /\ r' q = word_at o w1 w2 /\ r' s = word_at o w2 w3 /\ r' t = word_at o w3 w4).
  { assert (LW := fun k r' => last_word l r M w0 w1 w2 w3 w4 k r' Hl HR HB L0 L1 L2 L3 L4).
    destruct Hl as [-> | ->]; unfold rest_shift, le_first, be_first in *;
    (eexists; split; [apply LW; opsf; apply st_nil|]; split; [unfold mid, loaded; exs|];
     split; [exact (fits_le4 w4 L4)|]; split; [exact Fn|]; split; [exact Fn'|]; split; [exact (fits_shlw 32 (le_num w4) (N.land n' 31))|];
     split; [exact (HW w0 w1 L0 L1)|]; split; [exact (HW w1 w2 L1 L2)|]; split; [exact (HW w2 w3 L2 L3)|exact (HW w3 w4 L3 L4)]). }
  destruct X as (r' & R & EX & F5 & F6 & F7 & F26 & V). exists r'. split; [exact R|]. split; [|split; [exact EX|exact V]].
  apply (rok_tag l r); try assumption.
  destruct Hl as [-> | ->]; unfold le_first, be_first in *; destruct V as (-> & -> & -> & ->); repeat split; apply fits_word.
Qed.
Lemma rest_fsr_ok : rest_ok rest_fsr.
Proof.
  intros l r M o w0 w1 w2 w3 w4 Hl Hr O0 O4 Eo HR HB L0 L1 L2 L3 L4.
  destruct (shift_amount r o Hr O0 O4 Eo) as (S1 & _ & S2 & _).
  set (n := shlw 32 (N.land (r 13%nat) 3) 3). fold n in S1.
  assert (HW : forall a b, length a = 4%nat -> length b = 4%nat ->
    trunc 32 (rorw 64 (N.lor (le_num a) (N.shiftl (le_num b) 32)) (N.land n 63)) = word_at o a b).
  { intros a b A B. rewrite S1, S2. rewrite fsr_words by (try (apply fits_le4; exact A); clear - O0 O4; lia).
    apply shift_words; assumption. }
  assert (Fn : fits 32 n) by apply fits_shlw.
  assert (X : exists r', runs (exec (rest_fsr l) (mid l r (r 13%nat - r 13%nat mod 4) w0 w1 w2 w3)) M M r' /\ except (26%nat :: tregs) r r' /\
    fits 32 (r' 5%nat) /\ fits 32 (r' 6%nat) /\ fits 32 (r' 7%nat) /\ fits 32 (r' 26%nat) /\ let '(p, q, s, t) := l in
    r' p = word_at o w0 w1 /\ r' q = word_at o w1 w2 /\ r' s = word_at o w2 w3 /\ r' t = word_at o w3 w4).
  { assert (LW := fun k r' => last_word l r M w0 w1 w2 w3 w4 k r' Hl HR HB L0 L1 L2 L3 L4).
    destruct Hl as [-> | ->]; unfold rest_fsr, le_first, be_first in *;
    (eexists; split; [apply LW; opsf; apply st_nil|]; split; [unfold mid, loaded; exs|];
     split; [exact (fits_le4 w4 L4)|]; split; [exact Fn|]; split; [exact (proj2 Hr 7%nat)|]; split; [exact (proj2 Hr 26%nat)|];
     split; [exact (HW w0 w1 L0 L1)|]; split; [exact (HW w1 w2 L1 L2)|]; split; [exact (HW w2 w3 L2 L3)|exact (HW w3 w4 L3 L4)]). }
  destruct X as (r' & R & EX & F5 & F6 & F7 & F26 & V). exists r'. split; [exact R|]. split; [|split; [exact EX|exact V]].
  apply (rok_tag l r); try assumption.
  destruct Hl as [-> | ->]; unfold le_first, be_first in *; destruct V as (-> & -> & -> & ->); repeat split; apply fits_word.
Qed.
Lemma lw_unaligned_ok : tagload_ok lw_unaligned_4x.
Proof.
  intros [[[p q] s] t]. exact (tagload_with_ok rest_shift rest_shift_ok (p, q, s, t)).
Qed.
Lemma lw_unaligned_fsr_ok : tagload_ok lw_unaligned_4x_fsr.
Proof.
  intros [[[p q] s] t]. exact (tagload_with_ok rest_fsr rest_fsr_ok (p, q, s, t)).
Qed.
