(** * MaskHide.v -- any proper subset of the shares that generate_shares
    (ModelMask.v) makes of a text is independent of the text. *)
From Coq Require Import Arith Bool NArith ZArith List Lia Init.Byte.
From Coq Require Import ZifyBool ZifyNat ZifyN.
From Verif Require Import Words WordFacts Spec SpecFacts RoundFacts SpecHide ModelRef StateRep ModelCommon
  ModelWords RefPrim ModelMask MaskVal MaskArr MaskShares CMem Contract CMemFacts.
Import ListNotations.
Local Open Scope N_scope.

Definition look (a : arr) (i : N) : option (option N) := nth_error (a_cells a) (N.to_nat i).
Lemma bdone {A B} (c : C A) (f : A -> C B) M t M' v : bind c f M = Done t M' v ->
  exists t1 M1 x t2, c M = Done t1 M1 x /\ f x M1 = Done t2 M' v.
Proof.
  unfold bind. destruct (c M) as [t1 M1 x|]; [|discriminate]. destruct (f x M1) as [t2 M2 y|] eqn:E; [|discriminate].
  intros H. injection H as <- <- <-. exists t1, M1, x, t2. split; [reflexivity|exact E].
Qed.
Lemma rdone {A} (v : A) M t M' v' : ret v M = Done t M' v' -> v' = v.
Proof. unfold ret. intros H. injection H as <- <- <-. reflexivity. Qed.
Ltac bd H := let t1 := fresh "t" in let M1 := fresh "M" in let x := fresh "x" in let t2 := fresh "t" in
  let A := fresh "A" in destruct (bdone _ _ _ _ _ _ H) as (t1 & M1 & x & t2 & A & H'); clear H; rename H' into H; cbv beta in H.
Lemma aset_look a i v M t M' b : aset a i v M = Done t M' b ->
  look b i = Some (Some v) /\ forall j, j <> i -> look b j = look a j.
Proof.
  unfold aset. destruct (N.ltb_spec i (alen a)) as [L|L]; [|discriminate]. intros H. injection H as _ _ <-. unfold look. cbn [a_cells].
  split; [apply nth_lset_same; unfold alen in L; lia|]. intros j Hj. apply nth_lset_other. lia.
Qed.
Lemma for_done {S} k : forall i (body : N -> S -> C S) s M t M' s' (I : nat -> S -> Prop), I O s ->
  (forall n s M t M' s', (n < k)%nat -> I n s -> body (i + N.of_nat n) s M = Done t M' s' -> I (Datatypes.S n) s') ->
  for_loop k i body s M = Done t M' s' -> I k s'.
Proof.
  induction k as [|k IH]; intros i body s M t M' s' I I0 HI H; cbn [for_loop] in H.
  - destruct (bdone _ _ _ _ _ _ H) as (t1 & M1 & x & t2 & A & B). rewrite (rdone _ _ _ _ _ B). exact I0.
  - destruct (bdone _ _ _ _ _ _ H) as (t1 & M1 & x & t2 & A & B).
    destruct (bdone _ _ _ _ _ _ B) as (t3 & M3 & y & t4 & C & D).
    apply (IH (i + 1) body y M3 t4 M' s' (fun n => I (Datatypes.S n))); [| |exact D].
    + apply (HI O s M1 t3 M3 y); [lia|exact I0|]. rewrite N.add_0_r. exact C.
    + intros n z N1 u N2 z' Hn Hz E. apply (HI (Datatypes.S n) z N1 u N2 z'); [lia|exact Hz|].
      replace (i + N.of_nat (Datatypes.S n)) with (i + 1 + N.of_nat n) by lia. exact E.
Qed.

Section gen.
Variable R : N -> N.
Definition lo (x : N) : N := trunc 32 (trunc 64 x).
Definition hi (x : N) : N := trunc 32 (shrw (trunc 64 x) 32).
Lemma gs_share_look ns i d a g M t M' b g' : 1 <= d -> d < ns ->
  gs_share R ns i d (a, g) M = Done t M' (b, g') ->
  g' = g + 1 /\ look b (i * ns + d) = Some (Some (lo (R g))) /\ look b (i * ns + ns + d) = Some (Some (hi (R g))) /\
  forall j, j <> i * ns -> j <> i * ns + ns -> j <> i * ns + d -> j <> i * ns + ns + d -> look b j = look a j.
Proof.
  intros H1 H2 H. unfold gs_share in H.
  destruct (bdone _ _ _ _ _ _ H) as (? & ? & a1 & ? & A1 & K1). clear H.
  destruct (bdone _ _ _ _ _ _ K1) as (? & ? & a2 & ? & A2 & K2). clear K1.
  destruct (bdone _ _ _ _ _ _ K2) as (? & ? & vx & ? & _ & K3). clear K2.
  destruct (bdone _ _ _ _ _ _ K3) as (? & ? & a3 & ? & A3 & K4). clear K3.
  destruct (bdone _ _ _ _ _ _ K4) as (? & ? & vy & ? & _ & K5). clear K4.
  destruct (bdone _ _ _ _ _ _ K5) as (? & ? & a4 & ? & A4 & K6). clear K5.
  apply rdone in K6. injection K6 as -> ->.
  apply aset_look in A1 as [E1 F1]. apply aset_look in A2 as [E2 F2]. apply aset_look in A3 as [E3 F3]. apply aset_look in A4 as [E4 F4].
  replace ((i + 0) * ns + d) with (i * ns + d) in * by lia. replace ((i + 1) * ns + d) with (i * ns + ns + d) in * by lia.
  replace ((i + 0) * ns + 0) with (i * ns) in * by lia. replace ((i + 1) * ns + 0) with (i * ns + ns) in * by lia.
  set (o := i * ns) in *. clearbody o.
  split; [reflexivity|]. split; [rewrite F4, F3, F2 by lia; exact E1|]. split; [rewrite F4, F3 by lia; exact E2|].
  intros j J1 J2 J3 J4. rewrite F4, F3, F2, F1 by lia. reflexivity.
Qed.
Lemma gs_random_look ns j a g M t M' b g' : 1 <= ns ->
  gs_random R ns j (a, g) M = Done t M' (b, g') ->
  g' = g + (ns - 1) /\
  (forall e, 1 <= e -> e < ns -> look b (2 * ns * j + e) = Some (Some (lo (R (g + (e - 1))))) /\
    look b (2 * ns * j + ns + e) = Some (Some (hi (R (g + (e - 1)))))) /\
  forall c, c < 2 * ns * j \/ 2 * ns * j + 2 * ns <= c -> look b c = look a c.
Proof.
  intros Hns H. unfold gs_random in H.
  destruct (bdone _ _ _ _ _ _ H) as (? & ? & a1 & ? & A1 & K1). clear H.
  destruct (bdone _ _ _ _ _ _ K1) as (? & ? & a2 & ? & A2 & K2). clear K1.
  apply aset_look in A1 as [_ F1]. apply aset_look in A2 as [_ F2].
  replace ((2 * j + 0) * ns + 0) with (2 * ns * j) in * by lia. replace ((2 * j + 1) * ns + 0) with (2 * ns * j + ns) in * by lia.
  set (o := 2 * ns * j) in *.
  set (I := fun (n : nat) (s : arr * N) => snd s = g + N.of_nat n /\
    (forall e, 1 <= e -> e < 1 + N.of_nat n -> look (fst s) (o + e) = Some (Some (lo (R (g + (e - 1))))) /\
      look (fst s) (o + ns + e) = Some (Some (hi (R (g + (e - 1)))))) /\
    forall c, c < o \/ o + 2 * ns <= c -> look (fst s) c = look a c).
  assert (G : I (N.to_nat (ns - 1)) (b, g')).
  { eapply for_done; [| |exact K2].
    - split; [cbn [snd]; lia|]. split; [intros e E1 E2; lia|]. intros c Hc. cbn [fst]. rewrite F2, F1 by lia. reflexivity.
    - intros n [sx gx] N1 u N2 [sy gy] Hn (J1 & J2 & J3) E. cbn [fst snd] in J1, J2, J3. subst gx.
      destruct (gs_share_look ns (2 * j) (1 + N.of_nat n) sx (g + N.of_nat n) N1 u N2 sy gy ltac:(lia) ltac:(lia) E) as (-> & Q1 & Q2 & Q3).
      replace (2 * j * ns) with o in * by (unfold o; lia). clearbody o.
      split; [cbn [snd]; lia|]. split.
      + intros e E1 E2. cbn [fst]. destruct (N.eq_dec e (1 + N.of_nat n)) as [->|Ne].
        * replace (1 + N.of_nat n - 1) with (N.of_nat n) by lia. split; assumption.
        * destruct (J2 e E1 ltac:(lia)) as [U V]. rewrite !Q3 by lia. split; assumption.
      + intros c Hc. cbn [fst]. rewrite Q3 by lia. apply J3, Hc. }
  destruct G as (G1 & G2 & G3). cbn [fst snd] in *.
  split; [lia|]. split; [|exact G3]. intros e E1 E2. apply G2; lia.
Qed.
Lemma gs_randoms_look ns k a g M t M' b g' : 1 <= ns ->
  for_loop k 0 (gs_random R ns) (a, g) M = Done t M' (b, g') ->
  g' = g + N.of_nat k * (ns - 1) /\
  (forall j e, j < N.of_nat k -> 1 <= e -> e < ns -> look b (2 * ns * j + e) = Some (Some (lo (R (g + j * (ns - 1) + (e - 1))))) /\
    look b (2 * ns * j + ns + e) = Some (Some (hi (R (g + j * (ns - 1) + (e - 1)))))).
Proof.
  intros Hns K.
  set (I := fun (n : nat) (s : arr * N) => snd s = g + N.of_nat n * (ns - 1) /\
    forall j e, j < N.of_nat n -> 1 <= e -> e < ns -> look (fst s) (2 * ns * j + e) = Some (Some (lo (R (g + j * (ns - 1) + (e - 1))))) /\
      look (fst s) (2 * ns * j + ns + e) = Some (Some (hi (R (g + j * (ns - 1) + (e - 1)))))).
  assert (G : I k (b, g')).
  { eapply for_done; [| |exact K].
    - split; [cbn [snd]; lia|]. intros j e H. lia.
    - intros n [sx gx] N1 u N2 [sy gy] Hn (J1 & J2) E. cbn [fst snd] in J1, J2. subst gx. rewrite N.add_0_l in E.
      destruct (gs_random_look ns (N.of_nat n) sx _ N1 u N2 sy gy Hns E) as (-> & Q1 & Q2).
      split; [cbn [snd]; lia|]. intros j e Hj E1 E2. cbn [fst]. destruct (N.eq_dec j (N.of_nat n)) as [->|Ne].
      + apply Q1; assumption.
      + destruct (J2 j e ltac:(lia) E1 E2) as [U V]. rewrite !Q2 by nia. split; assumption. }
  destruct G as (G1 & G2). split; [exact G1|exact G2].
Qed.

(** XORing the data in changes cells of share 0 only. *)
Definition kept (ns : N) (a b : arr) : Prop := forall c, (forall q, c <> q * ns) -> look b c = look a c.
Lemma gs_xor_kept ns j x a M t M' b : gs_xor ns j x a M = Done t M' b -> kept ns a b.
Proof.
  intros H. unfold gs_xor in H.
  destruct (bdone _ _ _ _ _ _ H) as (? & ? & vv & ? & _ & K1). clear H.
  destruct (bdone _ _ _ _ _ _ K1) as (? & ? & a1 & ? & A1 & K2). clear K1.
  destruct (bdone _ _ _ _ _ _ K2) as (? & ? & vw & ? & _ & K3). clear K2.
  apply aset_look in A1 as [_ F1]. apply aset_look in K3 as [_ F2].
  intros c Hc. rewrite F2, F1; [reflexivity| |]; rewrite N.add_0_r; apply Hc.
Qed.
Lemma generate_look ns g a data len0 M t M' b g' : (1 <= ns)%nat ->
  generate_shares R LE g a ns data len0 M = Done t M' (b, g') ->
  g' = g + NUM_WORDS len0 / 2 * (N.of_nat ns - 1) /\
  forall j e, j < NUM_WORDS len0 / 2 -> 1 <= e -> e < N.of_nat ns ->
    look b (2 * N.of_nat ns * j + e) = Some (Some (lo (R (g + j * (N.of_nat ns - 1) + (e - 1))))) /\
    look b (2 * N.of_nat ns * j + N.of_nat ns + e) = Some (Some (hi (R (g + j * (N.of_nat ns - 1) + (e - 1))))).
Proof.
  intros Hns H. unfold generate_shares in H. set (n := N.of_nat ns) in *. assert (Hn : 1 <= n) by (unfold n; lia). clearbody n.
  destruct (bdone _ _ _ _ _ _ H) as (? & ? & [a1 g1] & ? & A1 & K1). clear H.
  destruct (gs_randoms_look n _ a g _ _ _ a1 g1 Hn A1) as [E1 E2]. rewrite N2Nat.id in E1, E2.
  destruct (bdone _ _ _ _ _ _ K1) as (? & ? & a2 & ? & A2 & K2). clear K1.
  assert (Kt : kept n a1 a2).
  { apply (for_done _ _ _ _ _ _ _ _ (fun _ => kept n a1)) with (3 := A2); [intros c Hc; reflexivity|].
    intros k s N1 u N2 s' Hk Hs E. unfold gs_word in E.
    destruct (bdone _ _ _ _ _ _ E) as (? & ? & vq & ? & _ & Y1). destruct (bdone _ _ _ _ _ _ Y1) as (? & ? & vl & ? & _ & Y2).
    intros c Hc. rewrite (gs_xor_kept _ _ _ _ _ _ _ _ Y2 c Hc). apply Hs, Hc. }
  destruct (bdone _ _ _ _ _ _ K2) as (? & ? & bb & ? & _ & K3). clear K2.
  assert (G : g' = g1 /\ kept n a1 b).
  { destruct bb.
    - destruct (bdone _ _ _ _ _ _ K3) as (? & ? & vy & ? & _ & Y1). destruct (bdone _ _ _ _ _ _ Y1) as (? & ? & a3 & ? & Y2 & Y3).
      apply rdone in Y3. injection Y3 as -> ->. split; [reflexivity|]. intros c Hc.
      rewrite (gs_xor_kept _ _ _ _ _ _ _ _ Y2 c Hc). apply Kt, Hc.
    - apply rdone in K3. injection K3 as -> ->. split; [reflexivity|exact Kt]. }
  destruct G as [-> G]. split; [exact E1|]. intros j e Hj H1 H2. rewrite !G.
  - apply E2; assumption.
  - intros q Hq. assert (e = (q - 2 * j - 1) * n) by nia. nia.
  - intros q Hq. assert (e = (q - 2 * j) * n) by nia. nia.
Qed.
End gen.

Lemma some2 (x y : N) : Some (Some x) = Some (Some y) -> x = y.
Proof. intros H. exact (f_equal (fun o => match o with Some (Some v) => v | _ => 0 end) H). Qed.
Lemma word_ext x y : fits 64 x -> fits 64 y -> trunc 32 x = trunc 32 y -> shrw x 32 = shrw y 32 -> x = y.
Proof.
  intros Fx Fy H1 H2. apply (fits_ext 64); [exact Fx|exact Fy|]. intros i Hi.
  destruct (N.ltb_spec i 32) as [L|L].
  - assert (E := f_equal (fun v => N.testbit v i) H1). cbv beta in E. rewrite !testbit_trunc in E.
    replace (i <? 32) with true in E by lia. exact E.
  - assert (E := f_equal (fun v => N.testbit v (i - 32)) H2). cbv beta in E. rewrite !testbit_shrw in E.
    replace (i - 32 + 32) with i in E by lia. exact E.
Qed.
Lemma generate_full R M ns g base data l : okn ns -> readable M data l -> len l < 2 ^ 60 ->
  exists b, runs (generate_shares R LE g (malloc_shares base ns (len l)) ns data (len l)) M M
      (b, g + N.of_nat (nwords (length l)) * (N.of_nat ns - 1)) /\
    alen b = 2 * N.of_nat ns * N.of_nat (nwords (length l)) /\
    forall j, (j < nwords (length l))%nat -> exists f, wordn l j = sumrot f ns /\
      forall d, (d < ns)%nat -> fits 64 (f d) /\ look b (2 * N.of_nat ns * N.of_nat j + N.of_nat d) = Some (Some (trunc 32 (f d))) /\
        look b (2 * N.of_nat ns * N.of_nat j + N.of_nat ns + N.of_nat d) = Some (Some (shrw (f d) 32)) /\
        ((1 <= d)%nat -> f d = trunc 64 (R (g + N.of_nat j * (N.of_nat ns - 1) + (N.of_nat d - 1)))).
Proof.
  intros Hok Rd Hl. set (nw := nwords (length l)).
  assert (Hw : NUM_WORDS (len l) = 2 * N.of_nat nw) by exact (NUM_WORDS_len l Hl).
  assert (Bw : N.of_nat nw <= 2 ^ 58).
  { unfold nw, nwords, len in *. assert (X := Nat.div_mod (length l + 7) 8 ltac:(lia)). lia. }
  set (a := malloc_shares base ns (len l)).
  assert (La : alen a = 2 * N.of_nat ns * N.of_nat nw).
  { unfold a, malloc_shares, malloc, alen. cbn [a_cells]. rewrite repeat_length, N2Nat.id, Hw.
    rewrite trunc_fits by (unfold fits; unfold okn in Hok; nia).
    replace (4 * N.of_nat ns * (2 * N.of_nat nw)) with (2 * N.of_nat ns * N.of_nat nw * 4) by lia. apply N.div_mul. discriminate. }
  destruct (generate_ok R M ns g a data l Hok Rd Hl ltac:(fold nw; lia)) as (b & g' & (t & X) & (_ & Lb & _) & AB).
  destruct (generate_look R ns g a data (len l) M t M b g' ltac:(unfold okn in Hok; lia) X) as [Eg LK].
  replace (NUM_WORDS (len l) / 2) with (N.of_nat nw) in * by (rewrite Hw, N.mul_comm, N.div_mul by discriminate; reflexivity).
  exists b. rewrite <- Eg. split; [exists t; exact X|]. split; [congruence|].
  intros j Hj. destruct (AB j Hj) as (f & Ef & Hf). rewrite N.add_0_l in Hf. exists f. split; [exact Ef|].
  intros d Hd. destruct (Hf d Hd) as (F & [C0 _] & [C1 _]).
  replace (2 * N.of_nat ns * N.of_nat j + N.of_nat d + N.of_nat ns) with (2 * N.of_nat ns * N.of_nat j + N.of_nat ns + N.of_nat d) in C1 by lia.
  split; [exact F|]. split; [exact C0|]. split; [exact C1|]. intros H1.
  destruct (LK (N.of_nat j) (N.of_nat d) ltac:(lia) ltac:(lia) ltac:(lia)) as [U V]. unfold look in U, V.
  rewrite C0 in U. rewrite C1 in V. apply some2 in U. apply some2 in V. unfold lo in U. unfold hi in V.
  rewrite trunc_shrw32 in V by apply fits_trunc.
  apply word_ext; [exact F|apply fits_trunc|exact U|exact V].
Qed.

(** Change one share and what the sum of all becomes *)
Lemma sum_but f f' m d0 n : (1 <= d0)%nat -> (1 <= n)%nat ->
  (forall d, (1 <= d)%nat -> (d < n)%nat -> f' d = if Nat.eqb d d0 then N.lxor (f d) m else f d) ->
  N.lxor (sumrot f' n) (rotr (f' 0%nat) 0) =
  N.lxor (N.lxor (sumrot f n) (rotr (f 0%nat) 0)) (if (d0 <? n)%nat then rotr m (10 * N.of_nat d0) else 0).
Proof.
  intros Hd Hn. induction n as [|n IH]; intros H; [lia|]. destruct (Nat.eq_dec n 0) as [->|Ne].
  - cbn [sumrot]. change (10 * N.of_nat 0) with 0. replace (d0 <? 1)%nat with false by lia.
    rewrite !N.lxor_0_l, !N.lxor_nilpotent. reflexivity.
  - cbn [sumrot]. specialize (IH ltac:(lia) ltac:(intros; apply H; lia)). rewrite (H n) by lia.
    set (A := sumrot f' n) in *. set (B := sumrot f n) in *. set (u := rotr (f' 0%nat) 0) in *. set (v := rotr (f 0%nat) 0) in *.
    assert (EA : A = N.lxor (N.lxor (N.lxor B v) (if (d0 <? n)%nat then rotr m (10 * N.of_nat d0) else 0)) u).
    { rewrite <- IH, N.lxor_assoc, N.lxor_nilpotent, N.lxor_0_r. reflexivity. }
    rewrite EA. clearbody B u v. clear - u.
    destruct (Nat.eqb_spec n d0) as [->|Ne].
    + replace (d0 <? d0)%nat with false by lia. replace (d0 <? S d0)%nat with true by lia. rewrite rotr_lxor.
      apply N.bits_inj; intro i. rewrite !N.lxor_spec, N.bits_0.
      destruct (N.testbit B i), (N.testbit u i), (N.testbit v i), (N.testbit (rotr (f d0) _) i), (N.testbit (rotr m _) i); reflexivity.
    + replace (d0 <? S n)%nat with (d0 <? n)%nat by lia.
      set (w := if (d0 <? n)%nat then _ else _). clearbody w.
      apply N.bits_inj; intro i. rewrite !N.lxor_spec.
      destruct (N.testbit B i), (N.testbit u i), (N.testbit v i), (N.testbit (rotr (f n) _) i), (N.testbit w i); reflexivity.
Qed.
Lemma rot_back x k : fits 64 x -> k <= 64 -> rotr (rotr x (64 - k)) k = x.
Proof.
  intros H Hk. rewrite rotr_rotr. replace (64 - k + k) with 64 by lia.
  apply (fits_ext 64); [apply fits_rotr|exact H|]. intros i Hi. rewrite testbit_rotr.
  replace (i <? 64) with true by lia. replace ((i + 64) mod 64) with i; [reflexivity|].
  replace (i + 64) with (i + 1 * 64) by lia. rewrite N.mod_add, N.mod_small by lia. reflexivity.
Qed.

(** What is added to the random words so that another text leaves the same in
    all shares but [d0] *)
Definition rmask (ns d0 : nat) (g : N) (l1 l2 : bytes) (i : N) : N :=
  if (g <=? i) && negb (Nat.eqb d0 0) && ((i - g) mod (N.of_nat ns - 1) =? N.of_nat d0 - 1) then
    let j := N.to_nat ((i - g) / (N.of_nat ns - 1)) in
    rotr (N.lxor (wordn l1 j) (wordn l2 j)) (64 - 10 * N.of_nat d0)
  else 0.
Lemma rmask_fits ns d0 g l1 l2 i : fits 64 (rmask ns d0 g l1 l2 i).
Proof. unfold rmask. destruct (_ && _); [apply fits_rotr|apply fits_0]. Qed.
Lemma rmask_at ns d0 g l1 l2 j d : (1 <= d)%nat -> (d < ns)%nat -> (d0 < ns)%nat ->
  rmask ns d0 g l1 l2 (g + N.of_nat j * (N.of_nat ns - 1) + (N.of_nat d - 1)) =
  if Nat.eqb d d0 then rotr (N.lxor (wordn l1 j) (wordn l2 j)) (64 - 10 * N.of_nat d0) else 0.
Proof.
  intros H1 H2 H3. unfold rmask.
  assert (SUB : forall x y, g + x + y - g = y + x) by (clear; intros; lia). rewrite SUB.
  assert (GE : forall x y, (g <=? g + x + y) = true) by (clear; intros; lia). rewrite GE. clear SUB GE.
  rewrite N.mod_add by lia. rewrite N.mod_small by lia. rewrite N.div_add by lia. rewrite N.div_small by lia.
  rewrite N.add_0_l, Nat2N.id.
  cbn [andb].
  destruct (Nat.eqb_spec d d0) as [->|Ne].
  - replace (negb (Nat.eqb d0 0)) with true by lia. rewrite N.eqb_refl. reflexivity.
  - destruct (Nat.eqb_spec d0 0) as [->|N0]; [reflexivity|]. replace (N.of_nat d - 1 =? N.of_nat d0 - 1) with false by lia. reflexivity.
Qed.

Lemma same_cells ns d0 (b1 b2 : arr) nw (X1 X2 : nat -> (nat -> N) -> Prop) : (1 <= ns)%nat ->
  alen b1 = 2 * N.of_nat ns * N.of_nat nw -> alen b2 = 2 * N.of_nat ns * N.of_nat nw ->
  (forall j, (j < nw)%nat -> exists f, X1 j f /\ forall d, (d < ns)%nat ->
    look b1 (2 * N.of_nat ns * N.of_nat j + N.of_nat d) = Some (Some (trunc 32 (f d))) /\
    look b1 (2 * N.of_nat ns * N.of_nat j + N.of_nat ns + N.of_nat d) = Some (Some (shrw (f d) 32))) ->
  (forall j, (j < nw)%nat -> exists f, X2 j f /\ forall d, (d < ns)%nat ->
    look b2 (2 * N.of_nat ns * N.of_nat j + N.of_nat d) = Some (Some (trunc 32 (f d))) /\
    look b2 (2 * N.of_nat ns * N.of_nat j + N.of_nat ns + N.of_nat d) = Some (Some (shrw (f d) 32))) ->
  (forall j f1 f2, (j < nw)%nat -> X1 j f1 -> X2 j f2 -> forall d, (d < ns)%nat -> Some d <> d0 -> f1 d = f2 d) ->
  forall i, Some (i mod ns)%nat <> d0 -> nth_error (a_cells b1) i = nth_error (a_cells b2) i.
Proof.
  intros Hn L1 L2 H1 H2 HE.
  intros c Hc. destruct (Nat.lt_ge_cases c (2 * ns * nw)) as [Lc|Gc].
  2:{ transitivity (@None (option N)); [|symmetry]; apply nth_error_None; unfold alen in L1, L2; nia. }
  set (j := (c / (2 * ns))%nat). set (r := (c mod (2 * ns))%nat).
  assert (Ec : c = (2 * ns * j + r)%nat) by (apply Nat.div_mod; lia).
  assert (Lr : (r < 2 * ns)%nat) by (apply Nat.mod_upper_bound; lia).
  assert (Lj : (j < nw)%nat) by (apply Nat.div_lt_upper_bound; lia).
  clearbody j r. subst c.
  destruct (H1 j Lj) as (f1 & S1 & F1). destruct (H2 j Lj) as (f2 & S2 & F2).
  assert (EQ := HE j f1 f2 Lj S1 S2).
  assert (Em : ((2 * ns * j + r) mod ns = r mod ns)%nat).
  { replace (2 * ns * j + r)%nat with (r + 2 * j * ns)%nat by lia. apply Nat.mod_add. lia. }
  rewrite Em in Hc. destruct (Nat.lt_ge_cases r ns) as [Lo|Hi].
  - rewrite Nat.mod_small in Hc by exact Lo.
    destruct (F1 r Lo) as (A1 & _). destruct (F2 r Lo) as (A2 & _). unfold look in A1, A2.
    replace (N.to_nat (2 * N.of_nat ns * N.of_nat j + N.of_nat r)) with (2 * ns * j + r)%nat in A1, A2 by lia.
    rewrite A1, A2, (EQ r Lo Hc). reflexivity.
  - assert (Er : (r mod ns = r - ns)%nat).
    { replace r with ((r - ns) + 1 * ns)%nat at 1 by lia. rewrite Nat.mod_add by lia. apply Nat.mod_small. lia. }
    rewrite Er in Hc. assert (L' : (r - ns < ns)%nat) by lia.
    destruct (F1 _ L') as (_ & A1). destruct (F2 _ L') as (_ & A2). unfold look in A1, A2.
    replace (N.to_nat (2 * N.of_nat ns * N.of_nat j + N.of_nat ns + N.of_nat (r - ns))) with (2 * ns * j + r)%nat in A1, A2 by lia.
    rewrite A1, A2, (EQ _ L' Hc). reflexivity.
Qed.

Definition gend (g : N) (ns : nat) (l : bytes) : N := g + N.of_nat (nwords (length l)) * (N.of_nat ns - 1).
Theorem hidden_end ns d0 g base M1 M2 data1 data2 l1 l2 : okn ns -> (d0 < ns)%nat ->
  readable M1 data1 l1 -> readable M2 data2 l2 -> length l1 = length l2 -> len l1 < 2 ^ 60 ->
  exists mask : N -> N, (forall i, mask i < 2 ^ 64) /\ forall R, exists a1 a2,
    runs (generate_shares R LE g (malloc_shares base ns (len l1)) ns data1 (len l1)) M1 M1 (a1, gend g ns l1) /\
    runs (generate_shares (fun i => N.lxor (R i) (mask i)) LE g (malloc_shares base ns (len l2)) ns data2 (len l2)) M2 M2 (a2, gend g ns l1) /\
    forall i, (i mod ns)%nat <> d0 -> nth_error (a_cells a1) i = nth_error (a_cells a2) i.
Proof.
  intros Hok Hd0 Rd1 Rd2 EL Hl. assert (Hl2 : len l2 < 2 ^ 60) by (unfold len in *; lia).
  exists (rmask ns d0 g l1 l2). split; [intros i; apply (rmask_fits ns d0 g l1 l2 i)|]. intros R.
  set (R2 := fun i => N.lxor (R i) (rmask ns d0 g l1 l2 i)).
  destruct (generate_full R M1 ns g base data1 l1 Hok Rd1 Hl) as (b1 & X1 & L1 & H1).
  destruct (generate_full R2 M2 ns g base data2 l2 Hok Rd2 Hl2) as (b2 & X2 & L2 & H2).
  rewrite <- EL in X2, L2, H2. exists b1, b2. split; [exact X1|]. split; [exact X2|].
  set (nw := nwords (length l1)) in *. assert (Hn : (1 <= ns)%nat) by apply Hok.
  set (Q := fun (R : N -> N) (l : bytes) (j : nat) (f : nat -> N) => wordn l j = sumrot f ns /\ forall d, (d < ns)%nat -> fits 64 (f d) /\
    ((1 <= d)%nat -> f d = trunc 64 (R (g + N.of_nat j * (N.of_nat ns - 1) + (N.of_nat d - 1))))).
  intros c Hc. refine (same_cells ns (Some d0) b1 b2 nw (Q R l1) (Q R2 l2) Hn L1 L2 _ _ _ c _).
  { intros j Hj. destruct (H1 j Hj) as (f & S & F). exists f. split; [split; [exact S|]|]; intros d Hd; destruct (F d Hd) as (A & B & C & D); split; assumption. }
  { intros j Hj. destruct (H2 j Hj) as (f & S & F). exists f. split; [split; [exact S|]|]; intros d Hd; destruct (F d Hd) as (A & B & C & D); split; assumption. }
  2:{ intros E. apply Hc. injection E as E. exact E. }
  clear c Hc. intros j f1 f2 Lj [S1 F1] [S2 F2] d D Dn'. assert (Dn : d <> d0) by (intros ->; apply Dn'; reflexivity). clear Dn'.
  revert d D Dn.
  (* the shares other than d0 are equal *)
   assert (P : forall d, (1 <= d)%nat -> (d < ns)%nat -> f2 d = if Nat.eqb d d0 then
        N.lxor (f1 d) (rotr (N.lxor (wordn l1 j) (wordn l2 j)) (64 - 10 * N.of_nat d0)) else f1 d).
    { intros d D1 D2. destruct (F1 d D2) as (_ & G1). destruct (F2 d D2) as (_ & G2).
      rewrite (G1 D1), (G2 D1). unfold R2. rewrite rmask_at by assumption. rewrite trunc_lxor.
      destruct (Nat.eqb d d0); [|rewrite N.lxor_0_r; reflexivity]. f_equal. apply trunc_fits, fits_rotr. }
    intros d D Dn. destruct (Nat.eq_dec d 0) as [->|D1].
    - assert (B := sum_but f1 f2 _ d0 ns ltac:(lia) Hn P). replace (d0 <? ns)%nat with true in B by lia.
      rewrite <- S1, <- S2 in B.
      assert (W : forall l : bytes, fits 64 (wordn l j)).
      { intros l. unfold wordn. apply fits_le_num8. rewrite firstn_length. lia. }
      rewrite rot_back in B by (try apply fits_lxor; try apply W; unfold okn in Hok; lia).
      destruct (F1 0%nat D) as (V1 & _). destruct (F2 0%nat D) as (V2 & _).
      rewrite (rotr_0 _ V1), (rotr_0 _ V2) in B. clear - B. apply N.bits_inj; intro i.
      assert (Bi := f_equal (fun x => N.testbit x i) B). cbv beta in Bi. rewrite !N.lxor_spec in Bi.
      destruct (N.testbit (wordn l1 j) i), (N.testbit (wordn l2 j) i), (N.testbit (f1 0%nat) i), (N.testbit (f2 0%nat) i); first [reflexivity|discriminate Bi].
    - rewrite (P d ltac:(lia) D). replace (Nat.eqb d d0) with false by lia. reflexivity.
Qed.

Theorem only_words R1 R2 M ns g base data l b g' : okn ns -> readable M data l -> len l < 2 ^ 60 ->
  (forall i, g <= i -> i < gend g ns l -> R1 i = R2 i) ->
  runs (generate_shares R1 LE g (malloc_shares base ns (len l)) ns data (len l)) M M (b, g') ->
  exists b', runs (generate_shares R2 LE g (malloc_shares base ns (len l)) ns data (len l)) M M (b', g') /\ a_cells b' = a_cells b.
Proof.
  intros Hok Rd Hl HR X.
  destruct (generate_full R1 M ns g base data l Hok Rd Hl) as (b1 & X1 & L1 & H1).
  destruct (generate_full R2 M ns g base data l Hok Rd Hl) as (b2 & X2 & L2 & H2).
  destruct (runs_det _ _ _ _ _ _ X X1) as [_ E].
  assert (Eb := f_equal fst E). assert (Eg := f_equal snd E). cbn [fst snd] in Eb, Eg. subst b g'.
  exists b2. split; [exact X2|]. unfold gend in HR. set (nw := nwords (length l)) in *. assert (Hn : (1 <= ns)%nat) by apply Hok.
  assert (G : forall c, nth_error (a_cells b2) c = nth_error (a_cells b1) c).
  2:{ clear - G. revert G. generalize (a_cells b1) (a_cells b2). intros l1 l2. revert l1.
      induction l2 as [|x l2 IH]; intros [|y l1] G; [reflexivity|specialize (G O); discriminate G|specialize (G O); discriminate G|].
      f_equal; [exact (f_equal (fun o => match o with Some v => v | None => x end) (G O))|]. apply IH. intros c. exact (G (S c)). }
  set (Q := fun (R : N -> N) (j : nat) (f : nat -> N) => wordn l j = sumrot f ns /\ forall d, (d < ns)%nat -> fits 64 (f d) /\
    ((1 <= d)%nat -> f d = trunc 64 (R (g + N.of_nat j * (N.of_nat ns - 1) + (N.of_nat d - 1))))).
  intros c. symmetry. refine (same_cells ns None b1 b2 nw (Q R1) (Q R2) Hn L1 L2 _ _ _ c _); [| | |discriminate].
  { intros j Hj. destruct (H1 j Hj) as (f & S & F). exists f. split; [split; [exact S|]|]; intros d Hd; destruct (F d Hd) as (A & B & C & D); split; assumption. }
  { intros j Hj. destruct (H2 j Hj) as (f & S & F). exists f. split; [split; [exact S|]|]; intros d Hd; destruct (F d Hd) as (A & B & C & D); split; assumption. }
  intros j f1 f2 Lj [S1 F1] [S2 F2] d D _.
  assert (P : forall d, (1 <= d)%nat -> (d < ns)%nat -> f2 d = if Nat.eqb d ns then N.lxor (f1 d) 0 else f1 d).
  { intros e E1 E2. replace (Nat.eqb e ns) with false by lia. destruct (F1 e E2) as (_ & G1). destruct (F2 e E2) as (_ & G2).
    rewrite (G1 E1), (G2 E1). f_equal. symmetry. assert (K : N.of_nat j * (N.of_nat ns - 1) + (N.of_nat ns - 1) <= N.of_nat nw * (N.of_nat ns - 1)).
    { clear - Lj E1 E2. replace (N.of_nat j * (N.of_nat ns - 1) + (N.of_nat ns - 1)) with ((N.of_nat j + 1) * (N.of_nat ns - 1)) by ring.
      apply N.mul_le_mono_r. lia. }
    apply HR; clear - E1 E2 K; revert K; generalize (N.of_nat j * (N.of_nat ns - 1)) (N.of_nat nw * (N.of_nat ns - 1)); intros; lia. }
  destruct (Nat.eq_dec d 0) as [->|Ne].
  - assert (B := sum_but f1 f2 0 ns ns Hn Hn P). replace (ns <? ns)%nat with false in B by lia. rewrite N.lxor_0_r in B.
    rewrite <- S1, <- S2 in B. destruct (F1 0%nat D) as (V1 & _). destruct (F2 0%nat D) as (V2 & _).
    rewrite (rotr_0 _ V1), (rotr_0 _ V2) in B. clear - B. apply N.bits_inj; intro i.
    assert (Bi := f_equal (fun x => N.testbit x i) B). cbv beta in Bi. rewrite !N.lxor_spec in Bi.
    destruct (N.testbit (wordn l j) i), (N.testbit (f1 0%nat) i), (N.testbit (f2 0%nat) i); first [reflexivity|discriminate Bi].
  - rewrite (P d ltac:(lia) D). replace (Nat.eqb d ns) with false by lia. reflexivity.
Qed.
Theorem hidden ns d0 g base M1 M2 data1 data2 l1 l2 : okn ns -> (d0 < ns)%nat ->
  readable M1 data1 l1 -> readable M2 data2 l2 -> length l1 = length l2 -> len l1 < 2 ^ 60 ->
  exists mask : N -> N, (forall i, mask i < 2 ^ 64) /\ forall R, exists a1 a2 g',
    runs (generate_shares R LE g (malloc_shares base ns (len l1)) ns data1 (len l1)) M1 M1 (a1, g') /\
    runs (generate_shares (fun i => N.lxor (R i) (mask i)) LE g (malloc_shares base ns (len l2)) ns data2 (len l2)) M2 M2 (a2, g') /\
    forall i, (i mod ns)%nat <> d0 -> nth_error (a_cells a1) i = nth_error (a_cells a2) i.
Proof.
  intros A B C D E G. destruct (hidden_end ns d0 g base M1 M2 data1 data2 l1 l2 A B C D E G) as (mask & H1 & H2).
  exists mask. split; [exact H1|]. intros R. destruct (H2 R) as (a1 & a2 & K). exists a1, a2. eexists. exact K.
Qed.

(** ** The shares make up the text. *)
Lemma share_value f (a : arr) ns j d : fits 64 (f d) ->
  look a (2 * N.of_nat ns * N.of_nat j + N.of_nat d) = Some (Some (trunc 32 (f d))) ->
  look a (2 * N.of_nat ns * N.of_nat j + N.of_nat ns + N.of_nat d) = Some (Some (shrw (f d) 32)) ->
  share_of (a_cells a) ns j d = Some (f d).
Proof.
  intros F A B. unfold look in A, B. unfold share_of.
  replace (N.to_nat (2 * N.of_nat ns * N.of_nat j + N.of_nat d)) with (2 * ns * j + d)%nat in A by lia.
  replace (N.to_nat (2 * N.of_nat ns * N.of_nat j + N.of_nat ns + N.of_nat d)) with (2 * ns * j + ns + d)%nat in B by lia.
  rewrite A, B. f_equal. rewrite trunc_mod. unfold shrw. rewrite N.shiftr_div_pow2.
  rewrite (N.div_mod (f d) (2 ^ 32)) at 3 by discriminate. lia.
Qed.
Theorem masks ns g base R M data l : okn ns -> readable M data l -> len l < 2 ^ 60 ->
  exists a g', runs (generate_shares R LE g (malloc_shares base ns (len l)) ns data (len l)) M M (a, g') /\
    g' = g + N.of_nat (words_of (length l)) * (N.of_nat ns - 1) /\
    forall j, (j < words_of (length l))%nat -> xor_of_shares (a_cells a) ns j ns = Some (word_at l j) /\
      forall d, (1 <= d)%nat -> (d < ns)%nat ->
        share_of (a_cells a) ns j d = Some (R (g + N.of_nat (j * (ns - 1) + (d - 1))) mod 2 ^ 64).
Proof.
  intros Hok Rd Hl. destruct (generate_full R M ns g base data l Hok Rd Hl) as (b & X & L & H).
  exists b. eexists. split; [exact X|]. split; [reflexivity|]. intros j Hj. destruct (H j Hj) as (f & S & F).
  assert (V : forall d, (d < ns)%nat -> share_of (a_cells b) ns j d = Some (f d)).
  { intros d Hd. destruct (F d Hd) as (F1 & F2 & F3 & _). exact (share_value f b ns j d F1 F2 F3). }
  split.
  - change (word_at l j) with (wordn l j). rewrite S. clear - V.
    assert (G : forall n, (n <= ns)%nat -> xor_of_shares (a_cells b) ns j n = Some (sumrot f n)).
    { induction n as [|n IH]; intros Hn; [reflexivity|]. cbn [xor_of_shares sumrot]. rewrite IH, V by lia. reflexivity. }
    apply G, le_n.
  - intros d D1 D2. rewrite (V d D2). destruct (F d D2) as (_ & _ & _ & G). rewrite (G D1), trunc_mod. do 3 f_equal. unfold okn in Hok. nia.
Qed.

(** ** Several texts, masked one after another, as crypto_aead.c l.34-38 and
    l.68-73 do with the key, the nonce, the associated data and the text

    A job: the number of shares, the share that is not looked at, the address
    of the buffer, and two texts with their addresses. *)
Record job : Type := Job { j_ns : nat; j_d0 : nat; j_base : N; j_data1 : ptr; j_text1 : bytes; j_data2 : ptr; j_text2 : bytes }.
(** The jobs with the first texts ([b = true]) or the second ones, with the random words from [g] on. *)
Fixpoint mask_all (b : bool) (R : N -> N) (g : N) (js : list job) : C (list arr * N) :=
  match js with
  | [] => ret ([], g)
  | j :: rest =>
    let t := if b then j_text1 j else j_text2 j in
    bind (generate_shares R LE g (malloc_shares (j_base j) (j_ns j) (len t)) (j_ns j) (if b then j_data1 j else j_data2 j) (len t))
      (fun '(a, g1) => bind (mask_all b R g1 rest) (fun '(r, g2) => ret (a :: r, g2)))
  end.
Definition job_ok (M1 M2 : mem) (j : job) : Prop :=
  (1 <= j_ns j <= 4)%nat /\ (j_d0 j < j_ns j)%nat /\ readable M1 (j_data1 j) (j_text1 j) /\ readable M2 (j_data2 j) (j_text2 j) /\
  length (j_text1 j) = length (j_text2 j) /\ len (j_text1 j) < 2 ^ 60.

(** Cell by cell, except for the share that is not looked at *)
Fixpoint same_seen (js : list job) (r1 r2 : list arr) : Prop :=
  match js, r1, r2 with
  | [], [], [] => True
  | j :: js, a1 :: r1, a2 :: r2 =>
    (forall i, (i mod j_ns j)%nat <> j_d0 j -> nth_error (a_cells a1) i = nth_error (a_cells a2) i) /\ same_seen js r1 r2
  | _, _, _ => False
  end.
Fixpoint gends (g : N) (js : list job) : N := match js with [] => g | j :: js => gends (gend g (j_ns j) (j_text1 j)) js end.

Lemma gend_ge g ns l : g <= gend g ns l.
Proof. unfold gend. apply N.le_add_r. Qed.

Lemma job_second M1 M2 j : job_ok M1 M2 j -> okn (j_ns j) /\ readable M2 (j_data2 j) (j_text2 j) /\ len (j_text2 j) < 2 ^ 60.
Proof. intros (A & B & C & D & E & F). split; [exact A|]. split; [exact D|]. unfold len in *. rewrite <- E. exact F. Qed.

Lemma gend_second M1 M2 j g : job_ok M1 M2 j -> gend g (j_ns j) (j_text2 j) = gend g (j_ns j) (j_text1 j).
Proof. intros (A & B & C & D & E & F). unfold gend. rewrite E. reflexivity. Qed.

Lemma one_mask R1 R2 M ns g base data l : okn ns -> readable M data l -> len l < 2 ^ 60 ->
  (forall i, g <= i -> i < gend g ns l -> R1 i = R2 i) ->
  exists a1 a2, runs (generate_shares R1 LE g (malloc_shares base ns (len l)) ns data (len l)) M M (a1, gend g ns l) /\
    runs (generate_shares R2 LE g (malloc_shares base ns (len l)) ns data (len l)) M M (a2, gend g ns l) /\ a_cells a2 = a_cells a1.
Proof.
  intros A B C HR. destruct (generate_full R1 M ns g base data l A B C) as (a & X & _).
  destruct (only_words R1 R2 M ns g base data l a _ A B C HR X) as (a' & X' & E). exists a, a'. split; [exact X|]. split; [exact X'|exact E].
Qed.

Lemma mask_all_words R1 R2 M1 M2 js : forall g, (forall i, g <= i -> R1 i = R2 i) -> Forall (job_ok M1 M2) js ->
  exists r1 r2, runs (mask_all false R1 g js) M2 M2 (r1, gends g js) /\ runs (mask_all false R2 g js) M2 M2 (r2, gends g js) /\
    map a_cells r2 = map a_cells r1.
Proof.
  induction js as [|j js IH]; intros g HR F.
  - exists [], []. split; [apply runs_ret|]. split; [apply runs_ret|reflexivity].
  - assert (Fj := Forall_inv F). assert (F' := Forall_inv_tail F).
    destruct (job_second _ _ _ Fj) as (O1 & O2 & O3).
    destruct (one_mask R1 R2 M2 (j_ns j) g (j_base j) (j_data2 j) (j_text2 j) O1 O2 O3) as (a1 & a2 & X1 & X2 & Ea); [intros i Hi _; exact (HR i Hi)|].
    destruct (IH (gend g (j_ns j) (j_text1 j))) as (r1 & r2 & Y1 & Y2 & Er).
    { intros i Hi. apply HR. assert (K := gend_ge g (j_ns j) (j_text1 j)). lia. } { exact F'. }
    rewrite (gend_second _ _ _ g Fj) in X1, X2. exists (a1 :: r1), (a2 :: r2). cbn [mask_all gends].
    split; [|split].
    + eapply runs_bind; [exact X1|]. cbv beta iota. eapply runs_bind; [exact Y1|]. apply runs_ret.
    + eapply runs_bind; [exact X2|]. cbv beta iota. eapply runs_bind; [exact Y2|]. apply runs_ret.
    + cbn [map]. rewrite Ea, Er. reflexivity.
Qed.

Lemma same_seen_cells js : forall r1 r2 r2', map a_cells r2' = map a_cells r2 -> same_seen js r1 r2 -> same_seen js r1 r2'.
Proof.
  induction js as [|j js IH]; intros [|a1 r1] [|a2 r2] [|b2 r2'] E S; cbn [same_seen map] in *; try contradiction; try discriminate E; [exact I|].
  destruct S as [S1 S2]. assert (E1 := f_equal (hd []) E). assert (E2 := f_equal (@tl _) E). cbn [hd tl] in E1, E2.
  split; [intros i Hi; rewrite E1; exact (S1 i Hi)|]. exact (IH r1 r2 r2' E2 S2).
Qed.

Lemma gends_ge js : forall g, g <= gends g js.
Proof. induction js as [|j js IH]; intros g; cbn [gends]; [apply N.le_refl|]. etransitivity; [apply gend_ge|apply IH]. Qed.

Theorem hidden_jointly M1 M2 js : forall g, Forall (job_ok M1 M2) js ->
  exists mask : N -> N, (forall i, mask i < 2 ^ 64) /\ forall R, exists r1 r2 g',
    runs (mask_all true R g js) M1 M1 (r1, g') /\
    runs (mask_all false (fun i => N.lxor (R i) (mask i)) g js) M2 M2 (r2, g') /\ same_seen js r1 r2 /\
    forall i, g' <= i -> mask i = 0.
Proof.
  assert (G : forall g, Forall (job_ok M1 M2) js ->
    exists mask : N -> N, ((forall i, mask i < 2 ^ 64) /\ forall i, gends g js <= i -> mask i = 0) /\ forall R, exists r1 r2,
    runs (mask_all true R g js) M1 M1 (r1, gends g js) /\
    runs (mask_all false (fun i => N.lxor (R i) (mask i)) g js) M2 M2 (r2, gends g js) /\ same_seen js r1 r2).
  2:{ intros g F. destruct (G g F) as (mask & (H & Z) & K). exists mask. split; [exact H|]. intros R. destruct (K R) as (r1 & r2 & L1 & L2 & L3).
      exists r1, r2, (gends g js). split; [exact L1|]. split; [exact L2|]. split; [exact L3|exact Z]. }
  induction js as [|j rest IH]; intros g F.
  - exists (fun _ => 0). split; [split; intros i; reflexivity|]. intros R. exists [], []. split; [apply runs_ret|]. split; [apply runs_ret|exact I].
  - assert (Fj := Forall_inv F). assert (F' := Forall_inv_tail F).
    destruct (job_second _ _ _ Fj) as (P1 & P2 & P3). destruct Fj as (O1 & O2 & O3 & O4 & O5 & O6). assert (Fj := Forall_inv F).
    destruct (hidden_end (j_ns j) (j_d0 j) g (j_base j) M1 M2 (j_data1 j) (j_data2 j) (j_text1 j) (j_text2 j) O1 O2 O3 O4 O5 O6) as (mk & K1 & K2).
    set (g1 := gend g (j_ns j) (j_text1 j)) in *.
    destruct (IH g1 F') as (mr & (L1 & L3) & L2).
    set (mask := fun i => if i <? g1 then mk i else mr i). exists mask. split.
    { split; [intros i; unfold mask; destruct (i <? g1); [apply K1|apply L1]|]. intros i. cbn [gends]. fold g1. intros Hi.
      assert (K := gends_ge rest g1). unfold mask. replace (i <? g1) with false by (clear - Hi K; lia). apply L3, Hi. }
    intros R. destruct (K2 R) as (a1 & a2 & X1 & X2 & XS). destruct (L2 R) as (r1 & r2 & Y1 & Y2 & YS).
    destruct (only_words (fun i => N.lxor (R i) (mk i)) (fun i => N.lxor (R i) (mask i)) M2 (j_ns j) g (j_base j) (j_data2 j) (j_text2 j) a2 g1 P1 P2 P3) as (b2 & Z & EZ).
    { intros i _ Hi. rewrite (gend_second _ _ _ g Fj) in Hi. fold g1 in Hi. cbv beta. unfold mask. replace (i <? g1) with true by (clear - Hi; lia). reflexivity. }
    { exact X2. }
    destruct (mask_all_words (fun i => N.lxor (R i) (mr i)) (fun i => N.lxor (R i) (mask i)) M1 M2 rest g1) as (s1 & s2 & V1 & V2 & EV).
    { intros i Hi. cbv beta. unfold mask. replace (i <? g1) with false by (clear - Hi; lia). reflexivity. } { exact F'. }
    destruct (runs_det _ _ _ _ _ _ Y2 V1) as [_ D]. assert (D1 := f_equal fst D). cbn [fst] in D1. subst s1.
    exists (a1 :: r1), (b2 :: s2). cbn [mask_all gends]. fold g1.
    split; [|split].
    + eapply runs_bind; [exact X1|]. cbv beta iota. eapply runs_bind; [exact Y1|]. apply runs_ret.
    + eapply runs_bind; [exact Z|]. cbv beta iota. eapply runs_bind; [exact V2|]. apply runs_ret.
    + cbn [same_seen]. split; [intros i Hi; rewrite EZ; exact (XS i Hi)|]. exact (same_seen_cells rest r1 r2 s2 EV YS).
Qed.

(** ** Masking in crypto_aead_encrypt *)
Lemma bind_four {S T U : Type} (c0 : C (S * U)) (c1 c2 c3 : U -> C (S * U)) (f : S -> S -> S -> S -> U -> C T) (x : C T) M :
  bind c0 (fun '(a0, g0) => bind (c1 g0) (fun '(a1, g1) => bind (c2 g1) (fun '(a2, g2) => bind (c3 g2) (fun '(a3, g3) => f a0 a1 a2 a3 g3)))) M =
  bind (bind c0 (fun '(a0, g0) => bind (bind (c1 g0) (fun '(a1, g1) => bind (bind (c2 g1) (fun '(a2, g2) =>
      bind (bind (c3 g2) (fun '(a3, g3) => bind (ret ([], g3)) (fun '(r, h) => ret (a3 :: r, h))))
        (fun '(r, h) => ret (a2 :: r, h)))) (fun '(r, h) => ret (a1 :: r, h)))) (fun '(r, h) => ret (a0 :: r, h))))
    (fun '(l, g) => match l with [a0; a1; a2; a3] => f a0 a1 a2 a3 g | _ => x end) M.
Proof.
  unfold bind, ret. destruct (c0 M) as [t0 M0 [a0 g0]|]; [|reflexivity].
  destruct (c1 g0 M0) as [t1 M1 [a1 g1]|]; [|reflexivity]. destruct (c2 g1 M1) as [t2 M2 [a2 g2]|]; [|reflexivity].
  destruct (c3 g2 M2) as [t3 M3 [a3 g3]|]; [|reflexivity]. destruct (f a0 a1 a2 a3 g3 M3) as [t4 M4 v|]; [|reflexivity].
  rewrite !app_nil_r, <- !app_assoc. reflexivity.
Qed.

(** The inputs of an encryption: where the key, the nonce, the associated data and the text are and what they hold *)
Record input : Type := Input { i_k : ptr; i_kb : bytes; i_n : ptr; i_nb : bytes; i_a : ptr; i_ab : bytes; i_m : ptr; i_mb : bytes }.
(** The four maskings of an encryption; [d0] .. [d3]: the shares that are not looked at. *)
Definition enc_jobs (F : cfg) (H : heap) (d0 d1 d2 d3 : nat) (x y : input) : list job :=
  [Job (nKEY F) d0 (b_k H) (i_k x) (i_kb x) (i_k y) (i_kb y); Job (nNPUB F) d1 (b_n H) (i_n x) (i_nb x) (i_n y) (i_nb y);
   Job (nAD F) d2 (b_a H) (i_a x) (i_ab x) (i_a y) (i_ab y); Job (nM F) d3 (b_m H) (i_m x) (i_mb x) (i_m y) (i_mb y)].
(** What follows the maskings (crypto_aead.c l.39-51): it has the buffers [l] and the random words from [g] on. *)
Definition after_masking (F : cfg) (R : N -> N) (H : heap) (c clen : ptr) (mlen adlen : N) (l : list arr) (g : N) : C Z :=
  match l with
  | [ks; ns; as_; ms] =>
    '(cs, _) <- m_encrypt_shared F R LE g (malloc_shares (b_c H) (nC F) (add64 mlen 16)) clen ms mlen as_ adlen ns ks ;;
    n <- load_ull LE clen ;;
    let mlen := sub64 n 16 in
    o <- aoff cs 0 (NUM_WORDS mlen * N.of_nat (nC F)) ;;
    combine_shares LE c mlen cs 0 (nC F) ;;;
    q <- padd c mlen ;;
    combine_shares LE q 16 cs o (nC F) ;;;
    ret 0%Z
  | _ => fail ErrJump
  end.
Definition enc_of (F : cfg) (R : N -> N) (H : heap) (c clen : ptr) (x : input) (nsec : ptr) : C Z :=
  masked_encrypt F R LE H c clen (i_m x) (len (i_mb x)) (i_a x) (len (i_ab x)) nsec (i_n x) (i_k x).

Lemma enc_split F R H c clen x y nsec d0 d1 d2 d3 M : len (i_kb x) = 16 -> len (i_nb x) = 16 ->
  enc_of F R H c clen x nsec M =
  bind (mask_all true R 0 (enc_jobs F H d0 d1 d2 d3 x y)) (fun '(l, g) => after_masking F R H c clen (len (i_mb x)) (len (i_ab x)) l g) M.
Proof.
  intros K1 K2. unfold enc_of, masked_encrypt, enc_jobs, after_masking. cbn [mask_all j_ns j_base j_data1 j_text1]. rewrite K1, K2.
  exact (bind_four _ _ _ _ _ _ M).
Qed.
Lemma enc_split2 F R H c clen x y nsec d0 d1 d2 d3 M : len (i_kb y) = 16 -> len (i_nb y) = 16 ->
  enc_of F R H c clen y nsec M =
  bind (mask_all false R 0 (enc_jobs F H d0 d1 d2 d3 x y)) (fun '(l, g) => after_masking F R H c clen (len (i_mb y)) (len (i_ab y)) l g) M.
Proof.
  intros K1 K2. unfold enc_of, masked_encrypt, enc_jobs, after_masking. cbn [mask_all j_ns j_base j_data2 j_text2]. rewrite K1, K2.
  exact (bind_four _ _ _ _ _ _ M).
Qed.

Lemma bind_after {A B} (c : C A) (f : A -> C B) M M1 v : runs c M M1 v ->
  exists t, bind c f M = match f v M1 with Done t' M2 r => Done (t ++ t') M2 r | Bad e => Bad e end.
Proof. intros [t H]. exists t. unfold bind. rewrite H. reflexivity. Qed.

Theorem encryption_hides M1 M2 F H c clen nsec d0 d1 d2 d3 x y :
  Forall (job_ok M1 M2) (enc_jobs F H d0 d1 d2 d3 x y) -> len (i_kb x) = 16 -> len (i_nb x) = 16 ->
  exists mask : N -> N, (forall i, mask i < 2 ^ 64) /\ forall R, exists bufs1 bufs2 g t1 t2,
    enc_of F R H c clen x nsec M1 =
      match after_masking F R H c clen (len (i_mb x)) (len (i_ab x)) bufs1 g M1 with Done t M' r => Done (t1 ++ t) M' r | Bad e => Bad e end /\
    enc_of F (fun i => N.lxor (R i) (mask i)) H c clen y nsec M2 =
      match after_masking F (fun i => N.lxor (R i) (mask i)) H c clen (len (i_mb x)) (len (i_ab x)) bufs2 g M2 with
      | Done t M' r => Done (t2 ++ t) M' r | Bad e => Bad e end /\
    same_seen (enc_jobs F H d0 d1 d2 d3 x y) bufs1 bufs2 /\ forall i, g <= i -> mask i = 0.
Proof.
  intros J K1 K2. destruct (hidden_jointly M1 M2 _ 0 J) as (mask & Q & G). exists mask. split; [exact Q|].
  intros R. destruct (G R) as (b1 & b2 & g & X1 & X2 & S & Z). exists b1, b2, g.
  assert (E : len (i_kb y) = 16 /\ len (i_nb y) = 16 /\ len (i_mb y) = len (i_mb x) /\ len (i_ab y) = len (i_ab x)).
  { unfold enc_jobs in J. assert (A0 := Forall_inv J). apply Forall_inv_tail in J. assert (A1 := Forall_inv J). apply Forall_inv_tail in J.
    assert (A2 := Forall_inv J). apply Forall_inv_tail in J. assert (A3 := Forall_inv J). unfold job_ok in A0, A1, A2, A3.
    cbn [j_text1 j_text2] in A0, A1, A2, A3. unfold len in *. intuition congruence. }
  destruct E as (E1 & E2 & E3 & E4).
  destruct (bind_after _ (fun '(l, g) => after_masking F R H c clen (len (i_mb x)) (len (i_ab x)) l g) _ _ _ X1) as [t1 T1].
  destruct (bind_after _ (fun '(l, g) => after_masking F (fun i => N.lxor (R i) (mask i)) H c clen (len (i_mb x)) (len (i_ab x)) l g) _ _ _ X2) as [t2 T2].
  exists t1, t2. rewrite (enc_split F R H c clen x y nsec d0 d1 d2 d3 M1 K1 K2).
  rewrite (enc_split2 F (fun i => N.lxor (R i) (mask i)) H c clen x y nsec d0 d1 d2 d3 M2 E1 E2), E3, E4.
  split; [exact T1|]. split; [exact T2|]. split; [exact S|exact Z].
Qed.

(** ** Masking in crypto_aead_decrypt: the key, the nonce and the associated data *)
Lemma bind_three {S T U : Type} (c0 : C (S * U)) (c1 c2 : U -> C (S * U)) (f : S -> S -> S -> U -> C T) (x : C T) M :
  bind c0 (fun '(a0, g0) => bind (c1 g0) (fun '(a1, g1) => bind (c2 g1) (fun '(a2, g2) => f a0 a1 a2 g2))) M =
  bind (bind c0 (fun '(a0, g0) => bind (bind (c1 g0) (fun '(a1, g1) =>
      bind (bind (c2 g1) (fun '(a2, g2) => bind (ret ([], g2)) (fun '(r, h) => ret (a2 :: r, h))))
        (fun '(r, h) => ret (a1 :: r, h)))) (fun '(r, h) => ret (a0 :: r, h))))
    (fun '(l, g) => match l with [a0; a1; a2] => f a0 a1 a2 g | _ => x end) M.
Proof.
  unfold bind, ret. destruct (c0 M) as [t0 M0 [a0 g0]|]; [|reflexivity].
  destruct (c1 g0 M0) as [t1 M1 [a1 g1]|]; [|reflexivity]. destruct (c2 g1 M1) as [t2 M2 [a2 g2]|]; [|reflexivity].
  destruct (f a0 a1 a2 g2 M2) as [t4 M4 v|]; [|reflexivity].
  rewrite !app_nil_r, <- !app_assoc. reflexivity.
Qed.

Definition dec_jobs (F : cfg) (H : heap) (d0 d1 d2 : nat) (x y : input) : list job :=
  [Job (nKEY F) d0 (b_k H) (i_k x) (i_kb x) (i_k y) (i_kb y); Job (nNPUB F) d1 (b_n H) (i_n x) (i_nb x) (i_n y) (i_nb y);
   Job (nAD F) d2 (b_a H) (i_a x) (i_ab x) (i_a y) (i_ab y)].
(** What follows (crypto_aead.c l.73-90): the ciphertext and its tag are masked with the random words from [g] on. *)
Definition dec_rest (F : cfg) (R : N -> N) (H : heap) (m mlen c : ptr) (clen adlen o : N) (l : list arr) (g : N) : C Z :=
  let n := sub64 clen 16 in
  match l with
  | [ks; ns; as_] =>
    '(cs, g) <- generate_shares R LE g (malloc_shares (b_c H) (nC F) clen) (nC F) c n ;;
    q <- padd c n ;;
    '(cs, g) <- generate_shares_at R LE g cs o (nC F) q 16 ;;
    '(ms, result) <- m_decrypt_shared F R LE g (malloc_shares (b_m H) (nM F) n) mlen cs clen as_ adlen ns ks ;;
    n <- load_ull LE mlen ;;
    combine_shares LE m n ms 0 (nM F) ;;;
    ret result
  | _ => fail ErrJump
  end.
Definition after_masking_dec (F : cfg) (R : N -> N) (H : heap) (m mlen c : ptr) (clen adlen : N) (l : list arr) (g : N) : C Z :=
  o <- aoff (malloc_shares (b_c H) (nC F) clen) 0 (NUM_WORDS (sub64 clen 16) * N.of_nat (nC F)) ;;
  dec_rest F R H m mlen c clen adlen o l g.

Lemma dec_split F R H m mlen nsec c clen ad adlen npub k M M1 (l : list arr) g (P : C (list arr * N)) : (clen <? 16) = false ->
  (forall (f : arr -> arr -> arr -> N -> C Z) (x : C Z),
    bind (generate_shares R LE 0 (malloc_shares (b_k H) (nKEY F) 16) (nKEY F) k 16) (fun '(a0, g0) =>
    bind (generate_shares R LE g0 (malloc_shares (b_n H) (nNPUB F) 16) (nNPUB F) npub 16) (fun '(a1, g1) =>
    bind (generate_shares R LE g1 (malloc_shares (b_a H) (nAD F) adlen) (nAD F) ad adlen) (fun '(a2, g2) => f a0 a1 a2 g2))) M =
    bind P (fun '(l, g) => match l with [a0; a1; a2] => f a0 a1 a2 g | _ => x end) M) ->
  runs P M M1 (l, g) ->
  exists t, masked_decrypt F R LE H m mlen nsec c clen ad adlen npub k M =
    match after_masking_dec F R H m mlen c clen adlen l g M1 with Done t' M' r => Done (t ++ t') M' r | Bad e => Bad e end.
Proof.
  intros Hc HB [t X]. unfold masked_decrypt, after_masking_dec. rewrite Hc. cbv zeta.
  unfold aoff. destruct (0 + NUM_WORDS (sub64 clen 16) * N.of_nat (nC F) <=? alen (malloc_shares (b_c H) (nC F) clen)) eqn:EA.
  2:{ exists []. reflexivity. }
  set (o := 0 + NUM_WORDS (sub64 clen 16) * N.of_nat (nC F)) in *.
  specialize (HB (fun a0 a1 a2 g => dec_rest F R H m mlen c clen adlen o [a0; a1; a2] g) (fail ErrJump)).
  exists ([EBranch false] ++ t).
  match type of HB with ?l0 M = _ => transitivity (match l0 M with Done t' M' r => Done (EBranch false :: t') M' r | Bad e => Bad e end) end.
  { unfold dec_rest. cbv zeta. match goal with |- _ = match ?q with Done _ _ _ => _ | Bad _ => _ end => set (Q := q) end.
    transitivity (match Q with Done t' M' r => Done ([EBranch false] ++ ([] ++ t')) M' r | Bad e => Bad e end); [|reflexivity].
    subst Q. unfold bind at 1 2, branch at 1, ret at 1. 
    match goal with |- match match ?q with Done _ _ _ => _ | Bad _ => _ end with Done _ _ _ => _ | Bad _ => _ end = _ => destruct q; reflexivity end. }
  rewrite HB. unfold bind at 1. rewrite X.
  assert (D : (fun (l : list arr) (g : N) => match l with [a0; a1; a2] => dec_rest F R H m mlen c clen adlen o [a0; a1; a2] g | _ => fail ErrJump end) l g = dec_rest F R H m mlen c clen adlen o l g).
  { destruct l as [|a0 [|a1 [|a2 [|a3 l]]]]; reflexivity. }
  cbv beta in D. rewrite D. unfold bind at 1, ret at 1.
  destruct (dec_rest F R H m mlen c clen adlen o l g M1); reflexivity.
Qed.

Theorem decryption_hides M1 M2 F H m mlen c clen nsec d0 d1 d2 x y :
  Forall (job_ok M1 M2) (dec_jobs F H d0 d1 d2 x y) -> len (i_kb x) = 16 -> len (i_nb x) = 16 -> 16 <= clen ->
  exists mask : N -> N, (forall i, mask i < 2 ^ 64) /\ forall R, exists bufs1 bufs2 g t1 t2,
    masked_decrypt F R LE H m mlen nsec c clen (i_a x) (len (i_ab x)) (i_n x) (i_k x) M1 =
      match after_masking_dec F R H m mlen c clen (len (i_ab x)) bufs1 g M1 with Done t M' r => Done (t1 ++ t) M' r | Bad e => Bad e end /\
    masked_decrypt F (fun i => N.lxor (R i) (mask i)) LE H m mlen nsec c clen (i_a y) (len (i_ab y)) (i_n y) (i_k y) M2 =
      match after_masking_dec F (fun i => N.lxor (R i) (mask i)) H m mlen c clen (len (i_ab x)) bufs2 g M2 with
      | Done t M' r => Done (t2 ++ t) M' r | Bad e => Bad e end /\
    same_seen (dec_jobs F H d0 d1 d2 x y) bufs1 bufs2 /\ forall i, g <= i -> mask i = 0.
Proof.
  intros J K1 K2 Hc. destruct (hidden_jointly M1 M2 _ 0 J) as (mask & Q & G). exists mask. split; [exact Q|].
  intros R. destruct (G R) as (b1 & b2 & g & X1 & X2 & S & Z). exists b1, b2, g.
  assert (E : len (i_kb y) = 16 /\ len (i_nb y) = 16 /\ len (i_ab y) = len (i_ab x)).
  { unfold dec_jobs in J. assert (A0 := Forall_inv J). apply Forall_inv_tail in J. assert (A1 := Forall_inv J). apply Forall_inv_tail in J.
    assert (A2 := Forall_inv J). unfold job_ok in A0, A1, A2. cbn [j_text1 j_text2] in A0, A1, A2. unfold len in *. intuition congruence. }
  destruct E as (E1 & E2 & E3). assert (Hc' : (clen <? 16) = false) by (clear - Hc; lia).
  destruct (dec_split F R H m mlen nsec c clen (i_a x) (len (i_ab x)) (i_n x) (i_k x) M1 M1 b1 g (mask_all true R 0 (dec_jobs F H d0 d1 d2 x y)) Hc') as [t1 T1]; [|exact X1|].
  { intros f z. unfold dec_jobs. cbn [mask_all j_ns j_base j_data1 j_text1]. rewrite K1, K2. exact (bind_three _ _ _ f z M1). }
  destruct (dec_split F (fun i => N.lxor (R i) (mask i)) H m mlen nsec c clen (i_a y) (len (i_ab y)) (i_n y) (i_k y) M2 M2 b2 g (mask_all false (fun i => N.lxor (R i) (mask i)) 0 (dec_jobs F H d0 d1 d2 x y)) Hc') as [t2 T2]; [|exact X2|].
  { intros f z. unfold dec_jobs. cbn [mask_all j_ns j_base j_data2 j_text2]. rewrite E1, E2. exact (bind_three _ _ _ f z M2). }
  exists t1, t2. split; [exact T1|]. rewrite E3 in T2 |- *. split; [exact T2|]. split; [exact S|exact Z].
Qed.
