(** * SpecFacts.v -- basic facts about the byte-level specification. *)
From Coq Require Import Arith NArith List Lia Bool Init.Byte Strings.Byte.
From Coq Require Import ZifyBool ZifyNat ZifyN.
From Verif Require Import Words WordFacts Spec.
Import ListNotations.

(** ** Lists *)

Lemma nth_firstn {A} n (l : list A) j d :
  nth j (firstn n l) d = if j <? n then nth j l d else d.
Proof.
  revert n j; induction l as [|a l IH]; intros n j.
  - rewrite firstn_nil. destruct (j <? n); destruct j; reflexivity.
  - destruct n as [|n]; [destruct j; reflexivity|].
    destruct j as [|j]; [reflexivity|]. cbn [firstn nth]. rewrite IH.
    change (S j <? S n) with (j <? n). reflexivity.
Qed.

Lemma nth_skipn {A} n (l : list A) j d : nth j (skipn n l) d = nth (n + j) l d.
Proof.
  revert l; induction n as [|n IH]; intros l; [reflexivity|].
  destruct l as [|a l]; [destruct j; reflexivity|]. cbn [skipn]. apply IH.
Qed.

Lemma nth_app {A} (l1 l2 : list A) j d :
  nth j (l1 ++ l2) d = if j <? length l1 then nth j l1 d else nth (j - length l1) l2 d.
Proof.
  destruct (Nat.ltb_spec j (length l1)).
  - apply app_nth1; assumption.
  - apply app_nth2; lia.
Qed.

Lemma firstn_app_exact {A} n (l1 l2 : list A) : length l1 = n -> firstn n (l1 ++ l2) = l1.
Proof.
  intros <-. rewrite firstn_app, Nat.sub_diag, firstn_O, app_nil_r. apply firstn_all.
Qed.

Lemma skipn_app_exact {A} n (l1 l2 : list A) : length l1 = n -> skipn n (l1 ++ l2) = l2.
Proof.
  intros <-. rewrite skipn_app, Nat.sub_diag, skipn_all. reflexivity.
Qed.

Lemma skipn_skipn {A} n m (l : list A) : skipn n (skipn m l) = skipn (m + n) l.
Proof.
  revert l; induction m as [|m IH]; intros l; [reflexivity|].
  destruct l; [rewrite !skipn_nil; reflexivity|]. apply IH.
Qed.

Lemma split_at {A} n (l : list A) : n <= length l ->
  exists l1 l2, l = l1 ++ l2 /\ length l1 = n.
Proof.
  intros H. exists (firstn n l), (skipn n l). split.
  - symmetry; apply firstn_skipn.
  - rewrite firstn_length. lia.
Qed.

(** ** xor_into, xor_at *)

Lemma length_xor_into S B : length (xor_into S B) = length S.
Proof.
  revert B; induction S as [|s S IH]; intros B; [destruct B; reflexivity|].
  destruct B as [|b B]; [reflexivity|]. cbn [xor_into length]. rewrite IH. reflexivity.
Qed.

Lemma nth_xor_into S B j :
  nth j (xor_into S B) x00 =
  if j <? length S then bxor (nth j S x00) (nth j B x00) else x00.
Proof.
  revert B j; induction S as [|s S IH]; intros B j.
  - destruct B; destruct j; reflexivity.
  - destruct B as [|b B].
    + cbn [xor_into]. destruct (Nat.ltb_spec j (length (s :: S))) as [H|H].
      * assert (E : nth j (@nil byte) x00 = x00) by (destruct j; reflexivity).
        rewrite E, bxor_x00_r. reflexivity.
      * apply nth_overflow. exact H.
    + destruct j as [|j]; [reflexivity|]. cbn [xor_into nth length].
      rewrite IH. reflexivity.
Qed.

Lemma length_xor_at off S B : off <= length S -> length (xor_at off S B) = length S.
Proof.
  intros H. unfold xor_at. rewrite app_length, length_xor_into, firstn_length, skipn_length. lia.
Qed.

Lemma nth_xor_at off S B j : off <= length S ->
  nth j (xor_at off S B) x00 =
  if j <? length S then
    if off <=? j then bxor (nth j S x00) (nth (j - off) B x00) else nth j S x00
  else x00.
Proof.
  intros H. unfold xor_at. rewrite nth_app, firstn_length, nth_firstn, nth_xor_into,
    skipn_length, nth_skipn. rewrite Nat.min_l by exact H.
  destruct (Nat.ltb_spec j off), (Nat.leb_spec off j), (Nat.ltb_spec j (length S)),
    (Nat.ltb_spec (j - off) (length S - off)); try lia; try reflexivity.
  replace (off + (j - off)) with j by lia. reflexivity.
Qed.

Lemma nth_nil j : nth j (@nil byte) x00 = x00.
Proof. destruct j; reflexivity. Qed.

(** Extensionality tactic for byte strings. *)
Ltac len :=
  repeat first
    [ rewrite app_length | rewrite firstn_length | rewrite skipn_length
    | rewrite length_xor_into | rewrite length_zeros | rewrite length_le_bytes
    | rewrite length_xor_at by (len; lia) | progress cbn [length] ].

Lemma xor_at_0 S B : xor_at 0 S B = xor_into S B.
Proof. reflexivity. Qed.

Lemma xor_into_nil S : xor_into S [] = S.
Proof. destruct S; reflexivity. Qed.

Lemma xor_at_nil off S : xor_at off S [] = S.
Proof. unfold xor_at. rewrite xor_into_nil. apply firstn_skipn. Qed.

Lemma xor_into_app S B1 B2 : length B1 <= length S ->
  xor_into S (B1 ++ B2) = xor_at (length B1) (xor_into S B1) B2.
Proof.
  intros H. apply bytes_ext; [len; reflexivity|].
  intros j Hj. rewrite length_xor_into in Hj.
  rewrite nth_xor_at, !nth_xor_into, nth_app by (len; lia).
  rewrite length_xor_into.
  destruct (Nat.ltb_spec j (length S)), (Nat.ltb_spec j (length B1)),
    (Nat.leb_spec (length B1) j); try lia; try reflexivity.
  rewrite (nth_overflow B1) by lia. rewrite bxor_x00_r. reflexivity.
Qed.

Lemma xor_at_app off S B1 B2 : off + length B1 <= length S ->
  xor_at off S (B1 ++ B2) = xor_at (off + length B1) (xor_at off S B1) B2.
Proof.
  intros H. apply bytes_ext; [len; reflexivity|].
  intros j Hj. rewrite length_xor_at in Hj by lia.
  rewrite !nth_xor_at, nth_app by (len; lia). rewrite length_xor_at by lia.
  destruct (Nat.ltb_spec j (length S)); [|reflexivity].
  destruct (Nat.leb_spec off j), (Nat.ltb_spec (j - off) (length B1)),
    (Nat.leb_spec (off + length B1) j); try lia; try reflexivity.
  rewrite (nth_overflow B1) by lia. rewrite bxor_x00_r. f_equal. f_equal. lia.
Qed.

Lemma xor_at_zeros off S k : xor_at off S (zeros k) = S.
Proof.
  unfold xor_at. replace (xor_into (skipn off S) (zeros k)) with (skipn off S).
  - apply firstn_skipn.
  - apply bytes_ext; [len; reflexivity|]. intros j Hj.
    rewrite nth_xor_into, nth_zeros, bxor_x00_r.
    destruct (Nat.ltb_spec j (length (skipn off S))); [reflexivity|lia].
Qed.

Lemma xor_into_zeros_r S k : xor_into S (zeros k) = S.
Proof. rewrite <- xor_at_0. apply xor_at_zeros. Qed.

Lemma xor_at_app_zeros off S B k : off + length B <= length S ->
  xor_at off S (B ++ zeros k) = xor_at off S B.
Proof. intros H. rewrite xor_at_app by exact H. apply xor_at_zeros. Qed.

Lemma xor_into_app_zeros S B k : length B <= length S ->
  xor_into S (B ++ zeros k) = xor_into S B.
Proof. intros H. rewrite <- !xor_at_0. apply xor_at_app_zeros. cbn. exact H. Qed.

Lemma xor_into_app_l S1 S2 B : length B <= length S1 ->
  xor_into (S1 ++ S2) B = xor_into S1 B ++ S2.
Proof.
  intros H. apply bytes_ext; [len; reflexivity|]. intros j Hj.
  rewrite nth_xor_into, !nth_app, nth_xor_into, app_length, length_xor_into.
  destruct (Nat.ltb_spec j (length S1)), (Nat.ltb_spec j (length S1 + length S2)); try lia;
    try reflexivity.
  - rewrite (nth_overflow B) by lia. apply bxor_x00_r.
  - symmetry; apply nth_overflow. lia.
Qed.

Lemma xor_at_app_r n S1 S2 B : length S1 = n -> xor_at n (S1 ++ S2) B = S1 ++ xor_into S2 B.
Proof.
  intros H. unfold xor_at. rewrite firstn_app_exact, skipn_app_exact by exact H. reflexivity.
Qed.

Lemma xor_into_eq_length_cancel A B : length A = length B ->
  xor_into (xor_into A B) B = A.
Proof.
  intros H. apply bytes_ext; [len; reflexivity|]. intros j Hj.
  rewrite !length_xor_into in Hj. rewrite !nth_xor_into, length_xor_into.
  destruct (Nat.ltb_spec j (length A)); [|lia]. apply bxor_cancel.
Qed.

(** ** Blocks and padding *)

Lemma chunks_fuel_any r : 0 < r -> forall f1 f2 l, length l <= f1 -> length l <= f2 ->
  chunks_fuel f1 r l = chunks_fuel f2 r l.
Proof.
  intros Hr f1. induction f1 as [|f1 IH]; intros f2 l H1 H2.
  - destruct l; [destruct f2; reflexivity|cbn [length] in H1; lia].
  - destruct l as [|a l]; [destruct f2; reflexivity|].
    destruct f2 as [|f2]; [cbn [length] in H2; lia|]. cbn [chunks_fuel]. f_equal.
    cbn [length] in *. apply IH; rewrite skipn_length; cbn [length]; lia.
Qed.

Lemma chunks_fuel_enough f r l : 0 < r -> length l <= f ->
  chunks_fuel f r l = chunks_fuel (length l) r l.
Proof. intros Hr H. apply chunks_fuel_any; auto. Qed.

Lemma chunks_nil r : chunks r [] = [].
Proof. reflexivity. Qed.

Lemma chunks_cons r l : 0 < r -> l <> [] ->
  chunks r l = firstn r l :: chunks r (skipn r l).
Proof.
  intros Hr Hl. unfold chunks. destruct l as [|a l]; [congruence|].
  cbn [length chunks_fuel]. f_equal.
  apply chunks_fuel_enough; [exact Hr|]. rewrite skipn_length. cbn [length]. lia.
Qed.

Lemma pad_not_nil r m : pad r m <> [].
Proof. unfold pad. destruct m; discriminate. Qed.

Lemma chunks_pad_full r B l : 0 < r -> length B = r ->
  chunks r (pad r (B ++ l)) = B :: chunks r (pad r l).
Proof.
  intros Hr HB. rewrite chunks_cons by (auto using pad_not_nil). unfold pad.
  rewrite <- app_assoc, firstn_app_exact, skipn_app_exact by exact HB.
  f_equal. f_equal. f_equal. f_equal. f_equal. rewrite app_length, HB.
  replace (r + length l) with (length l + 1 * r) by lia.
  rewrite Nat.mod_add by lia. reflexivity.
Qed.

Lemma chunks_pad_last r l : length l < r ->
  chunks r (pad r l) = [l ++ x01 :: zeros (r - 1 - length l)].
Proof.
  intros H. rewrite chunks_cons by (auto using pad_not_nil; lia). unfold pad.
  rewrite Nat.mod_small by exact H.
  assert (Hl : length (l ++ x01 :: zeros (r - 1 - length l)) = r) by (len; lia).
  rewrite firstn_all2, skipn_all2 by lia. reflexivity.
Qed.

Lemma length_pad r m : 0 < r -> exists q, length (pad r m) = q * r /\ length m < q * r <= length m + r.
Proof.
  intros Hr. unfold pad. exists (length m / r + 1).
  pose proof (Nat.div_mod (length m) r ltac:(lia)) as E.
  pose proof (Nat.mod_upper_bound (length m) r ltac:(lia)) as L.
  rewrite Nat.mul_add_distr_r, (Nat.mul_comm (length m / r)).
  set (q := r * (length m / r)) in *. set (t := length m mod r) in *.
  rewrite app_length. cbn [length]. rewrite length_zeros. lia.
Qed.

Lemma chunks_pad_length r m B : 0 < r -> In B (chunks r (pad r m)) -> length B = r.
Proof.
  intros Hr. remember (length m) as n eqn:Hn. revert m Hn.
  induction n as [n IH] using lt_wf_ind. intros m Hn Hin.
  destruct (Nat.lt_ge_cases n r) as [H|H].
  - rewrite chunks_pad_last in Hin by lia. destruct Hin as [<-|[]]. len. lia.
  - destruct (split_at r m) as (B1 & m' & -> & HB1); [lia|].
    rewrite chunks_pad_full in Hin by auto. rewrite app_length in Hn.
    destruct Hin as [<-|Hin]; [exact HB1|].
    apply (IH (length m')) with (m := m'); auto. lia.
Qed.

Lemma concat_chunks r l : 0 < r -> concat (chunks r l) = l.
Proof.
  intros Hr. remember (length l) as n eqn:Hn. revert l Hn.
  induction n as [n IH] using lt_wf_ind. intros l Hn.
  destruct l as [|a l]; [reflexivity|].
  rewrite chunks_cons by (auto; discriminate). cbn [concat].
  rewrite (IH (length (skipn r (a :: l)))); auto.
  - apply firstn_skipn.
  - rewrite skipn_length. cbn [length] in *. lia.
Qed.

(** Padding the last block of [r] bytes in the state: block, then 0x01. *)
Lemma xor_into_padded S l k : length l + 1 <= length S ->
  xor_into S (l ++ x01 :: zeros k) = xor_at (length l) (xor_into S l) [x01].
Proof.
  intros H. change (x01 :: zeros k) with ([x01] ++ zeros k).
  rewrite xor_into_app by lia. apply xor_at_app_zeros. len. lia.
Qed.

(** ** The 40-byte state *)

Definition wf (s : state) : Prop :=
  fits 64 (X0 s) /\ fits 64 (X1 s) /\ fits 64 (X2 s) /\ fits 64 (X3 s) /\ fits 64 (X4 s).

Lemma length_bytes_of_state s : length (bytes_of_state s) = 40.
Proof. unfold bytes_of_state. len. reflexivity. Qed.

Lemma length_p n S : length (p n S) = 40.
Proof. apply length_bytes_of_state. Qed.

Lemma word_of_app0 a b : length a = 8 -> word_of (a ++ b) 0 = le_num a.
Proof. intros H. unfold word_of. change (8 * 0) with 0. cbn [skipn]. rewrite firstn_app_exact by exact H. reflexivity. Qed.

Lemma word_of_appS a b i : length a = 8 -> word_of (a ++ b) (S i) = word_of b i.
Proof.
  intros H. unfold word_of. replace (8 * S i) with (8 + 8 * i) by lia.
  rewrite <- skipn_skipn, skipn_app_exact by exact H. reflexivity.
Qed.

Lemma state_of_bytes_of_state s : wf s -> state_of_bytes (bytes_of_state s) = s.
Proof.
  intros (H0 & H1 & H2 & H3 & H4). unfold state_of_bytes, bytes_of_state.
  rewrite !word_of_appS, !word_of_app0 by (len; reflexivity).
  replace (word_of (le_bytes 8 (X4 s)) 0) with (le_num (le_bytes 8 (X4 s))).
  2:{ rewrite <- (app_nil_r (le_bytes 8 (X4 s))) at 2.
      rewrite word_of_app0 by (len; reflexivity). reflexivity. }
  rewrite !le_num_le_bytes. change (8 * N.of_nat 8)%N with 64%N.
  rewrite !trunc_fits by assumption. destruct s; reflexivity.
Qed.

Lemma le_bytes_word_of S i : 8 * (i + 1) <= length S ->
  le_bytes 8 (word_of S i) = firstn 8 (skipn (8 * i) S).
Proof.
  intros H. unfold word_of. apply le_bytes_le_num. rewrite firstn_length, skipn_length. lia.
Qed.

Lemma bytes_of_state_of_bytes S : length S = 40 -> bytes_of_state (state_of_bytes S) = S.
Proof.
  intros H. unfold bytes_of_state, state_of_bytes. cbn [X0 X1 X2 X3 X4].
  rewrite !le_bytes_word_of by (rewrite H; lia).
  cbn [Nat.mul Nat.add skipn].
  do 41 (destruct S as [|? S]; [cbn [length] in H; try lia; try reflexivity|]).
  cbn [length] in H. lia.
Qed.

Lemma wf_state_of_bytes S : wf (state_of_bytes S).
Proof.
  unfold wf, state_of_bytes. cbn [X0 X1 X2 X3 X4]. unfold word_of.
  assert (E : forall l : bytes, fits 64 (le_num (firstn 8 l))).
  { intros l. eapply fits_le; [|apply fits_le_num]. rewrite firstn_length. lia. }
  repeat split; apply E.
Qed.

Lemma wf_pL s : wf s -> wf (pL s).
Proof.
  assert (E : forall x a b, fits 64 x -> fits 64 (sigma x a b)).
  { intros x a b Hx. unfold sigma. apply fits_lxor; [exact Hx|].
    apply fits_lxor; apply (fits_of_bits 64). }
  intros (H0 & H1 & H2 & H3 & H4). unfold wf, pL; cbn [X0 X1 X2 X3 X4]. repeat split; apply E; assumption.
Qed.

Lemma wf_pS s : wf (pS s).
Proof. unfold wf, pS; cbn [X0 X1 X2 X3 X4]. repeat split; apply (fits_of_bits 64). Qed.

Lemma wf_round s c : wf (round s c).
Proof. unfold round. apply wf_pL, wf_pS. Qed.

Lemma wf_fold_round cs s : wf s -> wf (fold_left round cs s).
Proof.
  revert s; induction cs as [|c cs IH]; intros s H; [exact H|].
  cbn [fold_left]. apply IH, wf_round.
Qed.

Lemma wf_perm n s : wf s -> wf (perm n s).
Proof. apply wf_fold_round. Qed.

Lemma p_bytes n s : wf s -> p n (bytes_of_state s) = bytes_of_state (perm n s).
Proof. intros H. unfold p. rewrite state_of_bytes_of_state by exact H. reflexivity. Qed.

(** ** Absorbing and lengths *)

Lemma length_absorb rnd S bs : length S = 40 -> length (absorb rnd S bs) = 40.
Proof.
  revert S. unfold absorb. induction bs as [|B bs IH]; intros S H; [exact H|].
  cbn [fold_left]. apply IH, length_p.
Qed.

Lemma absorb_cons rnd S B bs : absorb rnd S (B :: bs) = absorb rnd (p rnd (xor_into S B)) bs.
Proof. reflexivity. Qed.

(** ** Squeezing *)

Lemma length_squeeze_blocks k r rnd S : r <= length S -> r <= 40 ->
  length (squeeze_blocks k r rnd S) = k * r.
Proof.
  revert S; induction k as [|k IH]; intros S H H40; [reflexivity|].
  cbn [squeeze_blocks]. rewrite app_length, firstn_length, IH by (rewrite ?length_p; lia). lia.
Qed.

Lemma firstn_squeeze_blocks n k k' r rnd : 0 < r -> r <= 40 -> forall S, r <= length S ->
  n <= k * r -> n <= k' * r ->
  firstn n (squeeze_blocks k r rnd S) = firstn n (squeeze_blocks k' r rnd S).
Proof.
  intros Hr H40. revert n k'; induction k as [|k IH]; intros n k' S HS H H'.
  - assert (n = 0) by lia. subst. reflexivity.
  - destruct k' as [|k']; [assert (n = 0) by lia; subst; reflexivity|].
    cbn [squeeze_blocks]. rewrite !firstn_app. f_equal. rewrite firstn_length.
    apply IH; rewrite ?length_p; lia.
Qed.

Lemma squeeze_fuel n r : 0 < r -> n <= S (n / r) * r.
Proof.
  intros Hr. pose proof (Nat.div_mod n r ltac:(lia)) as E.
  pose proof (Nat.mod_upper_bound n r ltac:(lia)) as L.
  cbn [Nat.mul]. rewrite (Nat.mul_comm (n / r)). lia.
Qed.

Lemma squeeze_last n r rnd S : 0 < r -> n <= r -> r <= length S -> r <= 40 ->
  squeeze n r rnd S = firstn n S.
Proof.
  intros Hr Hn HS H40. unfold squeeze.
  rewrite (firstn_squeeze_blocks n _ 1 r) by (try apply squeeze_fuel; auto; lia).
  cbn [squeeze_blocks]. rewrite app_nil_r, firstn_firstn. f_equal. lia.
Qed.

Lemma squeeze_more n r rnd S : 0 < r -> r <= length S -> r <= 40 ->
  squeeze (r + n) r rnd S = firstn r S ++ squeeze n r rnd (p rnd S).
Proof.
  intros Hr HS H40. unfold squeeze.
  rewrite (firstn_squeeze_blocks (r + n) _ (Datatypes.S (Datatypes.S (n / r))) r).
  - cbn [squeeze_blocks]. rewrite firstn_app, firstn_length.
    rewrite firstn_all2 by (rewrite firstn_length; lia).
    f_equal. f_equal. lia.
  - exact Hr.
  - exact H40.
  - exact HS.
  - apply squeeze_fuel; auto.
  - pose proof (squeeze_fuel n r Hr). lia.
Qed.

Lemma length_squeeze n r rnd S : 0 < r -> r <= length S -> r <= 40 ->
  length (squeeze n r rnd S) = n.
Proof.
  intros Hr HS H40. unfold squeeze. rewrite firstn_length, length_squeeze_blocks by auto.
  pose proof (squeeze_fuel n r Hr). lia.
Qed.
