(** * Opt8Prim.v -- the byte loops of the byte-oriented implementations. *)
From Coq Require Import Arith Bool NArith ZArith List Lia Init.Byte.
From Coq Require Import ZifyBool ZifyNat ZifyN.
From Verif Require Import Words WordFacts Spec SpecFacts CMem Contract CMemFacts ModelRef
  StateRep RefRound RefPrim RefAead RefAeadDec ModelCommon ModelOpt8.
Import ListNotations.
Local Open Scope N_scope.

(** [l] replaces the bytes of [s] from [off] on. *)
Definition put (off : nat) (s l : bytes) : bytes := firstn off s ++ l ++ skipn (off + length l) s.

Lemma length_put off s l : (off + length l <= length s)%nat -> length (put off s l) = length s.
Proof. intros H. unfold put. rewrite !app_length, firstn_length, skipn_length. lia. Qed.
Lemma nth_put off s l j : (off + length l <= length s)%nat ->
  nth j (put off s l) x00 =
  if ((off <=? j) && (j <? off + length l))%nat then nth (j - off) l x00 else nth j s x00.
Proof.
  intros H. unfold put. rewrite nth_app, firstn_length.
  replace (Nat.min off (length s)) with off by lia.
  destruct (Nat.ltb_spec j off).
  - rewrite nth_firstn. destruct (Nat.ltb_spec j off); [|lia].
    replace (off <=? j)%nat with false by lia. reflexivity.
  - replace (off <=? j)%nat with true by lia. cbn [andb]. rewrite nth_app.
    destruct (Nat.ltb_spec (j - off) (length l)).
    + replace (j <? off + length l)%nat with true by lia. reflexivity.
    + replace (j <? off + length l)%nat with false by lia. rewrite nth_skipn. f_equal. lia.
Qed.
Lemma put_nil off s : put off s [] = s.
Proof. unfold put. cbn [length app]. rewrite Nat.add_0_r. apply firstn_skipn. Qed.

Lemma length_setb s i v : (i < length s)%nat -> length (setb s i v) = length s.
Proof. intros H. unfold setb. rewrite app_length, firstn_length. cbn [length]. rewrite skipn_length. lia. Qed.
Lemma nth_setb s i v j : (i < length s)%nat ->
  nth j (setb s i v) x00 = if (j =? i)%nat then v else nth j s x00.
Proof.
  intros H. unfold setb. rewrite nth_app, firstn_length.
  replace (Nat.min i (length s)) with i by lia.
  destruct (Nat.ltb_spec j i).
  - rewrite nth_firstn. destruct (Nat.ltb_spec j i); [|lia]. replace (j =? i)%nat with false by lia. reflexivity.
  - destruct (Nat.eqb_spec j i) as [->|].
    + rewrite Nat.sub_diag. reflexivity.
    + replace (j - i)%nat with (S (j - S i)) by lia. cbn [nth]. rewrite nth_skipn. f_equal. lia.
Qed.

Lemma setb_xor off s l i : (off + length l <= length s)%nat -> (i < length l)%nat ->
  setb (xor_at off s (firstn i l)) (off + i) (bxor (getb (xor_at off s (firstn i l)) (off + i)) (nth i l x00)) =
  xor_at off s (firstn (S i) l).
Proof.
  intros H Hi. apply bytes_ext.
  - rewrite length_setb; rewrite !length_xor_at; try lia.
  - intros j. unfold getb. rewrite nth_setb by (rewrite length_xor_at; lia).
    rewrite !nth_xor_at by lia. rewrite !nth_firstn.
    destruct (Nat.eqb_spec j (off + i)) as [->|Hne].
    + replace (off + i - off)%nat with i by lia.
      destruct (Nat.ltb_spec (off + i) (length s)); [|lia].
      destruct (Nat.leb_spec off (off + i)); [|lia].
      destruct (Nat.ltb_spec i i); [lia|]. destruct (Nat.ltb_spec i (S i)); [|lia].
      rewrite bxor_x00_r. reflexivity.
    + destruct (Nat.ltb_spec j (length s)); [|reflexivity].
      destruct (Nat.leb_spec off j); [|reflexivity].
      destruct (Nat.ltb_spec (j - off) i), (Nat.ltb_spec (j - off) (S i)); try lia; reflexivity.
Qed.

Lemma setb_put off s l i : (off + length l <= length s)%nat -> (i < length l)%nat ->
  setb (put off s (firstn i l)) (off + i) (nth i l x00) = put off s (firstn (S i) l).
Proof.
  intros H Hi.
  assert (L1 : length (firstn i l) = i) by (rewrite firstn_length; lia).
  assert (L2 : length (firstn (S i) l) = S i) by (rewrite firstn_length; lia).
  apply bytes_ext.
  - rewrite length_setb; rewrite !length_put; lia.
  - intros j. rewrite nth_setb by (rewrite length_put; lia).
    rewrite !nth_put by lia. rewrite L1, L2, !nth_firstn.
    destruct (Nat.eqb_spec j (off + i)) as [->|Hne].
    + replace (off + i - off)%nat with i by lia.
      destruct (Nat.leb_spec off (off + i)); [|lia].
      destruct (Nat.ltb_spec (off + i) (off + S i)); [|lia].
      destruct (Nat.ltb_spec i (S i)); [|lia]. reflexivity.
    + destruct (Nat.leb_spec off j); [|reflexivity]. cbn [andb].
      destruct (Nat.ltb_spec j (off + i)), (Nat.ltb_spec j (off + S i)); try lia; [|reflexivity].
      destruct (Nat.ltb_spec (j - off) i), (Nat.ltb_spec (j - off) (S i)); try lia; reflexivity.
Qed.

Lemma getb_put off s l i : (off + length l <= length s)%nat -> (i <= length l)%nat ->
  getb (put off s (firstn i l)) (off + i) = getb s (off + i).
Proof.
  intros H Hi. assert (L1 : length (firstn i l) = i) by (rewrite firstn_length; lia).
  unfold getb. rewrite nth_put by lia. rewrite L1.
  destruct (Nat.leb_spec off (off + i)), (Nat.ltb_spec (off + i) (off + i)); try lia; reflexivity.
Qed.
Lemma getb_xor off s l i : (off + length l <= length s)%nat -> (i <= length l)%nat ->
  getb (xor_at off s (firstn i l)) (off + i) = getb s (off + i).
Proof.
  intros H Hi. unfold getb. rewrite nth_xor_at by lia. rewrite nth_firstn.
  replace (off + i - off)%nat with i by lia.
  destruct (Nat.ltb_spec i i); [lia|].
  destruct (Nat.ltb_spec (off + i) (length s)); [|symmetry; apply nth_overflow; lia].
  destruct (Nat.leb_spec off (off + i)); [|lia]. apply bxor_x00_r.
Qed.

(** ** One access *)

Lemma runs_sget s i M : (N.to_nat i < length s)%nat -> runs (sget s i) M M (getb s (N.to_nat i)).
Proof. intros H. unfold sget. replace (i <? N.of_nat (length s)) with true by lia. apply runs_ret. Qed.
Lemma runs_sput s i v M : (N.to_nat i < length s)%nat -> runs (sput s i v) M M (setb s (N.to_nat i) v).
Proof. intros H. unfold sput. replace (i <? N.of_nat (length s)) with true by lia. apply runs_ret. Qed.

(** ** The loops *)

Ltac step := eapply runs_bind.

Lemma memxor_ok s off src M : (N.to_nat off + length src <= length s)%nat ->
  runs (memxor s off src) M M (xor_at (N.to_nat off) s src).
Proof.
  intros H. unfold memxor.
  assert (X : forall k i, (i + k = length src)%nat ->
    runs (for_loop k (N.of_nat i) (fun j s =>
      v <- sget s (off + j) ;; sput s (off + j) (bxor v (nth (N.to_nat j) src x00)))
      (xor_at (N.to_nat off) s (firstn i src))) M M (xor_at (N.to_nat off) s src)).
  { induction k as [|k IH]; intros i Hi.
    - rewrite firstn_all2 by lia. apply runs_for_O.
    - eapply runs_for_S.
      + step; [apply runs_sget; rewrite length_xor_at by lia; lia|].
        apply runs_sput. rewrite length_xor_at by lia. lia.
      + rewrite Nnat.Nat2N.id.
        replace (N.to_nat (off + N.of_nat i)) with (N.to_nat off + i)%nat by lia.
        rewrite setb_xor by lia. replace (N.of_nat i + 1) with (N.of_nat (S i)) by lia.
        apply IH. lia. }
  specialize (X (length src) 0%nat eq_refl). cbn [firstn] in X. rewrite xor_at_nil in X. exact X.
Qed.

Lemma absorb_ok M s off d l n : readable M d l -> n = len l -> (N.to_nat off + length l <= length s)%nat ->
  runs (ABSORB s off d n) M M (xor_at (N.to_nat off) s l).
Proof.
  intros R -> H. unfold ABSORB.
  assert (X : forall k i, (i + k = length l)%nat ->
    runs (for_loop k (N.of_nat i) (fun j s =>
      v <- sget s (off + j) ;; b <- ld d j ;; sput s (off + j) (bxor v b))
      (xor_at (N.to_nat off) s (firstn i l))) M M (xor_at (N.to_nat off) s l)).
  { induction k as [|k IH]; intros i Hi.
    - rewrite firstn_all2 by lia. apply runs_for_O.
    - eapply runs_for_S.
      + step; [apply runs_sget; rewrite length_xor_at by lia; lia|].
        step; [apply (runs_ld M d l i R); lia|].
        apply runs_sput. rewrite length_xor_at by lia. lia.
      + replace (N.to_nat (off + N.of_nat i)) with (N.to_nat off + i)%nat by lia.
        rewrite setb_xor by lia. replace (N.of_nat i + 1) with (N.of_nat (S i)) by lia.
        apply IH. lia. }
  specialize (X (length l) 0%nat eq_refl). cbn [firstn] in X. rewrite xor_at_nil in X.
  unfold len. rewrite Nnat.Nat2N.id. exact X.
Qed.

Lemma insert_ok M s off d l n : readable M d l -> n = len l -> (N.to_nat off + length l <= length s)%nat ->
  runs (INSERT s off d n) M M (put (N.to_nat off) s l).
Proof.
  intros R -> H. unfold INSERT.
  assert (X : forall k i, (i + k = length l)%nat ->
    runs (for_loop k (N.of_nat i) (fun j s => v <- ld d j ;; sput s (off + j) v)
      (put (N.to_nat off) s (firstn i l))) M M (put (N.to_nat off) s l)).
  { induction k as [|k IH]; intros i Hi.
    - rewrite firstn_all2 by lia. apply runs_for_O.
    - assert (L1 : length (firstn i l) = i) by (rewrite firstn_length; lia).
      eapply runs_for_S.
      + step; [apply (runs_ld M d l i R); lia|].
        apply runs_sput. rewrite length_put by lia. lia.
      + replace (N.to_nat (off + N.of_nat i)) with (N.to_nat off + i)%nat by lia.
        rewrite setb_put by lia. replace (N.of_nat i + 1) with (N.of_nat (S i)) by lia.
        apply IH. lia. }
  specialize (X (length l) 0%nat eq_refl). cbn [firstn] in X. rewrite put_nil in X.
  unfold len. rewrite Nnat.Nat2N.id. exact X.
Qed.

(** The [n] bytes of [s] from [off] on. *)
Definition cut (off n : nat) (s : bytes) : bytes := firstn n (skipn off s).
Lemma length_cut off n s : (off + n <= length s)%nat -> length (cut off n s) = n.
Proof. intros H. unfold cut. rewrite firstn_length, skipn_length. lia. Qed.
Lemma nth_cut off n s j : nth j (cut off n s) x00 = if (j <? n)%nat then nth (off + j) s x00 else x00.
Proof. unfold cut. rewrite nth_firstn, nth_skipn. reflexivity. Qed.

Lemma write_snoc M p l i : (i < length l)%nat ->
  upd (write M p (firstn i l)) (p + N.of_nat i) (nth i l x00) = write M p (firstn (S i) l).
Proof.
  intros H.
  assert (E : firstn (S i) l = firstn i l ++ [nth i l x00]).
  { clear -H. revert l H. induction i as [|i IH]; intros [|b l] H; cbn [length] in H; try lia; [reflexivity|].
    cbn [firstn nth app]. f_equal. apply IH. lia. }
  rewrite E, write_app. unfold len. rewrite firstn_length.
  replace (Nat.min i (length l)) with i by lia. reflexivity.
Qed.

Lemma squeeze_ok M s off d n : writable M d n -> (N.to_nat off + N.to_nat n <= length s)%nat ->
  runs (SQUEEZE d s off n) M (write M d (cut (N.to_nat off) (N.to_nat n) s)) tt.
Proof.
  intros W H. unfold SQUEEZE. set (o := cut (N.to_nat off) (N.to_nat n) s).
  assert (Lo : length o = N.to_nat n) by (apply length_cut, H).
  assert (X : forall k i, (i + k = N.to_nat n)%nat ->
    runs (for_loop k (N.of_nat i) (fun j (_ : unit) => v <- sget s (off + j) ;; st d j v) tt)
      (write M d (firstn i o)) (write M d o) tt).
  { induction k as [|k IH]; intros i Hi.
    - rewrite firstn_all2 by lia. apply runs_for_O.
    - eapply runs_for_S.
      + step; [apply runs_sget; lia|].
        apply (runs_st _ d n); [apply writable_write, W|lia].
      + replace (N.of_nat i + 1) with (N.of_nat (S i)) by lia.
        replace (getb s (N.to_nat (off + N.of_nat i))) with (nth i o x00).
        * rewrite write_snoc by lia. apply IH. lia.
        * unfold o. rewrite nth_cut. destruct (Nat.ltb_spec i (N.to_nat n)); [|lia].
          unfold getb. f_equal. lia. }
  exact (X (N.to_nat n) 0%nat eq_refl).
Qed.

Lemma readable_after M c m l ct i : readable M m l -> no_overtake c m (len l) -> (i < length l)%nat ->
  (length ct <= i)%nat -> runs (ld m (N.of_nat i)) (write M c ct) (write M c ct) (nth i l x00).
Proof.
  intros (Hb & Hn & Hr) Hno Hi Hc. unfold NULL in Hn.
  assert (l <> []) by (intros ->; cbn in Hi; lia). unfold len in Hb.
  unfold ld. eapply runs_bind; [apply runs_padd; [lia|auto]|].
  apply runs_ldb; [specialize (Hn H); lia|]. specialize (Hr i Hi).
  unfold rd in *. rewrite write_outside; [exact Hr|].
  unfold outside, len. unfold no_overtake, len in Hno. lia.
Qed.

Lemma encrypt_ok M s off c m l n : readable M m l -> n = len l -> writable M c n ->
  no_overtake c m n -> (N.to_nat off + length l <= length s)%nat ->
  runs (ENCRYPT s off c m n) M (write M c (cut (N.to_nat off) (length l) (xor_at (N.to_nat off) s l)))
    (xor_at (N.to_nat off) s l).
Proof.
  intros R -> W Hno H. unfold ENCRYPT.
  set (o := cut (N.to_nat off) (length l) (xor_at (N.to_nat off) s l)).
  assert (Lo : length o = length l) by (apply length_cut; rewrite length_xor_at; lia).
  assert (X : forall k i, (i + k = length l)%nat ->
    runs (for_loop k (N.of_nat i) (fun j s =>
      v <- sget s (off + j) ;; b <- ld m j ;;
      s <- sput s (off + j) (bxor v b) ;;
      st c j (bxor v b) ;;; ret s)
      (xor_at (N.to_nat off) s (firstn i l))) (write M c (firstn i o)) (write M c o) (xor_at (N.to_nat off) s l)).
  { induction k as [|k IH]; intros i Hi.
    - rewrite !firstn_all2 by lia. apply runs_for_O.
    - assert (Eo : bxor (getb (xor_at (N.to_nat off) s (firstn i l)) (N.to_nat off + i)) (nth i l x00) = nth i o x00).
      { unfold o. rewrite nth_cut. destruct (Nat.ltb_spec i (length l)); [|lia].
        rewrite getb_xor by lia. unfold getb. rewrite nth_xor_at by lia.
        destruct (Nat.ltb_spec (N.to_nat off + i) (length s)); [|lia].
        destruct (Nat.leb_spec (N.to_nat off) (N.to_nat off + i)); [|lia].
        do 2 f_equal. lia. }
      eapply runs_for_S.
      + step; [apply runs_sget; rewrite length_xor_at by lia; lia|].
        step; [apply (readable_after M c m l (firstn i o) i R Hno); [lia|rewrite firstn_length; lia]|].
        step; [apply runs_sput; rewrite length_xor_at by lia; lia|].
        step; [apply (runs_st _ c (len l)); [apply writable_write, W|unfold len; lia]|].
        apply runs_ret.
      + replace (N.to_nat (off + N.of_nat i)) with (N.to_nat off + i)%nat by lia.
        rewrite setb_xor by lia. rewrite Eo, write_snoc by lia.
        replace (N.of_nat i + 1) with (N.of_nat (S i)) by lia. apply IH. lia. }
  specialize (X (length l) 0%nat eq_refl). cbn [firstn] in X. rewrite xor_at_nil in X.
  unfold len. rewrite Nnat.Nat2N.id. exact X.
Qed.

Lemma decrypt_ok M s off m c l n : readable M c l -> n = len l -> writable M m n ->
  no_overtake m c n -> (N.to_nat off + length l <= length s)%nat ->
  runs (DECRYPT s off m c n) M (write M m (xor_into (cut (N.to_nat off) (length l) s) l))
    (put (N.to_nat off) s l).
Proof.
  intros R -> W Hno H. unfold DECRYPT.
  set (o := xor_into (cut (N.to_nat off) (length l) s) l).
  assert (Lc : length (cut (N.to_nat off) (length l) s) = length l) by (apply length_cut; lia).
  assert (Lo : length o = length l) by (unfold o; rewrite length_xor_into; exact Lc).
  assert (X : forall k i, (i + k = length l)%nat ->
    runs (for_loop k (N.of_nat i) (fun j s =>
      t <- ld c j ;;
      v <- sget s (off + j) ;;
      st m j (bxor v t) ;;;
      sput s (off + j) t)
      (put (N.to_nat off) s (firstn i l))) (write M m (firstn i o)) (write M m o) (put (N.to_nat off) s l)).
  { induction k as [|k IH]; intros i Hi.
    - rewrite !firstn_all2 by lia. apply runs_for_O.
    - assert (L1 : length (firstn i l) = i) by (rewrite firstn_length; lia).
      assert (Eo : bxor (getb (put (N.to_nat off) s (firstn i l)) (N.to_nat off + i)) (nth i l x00) = nth i o x00).
      { unfold o. rewrite nth_xor_into, nth_cut, Lc.
        destruct (Nat.ltb_spec i (length l)); [|lia].
        rewrite getb_put by lia. reflexivity. }
      eapply runs_for_S.
      + step; [apply (readable_after M m c l (firstn i o) i R Hno); [lia|rewrite firstn_length; lia]|].
        step; [apply runs_sget; rewrite length_put by lia; lia|].
        step; [apply (runs_st _ m (len l)); [apply writable_write, W|unfold len; lia]|].
        apply runs_sput. rewrite length_put by lia. lia.
      + replace (N.to_nat (off + N.of_nat i)) with (N.to_nat off + i)%nat by lia.
        rewrite setb_put by lia. rewrite Eo, write_snoc by lia.
        replace (N.of_nat i + 1) with (N.of_nat (S i)) by lia. apply IH. lia. }
  specialize (X (length l) 0%nat eq_refl). cbn [firstn] in X. rewrite put_nil in X.
  unfold len. rewrite Nnat.Nat2N.id. exact X.
Qed.

Lemma xorb8_ok M s i n v : i < 5 -> n < 8 -> length s = 40%nat ->
  runs (xorb8 s i n v) M M (xor_at (8 * N.to_nat i + N.to_nat n) s [v]).
Proof.
  intros Hi Hn Hs. unfold xorb8. replace (8 <=? n) with false by lia.
  step; [apply runs_sget; lia|].
  replace (xor_at (8 * N.to_nat i + N.to_nat n) s [v]) with
    (setb s (N.to_nat (8 * i + n)) (bxor (getb s (N.to_nat (8 * i + n))) v)); [apply runs_sput; lia|].
  replace (N.to_nat (8 * i + n)) with (8 * N.to_nat i + N.to_nat n)%nat by lia.
  rewrite <- (setb_xor _ s [v] 0) by (cbn [length]; lia). cbn [firstn nth].
  rewrite xor_at_nil, Nat.add_0_r. reflexivity.
Qed.

(** Comparison with the bytes [l]. *)
Lemma bor_zero a b : bor a b = x00 <-> a = x00 /\ b = x00.
Proof.
  split.
  - intros H. assert (X : N.lor (b2n a) (b2n b) = 0).
    { apply (f_equal b2n) in H. unfold bor in H.
      rewrite b2n_n2b, trunc_fits in H by (apply fits_lor; apply fits_b2n). exact H. }
    apply lor_zero in X. destruct X as [X Y]. split; [rewrite <- (n2b_b2n a), X|rewrite <- (n2b_b2n b), Y]; reflexivity.
  - intros [-> ->]. reflexivity.
Qed.
Lemma bxor_zero a b : bxor a b = x00 <-> a = b.
Proof.
  split.
  - intros H. apply lxor_b2n_zero. apply (f_equal b2n) in H. unfold bxor in H.
    rewrite b2n_n2b, trunc_fits in H by (apply fits_lxor; apply fits_b2n). exact H.
  - intros ->. unfold bxor. rewrite N.lxor_nilpotent. reflexivity.
Qed.

Lemma verify_loop_ok M s off d l n : readable M d l -> n = len l -> (N.to_nat off + length l <= length s)%nat ->
  exists r, runs (VERIFY s off d n) M M r /\ (r = x00 <-> cut (N.to_nat off) (length l) s = l).
Proof.
  intros R -> H. unfold VERIFY.
  assert (X : forall k i r0, (i + k = length l)%nat ->
    exists r, runs (for_loop k (N.of_nat i) (fun j r =>
      v <- sget s (off + j) ;; b <- ld d j ;; ret (bor r (bxor v b))) r0) M M r /\
      (r = x00 <-> r0 = x00 /\ forall j, (i <= j < length l)%nat -> getb s (N.to_nat off + j) = nth j l x00)).
  { induction k as [|k IH]; intros i r0 Hi.
    - exists r0. split; [apply runs_for_O|]. split; [intros E; split; [exact E|intros; lia]|tauto].
    - destruct (IH (S i) (bor r0 (bxor (getb s (N.to_nat off + i)) (nth i l x00))) ltac:(lia)) as (r & Rn & E).
      exists r. split.
      + eapply runs_for_S.
        * step; [apply runs_sget; lia|].
          step; [apply (runs_ld M d l i R); lia|]. apply runs_ret.
        * replace (N.of_nat i + 1) with (N.of_nat (S i)) by lia.
          replace (N.to_nat (off + N.of_nat i)) with (N.to_nat off + i)%nat by lia. exact Rn.
      + rewrite E, bor_zero, bxor_zero. split.
        * intros ((E0 & E1) & E2). split; [exact E0|]. intros j Hj.
          destruct (Nat.eq_dec j i) as [->|]; [exact E1|apply E2; lia].
        * intros (E0 & E2). split; [split; [exact E0|apply E2; lia]|intros j Hj; apply E2; lia]. }
  destruct (X (length l) 0%nat x00 eq_refl) as (r & Rn & E). exists r.
  unfold len. rewrite Nnat.Nat2N.id. split; [exact Rn|]. rewrite E. split.
  - intros (_ & E2). apply bytes_ext; [apply length_cut; lia|].
    intros j Hj. rewrite length_cut in Hj by lia. rewrite nth_cut. destruct (Nat.ltb_spec j (length l)).
    + apply E2. lia.
    + symmetry. apply nth_overflow. lia.
  - intros E2. split; [reflexivity|]. intros j Hj. rewrite <- E2 at 1. rewrite nth_cut.
    destruct (Nat.ltb_spec j (length l)); [reflexivity|lia].
Qed.
