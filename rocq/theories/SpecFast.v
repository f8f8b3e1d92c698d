(** * SpecFast.v -- a faster way to evaluate [Spec.v].

    [Spec.p] looks up each column of the state in the S-box table, which is
    slow to compute with.  The functions here are those of [Spec.v] over an
    arbitrary permutation; with [Spec.p] they are those of [Spec.v], and
    [fp] is [Spec.p] computed on whole words (proved below, for all
    inputs).  Used only to evaluate [Spec.v] on concrete data. *)
From Coq Require Import Arith NArith List Lia Init.Byte Strings.Byte.
From Verif Require Import Words WordFacts Spec SpecFacts ModelRef StateRep RefRound.
Import ListNotations.
Local Open Scope N_scope.

Definition fperm (rnd : nat) (s : state) : state :=
  fold_left ROUND (skipn (16 - rnd)%nat round_constants) s.
Definition fp (rnd : nat) (S : bytes) : bytes := bytes_of_state (fperm rnd (state_of_bytes S)).

Definition g_absorb (p : nat -> bytes -> bytes) (rnd : nat) (S : bytes) (bs : list bytes) : bytes :=
  fold_left (fun S B => p rnd (xor_into S B)) bs S.
Fixpoint g_squeeze_blocks (p : nat -> bytes -> bytes) (k r rnd : nat) (S : bytes) : bytes :=
  match k with
  | O => []
  | Datatypes.S k' => firstn r S ++ g_squeeze_blocks p k' r rnd (p rnd S)
  end.
Definition g_squeeze p (n r rnd : nat) (S : bytes) : bytes :=
  firstn n (g_squeeze_blocks p (Datatypes.S (n / r)%nat) r rnd S).
Definition g_aead_init (p : nat -> bytes -> bytes) (k n : bytes) : bytes :=
  xor_at 24 (p 12%nat (iv_aead128 ++ k ++ n)) k.
Definition g_aead_ad p (S ad : bytes) : bytes :=
  xor_at 39 (match ad with [] => S | _ => g_absorb p 8 S (chunks 16 (pad 16 ad)) end) [x80].
Fixpoint g_enc_blocks (p : nat -> bytes -> bytes) (S : bytes) (bs : list bytes) : bytes * bytes :=
  match bs with
  | [] => (S, [])
  | [B] => let S1 := xor_into S B in (S1, firstn 16 S1)
  | B :: bs' =>
      let S1 := xor_into S B in
      let '(S2, c) := g_enc_blocks p (p 8%nat S1) bs' in
      (S2, firstn 16 S1 ++ c)
  end.
Fixpoint g_dec_blocks (p : nat -> bytes -> bytes) (fuel : nat) (S c : bytes) : bytes * bytes :=
  match fuel with
  | O => (xor_at (length c) (c ++ skipn (length c) S) [x01], xor_into c S)
  | Datatypes.S f =>
      if Nat.ltb (length c) 16 then
        (xor_at (length c) (c ++ skipn (length c) S) [x01], xor_into c S)
      else
        let B := firstn 16 c in
        let '(S2, m) := g_dec_blocks p f (p 8%nat (B ++ skipn 16 S)) (skipn 16 c) in
        (S2, xor_into B S ++ m)
  end.
Definition g_aead_tag (p : nat -> bytes -> bytes) (k S : bytes) : bytes :=
  xor_into (skipn 24 (p 12%nat (xor_at 16 S k))) k.
Definition g_aead_encrypt p (k n ad m : bytes) : bytes :=
  let S := g_aead_ad p (g_aead_init p k n) ad in
  let '(S1, c) := g_enc_blocks p S (chunks 16 (pad 16 m)) in
  firstn (length m) c ++ g_aead_tag p k S1.
Definition g_aead_open p (k n ad c : bytes) : bytes * bytes :=
  let S := g_aead_ad p (g_aead_init p k n) ad in
  let '(S1, m) := g_dec_blocks p (length c) S c in
  (m, g_aead_tag p k S1).
Definition g_aead_decrypt p (k n ad ct : bytes) : option bytes :=
  if Nat.ltb (length ct) 16 then None
  else
    let body := firstn (length ct - 16)%nat ct in
    let tag := skipn (length ct - 16)%nat ct in
    let '(m, t) := g_aead_open p k n ad body in
    if list_eq_dec Byte.byte_eq_dec t tag then Some m else None.
Definition g_hash_init (p : nat -> bytes -> bytes) (iv : bytes) : bytes := p 12%nat (iv ++ zeros 32).
Definition g_hash_sponge p (S msg : bytes) (outlen : nat) : bytes :=
  g_squeeze p outlen 8 12 (g_absorb p 12 S (chunks 8 (pad 8 msg))).
Definition g_hash256 p (msg : bytes) : bytes := g_hash_sponge p (g_hash_init p iv_hash256) msg 32.
Definition g_xof128 p (msg : bytes) (outlen : nat) : bytes :=
  g_hash_sponge p (g_hash_init p iv_xof128) msg outlen.
Definition g_cxof128 p (msg cs : bytes) (outlen : nat) : bytes :=
  let Z0 := le_bytes 8 (8 * N.of_nat (length cs)) in
  let S := g_absorb p 12 (g_hash_init p iv_cxof128) (Z0 :: chunks 8 (pad 8 cs)) in
  g_hash_sponge p S msg outlen.
Fixpoint g_prf_absorb (p : nat -> bytes -> bytes) (S : bytes) (bs : list bytes) : bytes :=
  match bs with
  | [] => S
  | [B] => p 12%nat (xor_at 39 (xor_into S B) [x80])
  | B :: bs' => g_prf_absorb p (p 12%nat (xor_into S B)) bs'
  end.
Definition g_prf_gen p (iv k msg : bytes) (outlen : nat) : bytes :=
  g_squeeze p outlen 16 12
    (g_prf_absorb p (p 12%nat (iv ++ k ++ zeros 16)) (chunks 32 (pad 32 msg))).
Definition g_prf_short (p : nat -> bytes -> bytes) (k msg : bytes) (outlen : nat) : bytes :=
  firstn outlen
    (xor_into (skipn 24 (p 12%nat (iv_prfs (length msg) ++ k ++ msg ++ zeros (16 - length msg)%nat))) k).

Lemma fperm_eq rnd s : wf s -> perm rnd s = fperm rnd s.
Proof.
  unfold perm, fperm. intros H.
  assert (C : forall c, In c (skipn (16 - rnd) round_constants) -> c < 256).
  { intros c Hc. apply round_constants_fits. rewrite <- (firstn_skipn (16 - rnd) round_constants).
    apply in_or_app. right. exact Hc. }
  revert s H C. induction (skipn (16 - rnd) round_constants) as [|c cs IH]; intros s H C; [reflexivity|].
  cbn [fold_left]. rewrite ref_round_ok by (auto; apply fits64_of_lt256, C; left; reflexivity).
  apply IH; [apply wf_round|].
  intros c' Hc. apply C. right. exact Hc.
Qed.
Lemma fp_eq rnd S : p rnd S = fp rnd S.
Proof. unfold p, fp. rewrite fperm_eq by apply wf_state_of_bytes. reflexivity. Qed.

Lemma f_absorb rnd : forall bs S, absorb rnd S bs = g_absorb fp rnd S bs.
Proof. induction bs as [|B bs IH]; intros S; [reflexivity|]. unfold absorb, g_absorb in *. cbn [fold_left]. rewrite fp_eq. apply IH. Qed.
Lemma f_squeeze_blocks r rnd : forall k S, squeeze_blocks k r rnd S = g_squeeze_blocks fp k r rnd S.
Proof. induction k as [|k IH]; intros S; [reflexivity|]. cbn [squeeze_blocks g_squeeze_blocks]. rewrite fp_eq, IH. reflexivity. Qed.
Lemma f_squeeze n r rnd S : squeeze n r rnd S = g_squeeze fp n r rnd S.
Proof. unfold squeeze, g_squeeze. rewrite f_squeeze_blocks. reflexivity. Qed.
Lemma f_aead_init k n : aead_init k n = g_aead_init fp k n.
Proof. unfold aead_init, g_aead_init. rewrite fp_eq. reflexivity. Qed.
Lemma f_aead_ad S ad : aead_ad S ad = g_aead_ad fp S ad.
Proof. unfold aead_ad, g_aead_ad. destruct ad; [reflexivity|]. rewrite f_absorb. reflexivity. Qed.
Lemma f_enc_blocks : forall bs S, enc_blocks S bs = g_enc_blocks fp S bs.
Proof.
  induction bs as [|B bs IH]; intros S; [reflexivity|]. destruct bs as [|B' bs]; [reflexivity|].
  transitivity (let '(S2, c) := enc_blocks (p 8 (xor_into S B)) (B' :: bs) in (S2, firstn 16 (xor_into S B) ++ c)); [reflexivity|].
  rewrite IH, fp_eq. reflexivity.
Qed.
Lemma f_dec_blocks : forall f S c, dec_blocks f S c = g_dec_blocks fp f S c.
Proof.
  induction f as [|f IH]; intros S c; [reflexivity|]. cbn [dec_blocks g_dec_blocks].
  destruct (Nat.ltb _ _); [reflexivity|]. rewrite IH, fp_eq. reflexivity.
Qed.
Lemma f_aead_tag k S : aead_tag k S = g_aead_tag fp k S.
Proof. unfold aead_tag, g_aead_tag. rewrite fp_eq. reflexivity. Qed.
Lemma f_aead_encrypt k n ad m : aead_encrypt k n ad m = g_aead_encrypt fp k n ad m.
Proof.
  unfold aead_encrypt, g_aead_encrypt. rewrite f_aead_init, f_aead_ad, f_enc_blocks.
  destruct (g_enc_blocks _ _ _). rewrite f_aead_tag. reflexivity.
Qed.
Lemma f_aead_open k n ad c : aead_open k n ad c = g_aead_open fp k n ad c.
Proof.
  unfold aead_open, g_aead_open. rewrite f_aead_init, f_aead_ad, f_dec_blocks.
  destruct (g_dec_blocks _ _ _ _). rewrite f_aead_tag. reflexivity.
Qed.
Lemma f_aead_decrypt k n ad ct : aead_decrypt k n ad ct = g_aead_decrypt fp k n ad ct.
Proof. unfold aead_decrypt, g_aead_decrypt. rewrite f_aead_open. reflexivity. Qed.
Lemma f_hash_init iv : hash_init iv = g_hash_init fp iv.
Proof. apply fp_eq. Qed.
Lemma f_hash_sponge S msg n : hash_sponge S msg n = g_hash_sponge fp S msg n.
Proof. unfold hash_sponge, g_hash_sponge. rewrite f_absorb, f_squeeze. reflexivity. Qed.
Lemma f_hash256 m : hash256 m = g_hash256 fp m.
Proof. unfold hash256, g_hash256. rewrite f_hash_init, f_hash_sponge. reflexivity. Qed.
Lemma f_xof128 m n : xof128 m n = g_xof128 fp m n.
Proof. unfold xof128, g_xof128. rewrite f_hash_init, f_hash_sponge. reflexivity. Qed.
Lemma f_cxof128 m cs n : cxof128 m cs n = g_cxof128 fp m cs n.
Proof. unfold cxof128, g_cxof128. rewrite f_hash_init, f_absorb, f_hash_sponge. reflexivity. Qed.
Lemma f_prf_absorb : forall bs S, prf_absorb S bs = g_prf_absorb fp S bs.
Proof.
  induction bs as [|B bs IH]; intros S; [reflexivity|]. destruct bs as [|B' bs]; [apply fp_eq|].
  transitivity (prf_absorb (p 12 (xor_into S B)) (B' :: bs)); [reflexivity|].
  rewrite IH, fp_eq. reflexivity.
Qed.
Lemma f_prf_gen iv k msg n : prf_gen iv k msg n = g_prf_gen fp iv k msg n.
Proof. unfold prf_gen, g_prf_gen. rewrite f_prf_absorb, f_squeeze, fp_eq. reflexivity. Qed.
Lemma f_mac k msg n : mac k msg n = g_prf_gen fp iv_mac k msg n.
Proof. apply f_prf_gen. Qed.
Lemma f_prf k msg n : prf k msg n = g_prf_gen fp iv_prf k msg n.
Proof. apply f_prf_gen. Qed.
Lemma f_prf_short k msg n : prf_short k msg n = g_prf_short fp k msg n.
Proof. unfold prf_short, g_prf_short. rewrite fp_eq. reflexivity. Qed.
