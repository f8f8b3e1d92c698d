(** * Indep.v -- whatever the indeterminate registers hold: same outcome,
    same trace, same memory, for arbitrary arguments. *)
From Coq Require Import Bool Arith NArith ZArith List Lia Init.Byte.
From Verif Require Import Words WordFacts Spec CMem Contract CMemFacts ModelRef ModelCommon ModelWords
  ModelAvx AvxRound ModelNeon NeonRound RefPrim.
Import ListNotations.
Local Open Scope N_scope.

(** Two computations with the same effects and related results. *)
Definition sim {A B} (R : A -> B -> Prop) (c : C A) (d : C B) : Prop := forall M,
  match c M, d M with
  | Done t1 M1 v1, Done t2 M2 v2 => t1 = t2 /\ M1 = M2 /\ R v1 v2
  | Bad e1, Bad e2 => e1 = e2
  | _, _ => False
  end.
Lemma sim_refl {A} (c : C A) : sim eq c c.
Proof. intros M. destruct (c M); auto. Qed.
Lemma sim_eq {A} (c d : C A) : sim eq c d -> forall M, c M = d M.
Proof. intros H M. specialize (H M). destruct (c M), (d M); try contradiction; [destruct H as (-> & -> & ->)|subst]; reflexivity. Qed.
Lemma sim_ret {A B} (R : A -> B -> Prop) a b : R a b -> sim R (ret a) (ret b).
Proof. intros H M. repeat split. exact H. Qed.
Lemma sim_bind {A B A' B'} (R : A -> A' -> Prop) (Q : B -> B' -> Prop) c d f g :
  sim R c d -> (forall a b, R a b -> sim Q (f a) (g b)) -> sim Q (bind c f) (bind d g).
Proof.
  intros H1 H2 M. unfold bind. specialize (H1 M). destruct (c M) as [t1 M1 v1|e1], (d M) as [t2 M2 v2|e2]; try contradiction; [|exact H1].
  destruct H1 as (-> & -> & HR). specialize (H2 v1 v2 HR M2).
  destruct (f v1 M2), (g v2 M2); try contradiction; [|exact H2]. destruct H2 as (-> & -> & HQ). auto.
Qed.
Lemma sim_while {S S'} (R : S -> S' -> Prop) cond cond' body body' :
  (forall a b, R a b -> cond a = cond' b) -> (forall a b, R a b -> sim R (body a) (body' b)) ->
  forall f a b, R a b -> sim R (while f cond body a) (while f cond' body' b).
Proof.
  intros HC HB f. induction f as [|f IH]; intros a b HR; [intros M; reflexivity|]. cbn [while].
  rewrite (HC a b HR). eapply sim_bind; [apply sim_refl|]. intros x y ->. destruct y.
  - eapply sim_bind; [apply HB, HR|]. intros. apply IH. assumption.
  - apply sim_ret, HR.
Qed.

Local Ltac same := eapply sim_bind; [apply sim_refl|]; intros ? ? <-.

(** ** The functions of src whose only use of the permutation is none, and
    those that call it: nothing else depends on it *)
Section AnyP.
Variables P P' : N -> state -> state.
Lemma p_ad_last s a n : ad_last LE (w64 P LE) s a n = ad_last LE (w64 P' LE) s a n.
Proof. reflexivity. Qed.
Lemma p_enc_last s a b n : enc_last LE (w64 P LE) s a b n = enc_last LE (w64 P' LE) s a b n.
Proof. reflexivity. Qed.
Lemma p_dec_last s a b n : dec_last LE (w64 P LE) s a b n = dec_last LE (w64 P' LE) s a b n.
Proof. reflexivity. Qed.
Lemma p_loadkey k : ascon_loadkey LE (w64 P LE) k = ascon_loadkey LE (w64 P' LE) k.
Proof. reflexivity. Qed.
Lemma p_gettag s t : ascon_gettag LE (w64 P LE) s t = ascon_gettag LE (w64 P' LE) s t.
Proof. reflexivity. Qed.
Lemma p_verify s t : ascon_verify LE (w64 P LE) s t = ascon_verify LE (w64 P' LE) s t.
Proof. reflexivity. Qed.
Lemma p_dsep : w_dsep (w64 P LE) = w_dsep (w64 P' LE).
Proof. reflexivity. Qed.
Hypothesis HP : forall n s, P n s = P' n s.
Lemma p_init K npub : sim eq (ascon_initaead LE (w64 P LE) K npub) (ascon_initaead LE (w64 P' LE) K npub).
Proof.
  unfold ascon_initaead. destruct K as [K0 K1].
  eapply sim_bind; [exact (sim_refl (wLOAD LE (w64 P LE) npub))|]. intros N0 ? <-. same.
  eapply sim_bind; [exact (sim_refl (wLOAD LE (w64 P LE) a))|]. intros N1 ? <-. apply sim_ret.
  cbn [w_P w64 c_aead]. rewrite HP. reflexivity.
Qed.
Lemma p_final s K : ascon_final (w64 P LE) s K = ascon_final (w64 P' LE) s K.
Proof. unfold ascon_final. destruct K. cbn [w_P w64]. rewrite HP. reflexivity. Qed.
Lemma p_xof iv out outlen inp inlen M :
  ascon_xof LE (w64 P LE) iv out outlen inp inlen M = ascon_xof LE (w64 P' LE) iv out outlen inp inlen M.
Proof.
  apply sim_eq. unfold ascon_xof. eapply sim_bind with (R := eq).
  - unfold ascon_absorb. eapply sim_bind.
    + apply (sim_while eq); [intros a ? <-; reflexivity| |reflexivity]. intros [[s p] l] ? <-. unfold absorb_body.
      eapply sim_bind; [exact (sim_refl (wLOAD LE (w64 P LE) p))|]. intros w ? <-. same. apply sim_ret.
      cbn [w_P w64]. rewrite HP. reflexivity.
    + intros [[s p] l] ? <-. exact (sim_refl _).
  - intros s ? <-. eapply sim_bind with (R := eq); [|intros; apply sim_refl].
    unfold ascon_squeeze. cbv zeta. cbn [w_P w64]. rewrite HP. eapply sim_bind.
    + apply (sim_while eq); [intros a ? <-; reflexivity| |reflexivity]. intros [[s' p] l] ? <-. unfold squeeze_body.
      eapply sim_bind; [exact (sim_refl (wSTORE LE (w64 P LE) p (X0 s')))|]. intros ? ? <-. same. apply sim_ret.
      cbn [w_P w64]. rewrite HP. reflexivity.
    + intros [[s' p] l] ? <-. exact (sim_refl _).
Qed.
End AnyP.

(** ** NEON *)

Definition rn5 (a b : dregs * ptr * N * N * flags) : Prop :=
  let '(r, p, h, l, f) := a in let '(r', p', h', l', f') := b in
  ststate r = ststate r' /\ p = p' /\ h = h' /\ l = l' /\ f = f'.
Definition rn6 (a b : dregs * ptr * ptr * N * N * flags) : Prop :=
  let '(r, p, q, h, l, f) := a in let '(r', p', q', h', l', f') := b in
  ststate r = ststate r' /\ p = p' /\ q = q' /\ h = h' /\ l = l' /\ f = f'.

Lemma rn5I r r' p h l f : ststate r = ststate r' -> rn5 (r, p, h, l, f) (r', p, h, l, f).
Proof. intros E. exact (conj E (conj eq_refl (conj eq_refl (conj eq_refl eq_refl)))). Qed.
Lemma rn6I r r' p q h l f : ststate r = ststate r' -> rn6 (r, p, q, h, l, f) (r', p, q, h, l, f).
Proof. intros E. exact (conj E (conj eq_refl (conj eq_refl (conj eq_refl (conj eq_refl eq_refl))))). Qed.

Local Opaque nP P8ROUNDS round_code.
Local Ltac run := cbv [ststate execs fold_left exec setd setq N.eqb Pos.eqb N.mul Pos.mul N.add Pos.add Pos.succ fst snd].
Section Neon.
Variables u u' : dregs.

Lemma sim_nAD s ad n : sim eq (nAD u s ad n) (nAD u' s ad n).
Proof.
  unfold nAD. eapply sim_bind.
  - apply (sim_while rn5).
    + intros [[[[r p] h] l] f] [[[[r' p'] h'] l'] f'] (E & -> & -> & -> & ->). reflexivity.
    + intros [[[[r p] h] l] f] [[[[r' p'] h'] l'] f'] (E & -> & -> & -> & ->). unfold n_ad_body. same. same. apply sim_ret.
      apply rn5I. rewrite !(execs_app [VEORQ 0 0 8]). apply round_code_only. unfold ststate in *.
      inversion E as [[E0 E1 E2 E3 E4]]. run; rewrite E0, E1, E2, E3, E4. reflexivity.
    + apply rn5I. rewrite !ldst. reflexivity.
  - intros [[[[r p] h] l] f] [[[[r' p'] h'] l'] f'] (E & -> & -> & -> & ->). apply sim_ret. rewrite E. reflexivity.
Qed.
Lemma sim_n_adata s ad n : sim eq (n_adata u s ad n) (n_adata u' s ad n).
Proof.
  unfold n_adata. same. eapply sim_bind with (R := eq).
  - destruct a; [|apply sim_refl]. eapply sim_bind; [apply sim_nAD|]. intros [[s1 a1] n1] ? <-.
    unfold neon_ops. rewrite (p_ad_last (nP u) (nP u')). same.
    apply sim_ret, nP_only.
  - intros ? ? <-. unfold neon_ops. rewrite (p_dsep (nP u) (nP u')). apply sim_refl.
Qed.
Lemma sim_n_encrypt s c m n : sim eq (n_encrypt u s c m n) (n_encrypt u' s c m n).
Proof.
  unfold n_encrypt. eapply sim_bind with (R := eq).
  - unfold nPT. eapply sim_bind.
    + apply (sim_while rn6).
      * intros [[[[[r p] q] h] l] f] [[[[[r' p'] q'] h'] l'] f'] (E & -> & -> & -> & -> & ->). reflexivity.
      * intros [[[[[r p] q] h] l] f] [[[[[r' p'] q'] h'] l'] f'] (E & -> & -> & -> & -> & ->). unfold n_enc_body. same. same.
        cbv zeta. set (r1 := execs [VEORQ 0 0 8] (setq r 8 a)). set (r2 := execs [VEORQ 0 0 8] (setq r' 8 a)).
        assert (E' : ststate r1 = ststate r2).
        { unfold ststate in *. inversion E as [[E0 E1 E2 E3 E4]]. subst r1 r2; run; rewrite E0, E1, E2, E3, E4. reflexivity. }
        replace (r2 0) with (r1 0) by exact (f_equal X0 E'). replace (r2 1) with (r1 1) by exact (f_equal X1 E').
        same. same. apply sim_ret. apply rn6I. apply round_code_only, E'.
      * apply rn6I. rewrite !ldst. reflexivity.
    + intros [[[[[r p] q] h] l] f] [[[[[r' p'] q'] h'] l'] f'] (E & -> & -> & -> & -> & ->). apply sim_ret. rewrite E. reflexivity.
  - intros [[[s1 a1] b1] n1] ? <-. unfold neon_ops. rewrite (p_enc_last (nP u) (nP u')). apply sim_refl.
Qed.
Lemma sim_n_decrypt s c m n : sim eq (n_decrypt u s m c n) (n_decrypt u' s m c n).
Proof.
  unfold n_decrypt. eapply sim_bind with (R := eq).
  - unfold nCT. eapply sim_bind.
    + apply (sim_while rn6).
      * intros [[[[[r p] q] h] l] f] [[[[[r' p'] q'] h'] l'] f'] (E & -> & -> & -> & -> & ->). reflexivity.
      * intros [[[[[r p] q] h] l] f] [[[[[r' p'] q'] h'] l'] f'] (E & -> & -> & -> & -> & ->). unfold n_dec_body. same. same.
        cbv zeta. unfold ststate in E. inversion E as [[E0 E1 E2 E3 E4]]. 
        replace (execs [VEORQ 8 0 13] (setq r' 13 a) 16) with (execs [VEORQ 8 0 13] (setq r 13 a) 16)
          by (run; rewrite E0; reflexivity).
        replace (execs [VEORQ 8 0 13] (setq r' 13 a) 17) with (execs [VEORQ 8 0 13] (setq r 13 a) 17)
          by (run; rewrite E1; reflexivity).
        same. same. apply sim_ret. apply rn6I. rewrite !(execs_app [VMOVQ 0 13]). apply round_code_only.
        unfold ststate. run; rewrite E2, E3, E4. reflexivity.
      * apply rn6I. rewrite !ldst. reflexivity.
    + intros [[[[[r p] q] h] l] f] [[[[[r' p'] q'] h'] l'] f'] (E & -> & -> & -> & -> & ->). apply sim_ret. rewrite E. reflexivity.
  - intros [[[s1 a1] b1] n1] ? <-. unfold neon_ops. rewrite (p_dec_last (nP u) (nP u')). apply sim_refl.
Qed.

Theorem neon_encrypt_any_u c clen m mlen ad adlen nsec npub k M :
  neon_aead_encrypt u c clen m mlen ad adlen nsec npub k M = neon_aead_encrypt u' c clen m mlen ad adlen nsec npub k M.
Proof.
  apply sim_eq. unfold neon_aead_encrypt, n_aead_encrypt. same. same. cbv zeta. unfold neon_ops.
  rewrite (p_loadkey (nP u) (nP u')). same.
  eapply sim_bind; [apply p_init, nP_only|]. intros s1 ? <-.
  eapply sim_bind; [apply sim_n_adata|]. intros s2 ? <-.
  eapply sim_bind; [apply sim_n_encrypt|]. intros s3 ? <-.
  rewrite (p_final (nP u) (nP u')) by apply nP_only. rewrite (p_gettag (nP u) (nP u')). apply sim_refl.
Qed.
Theorem neon_decrypt_any_u m mlen nsec c clen ad adlen npub k M :
  neon_aead_decrypt u m mlen nsec c clen ad adlen npub k M = neon_aead_decrypt u' m mlen nsec c clen ad adlen npub k M.
Proof.
  apply sim_eq. unfold neon_aead_decrypt, n_aead_decrypt. same. destruct a; [apply sim_refl|]. same. same. same. same.
  cbv zeta. unfold neon_ops.
  rewrite (p_loadkey (nP u) (nP u')). same.
  eapply sim_bind; [apply p_init, nP_only|]. intros s1 ? <-.
  eapply sim_bind; [apply sim_n_adata|]. intros s2 ? <-.
  eapply sim_bind; [apply sim_n_decrypt|]. intros s3 ? <-.
  rewrite (p_final (nP u) (nP u')) by apply nP_only. rewrite (p_verify (nP u) (nP u')). apply sim_refl.
Qed.
Theorem neon_xof_any_u iv out outlen inp inlen M :
  ascon_xof LE (neon_ops u LE) iv out outlen inp inlen M = ascon_xof LE (neon_ops u' LE) iv out outlen inp inlen M.
Proof. apply p_xof, nP_only. Qed.
End Neon.

(** ** AVX-512 *)
Lemma tern_c a a' b b' c c' i : zx a = zx a' -> zx b = zx b' -> zx c = zx c' ->
  zx (ternarylogic a b c i) = zx (ternarylogic a' b' c' i).
Proof. intros A B D. rewrite !zx_tern, A, B, D. reflexivity. Qed.
Lemma zx_rorv_gen a n : zx (rorv a n) =
  St (N.lor (shrw (X0 (zx a)) (lane n 0 mod 64)) (shlw 64 (X0 (zx a)) ((64 - lane n 0 mod 64) mod 64)))
     (N.lor (shrw (X1 (zx a)) (lane n 1 mod 64)) (shlw 64 (X1 (zx a)) ((64 - lane n 1 mod 64) mod 64)))
     (N.lor (shrw (X2 (zx a)) (lane n 2 mod 64)) (shlw 64 (X2 (zx a)) ((64 - lane n 2 mod 64) mod 64)))
     (N.lor (shrw (X3 (zx a)) (lane n 3 mod 64)) (shlw 64 (X3 (zx a)) ((64 - lane n 3 mod 64) mod 64)))
     (N.lor (shrw (X4 (zx a)) (lane n 4 mod 64)) (shlw 64 (X4 (zx a)) ((64 - lane n 4 mod 64) mod 64))).
Proof. reflexivity. Qed.
Lemma zROUND_only z z' c : zx z = zx z' -> zx (zROUND z c) = zx (zROUND z' c).
Proof.
  intros E. unfold zROUND. cbv zeta.
  match goal with |- zx (ternarylogic ?d _ _ _) = zx (ternarylogic ?d' _ _ _) => assert (D : zx d = zx d') end.
  { match goal with |- zx (ternarylogic ?d _ _ _) = zx (ternarylogic ?d' _ _ _) => assert (D : zx d = zx d') end.
    { match goal with |- zx (ternarylogic ?d _ _ _) = zx (ternarylogic ?d' _ _ _) => assert (D : zx d = zx d') end.
      { apply tern_c; [exact E| |reflexivity]. rewrite !zx_xor1, E. reflexivity. }
      apply tern_c; [exact D|rewrite !zx_chi1, D; reflexivity|rewrite !zx_chi2, D; reflexivity]. }
    apply tern_c; [exact D|rewrite !zx_xor2, D; reflexivity|reflexivity]. }
  apply tern_c; [exact D|rewrite !zx_rorv_gen, D; reflexivity|rewrite !zx_rorv_gen, D; reflexivity].
Qed.
Lemma zfold_only l : forall z z', zx z = zx z' -> zx (fold_left zROUND l z) = zx (fold_left zROUND l z').
Proof. induction l as [|c l IH]; intros z z' E; [exact E|]. cbn [fold_left]. apply IH, zROUND_only, E. Qed.
Lemma zP_only nr z z' : zx z = zx z' -> zx (zP nr z) = zx (zP nr z').
Proof.
  intros E. unfold zP. cbv zeta.
  destruct (nr =? 12), (nr =? 8), (nr =? 6); repeat apply zfold_only; exact E.
Qed.
Lemma vxor_only z z' t : zx z = zx z' -> zx (vxor z t) = zx (vxor z' t).
Proof. intros E. rewrite !zx_vxor, E. reflexivity. Qed.
Lemma blend_only z z' t : zx z = zx z' -> zx (mask_blend 16 z t) = zx (mask_blend 16 z' t).
Proof.
  intros E. unfold mask_blend. change (N.to_nat 16) with 16%nat.
  transitivity (St (le_num (wb (X0 (zx t)))) (le_num (wb (X1 (zx t)))) (le_num (wb (X2 (zx z))))
     (le_num (wb (X3 (zx z)))) (le_num (wb (X4 (zx z))))); [reflexivity|]. rewrite E. reflexivity.
Qed.
Lemma sto16_only p z z' : zx z = zx z' -> mask_storeu 16 p z = mask_storeu 16 p z'.
Proof. intros E. unfold mask_storeu. change (N.to_nat 16) with 16%nat. rewrite !vec_bytes_16, E. reflexivity. Qed.

Definition rz (z z' : zmm) : Prop := zx z = zx z'.
Definition rz3 (a b : zmm * ptr * N) : Prop :=
  let '(z, p, n) := a in let '(z', p', n') := b in rz z z' /\ p = p' /\ n = n'.
Definition rz4 (a b : zmm * ptr * ptr * N) : Prop :=
  let '(z, p, q, n) := a in let '(z', p', q', n') := b in rz z z' /\ p = p' /\ q = q' /\ n = n'.
Local Opaque zP.
Lemma sim_z_init u u' K npub : sim rz (z_initaead u K npub) (z_initaead u' K npub).
Proof.
  unfold z_initaead. destruct K as [K0 K1]. same. same. same. apply sim_ret. unfold rz, withx. cbn [zx].
  match goal with |- context [zP 12 ?a] => match goal with |- context [zP 12 ?b] => assert_fails (constr_eq a b); rewrite (zP_only 12 a b eq_refl) end end.
  reflexivity.
Qed.
Lemma sim_z_adata z z' ad n : rz z z' -> sim rz (z_adata z ad n) (z_adata z' ad n).
Proof.
  intros E. unfold z_adata. same. eapply sim_bind with (R := rz).
  - destruct a; [|apply sim_ret, E]. eapply sim_bind.
    + apply (sim_while rz3).
      * intros [[y p] l] [[y' p'] l'] (_ & -> & ->). reflexivity.
      * intros [[y p] l] [[y' p'] l'] (D & -> & ->). unfold z_ad_body. same. same. apply sim_ret.
        exact (conj (zP_only 8 _ _ (vxor_only _ _ _ D)) (conj eq_refl eq_refl)).
      * exact (conj E (conj eq_refl eq_refl)).
    + intros [[y p] l] [[y' p'] l'] (D & -> & ->). unfold rz in D. rewrite D. same. apply sim_ret. apply zP_only. reflexivity.
  - intros y y' D. apply sim_ret. unfold rz in *. unfold withx. cbn [zx]. rewrite D. reflexivity.
Qed.
Lemma sim_z_encrypt z z' c m n : rz z z' -> sim rz (z_encrypt z c m n) (z_encrypt z' c m n).
Proof.
  intros E. unfold z_encrypt. eapply sim_bind.
  - apply (sim_while rz4).
    + intros [[[y p] q] l] [[[y' p'] q'] l'] (_ & -> & -> & ->). reflexivity.
    + intros [[[y p] q] l] [[[y' p'] q'] l'] (D & -> & -> & ->). unfold z_enc_body. same. cbv zeta.
      rewrite (sto16_only q' _ _ (vxor_only _ _ a D)). same. same. same. apply sim_ret.
      exact (conj (zP_only 8 _ _ (vxor_only _ _ _ D)) (conj eq_refl (conj eq_refl eq_refl))).
    + exact (conj E (conj eq_refl (conj eq_refl eq_refl))).
  - intros [[[y p] q] l] [[[y' p'] q'] l'] (D & -> & -> & ->). unfold rz in D. rewrite D. same. apply sim_ret. reflexivity.
Qed.
Lemma sim_z_decrypt z z' c m n : rz z z' -> sim rz (z_decrypt z c m n) (z_decrypt z' c m n).
Proof.
  intros E. unfold z_decrypt. eapply sim_bind.
  - apply (sim_while rz4).
    + intros [[[y p] q] l] [[[y' p'] q'] l'] (_ & -> & -> & ->). reflexivity.
    + intros [[[y p] q] l] [[[y' p'] q'] l'] (D & -> & -> & ->). unfold z_dec_body. same. cbv zeta.
      rewrite (sto16_only p' _ _ (vxor_only _ _ a D)). same. same. same. apply sim_ret.
      exact (conj (zP_only 8 _ _ (blend_only _ _ _ (vxor_only _ _ _ D))) (conj eq_refl (conj eq_refl eq_refl))).
    + exact (conj E (conj eq_refl (conj eq_refl eq_refl))).
  - intros [[[y p] q] l] [[[y' p'] q'] l'] (D & -> & -> & ->). unfold rz in D. rewrite D. same. apply sim_ret. reflexivity.
Qed.
Lemma z_final_only z z' K : rz z z' -> rz (z_final z K) (z_final z' K).
Proof.
  intros E. unfold rz in *. unfold z_final. destruct K as [K0 K1]. cbv zeta. unfold withx. cbn [zx]. rewrite E.
  match goal with |- context [zP 12 ?a] => match goal with |- context [zP 12 ?b] => assert_fails (constr_eq a b); rewrite (zP_only 12 a b eq_refl) end end.
  reflexivity.
Qed.
Theorem avx_encrypt_any_u u u' c clen m mlen ad adlen nsec npub k M :
  avx_aead_encrypt u c clen m mlen ad adlen nsec npub k M = avx_aead_encrypt u' c clen m mlen ad adlen nsec npub k M.
Proof.
  apply sim_eq. unfold avx_aead_encrypt, z_aead_encrypt. same. same. same.
  eapply sim_bind; [apply sim_z_init|]. intros z1 z1' H1.
  eapply sim_bind; [apply sim_z_adata, H1|]. intros z2 z2' H2.
  eapply sim_bind; [apply sim_z_encrypt, H2|]. intros z3 z3' H3. cbv zeta.
  rewrite (z_final_only _ _ a1 H3). apply sim_refl.
Qed.
Theorem avx_decrypt_any_u u u' m mlen nsec c clen ad adlen npub k M :
  avx_aead_decrypt u m mlen nsec c clen ad adlen npub k M = avx_aead_decrypt u' m mlen nsec c clen ad adlen npub k M.
Proof.
  apply sim_eq. unfold avx_aead_decrypt, z_aead_decrypt. same. destruct a; [apply sim_refl|]. same. same. same. same. same.
  eapply sim_bind; [apply sim_z_init|]. intros z1 z1' H1.
  eapply sim_bind; [apply sim_z_adata, H1|]. intros z2 z2' H2.
  eapply sim_bind; [apply sim_z_decrypt, H2|]. intros z3 z3' H3. cbv zeta.
  match goal with |- context [z_final z3 ?K] => rewrite (z_final_only _ _ K H3) end. apply sim_refl.
Qed.
