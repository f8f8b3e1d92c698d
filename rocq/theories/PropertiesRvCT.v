(** * PropertiesRvCT.v -- constant time of the RISC-V implementations (C45).

    Two calls of the same function in the same place: the same pointers, the
    same lengths, the same stack; texts, keys, nonces, the other registers and
    the rest of the memory may differ.  The events of a run are its branches
    and the addresses and sizes of its loads and stores (CMem.v). *)
From Coq Require Import Bool Arith NArith ZArith List Lia Init.Byte Strings.Byte ZifyBool ZifyNat ZifyN.
From Verif Require Import Words WordFacts Spec SpecFacts Spec12 Spec12Facts ModelRv CMem Contract CMemFacts ApiSpec
  RvFacts RvRound RvMode RvCore RvInst RvLaws RvSpec RvTop RvFinal PropertiesRv RvCT RvCTLaws RvCTMode RvCTCore Demo.
Import ListNotations.
Local Open Scope N_scope.

Lemma disjoint_safe p n q m : disjoint p n q m -> forall a, p <= a -> a < p + n -> ~ (q <= a /\ a < q + m).
Proof. unfold disjoint. intros H a A B [C D]. lia. Qed.

Section calls.
Variables (D : rv_dir) (e : env).
Let V := rv_model D.

Definition args (r : regs) (outp inp n ad adlen npub k md : N) : regs :=
  setr (setr (setr (setr (setr (setr (setr (setr r 10 outp) 11 inp) 12 n) 13 ad) 14 adlen) 15 npub) 16 k) 17 md.
Lemma args_eqon r1 r2 outp inp n ad adlen npub k md a : r1 0%nat = 0 -> r2 0%nat = 0 -> r1 2%nat = r2 2%nat ->
  eqon PL0 (setr (args r1 outp inp n ad adlen npub k md) 1 a) (setr (args r2 outp inp n ad adlen npub k md) 1 a).
Proof.
  intros A B C i Hi. apply memb_In in Hi. unfold PL0 in Hi. cbn [In] in Hi.
  repeat (destruct Hi as [<-|Hi]; [unfold args, setr; cbn [Nat.eqb]; congruence|]). destruct Hi.
Qed.
Lemma meq_tab A B : readable A (tab e) (v_data V) -> readable B (tab e) (v_data V) -> meq (T D e) A A B.
Proof.
  intros (_ & _ & HA) (_ & _ & HB) a [H1 H2]. split; [reflexivity|].
  replace a with (tab e + N.of_nat (N.to_nat (a - tab e))) by (clear - H1; lia).
  assert (L : (N.to_nat (a - tab e) < length (v_data V))%nat) by (unfold len in H2; subst V; clear - H1 H2; lia).
  rewrite (HA _ L). exact (HB _ L).
Qed.
Lemma rd_tab M p l : readable M (tab e) (v_data V) -> disjoint p (len l) (tab e) (len (v_data V)) -> readable (write M p l) (tab e) (v_data V).
Proof. intros H HD. apply readable_write_disjoint; assumption. Qed.

(** The calls of ascon_core *)
Section one.
Variables (r1 r2 : regs) (M1 M2 : mem) (outp inp n ad adlen npub k : N).
Hypotheses (E1 : rv_env V e r1 M1) (E2 : rv_env V e r2 M2).
Hypotheses (Hsp : r1 2%nat = r2 2%nat) (Hra : r1 1%nat = r2 1%nat) (Hn : n < 2 ^ 31) (Ha : adlen < 2 ^ 31).
Hypothesis HO : safe (T D e) outp n.
Lemma frame_safe : safe (T D e) (r1 2%nat - 80) 80.
Proof.
  destruct E1. split.
  - specialize (re_regs 2%nat). clear - re_regs re_sp. lia.
  - intros a A B. exact (disjoint_safe _ _ _ _ re_sep a A B).
Qed.
Lemma frame_nz : r1 2%nat - 80 <> 0.
Proof. destruct E1. destruct re_stack as (_ & H & _). apply H. discriminate. Qed.
Lemma start_ok m a : J (T D e) M1 PL0 (X0 outp n (r1 2%nat - 80 + 80) m)
  (setr (args r1 outp inp n ad adlen npub k m) 1 a) (setr (args r2 outp inp n ad adlen npub k m) 1 a) M1 M2.
Proof.
  destruct E1, E2. split; [apply args_eqon; assumption|]. split; [apply meq_tab; assumption|].
  unfold X0, args, setr. cbn [Nat.eqb]. split; [assumption|]. split; [clear - re_sp; lia|]. auto.
Qed.
Lemma call_enc_ct t1 t2 M1' M2' q1 q2 : safe (T D e) outp (n + 16) ->
  call_core V e r1 outp inp n ad adlen npub k 1 M1 = Done t1 M1' q1 ->
  call_core V e r2 outp inp n ad adlen npub k 1 M2 = Done t2 M2' q2 -> t1 = t2.
Proof.
  intros HO' X1 X2. unfold call_core in X1, X2. rewrite <- Hra in X2. fold (args r1 outp inp n ad adlen npub k 1) (args r2 outp inp n ad adlen npub k 1) in *.
  unfold call in X1, X2.
  destruct (bind_done _ _ _ _ _ _ X1) as (u1 & N1 & p1 & v1 & S1 & Y1 & ->).
  destruct (bind_done _ _ _ _ _ _ X2) as (u2 & N2 & p2 & v2 & S2 & Y2 & ->).
  destruct (core_enc_ct D e M1 (re_data _ _ _ _ E1) (re_tab _ _ _ _ E1) (r1 2%nat - 80) outp n 1 frame_safe frame_nz HO Hn HO' eq_refl
    _ _ _ _ _ _ _ _ _ _ (start_ok 1 (r1 1%nat)) S1 S2) as [-> _].
  destruct (p1 1%nat =? r1 1%nat); [|discriminate]. destruct (p2 1%nat =? r1 1%nat); [|discriminate].
  destruct (ret_done _ _ _ _ _ Y1) as (-> & _). destruct (ret_done _ _ _ _ _ Y2) as (-> & _). reflexivity.
Qed.
Lemma call_dec_ct t1 t2 M1' M2' q1 q2 :
  call_core V e r1 outp inp n ad adlen npub k 255 M1 = Done t1 M1' q1 ->
  call_core V e r2 outp inp n ad adlen npub k 255 M2 = Done t2 M2' q2 ->
  exists p s, verdict t1 q1 p s /\ verdict t2 q2 p s.
Proof.
  intros X1 X2. unfold call_core in X1, X2. rewrite <- Hra in X2. fold (args r1 outp inp n ad adlen npub k 255) (args r2 outp inp n ad adlen npub k 255) in *.
  unfold call in X1, X2.
  destruct (bind_done _ _ _ _ _ _ X1) as (u1 & N1 & p1 & v1 & S1 & Y1 & ->).
  destruct (bind_done _ _ _ _ _ _ X2) as (u2 & N2 & p2 & v2 & S2 & Y2 & ->).
  destruct (core_dec_ct D e M1 (re_data _ _ _ _ E1) (re_tab _ _ _ _ E1) (r1 2%nat - 80) outp n (neg 1) frame_safe frame_nz HO Hn eq_refl
    _ _ _ _ _ _ _ _ _ _ (start_ok 255 (r1 1%nat)) S1 S2) as (p & s & A & B & _).
  destruct (p1 1%nat =? r1 1%nat); [|discriminate]. destruct (p2 1%nat =? r1 1%nat); [|discriminate].
  destruct (ret_done _ _ _ _ _ Y1) as (-> & -> & ->). destruct (ret_done _ _ _ _ _ Y2) as (-> & -> & ->).
  exists p, s. rewrite !app_nil_r. split; assumption.
Qed.
End one.
Lemma env_write r M p l : rv_env V e r M -> disjoint p (len l) (tab e) (len (v_data V)) -> rv_env V e r (write M p l).
Proof.
  intros H HD. destruct H. constructor; try assumption; [apply writable_write; assumption|apply rd_tab; assumption].
Qed.
Lemma len_host x : len (to_host LE 8 x) = 8.
Proof. unfold len, to_host. rewrite length_le_bytes. reflexivity. Qed.
Lemma trunc32 x : x < 2 ^ 31 -> trunc 32 x = x.
Proof. intros H. apply trunc_fits. unfold fits. lia. Qed.
Lemma buffer_safe r p n : rv_buffer r p n -> disjoint p n (tab e) (len (v_data V)) -> safe (T D e) p n.
Proof. intros [H _] HD. split; [exact H|]. intros a A B. exact (disjoint_safe _ _ _ _ HD a A B). Qed.

Lemma encrypt_ct r1 r2 M1 M2 c clen m ad nsec npub k mb1 mb2 adb1 adb2 nb1 nb2 kb1 kb2 :
  rv_encrypt_pre V e r1 M1 c clen m ad npub k mb1 adb1 nb1 kb1 ->
  rv_encrypt_pre V e r2 M2 c clen m ad npub k mb2 adb2 nb2 kb2 ->
  len mb1 = len mb2 -> len adb1 = len adb2 -> r1 1%nat = r2 1%nat -> r1 2%nat = r2 2%nat ->
  exists t M1' M2', rv_encrypt V e r1 c clen m (len mb1) ad (len adb1) nsec npub k M1 = Done t M1' 0%Z /\
    rv_encrypt V e r2 c clen m (len mb2) ad (len adb2) nsec npub k M2 = Done t M2' 0%Z.
Proof.
  intros H1 H2 Hm Had Hra Hsp.
  destruct (C44_encrypt D e r1 M1 c clen m ad nsec npub k mb1 adb1 nb1 kb1 H1) as (N1 & (t1 & R1) & _).
  destruct (C44_encrypt D e r2 M2 c clen m ad nsec npub k mb2 adb2 nb2 kb2 H2) as (N2 & (t2 & R2) & _).
  fold V in R1, R2. exists t1, N1, N2. split; [exact R1|].
  replace t1 with t2; [exact R2|]. rewrite <- Hm, <- Had in R2. unfold rv_encrypt in R1, R2.
  destruct H1, H2. rewrite (trunc32 (len mb1) xe_ml), (trunc32 (len adb1) xe_adl) in *.
  destruct (bind_done _ _ _ _ _ _ R1) as (u1 & K1 & p1 & v1 & S1 & Y1 & ->).
  destruct (bind_done _ _ _ _ _ _ R2) as (u2 & K2 & p2 & v2 & S2 & Y2 & ->).
  unfold store_ull in S1, S2.
  destruct (out_done _ _ _ _ _ _ S1) as (-> & ->). destruct (out_done _ _ _ _ _ _ S2) as (-> & ->). f_equal.
  destruct (bind_done _ _ _ _ _ _ Y1) as (w1 & G1 & q1 & z1 & A1 & B1 & ->).
  destruct (bind_done _ _ _ _ _ _ Y2) as (w2 & G2 & q2 & z2 & A2 & B2 & ->).
  destruct (ret_done _ _ _ _ _ B1) as (-> & _). destruct (ret_done _ _ _ _ _ B2) as (-> & _). f_equal.
  assert (HS := buffer_safe r1 c (len mb1 + 16) xe_c xe_ct).
  symmetry. refine (call_enc_ct r1 r2 _ _ c m (len mb1) ad (len adb1) npub k _ _ Hsp Hra xe_ml xe_adl _ _ _ _ _ _ _ HS A1 A2).
  - apply env_write; [exact xe_env|rewrite len_host; exact xe_clt].
  - apply env_write; [exact xe_env0|rewrite len_host; exact xe_clt].
  - destruct HS as [S3 S4]. split; [clear - S3; lia|]. intros a A B. apply S4; [exact A|clear - B; lia].
Qed.
Lemma s32_verdict x : x = 0 \/ x = neg 1 -> (x =? 0) = (s32 x =? 0)%Z.
Proof. intros [->| ->]; reflexivity. Qed.
Lemma decrypt_ct r1 r2 M1 M2 m mlen nsec c ad npub k ct1 ct2 adb1 adb2 nb1 nb2 kb1 kb2 :
  rv_decrypt_pre V e r1 M1 m mlen c ad npub k ct1 adb1 nb1 kb1 ->
  rv_decrypt_pre V e r2 M2 m mlen c ad npub k ct2 adb2 nb2 kb2 ->
  len ct1 = len ct2 -> len adb1 = len adb2 -> r1 1%nat = r2 1%nat -> r1 2%nat = r2 2%nat ->
  exists t u M1' M2' v1 v2,
    rv_decrypt V e r1 m mlen nsec c (len ct1) ad (len adb1) npub k M1 = Done (t ++ EBranch (v1 =? 0)%Z :: u) M1' v1 /\
    rv_decrypt V e r2 m mlen nsec c (len ct2) ad (len adb2) npub k M2 = Done (t ++ EBranch (v2 =? 0)%Z :: u) M2' v2.
Proof.
  intros H1 H2 Hm Had Hra Hsp.
  destruct (duplex_open (rv_alg D) kb1 nb1 adb1 (ct_body ct1)) as [mb1 tg1] eqn:O1.
  destruct (duplex_open (rv_alg D) kb2 nb2 adb2 (ct_body ct2)) as [mb2 tg2] eqn:O2.
  destruct (C44_decrypt D e r1 M1 m mlen nsec c ad npub k ct1 adb1 nb1 kb1 _ _ H1 O1) as (N1 & (t1 & R1) & _).
  destruct (C44_decrypt D e r2 M2 m mlen nsec c ad npub k ct2 adb2 nb2 kb2 _ _ H2 O2) as (N2 & (t2 & R2) & _).
  fold V in R1, R2.
  set (v1 := if rv_accepts D tg1 (ct_tag ct1) then 0%Z else (-1)%Z) in *.
  set (v2 := if rv_accepts D tg2 (ct_tag ct2) then 0%Z else (-1)%Z) in *. clearbody v1 v2.
  assert (G : exists t u, t1 = t ++ EBranch (v1 =? 0)%Z :: u /\ t2 = t ++ EBranch (v2 =? 0)%Z :: u).
  2:{ destruct G as (t & u & -> & ->). exists t, u, N1, N2, v1, v2. split; [exact R1|exact R2]. }
  rewrite <- Hm, <- Had in R2. unfold rv_decrypt in R1, R2. destruct H1, H2.
  assert (LC := dp_len _ _ _ _ _ _ _ _ _ _ _ _ xd_common).
  destruct (bind_done _ _ _ _ _ _ R1) as (u1 & K1 & p1 & x1 & S1 & Y1 & ->). clear R1.
  destruct (bind_done _ _ _ _ _ _ R2) as (u2 & K2 & p2 & x2 & S2 & Y2 & ->). clear R2.
  unfold branch in S1, S2. injection S1 as <- <- <-. injection S2 as <- <- <-.
  replace (len ct1 <? 16) with false in * by (clear - LC; lia).
  destruct (bind_done _ _ _ _ _ _ Y1) as (u1 & K1 & p1 & w1 & S1 & Z1 & ->). clear Y1.
  destruct (bind_done _ _ _ _ _ _ Y2) as (u2 & K2 & p2 & w2 & S2 & Z2 & ->). clear Y2.
  unfold store_ull in S1, S2.
  destruct (out_done _ _ _ _ _ _ S1) as (-> & ->). destruct (out_done _ _ _ _ _ _ S2) as (-> & ->).
  assert (ES : sub64 (len ct1) 16 = len ct1 - 16).
  { apply sub64_small; [exact LC|]. destruct (dp_c _ _ _ _ _ _ _ _ _ _ _ _ xd_common) as (B & _). clear - B. lia. }
  rewrite ES in *.
  destruct (bind_done _ _ _ _ _ _ Z1) as (u1 & K1 & n1 & y1 & L1 & Y1 & ->). clear Z1.
  destruct (bind_done _ _ _ _ _ _ Z2) as (u2 & K2 & n2 & y2 & L2 & Y2 & ->). clear Z2.
  assert (LD : forall M u K n, load_ull LE mlen (write M mlen (to_host LE 8 (len ct1 - 16))) = Done u K n ->
    u = [ERead mlen 8] /\ K = write M mlen (to_host LE 8 (len ct1 - 16)) /\ n = len ct1 - 16).
  { intros M u K n X. unfold load_ull in X.
    destruct (bind_done _ _ _ _ _ _ X) as (w & G & l & z & A & B & ->).
    destruct (in_done _ _ _ _ _ _ A) as (-> & -> & RB). destruct (ret_done _ _ _ _ _ B) as (-> & -> & ->).
    split; [reflexivity|split; [reflexivity|]].
    assert (RD : readable (write M mlen (to_host LE 8 (len ct1 - 16))) mlen (to_host LE 8 (len ct1 - 16))).
    { destruct (dp_mlen _ _ _ _ _ _ _ _ _ _ _ _ xd_common) as (B1 & B2 & _). apply readable_write_self; [rewrite len_host; exact B1|].
      intros _. apply B2. discriminate. }
    apply read_bytes_readable in RD. change (N.to_nat 8) with 8%nat in RB.
    unfold to_host in RD, RB. rewrite length_le_bytes in RD. rewrite RD in RB. injection RB as <-.
    unfold from_host. change (le_num (le_bytes 8 (len ct1 - 16)) = len ct1 - 16). rewrite le_num_le_bytes. apply trunc_fits. unfold fits. cbn [N.of_nat N.mul]. clear - xd_cl. lia. }
  destruct (LD _ _ _ _ L1) as (-> & -> & ->). destruct (LD _ _ _ _ L2) as (-> & -> & ->).
  assert (Bn : len ct1 - 16 < 2 ^ 31) by (clear - xd_cl LC; lia).
  rewrite (trunc32 _ Bn), (trunc32 (len adb1) xd_adl) in *.
  destruct (bind_done _ _ _ _ _ _ Y1) as (g1 & G1 & q1 & z1 & A1 & B1 & ->).
  destruct (bind_done _ _ _ _ _ _ Y2) as (g2 & G2 & q2 & z2 & A2 & B2 & ->).
  destruct (ret_done _ _ _ _ _ B1) as (-> & _ & ->). destruct (ret_done _ _ _ _ _ B2) as (-> & _ & ->).
  destruct (call_dec_ct r1 r2 _ _ m c (len ct1 - 16) ad (len adb1) npub k
    (env_write r1 M1 mlen _ xd_env ltac:(rewrite len_host; exact xd_mlt)) (env_write r2 M2 mlen _ xd_env0 ltac:(rewrite len_host; exact xd_mlt))
    Hsp Hra Bn xd_adl (buffer_safe r1 m _ xd_m xd_mt) _ _ _ _ _ _ A1 A2) as (p & s & [-> W1] & [-> W2]).
  rewrite (s32_verdict _ W1), (s32_verdict _ W2). rewrite !app_nil_r.
  eexists; exists s. split; [|rewrite !app_assoc; reflexivity]. rewrite !app_assoc. reflexivity.
Qed.
End calls.

(** ** C45 Encryption: branches and addresses depend only on pointers,
    lengths and the place of the stack. *)
Theorem C45_encrypt_constant_time : forall D e r1 r2 M1 M2 c clen m ad nsec npub k mb1 mb2 adb1 adb2 nb1 nb2 kb1 kb2,
  rv_encrypt_pre (rv_model D) e r1 M1 c clen m ad npub k mb1 adb1 nb1 kb1 ->
  rv_encrypt_pre (rv_model D) e r2 M2 c clen m ad npub k mb2 adb2 nb2 kb2 ->
  len mb1 = len mb2 -> len adb1 = len adb2 -> r1 1%nat = r2 1%nat -> r1 2%nat = r2 2%nat ->
  exists t M1' M2',
    rv_encrypt (rv_model D) e r1 c clen m (len mb1) ad (len adb1) nsec npub k M1 = Done t M1' 0%Z /\
    rv_encrypt (rv_model D) e r2 c clen m (len mb2) ad (len adb2) nsec npub k M2 = Done t M2' 0%Z.
Proof. intros D e. exact (encrypt_ct D e). Qed.
Print Assumptions C45_encrypt_constant_time.

(** ** C45 Decryption: likewise, except for the one branch that tells whether
    the tag is accepted, and it tells no more than the result does. *)
Theorem C45_decrypt_constant_time : forall D e r1 r2 M1 M2 m mlen nsec c ad npub k ct1 ct2 adb1 adb2 nb1 nb2 kb1 kb2,
  rv_decrypt_pre (rv_model D) e r1 M1 m mlen c ad npub k ct1 adb1 nb1 kb1 ->
  rv_decrypt_pre (rv_model D) e r2 M2 m mlen c ad npub k ct2 adb2 nb2 kb2 ->
  len ct1 = len ct2 -> len adb1 = len adb2 -> r1 1%nat = r2 1%nat -> r1 2%nat = r2 2%nat ->
  exists t u M1' M2' v1 v2,
    rv_decrypt (rv_model D) e r1 m mlen nsec c (len ct1) ad (len adb1) npub k M1 = Done (t ++ EBranch (v1 =? 0)%Z :: u) M1' v1 /\
    rv_decrypt (rv_model D) e r2 m mlen nsec c (len ct2) ad (len adb2) npub k M2 = Done (t ++ EBranch (v2 =? 0)%Z :: u) M2' v2.
Proof. intros D e. exact (decrypt_ct D e). Qed.
Print Assumptions C45_decrypt_constant_time.

(** ** A case: the genuine and a wrong tag for the demo message *)
Theorem C45_case : forall D,
  rv_decrypt_pre (rv_model D) rv_env0 rv_regs (rv_dec_mem (rv_ct D)) 0x2000 0x2100 0x1300 0x1200 0x1100 0x1000
    (rv_ct D) demo_ad demo_nonce demo_key /\
  rv_decrypt_pre (rv_model D) rv_env0 rv_regs (rv_dec_mem (rv_bad D)) 0x2000 0x2100 0x1300 0x1200 0x1100 0x1000
    (rv_bad D) demo_ad demo_nonce demo_key /\
  len (rv_ct D) = len (rv_bad D) /\
  rv_encrypt_pre (rv_model D) rv_env0 rv_regs rv_enc_mem
    0x2000 0x2100 0x1300 0x1200 0x1100 0x1000 demo_msg demo_ad demo_nonce demo_key.
Proof.
  intros D. split; [apply rv_dec_pre; destruct D; vm_compute; reflexivity|].
  split; [apply rv_dec_pre; destruct D; vm_compute; reflexivity|].
  split; [destruct D; vm_compute; reflexivity|apply C44_encrypt_case].
Qed.
Print Assumptions C45_case.
