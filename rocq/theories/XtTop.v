(** * XtTop.v -- the C functions around ascon_core of ModelXt.v. *)
From Coq Require Import Bool Arith NArith ZArith List Lia Init.Byte Strings.Byte ZifyBool ZifyNat ZifyN.
From Verif Require Import Words WordFacts Spec SpecFacts Spec12 Spec12Facts StateRep Asm ModelRv ModelXt CMem Contract CMemFacts ApiSpec RvFacts RvRound RvMode RvWords RvInst RvLaws RvCore RvTop XtSpec XtFacts XtHash XtAead XtMode XtCore XtTag.
Import ListNotations.
Local Open Scope N_scope.
Local Notation P := ascon128a_v12.
Local Notation fold16 := (foldx be_num hi_n lo_n).

Section top.
Variable lab : N -> N.
Hypothesis Hlab : forall n, fits 32 (lab n).
(** What the call of ascon_core demands, before its arguments are stored. *)
Record xcall (m : md) (r : regs) (M : mem) (o i a np kp : N) (k n ad l T : bytes) : Prop := {
  q_rok : rok r; q_m : m <> Ab; q_sp : 112 <= r 2%nat; q_end : r 2%nat + 8 < 2 ^ 32;
  q_fw : writable M (r 2%nat - 112) 96; q_aw : writable M (r 2%nat) 8;
  q_n : readable M np n; q_nl : length n = 16%nat; q_nb : np + 16 < 2 ^ 32; q_fn : disjoint (r 2%nat - 112) 120 np 16;
  q_k : readable M kp k; q_kl : length k = 16%nat; q_kb : kp + 16 < 2 ^ 32; q_fk : disjoint (r 2%nat - 112) 120 kp 16;
  q_a : readable M a ad; q_ab : a + len ad < 2 ^ 32; q_fa : disjoint (r 2%nat - 112) 120 a (len ad);
  q_i : readable M i l; q_ib : i + len l < 2 ^ 32; q_fi : disjoint (r 2%nat - 112) 120 i (len l);
  q_o : writable M o (room m l); q_ob : o + room m l < 2 ^ 32;
  q_oi : disjoint o (len l) i (len l); q_fo : disjoint (r 2%nat - 112) 120 o (room m l);
  q_t : m = De -> readable M (i + len l) T /\ length T = 16%nat /\ i + len l + 16 < 2 ^ 32 /\
    disjoint o (len l) (i + len l) 16 /\ disjoint (r 2%nat - 112) 120 (i + len l) 16
}.
Lemma sub_disjoint F p l : disjoint F 120 p l -> disjoint F 96 p l.
Proof. unfold disjoint. lia. Qed.
Lemma call_ok m r M o i a np kp k n ad l T : xcall m r M o i a np kp k n ad l T ->
  let '(S1, out) := dd P m (length l) (d_ad P (d_init P k n) ad) l in
  exists r' M', runs (xt_call lab r o i (len l) a (len ad) np kp (marg m)) M M' r' /\
    near (r 2%nat - 112) 120 (ideal m M o out (d_tag P k S1)) M' /\
    r' 6%nat = verdict be_num hi_n lo_n m (d_tag P k S1) T.
Proof.
  intros [Hr Hm Hsp He Fw Aw Qn Ln Bn Dn Qk Lk Bk Dk Qa Ba Da Qi Bi Di Wo Bo Doi Do Ht].
  set (F := r 2%nat - 112) in *. assert (EF : r 2%nat = F + 112) by (clear - Hsp; subst F; lia).
  assert (Fk : fits 32 kp) by (unfold fits; clear - Bk; lia).
  set (M1 := write M (r 2%nat) (le_bytes 4 kp)). set (M2 := write M1 (r 2%nat + 4) (le_bytes 4 (marg m))).
  assert (L4 : forall x, len (le_bytes 4 x) = 4) by (intros x; unfold len; rewrite length_le_bytes; reflexivity).
  destruct (writable_split M (r 2%nat) 4 4 Aw) as [A1 A2].
  assert (N2 : near F 120 M M2).
  { apply near_trans with M1; apply near_frame; rewrite ?L4; clear - EF; lia. }
  assert (Rd : forall p b, readable M p b -> disjoint F 120 p (len b) -> readable M2 p b).
  { intros p b H1 H2. apply (near_readable F 120 M); [exact N2|exact H1|exact H2|reflexivity]. }
  assert (L16n : len n = 16) by (unfold len; rewrite Ln; reflexivity). assert (L16k : len k = 16) by (unfold len; rewrite Lk; reflexivity).
  set (r1 := setr (setr (setr (setr (setr (setr r 6 o) 30 i) 28 (len l)) 29 a) 8 (len ad)) 9 np).
  set (r2 := setr r1 1 (r 1%nat)).
  assert (Hr2 : rok r2).
  { unfold r2, r1. apply rok_set; [|discriminate|apply Hr].
    assert (Ro : len l <= room m l) by (clear; destruct m; cbn [room]; lia).
    repeat (apply rok_set; [|discriminate|unfold fits; clear - Bn Ba Bi Bo Ro; lia]). exact Hr. }
  assert (Hc : xcpre F m r2 M2 kp k n ad l T (skipn 1 (le_bytes 4 (marg m)))).
  { constructor; change (r2 6%nat) with o; change (r2 30%nat) with i; change (r2 28%nat) with (len l);
      change (r2 29%nat) with a; change (r2 8%nat) with (len ad); change (r2 9%nat) with np.
    - exact Hr2.
    - exact Hm.
    - exact EF.
    - clear - EF He; lia.
    - apply (near_writable F 120 M); assumption.
    - rewrite <- EF. apply readable_write_disjoint; [|rewrite !L4; unfold disjoint; clear; lia].
      apply readable_write_self; [|intros _; rewrite EF; discriminate || (unfold NULL; clear; lia)].
      rewrite L4. clear - He. lia.
    - exact Fk.
    - replace (F + 116) with (r 2%nat + 4) by (clear - EF; lia).
      replace (n2b (marg m) :: skipn 1 (le_bytes 4 (marg m))) with (le_bytes 4 (marg m)) by reflexivity.
      apply readable_write_self; [rewrite L4; clear - He; lia|intros _; unfold NULL; clear; lia].
    - apply Rd; [exact Qn|rewrite L16n; exact Dn].
    - exact Ln.
    - exact Bn.
    - apply sub_disjoint, Dn.
    - apply Rd; [exact Qk|rewrite L16k; exact Dk].
    - exact Lk.
    - exact Bk.
    - apply sub_disjoint, Dk.
    - apply Rd; assumption.
    - exact Ba.
    - reflexivity.
    - apply sub_disjoint, Da.
    - apply Rd; assumption.
    - exact Bi.
    - reflexivity.
    - apply sub_disjoint, Di.
    - apply (near_writable F 120 M); assumption.
    - exact Bo.
    - exact Doi.
    - apply sub_disjoint, Do.
    - intros E. destruct (Ht E) as (T1 & T2 & T3 & T4 & T5). assert (LT : len T = 16) by (unfold len; rewrite T2; reflexivity).
      split; [apply Rd; [exact T1|rewrite LT; exact T5]|]. split; [exact T2|]. split; [exact T3|]. split; [exact T4|apply sub_disjoint, T5]. }
  assert (X := core_ok lab Hlab F m r2 M2 kp k n ad l T _ Hc).
  destruct (dd P m (length l) (d_ad P (d_init P k n) ad) l) as [S1 out].
  destruct X as (r' & M' & R & N & E1 & E6). exists r', M'. split; [|split; [|exact E6]].
  - unfold xt_call. eapply runs_bind; [apply runs_memcpy_out; [rewrite L4; exact A1|clear - Hsp; lia]|].
    eapply runs_bind; [apply runs_memcpy_out; [rewrite L4; apply writable_write; exact A2|clear - Hsp; lia]|].
    apply st_call; [exact R|exact E1].
  - change (r2 6%nat) with o in N. apply near_trans with (ideal m M2 o out (d_tag P k S1)).
    + unfold ideal. destruct m; apply near_write; exact N2.
    + apply (near_wider F 96); [discriminate|exact N].
Qed.

(** ** crypto_aead_encrypt *)
Lemma encrypt_call r M c clen m ad npub k mb adb nb kb x : xt_encrypt_pre lab r M c clen m ad npub k mb adb nb kb -> length x = 8%nat ->
  xcall En r (write M clen x) c m ad npub k kb nb adb mb [].
Proof.
  intros [[[V0 Vr Vl Vs Vw] Aw Ae] [Ek En' Qk Qn Qa Qm Wc Wl Dk Dn Da Dm Ov _ _ _ _ _] [C1 C2] [Cl1 Cl2] [M1 M2] [A1 A2] [N1 N2] [K1 K2]] Lx.
  assert (L8 : len x = 8) by (unfold len; rewrite Lx; reflexivity).
  destruct (Ov) as [_ Ov']. specialize (Ov' eq_refl). cbn [no_overlap] in *.
  assert (L16k : len kb = 16) by (unfold len; rewrite Ek; reflexivity). assert (L16n : len nb = 16) by (unfold len; rewrite En'; reflexivity).
  constructor; cbn [room]; try assumption.
  - split; assumption.
  - discriminate.
  - apply writable_write, Vw.
  - apply writable_write, Aw.
  - apply readable_write_disjoint; [exact Qn|rewrite L8, L16n; exact Dn].
  - apply readable_write_disjoint; [exact Qk|rewrite L8, L16k; exact Dk].
  - apply readable_write_disjoint; [exact Qa|rewrite L8; exact Da].
  - apply readable_write_disjoint; [exact Qm|rewrite L8; exact Dm].
  - apply writable_write, Wc.
  - discriminate.
Qed.
Lemma xt_encrypt_ok r M c clen m ad nsec npub k mb adb nb kb : xt_encrypt_pre lab r M c clen m ad npub k mb adb nb kb ->
  xt_aead_returns r (xt_encrypt lab r c clen m (len mb) ad (len adb) nsec npub k) M
    (write (write M clen (to_host LE 8 (len mb + 16))) c (duplex_encrypt P kb nb adb mb)) 0%Z.
Proof.
  intros H. assert (Lx : length (to_host LE 8 (len mb + 16)) = 8%nat) by apply length_to_host.
  assert (Hc := encrypt_call r M c clen m ad npub k mb adb nb kb _ H Lx).
  assert (X := call_ok _ _ _ _ _ _ _ _ _ _ _ _ _ Hc).
  assert (Y := encrypt_dd P kb nb adb mb).
  destruct (dd P En (length mb) (d_ad P (d_init P kb nb) adb) mb) as [S1 out].
  destruct X as (r' & M' & R & [N _] & Vd). exists M'.
  pose proof (q_ib _ _ _ _ _ _ _ _ _ _ _ _ _ Hc) as Bm. pose proof (q_ab _ _ _ _ _ _ _ _ _ _ _ _ _ Hc) as Ba. split.
  - unfold xt_encrypt. eapply runs_bind.
    + replace (add64 (len mb) 16) with (len mb + 16).
      * apply runs_store_ull. apply (ep_clen _ _ _ _ _ _ _ _ _ _ _ _ (xte_common _ _ _ _ _ _ _ _ _ _ _ _ _ H)).
      * symmetry. apply add64_small. clear - Bm. lia.
    + rewrite !trunc_fits by (unfold fits; clear - Bm Ba; lia).
      eapply runs_bind; [exact R|]. rewrite Vd. apply runs_ret.
  - intros a Ha. rewrite (N a Ha). unfold ideal. rewrite Y. reflexivity.
Qed.

(** ** crypto_aead_decrypt *)
Lemma decrypt_call r M m mlen c ad npub k ct adb nb kb x : xt_decrypt_pre lab r M m mlen c ad npub k ct adb nb kb -> length x = 8%nat ->
  xcall De r (write M mlen x) m c ad npub k kb nb adb (ct_body ct) (ct_tag ct) /\ len (ct_body ct) = len ct - 16.
Proof.
  intros [[[V0 Vr Vl Vs Vw] Aw Ae] [Lc Ek En' Qk Qn Qa Qc Wm Wl Dk Dn Da Dc Ov _ _ Dml _ _ _] [M1 M2] [Ml1 Ml2] [C1 C2] [A1 A2] [N1 N2] [K1 K2]] Lx.
  assert (L8 : len x = 8) by (unfold len; rewrite Lx; reflexivity).
  destruct (Ov) as [_ Ov']. specialize (Ov' eq_refl). cbn [no_overlap] in *.
  assert (L16k : len kb = 16) by (unfold len; rewrite Ek; reflexivity). assert (L16n : len nb = 16) by (unfold len; rewrite En'; reflexivity).
  assert (Ect : ct = ct_body ct ++ ct_tag ct) by (symmetry; apply firstn_skipn).
  assert (Lct : (16 <= length ct)%nat) by (unfold len in Lc; clear - Lc; lia).
  assert (Lbn : length (ct_body ct) = (length ct - 16)%nat) by (apply firstn_length_le; clear - Lct; lia).
  assert (Lb' : len (ct_body ct) = len ct - 16) by (unfold len; rewrite Lbn; clear - Lct; lia).
  assert (Lt : length (ct_tag ct) = 16%nat) by (unfold ct_tag; rewrite skipn_length; clear - Lct; lia).
  assert (Lt' : len (ct_tag ct) = 16) by (unfold len; rewrite Lt; reflexivity).
  rewrite Ect in Qc. destruct (readable_app M c _ _ Qc) as [Qb Qt].
  split; [|exact Lb'].
  constructor; cbn [room]; rewrite ?Lb'; try assumption.
  - split; assumption.
  - discriminate.
  - apply writable_write, Vw.
  - apply writable_write, Aw.
  - apply readable_write_disjoint; [exact Qn|rewrite L8, L16n; exact Dn].
  - apply readable_write_disjoint; [exact Qk|rewrite L8, L16k; exact Dk].
  - apply readable_write_disjoint; [exact Qa|rewrite L8; exact Da].
  - apply readable_write_disjoint; [exact Qb|rewrite L8, Lb'; clear - Dc Lc; unfold disjoint in *; lia].
  - clear - C1 Lc. lia.
  - clear - C2 Lc. unfold disjoint in *. lia.
  - apply writable_write. exact Wm.
  - clear - Ov' Lc. unfold disjoint in *. lia.
  - intros _. rewrite Lb' in *.
    split; [apply readable_write_disjoint; [exact Qt|rewrite L8, Lt'; clear - Dc Lc; unfold disjoint in *; lia]|].
    split; [exact Lt|]. split; [clear - C1 Lc; lia|].
    split; [clear - Ov' Lc; unfold disjoint in *; lia|clear - C2 Lc; unfold disjoint in *; lia].
Qed.
Lemma xt_decrypt_ok r M m mlen nsec c ad npub k ct adb nb kb mb t : xt_decrypt_pre lab r M m mlen c ad npub k ct adb nb kb ->
  duplex_open P kb nb adb (ct_body ct) = (mb, t) ->
  xt_aead_returns r (xt_decrypt lab r m mlen nsec c (len ct) ad (len adb) npub k) M
    (write (write M mlen (to_host LE 8 (len ct - 16))) m mb)
    (if (fold16 (xor_into t (ct_tag ct)) =? 0)%N then 0 else -1)%Z.
Proof.
  intros H Ho. assert (Lx : length (to_host LE 8 (len ct - 16)) = 8%nat) by apply length_to_host.
  destruct (decrypt_call r M m mlen c ad npub k ct adb nb kb _ H Lx) as [HC Lb].
  assert (X := call_ok _ _ _ _ _ _ _ _ _ _ _ _ _ HC).
  assert (Y := decrypt_dd P kb nb adb (ct_body ct)). rewrite Ho in Y.
  destruct (dd P De (length (ct_body ct)) (d_ad P (d_init P kb nb) adb) (ct_body ct)) as [S1 out].
  injection Y as -> Et. rewrite Et in X.
  destruct X as (r' & M' & R & [N _] & Vd). exists M'.
  pose proof (q_ab _ _ _ _ _ _ _ _ _ _ _ _ _ HC) as Ba. pose proof (proj1 (xtd_c _ _ _ _ _ _ _ _ _ _ _ _ _ H)) as Bc. split.
  - pose proof (dp_len _ _ _ _ _ _ _ _ _ _ _ _ (xtd_common _ _ _ _ _ _ _ _ _ _ _ _ _ H)) as L16.
    pose proof (dp_mlen _ _ _ _ _ _ _ _ _ _ _ _ (xtd_common _ _ _ _ _ _ _ _ _ _ _ _ _ H)) as Wl.
    unfold xt_decrypt. eapply runs_bind; [apply runs_branch|].
    replace (len ct <? 16) with false by (symmetry; apply N.ltb_ge; exact L16).
    replace (sub64 (len ct) 16) with (len ct - 16) by (symmetry; apply sub64_small; [exact L16|clear - Bc; lia]).
    eapply runs_bind; [apply runs_store_ull; exact Wl|]. eapply runs_bind.
    + apply runs_load_ull with (x := len ct - 16); [|unfold fits; clear - Bc; lia].
      apply readable_write_self; [|intros _; apply Wl; discriminate].
      unfold len at 1. rewrite Lx. exact (proj1 Wl).
    + rewrite !trunc_fits by (unfold fits; clear - Bc Ba; lia). rewrite Lb in R. eapply runs_bind; [exact R|].
      rewrite Vd. unfold verdict. destruct (fold16 (xor_into t (ct_tag ct)) =? 0); apply runs_ret.
  - intros a Ha. rewrite (N a Ha). reflexivity.
Qed.
End top.
