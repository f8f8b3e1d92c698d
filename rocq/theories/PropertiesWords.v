(** * PropertiesWords.v -- properties of the word representations: round
    functions, constants, conversions, comparison (C23, C25, C26, C27,
    C29, C36). *)
From Coq Require Import Bool Arith NArith ZArith List Lia Init.Byte Strings.Byte ZifyBool ZifyNat ZifyN.
From Verif Require Import Words WordFacts Spec SpecFacts CMem Contract CMemFacts ApiSpec ModelRef StateRep
  RefRound RefPrim RefAeadDec ModelCommon ModelWords WordLaws WordInst WordInstBi ComPrim Impls ImplsOk
  Demo Properties.
Import ListNotations.
Local Open Scope N_scope.

(** ** What the statements are about *)

(** The five words an implementation computes with when it loads the 40
    bytes [S] with its own LOAD, and the 40 bytes its own STORE writes. *)
Definition load_state (e : endian) (o : wordops) (S : bytes) : state :=
  let w i := w_in o (from_host e (firstn 8 (skipn (8 * i) S))) in
  St (w 0%nat) (w 1%nat) (w 2%nat) (w 3%nat) (w 4%nat).
Definition store_state (e : endian) (o : wordops) (s : state) : bytes :=
  let b x := to_host e 8 (w_out o x) in
  b (X0 s) ++ b (X1 s) ++ b (X2 s) ++ b (X3 s) ++ b (X4 s).

(** [o] is the word arithmetic of a registered directory on a host it
    supports. *)
Inductive supported : endian -> wordops -> Prop :=
| sup_word w e : word_host w e = true -> supported e (word_ops w e)
| sup_low w e : low_host w e = true -> supported e (low_ops w e).

(** ** Proofs *)

Lemma supported_laws e o : supported e o -> exists cn, word_laws cn e o.
Proof. intros [w h H|w h H]; [apply word_laws_ok, H|apply low_laws_ok, H]. Qed.

Lemma length_word (S : bytes) i : length S = 40%nat -> (i < 5)%nat -> length (firstn 8 (skipn (8 * i) S)) = 8%nat.
Proof. intros H Hi. rewrite firstn_length, skipn_length. lia. Qed.

Lemma load_state_ok cn e o S : word_laws cn e o -> length S = 40%nat ->
  wf (load_state e o S) /\ cs cn (load_state e o S) = state_of_bytes S.
Proof.
  intros L H. unfold load_state, state_of_bytes, word_of, cs, wf. cbn [X0 X1 X2 X3 X4].
  destruct (l_in cn e o L _ (length_word S 0 H ltac:(lia))) as [A0 B0].
  destruct (l_in cn e o L _ (length_word S 1 H ltac:(lia))) as [A1 B1].
  destruct (l_in cn e o L _ (length_word S 2 H ltac:(lia))) as [A2 B2].
  destruct (l_in cn e o L _ (length_word S 3 H ltac:(lia))) as [A3 B3].
  destruct (l_in cn e o L _ (length_word S 4 H ltac:(lia))) as [A4 B4].
  rewrite B0, B1, B2, B3, B4. auto 10.
Qed.
Lemma store_state_ok cn e o s : word_laws cn e o -> wf s -> store_state e o s = bytes_of_state (cs cn s).
Proof.
  intros L (H0 & H1 & H2 & H3 & H4). unfold store_state, bytes_of_state, cs. cbn [X0 X1 X2 X3 X4].
  rewrite !(l_out cn e o L) by assumption. reflexivity.
Qed.
Lemma perm_ok cn e o nr S : word_laws cn e o -> length S = 40%nat -> nr = 12 \/ nr = 8 \/ nr = 6 ->
  store_state e o (w_P o nr (load_state e o S)) = p (N.to_nat nr) S.
Proof.
  intros L H Hn. destruct (load_state_ok cn e o S L H) as [W E]. unfold p. rewrite <- E.
  assert (Q : wf (w_P o nr (load_state e o S)) /\
    cs cn (w_P o nr (load_state e o S)) = perm (N.to_nat nr) (cs cn (load_state e o S))).
  { destruct Hn as [->|[->| ->]]; [apply (l_P12 cn e o L), W|apply (l_P8 cn e o L), W|apply (l_P6 cn e o L), W]. }
  destruct Q as [W' E']. rewrite (store_state_ok cn), E' by assumption. reflexivity.
Qed.

(** ** C23 Every round function computes the Ascon permutation *)
Theorem C23_permutations : forall e o nr S, supported e o -> length S = 40%nat ->
  nr = 12 \/ nr = 8 \/ nr = 6 ->
  store_state e o (w_P o nr (load_state e o S)) = p (N.to_nat nr) S.
Proof. intros e o nr S H HS Hn. destruct (supported_laws e o H) as (cn & L). apply (perm_ok cn); assumption. Qed.
Print Assumptions C23_permutations.
Theorem C23_reference_permutations : forall S, length S = 40%nat ->
  bytes_of_state (P12 (state_of_bytes S)) = p 12 S /\
  bytes_of_state (P8 (state_of_bytes S)) = p 8 S /\
  bytes_of_state (P6 (state_of_bytes S)) = p 6 S.
Proof.
  intros S H. unfold p.
  assert (W : wf (state_of_bytes S)).
  { repeat split; apply fits_le_num_8, length_word; auto; lia. }
  rewrite P12_perm, P8_perm, P6_perm by exact W. auto.
Qed.
Print Assumptions C23_reference_permutations.
Example C23_supported_cases : supported LE (opt64 LE) /\ supported BE (opt64 BE) /\ supported BE (opt32 BE) /\
  supported LE (bi32 LE) /\ supported LE (bi32_lowreg LE) /\ supported LE (bi8 LE) /\
  supported BE (opt64_lowsize BE) /\ supported LE (opt32_lowsize LE) /\ supported LE (bi32_lowsize LE).
Proof.
  repeat apply conj.
  - apply (sup_word W_opt64 LE). reflexivity.
  - apply (sup_word W_opt64 BE). reflexivity.
  - apply (sup_word W_opt32 BE). reflexivity.
  - apply (sup_word W_bi32 LE). reflexivity.
  - apply (sup_word W_bi32_lowreg LE). reflexivity.
  - apply (sup_word W_bi8 LE). reflexivity.
  - apply (sup_low L_opt64 BE). reflexivity.
  - apply (sup_low L_opt32 LE). reflexivity.
  - apply (sup_low L_bi32 LE). reflexivity.
Qed.

(** ** C25 Precomputed initial states *)
Lemma xs_bytes s : xs s = bytes_of_state s.
Proof. reflexivity. Qed.
Theorem C25_precomputed_initial_states : forall e o, supported e o ->
  store_state e o (c_hash o) = p 12 (iv_hash256 ++ zeros 32) /\
  store_state e o (c_xof o) = p 12 (iv_xof128 ++ zeros 32).
Proof.
  intros e o H. destruct (supported_laws e o H) as (cn & L).
  destruct (l_hash cn e o L) as [Wh Eh]. destruct (l_xof cn e o L) as [Wx Ex].
  rewrite !(store_state_ok cn) by assumption. rewrite <- !xs_bytes. split; [exact Eh|exact Ex].
Qed.
Print Assumptions C25_precomputed_initial_states.
Theorem C25_initial_words : forall e o, supported e o ->
  to_host e 8 (w_out o (c_aead o)) = iv_aead128 /\
  to_host e 8 (w_out o (c_mac o)) = iv_mac /\
  to_host e 8 (w_out o (c_prf o)) = iv_prf /\
  forall n, (n <= 16)%nat ->
    to_host e 8 (w_out o (N.lxor (c_prfs o) (w_prfs_mlen o (N.of_nat n)))) = iv_prfs n.
Proof.
  intros e o H. destruct (supported_laws e o H) as (cn & L).
  destruct (l_aead cn e o L) as [A1 A2]. destruct (l_mac cn e o L) as [B1 B2]. destruct (l_prf cn e o L) as [D1 D2].
  rewrite !(l_out cn e o L) by assumption. split; [exact A2|]. split; [exact B2|]. split; [exact D2|].
  intros n Hn. destruct (l_prfs cn e o L n Hn) as [E1 E2]. rewrite (l_out cn e o L) by assumption. exact E2.
Qed.
Print Assumptions C25_initial_words.

(** ** C26 Conversions are mutually inverse and linear *)
Lemma host_num e x : fits 64 x -> exists l, length l = 8%nat /\ x = from_host e l.
Proof. intros H. exists (to_host e 8 x). split; [apply length_to_host|]. symmetry. apply from_to_host. exact H. Qed.
Lemma to_host_inj e x y : fits 64 x -> fits 64 y -> to_host e 8 x = to_host e 8 y -> x = y.
Proof. intros Hx Hy E. rewrite <- (from_to_host e 8 x Hx), E. apply from_to_host, Hy. Qed.
Lemma cn_inj cn e o a b : word_laws cn e o -> fits 64 a -> fits 64 b -> cn a = cn b -> a = b.
Proof.
  intros L Ha Hb E. apply N.lxor_eq. apply (l_zero cn e o L); [apply fits_lxor; assumption|].
  rewrite (l_xor cn e o L), E. apply N.lxor_nilpotent.
Qed.
Lemma w_in_fits cn e o x : word_laws cn e o -> fits 64 x -> fits 64 (w_in o x).
Proof. intros L H. destruct (host_num e x H) as (l & Hl & ->). apply (l_in cn e o L l Hl). Qed.
Lemma le_num_bytes n x : fits (8 * N.of_nat n) x -> le_num (le_bytes n x) = x.
Proof. intros H. rewrite le_num_le_bytes. apply trunc_fits, H. Qed.
Lemma le_num_from_host l : length l = 8%nat -> le_bytes 8 (le_num l) = l.
Proof. apply le_bytes_le_num. Qed.
Lemma out_in cn e o x : word_laws cn e o -> fits 64 x -> w_out o (w_in o x) = x.
Proof.
  intros L H. pose proof (w_in_fits cn e o x L H) as F.
  apply (to_host_inj e); [apply (l_outf cn e o L), F|exact H|].
  rewrite (l_out cn e o L) by exact F. destruct (host_num e x H) as (l & Hl & ->).
  destruct (l_in cn e o L l Hl) as [_ ->]. rewrite le_num_from_host by exact Hl.
  symmetry. destruct e; cbn [from_host to_host].
  - apply le_bytes_le_num, Hl.
  - rewrite le_bytes_le_num by (rewrite rev_length; exact Hl). apply rev_involutive.
Qed.
Lemma w_in_inj cn e o x y : word_laws cn e o -> fits 64 x -> fits 64 y -> w_in o x = w_in o y -> x = y.
Proof. intros L Hx Hy E. rewrite <- (out_in cn e o x L Hx), E. apply (out_in cn e o y L Hy). Qed.
Lemma in_out cn e o w : word_laws cn e o -> fits 64 w -> w_in o (w_out o w) = w.
Proof.
  intros L H. pose proof (l_outf cn e o L w H) as F.
  apply (cn_inj cn e o); [exact L|apply (w_in_fits cn e o _ L F)|exact H|].
  rewrite <- (from_to_host e 8 (w_out o w) F), (l_out cn e o L) by exact H.
  destruct (l_in cn e o L (le_bytes 8 (cn w)) (length_le_bytes 8 _)) as [_ ->].
  apply le_num_bytes. apply (l_fits cn e o L).
Qed.
Lemma from_host_lxor e l1 l2 : length l1 = 8%nat -> length l2 = 8%nat ->
  exists l, length l = 8%nat /\ N.lxor (from_host e l1) (from_host e l2) = from_host e l /\
    le_num l = N.lxor (le_num l1) (le_num l2).
Proof.
  intros H1 H2. exists (xor_into l1 l2). split; [rewrite length_xor_into; exact H1|].
  assert (X : forall a b, length a = 8%nat -> length b = 8%nat -> le_num (xor_into a b) = N.lxor (le_num a) (le_num b)).
  { intros a b Ha Hb. rewrite <- (le_num_bytes 8 (N.lxor (le_num a) (le_num b)))
      by (apply fits_lxor; apply fits_le_num_8; assumption).
    f_equal. rewrite <- (le_num_from_host a Ha) at 1. rewrite <- (le_num_from_host b Hb) at 1.
    symmetry. apply le_bytes_lxor. }
  split; [|apply X; assumption].
  destruct e; cbn [from_host]; [symmetry; apply X; assumption|].
  rewrite <- X by (rewrite rev_length; assumption). f_equal.
  clear X. revert l2 H2. rewrite <- H1. clear H1. 
  induction l1 as [|a l1 IH]; intros [|b l2] H; try discriminate; [reflexivity|].
  cbn [xor_into rev]. rewrite <- IH by (cbn in H; lia).
  assert (Y : forall x y c d, length x = length y -> xor_into (x ++ [c]) (y ++ [d]) = xor_into x y ++ [bxor c d]).
  { induction x as [|u x IHx]; intros [|v y] c d Hxy; try discriminate; [reflexivity|].
    cbn [app xor_into]. rewrite IHx by (cbn in Hxy; lia). reflexivity. }
  apply Y. rewrite !rev_length. cbn in H. lia.
Qed.
Lemma w_in_lxor cn e o x y : word_laws cn e o -> fits 64 x -> fits 64 y ->
  w_in o (N.lxor x y) = N.lxor (w_in o x) (w_in o y).
Proof.
  intros L Hx Hy. apply (cn_inj cn e o); [exact L| | |].
  - apply (w_in_fits cn e o _ L). apply fits_lxor; assumption.
  - apply fits_lxor; apply (w_in_fits cn e o _ L); assumption.
  - rewrite (l_xor cn e o L).
    destruct (host_num e x Hx) as (l1 & H1 & ->). destruct (host_num e y Hy) as (l2 & H2 & ->).
    destruct (from_host_lxor e l1 l2 H1 H2) as (l & Hl & -> & E).
    destruct (l_in cn e o L l1 H1) as [_ ->]. destruct (l_in cn e o L l2 H2) as [_ ->].
    destruct (l_in cn e o L l Hl) as [_ ->]. exact E.
Qed.
Theorem C26_conversions : forall e o, supported e o ->
  (forall x, x < 2 ^ 64 -> w_in o x < 2 ^ 64 /\ w_out o x < 2 ^ 64) /\
  (forall x, x < 2 ^ 64 -> w_out o (w_in o x) = x) /\
  (forall x, x < 2 ^ 64 -> w_in o (w_out o x) = x) /\
  (forall x y, x < 2 ^ 64 -> y < 2 ^ 64 -> w_in o (N.lxor x y) = N.lxor (w_in o x) (w_in o y)) /\
  (forall x y, x < 2 ^ 64 -> y < 2 ^ 64 -> w_out o (N.lxor x y) = N.lxor (w_out o x) (w_out o y)).
Proof.
  intros e o H. destruct (supported_laws e o H) as (cn & L).
  split; [|split; [|split; [|split]]].
  - intros x Hx. split; [apply (w_in_fits cn e o x L Hx)|apply (l_outf cn e o L x Hx)].
  - intros x Hx. apply (out_in cn e o x L Hx).
  - intros x Hx. apply (in_out cn e o x L Hx).
  - intros x y Hx Hy. apply (w_in_lxor cn e o x y L Hx Hy).
  - intros x y Hx Hy.
    pose proof (l_outf cn e o L x Hx) as Fx. pose proof (l_outf cn e o L y Hy) as Fy.
    apply (w_in_inj cn e o); [exact L|apply (l_outf cn e o L), fits_lxor; assumption|apply fits_lxor; assumption|].
    rewrite (w_in_lxor cn e o _ _ L Fx Fy), !(in_out cn e o _ L); auto. apply fits_lxor; assumption.
Qed.
Print Assumptions C26_conversions.
Example C26_not_trivial : w_in (bi32 LE) 0x2 = 0x100000000 /\ w_in (bi8 LE) 0x2 = 0x100.
Proof. vm_compute. auto. Qed.

(** ** C27 Results do not depend on the host byte order *)
Theorem C27_encrypt_both_hosts : forall i M1 M2 c1 c2 l1 l2 m1 m2 ad1 ad2 ns1 ns2 n1 n2 k1 k2 mb adb nb kb,
  aead_host i LE = true -> aead_host i BE = true ->
  encrypt_pre (aead_demands i) M1 c1 l1 m1 ad1 n1 k1 mb adb nb kb ->
  encrypt_pre (aead_demands i) M2 c2 l2 m2 ad2 n2 k2 mb adb nb kb ->
  exists t1 t2 M1' M2' ct,
    encrypt_of i LE c1 l1 m1 (len mb) ad1 (len adb) ns1 n1 k1 M1 = Done t1 M1' 0%Z /\
    encrypt_of i BE c2 l2 m2 (len mb) ad2 (len adb) ns2 n2 k2 M2 = Done t2 M2' 0%Z /\
    len ct = len mb + 16 /\ readable M1' c1 ct /\ readable M2' c2 ct.
Proof. intros i; intros. eapply C22_encrypt_agree; eassumption. Qed.
Print Assumptions C27_encrypt_both_hosts.
Theorem C27_decrypt_both_hosts : forall i M1 M2 m1 m2 l1 l2 ns1 ns2 c1 c2 ad1 ad2 n1 n2 k1 k2 ct adb nb kb,
  aead_host i LE = true -> aead_host i BE = true ->
  decrypt_pre (aead_demands i) M1 m1 l1 c1 ad1 n1 k1 ct adb nb kb ->
  decrypt_pre (aead_demands i) M2 m2 l2 c2 ad2 n2 k2 ct adb nb kb ->
  exists t1 t2 M1' M2' r mb,
    decrypt_of i LE m1 l1 ns1 c1 (len ct) ad1 (len adb) n1 k1 M1 = Done t1 M1' r /\
    decrypt_of i BE m2 l2 ns2 c2 (len ct) ad2 (len adb) n2 k2 M2 = Done t2 M2' r /\
    len mb = len ct - 16 /\ readable M1' m1 mb /\ readable M2' m2 mb.
Proof. intros i; intros. eapply C22_decrypt_agree; eassumption. Qed.
Print Assumptions C27_decrypt_both_hosts.
Theorem C27_hash_both_hosts : forall i a M1 M2 o1 o2 in1 in2 l,
  hash_host i LE = true -> hash_host i BE = true ->
  readable M1 in1 l -> writable M1 o1 (hash_len a) -> null_rule (no_null (hash_demands i)) in1 ->
  readable M2 in2 l -> writable M2 o2 (hash_len a) -> null_rule (no_null (hash_demands i)) in2 ->
  exists t1 t2 M1' M2' d,
    hash_of i a LE o1 in1 (len l) M1 = Done t1 M1' 0%Z /\ hash_of i a BE o2 in2 (len l) M2 = Done t2 M2' 0%Z /\
    len d = hash_len a /\ readable M1' o1 d /\ readable M2' o2 d.
Proof. intros i a; intros. eapply C22_hash_agree; eassumption. Qed.
Print Assumptions C27_hash_both_hosts.
Theorem C27_prf_both_hosts : forall i a M1 M2 o1 o2 n in1 in2 l k1 k2 kb,
  key_host i a LE = true -> key_host i a BE = true -> is16 kb -> below (key_inmax a) (len l) -> n <= key_outmax a ->
  readable M1 k1 kb -> readable M1 in1 l -> out_room (key_demands i a) M1 o1 n ->
  readable M2 k2 kb -> readable M2 in2 l -> out_room (key_demands i a) M2 o2 n ->
  exists t1 t2 M1' M2' d,
    prf_of i a LE o1 n in1 (len l) k1 M1 = Done t1 M1' 0%Z /\
    prf_of i a BE o2 n in2 (len l) k2 M2 = Done t2 M2' 0%Z /\
    len d = n /\ readable M1' o1 d /\ readable M2' o2 d.
Proof. intros i a; intros. eapply C22_prf_agree; eassumption. Qed.
Print Assumptions C27_prf_both_hosts.
(** The portable implementations. *)
Example C27_portable : forall e, aead_host AEAD_ref e = true /\ aead_host (AEAD_word W_opt64) e = true /\
  aead_host (AEAD_word W_opt32) e = true /\ hash_host (HASH_low L_opt32) e = true /\ key_host (KEY_word W_opt64) Mac e = true.
Proof. intros []; repeat split. Qed.
(** Byte order does matter to the words: the conversion is not the
    identity on a big-endian host. *)
Example C27_words_differ : w_in (opt64 LE) 1 = 1 /\ w_in (opt64 BE) 1 = 2 ^ 56.
Proof. vm_compute. auto. Qed.

(** ** C29 Tag comparison *)

(** Accumulating the differences of two byte strings and turning the
    accumulator into a verdict (ref aead.c, prf.c, prfs.c, src/prf.c,
    src/prfs.c): [diff_loop] compares memory with a local array,
    [diff_loop_mem] two arrays in memory. *)
Theorem C29_byte_comparison : forall M a l t, readable M a l -> length l = length t ->
  exists tr, (d <- diff_loop a t ;; ret (verdict d)) M =
    Done tr M (if list_eq_dec Byte.byte_eq_dec t l then 0 else -1)%Z.
Proof.
  intros M a l t R H. rewrite <- (verdict_diff l t H).
  apply (runs_bind (diff_loop a t) (fun d => ret (verdict d)) M M M (diff_acc 0 l t)).
  - apply runs_diff_loop; assumption.
  - apply runs_ret.
Qed.
Print Assumptions C29_byte_comparison.
(** word.h: NOTZERO of the two tag words xored with the expected ones. *)
Theorem C29_word_comparison : forall t0 t1 u0 u1,
  t0 < 2 ^ 64 -> t1 < 2 ^ 64 -> u0 < 2 ^ 64 -> u1 < 2 ^ 64 ->
  (NOTZERO (N.lxor t0 u0) (N.lxor t1 u1) = 0%Z <-> t0 = u0 /\ t1 = u1) /\
  (NOTZERO (N.lxor t0 u0) (N.lxor t1 u1) = (-1)%Z <-> ~ (t0 = u0 /\ t1 = u1)).
Proof.
  intros t0 t1 u0 u1 A B D E. rewrite NOTZERO_ok by (apply fits_lxor; assumption).
  assert (X : forall x y, (N.lxor x y =? 0) = true <-> x = y).
  { intros x y. rewrite N.eqb_eq. apply N.lxor_eq_0_iff. }
  destruct (N.lxor t0 u0 =? 0) eqn:E0, (N.lxor t1 u1 =? 0) eqn:E1; cbn [andb];
    rewrite <- (X t0 u0), <- (X t1 u1), E0, E1; intuition congruence.
Qed.
Print Assumptions C29_word_comparison.

(** ** C36 Loop and unrolled permutations agree *)

(** For any round function (of the 64-bit, the 32-bit interleaved and the
    8-bit interleaved word formats), the do-while loop with the directory's
    START, INC, END and constants leaves the loop by itself ([fuel] only
    has to be large enough) and has applied exactly the unrolled rounds. *)
Theorem C36_loop_is_unrolled_64 : forall ROUND s fuel, (12 <= fuel)%nat ->
  PROUNDS fuel ROUND w64_RC w64_INC w64_END (w64_START 12) s = P12ROUNDS ROUND w64_RCk s /\
  PROUNDS fuel ROUND w64_RC w64_INC w64_END (w64_START 8) s = P8ROUNDS ROUND w64_RCk s /\
  PROUNDS fuel ROUND w64_RC w64_INC w64_END (w64_START 6) s = P6ROUNDS ROUND w64_RCk s.
Proof.
  intros R s fuel H. split; [|split].
  - rewrite (PROUNDS_steps _ _ _ _ 11) by (lia || reflexivity). reflexivity.
  - rewrite (PROUNDS_steps _ _ _ _ 7) by (lia || reflexivity). reflexivity.
  - rewrite (PROUNDS_steps _ _ _ _ 5) by (lia || reflexivity). reflexivity.
Qed.
Print Assumptions C36_loop_is_unrolled_64.
Theorem C36_loop_is_unrolled_bi32 : forall ROUND s fuel, (12 <= fuel)%nat ->
  PROUNDS fuel ROUND bi32_RC bi32_INC bi32_END (bi32_START 12) s = P12ROUNDS ROUND bi32_RCk s /\
  PROUNDS fuel ROUND bi32_RC bi32_INC bi32_END (bi32_START 8) s = P8ROUNDS ROUND bi32_RCk s /\
  PROUNDS fuel ROUND bi32_RC bi32_INC bi32_END (bi32_START 6) s = P6ROUNDS ROUND bi32_RCk s.
Proof.
  intros R s fuel H. split; [|split].
  - rewrite (PROUNDS_steps _ _ _ _ 11) by (lia || reflexivity). reflexivity.
  - rewrite (PROUNDS_steps _ _ _ _ 7) by (lia || reflexivity). reflexivity.
  - rewrite (PROUNDS_steps _ _ _ _ 5) by (lia || reflexivity). reflexivity.
Qed.
Print Assumptions C36_loop_is_unrolled_bi32.
(** And so a looping directory and an unrolling one compute the same bytes. *)
Theorem C36_same_permutation : forall e e' o o' nr S, supported e o -> supported e' o' -> length S = 40%nat ->
  nr = 12 \/ nr = 8 \/ nr = 6 ->
  store_state e o (w_P o nr (load_state e o S)) = store_state e' o' (w_P o' nr (load_state e' o' S)).
Proof. intros. rewrite !C23_permutations by assumption. reflexivity. Qed.
Print Assumptions C36_same_permutation.
