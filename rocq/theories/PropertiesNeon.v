(** * PropertiesNeon.v -- the vector implementations outside the common
    contract (C43).

    The directories avx512 and neon are registered in Impls.v: all general
    theorems hold of them.  Here: the indeterminate registers do not matter
    for any arguments whatever, and what the NEON code does beyond its
    demands -- lengths below 2^32, blocks at multiples of 4. *)
From Coq Require Import Bool Arith NArith ZArith List Lia Init.Byte Strings.Byte ZifyBool ZifyNat ZifyN.
From Verif Require Import Words WordFacts Spec SpecFacts CMem Contract CMemFacts ApiSpec
  ModelRef ModelCommon ModelWords ModelAvx ModelNeon NeonRound Indep NeonFault Impls ImplsOk Demo.
Import ListNotations.
Local Open Scope N_scope.

Lemma p_hash P P' a out inp n M : (forall nr s, P nr s = P' nr s) ->
  com_hash a LE (w64 P LE) out inp n M = com_hash a LE (w64 P' LE) out inp n M.
Proof. intros HP. destruct a; unfold com_hash; apply (p_xof P P' HP). Qed.

(** ** C43 Indeterminate registers

    The compiler hands over registers, or lanes, of arbitrary content.  For
    all arguments and every memory -- within the contract or not -- the
    outcome is the same: return value, memory, trace, or the same error at
    the same place.  (So "u" in the other theorems could be any value.) *)
Theorem C43_neon_registers_irrelevant : forall u u',
  (forall c clen m mlen ad adlen nsec npub k M,
   encrypt_of (AEAD_neon u) LE c clen m mlen ad adlen nsec npub k M =
   encrypt_of (AEAD_neon u') LE c clen m mlen ad adlen nsec npub k M) /\
  (forall m mlen nsec c clen ad adlen npub k M,
   decrypt_of (AEAD_neon u) LE m mlen nsec c clen ad adlen npub k M =
   decrypt_of (AEAD_neon u') LE m mlen nsec c clen ad adlen npub k M) /\
  (forall a out inp inlen M,
   hash_of (HASH_neon u) a LE out inp inlen M = hash_of (HASH_neon u') a LE out inp inlen M).
Proof.
  intros u u'. split; [|split].
  - intros. apply neon_encrypt_any_u.
  - intros. apply neon_decrypt_any_u.
  - intros a out inp inlen M. apply (p_hash (nP u) (nP u')). apply nP_only.
Qed.
Print Assumptions C43_neon_registers_irrelevant.

Theorem C43_avx512_lanes_irrelevant : forall u u',
  (forall c clen m mlen ad adlen nsec npub k M,
   encrypt_of (AEAD_avx512 u) LE c clen m mlen ad adlen nsec npub k M =
   encrypt_of (AEAD_avx512 u') LE c clen m mlen ad adlen nsec npub k M) /\
  (forall m mlen nsec c clen ad adlen npub k M,
   decrypt_of (AEAD_avx512 u) LE m mlen nsec c clen ad adlen npub k M =
   decrypt_of (AEAD_avx512 u') LE m mlen nsec c clen ad adlen npub k M).
Proof.
  intros u u'. split; intros; [apply avx_encrypt_any_u|apply avx_decrypt_any_u].
Qed.
Print Assumptions C43_avx512_lanes_irrelevant.

(** ** C43 Alignment of the NEON code

    [n] bytes at [p] contain a whole block that is not at a multiple of 4. *)
Definition misaligned (p : ptr) (n : N) : Prop := 16 <= n /\ p mod 4 <> 0.

Lemma misaligned_dec p n : misaligned p n \/ aligned p n.
Proof.
  unfold misaligned, aligned. destruct (N.leb_spec 16 n); [|right; intros; lia].
  destruct (N.eq_dec (p mod 4) 0); [right; intros _; assumption|left; split; assumption].
Qed.
Lemma misaligned_not p n : misaligned p n -> ~ aligned p n.
Proof. intros [H1 H2] H. exact (H2 (H H1)). Qed.
Lemma aligned_rule b p n : n < 2 ^ 32 -> aligned p n -> block_rule b p n.
Proof. intros H1 H2 _. split; assumption. Qed.

Local Ltac closing :=
  split; [intros; first [reflexivity|tauto]|];
  split; [intros; first [reflexivity|tauto]|];
  split; [intros; first [reflexivity|tauto]|];
  split; [intros (? & ? & ? & ?); discriminate|tauto].

(** Buffers that meet the common contract, lengths below 2^32: the call
    completes (with the effect of C01, C02) exactly if no buffer is
    misaligned; otherwise it faults at the first misaligned buffer, in the
    order associated data, input text, output text. *)
Theorem C43_neon_encrypt_faults : forall u M c clen m ad nsec npub k mb adb nb kb,
  encrypt_pre (Demands false false false) M c clen m ad npub k mb adb nb kb ->
  len adb < 2 ^ 32 -> len mb < 2 ^ 32 ->
  let run := encrypt_of (AEAD_neon u) LE c clen m (len mb) ad (len adb) nsec npub k M in
  (misaligned ad (len adb) -> run = Bad (ErrAlign ad)) /\
  (~ misaligned ad (len adb) -> misaligned m (len mb) -> run = Bad (ErrAlign m)) /\
  (~ misaligned ad (len adb) -> ~ misaligned m (len mb) -> misaligned c (len mb) -> run = Bad (ErrAlign c)) /\
  ((exists t M' v, run = Done t M' v) <->
   ~ misaligned ad (len adb) /\ ~ misaligned m (len mb) /\ ~ misaligned c (len mb)).
Proof.
  intros u M c clen m ad nsec npub k mb adb nb kb P H1 H2 run.
  destruct (neon_encrypt_fault u M c clen m ad nsec npub k mb adb nb kb P H1 H2) as (Fa & Fm & Fc).
  change (neon_aead_encrypt u c clen m (len mb) ad (len adb) nsec npub k M) with run in Fa, Fm, Fc.
  destruct (misaligned_dec ad (len adb)) as [A|A].
  { specialize (Fa (misaligned_not _ _ A)). rewrite Fa. closing. }
  assert (A' : ~ misaligned ad (len adb)) by (intros X; exact (misaligned_not _ _ X A)).
  destruct (misaligned_dec m (len mb)) as [B|B].
  { specialize (Fm A (misaligned_not _ _ B)). rewrite Fm. closing. }
  assert (B' : ~ misaligned m (len mb)) by (intros X; exact (misaligned_not _ _ X B)).
  destruct (misaligned_dec c (len mb)) as [D|D].
  { specialize (Fc A B (misaligned_not _ _ D)). rewrite Fc. closing. }
  assert (D' : ~ misaligned c (len mb)) by (intros X; exact (misaligned_not _ _ X D)).
  split; [tauto|]. split; [tauto|]. split; [tauto|]. split; [tauto|]. intros _.
  assert (P' : encrypt_pre (aead_demands (AEAD_neon u)) M c clen m ad npub k mb adb nb kb).
  { destruct P. constructor; try assumption; apply aligned_rule; assumption. }
  destruct (encrypt_ok (AEAD_neon u) LE eq_refl M c clen m ad nsec npub k mb adb nb kb P') as (t & M1 & E & _).
  exists t, M1. eexists. exact E.
Qed.
Print Assumptions C43_neon_encrypt_faults.

Theorem C43_neon_decrypt_faults : forall u M m mlen nsec c ad npub k ct adb nb kb,
  decrypt_pre (Demands false false false) M m mlen c ad npub k ct adb nb kb ->
  len adb < 2 ^ 32 -> len ct - 16 < 2 ^ 32 ->
  let run := decrypt_of (AEAD_neon u) LE m mlen nsec c (len ct) ad (len adb) npub k M in
  (misaligned ad (len adb) -> run = Bad (ErrAlign ad)) /\
  (~ misaligned ad (len adb) -> misaligned c (len ct - 16) -> run = Bad (ErrAlign c)) /\
  (~ misaligned ad (len adb) -> ~ misaligned c (len ct - 16) -> misaligned m (len ct - 16) -> run = Bad (ErrAlign m)) /\
  ((exists t M' v, run = Done t M' v) <->
   ~ misaligned ad (len adb) /\ ~ misaligned c (len ct - 16) /\ ~ misaligned m (len ct - 16)).
Proof.
  intros u M m mlen nsec c ad npub k ct adb nb kb P H1 H2 run.
  destruct (neon_decrypt_fault u M m mlen nsec c ad npub k ct adb nb kb P H1 H2) as (Fa & Fm & Fc).
  change (neon_aead_decrypt u m mlen nsec c (len ct) ad (len adb) npub k M) with run in Fa, Fm, Fc.
  destruct (misaligned_dec ad (len adb)) as [A|A].
  { specialize (Fa (misaligned_not _ _ A)). rewrite Fa. closing. }
  assert (A' : ~ misaligned ad (len adb)) by (intros X; exact (misaligned_not _ _ X A)).
  destruct (misaligned_dec c (len ct - 16)) as [B|B].
  { specialize (Fm A (misaligned_not _ _ B)). rewrite Fm. closing. }
  assert (B' : ~ misaligned c (len ct - 16)) by (intros X; exact (misaligned_not _ _ X B)).
  destruct (misaligned_dec m (len ct - 16)) as [D|D].
  { specialize (Fc A B (misaligned_not _ _ D)). rewrite Fc. closing. }
  assert (D' : ~ misaligned m (len ct - 16)) by (intros X; exact (misaligned_not _ _ X D)).
  split; [tauto|]. split; [tauto|]. split; [tauto|]. split; [tauto|]. intros _.
  assert (P' : decrypt_pre (aead_demands (AEAD_neon u)) M m mlen c ad npub k ct adb nb kb).
  { destruct P. constructor; try assumption; apply aligned_rule; assumption. }
  destruct (aead_open kb nb adb (ct_body ct)) as [mb t] eqn:O.
  destruct (decrypt_ok (AEAD_neon u) LE eq_refl M m mlen nsec c ad npub k ct adb nb kb mb t P' O) as (t' & M1 & E & _).
  exists t', M1. eexists. exact E.
Qed.
Print Assumptions C43_neon_decrypt_faults.

(** ** C43 Lengths of 2^32 and more

    "sub" does not set the carry flag that "sbc" reads, so the upper half of
    the length never becomes 0 and the loop over the blocks does not end:
    for no memory does the call return. *)
Theorem C43_neon_long_never_returns : forall u,
  (forall c clen m mlen ad adlen nsec npub k M t M' v,
   mlen < 2 ^ 64 -> adlen < 2 ^ 64 -> 2 ^ 32 <= mlen \/ 2 ^ 32 <= adlen ->
   encrypt_of (AEAD_neon u) LE c clen m mlen ad adlen nsec npub k M <> Done t M' v) /\
  (forall m mlen nsec c clen ad adlen npub k M t M' v,
   16 <= clen -> clen < 2 ^ 64 -> adlen < 2 ^ 64 -> 2 ^ 32 + 16 <= clen \/ 2 ^ 32 <= adlen ->
   decrypt_of (AEAD_neon u) LE m mlen nsec c clen ad adlen npub k M <> Done t M' v).
Proof.
  intros u. split.
  - intros. apply neon_encrypt_never; assumption.
  - intros. apply neon_decrypt_never; assumption.
Qed.
Print Assumptions C43_neon_long_never_returns.

(** The reason is not the bound on the number of steps in the model: the
    loops of aead.c l.17-27, l.50-61 and l.84-96 end for no bound. *)
Theorem C43_neon_loops_never_end : forall f r p q n lo, 2 ^ 32 <= n -> n < 2 ^ 64 ->
  let hi := trunc 32 (shrw n 32) in
  never (while f (fun '(_, _, _, _, f) => is_hi f) n_ad_body (r, p, hi, lo, cmplen hi lo)) /\
  never (while f (fun '(_, _, _, _, _, f) => is_hi f) n_enc_body (r, p, q, hi, lo, cmplen hi lo)) /\
  never (while f (fun '(_, _, _, _, _, f) => is_hi f) n_dec_body (r, p, q, hi, lo, cmplen hi lo)).
Proof.
  intros f r p q n lo H1 H2 hi. pose proof (hi_big n H1 H2) as Hh. fold hi in Hh.
  split; [apply going5_loop|split; [apply going6_enc|apply going6_dec]];
    (unfold going5, going6; rewrite cmplen_hi by apply Hh; split; [exact Hh|reflexivity]).
Qed.
Print Assumptions C43_neon_loops_never_end.

(** Hypotheses met: the demo call (aligned) and the same with the plaintext,
    or the ciphertext buffer, one byte further. *)
Definition demo_enc_off : mem := mem_of
  [ROdata 0x1000 demo_key; ROdata 0x1100 demo_nonce; ROdata 0x1200 demo_msg; ROdata 0x1301 demo_msg;
   RWfree 0x2003 36; RWfree 0x2100 8].
Example C43_hypotheses_met :
  encrypt_pre (Demands false false false) demo_enc 0x2000 0x2100 0x1300 0x1200 0x1100 0x1000 demo_msg demo_ad demo_nonce demo_key /\
  encrypt_pre (Demands false false false) demo_enc_off 0x2003 0x2100 0x1301 0x1200 0x1100 0x1000 demo_msg demo_msg demo_nonce demo_key /\
  decrypt_pre (Demands false false false) (dec_mem demo_ct) 0x2000 0x2100 0x1300 0x1200 0x1100 0x1000 demo_ct demo_ad demo_nonce demo_key /\
  misaligned 0x1301 (len demo_msg) /\ misaligned 0x2003 (len demo_msg) /\
  ~ misaligned 0x1300 (len demo_msg) /\ ~ misaligned 0x1201 (len demo_ad).
Proof.
  split; [apply demo_enc_pre|]. split; [apply encrypt_preb_ok; vm_compute; reflexivity|]. split; [apply demo_dec_pre|].
  split; [split; [vm_compute; discriminate|vm_compute; discriminate]|].
  split; [split; [vm_compute; discriminate|vm_compute; discriminate]|].
  split; intros [H1 H2]; [apply H2; reflexivity|apply H1; reflexivity].
Qed.
