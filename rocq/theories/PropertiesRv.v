(** * PropertiesRv.v -- the RISC-V implementations (C44).

    asm_rv32i, asm_rv32b, asm_fsr_rv32b and asm_bi32_rv32b: crypto_aead_encrypt
    and crypto_aead_decrypt in C around ascon_core in assembly.  For all
    texts, keys, nonces, memory contents and placements that meet
    [rv_encrypt_pre] or [rv_decrypt_pre] of RvSpec.v, any contents of the
    registers and any addresses chosen by the linker. *)
From Coq Require Import Bool Arith NArith ZArith List Lia Init.Byte Strings.Byte ZifyBool ZifyNat ZifyN.
From Verif Require Import Words WordFacts Spec SpecFacts Spec12 Spec12Facts ModelRv CMem Contract CMemFacts ApiSpec
  RvFacts RvRound RvMode RvCore RvInst RvLaws RvSpec RvTop RvFinal Demo.
Import ListNotations.
Local Open Scope N_scope.

Section calls.
Variables (D : rv_dir) (e : env).
Let V := rv_model D.
Let P := rv_alg D.

(** ** C44 Encryption

    *clen is the length of the text plus 16, c gets ciphertext and tag of
    the algorithm of the directory, nothing else changes but the 80 bytes
    of stack; the call returns 0. *)
Lemma labels r M : rv_env V e r M -> forall n, fits 32 (lab e n).
Proof. intros H n. exact (re_labels _ _ _ _ H n). Qed.
Lemma encrypt_any r M c clen m ad nsec npub k mb adb nb kb : rv_encrypt_pre V e r M c clen m ad npub k mb adb nb kb ->
  rv_returns r (rv_encrypt V e r c clen m (len mb) ad (len adb) nsec npub k) M
    (write (write M clen (to_host LE 8 (len mb + 16))) c (duplex_encrypt P kb nb adb mb)) 0%Z.
Proof.
  intros H. exact (rv_encrypt_ok _ _ _ V P (rv_laws D) e (labels r M (xe_env _ _ _ _ _ _ _ _ _ _ _ _ _ _ H)) r M c clen m ad nsec npub k mb adb nb kb H).
Qed.
Lemma decrypt_any r M m mlen nsec c ad npub k ct adb nb kb mb t : rv_decrypt_pre V e r M m mlen c ad npub k ct adb nb kb ->
  duplex_open P kb nb adb (ct_body ct) = (mb, t) ->
  rv_returns r (rv_decrypt V e r m mlen nsec c (len ct) ad (len adb) npub k) M
    (write (write M mlen (to_host LE 8 (len ct - 16))) m mb)
    (if rv_accepts D t (ct_tag ct) then 0 else -1)%Z.
Proof.
  intros H O. rewrite <- accepts_ok by exact (rv_tag_length D _ _ _ _ _ _ O).
  exact (rv_decrypt_ok _ _ _ V P (rv_laws D) e (labels r M (xd_env _ _ _ _ _ _ _ _ _ _ _ _ _ _ H)) r M m mlen nsec c ad npub k ct adb nb kb mb t H O).
Qed.
End calls.

Theorem C44_encrypt : forall D e r M c clen m ad nsec npub k mb adb nb kb,
  rv_encrypt_pre (rv_model D) e r M c clen m ad npub k mb adb nb kb ->
  rv_returns r (rv_encrypt (rv_model D) e r c clen m (len mb) ad (len adb) nsec npub k) M
    (write (write M clen (to_host LE 8 (len mb + 16))) c (duplex_encrypt (rv_alg D) kb nb adb mb)) 0%Z.
Proof. intros D e. exact (encrypt_any D e). Qed.
Print Assumptions C44_encrypt.

(** asm_rv32i computes Ascon-AEAD128 (Spec.v). *)
Theorem C44_rv32i_standard : forall e r M c clen m ad nsec npub k mb adb nb kb,
  rv_encrypt_pre rv32i e r M c clen m ad npub k mb adb nb kb ->
  rv_returns r (rv_encrypt rv32i e r c clen m (len mb) ad (len adb) nsec npub k) M
    (write (write M clen (to_host LE 8 (len mb + 16))) c (aead_encrypt kb nb adb mb)) 0%Z.
Proof.
  intros e r M c clen m ad nsec npub k mb adb nb kb H. rewrite <- duplex_encrypt_aead128.
  exact (encrypt_any RV32I e r M c clen m ad nsec npub k mb adb nb kb H).
Qed.
Print Assumptions C44_rv32i_standard.

(** The other three compute Ascon-128a v1.2, which is another function: for
    these 16-byte keys and nonces already the tags of the empty text differ. *)
Theorem C44_others_not_standard : forall D, D <> RV32I ->
  rv_alg D = ascon128a_v12 /\
  duplex_encrypt (rv_alg D) demo_key demo_nonce [] [] <> aead_encrypt demo_key demo_nonce [] [].
Proof.
  intros D H. destruct D; [congruence|..]; (split; [reflexivity|]);
  rewrite <- duplex_encrypt_aead128; vm_compute; discriminate.
Qed.
Print Assumptions C44_others_not_standard.

(** ** C44 Decryption

    *mlen is the length of the ciphertext minus 16, m gets the plaintext --
    also if the tag is wrong -- and the result is 0 exactly if the tag is
    accepted: a condition on the 32-bit XOR of the four words of the
    difference of the tags, not on their equality ([rv_accepts]). *)
Theorem C44_decrypt : forall D e r M m mlen nsec c ad npub k ct adb nb kb mb t,
  rv_decrypt_pre (rv_model D) e r M m mlen c ad npub k ct adb nb kb ->
  duplex_open (rv_alg D) kb nb adb (ct_body ct) = (mb, t) ->
  rv_returns r (rv_decrypt (rv_model D) e r m mlen nsec c (len ct) ad (len adb) npub k) M
    (write (write M mlen (to_host LE 8 (len ct - 16))) m mb)
    (if rv_accepts D t (ct_tag ct) then 0 else -1)%Z.
Proof. intros D e. exact (decrypt_any D e). Qed.
Print Assumptions C44_decrypt.

(** Fewer than 16 bytes: the length 0 and the result -1; no other access. *)
Theorem C44_short : forall D e r M m mlen nsec c clen ad adlen npub k,
  clen < 16 -> writable M mlen 8 ->
  runs (rv_decrypt (rv_model D) e r m mlen nsec c clen ad adlen npub k) M (write M mlen (to_host LE 8 0)) (-1)%Z.
Proof.
  intros D e r M m mlen nsec c clen ad adlen npub k H HW. unfold rv_decrypt.
  eapply runs_bind; [apply runs_branch|]. replace (clen <? 16) with true by (symmetry; apply N.ltb_lt, H).
  eapply runs_bind; [apply runs_store_ull; exact HW|apply runs_ret].
Qed.
Print Assumptions C44_short.

(** Every genuine ciphertext is decrypted and accepted. *)
Theorem C44_roundtrip : forall D e r M m mlen nsec c ad npub k adb nb kb mb,
  rv_decrypt_pre (rv_model D) e r M m mlen c ad npub k (duplex_encrypt (rv_alg D) kb nb adb mb) adb nb kb ->
  rv_returns r (rv_decrypt (rv_model D) e r m mlen nsec c (len mb + 16) ad (len adb) npub k) M
    (write (write M mlen (to_host LE 8 (len mb))) m mb) 0%Z.
Proof.
  intros D e r M m mlen nsec c ad npub k adb nb kb mb H.
  destruct (duplex_roundtrip (rv_alg D) (rv_plen D) kb nb adb mb) as [L O].
  set (ct := duplex_encrypt (rv_alg D) kb nb adb mb) in *.
  assert (X := C44_decrypt D e r M m mlen nsec c ad npub k ct adb nb kb mb _ H O).
  assert (Lt : length (ct_tag ct) = 16%nat) by exact (rv_tag_length D _ _ _ _ _ _ O).
  replace (rv_accepts D (ct_tag ct) (ct_tag ct)) with true in X.
  - replace (len ct) with (len mb + 16) in X by (unfold len; rewrite L; clear; lia).
    replace (len mb + 16 - 16) with (len mb) in X by (clear; lia). exact X.
  - assert (A := accepts_twice D (ct_tag ct) (zeros 8) Lt eq_refl).
    replace (xor_into (ct_tag ct) (zeros 8 ++ zeros 8)) with (ct_tag ct) in A; [symmetry; exact A|].
    change (zeros 8 ++ zeros 8) with (zeros 16). symmetry. apply xor_into_zeros_r.
Qed.
Print Assumptions C44_roundtrip.

(** ** C44 Forgeries

    Take the ciphertext of any message under any key, and XOR the same 8
    bytes into both halves of its tag: every one of the four
    implementations accepts it.  So from one ciphertext anyone obtains
    2^64 - 1 others without knowing the key: the tag comparison of
    SP 800-232 is not implemented. *)
Theorem C44_forgery : forall D e r M m mlen nsec c ad npub k adb nb kb mb d,
  length d = 8%nat ->
  let genuine := duplex_encrypt (rv_alg D) kb nb adb mb in
  let forged := ct_body genuine ++ xor_into (ct_tag genuine) (d ++ d) in
  rv_decrypt_pre (rv_model D) e r M m mlen c ad npub k forged adb nb kb ->
  rv_returns r (rv_decrypt (rv_model D) e r m mlen nsec c (len forged) ad (len adb) npub k) M
    (write (write M mlen (to_host LE 8 (len mb))) m mb) 0%Z /\
  (forged = genuine -> d = zeros 8).
Proof.
  intros D e r M m mlen nsec c ad npub k adb nb kb mb d Hd. cbv zeta.
  destruct (duplex_roundtrip (rv_alg D) (rv_plen D) kb nb adb mb) as [L O].
  set (ct := duplex_encrypt (rv_alg D) kb nb adb mb) in *.
  assert (Lt : length (ct_tag ct) = 16%nat) by exact (rv_tag_length D _ _ _ _ _ _ O).
  set (f := ct_body ct ++ xor_into (ct_tag ct) (d ++ d)). intros H.
  assert (Lb : length (ct_body ct) = length mb) by (unfold ct_body; rewrite firstn_length, L; clear; lia).
  assert (Lf : length f = (length mb + 16)%nat) by (unfold f; rewrite app_length, length_xor_into, Lb, Lt; reflexivity).
  assert (Fb : ct_body f = ct_body ct).
  { unfold ct_body at 1. rewrite Lf. replace (length mb + 16 - 16)%nat with (length (ct_body ct)) by (rewrite Lb; clear; lia).
    unfold f. apply firstn_app_exact. reflexivity. }
  assert (Ft : ct_tag f = xor_into (ct_tag ct) (d ++ d)).
  { unfold ct_tag at 1. rewrite Lf. replace (length mb + 16 - 16)%nat with (length (ct_body ct)) by (rewrite Lb; clear; lia).
    unfold f. apply skipn_app_exact. reflexivity. }
  rewrite <- Fb in O. split.
  - assert (X := C44_decrypt D e r M m mlen nsec c ad npub k f adb nb kb mb _ H O).
    rewrite Ft, accepts_twice in X by assumption.
    replace (len f - 16) with (len mb) in X by (unfold len; rewrite Lf; clear; lia). exact X.
  - intros E. assert (Et : ct_tag ct = xor_into (ct_tag ct) (d ++ d)) by (rewrite <- Ft, E; reflexivity).
    apply (nth_ext _ _ x00 x00); [exact Hd|]. intros i Hi.
    assert (Ei := f_equal (fun l => nth i l x00) Et). cbn beta in Ei. rewrite nth_xor_into, Lt in Ei.
    replace (i <? 16)%nat with true in Ei by (clear - Hi Hd; lia).
    rewrite nth_app in Ei. replace (i <? length d)%nat with true in Ei by (clear - Hi; lia).
    replace (nth i (zeros 8) x00) with x00 by (symmetry; apply nth_zeros). symmetry in Ei.
    rewrite bxor_comm in Ei. rewrite <- (bxor_cancel (nth i d x00) (nth i (ct_tag ct) x00)), Ei. apply bxor_self.
Qed.
Print Assumptions C44_forgery.

(** ** C44 Calling convention

    ascon_core returns with the registers its caller may rely on unchanged:
    the return address (it returns to its caller), the stack pointer, the
    global and the thread pointer and s0 to s11, and with its result in a0. *)
Theorem C44_calling_convention_encrypt : forall D e r M c clen m ad npub k mb adb nb kb x,
  rv_encrypt_pre (rv_model D) e r M c clen m ad npub k mb adb nb kb -> length x = 8%nat ->
  exists r' M', runs (call_core (rv_model D) e r c m (len mb) ad (len adb) npub k 1) (write M clen x) M' r' /\
    r' 10%nat = 0 /\ forall i, In i callee_saved -> r' i = r i.
Proof.
  intros D e r M c clen m ad npub k mb adb nb kb x H Lx.
  assert (L := labels D e r M (xe_env _ _ _ _ _ _ _ _ _ _ _ _ _ _ H)).
  assert (X := call_core_ok _ _ _ _ _ (rv_laws D) e L En r (write M clen x) c m ad npub k kb nb adb mb []). cbv zeta in X.
  specialize (X (env_rok _ e r M (xe_env _ _ _ _ _ _ _ _ _ _ _ _ _ _ H))
    (encrypt_cpre _ e L r M c clen m ad npub k mb adb nb kb x H Lx)).
  destruct (dd (rv_alg D) En (length mb) (d_ad (rv_alg D) (d_init (rv_alg D) kb nb) adb) mb) as [S1 out].
  destruct X as (r' & M' & R & _ & Vd & E). exists r', M'. split; [exact R|]. split; [exact Vd|].
  intros i Hi. apply E. unfold callee_saved in Hi. cbn [In] in Hi.
  repeat (destruct Hi as [<-|Hi]; [reflexivity|]). destruct Hi.
Qed.
Print Assumptions C44_calling_convention_encrypt.
Theorem C44_calling_convention_decrypt : forall D e r M m mlen c ad npub k ct adb nb kb x,
  rv_decrypt_pre (rv_model D) e r M m mlen c ad npub k ct adb nb kb -> length x = 8%nat ->
  exists r' M', runs (call_core (rv_model D) e r m c (len ct - 16) ad (len adb) npub k 255) (write M mlen x) M' r' /\
    (r' 10%nat = 0 \/ r' 10%nat = 2 ^ 32 - 1) /\ forall i, In i callee_saved -> r' i = r i.
Proof.
  intros D e r M m mlen c ad npub k ct adb nb kb x H Lx.
  assert (L := labels D e r M (xd_env _ _ _ _ _ _ _ _ _ _ _ _ _ _ H)).
  destruct (decrypt_cpre _ e L r M m mlen c ad npub k ct adb nb kb x H Lx) as [HC Lb].
  assert (X := call_core_ok _ _ _ _ _ (rv_laws D) e L De r (write M mlen x) m c ad npub k kb nb adb (ct_body ct) (ct_tag ct)). cbv zeta in X.
  specialize (X (env_rok _ e r M (xd_env _ _ _ _ _ _ _ _ _ _ _ _ _ _ H)) HC).
  destruct (dd (rv_alg D) De (length (ct_body ct)) (d_ad (rv_alg D) (d_init (rv_alg D) kb nb) adb) (ct_body ct)) as [S1 out].
  rewrite Lb in X. destruct X as (r' & M' & R & _ & Vd & E). exists r', M'. split; [exact R|]. split.
  - rewrite Vd. unfold verdict. destruct (foldx _ _ _ _ =? 0); [left|right]; reflexivity.
  - intros i Hi. apply E. unfold callee_saved in Hi. cbn [In] in Hi.
    repeat (destruct Hi as [<-|Hi]; [reflexivity|]). destruct Hi.
Qed.
Print Assumptions C44_calling_convention_decrypt.

(** ** Cases that meet the hypotheses *)

(** Stack pointer 0x8000, other registers arbitrary; the table of
    asm_bi32_rv32b at 0x3000. *)
Definition rv_regs : regs := fun i => match i with 0%nat => 0 | 2%nat => 0x8000 | _ => 0xabc end.
Definition rv_env0 : env := Env (fun n => 0x400 + n mod 4096) 0x3000.
Definition rv_enc_mem : mem := mem_of
  [ROdata 0x1000 demo_key; ROdata 0x1100 demo_nonce; ROdata 0x1200 demo_ad; ROdata 0x1300 demo_msg;
   RWfree 0x2000 36; RWfree 0x2100 8; ROdata 0x3000 bi_table; RWfree 0x7fb0 80].
Definition rv_dec_mem (ct : bytes) : mem := mem_of
  [ROdata 0x1000 demo_key; ROdata 0x1100 demo_nonce; ROdata 0x1200 demo_ad; ROdata 0x1300 ct;
   RWfree 0x2000 20; RWfree 0x2100 8; ROdata 0x3000 bi_table; RWfree 0x7fb0 80].
Lemma rv_env0_ok D M : readableb M 0x3000 (v_data (rv_model D)) = true -> writableb M 0x7fb0 80 = true -> rv_env (rv_model D) rv_env0 rv_regs M.
Proof.
  intros H1 H2. constructor.
  - reflexivity.
  - intros i. unfold rv_regs. do 3 (destruct i as [|i]; [reflexivity|]). reflexivity.
  - intros n. unfold rv_env0. cbn [lab]. pose proof (N.mod_upper_bound n 4096 ltac:(discriminate)) as B.
    set (q := n mod 4096) in *. clearbody q. lia.
  - discriminate.
  - reflexivity.
  - apply writableb_ok, H2.
  - apply readableb_ok, H1.
  - destruct D; reflexivity.
  - apply disjointb_ok. destruct D; reflexivity.
Qed.
Definition bufferb (p n : N) : bool := (p + n <? 2 ^ 32) && disjointb 0x7fb0 80 p n.
Lemma bufferb_ok p n : bufferb p n = true -> rv_buffer rv_regs p n.
Proof.
  unfold bufferb. intros H. apply andb_prop in H. destruct H as [H1 H2]. split; [apply N.ltb_lt, H1|].
  apply disjointb_ok. exact H2.
Qed.
Theorem C44_encrypt_case : forall D, rv_encrypt_pre (rv_model D) rv_env0 rv_regs rv_enc_mem
  0x2000 0x2100 0x1300 0x1200 0x1100 0x1000 demo_msg demo_ad demo_nonce demo_key.
Proof.
  intros D. constructor.
  - apply rv_env0_ok; [destruct D; vm_compute; reflexivity|vm_compute; reflexivity].
  - apply encrypt_preb_ok. vm_compute. reflexivity.
  - apply bufferb_ok. vm_compute. reflexivity.
  - apply bufferb_ok. vm_compute. reflexivity.
  - apply bufferb_ok. vm_compute. reflexivity.
  - apply bufferb_ok. vm_compute. reflexivity.
  - apply bufferb_ok. vm_compute. reflexivity.
  - apply bufferb_ok. vm_compute. reflexivity.
  - reflexivity.
  - reflexivity.
  - reflexivity.
  - reflexivity.
  - apply disjointb_ok. destruct D; vm_compute; reflexivity.
  - apply disjointb_ok. destruct D; vm_compute; reflexivity.
Qed.
Print Assumptions C44_encrypt_case.

(** The genuine ciphertext, one forged as in C44_forgery, and one that is rejected. *)
Definition rv_ct (D : rv_dir) : bytes := duplex_encrypt (rv_alg D) demo_key demo_nonce demo_ad demo_msg.
Definition rv_forged (D : rv_dir) : bytes :=
  ct_body (rv_ct D) ++ xor_into (ct_tag (rv_ct D)) (count 1 8 ++ count 1 8).
Definition rv_bad (D : rv_dir) : bytes := ct_body (rv_ct D) ++ xor_into (ct_tag (rv_ct D)) [x01].
Lemma rv_dec_pre D ct : length ct = 36%nat -> rv_decrypt_pre (rv_model D) rv_env0 rv_regs (rv_dec_mem ct)
  0x2000 0x2100 0x1300 0x1200 0x1100 0x1000 ct demo_ad demo_nonce demo_key.
Proof.
  intros L. assert (Ln : len ct = 36) by (unfold len; rewrite L; reflexivity).
  assert (RD : forall i, (i < 36)%nat -> rd (rv_dec_mem ct) (0x1300 + N.of_nat i) = Some (nth i ct x00)).
  { intros i Hi. unfold rd, rv_dec_mem, mem_of.
    replace (in_range 0x1000 (len demo_key) (0x1300 + N.of_nat i)) with false by (symmetry; unfold in_range; change (len demo_key) with 16; lia).
    replace (in_range 0x1100 (len demo_nonce) (0x1300 + N.of_nat i)) with false by (symmetry; unfold in_range; change (len demo_nonce) with 16; lia).
    replace (in_range 0x1200 (len demo_ad) (0x1300 + N.of_nat i)) with false by (symmetry; unfold in_range; change (len demo_ad) with 3; lia).
    replace (in_range 0x1300 (len ct) (0x1300 + N.of_nat i)) with true by (symmetry; unfold in_range; rewrite Ln; lia).
    replace (N.to_nat (0x1300 + N.of_nat i - 0x1300)) with i by lia. reflexivity. }
  assert (RC : readable (rv_dec_mem ct) 0x1300 ct).
  { split; [rewrite Ln; reflexivity|]. split; [intros _; discriminate|]. intros i Hi. rewrite L in Hi. apply RD, Hi. }
  assert (O : forall a, in_range 0x1300 36 a = false -> rv_dec_mem ct a = rv_dec_mem (zeros 36) a).
  { intros a Ha. unfold rv_dec_mem, mem_of. rewrite Ln. change (len (zeros 36)) with 36. rewrite Ha. reflexivity. }
  assert (OR : forall p l, readableb (rv_dec_mem (zeros 36)) p l = true -> disjointb 0x1300 36 p (len l) = true -> readable (rv_dec_mem ct) p l).
  { intros p l H1 H2. apply readableb_ok in H1. apply disjointb_ok in H2. destruct H1 as (A & B & C). split; [exact A|]. split; [exact B|].
    intros i Hi. rewrite <- (C i Hi). unfold rd. rewrite O; [reflexivity|]. unfold in_range. unfold disjoint, len in H2. clear - H2 Hi. lia. }
  assert (OW : forall p n, writableb (rv_dec_mem (zeros 36)) p n = true -> disjointb 0x1300 36 p n = true -> writable (rv_dec_mem ct) p n).
  { intros p n H1 H2. apply writableb_ok in H1. apply disjointb_ok in H2. destruct H1 as (A & B & C). split; [exact A|]. split; [exact B|].
    intros a Ha Hb. rewrite <- (C a Ha Hb). unfold can_write. rewrite O; [reflexivity|]. unfold in_range. unfold disjoint in H2. clear - H2 Ha Hb. lia. }
  assert (ENV : rv_env (rv_model D) rv_env0 rv_regs (rv_dec_mem ct)).
  { assert (X := rv_env0_ok D (rv_dec_mem (zeros 36)) ltac:(destruct D; vm_compute; reflexivity) ltac:(vm_compute; reflexivity)).
    destruct X. constructor; try assumption.
    - apply OW; vm_compute; reflexivity.
    - apply OR; destruct D; vm_compute; reflexivity. }
  constructor.
  - exact ENV.
  - constructor; try (rewrite Ln).
    + discriminate.
    + reflexivity.
    + reflexivity.
    + apply OR; vm_compute; reflexivity.
    + apply OR; vm_compute; reflexivity.
    + apply OR; vm_compute; reflexivity.
    + exact RC.
    + apply OW; vm_compute; reflexivity.
    + apply OW; vm_compute; reflexivity.
    + apply disjointb_ok. vm_compute. reflexivity.
    + apply disjointb_ok. vm_compute. reflexivity.
    + apply disjointb_ok. vm_compute. reflexivity.
    + apply disjointb_ok. vm_compute. reflexivity.
    + apply overlapb_ok. vm_compute. reflexivity.
    + apply nullb_ok. vm_compute. reflexivity.
    + apply nullb_ok. vm_compute. reflexivity.
    + intros _. apply disjointb_ok. vm_compute. reflexivity.
    + apply blockb_ok. vm_compute. reflexivity.
    + apply blockb_ok. vm_compute. reflexivity.
    + apply blockb_ok. vm_compute. reflexivity.
  - rewrite Ln. apply bufferb_ok. vm_compute. reflexivity.
  - apply bufferb_ok. vm_compute. reflexivity.
  - rewrite Ln. apply bufferb_ok. vm_compute. reflexivity.
  - apply bufferb_ok. vm_compute. reflexivity.
  - apply bufferb_ok. vm_compute. reflexivity.
  - apply bufferb_ok. vm_compute. reflexivity.
  - reflexivity.
  - reflexivity.
  - rewrite Ln. reflexivity.
  - reflexivity.
  - rewrite Ln. apply disjointb_ok. destruct D; vm_compute; reflexivity.
  - apply disjointb_ok. destruct D; vm_compute; reflexivity.
  - rewrite Ln. split; [discriminate|]. intros a H1 H2.
    change (0x1300 + (36 - 16) - (0x1300 + (36 - 16)) mod 4) with 0x1314 in H1.
    change (0x1300 + (36 - 16) + 16 + (4 - (0x1300 + (36 - 16)) mod 4) mod 4) with 0x1324 in H2.
    replace a with (0x1300 + N.of_nat (N.to_nat (a - 0x1300))) by lia. rewrite RD by lia. discriminate.
  - rewrite Ln. reflexivity.
Qed.
Theorem C44_decrypt_case : forall D,
  rv_decrypt_pre (rv_model D) rv_env0 rv_regs (rv_dec_mem (rv_forged D)) 0x2000 0x2100 0x1300 0x1200 0x1100 0x1000
    (rv_forged D) demo_ad demo_nonce demo_key /\
  rv_decrypt_pre (rv_model D) rv_env0 rv_regs (rv_dec_mem (rv_bad D)) 0x2000 0x2100 0x1300 0x1200 0x1100 0x1000
    (rv_bad D) demo_ad demo_nonce demo_key /\
  rv_accepts D (ct_tag (rv_ct D)) (ct_tag (rv_forged D)) = true /\ ct_tag (rv_forged D) <> ct_tag (rv_ct D) /\
  rv_accepts D (ct_tag (rv_ct D)) (ct_tag (rv_bad D)) = false.
Proof.
  intros D. split; [apply rv_dec_pre; destruct D; vm_compute; reflexivity|].
  split; [apply rv_dec_pre; destruct D; vm_compute; reflexivity|].
  split; [destruct D; vm_compute; reflexivity|]. split; [destruct D; vm_compute; discriminate|destruct D; vm_compute; reflexivity].
Qed.
Print Assumptions C44_decrypt_case.
