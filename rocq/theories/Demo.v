(** * Demo.v -- concrete memories, and decidable forms of the contracts,
    used to show that the hypotheses of the property theorems are met. *)
From Coq Require Import Bool Arith NArith ZArith List Lia Init.Byte Strings.Byte ZifyBool ZifyNat ZifyN.
From Verif Require Import Words WordFacts Spec SpecFacts SpecFast CMem Contract CMemFacts ApiSpec ApiFacts Ct.
Import ListNotations.
Local Open Scope N_scope.

(** Memory from a list of regions: read-only data, or read-write
    (initialised by its data). Everything else is inaccessible. *)
Inductive region := ROdata (p : ptr) (l : bytes) | RWdata (p : ptr) (l : bytes) | RWfree (p : ptr) (n : N).
Fixpoint mem_of (rs : list region) : mem := fun a =>
  match rs with
  | [] => NoAccess
  | ROdata p l :: r => if in_range p (len l) a then RO (nth (N.to_nat (a - p)) l x00) else mem_of r a
  | RWdata p l :: r => if in_range p (len l) a then RW (Some (nth (N.to_nat (a - p)) l x00)) else mem_of r a
  | RWfree p n :: r => if in_range p n a then RW None else mem_of r a
  end.

Definition beq (a b : bytes) : bool := if list_eq_dec Byte.byte_eq_dec a b then true else false.
Lemma beq_eq a b : beq a b = true -> a = b.
Proof. unfold beq. destruct (list_eq_dec _ a b); congruence. Qed.

Definition readableb (M : mem) (p : ptr) (l : bytes) : bool :=
  (p + len l <? 2 ^ 64) && (match l with [] => true | _ => negb (p =? 0) end) &&
  match read_bytes (length l) M p with Some l' => beq l' l | None => false end.
Lemma read_bytes_nth n M : forall p l, read_bytes n M p = Some l ->
  forall i, (i < n)%nat -> rd M (p + N.of_nat i) = Some (nth i l x00).
Proof.
  induction n as [|n IH]; intros p l H i Hi; [lia|]. cbn [read_bytes] in H.
  destruct (rd M p) as [b|] eqn:E1; [|discriminate].
  destruct (read_bytes n M (p + 1)) as [r|] eqn:E2; [|discriminate]. inversion H; subst.
  destruct i as [|i]; [rewrite N.add_0_r; exact E1|]. cbn [nth].
  replace (p + N.of_nat (S i)) with (p + 1 + N.of_nat i) by lia. apply IH; [exact E2|lia].
Qed.
Lemma readableb_ok M p l : readableb M p l = true -> readable M p l.
Proof.
  unfold readableb. intros H. apply andb_prop in H. destruct H as [H1 H2].
  apply andb_prop in H1. destruct H1 as [H0 H1]. split; [lia|]. split.
  - intros Hl. unfold NULL. destruct l; [congruence|]. lia.
  - destruct (read_bytes (length l) M p) as [l'|] eqn:E; [|discriminate]. apply beq_eq in H2. subst l'.
    apply (read_bytes_nth _ _ _ _ E).
Qed.
Definition writableb (M : mem) (p : ptr) (n : N) : bool :=
  (p + n <? 2 ^ 64) && ((n =? 0) || negb (p =? 0)) && all_writable (N.to_nat n) M p.
Lemma all_writable_nth n M : forall p, all_writable n M p = true ->
  forall a, p <= a -> a < p + N.of_nat n -> can_write M a = true.
Proof.
  induction n as [|n IH]; intros p H a H1 H2; [lia|]. cbn [all_writable] in H. apply andb_prop in H.
  destruct H as [Ha Hb]. destruct (N.eq_dec a p) as [->|Hne]; [exact Ha|]. apply (IH (p + 1)); [exact Hb|lia..].
Qed.
Lemma writableb_ok M p n : writableb M p n = true -> writable M p n.
Proof.
  unfold writableb. intros H. apply andb_prop in H. destruct H as [H1 H2].
  apply andb_prop in H1. destruct H1 as [H0 H1]. split; [lia|]. unfold NULL. split; [lia|].
  intros a Ha Hb. apply (all_writable_nth _ _ _ H2); lia.
Qed.
Definition disjointb (p n q m : N) : bool := (n =? 0) || (m =? 0) || (p + n <=? q) || (q + m <=? p).
Lemma disjointb_ok p n q m : disjointb p n q m = true -> disjoint p n q m.
Proof. unfold disjointb, disjoint. lia. Qed.
Definition freeb (M : mem) (sp n : N) : bool :=
  negb (sp =? 0) && (sp + n <? 2 ^ 64) && all_fresh (N.to_nat n) M sp.
Lemma freeb_ok M sp n : freeb M sp n = true -> free_cells M sp n.
Proof.
  unfold freeb. intros H. apply andb_prop in H. destruct H as [H1 H2]. apply andb_prop in H1.
  destruct H1 as [H0 H1]. split; [lia|]. split; [lia|].
  assert (G : forall k q, all_fresh k M q = true -> forall a, q <= a -> a < q + N.of_nat k -> M a = NoAccess).
  { induction k as [|k IH]; intros q H a Ha Hb; [lia|]. cbn [all_fresh] in H.
    destruct (M q) eqn:E; try discriminate. destruct (N.eq_dec a q) as [->|Hne]; [exact E|].
    apply (IH (q + 1)); [exact H|lia..]. }
  intros a Ha Hb. apply (G _ _ H2); lia.
Qed.
Definition overlapb (no : bool) (dst n src n' : N) : bool :=
  ((dst <=? src) || (src + n' <=? dst) || (n' =? 0)) && (negb no || disjointb dst n src n').
Lemma overlapb_ok no dst n src n' : overlapb no dst n src n' = true -> overlap_rule no dst n src n'.
Proof.
  unfold overlapb, overlap_rule. intros H. apply andb_prop in H. destruct H as [H1 H2]. split.
  - unfold no_overtake. lia.
  - intros ->. apply disjointb_ok, H2.
Qed.
Definition nullb (no : bool) (p : ptr) : bool := negb no || negb (p =? 0).
Lemma nullb_ok no p : nullb no p = true -> null_rule no p.
Proof. unfold nullb, null_rule, NULL. lia. Qed.

Definition blockb (b : bool) (p : ptr) (n : N) : bool :=
  negb b || (n <? 2 ^ 32) && ((n <? 16) || (p mod 4 =? 0)).
Lemma blockb_ok b p n : blockb b p n = true -> block_rule b p n.
Proof. unfold blockb. intros H ->. cbn [negb orb] in H. apply andb_prop in H. destruct H as [H1 H2]. split; [lia|intros H; lia]. Qed.
Definition encrypt_preb (d : demands) (M : mem) (c clen m ad npub k : ptr) (mb adb nb kb : bytes) : bool :=
  Nat.eqb (length kb) 16 && Nat.eqb (length nb) 16 &&
  readableb M k kb && readableb M npub nb && readableb M ad adb && readableb M m mb &&
  writableb M c (len mb + 16) && writableb M clen 8 &&
  disjointb clen 8 k 16 && disjointb clen 8 npub 16 && disjointb clen 8 ad (len adb) &&
  disjointb clen 8 m (len mb) && overlapb (no_overlap d) c (len mb) m (len mb) &&
  nullb (no_null d) ad && nullb (no_null d) m &&
  blockb (blocks32 d) ad (len adb) && blockb (blocks32 d) m (len mb) && blockb (blocks32 d) c (len mb).
Lemma encrypt_preb_ok d M c clen m ad npub k mb adb nb kb :
  encrypt_preb d M c clen m ad npub k mb adb nb kb = true ->
  encrypt_pre d M c clen m ad npub k mb adb nb kb.
Proof.
  unfold encrypt_preb. intros H.
  repeat match goal with H : _ && _ = true |- _ => apply andb_prop in H; destruct H end.
  constructor; auto using readableb_ok, writableb_ok, disjointb_ok, overlapb_ok, nullb_ok, blockb_ok;
    unfold is16; apply Nat.eqb_eq; assumption.
Qed.
Definition decrypt_preb (d : demands) (M : mem) (m mlen c ad npub k : ptr) (ct adb nb kb : bytes) : bool :=
  (16 <=? len ct) && Nat.eqb (length kb) 16 && Nat.eqb (length nb) 16 &&
  readableb M k kb && readableb M npub nb && readableb M ad adb && readableb M c ct &&
  writableb M m (len ct - 16) && writableb M mlen 8 &&
  disjointb mlen 8 k 16 && disjointb mlen 8 npub 16 && disjointb mlen 8 ad (len adb) &&
  disjointb mlen 8 c (len ct) && overlapb (no_overlap d) m (len ct - 16) c (len ct) &&
  nullb (no_null d) ad && nullb (no_null d) m && (negb (no_overlap d) || disjointb mlen 8 m (len ct - 16)) &&
  blockb (blocks32 d) ad (len adb) && blockb (blocks32 d) m (len ct - 16) && blockb (blocks32 d) c (len ct - 16).
Lemma decrypt_preb_ok d M m mlen c ad npub k ct adb nb kb :
  decrypt_preb d M m mlen c ad npub k ct adb nb kb = true ->
  decrypt_pre d M m mlen c ad npub k ct adb nb kb.
Proof.
  unfold decrypt_preb. intros H.
  repeat match goal with H : _ && _ = true |- _ => apply andb_prop in H; destruct H end.
  constructor; auto using readableb_ok, writableb_ok, disjointb_ok, overlapb_ok, nullb_ok, blockb_ok;
    try (unfold is16; apply Nat.eqb_eq; assumption).
  - apply N.leb_le. assumption.
  - intros E. rewrite E in *. apply disjointb_ok. assumption.
Qed.

(** Weaker demands. *)
Definition demands_le (d d' : demands) : Prop :=
  (no_null d = true -> no_null d' = true) /\ (no_overlap d = true -> no_overlap d' = true) /\
  (blocks32 d = true -> blocks32 d' = true).
Lemma encrypt_pre_le d d' M c clen m ad npub k mb adb nb kb : demands_le d d' ->
  encrypt_pre d' M c clen m ad npub k mb adb nb kb -> encrypt_pre d M c clen m ad npub k mb adb nb kb.
Proof.
  intros (H1 & H2 & H3) []. unfold null_rule, overlap_rule, block_rule in *. constructor; unfold null_rule, overlap_rule, block_rule; try assumption; tauto.
Qed.
Lemma decrypt_pre_le d d' M m mlen c ad npub k ct adb nb kb : demands_le d d' ->
  decrypt_pre d' M m mlen c ad npub k ct adb nb kb -> decrypt_pre d M m mlen c ad npub k ct adb nb kb.
Proof.
  intros (H1 & H2 & H3) []. unfold null_rule, overlap_rule, block_rule in *. constructor; unfold null_rule, overlap_rule, block_rule; try assumption; tauto.
Qed.
Lemma demands_le_all d : demands_le d (Demands true true true).
Proof. repeat split. Qed.
Lemma demands_le_inplace d : no_overlap d = false -> demands_le d (Demands true false true).
Proof. intros H. repeat split. rewrite H. auto. Qed.

(** ** Data *)
Definition count (from n : nat) : bytes := map (fun i => n2b (N.of_nat i)) (seq from n).
Definition demo_key : bytes := count 0 16.
Definition demo_nonce : bytes := count 16 16.
Definition demo_ad : bytes := count 48 3.
Definition demo_msg : bytes := count 32 20.
(** Key at 0x1000, nonce 0x1100, associated data 0x1200, plaintext 0x1300
    (all read-only); 36 uninitialised bytes at 0x2000 for the ciphertext,
    8 at 0x2100 for its length. *)
Definition demo_enc : mem := mem_of
  [ROdata 0x1000 demo_key; ROdata 0x1100 demo_nonce; ROdata 0x1200 demo_ad; ROdata 0x1300 demo_msg;
   RWfree 0x2000 36; RWfree 0x2100 8].
Lemma demo_enc_pre d : encrypt_pre d demo_enc 0x2000 0x2100 0x1300 0x1200 0x1100 0x1000
  demo_msg demo_ad demo_nonce demo_key.
Proof. apply (encrypt_pre_le d _ _ _ _ _ _ _ _ _ _ _ _ (demands_le_all d)), encrypt_preb_ok. vm_compute. reflexivity. Qed.

(** In place: the plaintext is at the front of the ciphertext buffer. *)
Definition demo_inplace : mem := mem_of
  [ROdata 0x1000 demo_key; ROdata 0x1100 demo_nonce; ROdata 0x1200 demo_ad; RWdata 0x1300 demo_msg;
   RWfree 0x1314 16; RWfree 0x2100 8].
Lemma demo_inplace_pre d : no_overlap d = false -> encrypt_pre d demo_inplace 0x1300 0x2100 0x1300 0x1200 0x1100 0x1000
  demo_msg demo_ad demo_nonce demo_key.
Proof.
  intros H. apply (encrypt_pre_le d _ _ _ _ _ _ _ _ _ _ _ _ (demands_le_inplace d H)), encrypt_preb_ok. vm_compute. reflexivity.
Qed.

(** A ciphertext of [demo_msg], and the same with the last tag byte changed. *)
Definition demo_ct : bytes := Eval vm_compute in aead_encrypt demo_key demo_nonce demo_ad demo_msg.
Lemma demo_ct_ok : demo_ct = aead_encrypt demo_key demo_nonce demo_ad demo_msg.
Proof. rewrite f_aead_encrypt. vm_compute. reflexivity. Qed.
Definition demo_bad : bytes := firstn 35 demo_ct ++ [bxor (nth 35 demo_ct x00) x01].
Definition dec_mem (ct : bytes) : mem := mem_of
  [ROdata 0x1000 demo_key; ROdata 0x1100 demo_nonce; ROdata 0x1200 demo_ad; ROdata 0x1300 ct;
   RWfree 0x2000 20; RWfree 0x2100 8].
Lemma demo_dec_pre d : decrypt_pre d (dec_mem demo_ct)
  0x2000 0x2100 0x1300 0x1200 0x1100 0x1000 demo_ct demo_ad demo_nonce demo_key.
Proof. apply (decrypt_pre_le d _ _ _ _ _ _ _ _ _ _ _ _ (demands_le_all d)), decrypt_preb_ok. vm_compute. reflexivity. Qed.
Lemma demo_bad_pre d : decrypt_pre d (dec_mem demo_bad)
  0x2000 0x2100 0x1300 0x1200 0x1100 0x1000 demo_bad demo_ad demo_nonce demo_key.
Proof. apply (decrypt_pre_le d _ _ _ _ _ _ _ _ _ _ _ _ (demands_le_all d)), decrypt_preb_ok. vm_compute. reflexivity. Qed.
Lemma demo_bad_rejected : aead_decrypt demo_key demo_nonce demo_ad demo_bad = None.
Proof. rewrite f_aead_decrypt. vm_compute. reflexivity. Qed.
Lemma demo_bad_open : fst (aead_open demo_key demo_nonce demo_ad (ct_body demo_bad)) = demo_msg.
Proof. rewrite f_aead_open. vm_compute. reflexivity. Qed.

(** Hash, MAC. *)
Definition demo_hash : mem := mem_of [ROdata 0x1300 demo_msg; RWfree 0x2000 64].
Lemma demo_hash_in : readable demo_hash 0x1300 demo_msg.
Proof. apply readableb_ok. vm_compute. reflexivity. Qed.
Lemma demo_hash_out : writable demo_hash 0x2000 64.
Proof. apply writableb_ok. vm_compute. reflexivity. Qed.
Definition demo_short : bytes := count 32 13.
Definition demo_tag : bytes := count 7 64.
Definition demo_mac : mem := mem_of
  [ROdata 0x1000 demo_key; ROdata 0x1200 demo_tag; ROdata 0x1300 demo_msg; RWfree 0x2000 64].
Lemma demo_mac_k : readable demo_mac 0x1000 demo_key.
Proof. apply readableb_ok. vm_compute. reflexivity. Qed.
Lemma demo_mac_in : readable demo_mac 0x1300 demo_msg.
Proof. apply readableb_ok. vm_compute. reflexivity. Qed.
Lemma demo_mac_short : readable demo_mac 0x1300 demo_short.
Proof. apply readableb_ok. vm_compute. reflexivity. Qed.
Lemma demo_mac_h n : (n <= 64)%nat -> readable demo_mac 0x1200 (firstn n demo_tag).
Proof.
  intros Hn.
  assert (H : readable demo_mac 0x1200 demo_tag) by (apply readableb_ok; vm_compute; reflexivity).
  rewrite <- (firstn_skipn n demo_tag) in H. apply readable_app in H. apply H.
Qed.
Lemma demo_mac_out n : n <= 64 -> writable demo_mac 0x2000 n.
Proof.
  intros H. assert (W : writable demo_mac 0x2000 64) by (apply writableb_ok; vm_compute; reflexivity).
  replace 64 with (n + (64 - n)) in W by lia. apply writable_split in W. apply W.
Qed.
Lemma demo_mac_free n : n <= 64 -> free_cells demo_mac 0x4000 n.
Proof.
  intros H. assert (F : free_cells demo_mac 0x4000 64) by (apply freeb_ok; vm_compute; reflexivity).
  destruct F as (F1 & F2 & F3). split; [exact F1|]. split; [lia|]. intros a Ha Hb. apply F3; lia.
Qed.
Lemma demo_key_len : is16 demo_key.
Proof. reflexivity. Qed.
