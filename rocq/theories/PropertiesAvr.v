(** * PropertiesAvr.v -- the AVR directories (C40, C42).

    [HASH_byte B_avr] is crypto_hash/asconhash256/avr (asconxof128/avr),
    [KEY_byte B_avr] crypto_auth/asconmacv13/avr (asconprfv13/avr). *)
From Coq Require Import Bool Arith NArith ZArith List Lia ZifyBool ZifyNat ZifyN Init.Byte.
From Verif Require Import Words WordFacts Spec SpecFacts SpecFast AvrSpec CMem Contract CMemFacts ApiSpec ModelRef ModelWords ModelOpt8 ModelAvr
  Asm AsmAvr AvrCode AsmRound RefAead RefHash WordInst AvrFacts Opt8Hash Opt8Prf AvrHash Opt8Api ApiFacts Impls ImplsOk Demo Refuted PropFacts PropertiesLow Contract.
Import ListNotations.
Local Open Scope N_scope.

(** ** C40 The AVR hash, XOF, MAC and PRF *)

Definition avr_hash_fun (a : hash_alg) : bytes -> bytes :=
  match a with Hash256 => avr_hash256 | Xof128 => fun l => avr_xof128 l 64 end.
(** The two keyed functions of avr/prf.c, and the lengths of their tags. *)
Inductive avr_key_alg := AvrMac | AvrPrf.
Definition alg_of (a : avr_key_alg) : key_alg := match a with AvrMac => Mac | AvrPrf => Prf end.
Definition avr_key_fun (a : avr_key_alg) : bytes -> bytes -> nat -> bytes := match a with AvrMac => avr_mac | AvrPrf => avr_prf end.

Lemma avr_hash_ok a : hash_conforms (Demands false false false) (avr_hash_fun a) (hash_len a) (hash_of (HASH_byte B_avr) a LE).
Proof.
  destruct a.
  - exact (o8_hash_like_conforms _ avr_P_conforming _ _ avr_pads8 w64_HASH_IV iv_hash256 32 hash_iv_ok).
  - exact (o8_hash_like_conforms _ avr_P_conforming _ _ avr_pads8 w64_XOF_IV iv_xof128 64 xof_iv_ok).
Qed.
Lemma avr_auth_ok a : auth_conforms (avr_key_fun a) None (key_outmax (alg_of a)) (auth_of (KEY_byte B_avr) (alg_of a) LE).
Proof.
  destruct a.
  - exact (o8_auth_like_conforms _ avr_P_conforming _ _ _ _ avr_pads32 opt8_MAC_IV iv_mac 16 opt8_MAC_IV_ok).
  - exact (o8_auth_like_conforms _ avr_P_conforming _ _ _ _ avr_pads32 opt8_PRF_IV iv_prf 64 opt8_PRF_IV_ok).
Qed.
Lemma avr_verify_ok a : verify_conforms (avr_key_fun a) None (key_outmax (alg_of a)) (verify_of (KEY_byte B_avr) (alg_of a) LE).
Proof.
  destruct a.
  - exact (o8_verify_like_conforms _ avr_P_conforming _ _ _ _ avr_pads32 opt8_MAC_IV iv_mac 16 opt8_MAC_IV_ok).
  - exact (o8_verify_like_conforms _ avr_P_conforming _ _ _ _ avr_pads32 opt8_PRF_IV iv_prf 64 opt8_PRF_IV_ok).
Qed.
Lemma avr_prf_ok a : prf_conforms (Demands false false false) (avr_key_fun a) None (key_outmax (alg_of a)) (prf_of (KEY_byte B_avr) (alg_of a) LE).
Proof.
  destruct a.
  - exact (o8_prf_like_conforms _ avr_P_conforming _ _ _ _ avr_pads32 opt8_MAC_IV iv_mac 16 opt8_MAC_IV_ok).
  - exact (o8_prf_like_conforms _ avr_P_conforming _ _ _ _ avr_pads32 opt8_PRF_IV iv_prf 64 opt8_PRF_IV_ok).
Qed.
Lemma len_avr_hash a l : len (avr_hash_fun a l) = hash_len a.
Proof.
  assert (L : forall iv n, length (avr_sponge (hash_init iv) l n) = n).
  { intros iv n. apply length_squeeze; try lia.
    assert (E : forall bs S, length S = 40%nat -> length (absorb 12 S bs) = 40%nat).
    { induction bs as [|B bs IH]; intros S HS; [exact HS|]. rewrite absorb_cons. apply IH, length_p. }
    rewrite E by apply length_p. lia. }
  unfold len. destruct a; cbn [avr_hash_fun hash_len]; unfold avr_hash256, avr_xof128; rewrite L; reflexivity.
Qed.
Lemma len_avr_key a k l n : length (avr_key_fun a k l n) = n.
Proof.
  assert (L : forall iv, length (avr_prf_gen iv k l n) = n).
  { intros iv. apply length_squeeze; try lia. rewrite length_avr_prf_absorb by apply length_p. lia. }
  destruct a; apply L.
Qed.

(** What they compute: the functions of AvrSpec.v, safely and writing
    nothing but the output. *)
Theorem C40_avr_hash_computes : forall a M out inp l,
  readable M inp l -> writable M out (hash_len a) ->
  exists t M', hash_of (HASH_byte B_avr) a LE out inp (len l) M = Done t M' 0%Z /\
    readable M' out (avr_hash_fun a l) /\ len (avr_hash_fun a l) = hash_len a /\
    (forall x, x < out \/ out + hash_len a <= x -> M' x = M x).
Proof.
  intros a M out inp l R W.
  destruct (avr_hash_ok a M out inp l R W ltac:(intros H; discriminate)) as (t & M' & E & H).
  exists t, M'. split; [exact E|]. pose proof (len_avr_hash a l) as L.
  set (d := avr_hash_fun a l) in *. clearbody d.
  split; [|split; [exact L|]].
  - eapply readable_ext; [exact H|]. destruct W as (Wb & Wn & _). apply readable_write_self; [rewrite L; exact Wb|].
    intros _. apply Wn. destruct a; cbn; lia.
  - intros x Hx. rewrite H. apply write_outside. unfold outside. rewrite L. exact Hx.
Qed.
Print Assumptions C40_avr_hash_computes.
Theorem C40_avr_tag_computes : forall a M out inp l k kb, is16 kb ->
  readable M k kb -> readable M inp l -> writable M out (key_outmax (alg_of a)) ->
  exists t M', auth_of (KEY_byte B_avr) (alg_of a) LE out inp (len l) k M = Done t M' 0%Z /\
    readable M' out (avr_key_fun a kb l (N.to_nat (key_outmax (alg_of a)))) /\
    (forall x, x < out \/ out + key_outmax (alg_of a) <= x -> M' x = M x).
Proof.
  intros a M out inp l k kb Hk Rk R W.
  destruct (avr_auth_ok a M out inp l k kb Hk Rk R W I) as (t & M' & E & H).
  pose proof (len_avr_key a kb l (N.to_nat (key_outmax (alg_of a)))) as L.
  assert (Ln : len (avr_key_fun a kb l (N.to_nat (key_outmax (alg_of a)))) = key_outmax (alg_of a)) by (unfold len; lia).
  exists t, M'. split; [exact E|]. split.
  - eapply readable_ext; [exact H|]. destruct W as (Wb & Wn & _). apply readable_write_self; [rewrite Ln; exact Wb|].
    intros _. apply Wn. destruct a; cbn; lia.
  - intros x Hx. rewrite H. apply write_outside. unfold outside. rewrite Ln. exact Hx.
Qed.
Print Assumptions C40_avr_tag_computes.

(** Two different messages, for every prefix [q] of whole 8-byte words. *)
Definition msg_a (q : bytes) : bytes := q ++ [x00; x00; x00; x00; x00; x00; x00].
Definition msg_b (q : bytes) : bytes := q ++ [x01; x01; x00; x00; x00; x00].
Example C40_messages_differ : forall q, msg_a q <> msg_b q.
Proof. intros q E. apply app_inv_head in E. discriminate. Qed.
Lemma mod8 q : len q mod 8 = 0 -> (length q mod 8 = 0)%nat.
Proof. unfold len. intros H. lia. Qed.

(** The hash functions collide on them. *)
Theorem C40_avr_hash_collides : forall a q M1 out1 in1 M2 out2 in2, len q mod 8 = 0 ->
  readable M1 in1 (msg_a q) -> writable M1 out1 (hash_len a) ->
  readable M2 in2 (msg_b q) -> writable M2 out2 (hash_len a) ->
  exists t1 M1' t2 M2' d,
    hash_of (HASH_byte B_avr) a LE out1 in1 (len (msg_a q)) M1 = Done t1 M1' 0%Z /\ readable M1' out1 d /\
    hash_of (HASH_byte B_avr) a LE out2 in2 (len (msg_b q)) M2 = Done t2 M2' 0%Z /\ readable M2' out2 d /\
    len d = hash_len a.
Proof.
  intros a q M1 out1 in1 M2 out2 in2 Hq R1 W1 R2 W2.
  destruct (C40_avr_hash_computes a M1 out1 in1 _ R1 W1) as (t1 & M1' & E1 & D1 & L1 & _).
  destruct (C40_avr_hash_computes a M2 out2 in2 _ R2 W2) as (t2 & M2' & E2 & D2 & L2 & _).
  assert (E : avr_hash_fun a (msg_a q) = avr_hash_fun a (msg_b q)).
  { pose proof (same_pad8 q (mod8 q Hq)) as H.
    destruct a; cbn [avr_hash_fun]; unfold avr_hash256, avr_xof128, avr_sponge, msg_a, msg_b;
      change [x00; x00; x00; x00; x00; x00; x00] with (zeros 7); rewrite H; reflexivity. }
  exists t1, M1', t2, M2', (avr_hash_fun a (msg_a q)). rewrite E in *. auto 6.
Qed.
Print Assumptions C40_avr_hash_collides.

(** Under every key a tag for the one message is accepted for the other. *)
Theorem C40_avr_forgery : forall a q kb M1 out in1 k1 M2 sp h in2 k2, is16 kb -> len q mod 8 = 0 ->
  readable M1 k1 kb -> readable M1 in1 (msg_a q) -> writable M1 out (key_outmax (alg_of a)) ->
  exists t1 M1' tag,
    auth_of (KEY_byte B_avr) (alg_of a) LE out in1 (len (msg_a q)) k1 M1 = Done t1 M1' 0%Z /\
    readable M1' out tag /\ len tag = key_outmax (alg_of a) /\
    (readable M2 k2 kb -> readable M2 in2 (msg_b q) -> readable M2 h tag -> free_cells M2 sp (key_outmax (alg_of a)) ->
     exists t2 M2', verify_of (KEY_byte B_avr) (alg_of a) LE sp h in2 (len (msg_b q)) k2 M2 = Done t2 M2' 0%Z).
Proof.
  intros a q kb M1 out in1 k1 M2 sp h in2 k2 Hk Hq Rk1 R1 W1.
  destruct (C40_avr_tag_computes a M1 out in1 _ k1 kb Hk Rk1 R1 W1) as (t1 & M1' & E1 & D1 & _).
  set (tag := avr_key_fun a kb (msg_a q) (N.to_nat (key_outmax (alg_of a)))) in *.
  assert (L : len tag = key_outmax (alg_of a)).
  { unfold tag, len. rewrite len_avr_key. lia. }
  assert (E : avr_key_fun a kb (msg_b q) (N.to_nat (key_outmax (alg_of a))) = tag).
  { pose proof (same_pad32 q (mod8 q Hq)) as H. unfold tag.
    destruct a; cbn [avr_key_fun]; unfold avr_mac, avr_prf, avr_prf_gen, msg_a, msg_b;
      change [x00; x00; x00; x00; x00; x00; x00] with (zeros 7); rewrite H; reflexivity. }
  exists t1, M1', tag. split; [exact E1|]. split; [exact D1|]. split; [exact L|].
  intros Rk2 R2 Rh F.
  destruct (proj1 (avr_verify_ok a) M2 sp h tag in2 (msg_b q) k2 kb Hk L Rk2 R2 Rh F I) as (t2 & M2' & E2 & _).
  rewrite E in E2. destruct (list_eq_dec Byte.byte_eq_dec tag tag) as [_|N]; [|congruence].
  exists t2, M2'. exact E2.
Qed.
Print Assumptions C40_avr_forgery.

(** They are not the functions of the standard: the digests, the tags of the
    empty message. *)
Theorem C40_avr_not_standard :
  (forall a, exists t M' d, hash_of (HASH_byte B_avr) a LE 0x2000 0x1300 0 demo_hash = Done t M' 0%Z /\
     readable M' 0x2000 d /\ len d = hash_len a /\ d <> hash_fun a []) /\
  (forall a, exists t M' d, auth_of (KEY_byte B_avr) (alg_of a) LE 0x2000 0x1300 0 0x1000 demo_mac = Done t M' 0%Z /\
     readable M' 0x2000 d /\ len d = key_outmax (alg_of a) /\
     d <> key_fun (alg_of a) demo_key [] (N.to_nat (key_outmax (alg_of a)))).
Proof.
  split.
  - intros a. apply wrong_outputb_ok' with (x := hash_fun a []); [destruct a; reflexivity|].
    destruct a; cbn [hash_fun]; [rewrite f_hash256|rewrite f_xof128]; vm_compute; reflexivity.
  - intros a. apply wrong_outputb_ok' with (x := key_fun (alg_of a) demo_key [] (N.to_nat (key_outmax (alg_of a))));
      [destruct a; cbn [key_fun alg_of]; [rewrite f_mac|rewrite f_prf]; vm_compute; reflexivity|].
    destruct a; cbn [key_fun alg_of]; [rewrite f_mac|rewrite f_prf]; vm_compute; reflexivity.
Qed.
Print Assumptions C40_avr_not_standard.

(** The hypotheses above are met. *)
Definition c40_prefix : bytes := count 5 16.
(** The MAC that the AVR code computes. *)
Definition c40_tag : bytes := Eval vm_compute in avr_mac demo_key (msg_a c40_prefix) 16.
Definition c40_mem : mem := mem_of
  [ROdata 0x1000 demo_key; ROdata 0x1300 (msg_a c40_prefix); ROdata 0x1400 (msg_b c40_prefix);
   ROdata 0x1500 c40_tag; RWfree 0x2000 64].
Example C40_cases :
  is16 demo_key /\ len c40_prefix mod 8 = 0 /\ readable c40_mem 0x1000 demo_key /\
  readable c40_mem 0x1300 (msg_a c40_prefix) /\ readable c40_mem 0x1400 (msg_b c40_prefix) /\
  writable c40_mem 0x2000 64 /\ free_cells c40_mem 0x9000 16 /\
  match verify_of (KEY_byte B_avr) Mac LE 0x9000 0x1500 0x1400 (len (msg_b c40_prefix)) 0x1000 c40_mem with
  | Done _ _ z => z = 0%Z | Bad _ => False end.
Proof.
  split; [reflexivity|]. split; [reflexivity|].
  split; [apply readableb_ok; vm_compute; reflexivity|].
  split; [apply readableb_ok; vm_compute; reflexivity|].
  split; [apply readableb_ok; vm_compute; reflexivity|].
  split; [apply writableb_ok; vm_compute; reflexivity|].
  split; [apply freeb_ok; vm_compute; reflexivity|].
  vm_compute. reflexivity.
Qed.
(** AEAD and PRFshort of the avr directories, and the hash functions of
    avr_lowsize, are among the implementations the other theorems claim
    conforming. *)
Example C40_avr_conforming :
  aead_host (AEAD_byte B_avr) LE = true /\ aead_host (AEAD_byte_low B_avr) LE = true /\ aead_host (AEAD_byte_comb B_avr) LE = true /\
  hash_host (HASH_byte_low B_avr) LE = true /\ hash_host (HASH_byte_comb B_avr) LE = true /\ key_host (KEY_byte B_avr) PrfShort LE = true /\
  hash_host (HASH_byte B_avr) LE = false /\ key_host (KEY_byte B_avr) Mac LE = false /\ key_host (KEY_byte B_avr) Prf LE = false.
Proof. repeat split. Qed.

(** ** C42 The AVR assembly function P

    A machine with 8-bit registers r0 to r31, the flags C and T and the
    40-byte state at the address in r25:r24; r22 holds the number of rounds
    (avr-gcc calling convention).  [avr_call] runs the code from there
    (ModelAvr.v). *)
Record avr_entry (n : N) (r f : list N) (s : bytes) : Prop := {
  ae_regs : length r = 32%nat; ae_bytes : Forall (fun x => x < 256) r;
  ae_flags : length f = 3%nat; ae_flag_vals : Forall (fun x => x < 256) f;
  ae_rounds : nth 22 r 0 = n; ae_state : length s = 40%nat }.

(** It returns with the state replaced by ascon-p of it, the stack pointer
    back, r1 zero and the call-saved registers as before. *)
Theorem C42_avr_function_computes_ascon_p : forall n r f s, In n [12; 8; 6] -> avr_entry n r f s ->
  exists M, avr_call r f s = Some M /\
    obj M = map b2n (p (N.to_nat n) s) /\ stk M = [] /\ nth 1 (regs M) 0 = 0 /\
    (forall i, (2 <= i <= 17 \/ i = 28 \/ i = 29)%nat -> nth i (regs M) 0 = nth i r 0).
Proof.
  intros n r f s Hn [Hl Hr Hf Hfv Hnr Hs].
  destruct (avr_P_ok n Hn s r f Hs Hl Hr Hnr Hf Hfv) as (M & E & _ & O & T & _ & R & R1).
  exists M. split; [exact E|]. split; [exact O|]. split; [exact T|]. split; [exact R1|exact R].
Qed.
Print Assumptions C42_avr_function_computes_ascon_p.
(** Its branches and memory accesses are the same for every state and every
    content of the registers but r22 and r25:r24. *)
Theorem C42_avr_function_constant_time : forall n r f s r' f' s', In n [12; 8; 6] ->
  avr_entry n r f s -> avr_entry n r' f' s' ->
  run_leak AFUEL avr_P_prog (avr_start r f s) = run_leak AFUEL avr_P_prog (avr_start r' f' s').
Proof.
  intros n r f s r' f' s' Hn [Hl Hr Hf Hfv Hnr Hs] [Hl' Hr' Hf' Hfv' Hnr' Hs'].
  apply (avr_P_leak n); assumption.
Qed.
Print Assumptions C42_avr_function_constant_time.
Example C42_avr_case : avr_entry 12 (map N.of_nat (seq 100 22) ++ [12; 0; 0x34; 0x12] ++ map N.of_nat (seq 200 6)) [1; 0; 77] (count 0 40) /\
  match run AFUEL avr_P_prog (avr_start (map N.of_nat (seq 100 22) ++ [12; 0; 0x34; 0x12] ++ map N.of_nat (seq 200 6)) [1; 0; 77] (count 0 40)) with
  | Some M => obj M = map b2n (p 12 (count 0 40)) /\ base M = 0x1234 | None => False end.
Proof. split; [split; try reflexivity; repeat constructor|]. vm_compute. auto. Qed.
