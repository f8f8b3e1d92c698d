(** * PropertiesMaskHide.v -- masking a text with [ns] shares: the shares make
    up the text, and any [ns - 1] of them say nothing about it (C51).

    generate_shares of shares.c, for every text, every address of the text and
    of the buffer, every memory and every sequence [R] of random words, of
    which the call takes those with the numbers from [g] on. *)
From Coq Require Import Bool Arith NArith List Lia Init.Byte Strings.Byte.
From Verif Require Import Words Spec SpecHide ModelCommon ModelMask MaskShares MaskHide CMem Contract CMemFacts Demo.
Import ListNotations.
Local Open Scope N_scope.

(** ** C51 The shares make up the text

    The XOR of the [ns] shares of each word, share [d] rotated by [10 d], is
    the word of the text; the shares from 1 on are the random words
    themselves, each used once.  The memory is unchanged. *)
Theorem C51_shares_make_up_the_text : forall R ns g base M data l,
  (1 <= ns <= 4)%nat -> readable M data l -> len l < 2 ^ 60 ->
  exists a g', runs (generate_shares R LE g (malloc_shares base ns (len l)) ns data (len l)) M M (a, g') /\
    g' = g + N.of_nat (words_of (length l)) * (N.of_nat ns - 1) /\
    forall j, (j < words_of (length l))%nat -> xor_of_shares (a_cells a) ns j ns = Some (word_at l j) /\
      forall d, (1 <= d)%nat -> (d < ns)%nat ->
        share_of (a_cells a) ns j d = Some (R (g + N.of_nat (j * (ns - 1) + (d - 1))) mod 2 ^ 64).
Proof. intros R ns g base M data l. exact (masks ns g base R M data l). Qed.
Print Assumptions C51_shares_make_up_the_text.

(** ** C51 All shares but one say nothing about the text

    For any two texts of the same length there is a sequence of 64-bit words
    which, XORed onto the random words, makes the masking of the second text
    equal to that of the first in every cell except those of share [d0]
    (cells whose number is [d0] modulo [ns]).  As XORing is a bijection on the
    sequences of random words, these cells have the same distribution for both
    texts. *)
Theorem C51_all_but_one_share_hide_the_text : forall ns d0 g base M1 M2 data1 data2 l1 l2,
  (1 <= ns <= 4)%nat -> (d0 < ns)%nat ->
  readable M1 data1 l1 -> readable M2 data2 l2 -> length l1 = length l2 -> len l1 < 2 ^ 60 ->
  exists mask : N -> N, (forall i, mask i < 2 ^ 64) /\ forall R, exists a1 a2 g',
    runs (generate_shares R LE g (malloc_shares base ns (len l1)) ns data1 (len l1)) M1 M1 (a1, g') /\
    runs (generate_shares (fun i => N.lxor (R i) (mask i)) LE g (malloc_shares base ns (len l2)) ns data2 (len l2)) M2 M2 (a2, g') /\
    forall i, (i mod ns)%nat <> d0 -> nth_error (a_cells a1) i = nth_error (a_cells a2) i.
Proof. intros ns d0 g base M1 M2 data1 data2 l1 l2. exact (hidden ns d0 g base M1 M2 data1 data2 l1 l2). Qed.
Print Assumptions C51_all_but_one_share_hide_the_text.

(** ** C51 Only the words from [g] to [g' - 1] are used: sequences that agree there give the same cells. *)
Theorem C51_uses_only_its_words : forall R1 R2 ns g base M data l,
  (1 <= ns <= 4)%nat -> readable M data l -> len l < 2 ^ 60 ->
  (forall i, g <= i -> i < g + N.of_nat (words_of (length l)) * (N.of_nat ns - 1) -> R1 i = R2 i) ->
  exists a1 a2 g', runs (generate_shares R1 LE g (malloc_shares base ns (len l)) ns data (len l)) M M (a1, g') /\
    runs (generate_shares R2 LE g (malloc_shares base ns (len l)) ns data (len l)) M M (a2, g') /\ a_cells a2 = a_cells a1.
Proof.
  intros R1 R2 ns g base M data l A B C D. destruct (one_mask R1 R2 M ns g base data l A B C D) as (a1 & a2 & H).
  exists a1, a2. eexists. exact H.
Qed.
Print Assumptions C51_uses_only_its_words.

(** ** C51 Several inputs, masked one after another

    Any list of jobs ([mask_all]: the key, the nonce, the associated data and
    the text in crypto_aead_encrypt, each with its own number of shares): there
    is one sequence of words which, XORed onto the random words, makes the
    masking of all second texts together equal to that of all first texts, in
    every cell of every buffer except, for each job, those of one share
    ([same_seen]).  So the shares seen have the same joint distribution for all
    inputs.  The words after those used (from [g'] on) stay as they are. *)
Theorem C51_inputs_hidden_jointly : forall M1 M2 jobs g, Forall (job_ok M1 M2) jobs ->
  exists mask : N -> N, (forall i, mask i < 2 ^ 64) /\ forall R, exists bufs1 bufs2 g',
    runs (mask_all true R g jobs) M1 M1 (bufs1, g') /\
    runs (mask_all false (fun i => N.lxor (R i) (mask i)) g jobs) M2 M2 (bufs2, g') /\ same_seen jobs bufs1 bufs2 /\
    forall i, g' <= i -> mask i = 0.
Proof. intros M1 M2 jobs g. exact (hidden_jointly M1 M2 jobs g). Qed.
Print Assumptions C51_inputs_hidden_jointly.

(** ** C51 An encryption sees the same shares for all inputs

    Two inputs (key, nonce, associated data, text) of the same lengths, for any
    configuration of shares.  crypto_aead_encrypt masks its input and goes on
    with the shares ([after_masking], crypto_aead.c l.39-51): under the
    bijection above it goes on, for both inputs, with buffers that agree in all
    shares except one of each input, and with the same random words ahead. *)
Theorem C51_encryption_hides_its_inputs : forall M1 M2 F H c clen nsec d0 d1 d2 d3 x y,
  Forall (job_ok M1 M2) (enc_jobs F H d0 d1 d2 d3 x y) -> len (i_kb x) = 16 -> len (i_nb x) = 16 ->
  exists mask : N -> N, (forall i, mask i < 2 ^ 64) /\ forall R, exists bufs1 bufs2 g t1 t2,
    masked_encrypt F R LE H c clen (i_m x) (len (i_mb x)) (i_a x) (len (i_ab x)) nsec (i_n x) (i_k x) M1 =
      match after_masking F R H c clen (len (i_mb x)) (len (i_ab x)) bufs1 g M1 with Done t M' r => Done (t1 ++ t) M' r | Bad e => Bad e end /\
    masked_encrypt F (fun i => N.lxor (R i) (mask i)) LE H c clen (i_m y) (len (i_mb y)) (i_a y) (len (i_ab y)) nsec (i_n y) (i_k y) M2 =
      match after_masking F (fun i => N.lxor (R i) (mask i)) H c clen (len (i_mb x)) (len (i_ab x)) bufs2 g M2 with
      | Done t M' r => Done (t2 ++ t) M' r | Bad e => Bad e end /\
    same_seen (enc_jobs F H d0 d1 d2 d3 x y) bufs1 bufs2 /\ forall i, g <= i -> mask i = 0.
Proof. intros M1 M2 F H c clen nsec d0 d1 d2 d3 x y. exact (encryption_hides M1 M2 F H c clen nsec d0 d1 d2 d3 x y). Qed.
Print Assumptions C51_encryption_hides_its_inputs.

(** ** C51 A decryption sees the same shares for all keys, nonces and associated data

    The same for crypto_aead_decrypt, which then masks the (public) ciphertext
    with the random words ahead ([after_masking_dec], crypto_aead.c l.73-90). *)
Theorem C51_decryption_hides_its_inputs : forall M1 M2 F H m mlen c clen nsec d0 d1 d2 x y,
  Forall (job_ok M1 M2) (dec_jobs F H d0 d1 d2 x y) -> len (i_kb x) = 16 -> len (i_nb x) = 16 -> 16 <= clen ->
  exists mask : N -> N, (forall i, mask i < 2 ^ 64) /\ forall R, exists bufs1 bufs2 g t1 t2,
    masked_decrypt F R LE H m mlen nsec c clen (i_a x) (len (i_ab x)) (i_n x) (i_k x) M1 =
      match after_masking_dec F R H m mlen c clen (len (i_ab x)) bufs1 g M1 with Done t M' r => Done (t1 ++ t) M' r | Bad e => Bad e end /\
    masked_decrypt F (fun i => N.lxor (R i) (mask i)) LE H m mlen nsec c clen (i_a y) (len (i_ab y)) (i_n y) (i_k y) M2 =
      match after_masking_dec F (fun i => N.lxor (R i) (mask i)) H m mlen c clen (len (i_ab x)) bufs2 g M2 with
      | Done t M' r => Done (t2 ++ t) M' r | Bad e => Bad e end /\
    same_seen (dec_jobs F H d0 d1 d2 x y) bufs1 bufs2 /\ forall i, g <= i -> mask i = 0.
Proof. intros M1 M2 F H m mlen c clen nsec d0 d1 d2 x y. exact (decryption_hides M1 M2 F H m mlen c clen nsec d0 d1 d2 x y). Qed.
Print Assumptions C51_decryption_hides_its_inputs.

(** ** C51 All shares give the text away: with the same cells, the texts agree. *)
Theorem C51_all_shares_determine_the_text : forall R1 R2 ns g1 g2 base1 base2 M1 M2 data1 data2 l1 l2 a1 a2 g1' g2',
  (1 <= ns <= 4)%nat -> readable M1 data1 l1 -> readable M2 data2 l2 -> length l1 = length l2 -> len l1 < 2 ^ 60 ->
  runs (generate_shares R1 LE g1 (malloc_shares base1 ns (len l1)) ns data1 (len l1)) M1 M1 (a1, g1') ->
  runs (generate_shares R2 LE g2 (malloc_shares base2 ns (len l2)) ns data2 (len l2)) M2 M2 (a2, g2') ->
  a_cells a1 = a_cells a2 -> forall j, (j < words_of (length l1))%nat -> word_at l1 j = word_at l2 j.
Proof.
  intros R1 R2 ns g1 g2 base1 base2 M1 M2 data1 data2 l1 l2 a1 a2 g1' g2' Hn Rd1 Rd2 EL Hl X1 X2 E j Hj.
  destruct (masks ns g1 base1 R1 M1 data1 l1 Hn Rd1 Hl) as (b1 & h1 & Y1 & _ & S1).
  destruct (masks ns g2 base2 R2 M2 data2 l2 Hn Rd2) as (b2 & h2 & Y2 & _ & S2); [unfold len in *; rewrite <- EL; exact Hl|].
  destruct (runs_det _ _ _ _ _ _ X1 Y1) as [_ D1]. destruct (runs_det _ _ _ _ _ _ X2 Y2) as [_ D2].
  assert (F1 := f_equal fst D1). assert (F2 := f_equal fst D2). cbn [fst] in F1, F2. subst b1 b2.
  destruct (S1 j Hj) as [V1 _]. destruct (S2 j ltac:(rewrite <- EL; exact Hj)) as [V2 _]. rewrite E in V1.
  assert (V : Some (word_at l1 j) = Some (word_at l2 j)) by congruence.
  exact (f_equal (fun o => match o with Some v => v | None => 0 end) V).
Qed.
Print Assumptions C51_all_shares_determine_the_text.

(** ** A case: 20 bytes, two texts at different addresses *)
Definition hide_mem1 : mem := mem_of [ROdata 0x1301 demo_msg].
Definition hide_mem2 : mem := mem_of [ROdata 0x5000 (zeros 20)].
Theorem C51_case : readable hide_mem1 0x1301 demo_msg /\ readable hide_mem2 0x5000 (zeros 20) /\
  length demo_msg = length (zeros 20) /\ len demo_msg < 2 ^ 60 /\ words_of (length demo_msg) = 3%nat /\ demo_msg <> zeros 20.
Proof.
  split; [apply readableb_ok; vm_compute; reflexivity|]. split; [apply readableb_ok; vm_compute; reflexivity|].
  split; [reflexivity|]. split; [reflexivity|]. split; [reflexivity|discriminate].
Qed.
Print Assumptions C51_case.

(** Two jobs: the 20 bytes with 3 shares of which share 0 is not seen, then 16 bytes with 2 shares of which share 1 is not seen *)
Definition hide_jobs : list job :=
  [Job 3 0 0x9000 0x1301 demo_msg 0x5000 (zeros 20); Job 2 1 0xa000 0x1301 (firstn 16 demo_msg) 0x5000 (zeros 16)].
Theorem C51_case_jobs : Forall (job_ok hide_mem1 hide_mem2) hide_jobs.
Proof.
  unfold hide_jobs. apply Forall_cons; [|apply Forall_cons; [|apply Forall_nil]];
    unfold job_ok; cbn [j_ns j_d0 j_data1 j_data2 j_text1 j_text2];
    (split; [lia|]; split; [lia|]; split; [apply readableb_ok; vm_compute; reflexivity|];
     split; [apply readableb_ok; vm_compute; reflexivity|]; split; reflexivity).
Qed.
Print Assumptions C51_case_jobs.

(** An encryption with shares 3, 3, 1, 2, 2 and two inputs that differ everywhere *)
Definition hide_x : input := Input 0x1000 demo_key 0x1100 demo_nonce 0x1200 demo_ad 0x1301 demo_msg.
Definition hide_y : input := Input 0x5000 (zeros 16) 0x5100 (zeros 16) 0x5200 (zeros 3) 0x5300 (zeros 20).
Definition hide_mem3 : mem := mem_of [ROdata 0x1000 demo_key; ROdata 0x1100 demo_nonce; ROdata 0x1200 demo_ad; ROdata 0x1301 demo_msg].
Definition hide_mem4 : mem := mem_of [ROdata 0x5000 (zeros 16); ROdata 0x5100 (zeros 16); ROdata 0x5200 (zeros 3); ROdata 0x5300 (zeros 20)].
Theorem C51_case_encryption : forall H,
  Forall (job_ok hide_mem3 hide_mem4) (enc_jobs (Cfg 3 3 1 2 2) H 1 0 0 2 hide_x hide_y) /\ len (i_kb hide_x) = 16 /\ len (i_nb hide_x) = 16.
Proof.
  intros H. split; [|split; reflexivity]. unfold enc_jobs. cbn [nKEY nNPUB nAD nM hide_x hide_y i_k i_kb i_n i_nb i_a i_ab i_m i_mb].
  apply Forall_cons; [|apply Forall_cons; [|apply Forall_cons; [|apply Forall_cons; [|apply Forall_nil]]]];
    unfold job_ok; cbn [j_ns j_d0 j_data1 j_data2 j_text1 j_text2];
    (split; [lia|]; split; [lia|]; split; [apply readableb_ok; vm_compute; reflexivity|];
     split; [apply readableb_ok; vm_compute; reflexivity|]; split; reflexivity).
Qed.
Print Assumptions C51_case_encryption.
Theorem C51_case_decryption : forall H,
  Forall (job_ok hide_mem3 hide_mem4) (dec_jobs (Cfg 3 3 1 2 2) H 1 0 0 hide_x hide_y).
Proof. intros H. destruct (C51_case_encryption H) as [A _]. inversion A as [|? ? A0 B]. inversion B as [|? ? A1 B1]. inversion B1 as [|? ? A2 B2].
  unfold dec_jobs. repeat (apply Forall_cons; [assumption|]). apply Forall_nil. Qed.
Print Assumptions C51_case_decryption.
