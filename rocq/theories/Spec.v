(** * Spec.v -- what the functions are supposed to compute.

    This file is an independent, byte-oriented transcription of the Ascon
    family: NIST SP 800-232 (Ascon-AEAD128, Ascon-Hash256, Ascon-XOF128,
    Ascon-CXOF128) and of Ascon-MAC / Ascon-PRF / Ascon-PRFshort in the
    little-endian v1.3 format.  It uses no definition of the C model: the
    320-bit state is a string of 40 bytes, messages are byte strings, and
    the S-box is the published 5-bit lookup table.

    The known-answer tests shipped in /repo (crypto_aead/.../LWC*.txt, ...)
    are replayed against these definitions in [KAT.v]; those are tests of
    this file, not proofs. *)
From Coq Require Import Arith NArith List Init.Byte Strings.Byte.
From Verif Require Import Words.
Import ListNotations.
Local Open Scope N_scope.

(** ** The permutation Ascon-p[rnd] (SP 800-232, section 3) *)

(** The state is a record of five 64-bit words ([Words.state]). *)

(** Round constants const_0 .. const_15; Ascon-p[rnd] uses the last [rnd]. *)
Definition round_constants : list N :=
  [0x3c; 0x2d; 0x1e; 0x0f; 0xf0; 0xe1; 0xd2; 0xc3;
   0xb4; 0xa5; 0x96; 0x87; 0x78; 0x69; 0x5a; 0x4b].

(** The 5-bit S-box; the bit taken from word 0 is the most significant. *)
Definition sbox_table : list N :=
  [0x04; 0x0b; 0x1f; 0x14; 0x1a; 0x15; 0x09; 0x02;
   0x1b; 0x05; 0x08; 0x12; 0x1d; 0x03; 0x06; 0x1c;
   0x1e; 0x13; 0x07; 0x0e; 0x00; 0x0d; 0x11; 0x18;
   0x10; 0x0c; 0x01; 0x19; 0x16; 0x0a; 0x0f; 0x17].

Definition bitval (b : bool) (w : N) : N := if b then w else 0.

(** Column [i] of the state as a 5-bit number. *)
Definition column (s : state) (i : N) : N :=
  bitval (N.testbit (X0 s) i) 16 + bitval (N.testbit (X1 s) i) 8 +
  bitval (N.testbit (X2 s) i) 4 + bitval (N.testbit (X3 s) i) 2 +
  bitval (N.testbit (X4 s) i) 1.

Definition sbox (v : N) : N := nth (N.to_nat v) sbox_table 0.

(** Constant addition, substitution layer, linear layer. *)
Definition pC (c : N) (s : state) : state :=
  St (X0 s) (X1 s) (N.lxor (X2 s) c) (X3 s) (X4 s).

Definition pS (s : state) : state :=
  St (of_bits 64 (fun i => N.testbit (sbox (column s i)) 4))
     (of_bits 64 (fun i => N.testbit (sbox (column s i)) 3))
     (of_bits 64 (fun i => N.testbit (sbox (column s i)) 2))
     (of_bits 64 (fun i => N.testbit (sbox (column s i)) 1))
     (of_bits 64 (fun i => N.testbit (sbox (column s i)) 0)).

(** Rotation of a 64-bit word to the right by [r]. *)
Definition rotr (x r : N) : N := of_bits 64 (fun i => N.testbit x ((i + r) mod 64)).

Definition sigma (x r1 r2 : N) : N := N.lxor x (N.lxor (rotr x r1) (rotr x r2)).

Definition pL (s : state) : state :=
  St (sigma (X0 s) 19 28) (sigma (X1 s) 61 39) (sigma (X2 s) 1 6)
     (sigma (X3 s) 10 17) (sigma (X4 s) 7 41).

Definition round (s : state) (c : N) : state := pL (pS (pC c s)).

Definition perm (rnd : nat) (s : state) : state :=
  fold_left round (skipn (16 - rnd)%nat round_constants) s.

(** ** The state as a string of 40 bytes (little-endian words) *)

Definition word_of (S : bytes) (i : nat) : N := le_num (firstn 8 (skipn (8 * i)%nat S)).

Definition state_of_bytes (S : bytes) : state :=
  St (word_of S 0) (word_of S 1) (word_of S 2) (word_of S 3) (word_of S 4).

Definition bytes_of_state (s : state) : bytes :=
  le_bytes 8 (X0 s) ++ le_bytes 8 (X1 s) ++ le_bytes 8 (X2 s) ++
  le_bytes 8 (X3 s) ++ le_bytes 8 (X4 s).

(** Ascon-p[rnd] on a 40-byte state. *)
Definition p (rnd : nat) (S : bytes) : bytes :=
  bytes_of_state (perm rnd (state_of_bytes S)).

(** ** Byte-string helpers *)

(** XOR the bytes [B] into the beginning of [S]. *)
Fixpoint xor_into (S B : bytes) : bytes :=
  match S, B with
  | s :: S', b :: B' => bxor s b :: xor_into S' B'
  | _, _ => S
  end.

(** XOR the bytes [B] into [S] starting at byte [off]. *)
Definition xor_at (off : nat) (S B : bytes) : bytes :=
  firstn off S ++ xor_into (skipn off S) B.

(** 10* padding to a multiple of [r] bytes. *)
Definition pad (r : nat) (m : bytes) : bytes :=
  m ++ x01 :: zeros (r - 1 - length m mod r)%nat.

(** Split into blocks of [r] bytes (the last one may be shorter). *)
Fixpoint chunks_fuel (fuel r : nat) (l : bytes) : list bytes :=
  match fuel, l with
  | O, _ => []
  | _, [] => []
  | S f, _ => firstn r l :: chunks_fuel f r (skipn r l)
  end.
Definition chunks (r : nat) (l : bytes) : list bytes := chunks_fuel (length l) r l.

(** Absorb every block of [bs], permuting after each. *)
Definition absorb (rnd : nat) (S : bytes) (bs : list bytes) : bytes :=
  fold_left (fun S B => p rnd (xor_into S B)) bs S.

(** The first [n] bytes of the output stream of a sponge with [r]-byte
    blocks, starting from state [S]. *)
Fixpoint squeeze_blocks (k r rnd : nat) (S : bytes) : bytes :=
  match k with
  | O => []
  | Datatypes.S k' => firstn r S ++ squeeze_blocks k' r rnd (p rnd S)
  end.
Definition squeeze (n r rnd : nat) (S : bytes) : bytes :=
  firstn n (squeeze_blocks (Datatypes.S (n / r)%nat) r rnd S).

(** ** Ascon-AEAD128 (SP 800-232, section 4): 16-byte key, nonce and tag *)

Definition iv_aead128 : bytes := le_bytes 8 0x00001000808c0001.

Definition aead_init (k n : bytes) : bytes :=
  xor_at 24 (p 12 (iv_aead128 ++ k ++ n)) k.

(** Associated data, then the domain-separation bit (last bit of the state). *)
Definition aead_ad (S ad : bytes) : bytes :=
  xor_at 39 (match ad with [] => S | _ => absorb 8 S (chunks 16 (pad 16 ad)) end) [x80].

(** Absorb the padded plaintext blocks; the first 16 bytes of the state
    after each XOR are ciphertext.  No permutation after the last block. *)
Fixpoint enc_blocks (S : bytes) (bs : list bytes) : bytes * bytes :=
  match bs with
  | [] => (S, [])
  | [B] => let S1 := xor_into S B in (S1, firstn 16 S1)
  | B :: bs' =>
      let S1 := xor_into S B in
      let '(S2, c) := enc_blocks (p 8 S1) bs' in
      (S2, firstn 16 S1 ++ c)
  end.

(** Ciphertext blocks: the plaintext is ciphertext XOR state, the
    ciphertext replaces the state bytes; the last block (0..15 bytes) is
    padded in the state. *)
Fixpoint dec_blocks (fuel : nat) (S c : bytes) : bytes * bytes :=
  match fuel with
  | O => (xor_at (length c) (c ++ skipn (length c) S) [x01], xor_into c S)
  | Datatypes.S f =>
      if Nat.ltb (length c) 16 then
        (xor_at (length c) (c ++ skipn (length c) S) [x01], xor_into c S)
      else
        let B := firstn 16 c in
        let '(S2, m) := dec_blocks f (p 8 (B ++ skipn 16 S)) (skipn 16 c) in
        (S2, xor_into B S ++ m)
  end.

Definition aead_tag (k S : bytes) : bytes :=
  xor_into (skipn 24 (p 12 (xor_at 16 S k))) k.

(** Ciphertext followed by the tag. *)
Definition aead_encrypt (k n ad m : bytes) : bytes :=
  let S := aead_ad (aead_init k n) ad in
  let '(S1, c) := enc_blocks S (chunks 16 (pad 16 m)) in
  firstn (length m) c ++ aead_tag k S1.

(** Candidate plaintext and expected tag for a ciphertext body. *)
Definition aead_open (k n ad c : bytes) : bytes * bytes :=
  let S := aead_ad (aead_init k n) ad in
  let '(S1, m) := dec_blocks (length c) S c in
  (m, aead_tag k S1).

(** The plaintext if the 16-byte tag at the end is right. *)
Definition aead_decrypt (k n ad ct : bytes) : option bytes :=
  if Nat.ltb (length ct) 16 then None
  else
    let body := firstn (length ct - 16)%nat ct in
    let tag := skipn (length ct - 16)%nat ct in
    let '(m, t) := aead_open k n ad body in
    if list_eq_dec Byte.byte_eq_dec t tag then Some m else None.

(** ** Ascon-Hash256, Ascon-XOF128, Ascon-CXOF128 (section 5): 8-byte rate *)

Definition iv_hash256 : bytes := le_bytes 8 0x0000080100cc0002.
Definition iv_xof128 : bytes := le_bytes 8 0x0000080000cc0003.
Definition iv_cxof128 : bytes := le_bytes 8 0x0000080000cc0004.

Definition hash_init (iv : bytes) : bytes := p 12 (iv ++ zeros 32).

Definition hash_sponge (S msg : bytes) (outlen : nat) : bytes :=
  squeeze outlen 8 12 (absorb 12 S (chunks 8 (pad 8 msg))).

Definition hash256 (msg : bytes) : bytes := hash_sponge (hash_init iv_hash256) msg 32.

Definition xof128 (msg : bytes) (outlen : nat) : bytes :=
  hash_sponge (hash_init iv_xof128) msg outlen.

(** The customization string is preceded by its length in bits. *)
Definition cxof128 (msg cs : bytes) (outlen : nat) : bytes :=
  let Z0 := le_bytes 8 (8 * N.of_nat (length cs)) in
  let S := absorb 12 (hash_init iv_cxof128) (Z0 :: chunks 8 (pad 8 cs)) in
  hash_sponge S msg outlen.

(** ** Ascon-MAC, Ascon-PRF: 32-byte input rate, 16-byte output rate *)

Definition iv_mac : bytes := le_bytes 8 0x0010200080cc0005.
Definition iv_prf : bytes := le_bytes 8 0x0010200000cc0006.

(** All padded blocks but the last are followed by the permutation; a
    final bit is added to the last block before it is permuted. *)
Fixpoint prf_absorb (S : bytes) (bs : list bytes) : bytes :=
  match bs with
  | [] => S
  | [B] => p 12 (xor_at 39 (xor_into S B) [x80])
  | B :: bs' => prf_absorb (p 12 (xor_into S B)) bs'
  end.

Definition prf_gen (iv k msg : bytes) (outlen : nat) : bytes :=
  squeeze outlen 16 12
    (prf_absorb (p 12 (iv ++ k ++ zeros 16)) (chunks 32 (pad 32 msg))).

Definition mac (k msg : bytes) (outlen : nat) : bytes := prf_gen iv_mac k msg outlen.
Definition prf (k msg : bytes) (outlen : nat) : bytes := prf_gen iv_prf k msg outlen.

(** ** Ascon-PRFshort: messages and outputs of at most 16 bytes *)

(** The initial value holds the message length in bits in byte 6. *)
Definition iv_prfs (len : nat) : bytes :=
  le_bytes 8 (0x00000000800c0007 + 2 ^ 48 * (8 * N.of_nat len)).

Definition prf_short (k msg : bytes) (outlen : nat) : bytes :=
  firstn outlen
    (xor_into (skipn 24 (p 12 (iv_prfs (length msg) ++ k ++ msg ++ zeros (16 - length msg)%nat))) k).
