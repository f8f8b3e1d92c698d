(** * Spec12.v -- Ascon-128a v1.2 next to Ascon-AEAD128.

    Both algorithms are the same duplex mode with different parameters: the
    order of the bytes in a word, the initial value, the padding byte and the
    place of the domain separation bit.  [aead128] is Ascon-AEAD128 of
    NIST SP 800-232 (that it is the one of Spec.v is proved in Spec12Facts.v);
    [ascon128a_v12] is Ascon-128a of the submission to the CAESAR and NIST
    lightweight competitions ("Ascon v1.2"), on which SP 800-232 is based and
    with which it is not compatible. *)
From Coq Require Import Arith NArith List Init.Byte Strings.Byte.
From Verif Require Import Words Spec.
Import ListNotations.
Local Open Scope N_scope.

(** ** The permutation on 40 bytes, words most significant byte first *)

Definition be_word (S : bytes) (i : nat) : N := le_num (rev (firstn 8 (skipn (8 * i)%nat S))).
Definition be_state (S : bytes) : state :=
  St (be_word S 0) (be_word S 1) (be_word S 2) (be_word S 3) (be_word S 4).
Definition be_bytes8 (x : N) : bytes := rev (le_bytes 8 x).
Definition bytes_of_be_state (s : state) : bytes :=
  be_bytes8 (X0 s) ++ be_bytes8 (X1 s) ++ be_bytes8 (X2 s) ++ be_bytes8 (X3 s) ++ be_bytes8 (X4 s).
Definition p_be (rnd : nat) (S : bytes) : bytes := bytes_of_be_state (perm rnd (be_state S)).

(** ** The mode *)

Record params := Params {
  perm_of : nat -> bytes -> bytes;  (** [rnd] rounds on 40 bytes *)
  iv_of : bytes;                    (** 8 bytes *)
  pad_of : byte;                    (** follows the last byte of a text *)
  sep_of : byte                     (** is added to the last byte of the state after the associated data *)
}.

Section mode.
Variable P : params.
Let p8 := perm_of P 8.
Let p12 := perm_of P 12.

(** Absorb a text in blocks of 16 bytes; the last block, of 0 to 15 bytes,
    is padded, and is not followed by the permutation. *)
Fixpoint d_absorb (fuel : nat) (S m : bytes) : bytes :=
  match fuel with
  | O => xor_into S (m ++ [pad_of P])
  | Datatypes.S f =>
      if Nat.ltb (length m) 16 then xor_into S (m ++ [pad_of P])
      else d_absorb f (p8 (xor_into S (firstn 16 m))) (skipn 16 m)
  end.
(** Encrypt: the text is also output, XORed with the state. *)
Fixpoint d_encrypt (fuel : nat) (S m : bytes) : bytes * bytes :=
  match fuel with
  | O => (xor_into S (m ++ [pad_of P]), xor_into m S)
  | Datatypes.S f =>
      if Nat.ltb (length m) 16 then (xor_into S (m ++ [pad_of P]), xor_into m S)
      else
        let '(S2, c) := d_encrypt f (p8 (xor_into S (firstn 16 m))) (skipn 16 m) in
        (S2, xor_into (firstn 16 m) S ++ c)
  end.
(** Decrypt: the text replaces the bytes of the state. *)
Fixpoint d_decrypt (fuel : nat) (S c : bytes) : bytes * bytes :=
  match fuel with
  | O => (xor_at (length c) (c ++ skipn (length c) S) [pad_of P], xor_into c S)
  | Datatypes.S f =>
      if Nat.ltb (length c) 16 then
        (xor_at (length c) (c ++ skipn (length c) S) [pad_of P], xor_into c S)
      else
        let '(S2, m) := d_decrypt f (p8 (firstn 16 c ++ skipn 16 S)) (skipn 16 c) in
        (S2, xor_into (firstn 16 c) S ++ m)
  end.

Definition d_init (k n : bytes) : bytes := xor_at 24 (p12 (iv_of P ++ k ++ n)) k.
Definition d_ad (S ad : bytes) : bytes :=
  xor_at 39 (match ad with [] => S | _ => p8 (d_absorb (length ad) S ad) end) [sep_of P].
Definition d_tag (k S : bytes) : bytes := xor_into (skipn 24 (p12 (xor_at 16 S k))) k.

(** Ciphertext followed by the tag. *)
Definition duplex_encrypt (k n ad m : bytes) : bytes :=
  let '(S1, c) := d_encrypt (length m) (d_ad (d_init k n) ad) m in c ++ d_tag k S1.
(** Candidate plaintext and expected tag for a ciphertext body. *)
Definition duplex_open (k n ad c : bytes) : bytes * bytes :=
  let '(S1, m) := d_decrypt (length c) (d_ad (d_init k n) ad) c in (m, d_tag k S1).
End mode.

Definition aead128 : params := Params p iv_aead128 x01 x80.
Definition ascon128a_v12 : params := Params p_be [x80; x80; x0c; x08; x00; x00; x00; x00] x80 x01.
