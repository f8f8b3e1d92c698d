(** * Impls.v -- the implementations the theorems range over.

    One constructor per modelled implementation directory; the functions
    below select its model.  [*_host i e = true] says that the
    implementation is claimed to work on a host of byte order [e];
    [*_demands] what it asks of its caller beyond [ApiSpec.v]. *)
From Coq Require Import Bool NArith ZArith List Init.Byte.
From Verif Require Import Words Spec CMem Contract ApiSpec ModelRef ModelCommon ModelWords ModelLow ModelOpt8 ModelArm ModelAvr ModelEsp32 ModelAvx ModelNeon.
Import ListNotations.
Local Open Scope N_scope.

(** The directories that share the mode code of ModelCommon.v. *)
Inductive word_impl := W_opt64 | W_opt32 | W_bi32 | W_bi32_lowreg | W_bi8
  | W_armv6 | W_armv6m | W_armv7m | W_armv7m_small
  | W_bi32_armv6 | W_bi32_armv6m | W_bi32_armv7m | W_bi32_armv7m_small.
Definition word_ops (w : word_impl) : endian -> wordops :=
  match w with
  | W_opt64 => opt64 | W_opt32 => opt32
  | W_bi32 => bi32 | W_bi32_lowreg => bi32_lowreg | W_bi8 => bi8
  | W_armv6 => armv6 | W_armv6m => armv6m | W_armv7m => armv7m | W_armv7m_small => armv7m_small
  | W_bi32_armv6 => bi32_armv6 | W_bi32_armv6m => bi32_armv6m
  | W_bi32_armv7m => bi32_armv7m | W_bi32_armv7m_small => bi32_armv7m_small
  end.
(** Big-endian hosts: the rotations of bi32 and bi8 and the assembly are
    wrong there (C27 in PropertiesLow.v), so nothing is claimed. *)
Definition le_only (e : endian) : bool := match e with LE => true | BE => false end.
Definition word_host (w : word_impl) (e : endian) : bool :=
  match w with W_opt64 | W_opt32 => true | _ => le_only e end.

(** The *_lowsize directories. *)
Inductive low_impl := L_opt64 | L_opt32 | L_bi32 | L_armv6 | L_armv6m | L_armv7m.
Definition low_ops (w : low_impl) : endian -> wordops :=
  match w with
  | L_opt64 => opt64_lowsize | L_opt32 => opt32_lowsize | L_bi32 => bi32_lowsize
  | L_armv6 => armv6_lowsize | L_armv6m => armv6m_lowsize | L_armv7m => armv7m_small
  end.
Definition low_host (w : low_impl) (e : endian) : bool :=
  match w with L_opt64 | L_opt32 => true | _ => le_only e end.

(** The directories that keep the state as bytes: opt8 and avr, and their
    _lowsize variants.  They have the same C files, except that avr has its
    own hash.c and prf.c, and the permutation in assembly. *)
Inductive byte_impl := B_opt8 | B_avr.
Definition byte_P (w : byte_impl) : N -> bytes -> bytes := match w with B_opt8 => P8bit | B_avr => avr_P end.
Definition byte_hpad (w : byte_impl) : N -> N := match w with B_opt8 => opt8_hpad | B_avr => avr_hpad end.
Definition byte_dpos (w : byte_impl) : N := match w with B_opt8 => opt8_dpos | B_avr => avr_dpos end.

(** crypto_aead/asconaead128/<dir> and crypto_aead_hash/asconaeadxof128/<dir>:
    [AEAD_low w] is crypto_aead/asconaead128/<w>_lowsize, [AEAD_comb w] is
    crypto_aead_hash/asconaeadxof128/<w>_lowsize.  The other directories of
    crypto_aead_hash contain the same files as those of crypto_aead and
    crypto_hash. The size-optimised code steps a null pointer
    (ModelLow.v, [strict]); here that is address arithmetic.
    [AEAD_byte w] is the directory <w> of either, [AEAD_byte_low w] is
    crypto_aead/asconaead128/<w>_lowsize, [AEAD_byte_comb w] is
    crypto_aead_hash/asconaeadxof128/<w>_lowsize.
    [AEAD_esp32] is the directory esp32, with an unsigned long of 64 bits
    (other widths: PropertiesEsp.v).
    [AEAD_avx512 u] is the directory avx512, when the automatic variable
    that becomes the state holds [u] before it is initialised: C does not
    say what that is, so every theorem about it is for every [u].
    [AEAD_neon u] is the directory neon, when the NEON registers hold [u]
    before the assembly; again every theorem is for every [u]. *)
Inductive aead_impl := AEAD_ref | AEAD_word (w : word_impl) | AEAD_low (w : low_impl) | AEAD_comb (w : low_impl)
  | AEAD_byte (w : byte_impl) | AEAD_byte_low (w : byte_impl) | AEAD_byte_comb (w : byte_impl) | AEAD_esp32
  | AEAD_avx512 (u : zmm) | AEAD_neon (u : dregs).
Definition encrypt_of (i : aead_impl) (e : endian) : encrypt_fn :=
  match i with
  | AEAD_ref => ModelRef.crypto_aead_encrypt e
  | AEAD_word w => com_aead_encrypt e (word_ops w e)
  | AEAD_low w => low_aead_encrypt e (low_ops w e) false false
  | AEAD_comb w => low_aead_encrypt e (low_ops w e) false true
  | AEAD_byte w => o8_aead_encrypt e (byte_P w)
  | AEAD_byte_low w => o8_low_aead_encrypt e (byte_P w) true false false
  | AEAD_byte_comb w => o8_low_aead_encrypt e (byte_P w) true true false
  | AEAD_esp32 => esp_aead_encrypt e false 64
  | AEAD_avx512 u => avx_aead_encrypt u
  | AEAD_neon u => neon_aead_encrypt u
  end.
Definition decrypt_of (i : aead_impl) (e : endian) : decrypt_fn :=
  match i with
  | AEAD_ref => ModelRef.crypto_aead_decrypt e
  | AEAD_word w => com_aead_decrypt e (word_ops w e)
  | AEAD_low w => low_aead_decrypt e (low_ops w e) false false
  | AEAD_comb w => low_aead_decrypt e (low_ops w e) false true
  | AEAD_byte w => o8_aead_decrypt e (byte_P w)
  | AEAD_byte_low w => o8_low_aead_decrypt e (byte_P w) true false false
  | AEAD_byte_comb w => o8_low_aead_decrypt e (byte_P w) true true false
  | AEAD_esp32 => esp_aead_decrypt e false 64
  | AEAD_avx512 u => avx_aead_decrypt u
  | AEAD_neon u => neon_aead_decrypt u
  end.
Definition aead_host (i : aead_impl) (e : endian) : bool :=
  match i with
  | AEAD_ref | AEAD_esp32 => true | AEAD_word w => word_host w e | AEAD_low w | AEAD_comb w => low_host w e
  | AEAD_byte _ | AEAD_byte_low _ | AEAD_byte_comb _ | AEAD_avx512 _ | AEAD_neon _ => le_only e
  end.
Definition aead_demands (i : aead_impl) : demands :=
  match i with
  | AEAD_ref | AEAD_word _ | AEAD_byte _ | AEAD_byte_low _ | AEAD_byte_comb _ | AEAD_avx512 _ => Demands false false false
  (* update.c l.65, l.69 give memcpy the text pointers even for 0 bytes *)
  | AEAD_low _ | AEAD_comb _ => Demands true false false
  (* esp32/api.h l.6: CRYPTO_NOOVERLAP; core.c l.75, l.88 *)
  | AEAD_esp32 => Demands true true false
  (* neon/aead.c l.17-19, l.50-55, l.84-90: vldm and vstm of whole blocks,
     and loop counters that lose the upper half of the length *)
  | AEAD_neon _ => Demands false false true
  end.
(** Lengths below this are processed in finitely many steps. *)
Definition aead_maxlen (i : aead_impl) : N := match i with AEAD_neon _ => 2 ^ 32 | _ => 2 ^ 64 end.
(** esp32/decrypt.c l.12-13 stores *mlen before it rejects a short input. *)
Definition short_stores_mlen (i : aead_impl) : bool := match i with AEAD_esp32 => true | _ => false end.

Inductive hash_alg := Hash256 | Xof128.
Definition hash_fun (a : hash_alg) : bytes -> bytes :=
  match a with Hash256 => hash256 | Xof128 => fun l => xof128 l 64 end.
Definition hash_len (a : hash_alg) : N := match a with Hash256 => 32 | Xof128 => 64 end.

(** crypto_hash/asconhash256/<dir> and crypto_hash/asconxof128/<dir>;
    [HASH_comb w] is crypto_aead_hash/asconaeadxof128/<w>_lowsize, which
    exists for XOF128 only: for Hash256 it is src/combined/hash.c with
    ASCON_HASH_BYTES 32, a configuration the source has (l.7) but no
    directory uses.  [HASH_byte], [HASH_byte_low], [HASH_byte_comb]: as for
    the AEAD directories. *)
Inductive hash_impl := HASH_ref | HASH_word (w : word_impl) | HASH_low (w : low_impl) | HASH_comb (w : low_impl)
  | HASH_byte (w : byte_impl) | HASH_byte_low (w : byte_impl) | HASH_byte_comb (w : byte_impl) | HASH_esp32
  | HASH_avx512 | HASH_neon (u : dregs).
Definition com_hash (a : hash_alg) (e : endian) (o : wordops) : hash_fn :=
  match a with Hash256 => com_hash_hash256 e o | Xof128 => com_hash_xof128 e o end.
Definition hash_of (i : hash_impl) (a : hash_alg) (e : endian) : hash_fn :=
  match i with
  | HASH_ref => match a with
                | Hash256 => ModelRef.crypto_hash_hash256
                | Xof128 => ModelRef.crypto_hash_xof128
                end
  | HASH_word w => com_hash a e (word_ops w e)
  | HASH_low w => com_hash a e (low_ops w e)
  | HASH_comb w => match a with
                   | Hash256 => fun out inp n => low_xof e (low_ops w e) false true (c_hash (low_ops w e)) out 32 inp n
                   | Xof128 => low_hash_xof128 e (low_ops w e) false true
                   end
  | HASH_byte w => match a with
                 | Hash256 => o8_hash_hash256 e (byte_P w) (byte_hpad w)
                 | Xof128 => o8_hash_xof128 e (byte_P w) (byte_hpad w)
                 end
  | HASH_byte_low w => match a with
                     | Hash256 => o8_low_hash256 e (byte_P w) false true false
                     | Xof128 => o8_low_xof128 e (byte_P w) false true false
                     end
  | HASH_byte_comb w => match a with
                      | Hash256 => o8_low_hash256 e (byte_P w) true true false
                      | Xof128 => o8_low_xof128 e (byte_P w) true true false
                      end
  | HASH_esp32 => match a with
                  | Hash256 => esp_hash e 64 w64_HASH_IV 32
                  | Xof128 => esp_hash e 64 w64_XOF_IV 64
                  end
  | HASH_avx512 => match a with
                   | Hash256 => avx_hash_hash256
                   | Xof128 => avx_hash_xof128
                   end
  | HASH_neon u => com_hash a LE (neon_ops u LE)
  end.
Definition hash_host (i : hash_impl) (e : endian) : bool :=
  match i with
  | HASH_ref | HASH_esp32 => true | HASH_word w => word_host w e | HASH_low w | HASH_comb w => low_host w e
  (* avr/hash.c pads wrongly: nothing is claimed of it (C40, PropertiesAsm.v) *)
  | HASH_byte B_avr => false
  | HASH_byte B_opt8 | HASH_byte_low _ | HASH_byte_comb _ | HASH_avx512 | HASH_neon _ => le_only e
  end.
Definition hash_demands (i : hash_impl) : demands :=
  match i with
  | HASH_ref | HASH_byte _ | HASH_byte_low _ | HASH_byte_comb _ => Demands false false false
  | HASH_word _ | HASH_low _ | HASH_comb _ | HASH_esp32 | HASH_avx512 | HASH_neon _ => Demands true false false
  end.

Inductive key_alg := Mac | Prf | PrfShort.
Definition key_fun (a : key_alg) : bytes -> bytes -> nat -> bytes :=
  match a with Mac => mac | Prf => prf | PrfShort => prf_short end.
(** Longest message and output. *)
Definition key_inmax (a : key_alg) : option N := match a with PrfShort => Some 16 | _ => None end.
Definition key_outmax (a : key_alg) : N := match a with Prf => 64 | _ => 16 end.

(** crypto_auth/asconmacv13/<dir>, asconprfv13/<dir>, asconprfsv13/<dir> *)
Inductive key_impl := KEY_ref | KEY_word (w : word_impl) | KEY_byte (w : byte_impl).
(** constants.h l.44, l.46 *)
Definition opt8_MAC_IV : N := 0x0010200080cc0005.
Definition opt8_PRF_IV : N := 0x0010200000cc0006.
Definition prf_of (i : key_impl) (a : key_alg) (e : endian) : prf_fn :=
  match i, a with
  | KEY_ref, Mac => ModelRef.crypto_prf_mac
  | KEY_ref, Prf => ModelRef.crypto_prf_prf
  | KEY_ref, PrfShort => ModelRef.crypto_prf_prfs
  | KEY_word w, Mac => let o := word_ops w e in com_prf e o (c_mac o) 16
  | KEY_word w, Prf => let o := word_ops w e in com_prf e o (c_prf o) 64
  | KEY_word w, PrfShort => com_prfs e (word_ops w e)
  | KEY_byte w, Mac => o8_prf e (byte_P w) (byte_hpad w) (byte_dpos w) opt8_MAC_IV 16
  | KEY_byte w, Prf => o8_prf e (byte_P w) (byte_hpad w) (byte_dpos w) opt8_PRF_IV 64
  | KEY_byte w, PrfShort => o8_prfs e (byte_P w)
  end.
Definition auth_of (i : key_impl) (a : key_alg) (e : endian) : auth_fn :=
  match i, a with
  | KEY_ref, Mac => ModelRef.crypto_auth_mac
  | KEY_ref, Prf => ModelRef.crypto_auth_prf
  | KEY_ref, PrfShort => ModelRef.crypto_auth_prfs
  | KEY_word w, Mac => let o := word_ops w e in com_auth e o (c_mac o) 16
  | KEY_word w, Prf => let o := word_ops w e in com_auth e o (c_prf o) 64
  | KEY_word w, PrfShort => com_prfs_auth e (word_ops w e)
  | KEY_byte w, Mac => o8_auth e (byte_P w) (byte_hpad w) (byte_dpos w) opt8_MAC_IV 16
  | KEY_byte w, Prf => o8_auth e (byte_P w) (byte_hpad w) (byte_dpos w) opt8_PRF_IV 64
  | KEY_byte w, PrfShort => o8_prfs_auth e (byte_P w)
  end.
Definition verify_of (i : key_impl) (a : key_alg) (e : endian) : verify_fn :=
  match i, a with
  | KEY_ref, Mac => ModelRef.crypto_auth_verify_mac
  | KEY_ref, Prf => ModelRef.crypto_auth_verify_prf
  | KEY_ref, PrfShort => ModelRef.crypto_auth_verify_prfs
  | KEY_word w, Mac => let o := word_ops w e in com_auth_verify e o (c_mac o) 16
  | KEY_word w, Prf => let o := word_ops w e in com_auth_verify e o (c_prf o) 64
  | KEY_word w, PrfShort => com_prfs_verify e (word_ops w e)
  | KEY_byte w, Mac => o8_auth_verify e (byte_P w) (byte_hpad w) (byte_dpos w) opt8_MAC_IV 16
  | KEY_byte w, Prf => o8_auth_verify e (byte_P w) (byte_hpad w) (byte_dpos w) opt8_PRF_IV 64
  | KEY_byte w, PrfShort => o8_prfs_verify e (byte_P w)
  end.
Definition key_host (i : key_impl) (a : key_alg) (e : endian) : bool :=
  match i, a with
  | KEY_ref, _ => true | KEY_word w, _ => word_host w e
  | KEY_byte B_opt8, _ | KEY_byte B_avr, PrfShort => le_only e
  (* avr/prf.c pads wrongly: nothing is claimed of it (C40, PropertiesAsm.v) *)
  | KEY_byte B_avr, _ => false
  end.
(** src/prf.c copies 0 bytes to [out] with memcpy when asked for no output *)
Definition key_demands (i : key_impl) (a : key_alg) : demands :=
  match i, a with
  | KEY_ref, _ | KEY_byte _, _ | _, PrfShort => Demands false false false
  | KEY_word _, _ => Demands true false false
  end.
