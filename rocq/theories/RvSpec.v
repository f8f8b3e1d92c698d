(** * RvSpec.v -- what the RISC-V implementations demand from their caller,
    beyond the common contract of ApiSpec.v. *)
From Coq Require Import Bool Arith NArith ZArith List Init.Byte Strings.Byte.
From Verif Require Import Words Spec Spec12 ModelRv CMem Contract ApiSpec.
Import ListNotations.
Local Open Scope N_scope.

(** The state of the machine at a call of ascon_core: registers and
    addresses of 32 bits, register x0 is 0; the stack pointer is a multiple of 4
    and 80 bytes below it are free stack; the constants of the data section
    are where the linker put them. *)
Record rv_env (V : variant) (e : env) (r : regs) (M : mem) : Prop := {
  re_zero : r 0%nat = 0;  re_regs : forall i, r i < 2 ^ 32;  re_labels : forall n, lab e n < 2 ^ 32;
  re_sp : 80 <= r 2%nat;  re_align : r 2%nat mod 4 = 0;  re_stack : writable M (r 2%nat - 80) 80;
  re_data : readable M (tab e) (v_data V);  re_tab : tab e + len (v_data V) < 2 ^ 32;
  re_sep : disjoint (r 2%nat - 80) 80 (tab e) (len (v_data V))
}.
(** A buffer ends below 2^32 and does not overlap the 80 bytes of stack. *)
Definition rv_buffer (r : regs) (p n : N) : Prop := p + n < 2 ^ 32 /\ disjoint (r 2%nat - 80) 80 p n.

(** crypto_aead_encrypt: the common contract for code that may assume that
    input and output text do not overlap (api.h: CRYPTO_NOOVERLAP) and that
    texts of 16 bytes or more are aligned to 4; in addition key and nonce
    are aligned to 4 and texts are shorter than 2^31 bytes. *)
Record rv_encrypt_pre (V : variant) (e : env) (r : regs) (M : mem) (c clen m ad npub k : ptr) (mb adb nb kb : bytes) : Prop := {
  xe_env : rv_env V e r M;
  xe_common : encrypt_pre (Demands false true true) M c clen m ad npub k mb adb nb kb;
  xe_c : rv_buffer r c (len mb + 16);  xe_clen : rv_buffer r clen 8;  xe_m : rv_buffer r m (len mb);
  xe_ad : rv_buffer r ad (len adb);  xe_n : rv_buffer r npub 16;  xe_k : rv_buffer r k 16;
  xe_na : npub mod 4 = 0;  xe_ka : k mod 4 = 0;  xe_ml : len mb < 2 ^ 31;  xe_adl : len adb < 2 ^ 31;
  xe_ct : disjoint c (len mb + 16) (tab e) (len (v_data V));  xe_clt : disjoint clen 8 (tab e) (len (v_data V))
}.
(** The aligned words that contain the 16 bytes at [p] can be read. *)
Definition tag_words (M : mem) (p : N) : Prop :=
  4 <= p /\ forall a, p - p mod 4 <= a -> a < p + 16 + (4 - p mod 4) mod 4 -> rd M a <> None.
(** crypto_aead_decrypt: likewise; in addition the aligned words around the
    tag can be read. *)
Record rv_decrypt_pre (V : variant) (e : env) (r : regs) (M : mem) (m mlen c ad npub k : ptr) (ct adb nb kb : bytes) : Prop := {
  xd_env : rv_env V e r M;
  xd_common : decrypt_pre (Demands false true true) M m mlen c ad npub k ct adb nb kb;
  xd_m : rv_buffer r m (len ct - 16);  xd_mlen : rv_buffer r mlen 8;  xd_c : rv_buffer r c (len ct);
  xd_ad : rv_buffer r ad (len adb);  xd_n : rv_buffer r npub 16;  xd_k : rv_buffer r k 16;
  xd_na : npub mod 4 = 0;  xd_ka : k mod 4 = 0;  xd_cl : len ct < 2 ^ 31 + 16;  xd_adl : len adb < 2 ^ 31;
  xd_mt : disjoint m (len ct - 16) (tab e) (len (v_data V));  xd_mlt : disjoint mlen 8 (tab e) (len (v_data V));
  xd_tag : tag_words M (c + (len ct - 16));  xd_end : c + len ct + 4 < 2 ^ 32
}.

(** The call returns [v] and leaves the memory [M'] except for the 80 bytes
    of stack. *)
Definition rv_returns {A} (r : regs) (f : C A) (M M' : mem) (v : A) : Prop :=
  exists M1, runs f M M1 v /\ forall a, outside (r 2%nat - 80) 80 a -> M1 a = M' a.

(** ** The four directories, the algorithm each computes, and the tags each
    accepts *)
Inductive rv_dir := RV32I | RV32B | FSR_RV32B | BI32_RV32B.
Definition rv_model (D : rv_dir) : variant :=
  match D with RV32I => rv32i | RV32B => rv32b | FSR_RV32B => fsr_rv32b | BI32_RV32B => bi32_rv32b end.
Definition rv_alg (D : rv_dir) : params := match D with RV32I => aead128 | _ => ascon128a_v12 end.

(** XOR of the four groups of four bytes *)
Definition xor_words (d : bytes) : bytes :=
  xor_into (xor_into (firstn 4 d) (firstn 4 (skipn 4 d))) (xor_into (firstn 4 (skipn 8 d)) (skipn 12 d)).
(** in every byte, bits 2j and 2j+1 are equal *)
Definition pairs_equal (b : byte) : bool :=
  forallb (fun j => Bool.eqb (N.testbit (b2n b) (2 * j)) (N.testbit (b2n b) (2 * j + 1))) [0; 1; 2; 3].
(** The tag [t'] of a ciphertext is accepted although the right one is [t]:
    a condition on their difference. *)
Definition rv_accepts (D : rv_dir) (t t' : bytes) : bool :=
  match D with
  | BI32_RV32B => let d := xor_into t t' in forallb pairs_equal (xor_into (firstn 8 d) (skipn 8 d))
  | _ => if list_eq_dec Byte.byte_eq_dec (xor_words (xor_into t t')) [x00; x00; x00; x00] then true else false
  end.
(** Registers the caller of a function may rely on: return address, stack,
    global and thread pointer, s0 to s11 (RISC-V calling convention). *)
Definition callee_saved : list nat := [1; 2; 3; 4; 8; 9; 18; 19; 20; 21; 22; 23; 24; 25; 26; 27]%nat.
