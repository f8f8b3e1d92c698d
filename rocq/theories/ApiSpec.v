(** * ApiSpec.v -- what it means for an implementation to conform.

    The C calling conventions (tests/crypto_aead.h, crypto_hash.h,
    crypto_auth.h) as Gallina types, and for each the contract: the
    buffers a caller must pass and the result in terms of [Spec.v].
    Nothing here mentions any implementation. *)
From Coq Require Import Bool NArith ZArith List Init.Byte Strings.Byte.
From Verif Require Import Words Spec CMem Contract.
Import ListNotations.
Local Open Scope N_scope.

(** crypto_aead_encrypt(c, clen, m, mlen, ad, adlen, nsec, npub, k) *)
Definition encrypt_fn :=
  forall (c clen m : ptr) (mlen : N) (ad : ptr) (adlen : N) (nsec npub k : ptr), C Z.
(** crypto_aead_decrypt(m, mlen, nsec, c, clen, ad, adlen, npub, k) *)
Definition decrypt_fn :=
  forall (m mlen nsec c : ptr) (clen : N) (ad : ptr) (adlen : N) (npub k : ptr), C Z.
(** crypto_hash(out, in, inlen) *)
Definition hash_fn := forall (out inp : ptr) (inlen : N), C Z.
(** crypto_cxof(out, outlen, in, inlen, cs, cslen) *)
Definition cxof_fn := forall (out : ptr) (outlen : N) (inp : ptr) (inlen : N) (cs : ptr) (cslen : N), C Z.
(** crypto_prf(out, outlen, in, inlen, k); crypto_auth(out, in, inlen, k);
    crypto_auth_verify(h, in, inlen, k), where [sp] is the stack address of
    its local tag buffer *)
Definition prf_fn := forall (out : ptr) (outlen : N) (inp : ptr) (inlen : N) (k : ptr), C Z.
Definition auth_fn := forall (out inp : ptr) (inlen : N) (k : ptr), C Z.
Definition verify_fn := forall (sp h inp : ptr) (inlen : N) (k : ptr), C Z.

(** What an implementation asks of its caller beyond the common contract. *)
Record demands := Demands {
  no_null : bool;      (** buffers of length 0 must not be NULL *)
  no_overlap : bool;   (** the texts, and a text and *mlen, must not overlap at all *)
  blocks32 : bool      (** lengths are below 2^32; texts and associated data of 16 bytes or more
                           are at multiples of 4 *)
}.

(** [p] is acceptable for the (possibly empty) buffer [l]. *)
Definition null_rule (no_null : bool) (p : ptr) : Prop := no_null = true -> p <> NULL.

(** Placement of [n] output bytes at [dst] relative to [n'] input bytes at [src]. *)
Definition overlap_rule (no_overlap : bool) (dst : ptr) (n : N) (src : ptr) (n' : N) : Prop :=
  no_overtake dst src n' /\ (no_overlap = true -> disjoint dst n src n').

(** [n] bytes at [p] that an implementation accesses in whole blocks. *)
Definition block_rule (blocks32 : bool) (p : ptr) (n : N) : Prop :=
  blocks32 = true -> n < 2 ^ 32 /\ (16 <= n -> p mod 4 = 0).

(** The buffers passed to crypto_aead_encrypt: key [kb], nonce [nb],
    associated data [adb] and plaintext [mb] are readable; c has room for
    the ciphertext and tag, *clen for an unsigned long long that does not
    overlap the inputs; c may overlap the key, the nonce, the associated
    data, and (unless [no_overlap]) the plaintext if it does not start
    inside it. *)
Record encrypt_pre (d : demands) (M : mem) (c clen m ad npub k : ptr) (mb adb nb kb : bytes) : Prop := {
  ep_klen : is16 kb;  ep_nlen : is16 nb;
  ep_k : readable M k kb;  ep_n : readable M npub nb;
  ep_ad : readable M ad adb;  ep_m : readable M m mb;
  ep_c : writable M c (len mb + 16);  ep_clen : writable M clen 8;
  ep_dk : disjoint clen 8 k 16;  ep_dn : disjoint clen 8 npub 16;
  ep_dad : disjoint clen 8 ad (len adb);  ep_dm : disjoint clen 8 m (len mb);
  ep_ov : overlap_rule (no_overlap d) c (len mb) m (len mb);
  ep_nad : null_rule (no_null d) ad;  ep_nm : null_rule (no_null d) m;
  ep_bad : block_rule (blocks32 d) ad (len adb);
  ep_bm : block_rule (blocks32 d) m (len mb);  ep_bc : block_rule (blocks32 d) c (len mb)
}.

Definition encrypt_conforms (e : endian) (d : demands) (f : encrypt_fn) : Prop :=
  forall M c clen m ad nsec npub k mb adb nb kb,
  encrypt_pre d M c clen m ad npub k mb adb nb kb ->
  returns (f c clen m (len mb) ad (len adb) nsec npub k) M
    (write (write M clen (to_host e 8 (len mb + 16))) c (aead_encrypt kb nb adb mb)) 0%Z.

(** The buffers passed to crypto_aead_decrypt; the ciphertext is [ct]. *)
Record decrypt_pre (d : demands) (M : mem) (m mlen c ad npub k : ptr) (ct adb nb kb : bytes) : Prop := {
  dp_len : 16 <= len ct;
  dp_klen : is16 kb;  dp_nlen : is16 nb;
  dp_k : readable M k kb;  dp_n : readable M npub nb;
  dp_ad : readable M ad adb;  dp_c : readable M c ct;
  dp_m : writable M m (len ct - 16);  dp_mlen : writable M mlen 8;
  dp_dk : disjoint mlen 8 k 16;  dp_dn : disjoint mlen 8 npub 16;
  dp_dad : disjoint mlen 8 ad (len adb);  dp_dc : disjoint mlen 8 c (len ct);
  dp_ov : overlap_rule (no_overlap d) m (len ct - 16) c (len ct);
  dp_nad : null_rule (no_null d) ad;  dp_nm : null_rule (no_null d) m;
  dp_dm : no_overlap d = true -> disjoint mlen 8 m (len ct - 16);
  dp_bad : block_rule (blocks32 d) ad (len adb);
  dp_bm : block_rule (blocks32 d) m (len ct - 16);  dp_bc : block_rule (blocks32 d) c (len ct - 16)
}.

(** Body and tag of a ciphertext string. *)
Definition ct_body (ct : bytes) : bytes := firstn (length ct - 16) ct.
Definition ct_tag (ct : bytes) : bytes := skipn (length ct - 16) ct.

(** [mb] is what the key stream makes of the body, [t] the tag it should
    have; the call returns 0 iff the ciphertext carries that tag. *)
Definition decrypt_conforms (e : endian) (d : demands) (f : decrypt_fn) : Prop :=
  forall M m mlen nsec c ad npub k ct adb nb kb mb t,
  decrypt_pre d M m mlen c ad npub k ct adb nb kb ->
  aead_open kb nb adb (ct_body ct) = (mb, t) ->
  returns (f m mlen nsec c (len ct) ad (len adb) npub k) M
    (write (write M mlen (to_host e 8 (len ct - 16))) m mb)
    (if list_eq_dec Byte.byte_eq_dec t (ct_tag ct) then 0 else -1)%Z.

(** Fewer than 16 bytes: -1, with no access to memory and for arbitrary
    pointer values. *)
Definition decrypt_rejects_short (f : decrypt_fn) : Prop :=
  forall M m mlen nsec c clen ad adlen npub k, clen < 16 ->
  f m mlen nsec c clen ad adlen npub k M = Done [EBranch true] M (-1)%Z.

(** The same for an implementation that first stores a length of 0: -1, and
    nothing but *mlen is accessed. *)
Definition decrypt_rejects_short_0 (e : endian) (f : decrypt_fn) : Prop :=
  forall M m mlen nsec c clen ad adlen npub k, clen < 16 -> writable M mlen 8 ->
  exists t, f m mlen nsec c clen ad adlen npub k M = Done t (write M mlen (to_host e 8 0)) (-1)%Z.

(** Hash functions with a fixed output of [n] bytes.  The output may
    overlap the input. *)
Definition hash_conforms (d : demands) (H : bytes -> bytes) (n : N) (f : hash_fn) : Prop :=
  forall M out inp l,
  readable M inp l -> writable M out n -> null_rule (no_null d) inp ->
  returns (f out inp (len l)) M (write M out (H l)) 0%Z.

(** Customizable XOF. *)
Definition cxof_conforms (f : cxof_fn) : Prop :=
  forall M out n inp l cs cb,
  readable M inp l -> readable M cs cb -> writable M out n -> len cb < 2 ^ 61 ->
  returns (f out n inp (len l) cs (len cb)) M (write M out (cxof128 l cb (N.to_nat n))) 0%Z.

(** Keyed functions [F key message outlen]; [il]/[ol] bound the message and
    output length ([il = None]: unbounded). *)
Definition below (il : option N) (n : N) : Prop := match il with Some b => n <= b | None => True end.
(** Room for [n] output bytes (possibly 0) at [out]. *)
Definition out_room (d : demands) (M : mem) (out : ptr) (n : N) : Prop :=
  writable M out n /\ null_rule (no_null d) out.
Definition prf_conforms (d : demands) (F : bytes -> bytes -> nat -> bytes) (il : option N) (ol : N) (f : prf_fn) : Prop :=
  (forall M out n inp l k kb, is16 kb ->
   readable M k kb -> readable M inp l -> out_room d M out n -> below il (len l) -> n <= ol ->
   returns (f out n inp (len l) k) M (write M out (F kb l (N.to_nat n))) 0%Z) /\
  (forall M out n inp inlen k, ~ below il inlen \/ ol < n ->
   exists t, f out n inp inlen k M = Done t M (-1)%Z /\ Forall (fun ev => exists b, ev = EBranch b) t).
Definition auth_conforms (F : bytes -> bytes -> nat -> bytes) (il : option N) (n : N) (f : auth_fn) : Prop :=
  forall M out inp l k kb, is16 kb ->
  readable M k kb -> readable M inp l -> writable M out n -> below il (len l) ->
  returns (f out inp (len l) k) M (write M out (F kb l (N.to_nat n))) 0%Z.
(** Verification changes nothing and accepts exactly the right tag. *)
Definition verify_conforms (F : bytes -> bytes -> nat -> bytes) (il : option N) (n : N) (f : verify_fn) : Prop :=
  (forall M sp h hb inp l k kb, is16 kb -> len hb = n ->
   readable M k kb -> readable M inp l -> readable M h hb -> free_cells M sp n -> below il (len l) ->
   returns (f sp h inp (len l) k) M M
     (if list_eq_dec Byte.byte_eq_dec (F kb l (N.to_nat n)) hb then 0 else -1)%Z) /\
  (forall M sp h inp inlen k, ~ below il inlen ->
   exists t, f sp h inp inlen k M = Done t M (-1)%Z /\ Forall (fun ev => exists b, ev = EBranch b) t).
