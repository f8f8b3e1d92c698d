(** * WordInstBi.v -- the bit-interleaved representations satisfy the laws
    on little-endian hosts. *)
From Coq Require Import Arith NArith ZArith List Lia Bool Init.Byte.
From Coq Require Import ZifyBool ZifyNat ZifyN.
From Verif Require Import Words WordFacts Spec SpecFacts RoundFacts CMem CMemFacts ModelRef StateRep
  RefRound RefPrim RefHash RefPrfs ModelCommon ModelWords WordLaws BitExp WordInst.
Import ListNotations.
Local Open Scope N_scope.

(** Bits [2k] in the low half, bits [2k+1] in the high half. *)
Definition pi32 (i : N) : N := i / 2 + 32 * (i mod 2).
Definition inv32 (i : N) : N := 2 * (i mod 32) + i / 32.
Definition cn32 := bitperm pi32.
(** Bit [8k+j] is bit [k] of byte [j]. *)
Definition pi8 (i : N) : N := i / 8 + 8 * (i mod 8).
Definition cn8 := bitperm pi8.

Lemma pi32_lt i : i < 64 -> pi32 i < 64.
Proof. unfold pi32. intros. assert (i mod 2 < 2) by (apply N.mod_lt; lia). lia. Qed.
Lemma pi8_lt i : i < 64 -> pi8 i < 64.
Proof. unfold pi8. intros. assert (i mod 8 < 8) by (apply N.mod_lt; lia). lia. Qed.

Lemma below_check (f : N -> N) :
  forallb (fun k => f (N.of_nat k) =? N.of_nat k) (seq 0 64) = true -> forall i, i < 64 -> f i = i.
Proof.
  intros H i Hi. rewrite forallb_forall in H. specialize (H (N.to_nat i)).
  rewrite N2Nat.id in H. apply N.eqb_eq, H, in_seq. lia.
Qed.

(** Exchange bits [i] and [i+n] for every [i] in the mask. *)
Definition sm (m n i : N) : N :=
  if N.testbit m i then i + n else if (n <=? i) && N.testbit m (i - n) then i - n else i.
Lemma swapmove_1 x : fits 64 x -> swapmove x 0x22222222 1 = bitperm (sm 0x22222222 1) x.
Proof. intros Hx. unfold swapmove. bitperm_solve x Hx. Qed.
Lemma swapmove_2 x : fits 64 x -> swapmove x 0x0c0c0c0c 2 = bitperm (sm 0x0c0c0c0c 2) x.
Proof. intros Hx. unfold swapmove. bitperm_solve x Hx. Qed.
Lemma swapmove_4 x : fits 64 x -> swapmove x 0x00f000f0 4 = bitperm (sm 0x00f000f0 4) x.
Proof. intros Hx. unfold swapmove. bitperm_solve x Hx. Qed.
Lemma swapmove_8 x : fits 64 x -> swapmove x 0xff00 8 = bitperm (sm 0xff00 8) x.
Proof. intros Hx. unfold swapmove. bitperm_solve x Hx. Qed.

Ltac f32 := first
  [ apply fits_lor; f32 | apply fits_land; f32 | apply fits_shrw; f32
  | apply (fits_le 32); [discriminate | first [apply fits_trunc | apply fits_shlw]] ].

Lemma deinterleave32_spec x : fits 64 x -> deinterleave32 LE x = bitperm inv32 x.
Proof.
  intros Hx. cbv beta iota zeta delta [deinterleave32 deinterleave16 U64LE].
  rewrite !swapmove_1 by (apply (fits_le 32); [discriminate|apply fits_trunc]).
  rewrite !swapmove_2 by apply fits_bitperm.
  rewrite !swapmove_4 by apply fits_bitperm.
  rewrite !swapmove_8 by apply fits_bitperm. bitperm_solve x Hx.
Qed.
Lemma interleave32_spec x : fits 64 x -> interleave32 LE x = bitperm pi32 x.
Proof.
  intros Hx. cbv beta iota zeta delta [interleave32 interleave16 U64LE].
  rewrite !swapmove_8 by f32.
  rewrite !swapmove_4 by apply fits_bitperm.
  rewrite !swapmove_2 by apply fits_bitperm.
  rewrite !swapmove_1 by apply fits_bitperm. bitperm_solve x Hx.
Qed.
Lemma interleave8_spec x : fits 64 x -> interleave8 x = bitperm pi8 x.
Proof. intros Hx. cbv beta iota zeta delta [interleave8 interleave8_step]. bitperm_solve x Hx. Qed.

(** [ROR] in the interleaved representation: bit [i] comes from
    [pi ((inv i + n) mod 64)]. *)
Lemma rotr_bitperm pi inv n x y :
  (forall i, i < 64 -> pi i < 64 /\ inv (pi i) = i) ->
  y = bitperm (fun i => pi ((inv i + n) mod 64)) x ->
  bitperm pi y = rotr (bitperm pi x) n.
Proof.
  intros H ->. apply (fits_ext 64); [apply fits_bitperm|apply fits_rotr|]. intros i Hi.
  rewrite testbit_rotr, !testbit_bitperm. destruct (H i Hi) as [A B].
  apply N.ltb_lt in A. rewrite A, B. cbn [andb]. apply N.ltb_lt in Hi. rewrite Hi.
  replace ((i + n) mod 64 <? 64) with true by (symmetry; apply N.ltb_lt, N.mod_lt; lia).
  reflexivity.
Qed.

Ltac decide_ifs :=
  repeat match goal with |- context [if ?b then _ else _] =>
    let b' := eval vm_compute in b in change b with b'; cbv iota end.

Lemma bi32_ROR_perm n x : In n rots -> fits 64 x ->
  bi32_ROR LE x n = bitperm (fun i => pi32 ((inv32 i + n) mod 64)) x.
Proof.
  intros Hn Hx. cbv [In rots] in Hn. unfold bi32_ROR, ofw, w0, w1, ROR32.
  repeat (destruct Hn as [<-|Hn]; [decide_ifs; bitperm_solve x Hx|]).
  destruct Hn.
Qed.
Lemma bi8_ROR_perm n x : In n rots -> fits 64 x ->
  bi8_ROR LE x n = bitperm (fun i => pi8 ((pi8 i + n) mod 64)) x.
Proof.
  intros Hn Hx. cbv [In rots] in Hn. unfold bi8_ROR, w8of, w8get, ROR8. cbn [fold_left].
  repeat (destruct Hn as [<-|Hn]; [bitperm_solve x Hx|]).
  destruct Hn.
Qed.

Lemma bi32_ROR_ok n x : In n rots -> fits 64 x ->
  fits 64 (bi32_ROR LE x n) /\ bitperm pi32 (bi32_ROR LE x n) = rotr (bitperm pi32 x) n.
Proof.
  intros Hn Hx. rewrite (bi32_ROR_perm n x Hn Hx). split; [apply fits_bitperm|].
  apply (rotr_bitperm pi32 inv32); [|reflexivity].
  intros i Hi. split; [apply pi32_lt, Hi|]. revert i Hi. apply below_check. vm_compute. reflexivity.
Qed.
Lemma bi8_ROR_ok n x : In n rots -> fits 64 x ->
  fits 64 (bi8_ROR LE x n) /\ bitperm pi8 (bi8_ROR LE x n) = rotr (bitperm pi8 x) n.
Proof.
  intros Hn Hx. rewrite (bi8_ROR_perm n x Hn Hx). split; [apply fits_bitperm|].
  apply (rotr_bitperm pi8 pi8); [|reflexivity].
  intros i Hi. split; [apply pi8_lt, Hi|]. revert i Hi. apply below_check. vm_compute. reflexivity.
Qed.

(** ** bi32, bi32_lowreg, bi32_lowsize *)

Lemma bi32_ops_laws P :
  (forall s, wf s -> wf (P 12 s) /\ cs cn32 (P 12 s) = perm 12 (cs cn32 s)) ->
  (forall s, wf s -> wf (P 8 s) /\ cs cn32 (P 8 s) = perm 8 (cs cn32 s)) ->
  (forall s, wf s -> wf (P 6 s) /\ cs cn32 (P 6 s) = perm 6 (cs cn32 s)) ->
  word_laws cn32 LE (bi32_ops P LE).
Proof.
  intros H12 H8 H6.
  apply (mk_laws pi32 inv32 LE (bi32_ops P LE) (deinterleave32 LE) (interleave32 LE))
    with (mask := fun n => let mask := trunc 32 (shlw 64 0xffffffff (4 * n)) in N.lor (shlw 64 mask 32) mask).
  - vm_compute; reflexivity.
  - intros x. cbn [bi32_ops w_in U64LE]. reflexivity.
  - intros x. cbn [bi32_ops w_out U64LE]. reflexivity.
  - exact deinterleave32_spec.
  - exact interleave32_spec.
  - vm_compute; reflexivity.
  - vm_compute; reflexivity.
  - reflexivity.
  - vm_compute; reflexivity.
  - exact H12.
  - exact H8.
  - exact H6.
  - split; vm_compute; reflexivity.
  - split; vm_compute; reflexivity.
  - split; vm_compute; reflexivity.
  - split; vm_compute; reflexivity.
  - split; vm_compute; reflexivity.
  - vm_compute; reflexivity.
Qed.

Lemma bi32_laws : word_laws cn32 LE (bi32 LE).
Proof.
  assert (HR := ROUND_t_ok pi32 (bi32_ROR LE) pi32_lt bi32_ROR_ok).
  apply bi32_ops_laws; intros s Hs.
  - rewrite Punrolled_12. apply perm_list; [exact HR|vm_compute; reflexivity|vm_compute; reflexivity|exact Hs].
  - rewrite Punrolled_8. apply perm_list; [exact HR|vm_compute; reflexivity|vm_compute; reflexivity|exact Hs].
  - rewrite Punrolled_6. apply perm_list; [exact HR|vm_compute; reflexivity|vm_compute; reflexivity|exact Hs].
Qed.

Lemma bi32_lowreg_laws : word_laws cn32 LE (bi32_lowreg LE).
Proof.
  assert (HR := ROUND_x_ok pi32 (bi32_ROR LE) pi32_lt bi32_ROR_ok).
  apply bi32_ops_laws; intros s Hs; unfold Ploop.
  - rewrite (PROUNDS_steps _ _ _ _ 11) by (vm_compute; reflexivity || lia).
    apply perm_list; [exact HR|vm_compute; reflexivity|vm_compute; reflexivity|exact Hs].
  - rewrite (PROUNDS_steps _ _ _ _ 7) by (vm_compute; reflexivity || lia).
    apply perm_list; [exact HR|vm_compute; reflexivity|vm_compute; reflexivity|exact Hs].
  - rewrite (PROUNDS_steps _ _ _ _ 5) by (vm_compute; reflexivity || lia).
    apply perm_list; [exact HR|vm_compute; reflexivity|vm_compute; reflexivity|exact Hs].
Qed.
Lemma bi32_lowsize_laws : word_laws cn32 LE (bi32_lowsize LE).
Proof. exact bi32_lowreg_laws. Qed.

(** ** bi8 *)

Lemma bi8_laws : word_laws cn8 LE (bi8 LE).
Proof.
  assert (HR := ROUND_x_ok pi8 (bi8_ROR LE) pi8_lt bi8_ROR_ok).
  apply (mk_laws pi8 pi8 LE (bi8 LE) interleave8 interleave8)
    with (mask := fun n => w8of LE (fun _ => trunc 8 (shlw 32 0xff n))).
  - vm_compute; reflexivity.
  - reflexivity.
  - reflexivity.
  - exact interleave8_spec.
  - exact interleave8_spec.
  - vm_compute; reflexivity.
  - vm_compute; reflexivity.
  - reflexivity.
  - vm_compute; reflexivity.
  - intros s Hs. cbn [bi8 w_P]. unfold Ploop.
    rewrite (PROUNDS_steps _ _ _ _ 11) by (vm_compute; reflexivity || lia).
    apply perm_list; [exact HR|vm_compute; reflexivity|vm_compute; reflexivity|exact Hs].
  - intros s Hs. cbn [bi8 w_P]. unfold Ploop.
    rewrite (PROUNDS_steps _ _ _ _ 7) by (vm_compute; reflexivity || lia).
    apply perm_list; [exact HR|vm_compute; reflexivity|vm_compute; reflexivity|exact Hs].
  - intros s Hs. cbn [bi8 w_P]. unfold Ploop.
    rewrite (PROUNDS_steps _ _ _ _ 5) by (vm_compute; reflexivity || lia).
    apply perm_list; [exact HR|vm_compute; reflexivity|vm_compute; reflexivity|exact Hs].
  - split; vm_compute; reflexivity.
  - split; vm_compute; reflexivity.
  - split; vm_compute; reflexivity.
  - split; vm_compute; reflexivity.
  - split; vm_compute; reflexivity.
  - vm_compute; reflexivity.
Qed.
