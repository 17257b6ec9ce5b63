(** Comparing doubles that hold integers. *)
From Coq Require Import ZArith Bool List Lia.
From Verif Require Export Float.
Open Scope Z_scope.

Lemma binary_round_canonical s p (Hp : Z.pos p < 2 ^ 53) :
  exists m k, binary_round 53 1024 s p 0 = S754_finite s m (- k)
              /\ 0 <= k <= 52 /\ Z.pos m = Z.pos p * 2 ^ k /\ 2 ^ 52 <= Z.pos m < 2 ^ 53.
Proof.
  pose proof (digits2_le_53 p Hp) as Hd.
  pose proof (digits2_pos_bounds p) as [Hb1 Hb2].
  set (d := Z.pos (digits2_pos p)) in *.
  unfold binary_round.
  assert (Hf : fexp 53 1024 (d + 0) = d - 53) by (unfold fexp, emin; lia).
  fold d. rewrite Hf. unfold shl_align. replace (d - 53 - 0) with (d - 53) by lia.
  (* the aligned mantissa *)
  assert (Hal : exists mz, (match d - 53 with Z.neg q => (shift_pos q p, d - 53) | _ => (p, 0) end)
                   = (mz, d - 53) /\ Z.pos mz = Z.pos p * 2 ^ (53 - d)).
  { destruct (d - 53) as [|q|q] eqn:E.
    - exists p. split; [reflexivity|]. replace (53 - d) with 0 by lia. lia.
    - exfalso; lia.
    - exists (shift_pos q p). split; [reflexivity|].
      rewrite shift_pos_correct. replace (53 - d) with (Z.pos q) by lia.
      rewrite Zpower_pos_nat, Zpower_nat_Z, positive_nat_Z. lia. }
  destruct Hal as (mz & Hal & Hmz). rewrite Hal.
  assert (H2d : 2 ^ (53 - d) * 2 ^ d = 2 ^ 53).
  { rewrite <- Z.pow_add_r by (unfold d; lia). f_equal; lia. }
  assert (H2d1 : 2 ^ (53 - d) * 2 ^ (d - 1) = 2 ^ 52).
  { rewrite <- Z.pow_add_r by (unfold d; lia). f_equal; lia. }
  assert (Hpp : 0 < 2 ^ (53 - d)) by (apply Z.pow_pos_nonneg; unfold d; lia).
  assert (Hdm : Z.pos (digits2_pos mz) = 53).
  { apply digits_unique; [lia|]. rewrite Hmz. split.
    - change (53 - 1) with 52. rewrite <- H2d1. nia.
    - rewrite <- H2d. nia. }
  unfold binary_round_aux, shr_fexp.
  change (Zdigits2 (Z.pos mz)) with (Z.pos (digits2_pos mz)). rewrite Hdm.
  assert (He : fexp 53 1024 (53 + (d - 53)) - (d - 53) = 0) by (unfold fexp, emin; lia).
  rewrite He. cbn [shr shr_record_of_loc shr_m loc_of_shr_record round_nearest_even].
  change (Zdigits2 (Z.pos mz)) with (Z.pos (digits2_pos mz)). rewrite Hdm, He.
  cbn [shr shr_record_of_loc shr_m].
  assert (Hle : Zle_bool (d - 53) (1024 - 53) = true) by (apply Zle_imp_le_bool; lia).
  rewrite Hle.
  pose proof (digits2_pos_bounds mz) as [B1 B2]. rewrite Hdm in B1, B2. change (53 - 1) with 52 in B1.
  exists mz, (53 - d). split; [replace (d - 53) with (- (53 - d)) by lia; reflexivity|].
  split; [unfold d; lia|]. split; [exact Hmz|]. split; assumption.
Qed.


Lemma pow_mono_strict a b : 0 <= a -> a < b -> 2 * 2 ^ a <= 2 ^ b.
Proof. intros Ha H. replace (2 * 2 ^ a) with (2 ^ (a + 1)) by (rewrite Z.pow_add_r by lia; lia). apply Z.pow_le_mono_r; lia. Qed.

Lemma dbl_compare a b : 0 <= a < 2 ^ 53 -> 0 <= b < 2 ^ 53 -> SFcompare (dbl a) (dbl b) = Some (a ?= b).
Proof.
  intros Ha Hb. destruct a as [|p|p], b as [|q|q]; try lia; unfold dbl; cbn [binary_normalize].
  - reflexivity.
  - destruct (binary_round_canonical false q ltac:(lia)) as (m & k & -> & _). reflexivity.
  - destruct (binary_round_canonical false p ltac:(lia)) as (m & k & -> & _). reflexivity.
  - destruct (binary_round_canonical false p ltac:(lia)) as (m & k & -> & K & M & C).
    destruct (binary_round_canonical false q ltac:(lia)) as (n & l & -> & L & N & D).
    assert (Pk : 0 < 2 ^ k) by (apply Z.pow_pos_nonneg; lia). assert (Pl : 0 < 2 ^ l) by (apply Z.pow_pos_nonneg; lia).
    cbn [SFcompare]. f_equal. symmetry. destruct (Z.compare_spec (- k) (- l)) as [E|E|E].
    + assert (k = l) by lia. subst l. change (Pos.compare_cont Eq m n) with (Pos.compare m n).
      change (Pos.compare m n) with (Z.pos m ?= Z.pos n).
      destruct (Z.compare_spec (Z.pos m) (Z.pos n)) as [G|G|G]; [apply Z.compare_eq_iff|apply Z.compare_lt_iff|apply Z.compare_gt_iff]; nia.
    + pose proof (pow_mono_strict l k ltac:(lia) ltac:(lia)). apply Z.compare_lt_iff. nia.
    + pose proof (pow_mono_strict k l ltac:(lia) ltac:(lia)). apply Z.compare_gt_iff. nia.
Qed.
Lemma dbl_leb a b : 0 <= a < 2 ^ 53 -> 0 <= b < 2 ^ 53 -> SFleb (dbl a) (dbl b) = (a <=? b).
Proof. intros Ha Hb. unfold SFleb. rewrite dbl_compare by assumption. unfold Z.leb. destruct (a ?= b); reflexivity. Qed.
