(** Doubles, the casts between integers and doubles, and machine integers.

    A C++ [double] is an IEEE binary64 number: here the standard library's
    [SpecFloat.spec_float] at precision 53, emax 1024 (NaN payloads are not
    distinguished).  No part of ACEtk's own code is modelled in this file; it
    models the C++ conversions ACEtk relies on. *)
From Coq Require Import ZArith Bool List Lia.
From Coq Require Export Floats.SpecFloat.
Import ListNotations.
Open Scope Z_scope.

Definition double := spec_float.

(** [static_cast< double >( n )] for an integer n: round to nearest even
    (used e.g. in src/ACEtk/base/BlockWithLocators/src/generateXSS.hpp:9). *)
Definition dbl (n : Z) : double := binary_normalize 53 1024 n 0 false.

(** [std::round]: nearest integer, halfway cases away from zero; [None] for
    NaN and infinities (src/ACEtk/base/Base.hpp:133). *)
Definition round_pos (m : positive) (e : Z) : Z :=
  if 0 <=? e then Z.pos m * 2 ^ e
  else (Z.pos m + 2 ^ (- e - 1)) / 2 ^ (- e).

Definition sf_round (x : double) : option Z :=
  match x with
  | S754_zero _ => Some 0
  | S754_finite s m e => Some (if s then - round_pos m e else round_pos m e)
  | _ => None
  end.

(** Conversion double -> integer without rounding first (C++ truncates towards
    zero), e.g. src/ACEtk/continuous/AngularDistributionData.hpp:110. *)
Definition trunc_pos (m : positive) (e : Z) : Z :=
  if 0 <=? e then Z.pos m * 2 ^ e else Z.pos m / 2 ^ (- e).

Definition sf_trunc (x : double) : option Z :=
  match x with
  | S754_zero _ => Some 0
  | S754_finite s m e => Some (if s then - trunc_pos m e else trunc_pos m e)
  | _ => None
  end.

(** Machine integers: [std::size_t] (64 bit), [std::ptrdiff_t]/[long],
    [unsigned int] and [int] (32 bit), as on the platforms ACEtk supports. *)
Definition u64 (z : Z) : Z := z mod 2 ^ 64.
Definition s64 (z : Z) : Z := (z + 2 ^ 63) mod 2 ^ 64 - 2 ^ 63.
Definition u32 (z : Z) : Z := z mod 2 ^ 32.
Definition s32 (z : Z) : Z := (z + 2 ^ 31) mod 2 ^ 32 - 2 ^ 31.

Definition in_int (z : Z) : bool := (- 2 ^ 31 <=? z) && (z <? 2 ^ 31).
(** range of a double that can be cast to [std::size_t] / [unsigned int] *)
Definition in_size (z : Z) : bool := (0 <=? z) && (z <? 2 ^ 64).
Definition in_uint (z : Z) : bool := (0 <=? z) && (z <? 2 ^ 32).

Lemma u64_small z : 0 <= z < 2 ^ 64 -> u64 z = z.
Proof. intros H; unfold u64; apply Z.mod_small; exact H. Qed.
Lemma s64_small z : - 2 ^ 63 <= z < 2 ^ 63 -> s64 z = z.
Proof. intros H; unfold s64; rewrite Z.mod_small; lia. Qed.
Lemma u32_small z : 0 <= z < 2 ^ 32 -> u32 z = z.
Proof. intros H; unfold u32; apply Z.mod_small; exact H. Qed.
Lemma s32_small z : - 2 ^ 31 <= z < 2 ^ 31 -> s32 z = z.
Proof. intros H; unfold s32; rewrite Z.mod_small; lia. Qed.
Lemma u64_range z : 0 <= u64 z < 2 ^ 64.
Proof. unfold u64; apply Z.mod_pos_bound; lia. Qed.
Lemma s64_range z : - 2 ^ 63 <= s64 z < 2 ^ 63.
Proof. unfold s64. pose proof (Z.mod_pos_bound (z + 2 ^ 63) (2 ^ 64) ltac:(lia)). lia. Qed.
Lemma u64_idem z : u64 (u64 z) = u64 z.
Proof. apply u64_small, u64_range. Qed.

(** * Exactness of the cast for small integers *)

Lemma digits2_pos_size p : digits2_pos p = Pos.size p.
Proof. induction p; simpl; congruence. Qed.

Lemma digits2_pos_bounds p :
  2 ^ (Z.pos (digits2_pos p) - 1) <= Z.pos p < 2 ^ Z.pos (digits2_pos p).
Proof.
  rewrite digits2_pos_size. split.
  - pose proof (Pos.size_le p) as H.
    assert (H1 : Z.pos (2 ^ Pos.size p) <= Z.pos p~0) by lia.
    rewrite Pos2Z.inj_pow in H1.
    change (Z.pos p~0) with (2 * Z.pos p) in H1.
    replace (Z.pos (Pos.size p)) with (Z.succ (Z.pos (Pos.size p) - 1)) in H1 by lia.
    rewrite Z.pow_succ_r in H1 by lia. change (Z.pos 2) with 2 in H1. lia.
  - pose proof (Pos.size_gt p) as H.
    assert (H1 : Z.pos p < Z.pos (2 ^ Pos.size p)) by lia.
    rewrite Pos2Z.inj_pow in H1. exact H1.
Qed.

Lemma digits_unique a d : 0 < d -> 2 ^ (d - 1) <= Z.pos a < 2 ^ d -> Z.pos (digits2_pos a) = d.
Proof.
  intros Hd [H1 H2]. pose proof (digits2_pos_bounds a) as [H3 H4].
  assert (~ (Z.pos (digits2_pos a) < d)).
  { intros Hl. assert (2 ^ Z.pos (digits2_pos a) <= 2 ^ (d - 1)) by (apply Z.pow_le_mono_r; lia). lia. }
  assert (~ (d < Z.pos (digits2_pos a))).
  { intros Hl. assert (2 ^ d <= 2 ^ (Z.pos (digits2_pos a) - 1)) by (apply Z.pow_le_mono_r; lia). lia. }
  lia.
Qed.

Lemma digits2_le_53 p : Z.pos p < 2 ^ 53 -> Z.pos (digits2_pos p) <= 53.
Proof.
  intros H. pose proof (digits2_pos_bounds p) as [H3 _].
  destruct (Z_le_gt_dec (Z.pos (digits2_pos p)) 53) as [Hl|Hg]; [exact Hl|].
  assert (2 ^ 53 <= 2 ^ (Z.pos (digits2_pos p) - 1)) by (apply Z.pow_le_mono_r; lia). lia.
Qed.

Lemma binary_round_small s p (Hp : Z.pos p < 2 ^ 53) :
  exists m k, binary_round 53 1024 s p 0 = S754_finite s m (- k)
              /\ 0 <= k <= 52 /\ Z.pos m = Z.pos p * 2 ^ k.
Proof.
  pose proof (digits2_le_53 p Hp) as Hd.
  pose proof (digits2_pos_bounds p) as [Hb1 Hb2].
  set (d := Z.pos (digits2_pos p)) in *.
  unfold binary_round.
  assert (Hf : fexp 53 1024 (d + 0) = d - 53) by (unfold fexp, emin; lia).
  fold d. rewrite Hf. unfold shl_align. replace (d - 53 - 0) with (d - 53) by lia.
  (* the aligned mantissa *)
  assert (Hal : exists mz, (match d - 53 with Z.neg q => (shift_pos q p, d - 53) | _ => (p, 0) end)
                   = (mz, d - 53) /\ Z.pos mz = Z.pos p * 2 ^ (53 - d)).
  { destruct (d - 53) as [|q|q] eqn:E.
    - exists p. split; [reflexivity|]. replace (53 - d) with 0 by lia. lia.
    - exfalso; lia.
    - exists (shift_pos q p). split; [reflexivity|].
      rewrite shift_pos_correct. replace (53 - d) with (Z.pos q) by lia.
      rewrite Zpower_pos_nat, Zpower_nat_Z, positive_nat_Z. lia. }
  destruct Hal as (mz & Hal & Hmz). rewrite Hal.
  assert (H2d : 2 ^ (53 - d) * 2 ^ d = 2 ^ 53).
  { rewrite <- Z.pow_add_r by (unfold d; lia). f_equal; lia. }
  assert (H2d1 : 2 ^ (53 - d) * 2 ^ (d - 1) = 2 ^ 52).
  { rewrite <- Z.pow_add_r by (unfold d; lia). f_equal; lia. }
  assert (Hpp : 0 < 2 ^ (53 - d)) by (apply Z.pow_pos_nonneg; unfold d; lia).
  assert (Hdm : Z.pos (digits2_pos mz) = 53).
  { apply digits_unique; [lia|]. rewrite Hmz. split.
    - change (53 - 1) with 52. rewrite <- H2d1. nia.
    - rewrite <- H2d. nia. }
  unfold binary_round_aux, shr_fexp.
  change (Zdigits2 (Z.pos mz)) with (Z.pos (digits2_pos mz)). rewrite Hdm.
  assert (He : fexp 53 1024 (53 + (d - 53)) - (d - 53) = 0) by (unfold fexp, emin; lia).
  rewrite He. cbn [shr shr_record_of_loc shr_m loc_of_shr_record round_nearest_even].
  change (Zdigits2 (Z.pos mz)) with (Z.pos (digits2_pos mz)). rewrite Hdm, He.
  cbn [shr shr_record_of_loc shr_m].
  assert (Hle : Zle_bool (d - 53) (1024 - 53) = true) by (apply Zle_imp_le_bool; lia).
  rewrite Hle.
  exists mz, (53 - d). repeat split; try (unfold d; lia).
  replace (d - 53) with (- (53 - d)) by lia. reflexivity. exact Hmz.
Qed.

Lemma round_pos_exact p k : 0 <= k -> forall m, Z.pos m = Z.pos p * 2 ^ k -> round_pos m (- k) = Z.pos p.
Proof.
  intros Hk m Hm. unfold round_pos.
  destruct (Z.leb_spec 0 (- k)) as [H|H].
  - assert (k = 0) by lia. subst k. simpl in *. lia.
  - rewrite Z.opp_involutive. rewrite Hm.
    assert (H2 : 2 ^ k = 2 * 2 ^ (k - 1)).
    { replace k with (Z.succ (k - 1)) at 1 by lia. rewrite Z.pow_succ_r by lia. reflexivity. }
    assert (0 < 2 ^ (k - 1)) by (apply Z.pow_pos_nonneg; lia).
    rewrite Z.add_comm, Z.div_add by lia.
    rewrite Z.div_small; lia.
Qed.

Lemma trunc_pos_exact p k : 0 <= k -> forall m, Z.pos m = Z.pos p * 2 ^ k -> trunc_pos m (- k) = Z.pos p.
Proof.
  intros Hk m Hm. unfold trunc_pos.
  destruct (Z.leb_spec 0 (- k)) as [H|H].
  - assert (k = 0) by lia. subst k. simpl in *. lia.
  - rewrite Z.opp_involutive, Hm.
    assert (0 < 2 ^ k) by (apply Z.pow_pos_nonneg; lia).
    rewrite Z.div_mul by lia. reflexivity.
Qed.

Theorem sf_round_dbl n : - 2 ^ 53 < n < 2 ^ 53 -> sf_round (dbl n) = Some n.
Proof.
  intros H. unfold dbl, binary_normalize. destruct n as [|p|p]; [reflexivity| |].
  - destruct (binary_round_small false p ltac:(lia)) as (m & k & E & Hk & Hm).
    rewrite E. cbn [sf_round]. f_equal. apply round_pos_exact; [lia|exact Hm].
  - destruct (binary_round_small true p ltac:(lia)) as (m & k & E & Hk & Hm).
    rewrite E. cbn [sf_round]. f_equal. rewrite (round_pos_exact p k); [reflexivity|lia|exact Hm].
Qed.

Theorem sf_trunc_dbl n : - 2 ^ 53 < n < 2 ^ 53 -> sf_trunc (dbl n) = Some n.
Proof.
  intros H. unfold dbl, binary_normalize. destruct n as [|p|p]; [reflexivity| |].
  - destruct (binary_round_small false p ltac:(lia)) as (m & k & E & Hk & Hm).
    rewrite E. cbn [sf_trunc]. f_equal. apply trunc_pos_exact; [lia|exact Hm].
  - destruct (binary_round_small true p ltac:(lia)) as (m & k & E & Hk & Hm).
    rewrite E. cbn [sf_trunc]. f_equal. rewrite (trunc_pos_exact p k); [reflexivity|lia|exact Hm].
Qed.

(** Beyond 2^53 the cast rounds: 2^53 + 1 comes back as 2^53. *)
Example dbl_inexact : sf_round (dbl (2 ^ 53 + 1)) = Some (2 ^ 53).
Proof. vm_compute. reflexivity. Qed.

Lemma dbl_0 : dbl 0 = S754_zero false.
Proof. reflexivity. Qed.

(** Negation of a double ([x * -1] and unary minus are exact). *)
Lemma dbl_opp n : n <> 0 -> SFopp (dbl n) = dbl (- n).
Proof.
  assert (R : forall s m e, SFopp (binary_round 53 1024 s m e) = binary_round 53 1024 (negb s) m e).
  { intros s m e. unfold binary_round. destruct (shl_align m e _) as [mz ez].
    unfold binary_round_aux. destruct (shr_fexp 53 1024 (Z.pos mz) ez loc_Exact) as [r1 e1].
    destruct (shr_fexp 53 1024 _ e1 loc_Exact) as [r2 e2].
    destruct (shr_m r2); cbn; try reflexivity. destruct (Z.leb _ _); reflexivity. }
  destruct n as [|p|p]; [congruence| |]; intros _; unfold dbl; cbn [binary_normalize Z.opp]; apply R.
Qed.

(** [x < 0] for an integer value *)
Lemma dbl_ltb_0 n : Z.abs n < 2 ^ 53 -> SFltb (dbl n) (dbl 0) = (n <? 0).
Proof.
  intros H. destruct n as [|p|p]; [reflexivity| |]; unfold dbl; cbn [binary_normalize].
  - destruct (binary_round_small false p ltac:(lia)) as (m & k & -> & _). reflexivity.
  - destruct (binary_round_small true p ltac:(lia)) as (m & k & -> & _). reflexivity.
Qed.
