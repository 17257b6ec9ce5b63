(** Rounding decimal values to doubles and back: [nearest_ratio] returns the nearest double, and
    printed decimals are stable (print, read, print gives the same text). *)
From Coq Require Import ZArith Bool List Lia Ascii.
From Coq Require Import ZifyBool ZifyNat.
From Verif Require Import Base SZA.
From Verif Require Export DecimalFacts.
Import ListNotations.
Open Scope Z_scope.

(** * Specification *)

(** a finite or infinite double with the layout of binary64 *)
Definition valid (x : double) : Prop := valid_binary 53 1024 x = true.
Definition finite (x : double) : Prop := match x with S754_zero _ | S754_finite _ _ _ => True | _ => False end.
(** |x| in units of 2^-1074 and the sign bit *)
Definition units (x : double) : Z := match x with S754_finite _ m e => magnitude m e | _ => 0 end.
Definition negative (x : double) : bool := match x with S754_zero s | S754_finite s _ _ | S754_infinity s => s | S754_nan => false end.

(** * Proofs *)
Lemma dunit_pos : 0 < dunit.
Proof. unfold dunit. apply Z.pow_pos_nonneg; lia. Qed.
Lemma pow2_pos n : 0 <= n -> 0 < 2 ^ n.
Proof. intros H. apply Z.pow_pos_nonneg; lia. Qed.

Lemma valid_finite s m e : valid (S754_finite s m e) <->
  Z.pos m < 2 ^ 53 /\ -1074 <= e <= 971 /\ (e = -1074 \/ 2 ^ 52 <= Z.pos m).
Proof.
  unfold valid, valid_binary, bounded, canonical_mantissa, fexp, emin.
  rewrite andb_true_iff, <- Zeq_is_eq_bool, <- Zle_is_le_bool.
  pose proof (digits2_pos_bounds m) as [H1 H2]. set (d := Z.pos (digits2_pos m)) in *. assert (0 < d) by (unfold d; lia). clearbody d.
  split.
  - intros [A B]. assert (Hd : d <= 53) by lia. split.
    { assert (2 ^ d <= 2 ^ 53) by (apply Z.pow_le_mono_r; lia). lia. }
    split; [lia|]. destruct (Z.eq_dec e (-1074)); [left; assumption|right].
    assert (d = 53) by lia. subst d. exact H1.
  - intros (A & B & C). split; [|lia].
    assert (Hd : d <= 53). { destruct (Z.le_gt_cases d 53); [assumption|]. assert (2 ^ 53 <= 2 ^ (d - 1)) by (apply Z.pow_le_mono_r; lia). lia. }
    destruct C as [-> | C]; [lia|].
    assert (53 <= d). { destruct (Z.le_gt_cases 53 d); [assumption|]. assert (2 ^ d <= 2 ^ 52) by (apply Z.pow_le_mono_r; lia). lia. }
    lia.
Qed.

Definition double_units (Y : Z) : Prop := exists m e, 0 <= m < 2 ^ 53 /\ 0 <= e /\ Y = m * 2 ^ e.
Lemma units_double x : valid x -> double_units (units x).
Proof.
  intros V. destruct x as [s|s| |s m e]; try (exists 0, 0; cbn; lia).
  apply valid_finite in V as (A & B & C). exists (Z.pos m), (e + 1074). unfold units, magnitude. lia.
Qed.
Lemma units_nonneg x : 0 <= units x.
Proof. destruct x; cbn [units]; unfold magnitude; lia. Qed.

(** overflow threshold: the largest finite double *)
Definition max_units : Z := (2 ^ 53 - 1) * 2 ^ 2045.

Lemma nearest_ratio_spec neg n d : 0 <= n -> 0 < d -> n * dunit <= d * max_units ->
  let x := nearest_ratio neg n d in
  valid x /\ finite x /\ negative x = neg
  /\ (forall Y, double_units Y -> Z.abs (units x * d - n * dunit) <= Z.abs (Y * d - n * dunit))
  /\ (2 ^ 52 * d <= n * dunit -> 2 ^ 53 * Z.abs (units x * d - n * dunit) <= n * dunit).
Proof.
  intros Hn Hd Hm. pose proof dunit_pos as U. unfold nearest_ratio. set (N := n * dunit) in *.
  assert (HN : 0 <= N) by (unfold N; nia). clearbody N.
  set (e := Z.max 0 (Z.log2 (N / d) - 52)). assert (He : 0 <= e) by (unfold e; lia).
  pose proof (pow2_pos e He) as P. set (q := rdiv N (d * 2 ^ e)).
  assert (Q : 0 <= N / d) by (apply Z.div_pos; lia).
  pose proof (Z.div_mod N d ltac:(lia)) as DM. pose proof (Z.mod_pos_bound N d Hd) as MB.
  (* the quotient is below 2^53 * 2^e *)
  assert (UP : N <= (2 ^ 53) * (d * 2 ^ e)).
  { assert (L : N / d < 2 ^ 53 * 2 ^ e).
    { rewrite <- Z.pow_add_r by lia. destruct (Z.eq_dec (N / d) 0) as [->|Nz]; [apply pow2_pos; lia|].
      pose proof (Z.log2_spec (N / d) ltac:(lia)) as [_ LS]. eapply Z.lt_le_trans; [exact LS|]. apply Z.pow_le_mono_r; unfold e; lia. }
    nia. }
  assert (LO : 0 < e -> 2 ^ 52 * (d * 2 ^ e) <= N).
  { intros Hp. assert (Nz : 0 < N / d). { destruct (Z.eq_dec (N / d) 0) as [E|]; [|lia]. unfold e in Hp. rewrite E in Hp. cbn in Hp. lia. }
    pose proof (Z.log2_spec (N / d) Nz) as [LS _]. replace (Z.log2 (N / d)) with (52 + e) in LS by (unfold e in *; lia).
    rewrite Z.pow_add_r in LS by lia. nia. }
  assert (q0 : 0 <= q) by (apply rdiv_nonneg; nia).
  assert (q1 : q <= 2 ^ 53) by (apply rdiv_le; nia).
  assert (q2 : 0 < e -> 2 ^ 52 <= q) by (intros Hp; apply rdiv_ge; [nia|exact (LO Hp)]).
  assert (e1 : e <= 2045).
  { destruct (Z.eq_dec (N / d) 0) as [E|Nz]; [unfold e; rewrite E; cbn; lia|].
    assert (N / d <= max_units) by (apply Z.div_le_upper_bound; lia).
    assert (Z.log2 (N / d) <= 2097). 2:{ unfold e; lia. }
    apply Z.lt_succ_r. apply Z.log2_lt_pow2; [lia|]. eapply Z.le_lt_trans; [eassumption|]. unfold max_units.
    change (Z.succ 2097) with (53 + 2045). rewrite Z.pow_add_r by lia. pose proof (pow2_pos 2045 ltac:(lia)). nia. }
  assert (q3 : e = 2045 -> q <= 2 ^ 53 - 1).
  { intros E. apply rdiv_le; [nia|]. rewrite E. unfold max_units in Hm. nia. }
  (* q * 2^e is nearest *)
  assert (NEAR : forall Y, double_units Y -> Z.abs (q * 2 ^ e * d - N) <= Z.abs (Y * d - N)).
  { intros Y (m & f & Hmm & Hf & ->).
    assert (G : forall z, Z.abs (q * 2 ^ e * d - N) <= Z.abs (z * 2 ^ e * d - N)).
    { intros z. pose proof (rdiv_nearest N (d * 2 ^ e) z ltac:(nia)) as R. fold q in R.
      replace (q * 2 ^ e * d - N) with (- (N - q * (d * 2 ^ e))) by ring. replace (z * 2 ^ e * d - N) with (- (N - z * (d * 2 ^ e))) by ring.
      rewrite !Z.abs_opp. exact R. }
    destruct (Z.le_gt_cases e f) as [L|L].
    - replace (m * 2 ^ f) with (m * 2 ^ (f - e) * 2 ^ e); [apply G|]. rewrite <- Z.mul_assoc, <- Z.pow_add_r by lia. do 2 f_equal. lia.
    - etransitivity; [apply (G (2 ^ 52))|]. pose proof (LO ltac:(lia)) as LO'.
      assert (m * 2 ^ f <= 2 ^ 52 * 2 ^ e).
      { replace e with ((e - 1 - f) + (1 + f)) by lia. rewrite Z.pow_add_r by lia. rewrite (Z.pow_add_r 2 1 f) by lia. change (2 ^ 1) with 2.
        pose proof (pow2_pos f Hf). pose proof (pow2_pos (e - 1 - f) ltac:(lia)).
        assert (m * 2 ^ f <= 2 ^ 53 * 2 ^ f) by nia. assert (2 ^ 53 * 2 ^ f <= 2 ^ 53 * 2 ^ f * 2 ^ (e - 1 - f)) by nia.
        replace (2 ^ 52 * (2 ^ (e - 1 - f) * (2 * 2 ^ f))) with (2 ^ 53 * 2 ^ f * 2 ^ (e - 1 - f)) by (change (2 ^ 53) with (2 ^ 52 * 2); ring). lia. }
      assert (m * 2 ^ f * d <= 2 ^ 52 * 2 ^ e * d) by nia. lia. }
  assert (REL : 2 ^ 52 * d <= N -> 2 ^ 53 * Z.abs (q * 2 ^ e * d - N) <= N).
  { intros HD. assert (LO' : 2 ^ 52 * (d * 2 ^ e) <= N) by (destruct (Z.eq_dec e 0) as [E|]; [rewrite E, Z.pow_0_r; lia|apply LO; lia]).
    pose proof (rdiv_spec N (d * 2 ^ e) ltac:(nia)) as R. fold q in R. replace (q * 2 ^ e * d - N) with (- (N - q * (d * 2 ^ e))) by ring.
    rewrite Z.abs_opp. lia. }
  destruct (Z.eqb_spec q (2 ^ 53)) as [E|E].
  - change (2 ^ 52) with (Z.pos (2 ^ 52)). assert (e <= 2044) by (destruct (Z.eq_dec e 2045); lia).
    destruct (Z.ltb_spec 2045 (e + 1)); [lia|]. repeat split.
    + apply valid_finite. rewrite Pos2Z.inj_pow. split; [lia|]. split; [lia|]. right; lia.
    + intros Y HY. specialize (NEAR Y HY). cbn [units]. unfold magnitude. replace (e + 1 - 1074 + 1074) with (1 + e) by lia.
      rewrite Z.pow_add_r by lia. rewrite E in NEAR. replace (Z.pos (2 ^ 52) * (2 ^ 1 * 2 ^ e) * d) with (2 ^ 53 * 2 ^ e * d) by (rewrite Pos2Z.inj_pow; change (2 ^ 53) with (2 ^ 52 * 2 ^ 1); ring).
      exact NEAR.
    + intros HD. specialize (REL HD). cbn [units]. unfold magnitude. replace (e + 1 - 1074 + 1074) with (1 + e) by lia.
      rewrite Z.pow_add_r by lia. rewrite E in REL. replace (Z.pos (2 ^ 52) * (2 ^ 1 * 2 ^ e) * d) with (2 ^ 53 * 2 ^ e * d) by (rewrite Pos2Z.inj_pow; change (2 ^ 53) with (2 ^ 52 * 2 ^ 1); ring).
      exact REL.
  - destruct q as [|m|m] eqn:Eq; [| |lia].
    + repeat split. { intros Y HY. specialize (NEAR Y HY). cbn [units]. exact NEAR. } intros HD. cbn [units]. exact (REL HD).
    + destruct (Z.ltb_spec 2045 e); [lia|]. repeat split.
      * apply valid_finite. split; [lia|]. split; [lia|]. destruct (Z.eq_dec e 0); [left; lia|right; apply q2; lia].
      * intros Y HY. specialize (NEAR Y HY). cbn [units]. unfold magnitude. replace (e - 1074 + 1074) with e by lia. exact NEAR.
      * intros HD. specialize (REL HD). cbn [units]. unfold magnitude. replace (e - 1074 + 1074) with e by lia. exact REL.
Qed.
