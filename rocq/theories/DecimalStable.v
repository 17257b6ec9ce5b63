(** Printing, reading and printing again gives the same text. *)
From Coq Require Import ZArith Bool List Lia Ascii.
From Coq Require Import ZifyBool ZifyNat.
From Verif Require Import Base SZA.
From Verif Require Export DecimalRound.
Import ListNotations.
Open Scope Z_scope.

(** * Specification: the printable range *)

(** |x| <= 10^308 *)
Definition below_1e308 (x : double) : Prop := units x <= 10 ^ 308 * dunit.
(** zero, or |x| >= 10^-307 *)
Definition above_1em307 (x : double) : Prop := units x = 0 \/ dunit <= units x * 10 ^ 307.

(** * Proofs *)
Lemma max_units_1e308 : 10 ^ 308 * dunit <= max_units.
Proof. apply Zle_bool_imp_le. vm_compute. reflexivity. Qed.
Lemma normal_units : 2 ^ 52 * 10 ^ 400 <= 10 ^ 93 * dunit.
Proof. apply Zle_bool_imp_le. vm_compute. reflexivity. Qed.

Global Opaque dunit max_units.

(** names that keep the large powers of ten folded *)
Definition p93 : Z := 10 ^ 93.
Definition p307 : Z := 10 ^ 307.
Definition p308 : Z := 10 ^ 308.
Definition p400 : Z := 10 ^ 400.
Definition p708 : Z := 10 ^ 708.
Lemma p93_pos : 0 < p93. Proof. reflexivity. Qed.
Lemma p308_pos : 0 < p308. Proof. reflexivity. Qed.
Lemma p400_pos : 0 < p400. Proof. reflexivity. Qed.
Lemma p708_pos : 0 < p708. Proof. reflexivity. Qed.
Lemma p400_split : p400 = p307 * p93. Proof. vm_compute. reflexivity. Qed.
Lemma p708_split : p708 = p308 * p400. Proof. vm_compute. reflexivity. Qed.
Ltac fold_powers := change (10 ^ 93) with p93 in *; change (10 ^ 307) with p307 in *; change (10 ^ 308) with p308 in *;
  change (10 ^ 400) with p400 in *; change (10 ^ 708) with p708 in *.

Lemma units_zero x : finite x -> units x = 0 -> valid x -> x = S754_zero (negative x).
Proof.
  intros F H V. destruct x as [s|s| |s m e]; try contradiction; [reflexivity|]. exfalso.
  apply valid_finite in V as (A & B & C). cbn [units] in H. unfold magnitude in H. pose proof (pow2_pos (e + 1074) ltac:(lia)). nia.
Qed.
Lemma units_pos s m e : valid (S754_finite s m e) -> 0 < units (S754_finite s m e).
Proof. intros V. apply valid_finite in V as (A & B & C). cbn [units]. unfold magnitude. pose proof (pow2_pos (e + 1074) ltac:(lia)). nia. Qed.

Lemma abs_scale a c : 0 <= c -> Z.abs a * c = Z.abs (a * c).
Proof. intros H. rewrite Z.abs_mul, (Z.abs_eq c) by lia. reflexivity. Qed.

(** ** Fixed point *)
Lemma fixed_digits_0 p : fixed_digits p 0 = 0.
Proof. unfold fixed_digits. rewrite Z.mul_0_l. apply rdiv_unique; [apply dunit_pos|]. pose proof dunit_pos. left. cbn. lia. Qed.
Lemma show_fixed_eq p x : finite x -> show_fixed p x = sign_text (negative x) ++ show_decimals p (fixed_digits p (units x)).
Proof. intros F. destruct x; try contradiction; cbn [show_fixed negative units]; [rewrite fixed_digits_0|]; reflexivity. Qed.
Lemma fixed_digits_nonneg p V : 0 <= V -> 0 <= fixed_digits p V.
Proof. intros H. apply rdiv_nonneg; [apply dunit_pos|]. pose proof (pow10_pos (Z.of_nat p) ltac:(lia)). nia. Qed.

Lemma fixed_read p x : finite x -> read_decimal (show_fixed p x) = Some (negative x, fixed_digits p (units x), - Z.of_nat p).
Proof. intros F. rewrite show_fixed_eq by exact F. apply read_decimals. apply fixed_digits_nonneg, units_nonneg. Qed.

Theorem fixed_stable p x : valid x -> finite x -> below_1e308 x ->
  exists y, read_double (show_fixed p x) = Some y /\ valid y /\ finite y /\ negative y = negative x /\ show_fixed p y = show_fixed p x
    /\ Z.abs (units y - units x) * 10 ^ Z.of_nat p <= dunit.
Proof.
  intros V F B. unfold read_double. rewrite (fixed_read p x F). set (q := fixed_digits p (units x)). pose proof (pow10_pos (Z.of_nat p) ltac:(lia)) as P. pose proof dunit_pos as U.
  pose proof (units_nonneg x) as X0. unfold below_1e308 in B. fold_powers.
  assert (q0 : 0 <= q) by (apply fixed_digits_nonneg; lia).
  assert (q1 : q <= p308 * 10 ^ Z.of_nat p). { apply rdiv_le; [exact U|]. revert B. generalize p308. intros. nia. }
  fold_powers. unfold nearest_double. replace (Z.max 0 (- Z.of_nat p)) with 0 by lia. replace (Z.max 0 (- - Z.of_nat p)) with (Z.of_nat p) by lia.
  rewrite Z.pow_0_r, Z.mul_1_r. pose proof max_units_1e308 as MU. fold_powers.
  destruct (nearest_ratio_spec (negative x) q (10 ^ Z.of_nat p) q0 P) as (V' & F' & S' & N' & _).
  { revert q1 MU U P. generalize p308, (10 ^ Z.of_nat p), dunit, max_units. intros. nia. }
  eexists. split; [reflexivity|]. set (y := nearest_ratio _ _ _) in *. split; [exact V'|]. split; [exact F'|]. split; [exact S'|].
  specialize (N' _ (units_double x V)).
  pose proof (rdiv_spec (units x * 10 ^ Z.of_nat p) dunit U) as R. fold (fixed_digits p (units x)) in R. fold q in R. split.
  - rewrite !show_fixed_eq by assumption. rewrite S'. do 2 f_equal. fold q. unfold fixed_digits. apply rdiv_unique; [exact U|]. lia.
  - replace (Z.abs (units y - units x) * 10 ^ Z.of_nat p) with (Z.abs (units y * 10 ^ Z.of_nat p - units x * 10 ^ Z.of_nat p))
      by (rewrite <- Z.mul_sub_distr_r, Z.abs_mul, (Z.abs_eq (10 ^ Z.of_nat p)) by lia; reflexivity). lia.
Qed.

(** ** Scientific *)
Definition sci_digits (p : nat) (x : double) : Z * Z := if units x =? 0 then (0, 0) else sci_dec p (units x).
Lemma show_sci_eq E p x : finite x -> valid x -> show_sci E p x = sign_text (negative x) ++ show_scientific E p (fst (sci_digits p x)) (snd (sci_digits p x)).
Proof.
  intros F V. unfold sci_digits. destruct x as [s|s| |s m e]; try contradiction; cbn [show_sci negative units]; [reflexivity|].
  pose proof (units_pos s m e V) as P. cbn [units] in P. destruct (Z.eqb_spec (magnitude m e) 0); [lia|]. destruct (sci_dec p (magnitude m e)); reflexivity.
Qed.

Lemma sci_exp_spec V : 0 < V -> dunit <= V * 10 ^ 400 -> 0 <= sci_exp V /\
  10 ^ sci_exp V * dunit <= V * 10 ^ 400 < 10 ^ (sci_exp V + 1) * dunit.
Proof.
  fold_powers. intros HV H. pose proof dunit_pos as U. unfold sci_exp. fold_powers. set (A := V * p400) in *. clearbody A.
  assert (D : 0 < A / dunit) by (apply Z.div_str_pos; lia). pose proof (ndig_spec _ D) as [L R]. pose proof (ndig_pos (A / dunit)) as N1.
  pose proof (Z.div_mod A dunit ltac:(lia)) as DM. pose proof (Z.mod_pos_bound A dunit U) as MB. set (Q := A / dunit) in *. clearbody Q.
  set (j := Z.of_nat (ndig Q)) in *. replace (j - 1 + 1) with j by lia. split; [lia|]. split; nia.
Qed.
Lemma sci_exp_unique V k : 0 <= k -> 10 ^ k * dunit <= V * 10 ^ 400 < 10 ^ (k + 1) * dunit -> sci_exp V = k.
Proof.
  fold_powers. intros Hk H. pose proof dunit_pos as U. unfold sci_exp. fold_powers. rewrite (ndig_unique _ (k + 1)); [lia| |lia].
  replace (k + 1 - 1) with k by lia. split; [apply Z.div_le_lower_bound; lia|apply Z.div_lt_upper_bound; lia].
Qed.

(** what is printed: p + 1 digits, within half a unit of the last digit *)
Lemma sci_dec_spec p V : Z.of_nat p <= 50 -> 0 < V -> dunit <= V * 10 ^ 307 -> V <= 10 ^ 308 * dunit ->
  exists q k, sci_dec p V = (q, k) /\ -307 <= k <= 308 /\ 10 ^ Z.of_nat p <= q < 10 ^ (Z.of_nat p + 1) /\
    let u := 10 ^ (k + 400 - Z.of_nat p) in
    (q = 10 ^ Z.of_nat p \/ (sci_exp V = k + 400 /\ q = rdiv (V * 10 ^ 400) (dunit * u)))
    /\ 2 * Z.abs (V * 10 ^ 400 - q * u * dunit) <= u * dunit
    /\ u * 10 ^ Z.of_nat p * dunit <= 2 * (V * 10 ^ 400)
    /\ q * u <= 10 ^ 708.
Proof.
  intros Hp HV LO HI. pose proof dunit_pos as U. pose proof p93_pos as P93. pose proof p400_pos as P400. pose proof p308_pos as P308. pose proof p708_pos as P708.
  pose proof p400_split as SP4. pose proof p708_split as SP7. unfold sci_dec. fold_powers.
  assert (E400 : V * p400 = V * p307 * p93) by (rewrite SP4; ring).
  assert (LO' : p93 * dunit <= V * p400) by (rewrite E400; nia).
  assert (HI' : V * p400 <= p708 * dunit) by (rewrite SP7; nia).
  assert (LO'' : dunit <= V * p400) by nia.
  destruct (sci_exp_spec V HV LO'') as (K0 & K1 & K2). fold_powers.
  set (A := V * p400) in *. set (j := sci_exp V) in *. clearbody A. clear E400 LO'' SP4.
  assert (J1 : 93 <= j). { destruct (Z.le_gt_cases 93 j); [assumption|]. assert (10 ^ (j + 1) <= p93) by (apply Z.pow_le_mono_r; lia). nia. }
  assert (J2 : j <= 708). { destruct (Z.le_gt_cases j 708); [assumption|]. assert (T9 : 10 ^ (1 + 708) <= 10 ^ j) by (apply Z.pow_le_mono_r; lia). rewrite Z.pow_add_r in T9 by lia. change (10 ^ 1) with 10 in T9. fold_powers. nia. }
  set (w := 10 ^ (j - Z.of_nat p)). pose proof (pow10_pos (j - Z.of_nat p) ltac:(lia)) as W. fold w in W.
  pose proof (pow10_pos (Z.of_nat p) ltac:(lia)) as PP.
  assert (Ej : 10 ^ j = 10 ^ Z.of_nat p * w) by (unfold w; rewrite <- Z.pow_add_r by lia; f_equal; lia).
  assert (Ej1 : 10 ^ (j + 1) = 10 ^ (Z.of_nat p + 1) * w) by (unfold w; rewrite <- Z.pow_add_r by lia; f_equal; lia).
  set (q := rdiv A (dunit * w)). assert (UW : 0 < dunit * w) by nia.
  pose proof (rdiv_spec A (dunit * w) UW) as R. fold q in R.
  assert (Q1 : 10 ^ Z.of_nat p <= q) by (apply rdiv_ge; [exact UW|nia]).
  assert (Q2 : q <= 10 ^ (Z.of_nat p + 1)) by (apply rdiv_le; [exact UW|nia]).
  assert (Q3 : q * w <= p708).
  { assert (q <= 10 ^ (708 - j + Z.of_nat p)).
    { apply rdiv_le; [exact UW|]. replace (10 ^ (708 - j + Z.of_nat p) * (dunit * w)) with (p708 * dunit); [exact HI'|].
      transitivity (10 ^ (708 - j + Z.of_nat p) * w * dunit); [|ring]. unfold w. rewrite <- Z.pow_add_r by lia. f_equal. change p708 with (10 ^ 708). f_equal. lia. }
    assert (10 ^ (708 - j + Z.of_nat p) * w = p708) by (unfold w; rewrite <- Z.pow_add_r by lia; change p708 with (10 ^ 708); f_equal; lia). nia. }
  clearbody w.
  destruct (Z.eqb_spec q (10 ^ (Z.of_nat p + 1))) as [E|E].
  - exists (10 ^ Z.of_nat p), (j + 1 - 400). split; [reflexivity|].
    assert (Eu : 10 ^ (j + 1 - 400 + 400 - Z.of_nat p) = 10 * w).
    { transitivity (10 ^ (1 + (j - Z.of_nat p))); [f_equal; lia|]. rewrite Z.pow_add_r by lia. change (10 ^ 1) with 10.
      assert (10 ^ (j - Z.of_nat p) = w); [|lia]. apply (Z.mul_reg_l _ _ (10 ^ Z.of_nat p)); [lia|]. rewrite <- Ej, <- Z.pow_add_r by lia. f_equal. lia. }
    rewrite Eu. rewrite Z.pow_add_r in E by lia. change (10 ^ 1) with 10 in E.
    assert (J3 : j <= 707).
    { destruct (Z.eq_dec j 708) as [E7|]; [|lia]. exfalso. rewrite E7 in Ej. fold_powers. assert (p708 < q * w); [|lia]. rewrite Ej, E. nia. }
    split; [lia|]. split; [rewrite Z.pow_add_r by lia; lia|]. cbv zeta. split; [left; reflexivity|].
    split. { replace (A - 10 ^ Z.of_nat p * (10 * w) * dunit) with (A - q * (dunit * w)) by (rewrite E; ring). lia. }
    split. { rewrite E in R. nia. }
    rewrite E in Q3. lia.
  - exists q, (j - 400). split; [reflexivity|].
    assert (Eu : 10 ^ (j - 400 + 400 - Z.of_nat p) = w).
    { apply (Z.mul_reg_l _ _ (10 ^ Z.of_nat p)); [lia|]. rewrite <- Ej, <- Z.pow_add_r by lia. f_equal. lia. }
    rewrite Eu. split; [lia|]. split; [lia|]. cbv zeta. split; [right; split; [lia|reflexivity]|].
    split. { replace (A - q * w * dunit) with (A - q * (dunit * w)) by ring. lia. }
    split; [rewrite Ej in K1; nia|exact Q3].
Qed.

Lemma sci_read E p x : valid x -> finite x -> below_1e308 x -> above_1em307 x -> Z.of_nat p <= 50 -> E = "e"%char \/ E = "E"%char ->
  read_decimal (show_sci E p x) = Some (negative x, fst (sci_digits p x), snd (sci_digits p x) - Z.of_nat p).
Proof.
  intros V F B A Hp HE. rewrite show_sci_eq by assumption. apply read_scientific; [|exact HE]. unfold sci_digits. destruct (Z.eqb_spec (units x) 0); [cbn; lia|].
  destruct A as [|A]; [contradiction|]. pose proof (units_nonneg x). destruct (sci_dec_spec p (units x) Hp ltac:(lia) A B) as (q & k & -> & _ & Q & _).
  pose proof (pow10_pos (Z.of_nat p) ltac:(lia)). cbn [fst]. lia.
Qed.

Theorem sci_stable E p x : Z.of_nat p <= 14 -> E = "e"%char \/ E = "E"%char ->
  valid x -> finite x -> below_1e308 x -> above_1em307 x ->
  exists y, read_double (show_sci E p x) = Some y /\ valid y /\ finite y /\ negative y = negative x /\ (units y = 0 <-> units x = 0)
    /\ show_sci E p y = show_sci E p x
    /\ Z.abs (units y - units x) * 10 ^ Z.of_nat p <= 2 * units x.
Proof.
  intros Hp HE V F B A. unfold read_double. rewrite sci_read by (assumption || lia). pose proof dunit_pos as U. pose proof max_units_1e308 as MU. pose proof p400_pos as P4. pose proof p708_split as T708. pose proof normal_units as NU. fold_powers.
  unfold sci_digits. destruct (Z.eqb_spec (units x) 0) as [Z0|NZ].
  { cbn [fst snd]. eexists. split; [reflexivity|]. rewrite (units_zero x F Z0 V).
    assert (E0 : nearest_double (negative (S754_zero (negative x)), 0, 0 - Z.of_nat p) = S754_zero (negative x)).
    { unfold nearest_double, nearest_ratio. rewrite Z.mul_0_l. cbv zeta.
      assert (P0 : 0 < 10 ^ Z.max 0 (- (0 - Z.of_nat p))) by (apply pow10_pos; lia). revert P0. generalize (10 ^ Z.max 0 (- (0 - Z.of_nat p))). intros d Hd.
      rewrite ?Z.mul_0_l. rewrite Z.div_0_l by lia. change (Z.max 0 (Z.log2 0 - 52)) with 0. rewrite Z.pow_0_r, Z.mul_1_r.
      rewrite (rdiv_unique 0 d 0) by (try lia; left; cbn; lia). reflexivity. }
    rewrite E0. repeat split; reflexivity || (cbn; lia). }
  destruct A as [|A]; [contradiction|]. pose proof (units_nonneg x) as X0. unfold below_1e308 in B. fold_powers.
  destruct (sci_dec_spec p (units x) ltac:(lia) ltac:(lia) A B) as (q & k & ES & HK & HQ & T). cbv zeta in T. destruct T as (CASE & CLOSE & REL & TOP). fold_powers.
  rewrite ES. cbn [fst snd]. eexists. split; [reflexivity|].
  pose proof (pow10_pos (Z.of_nat p) ltac:(lia)) as PP. set (u := 10 ^ (k + 400 - Z.of_nat p)) in *.
  assert (Pu : 0 < u) by (apply pow10_pos; lia).
  set (y := nearest_double _).
  assert (RD : exists n d, 0 <= n /\ 0 < d /\ n * p400 = q * u * d /\ y = nearest_ratio (negative x) n d).
  { exists (q * 10 ^ Z.max 0 (k - Z.of_nat p)), (10 ^ Z.max 0 (- (k - Z.of_nat p))). repeat split.
    - pose proof (pow10_pos (Z.max 0 (k - Z.of_nat p)) ltac:(lia)). nia.
    - apply pow10_pos. lia.
    - unfold u. change p400 with (10 ^ 400). rewrite <- !Z.mul_assoc, <- !Z.pow_add_r by lia. do 2 f_equal. lia. }
  destruct RD as (n & d & Hn & Hd & END & Ey). pose proof (Z.lt_le_incl _ _ Hd) as Hd'. pose proof (Z.lt_le_incl _ _ P4) as P4'.
  destruct (nearest_ratio_spec (negative x) n d Hn Hd) as (V' & F' & S' & N' & R').
  { apply (Z.mul_le_mono_pos_r _ _ (p400)); [exact P4|]. replace (n * dunit * p400) with (q * u * d * dunit) by (rewrite <- END; ring).
    rewrite T708 in TOP. revert TOP MU P4 U Hd. generalize (p308), (p400), dunit, max_units, (q * u). intros a b c m t H1 H2 H3 H4 H5.
    assert (t * c <= a * b * c) by nia. assert (a * c * b <= m * b) by nia. nia. }
  rewrite <- Ey in V', F', S', N', R'. split; [exact V'|]. split; [exact F'|]. split; [exact S'|].
  specialize (N' _ (units_double x V)).
  (* in units of 10^-400 *)
  assert (CL : Z.abs (units y * p400 - q * u * dunit) <= Z.abs (units x * p400 - q * u * dunit)).
  { apply (Z.mul_le_mono_pos_r _ _ d); [exact Hd|]. rewrite !abs_scale by assumption.
    replace ((units y * p400 - q * u * dunit) * d) with ((units y * d - n * dunit) * p400) by (rewrite !Z.mul_sub_distr_r; replace (n * dunit * p400) with (n * p400 * dunit) by ring; rewrite END; ring).
    replace ((units x * p400 - q * u * dunit) * d) with ((units x * d - n * dunit) * p400) by (rewrite !Z.mul_sub_distr_r; replace (n * dunit * p400) with (n * p400 * dunit) by ring; rewrite END; ring).
    rewrite <- !abs_scale by assumption. clear -N' P4. nia. }
  assert (DIFF : Z.abs (units y - units x) * 10 ^ Z.of_nat p <= 2 * units x).
  { apply (Z.mul_le_mono_pos_r _ _ p400); [exact P4|].
    assert (D1 : Z.abs (units y - units x) * p400 <= u * dunit).
    { rewrite abs_scale by assumption. rewrite Z.mul_sub_distr_r. clear -CL CLOSE. lia. }
    replace (Z.abs (units y - units x) * 10 ^ Z.of_nat p * p400) with (Z.abs (units y - units x) * p400 * 10 ^ Z.of_nat p) by ring.
    apply Z.le_trans with (u * dunit * 10 ^ Z.of_nat p); [apply Z.mul_le_mono_nonneg_r; [apply Z.lt_le_incl; exact PP|exact D1]|].
    replace (u * dunit * 10 ^ Z.of_nat p) with (u * 10 ^ Z.of_nat p * dunit) by ring. replace (2 * units x * p400) with (2 * (units x * p400)) by ring. exact REL. }
  assert (NEW : 0 < units y /\ sci_dec p (units y) = (q, k)).
  { destruct (Z.eq_dec q (10 ^ Z.of_nat p)) as [EQ|NQ].
    { clear CASE CLOSE N' CL DIFF REL TOP MU T708 B A X0 NZ. rewrite EQ in END. rewrite EQ. clear EQ.
      assert (PK : 10 ^ Z.of_nat p <= 10 ^ 14) by (apply Z.pow_le_mono_r; lia). change (10 ^ 14) with 100000000000000 in PK.
      assert (EU : 10 ^ (k + 400) = 10 ^ Z.of_nat p * u) by (unfold u; rewrite <- Z.pow_add_r by lia; f_equal; lia).
      assert (EU1 : 10 ^ (k + 400 + 1) = 10 * (10 ^ Z.of_nat p * u)) by (rewrite Z.pow_add_r by lia; rewrite EU; lia).
      assert (K93 : p93 <= 10 ^ (k + 400)) by (apply Z.pow_le_mono_r; lia).
      assert (RR : 2 ^ 53 * Z.abs (units y * p400 - 10 ^ Z.of_nat p * u * dunit) <= 10 ^ Z.of_nat p * u * dunit).
      { apply (Z.mul_le_mono_pos_r _ _ d); [exact Hd|].
        assert (HH : 2 ^ 52 * d <= n * dunit).
        { apply (Z.mul_le_mono_pos_r _ _ p400); [exact P4|]. replace (n * dunit * p400) with (10 ^ (k + 400) * dunit * d) by (replace (n * dunit * p400) with (n * p400 * dunit) by ring; rewrite END, EU; ring).
          revert NU K93 U Hd. generalize (2 ^ 52), p400, p93, (10 ^ (k + 400)), dunit. intros a b c t v H1 H2 H3 H4. assert (c * v <= t * v) by nia. nia. }
        specialize (R' HH).
        replace (2 ^ 53 * Z.abs (units y * p400 - 10 ^ Z.of_nat p * u * dunit) * d) with (2 ^ 53 * Z.abs (units y * d - n * dunit) * p400).
        2:{ rewrite <- !Z.mul_assoc. f_equal. rewrite !abs_scale by assumption. f_equal.
            rewrite !Z.mul_sub_distr_r. replace (n * dunit * p400) with (n * p400 * dunit) by ring. rewrite END. ring. }
        replace (10 ^ Z.of_nat p * u * dunit * d) with (n * dunit * p400) by (replace (n * dunit * p400) with (n * p400 * dunit) by ring; rewrite END; ring).
        clear -R' P4. nia. }
      set (A' := units y * p400) in *. set (W := u * dunit). assert (HW : 0 < W) by (unfold W; nia).
      assert (RW : 20 * Z.abs (A' - 10 ^ Z.of_nat p * W) < W).
      { replace (10 ^ Z.of_nat p * u * dunit) with (10 ^ Z.of_nat p * W) in RR by (unfold W; ring). change (2 ^ 53) with 9007199254740992 in RR.
        assert (10 ^ Z.of_nat p * W <= 100000000000000 * W) by (clear -PK HW; nia). lia. }
      assert (PW : W <= 10 ^ Z.of_nat p * W) by (clear -PP HW; nia).
      assert (Y0 : 0 < units y). { assert (0 < A') by lia. unfold A' in *. clear -H P4. nia. }
      split; [exact Y0|]. unfold sci_dec. fold_powers. fold A'.
      destruct (Z.le_gt_cases (10 ^ Z.of_nat p * W) A') as [GE|LT].
      - assert (EX : sci_exp (units y) = k + 400).
        { apply sci_exp_unique; [lia|]. fold_powers. fold A'. rewrite EU1, EU. unfold W in *. lia. }
        rewrite EX. fold u. rewrite (rdiv_unique A' (dunit * u) (10 ^ Z.of_nat p)).
        + destruct (Z.eqb_spec (10 ^ Z.of_nat p) (10 ^ (Z.of_nat p + 1))) as [E1|]; [exfalso; rewrite Z.pow_add_r in E1 by lia; change (10 ^ 1) with 10 in E1; clear -E1 PP; lia|]. f_equal. lia.
        + unfold W in HW. lia.
        + left. replace (A' - 10 ^ Z.of_nat p * (dunit * u)) with (A' - 10 ^ Z.of_nat p * W) by (unfold W; ring). unfold W in *. lia.
      - set (v := 10 ^ (k + 399 - Z.of_nat p)). assert (Euv : u = 10 * v).
        { unfold u, v. replace (k + 400 - Z.of_nat p) with (1 + (k + 399 - Z.of_nat p)) by lia. rewrite Z.pow_add_r by lia. reflexivity. }
        assert (EV : 10 ^ (k + 399) = 10 ^ Z.of_nat p * v) by (unfold v; rewrite <- Z.pow_add_r by lia; f_equal; lia).
        assert (EX : sci_exp (units y) = k + 399).
        { apply sci_exp_unique; [lia|]. fold_powers. fold A'. replace (k + 399 + 1) with (k + 400) by lia. rewrite EU, EV.
          assert (EW : W = 10 * (v * dunit)) by (unfold W; rewrite Euv; ring).
          replace (10 ^ Z.of_nat p * u * dunit) with (10 ^ Z.of_nat p * W) by (unfold W; ring). replace (10 ^ Z.of_nat p * v * dunit) with (10 ^ Z.of_nat p * (v * dunit)) by ring.
          assert (10 ^ Z.of_nat p * W = 10 * (10 ^ Z.of_nat p * (v * dunit))) by (rewrite EW; ring). lia. }
        rewrite EX. fold v. rewrite (rdiv_unique A' (dunit * v) (10 ^ (Z.of_nat p + 1))).
        + rewrite Z.eqb_refl. f_equal. lia.
        + clear -HW Euv Pu U. nia.
        + left. rewrite Z.pow_add_r by lia. change (10 ^ 1) with 10. replace (A' - 10 ^ Z.of_nat p * 10 * (dunit * v)) with (A' - 10 ^ Z.of_nat p * W) by (unfold W; rewrite Euv; ring).
          assert (W = 10 * (dunit * v)) by (unfold W; rewrite Euv; ring). lia. }
    destruct CASE as [|[EX EQ]]; [contradiction|].
    clear N' R' END Ey V' F' S' NU MU T708 TOP REL DIFF B A ES.
    assert (EU : 10 ^ Z.of_nat p * u = 10 ^ (k + 400)) by (unfold u; rewrite <- Z.pow_add_r by (clear -Hp HK; lia); f_equal; lia).
    assert (EU1 : 10 ^ (Z.of_nat p + 1) * u = 10 ^ (k + 400 + 1)) by (unfold u; rewrite <- Z.pow_add_r by (clear -Hp HK; lia); f_equal; lia).
    set (A' := units y * p400) in *.
    assert (PU : 0 < u * dunit) by (apply Z.mul_pos_pos; assumption).
    assert (LOW : 10 ^ (k + 400) * dunit <= A' < 10 ^ (k + 400 + 1) * dunit).
    { rewrite <- EU, <- EU1. assert (10 ^ Z.of_nat p + 1 <= q) by (clear -HQ NQ; lia). assert (q + 1 <= 10 ^ (Z.of_nat p + 1)) by (clear -HQ; lia).
      assert ((10 ^ Z.of_nat p + 1) * (u * dunit) <= q * (u * dunit)) by (apply Z.mul_le_mono_nonneg_r; [apply Z.lt_le_incl|]; assumption).
      assert ((q + 1) * (u * dunit) <= 10 ^ (Z.of_nat p + 1) * (u * dunit)) by (apply Z.mul_le_mono_nonneg_r; [apply Z.lt_le_incl|]; assumption).
      clear -H1 H2 CL CLOSE PU. lia. }
    split. { pose proof (pow10_pos (k + 400) ltac:(clear -HK; lia)) as PK. unfold A' in LOW. clear -LOW PK U P4. destruct (Z.le_gt_cases (units y) 0); [|assumption].
             assert (0 < 10 ^ (k + 400) * dunit) by (apply Z.mul_pos_pos; assumption). nia. }
    unfold sci_dec. rewrite (sci_exp_unique _ (k + 400) ltac:(clear -HK; lia) LOW). fold u. fold_powers. fold A'.
    assert (RQ : rdiv A' (dunit * u) = q).
    { assert (PU' : 0 < dunit * u) by (rewrite Z.mul_comm; exact PU). apply rdiv_unique; [exact PU'|].
      pose proof (rdiv_spec (units x * p400) (dunit * u) PU') as R. rewrite <- EQ in R.
      replace (A' - q * (dunit * u)) with (A' - q * u * dunit) by ring. replace (units x * p400 - q * (dunit * u)) with (units x * p400 - q * u * dunit) in R by ring.
      replace (dunit * u) with (u * dunit) in * by ring. clear -R CL. lia. }
    rewrite RQ. destruct (Z.eqb_spec q (10 ^ (Z.of_nat p + 1))); [clear -HQ e; lia|]. f_equal. clear. lia. }
  destruct NEW as [NEW1 NEW2]. split; [split; lia|]. split; [|exact DIFF].
  rewrite !show_sci_eq by assumption. rewrite S'. unfold sci_digits. destruct (Z.eqb_spec (units y) 0); [lia|]. destruct (Z.eqb_spec (units x) 0); [lia|]. rewrite NEW2, ES. reflexivity.
Qed.
