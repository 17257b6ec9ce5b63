(** Decimal numbers of few digits survive being printed and read: decimal -> double -> decimal -> double. *)
From Coq Require Import ZArith Bool List Lia Ascii.
From Coq Require Import ZifyBool ZifyNat.
From Verif Require Import Base SZA FloatOrder.
From Verif Require Export DecimalStable.
Import ListNotations.
Open Scope Z_scope.

(** * Specification *)

(** [x] is zero or the double nearest to a decimal number with [p] + 1 significant digits,
    q * 10^(k - p) with 10^p <= q < 10^(p+1), of magnitude between 10^-306 and 10^308 *)
Definition sci_exact (p : nat) (x : double) : Prop :=
  (exists s, x = S754_zero s) \/
  exists s q k, 10 ^ Z.of_nat p <= q < 10 ^ (Z.of_nat p + 1) /\ -306 <= k <= 307 /\ x = nearest_double (s, q, k - Z.of_nat p).
(** [x] is the double nearest to a number with [p] decimals *)
Definition fixed_exact (p : nat) (x : double) : Prop :=
  exists s q, 0 <= q <= 10 ^ 15 /\ x = nearest_double (s, q, - Z.of_nat p).

(** * Proofs *)

(** the printed digits, from a relative error below 2^-53 *)
Lemma sci_dec_near p q k Y : Z.of_nat p <= 14 -> 10 ^ Z.of_nat p <= q < 10 ^ (Z.of_nat p + 1) -> -307 <= k <= 308 ->
  let u := 10 ^ (k + 400 - Z.of_nat p) in
  2 ^ 53 * Z.abs (Y * 10 ^ 400 - q * u * dunit) <= q * u * dunit -> 0 < Y /\ sci_dec p Y = (q, k).
Proof.
  intros Hp HQ HK u RR. fold_powers. pose proof dunit_pos as U. pose proof p400_pos as P4.
  assert (PP : 0 < 10 ^ Z.of_nat p) by (apply pow10_pos; lia).
  assert (PK : 10 ^ Z.of_nat p <= 10 ^ 14) by (apply Z.pow_le_mono_r; lia). change (10 ^ 14) with 100000000000000 in PK.
  assert (PS : 10 ^ (Z.of_nat p + 1) = 10 * 10 ^ Z.of_nat p) by (rewrite Z.pow_add_r by lia; change (10 ^ 1) with 10; lia).
  assert (Pu : 0 < u) by (apply pow10_pos; lia).
  assert (EU : 10 ^ (k + 400) = 10 ^ Z.of_nat p * u) by (unfold u; rewrite <- Z.pow_add_r by lia; f_equal; lia).
  assert (EU1 : 10 ^ (k + 400 + 1) = 10 * (10 ^ Z.of_nat p * u)) by (rewrite Z.pow_add_r by lia; rewrite EU; lia).
  set (A' := Y * p400) in *. set (W := u * dunit). assert (HW : 0 < W) by (unfold W; nia).
  assert (RW : 20 * Z.abs (A' - q * W) < 3 * W).
  { replace (q * u * dunit) with (q * W) in RR by (unfold W; ring). change (2 ^ 53) with 9007199254740992 in RR.
    assert (q * W <= 1000000000000000 * W) by (clear -PK HW HQ PS; nia). lia. }
  assert (PW : 10 ^ Z.of_nat p * W <= q * W) by (clear -HQ HW; nia).
  assert (PW1 : W <= 10 ^ Z.of_nat p * W) by (clear -PP HW; nia).
  assert (QW : (q + 1) * W <= 10 * (10 ^ Z.of_nat p * W)) by (clear -HQ HW PS; nia).
  assert (Y0 : 0 < Y). { assert (0 < A') by lia. unfold A' in *. clear -H P4. nia. }
  split; [exact Y0|]. unfold sci_dec. fold_powers. fold A'.
  destruct (Z.le_gt_cases (10 ^ Z.of_nat p * W) A') as [GE|LT].
  - assert (EX : sci_exp Y = k + 400).
    { apply sci_exp_unique; [lia|]. fold_powers. fold A'. rewrite EU1, EU. unfold W in *. lia. }
    rewrite EX. fold u. rewrite (rdiv_unique A' (dunit * u) q).
    + destruct (Z.eqb_spec q (10 ^ (Z.of_nat p + 1))) as [E1|]; [exfalso; lia|]. f_equal. lia.
    + unfold W in HW. lia.
    + left. replace (A' - q * (dunit * u)) with (A' - q * W) by (unfold W; ring). unfold W in *. lia.
  - assert (EQ : q = 10 ^ Z.of_nat p).
    { destruct (Z.eq_dec q (10 ^ Z.of_nat p)); [assumption|]. exfalso. assert ((10 ^ Z.of_nat p + 1) * W <= q * W) by (clear -HQ HW n; nia). lia. }
    assert (RW' : 20 * Z.abs (A' - q * W) < W).
    { replace (q * u * dunit) with (q * W) in RR by (unfold W; ring). change (2 ^ 53) with 9007199254740992 in RR.
      assert (q * W <= 100000000000000 * W) by (clear -PK HW EQ; nia). lia. }
    set (v := 10 ^ (k + 399 - Z.of_nat p)). assert (Euv : u = 10 * v).
    { unfold u, v. replace (k + 400 - Z.of_nat p) with (1 + (k + 399 - Z.of_nat p)) by lia. rewrite Z.pow_add_r by lia. reflexivity. }
    assert (EV : 10 ^ (k + 399) = 10 ^ Z.of_nat p * v) by (unfold v; rewrite <- Z.pow_add_r by lia; f_equal; lia).
    assert (EW : W = 10 * (v * dunit)) by (unfold W; rewrite Euv; ring).
    rewrite EQ in RW', RW. clear PW QW HQ RR.
    assert (EX : sci_exp Y = k + 399).
    { apply sci_exp_unique; [lia|]. fold_powers. fold A'. replace (k + 399 + 1) with (k + 400) by lia. rewrite EU, EV.
      replace (10 ^ Z.of_nat p * u * dunit) with (10 ^ Z.of_nat p * W) by (unfold W; ring). replace (10 ^ Z.of_nat p * v * dunit) with (10 ^ Z.of_nat p * (v * dunit)) by ring.
      assert (10 ^ Z.of_nat p * W = 10 * (10 ^ Z.of_nat p * (v * dunit))) by (rewrite EW; ring). lia. }
    rewrite EX. fold v. rewrite (rdiv_unique A' (dunit * v) (10 ^ (Z.of_nat p + 1))).
    + rewrite Z.eqb_refl. f_equal; lia.
    + clear -HW EW. lia.
    + left. rewrite PS. replace (A' - 10 * 10 ^ Z.of_nat p * (dunit * v)) with (A' - 10 ^ Z.of_nat p * W) by (rewrite EW; ring). lia.
Qed.

Lemma nearest_sci p s q k : Z.of_nat p <= 14 -> 10 ^ Z.of_nat p <= q < 10 ^ (Z.of_nat p + 1) -> -307 <= k <= 307 ->
  let x := nearest_double (s, q, k - Z.of_nat p) in
  valid x /\ finite x /\ negative x = s /\ (0 < units x /\ sci_dec p (units x) = (q, k))
  /\ 2 ^ 53 * Z.abs (units x * 10 ^ 400 - q * 10 ^ (k + 400 - Z.of_nat p) * dunit) <= q * 10 ^ (k + 400 - Z.of_nat p) * dunit.
Proof.
  intros Hp HQ HK x. pose proof dunit_pos as U. pose proof max_units_1e308 as MU. pose proof p400_pos as P4. pose proof p708_split as T708. pose proof normal_units as NU. pose proof p708_pos as P7. fold_powers.
  assert (PP : 0 < 10 ^ Z.of_nat p) by (apply pow10_pos; lia). set (u := 10 ^ (k + 400 - Z.of_nat p)).
  assert (Pu : 0 < u) by (apply pow10_pos; lia).
  assert (RD : exists n d, 0 <= n /\ 0 < d /\ n * p400 = q * u * d /\ x = nearest_ratio s n d).
  { exists (q * 10 ^ Z.max 0 (k - Z.of_nat p)), (10 ^ Z.max 0 (- (k - Z.of_nat p))). repeat split.
    - pose proof (pow10_pos (Z.max 0 (k - Z.of_nat p)) ltac:(lia)). nia.
    - apply pow10_pos. lia.
    - unfold u. change p400 with (10 ^ 400). rewrite <- !Z.mul_assoc, <- !Z.pow_add_r by lia. do 2 f_equal. lia. }
  destruct RD as (n & d & Hn & Hd & END & Ey). pose proof (Z.lt_le_incl _ _ Hd) as Hd'. pose proof (Z.lt_le_incl _ _ P4) as P4'.
  assert (TOP : q * u <= p708).
  { assert (q * u <= 10 ^ (Z.of_nat p + 1) * u) by nia. assert (10 ^ (Z.of_nat p + 1) * u = 10 ^ (k + 401)) by (unfold u; rewrite <- Z.pow_add_r by lia; f_equal; lia).
    assert (10 ^ (k + 401) <= p708) by (apply Z.pow_le_mono_r; lia). lia. }
  assert (K93 : p93 <= q * u).
  { assert (p93 <= 10 ^ (k + 400)) by (apply Z.pow_le_mono_r; lia). assert (10 ^ (k + 400) = 10 ^ Z.of_nat p * u) by (unfold u; rewrite <- Z.pow_add_r by lia; f_equal; lia). nia. }
  destruct (nearest_ratio_spec s n d Hn Hd) as (V' & F' & S' & _ & R').
  { apply (Z.mul_le_mono_pos_r _ _ (p400)); [exact P4|]. replace (n * dunit * p400) with (q * u * d * dunit) by (rewrite <- END; ring).
    rewrite T708 in TOP. revert TOP MU P4 U Hd. generalize (p308), (p400), dunit, max_units, (q * u). intros a b c m t H1 H2 H3 H4 H5.
    assert (t * c <= a * b * c) by nia. assert (a * c * b <= m * b) by nia. nia. }
  rewrite <- Ey in V', F', S', R'. split; [exact V'|]. split; [exact F'|]. split; [exact S'|].
  fold u. assert (RR : 2 ^ 53 * Z.abs (units x * p400 - q * u * dunit) <= q * u * dunit); [|split; [|exact RR]; apply sci_dec_near; [exact Hp|exact HQ|lia|fold_powers; fold u; exact RR]].
  apply (Z.mul_le_mono_pos_r _ _ d); [exact Hd|].
  assert (HH : 2 ^ 52 * d <= n * dunit).
  { apply (Z.mul_le_mono_pos_r _ _ p400); [exact P4|]. replace (n * dunit * p400) with (q * u * dunit * d) by (replace (n * dunit * p400) with (n * p400 * dunit) by ring; rewrite END; ring).
    revert NU K93 U Hd. generalize (2 ^ 52), p400, p93, (q * u), dunit. intros a b c t v H1 H2 H3 H4. assert (c * v <= t * v) by nia. nia. }
  specialize (R' HH).
  replace (2 ^ 53 * Z.abs (units x * p400 - q * u * dunit) * d) with (2 ^ 53 * Z.abs (units x * d - n * dunit) * p400).
  2:{ rewrite <- !Z.mul_assoc. f_equal. rewrite !abs_scale by assumption. f_equal.
      rewrite !Z.mul_sub_distr_r. replace (n * dunit * p400) with (n * p400 * dunit) by ring. rewrite END. ring. }
  replace (q * u * dunit * d) with (n * dunit * p400) by (replace (n * dunit * p400) with (n * p400 * dunit) by ring; rewrite END; ring).
  clear -R' P4. nia.
Qed.

Lemma nearest_zero s K : nearest_double (s, 0, K) = S754_zero s.
Proof.
  unfold nearest_double, nearest_ratio. rewrite Z.mul_0_l. cbv zeta.
  assert (P0 : 0 < 10 ^ Z.max 0 (- K)) by (apply pow10_pos; lia). revert P0. generalize (10 ^ Z.max 0 (- K)). intros d Hd.
  rewrite ?Z.mul_0_l. rewrite Z.div_0_l by lia. change (Z.max 0 (Z.log2 0 - 52)) with 0. rewrite Z.pow_0_r, Z.mul_1_r.
  rewrite (rdiv_unique 0 d 0) by (try lia; left; cbn; lia). reflexivity.
Qed.

(** Numbers that are exact in scientific notation *)
Lemma sci_exact_read E p x : Z.of_nat p <= 14 -> E = "e"%char \/ E = "E"%char -> sci_exact p x -> read_double (show_sci E p x) = Some x.
Proof.
  intros Hp HE [(s & ->)|(s & q & k & HQ & HK & Ex)].
  - unfold read_double. rewrite (show_sci_eq E p (S754_zero s) I eq_refl). unfold sci_digits. cbn [units]. change (0 =? 0) with true. cbn [fst snd].
    rewrite read_scientific by (first [lia | exact HE]). rewrite nearest_zero. reflexivity.
  - pose proof (nearest_sci p s q k Hp HQ ltac:(lia)) as N. cbv zeta in N. rewrite <- Ex in N. destruct N as (V & F & S & (P & D) & _).
    unfold read_double. rewrite (show_sci_eq E p x F V). unfold sci_digits. destruct (Z.eqb_spec (units x) 0) as [|_]; [lia|]. rewrite D. cbn [fst snd].
    pose proof (pow10_pos (Z.of_nat p) ltac:(lia)). rewrite read_scientific by (first [lia | exact HE]). rewrite S, <- Ex. reflexivity.
Qed.

(** Numbers that are exact with a fixed number of decimals *)
Lemma fixed_near p s q : Z.of_nat p <= 14 -> 0 < q <= 10 ^ 15 -> let x := nearest_double (s, q, - Z.of_nat p) in
  valid x /\ finite x /\ negative x = s /\ 2 ^ 53 * Z.abs (units x * 10 ^ Z.of_nat p - q * dunit) <= q * dunit.
Proof.
  intros Hp HQ x. pose proof dunit_pos as U. pose proof max_units_1e308 as MU. pose proof (pow10_pos (Z.of_nat p) ltac:(lia)) as P.
  assert (Ey : x = nearest_ratio s q (10 ^ Z.of_nat p)).
  { unfold x, nearest_double. replace (Z.max 0 (- Z.of_nat p)) with 0 by lia. replace (Z.max 0 (- - Z.of_nat p)) with (Z.of_nat p) by lia. rewrite Z.pow_0_r, Z.mul_1_r. reflexivity. }
  assert (B15 : 10 ^ 15 <= 10 ^ 308) by (apply Z.pow_le_mono_r; lia). fold_powers.
  destruct (nearest_ratio_spec s q (10 ^ Z.of_nat p) ltac:(lia) P) as (V & F & S & _ & R).
  { revert HQ B15 MU U P. generalize (10 ^ 15), p308, (10 ^ Z.of_nat p), dunit, max_units. intros a b c t m H1 H2 H3 H4 H5.
    assert (q * t <= b * t) by nia. nia. }
  rewrite <- Ey in V, F, S, R. split; [exact V|]. split; [exact F|]. split; [exact S|]. apply R.
  assert (PK : 10 ^ Z.of_nat p <= 10 ^ 14) by (apply Z.pow_le_mono_r; lia). change (10 ^ 14) with 100000000000000 in PK.
  assert (BIG : 2 ^ 52 * 10 ^ 14 <= dunit).
  { pose proof normal_units as NU. pose proof p400_split as SP. pose proof p93_pos as P9. fold_powers. rewrite SP in NU.
    assert (B14 : 10 ^ 14 <= p307) by (apply Z.pow_le_mono_r; lia). revert NU B14 P9. generalize p307, p93, dunit, (10 ^ 14). intros a b c t H1 H2 H3.
    assert (2 ^ 52 * a <= c) by (apply (Z.mul_le_mono_pos_r _ _ b); [exact H3|lia]). lia. }
  change (10 ^ 14) with 100000000000000 in BIG. revert BIG PK. generalize (2 ^ 52) as t. intros t BIG PK. assert (dunit <= q * dunit) by nia. destruct (Z.le_gt_cases 0 t); nia.
Qed.
Lemma fixed_exact_read p x : Z.of_nat p <= 14 -> fixed_exact p x -> read_double (show_fixed p x) = Some x.
Proof.
  intros Hp (s & q & HQ & Ex). destruct (Z.eq_dec q 0) as [-> |NZ].
  - rewrite nearest_zero in Ex. subst x. unfold read_double. rewrite (fixed_read p (S754_zero s) I). cbn [negative units]. rewrite fixed_digits_0, nearest_zero. reflexivity.
  - destruct (fixed_near p s q Hp ltac:(lia)) as (V & F & S & R). rewrite <- Ex in *. pose proof dunit_pos as U.
    change (10 ^ 15) with 1000000000000000 in HQ. change (2 ^ 53) with 9007199254740992 in R.
    assert (D : fixed_digits p (units x) = q).
    { unfold fixed_digits. apply rdiv_unique; [exact U|]. left. assert (q * dunit <= 1000000000000000 * dunit) by (clear -HQ U; nia). clear -R H U. lia. }
    unfold read_double. rewrite (fixed_read p x F). rewrite D, S, <- Ex. reflexivity.
Qed.

(** They are within the range that can be printed *)
Lemma sci_exact_range p x : Z.of_nat p <= 14 -> sci_exact p x -> valid x /\ finite x /\ below_1e308 x /\ above_1em307 x.
Proof.
  intros Hp [(s & ->)|(s & q & k & HQ & HK & Ex)].
  - split; [reflexivity|]. split; [exact I|]. split; [|left; reflexivity]. unfold below_1e308. cbn [units]. pose proof dunit_pos. fold_powers. pose proof p308_pos. nia.
  - pose proof (nearest_sci p s q k Hp HQ ltac:(lia)) as N. cbv zeta in N. rewrite <- Ex in N. destruct N as (V & F & _ & (P & _) & RR). clear Ex.
    split; [exact V|]. split; [exact F|]. unfold below_1e308, above_1em307. pose proof dunit_pos as U. pose proof p400_pos as P4. pose proof p93_pos as P9. pose proof p400_split as T4. pose proof p708_split as T7. fold_powers.
    set (u := 10 ^ (k + 400 - Z.of_nat p)) in *. assert (Pu : 0 < u) by (apply pow10_pos; lia). pose proof (pow10_pos (Z.of_nat p) ltac:(lia)) as PP.
    assert (PK : 10 ^ (Z.of_nat p + 1) <= 10 ^ 15) by (apply Z.pow_le_mono_r; lia). change (10 ^ 15) with 1000000000000000 in PK.
    set (A := units x * p400) in *. set (W := u * dunit). assert (HW : 0 < W) by (unfold W; nia).
    replace (q * u * dunit) with (q * W) in RR by (unfold W; ring). change (2 ^ 53) with 9007199254740992 in RR.
    assert (QW : q * W <= 1000000000000000 * W) by (clear -PK HW HQ; nia).
    split.
    + assert (T : 10 ^ (Z.of_nat p + 1) * u <= p308 * p400).
      { rewrite <- T7. unfold u. rewrite <- Z.pow_add_r by lia. apply Z.pow_le_mono_r; lia. }
      assert (A <= (q + 1) * W) by lia. assert ((q + 1) * W <= 10 ^ (Z.of_nat p + 1) * W) by (clear -HQ HW; nia).
      assert (10 ^ (Z.of_nat p + 1) * W <= p308 * p400 * dunit) by (replace (10 ^ (Z.of_nat p + 1) * W) with (10 ^ (Z.of_nat p + 1) * u * dunit) by (unfold W; ring); apply Z.mul_le_mono_nonneg_r; [lia|exact T]).
      apply (Z.mul_le_mono_pos_r _ _ p400); [exact P4|]. fold A. replace (p308 * dunit * p400) with (p308 * p400 * dunit) by ring. lia.
    + right. assert (T : 10 * p93 <= 10 ^ Z.of_nat p * u).
      { unfold u. rewrite <- Z.pow_add_r by lia. change (10 * p93) with (10 ^ 94). apply Z.pow_le_mono_r; lia. }
      assert (T' : 10 * p93 * dunit <= q * W).
      { apply Z.le_trans with (10 ^ Z.of_nat p * W); [replace (10 ^ Z.of_nat p * W) with (10 ^ Z.of_nat p * u * dunit) by (unfold W; ring); apply Z.mul_le_mono_nonneg_r; [lia|exact T]|clear -HQ HW; nia]. }
      apply (Z.mul_le_mono_pos_r _ _ p93); [exact P9|]. replace (units x * p307 * p93) with A by (unfold A; rewrite T4; ring). lia.
Qed.
Lemma fixed_exact_range p x : Z.of_nat p <= 14 -> fixed_exact p x -> valid x /\ finite x /\ below_1e308 x /\ above_1em307 x.
Proof.
  intros Hp (s & q & HQ & Ex). destruct (Z.eq_dec q 0) as [-> |NZ].
  - rewrite nearest_zero in Ex. subst x. split; [reflexivity|]. split; [exact I|]. split; [|left; reflexivity]. unfold below_1e308. cbn [units]. pose proof dunit_pos. fold_powers. pose proof p308_pos. nia.
  - destruct (fixed_near p s q Hp ltac:(lia)) as (V & F & S & R). rewrite <- Ex in *. split; [exact V|]. split; [exact F|].
    pose proof dunit_pos as U. pose proof (pow10_pos (Z.of_nat p) ltac:(lia)) as P.
    assert (PK : 10 ^ Z.of_nat p <= 10 ^ 14) by (apply Z.pow_le_mono_r; lia).
    assert (B16 : 2 * 10 ^ 15 <= 10 ^ 308) by (apply Z.le_trans with (10 ^ 16); [vm_compute; discriminate|apply Z.pow_le_mono_r; lia]).
    assert (B17 : 2 * 10 ^ 14 <= 10 ^ 307) by (apply Z.le_trans with (10 ^ 16); [vm_compute; discriminate|apply Z.pow_le_mono_r; lia]).
    unfold below_1e308, above_1em307. fold_powers. change (2 ^ 53) with 9007199254740992 in R.
    assert (U1 : dunit <= q * dunit) by (clear -HQ NZ U; nia). set (Y := units x) in *. clearbody Y. clear Ex V F S x.
    revert R U HQ B16 B17 PK P U1. generalize dunit, p307, p308, (10 ^ Z.of_nat p), (10 ^ 14), (10 ^ 15). intros t a b c d e R U HQ B16 B17 PK P U1.
    split; [|right].
    + assert (Y * c <= 2 * (q * t)) by lia. assert (Y <= Y * c \/ Y < 0) by nia. assert (q * t <= e * t) by nia. assert (2 * (e * t) <= b * t) by nia. lia.
    + assert (t <= 2 * (Y * c)) by lia. assert (0 <= Y) by nia. assert (2 * (Y * c) <= 2 * (Y * d)) by nia. assert (Y * (2 * d) <= Y * a) by nia. lia.
Qed.

(** ** Whole numbers of at most 13 digits *)
Lemma units_inj x y : valid x -> valid y -> finite x -> finite y -> negative x = negative y -> units x = units y -> x = y.
Proof.
  intros Vx Vy Fx Fy N Ux. destruct x as [s|s| |s m e], y as [s'|s'| |s' m' e']; try contradiction; cbn [negative] in N; subst s'.
  - reflexivity.
  - pose proof (units_pos _ _ _ Vy). cbn [units] in Ux, H. lia.
  - pose proof (units_pos _ _ _ Vx). cbn [units] in Ux, H. lia.
  - apply valid_finite in Vx as (A1 & A2 & A3), Vy as (B1 & B2 & B3). cbn [units] in Ux. unfold magnitude in Ux.
    assert (L : forall a b (m m' : positive), Z.pos m < 2 ^ 53 -> -1074 <= a -> a < b -> 2 ^ 52 <= Z.pos m' -> Z.pos m * 2 ^ (a + 1074) < Z.pos m' * 2 ^ (b + 1074)).
    { clear. intros a b m m' H1 H2 H3 H4.
      assert (E : 2 ^ (b + 1074) = 2 * 2 ^ (b - a - 1) * 2 ^ (a + 1074)).
      { change 2 with (2 ^ 1) at 2. rewrite <- !Z.pow_add_r by lia. f_equal. lia. }
      rewrite E. clear E. pose proof (pow2_pos (a + 1074) ltac:(lia)) as P. pose proof (pow2_pos (b - a - 1) ltac:(lia)) as Q. change (2 ^ 53) with (2 * 2 ^ 52) in H1.
      assert (T : 0 < 2 ^ 52) by reflexivity. revert T H1 H4 P Q. generalize (2 ^ 52), (2 ^ (a + 1074)), (2 ^ (b - a - 1)), (Z.pos m), (Z.pos m'). clear. intros t u w x y T H1 H4 P Q.
      assert (x * u < 2 * t * u) by nia. assert (t * u <= y * u) by nia. assert (y * u <= y * u * w) by nia. nia. }
    assert (E : e = e').
    { destruct (Z.lt_trichotomy e e') as [E|[E|E]]; [|exact E|].
      - destruct B3 as [B3|B3]; [lia|]. pose proof (L e e' m m' A1 ltac:(lia) E B3). lia.
      - destruct A3 as [A3|A3]; [lia|]. pose proof (L e' e m' m B1 ltac:(lia) E A3). lia. }
    subst e'. f_equal. pose proof (pow2_pos (e + 1074) ltac:(lia)) as P. assert (Z.pos m = Z.pos m') by nia. congruence.
Qed.
Lemma dbl_units n : Z.abs n < 2 ^ 53 -> n <> 0 -> valid (dbl n) /\ finite (dbl n) /\ negative (dbl n) = (n <? 0) /\ units (dbl n) = Z.abs n * dunit.
Proof.
  assert (G : forall s p, Z.pos p < 2 ^ 53 -> let x := binary_round 53 1024 s p 0 in valid x /\ finite x /\ negative x = s /\ units x = Z.pos p * dunit).
  { intros s p H x. unfold x. clear x. destruct (binary_round_canonical s p H) as (m & k & -> & K & M & (C1 & C2)).
    split; [apply valid_finite; split; [exact C2|split; [lia|right; exact C1]]|]. split; [exact I|]. split; [reflexivity|].
    cbn [units]. unfold magnitude. rewrite M. replace dunit with (2 ^ k * 2 ^ (- k + 1074)); [ring|]. rewrite <- Z.pow_add_r by lia. replace (k + (- k + 1074)) with 1074 by lia. vm_compute. reflexivity. }
  intros H N. destruct n as [|p|p]; [congruence| |]; unfold dbl; cbn [binary_normalize Z.abs]; destruct (G false p ltac:(cbn in H; lia)) as (G1 & G2 & G3 & G4); destruct (G true p ltac:(cbn in H; lia)) as (G1' & G2' & G3' & G4'); auto.
Qed.
Lemma nearest_dbl n M K : n <> 0 -> Z.abs n < 2 ^ 53 -> 0 <= M -> -400 <= K <= 0 -> M = Z.abs n * 10 ^ (- K) -> nearest_double (n <? 0, M, K) = dbl n.
Proof.
  intros N0 N HM HK EM. destruct (dbl_units n N N0) as (V & F & S & D). pose proof dunit_pos as U. pose proof max_units_1e308 as MU.
  pose proof (pow10_pos (- K) ltac:(lia)) as P.
  assert (Ey : nearest_double (n <? 0, M, K) = nearest_ratio (n <? 0) M (10 ^ (- K))).
  { unfold nearest_double. replace (Z.max 0 K) with 0 by lia. replace (Z.max 0 (- K)) with (- K) by lia. rewrite Z.pow_0_r, Z.mul_1_r. reflexivity. }
  rewrite Ey. clear Ey. assert (B : 2 ^ 53 <= 10 ^ 308) by (apply Z.le_trans with (10 ^ 16); [vm_compute; discriminate|apply Z.pow_le_mono_r; lia]). fold_powers.
  destruct (nearest_ratio_spec (n <? 0) M (10 ^ (- K)) HM P) as (V' & F' & S' & NE & _).
  { rewrite EM. revert B MU U P N. generalize p308, (10 ^ (- K)), dunit, max_units, (2 ^ 53), (Z.abs n). intros a b c t m w H1 H2 H3 H4 H5. assert (w * c <= a * c) by nia. nia. }
  specialize (NE _ (units_double _ V)). rewrite D in NE. subst M. set (x := nearest_ratio _ _ _) in *.
  apply units_inj; [exact V'|exact V|exact F'|exact F|congruence|]. rewrite D.
  replace (Z.abs n * dunit * 10 ^ (- K) - Z.abs n * 10 ^ (- K) * dunit) with 0 in NE by ring. change (Z.abs 0) with 0 in NE.
  clearbody x. revert NE P. generalize (10 ^ (- K)), (units x), dunit, (Z.abs n). intros a b c t NE P. assert (b * a = t * c * a) by lia. nia.
Qed.
Lemma sci_exact_dbl p n : 15 <= Z.of_nat p + 1 \/ Z.abs n < 10 ^ (Z.of_nat p + 1) -> Z.of_nat p <= 14 -> Z.abs n < 10 ^ 13 -> sci_exact p (dbl n).
Proof.
  intros B Hp H. assert (B13 : 10 ^ 13 < 2 ^ 53) by reflexivity. destruct (Z.eq_dec n 0) as [-> |N]; [left; exists false; reflexivity|]. right.
  assert (B' : Z.abs n < 10 ^ (Z.of_nat p + 1)). { destruct B as [B|B]; [|exact B]. assert (10 ^ 13 <= 10 ^ (Z.of_nat p + 1)) by (apply Z.pow_le_mono_r; lia). lia. }
  pose proof (ndig_spec (Z.abs n) ltac:(lia)) as L. set (j := Z.of_nat (ndig (Z.abs n))) in *.
  pose proof (ndig_pos (Z.abs n)) as J. assert (J1 : 1 <= j) by (unfold j; lia).
  assert (J2 : j <= Z.of_nat p + 1). { destruct (Z.le_gt_cases j (Z.of_nat p + 1)); [assumption|]. assert (10 ^ (Z.of_nat p + 1) <= 10 ^ (j - 1)) by (apply Z.pow_le_mono_r; lia). lia. }
  exists (n <? 0), (Z.abs n * 10 ^ (Z.of_nat p + 1 - j)), (j - 1). pose proof (pow10_pos (Z.of_nat p + 1 - j) ltac:(lia)) as P. split; [|split; [lia|]].
  - replace (10 ^ Z.of_nat p) with (10 ^ (j - 1) * 10 ^ (Z.of_nat p + 1 - j)) by (rewrite <- Z.pow_add_r by lia; f_equal; lia).
    replace (10 ^ (Z.of_nat p + 1)) with (10 ^ j * 10 ^ (Z.of_nat p + 1 - j)) by (rewrite <- Z.pow_add_r by lia; f_equal; lia). nia.
  - symmetry. apply nearest_dbl; try lia. f_equal. f_equal. lia.
Qed.
