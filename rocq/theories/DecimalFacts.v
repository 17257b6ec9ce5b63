(** Facts about decimal text: printing and reading are inverse, and rounding is to nearest. *)
From Coq Require Import ZArith Bool List Lia Ascii.
From Coq Require Import ZifyBool ZifyNat.
From Verif Require Import Base SZA.
From Verif Require Export Decimal.
Import ListNotations.
Open Scope Z_scope.

(** * Digits *)
Lemma digit_of_char d : 0 <= d < 10 -> digit_of (digit_char d) = Some d.
Proof.
  intros H. assert (E : d = 0 \/ d = 1 \/ d = 2 \/ d = 3 \/ d = 4 \/ d = 5 \/ d = 6 \/ d = 7 \/ d = 8 \/ d = 9) by lia.
  repeat destruct E as [->|E]; try subst d; reflexivity.
Qed.
Lemma is_digit_char d : 0 <= d < 10 -> is_digit (digit_char d) = true.
Proof. intros H. unfold is_digit. rewrite digit_of_char by exact H. reflexivity. Qed.

Lemma show_pad_digits w : forall z, Forall (fun c => is_digit c = true) (show_pad w z).
Proof.
  induction w as [|w IH]; intros z; cbn [show_pad]; [constructor|]. apply Forall_app. split; [apply IH|].
  constructor; [|constructor]. apply is_digit_char. apply Z.mod_pos_bound. lia.
Qed.
Lemma len_show_pad w : forall z, len (show_pad w z) = Z.of_nat w.
Proof. induction w as [|w IH]; intros z; cbn [show_pad]; [reflexivity|]. rewrite len_app, IH. change (len [digit_char (z mod 10)]) with 1. lia. Qed.
Lemma length_show_pad w z : length (show_pad w z) = w.
Proof. pose proof (len_show_pad w z). unfold len in *. lia. Qed.

Lemma digits_value_app a b : digits_value (a ++ b) = digits_value a * 10 ^ len b + digits_value b.
Proof.
  unfold digits_value. rewrite fold_left_app. generalize (fold_left (fun acc c => 10 * acc + match digit_of c with Some d => d | None => 0 end) a 0).
  induction b as [|c r IH] using rev_ind; intros z; [cbn; lia|].
  rewrite !fold_left_app. cbn [fold_left]. rewrite IH. rewrite len_app. change (len [c]) with 1.
  rewrite Z.pow_add_r by (try lia; apply len_nonneg). change (10 ^ 1) with 10. lia.
Qed.
Lemma digits_value_pad w : forall z, 0 <= z -> digits_value (show_pad w z) = z mod 10 ^ Z.of_nat w.
Proof.
  induction w as [|w IH]; intros z Hz; cbn [show_pad].
  - change (10 ^ Z.of_nat 0) with 1. rewrite Z.mod_1_r. reflexivity.
  - rewrite digits_value_app, IH by (apply Z.div_pos; lia). change (len [digit_char (z mod 10)]) with 1. change (10 ^ 1) with 10.
    replace (digits_value [digit_char (z mod 10)]) with (z mod 10).
    2:{ unfold digits_value. cbn [fold_left]. rewrite digit_of_char by (apply Z.mod_pos_bound; lia). lia. }
    replace (Z.of_nat (S w)) with (1 + Z.of_nat w) by lia. rewrite Z.pow_add_r by lia. change (10 ^ 1) with 10.
    rewrite (Z.rem_mul_r z 10 (10 ^ Z.of_nat w)) by lia. lia.
Qed.

Lemma ndig_fuel_spec f : forall z, 0 < z < 2 ^ (Z.of_nat f + 1) ->
  10 ^ (Z.of_nat (ndig_fuel f z) - 1) <= z < 10 ^ Z.of_nat (ndig_fuel f z).
Proof.
  induction f as [|f IH]; intros z Hz; cbn [ndig_fuel].
  - change (2 ^ (Z.of_nat 0 + 1)) with 2 in Hz. cbn. lia.
  - destruct (Z.ltb_spec z 10) as [L|L]; [cbn; lia|].
    assert (D : 0 < z / 10 < 2 ^ (Z.of_nat f + 1)).
    { replace (Z.of_nat (S f) + 1) with (1 + (Z.of_nat f + 1)) in Hz by lia. rewrite Z.pow_add_r in Hz by lia. change (2 ^ 1) with 2 in Hz.
      split; [apply Z.div_str_pos; lia|]. apply Z.div_lt_upper_bound; lia. }
    specialize (IH _ D). set (n := ndig_fuel f (z / 10)) in *. pose proof (Z.div_mod z 10 ltac:(lia)). pose proof (Z.mod_pos_bound z 10 ltac:(lia)).
    assert (N1 : (1 <= n)%nat). { destruct n; [|lia]. change (10 ^ Z.of_nat 0) with 1 in IH. lia. }
    replace (Z.of_nat (S n) - 1) with (1 + (Z.of_nat n - 1)) by lia. replace (Z.of_nat (S n)) with (1 + Z.of_nat n) by lia.
    rewrite !Z.pow_add_r by lia. change (10 ^ 1) with 10. lia.
Qed.
Lemma ndig_spec z : 0 < z -> 10 ^ (Z.of_nat (ndig z) - 1) <= z < 10 ^ Z.of_nat (ndig z).
Proof.
  intros H. apply ndig_fuel_spec. pose proof (Z.log2_spec z H). pose proof (Z.log2_nonneg z).
  rewrite Z2Nat.id by lia. replace (Z.log2 z + 1) with (Z.succ (Z.log2 z)) by lia. lia.
Qed.
Lemma ndig_pos z : (1 <= ndig z)%nat.
Proof. unfold ndig. destruct (Z.to_nat (Z.log2 z)); cbn [ndig_fuel]; [lia|]. destruct (z <? 10); lia. Qed.
Lemma ndig_bound z w : 0 <= z < 10 ^ w -> 1 <= w -> Z.of_nat (ndig z) <= w.
Proof.
  intros H Hw. destruct (Z.eq_dec z 0) as [->|N]; [cbn; lia|]. pose proof (ndig_spec z ltac:(lia)) as [A _].
  destruct (Z.le_gt_cases (Z.of_nat (ndig z)) w); [assumption|]. assert (10 ^ w <= 10 ^ (Z.of_nat (ndig z) - 1)) by (apply Z.pow_le_mono_r; lia). lia.
Qed.
Lemma ndig_unique z n : 10 ^ (n - 1) <= z < 10 ^ n -> 1 <= n -> Z.of_nat (ndig z) = n.
Proof.
  intros H Hn. assert (P : 0 < 10 ^ (n - 1)) by (apply Z.pow_pos_nonneg; lia). pose proof (ndig_spec z ltac:(lia)) as [A B]. pose proof (ndig_pos z).
  destruct (Z.lt_trichotomy (Z.of_nat (ndig z)) n) as [L|[E|G]]; [|exact E|].
  - assert (10 ^ Z.of_nat (ndig z) <= 10 ^ (n - 1)) by (apply Z.pow_le_mono_r; lia). lia.
  - assert (10 ^ n <= 10 ^ (Z.of_nat (ndig z) - 1)) by (apply Z.pow_le_mono_r; lia). lia.
Qed.

Lemma show_nat_value z : 0 <= z -> digits_value (show_nat z) = z.
Proof.
  intros H. unfold show_nat. rewrite digits_value_pad by exact H. destruct (Z.eq_dec z 0) as [->|N]; [reflexivity|].
  apply Z.mod_small. pose proof (ndig_spec z ltac:(lia)). lia.
Qed.
Lemma show_nat_digits z : Forall (fun c => is_digit c = true) (show_nat z).
Proof. apply show_pad_digits. Qed.
Lemma len_show_nat z : len (show_nat z) = Z.of_nat (ndig z).
Proof. apply len_show_pad. Qed.
Lemma show_nat_nonempty z : show_nat z <> [].
Proof. intros E. pose proof (len_show_nat z) as L. rewrite E in L. pose proof (ndig_pos z). cbn in L. lia. Qed.

(** * Splitting *)
Lemma span_stop p a r : Forall (fun c => p c = true) a -> (match r with c :: _ => p c = false | [] => True end) -> span p (a ++ r) = (a, r).
Proof.
  induction 1 as [|c l Hc _ IH]; intros Hr; cbn [span app].
  - destruct r as [|c r]; cbn [span]; [reflexivity|]. rewrite Hr. reflexivity.
  - rewrite Hc, (IH Hr). reflexivity.
Qed.
Lemma span_all p a : Forall (fun c => p c = true) a -> span p a = (a, []).
Proof. intros H. rewrite <- (app_nil_r a) at 1. apply span_stop; [exact H|exact I]. Qed.

Lemma read_sign_text s r : (match r with c :: _ => is_digit c = true | [] => True end) -> read_sign (sign_text s ++ r) = (s, r).
Proof.
  destruct s; [reflexivity|]. cbn [sign_text app]. destruct r as [|c r]; [reflexivity|]. intros H.
  destruct c as [[] [] [] [] [] [] [] []]; try reflexivity; discriminate H.
Qed.
Lemma head_digit a r : Forall (fun c => is_digit c = true) a -> a <> [] -> match a ++ r with c :: _ => is_digit c = true | [] => True end.
Proof. intros H N. destruct a as [|c a]; [congruence|]. inversion H; assumption. Qed.

Lemma pow10_pos n : 0 <= n -> 0 < 10 ^ n.
Proof. intros H. apply Z.pow_pos_nonneg; lia. Qed.
Lemma decimals_value p q : 0 <= q ->
  digits_value (show_nat (q / 10 ^ Z.of_nat p) ++ show_pad p (q mod 10 ^ Z.of_nat p)) = q.
Proof.
  intros H. pose proof (pow10_pos (Z.of_nat p) ltac:(lia)) as P. rewrite digits_value_app, show_nat_value by (apply Z.div_pos; lia).
  pose proof (Z.mod_pos_bound q (10 ^ Z.of_nat p) P). rewrite digits_value_pad, len_show_pad by lia. rewrite Z.mod_mod by lia.
  pose proof (Z.div_mod q (10 ^ Z.of_nat p) ltac:(lia)). lia.
Qed.

(** Reading back what was printed: the sign, the digits and the exponent. *)
Lemma read_decimals s p q : 0 <= q -> read_decimal (sign_text s ++ show_decimals p q) = Some (s, q, - Z.of_nat p).
Proof.
  intros H. unfold read_decimal, show_decimals. rewrite read_sign_text by (apply head_digit; [apply show_nat_digits|apply show_nat_nonempty]).
  rewrite span_stop by (try apply show_nat_digits; reflexivity). rewrite span_all by apply show_pad_digits.
  rewrite decimals_value, len_show_pad by exact H.
  destruct (show_nat (q / 10 ^ Z.of_nat p)) eqn:E; [exfalso; exact (show_nat_nonempty _ E)|reflexivity].
Qed.
Lemma read_exponent_show k : read_exponent (show_exponent k) = Some k.
Proof.
  unfold read_exponent, show_exponent.
  assert (V : digits_value (show_pad (Nat.max 2 (ndig (Z.abs k))) (Z.abs k)) = Z.abs k).
  { rewrite digits_value_pad by lia. apply Z.mod_small. split; [lia|]. destruct (Z.eq_dec k 0) as [->|N]; [cbn; lia|].
    pose proof (ndig_spec (Z.abs k) ltac:(lia)) as [_ B].
    assert (10 ^ Z.of_nat (ndig (Z.abs k)) <= 10 ^ Z.of_nat (Nat.max 2 (ndig (Z.abs k)))) by (apply Z.pow_le_mono_r; lia). lia. }
  pose proof (show_pad_digits (Nat.max 2 (ndig (Z.abs k))) (Z.abs k)) as D. pose proof (len_show_pad (Nat.max 2 (ndig (Z.abs k))) (Z.abs k)) as L.
  destruct (show_pad (Nat.max 2 (ndig (Z.abs k))) (Z.abs k)) as [|c r] eqn:E; [change (len (@nil ascii)) with 0 in L; lia|].
  destruct (Z.ltb_spec k 0); cbn [read_sign]; rewrite span_all by exact D; f_equal; lia.
Qed.
Lemma read_scientific s E p q k : 0 <= q -> E = "e"%char \/ E = "E"%char ->
  read_decimal (sign_text s ++ show_scientific E p q k) = Some (s, q, k - Z.of_nat p).
Proof.
  intros H HE. unfold read_decimal, show_scientific, show_decimals. rewrite <- app_assoc. cbn [app].
  rewrite read_sign_text by (apply head_digit; [apply show_nat_digits|apply show_nat_nonempty]).
  rewrite span_stop by (try apply show_nat_digits; reflexivity). rewrite span_stop by (try apply show_pad_digits; destruct HE as [->| ->]; reflexivity).
  rewrite decimals_value, len_show_pad by exact H.
  destruct (show_nat (q / 10 ^ Z.of_nat p)) eqn:E'; [exfalso; exact (show_nat_nonempty _ E')|]. cbn [app].
  destruct HE as [->| ->]; rewrite read_exponent_show; reflexivity.
Qed.

(** * Rounding to nearest *)
Lemma rdiv_spec n d : 0 < d -> 2 * Z.abs (n - rdiv n d * d) < d \/ (2 * Z.abs (n - rdiv n d * d) = d /\ Z.even (rdiv n d) = true).
Proof.
  intros H. unfold rdiv. pose proof (Z.div_mod n d ltac:(lia)) as E. pose proof (Z.mod_pos_bound n d H) as B.
  set (q := n / d) in *. set (r := n mod d) in *. assert (E' : n - q * d = r) by lia. assert (E'' : n - (q + 1) * d = r - d) by lia.
  destruct (Z.ltb_spec (2 * r) d); [rewrite E'; lia|]. destruct (Z.ltb_spec d (2 * r)); [rewrite E''; lia|].
  destruct (Z.even q) eqn:Ev; [rewrite E'; right; split; [lia|exact Ev]|].
  rewrite E''. right. split; [lia|]. rewrite Z.even_add, Ev. reflexivity.
Qed.
Lemma rdiv_unique n d q : 0 < d -> 2 * Z.abs (n - q * d) < d \/ (2 * Z.abs (n - q * d) = d /\ Z.even q = true) -> rdiv n d = q.
Proof.
  intros H Hq. pose proof (rdiv_spec n d H) as Hr. set (r := rdiv n d) in *. clearbody r.
  assert (A : Z.abs ((q - r) * d) <= d) by (replace ((q - r) * d) with ((n - r * d) - (n - q * d)) by ring; lia).
  rewrite Z.abs_mul, (Z.abs_eq d) in A by lia. assert (Z.abs (q - r) <= 1) by nia.
  assert (C : q = r \/ q = r + 1 \/ q = r - 1) by lia. destruct C as [->|[-> | ->]]; [reflexivity| |]; exfalso.
  - replace (n - (r + 1) * d) with ((n - r * d) - d) in Hq by ring. rewrite Z.even_add in Hq. change (Z.even 1) with false in Hq. revert Hq Hr. generalize (n - r * d). destruct (Z.even r); cbn [Bool.eqb]; intros; lia.
  - replace (n - (r - 1) * d) with ((n - r * d) + d) in Hq by ring. rewrite Z.even_sub in Hq. change (Z.even 1) with false in Hq. revert Hq Hr. generalize (n - r * d). destruct (Z.even r); cbn [Bool.eqb]; intros; lia.
Qed.
Lemma rdiv_nearest n d z : 0 < d -> Z.abs (n - rdiv n d * d) <= Z.abs (n - z * d).
Proof.
  intros H. pose proof (rdiv_spec n d H) as Hr. set (r := rdiv n d) in *. clearbody r. destruct (Z.eq_dec z r) as [->|N]; [lia|].
  assert (d <= Z.abs ((z - r) * d)) by (rewrite Z.abs_mul, (Z.abs_eq d) by lia; nia).
  replace ((z - r) * d) with ((n - r * d) - (n - z * d)) in * by ring. lia.
Qed.
Lemma rdiv_ge n d z : 0 < d -> z * d <= n -> z <= rdiv n d.
Proof. intros H Hz. unfold rdiv. pose proof (Z.div_le_lower_bound n d z H ltac:(lia)). destruct (2 * (n mod d) <? d), (d <? 2 * (n mod d)), (Z.even (n / d)); lia. Qed.
Lemma rdiv_le n d z : 0 < d -> n <= z * d -> rdiv n d <= z.
Proof.
  intros H Hz. pose proof (rdiv_spec n d H) as Hr. destruct (Z.le_gt_cases (rdiv n d) z) as [|G]; [assumption|].
  assert (n - rdiv n d * d <= - d) by nia. lia.
Qed.
Lemma rdiv_nonneg n d : 0 < d -> 0 <= n -> 0 <= rdiv n d.
Proof. intros H Hn. apply rdiv_ge; lia. Qed.
Lemma rdiv_scale n d c : 0 < d -> 0 < c -> rdiv (c * n) (c * d) = rdiv n d.
Proof.
  intros H Hc. apply rdiv_unique; [nia|]. replace (c * n - rdiv n d * (c * d)) with (c * (n - rdiv n d * d)) by ring.
  rewrite Z.abs_mul, (Z.abs_eq c) by lia. destruct (rdiv_spec n d H) as [A|[A B]]; [left; nia|right; split; [nia|exact B]].
Qed.
