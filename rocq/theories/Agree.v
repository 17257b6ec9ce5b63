(** The accessors of one object agree: lemmas for C48. *)
From Coq Require Import ZArith Bool List Lia.
From Coq Require Import ZifyBool ZifyNat.
From Verif Require Import PropLemmasBasic Truncated NuBlock AtomicBlocks ElectronBlocks ThermalBlocks Accepted.
From Verif Require Indexed.
Import ListNotations.
Open Scope Z_scope.

(** * Specification *)

(** [all]: the accessor that returns all values; [one]: the accessor for one index, from 1.  For every value in the
    array the accessor with an index returns that value; in Debug the index checks may throw std::out_of_range. *)
Definition same_one {A} bm (o : outcome A) (x : A) : Prop := o = Ok x \/ (bm = Debug /\ o = Throw OutOfRange).
Definition agrees {A} bm (all : outcome (list A)) (one : Z -> outcome A) : Prop :=
  forall l i x, all = Ok l -> 1 <= i -> nth_error l (Z.to_nat (i - 1)) = Some x -> same_one bm (one i) x.

(** A whole array and every value of it, both there: n values, and for every index the value of the array. *)
Definition all_and_each {A} (all : outcome (list A)) (one : Z -> outcome A) (n : Z) : Prop :=
  exists l, all = Ok l /\ len l = n /\ forall i, 1 <= i <= n -> exists x, nth_error l (Z.to_nat (i - 1)) = Some x /\ one i = Ok x.

(** * Words *)

Lemma u64_shift i k : u64 (i + k * 2 ^ 64) = u64 i.
Proof. unfold u64. apply Z_mod_plus_full. Qed.
Lemma s64_u64 i : - 2 ^ 62 <= i <= 2 ^ 62 -> s64 (u64 i - 1) = i - 1.
Proof. intros B. unfold u64, s64. Z.div_mod_to_equations; lia. Qed.

Lemma nth_error_firstn_lt {A} (l : list A) n k : (k < n)%nat -> nth_error (firstn n l) k = nth_error l k.
Proof. revert n k. induction l as [|a l IH]; intros [|n] [|k] H; cbn [firstn nth_error]; try reflexivity; try lia. apply IH. lia. Qed.
Lemma nth_error_skipn_add {A} (l : list A) n k : nth_error (skipn n l) k = nth_error l (n + k).
Proof. revert l. induction n as [|n IH]; intros [|a l]; cbn [skipn plus nth_error]; try reflexivity; [destruct k; reflexivity|apply IH]. Qed.
Lemma slice_nth b l r k x : nth_error (slice b l r) k = Some x -> nth_error b (Z.to_nat l + k) = Some x /\ (k < Z.to_nat (r - l))%nat.
Proof.
  unfold slice. intros H. assert (K : (k < Z.to_nat (r - l))%nat). { assert (E : nth_error (firstn (Z.to_nat (r - l)) (skipn (Z.to_nat l) b)) k <> None) by congruence. apply nth_error_Some in E. rewrite firstn_length in E. lia. }
  split; [|exact K]. rewrite nth_error_firstn_lt in H by exact K. rewrite nth_error_skipn_add in H. exact H.
Qed.

(** an index that is small, up to a multiple of 2^64 *)
Lemma words_agree bm v i q n l k x : - 2 ^ 61 <= i <= 2 ^ 61 -> len (buf v) < 2 ^ 61 -> xssr bm v (i + q * 2 ^ 64) n = Ok l -> nth_error l k = Some x ->
  same_one bm (xss bm v (i + q * 2 ^ 64 + Z.of_nat k)) x.
Proof.
  intros Bi Bl H Hx. unfold xssr in H. step H lf Lf. step H rt Rt. unfold read_range in H.
  destruct ((0 <=? lf) && (lf <=? rt) && (rt <=? len (buf v))) eqn:C; [|discriminate]. apply Ok_inj in H. subst l. destruct (slice_nth _ _ _ _ _ Hx) as [Hb Hk].
  unfold iter in Lf. skip_ Lf V1. apply Ok_inj in Lf. rewrite u64_shift in Lf. rewrite (s64_u64 i) in Lf by lia.
  unfold xss, same_one. replace (i + q * 2 ^ 64 + Z.of_nat k) with (i + Z.of_nat k + q * 2 ^ 64) by lia. rewrite u64_shift.
  assert (D : deref (buf v) (vbeg v + s64 (u64 (i + Z.of_nat k) - 1)) = Ok x).
  { rewrite s64_u64 by lia. unfold deref. destruct (Z.leb_spec 0 (vbeg v + (i + Z.of_nat k - 1))); [|lia].
    replace (Z.to_nat (vbeg v + (i + Z.of_nat k - 1))) with (Z.to_nat lf + k)%nat by lia. rewrite Hb. reflexivity. }
  rewrite D. destruct bm; cbn [debug]; [|left; reflexivity]. unfold verifyIndex, throw_if. match goal with |- context[if ?b then _ else _] => destruct b end; cbn [bind]; auto.
Qed.
Lemma words_agree0 bm v i n l k x : - 2 ^ 61 <= i <= 2 ^ 61 -> len (buf v) < 2 ^ 61 -> xssr bm v i n = Ok l -> nth_error l k = Some x ->
  same_one bm (xss bm v (i + Z.of_nat k)) x.
Proof. intros Bi Bl H Hx. pose proof (words_agree bm v i 0 n l k x Bi Bl) as W. rewrite Z.mul_0_l, Z.add_0_r in W. exact (W H Hx). Qed.

Lemma xssr_agrees bm v i n : - 2 ^ 61 <= i <= 2 ^ 61 -> len (buf v) < 2 ^ 61 -> agrees bm (xssr bm v i n) (fun k => xss bm v (i + k - 1)).
Proof.
  intros Bi Bl l k x H Hk Hx. pose proof (words_agree0 bm v i n l _ x Bi Bl H Hx) as W. replace (i + Z.of_nat (Z.to_nat (k - 1))) with (i + k - 1) in W by lia. exact W.
Qed.
Lemma ixssr_agrees bm v i n : - 2 ^ 61 <= i <= 2 ^ 61 -> len (buf v) < 2 ^ 61 -> agrees bm (ixssr bm v i n) (fun k => ixss bm v (i + k - 1)).
Proof.
  intros Bi Bl l k x H Hk Hx. unfold ixssr in H. step H ws W. destruct (nth_error ws (Z.to_nat (k - 1))) as [w|] eqn:Ew.
  - pose proof (xssr_agrees bm v i n Bi Bl ws k w W Hk Ew) as S. assert (T : to_int w = Ok x).
    { clear -H Hx Ew. revert ws l H Hx Ew. induction (Z.to_nat (k - 1)) as [|m IH]; intros [|a ws] [|b l] H Hx Ew; cbn [mapM nth_error] in *; try discriminate; step H z Hz; step H zs Hzs; apply Ok_inj in H; inversion H; subst.
      - congruence.
      - eapply IH; eassumption. }
    unfold ixss. destruct S as [-> | [D ->]]; cbn [bind]; [left; exact T|right; auto].
  - apply nth_error_None in Ew. assert (N : nth_error l (Z.to_nat (k - 1)) <> None) by congruence. apply nth_error_Some in N. rewrite (Indexed.mapM_length _ _ _ H) in N. lia.
Qed.
Lemma xss_all_agrees bm v : len (buf v) < 2 ^ 61 -> 0 <= vbeg v -> agrees bm (xss_all v) (xss bm v).
Proof.
  intros Bl Bv l i x H Hi Hx. unfold xss_all, read_range in H. destruct ((0 <=? vbeg v) && (vbeg v <=? vend v) && (vend v <=? len (buf v))) eqn:C; [|discriminate].
  apply Ok_inj in H. subst l. destruct (slice_nth _ _ _ _ _ Hx) as [Hb Hk]. left. unfold xss. rewrite u64_small by lia.
  assert (V : (if debug bm then verifyIndex i 1 (vlen v) else Ok tt) = Ok tt). { destruct (debug bm); [|reflexivity]. unfold verifyIndex, throw_if, vlen. rewrite ?u64_small by lia. match goal with |- context[if ?b then _ else _] => destruct b eqn:E end; [lia|reflexivity]. }
  rewrite V. cbn [bind]. rewrite s64_small by lia. unfold deref. destruct (Z.leb_spec 0 (vbeg v + (i - 1))); [|lia]. replace (Z.to_nat (vbeg v + (i - 1))) with (Z.to_nat (vbeg v) + Z.to_nat (i - 1))%nat by lia.
  rewrite Hb. reflexivity.
Qed.

(** * Arrays and columns *)

Lemma same_check {A} bm u (o : outcome A) (x : A) : (u = Ok tt \/ (bm = Debug /\ u = Throw OutOfRange)) -> same_one bm o x -> same_one bm (_ <- u ;; o) x.
Proof. intros [-> | [D ->]] H; cbn [bind]; [exact H|right; auto]. Qed.
Lemma check_or bm u : u = Ok tt \/ u = Throw OutOfRange -> check bm u = Ok tt \/ (bm = Debug /\ check bm u = Throw OutOfRange).
Proof. unfold check. destruct bm; cbn [debug]; [intros [-> | ->]; auto|auto]. Qed.
Lemma verifyIndex_or i a b : verifyIndex i a b = Ok tt \/ verifyIndex i a b = Throw OutOfRange.
Proof. unfold verifyIndex, throw_if. match goal with |- context[if ?c then _ else _] => destruct c end; auto. Qed.

Lemma ad_index2_or o a i : ad_verifyIndex2 o a i = Ok tt \/ ad_verifyIndex2 o a i = Throw OutOfRange.
Proof. unfold ad_verifyIndex2, ad_verifyIndex. destruct (verifyIndex_or (u64 a) 1 (ad_m o)) as [-> | ->]; cbn [bind]; [apply verifyIndex_or|auto]. Qed.
Lemma ad_agrees bm o a : 0 <= ad_n o < 2 ^ 30 -> 1 <= a < 2 ^ 30 -> len (buf (ad_v o)) < 2 ^ 61 ->
  agrees bm (ad_darray bm o a) (ad_dvalue bm o a) /\ agrees bm (ad_iarray bm o a) (ad_ivalue bm o a).
Proof.
  intros Bn Ba Bl. assert (P : 0 <= (a - 1) * ad_n o < 2 ^ 60) by nia. split; intros l i x H Hi Hx.
  - unfold ad_darray in H. skip_ H V. unfold ad_dvalue. apply same_check; [apply check_or, ad_index2_or|].
    pose proof (xssr_agrees bm (ad_v o) (1 + (a - 1) * ad_n o) (ad_n o) ltac:(lia) Bl l i x H Hi Hx) as W. cbv beta in W.
    replace ((a - 1) * ad_n o + i) with (1 + (a - 1) * ad_n o + i - 1) by lia. exact W.
  - unfold ad_iarray in H. skip_ H V. unfold ad_ivalue. apply same_check; [apply check_or, ad_index2_or|].
    pose proof (ixssr_agrees bm (ad_v o) (1 + (a - 1) * ad_n o) (ad_n o) ltac:(lia) Bl l i x H Hi Hx) as W. cbv beta in W.
    replace ((a - 1) * ad_n o + i) with (1 + (a - 1) * ad_n o + i - 1) by lia. exact W.
Qed.

Lemma ixss_size_form bm v k n : ixss_size bm v k = Ok n -> exists z q, n = z + q * 2 ^ 64 /\ - 2 ^ 31 <= z < 2 ^ 31.
Proof.
  unfold ixss_size. intros H. step H z Hz. apply Ok_inj in H. subst n. unfold ixss in Hz. step Hz y Y. unfold to_int in Hz. destruct (sf_round y) as [r|]; [|discriminate].
  destruct (in_int r) eqn:I; [|discriminate]. apply Ok_inj in Hz. subst r. unfold in_int in I. exists z, (- (z / 2 ^ 64)). unfold u64. Z.div_mod_to_equations. lia.
Qed.
Lemma cd_N_form bm o n : cd_N bm o = Ok n -> exists z q, n = z + q * 2 ^ 64 /\ - 2 ^ 31 <= z < 2 ^ 31.
Proof. unfold cd_N. destruct (vempty (cd_v o)); intros H; [apply Ok_inj in H; exists 0, 0; lia|exact (ixss_size_form _ _ _ _ H)]. Qed.

Lemma cd_agrees bm o c : 1 <= c < 2 ^ 29 -> len (buf (cd_v o)) < 2 ^ 61 -> agrees bm (cd_column bm o c) (cd_value bm o c).
Proof.
  intros Bc Bl l i x H Hi Hx. unfold cd_column in H. step H n Nn. unfold cd_value. rewrite Nn. cbn [bind]. destruct (cd_N_form _ _ _ Nn) as (z & q & E & B).
  assert (P : - 2 ^ 60 <= (c - 1) * z <= 2 ^ 60) by nia.
  replace (2 + (c - 1) * n) with (2 + (c - 1) * z + ((c - 1) * q) * 2 ^ 64) in H by (rewrite E; ring).
  pose proof (words_agree bm (cd_v o) (2 + (c - 1) * z) ((c - 1) * q) n l _ x ltac:(lia) Bl H Hx) as W.
  replace (2 + (c - 1) * n + i - 1) with (2 + (c - 1) * z + (c - 1) * q * 2 ^ 64 + Z.of_nat (Z.to_nat (i - 1))); [exact W|].
  rewrite Z2Nat.id by lia. rewrite E. ring.
Qed.

(** the index check in front of a column *)
Lemma dd_verify_or bm o i n : cd_N bm o = Ok n -> dd_verify bm o i = Ok tt \/ (bm = Debug /\ dd_verify bm o i = Throw OutOfRange).
Proof. intros N. unfold dd_verify. rewrite N. cbn [bind]. destruct bm; cbn [debug]; [|auto]. destruct (verifyIndex_or (u64 i) 1 n) as [-> | ->]; auto. Qed.
Lemma dd_value_agrees bm o c : 1 <= c < 2 ^ 29 -> len (buf (cd_v o)) < 2 ^ 61 -> agrees bm (cd_column bm o c) (dd_value bm o c).
Proof.
  intros Bc Bl l i x H Hi Hx. pose proof (cd_agrees bm o c Bc Bl l i x H Hi Hx) as W. unfold cd_column in H. step H n Nn. unfold dd_value. apply same_check; [exact (dd_verify_or bm o i n Nn)|exact W].
Qed.

(** * The entries of a loop from 1 *)

Lemma mapM_seq_nth {B} (f : Z -> outcome B) : forall n a r k y, mapM f (seqZ a n) = Ok r -> nth_error r k = Some y -> f (a + Z.of_nat k) = Ok y.
Proof.
  induction n as [|n IH]; intros a r k y H Hk; cbn [seqZ mapM] in H.
  - apply Ok_inj in H. subst r. destruct k; discriminate.
  - step H z Hz. step H zs Hzs. apply Ok_inj in H. subst r. destruct k as [|k]; cbn [nth_error] in Hk.
    + inversion Hk; subst. rewrite Z.add_0_r. exact Hz.
    + rewrite <- (IH _ _ _ _ Hzs Hk). f_equal. lia.
Qed.
Lemma at_mapM {B} (f : Z -> outcome B) n r i y : 1 <= i < 2 ^ 64 -> mapM f (seqZ 1 n) = Ok r -> at_ r i = Ok y -> f i = Ok y.
Proof.
  intros Bi H A. unfold at_ in A. rewrite u64_small in A by lia. destruct (nth_error r (Z.to_nat (i - 1))) as [z|] eqn:E; [|discriminate]. apply Ok_inj in A. subst z.
  pose proof (mapM_seq_nth f _ _ _ _ _ H E) as R. replace (1 + Z.of_nat (Z.to_nat (i - 1))) with i in R by lia. exact R.
Qed.

(** * Distributions: energies(), energy( index ), and the energy of the distribution *)

(** the object made for a value keeps the value *)
Definition keeps {D} (gd : double -> Z -> view -> outcome D) (value : D -> double) : Prop := forall x l w d, gd x l w = Ok d -> value d = x.

Lemma dd_distribution_value {D} bm (gd : double -> Z -> view -> outcome D) value conv v locb values n i d : keeps gd value ->
  dd_distribution bm gd conv v locb values n i = Ok d -> dd_value bm values 1 i = Ok (value d).
Proof. intros G H. unfold dd_distribution in H. step H x X. step H lc Lc. step H lo Lo. step H lf Lf. step H rt Rt. rewrite (G _ _ _ _ H). exact X. Qed.

Lemma dd_make_form {D} bm (gd : double -> Z -> view -> outcome D) locb v o : dd_make bm gd locb v = Ok o ->
  exists n, cd_N bm (dd_values o) = Ok n /\ mapM (dd_distribution bm gd as_int v locb (dd_values o) n) (seqZ 1 (Z.to_nat n)) = Ok (dd_dists o) /\ buf (cd_v (dd_values o)) = buf v.
Proof.
  intros M. unfold dd_make in M. step M a A. step M b B. skip_ M V. unfold dd_generateBlocks in M. step M nr Nr. step M ne Ne. step M da Da. step M en En. step M ii Ii. step M vs Vs. step M n Nn. step M ds Ds.
  apply Ok_inj in M. subst o. cbn [dd_values dd_dists]. exists n. split; [exact Nn|]. split; [exact Ds|]. unfold cd_make in Vs. step Vs k K. skip_ Vs V2. apply Ok_inj in Vs. subst vs. reflexivity.
Qed.
Lemma di_make_form {D} bm (gd : double -> Z -> view -> outcome D) locb v o : di_make bm gd locb v = Ok o ->
  exists n, cd_N bm (di_values o) = Ok n /\ mapM (dd_distribution bm gd u64 v locb (di_values o) n) (seqZ 1 (Z.to_nat n)) = Ok (di_dists o) /\ buf (cd_v (di_values o)) = buf v.
Proof.
  intros M. unfold di_make in M. step M a A. skip_ M V. unfold di_generateBlocks in M. step M ne Ne. step M da Da. step M en En. step M vs Vs. step M n Nn. step M ds Ds.
  apply Ok_inj in M. subst o. cbn [di_values di_dists]. exists n. split; [exact Nn|]. split; [exact Ds|]. unfold cd_make in Vs. step Vs k K. skip_ Vs V2. apply Ok_inj in Vs. subst vs. reflexivity.
Qed.

Lemma dd_agrees {D} bm (gd : double -> Z -> view -> outcome D) value locb v o : keeps gd value -> len (buf v) < 2 ^ 61 -> dd_make bm gd locb v = Ok o ->
  agrees bm (dd_energies bm o) (dd_energy bm o) /\ forall i d, 1 <= i < 2 ^ 64 -> dd_datum bm o i = Ok d -> dd_energy bm o i = Ok (value d).
Proof.
  intros G Bl M. destruct (dd_make_form bm gd locb v o M) as (n & Nn & Ds & E). split; [apply dd_value_agrees; [lia|rewrite E; exact Bl]|].
  intros i d Bi H. unfold dd_datum in H. skip_ H V. exact (dd_distribution_value _ _ _ _ _ _ _ _ _ _ G (at_mapM _ _ _ _ _ Bi Ds H)).
Qed.
Lemma di_agrees {D} bm (gd : double -> Z -> view -> outcome D) value locb v o : keeps gd value -> len (buf v) < 2 ^ 61 -> di_make bm gd locb v = Ok o ->
  (forall c, 1 <= c < 2 ^ 29 -> agrees bm (di_column bm o c) (di_value bm o c)) /\ forall i d, 1 <= i < 2 ^ 64 -> di_datum bm o i = Ok d -> di_value bm o 1 i = Ok (value d).
Proof.
  intros G Bl M. destruct (di_make_form bm gd locb v o M) as (n & Nn & Ds & E). split; [intros c Bc; apply dd_value_agrees; [exact Bc|rewrite E; exact Bl]|].
  intros i d Bi H. unfold di_datum in H. skip_ H V. exact (dd_distribution_value _ _ _ _ _ _ _ _ _ _ G (at_mapM _ _ _ _ _ Bi Ds H)).
Qed.

(** inside law 61: energies, probabilities and cumulative probabilities *)
Lemma ea_read_agrees bm locb v o : len (buf v) < 2 ^ 61 -> ea_read bm locb v = Ok o ->
  (forall c, 1 <= c < 2 ^ 29 -> agrees bm (di_column bm o c) (di_value bm o c))
  /\ forall i d, 1 <= i < 2 ^ 64 -> di_datum bm o i = Ok d ->
       di_value bm o 1 i = Ok (two_energy d) /\ di_value bm o 2 i = Ok (two_prob d) /\ di_value bm o 3 i = Ok (two_cumul d).
Proof.
  intros Bl M. unfold ea_read in M. step M a A. skip_ M V. unfold ea_generateBlocks in M. step M ne Ne. step M vs Vs. step M n Nn. step M ds Ds. apply Ok_inj in M. subst o.
  assert (E : buf (cd_v vs) = buf v). { unfold cd_make in Vs. step Vs k K. skip_ Vs V2. apply Ok_inj in Vs. subst vs. reflexivity. }
  split; [intros c Bc; apply dd_value_agrees; [exact Bc|cbn [di_values]; rewrite E; exact Bl]|].
  intros i d Bi H. unfold di_datum in H. cbn [di_values di_dists] in H. skip_ H W. pose proof (at_mapM _ _ _ _ _ Bi Ds H) as R.
  unfold di_value, dd_value. cbn [di_values]. rewrite W. cbn [bind]. clear -R. unfold ea_distribution in R. step R e E. step R p P. step R c C. step R lc Lc. step R lo Lo. step R rt Rt.
  unfold tw_make in R. step R w W. apply Ok_inj in R. subst d. cbn [two_energy two_prob two_cumul]. auto.
Qed.

(** law 1 *)
Lemma eq_agrees bm v o : len (buf v) < 2 ^ 61 -> SimpleLaws.eq_make bm v = Ok o ->
  agrees bm (eq_incidentEnergies bm o) (eq_incidentEnergy bm o) /\ forall i d, 1 <= i < 2 ^ 64 -> eq_distribution bm o i = Ok d -> eq_incidentEnergy bm o i = Ok (fst d).
Proof.
  intros Bl M. unfold SimpleLaws.eq_make in M. step M a A. step M b B. step M c C. skip_ M V. unfold eq_generateBlocks in M. step M nr Nr. step M ne Ne. step M ii Ii. step M es Es. step M ds Ds. apply Ok_inj in M. subst o.
  assert (E : buf (cd_v es) = buf v). { unfold cd_make in Es. step Es k K. skip_ Es V2. apply Ok_inj in Es. subst es. reflexivity. }
  split.
  - unfold eq_incidentEnergies, eq_incidentEnergy. cbn [eq_energies_]. apply (dd_value_agrees bm es 1); [lia|rewrite E; exact Bl].
  - intros i d Bi H. unfold eq_distribution in H. cbn [eq_energies_ eq_bins] in H. skip_ H W. pose proof (at_mapM _ _ _ _ _ Bi Ds H) as R. cbv beta in R. step R e Ee. step R net Net. apply Ok_inj in R. subst d. exact Ee.
Qed.

(** angular distributions *)
Lemma an_agrees bm locb v o : len (buf v) < 2 ^ 61 -> an_make bm locb v = Ok o ->
  agrees bm (an_incidentEnergies bm o) (an_incidentEnergy bm (an_values o)) /\ forall i d, 1 <= i < 2 ^ 64 -> an_datum bm o i = Ok d -> an_incidentEnergy bm (an_values o) i = Ok (ang_energy d).
Proof.
  intros Bl M. unfold an_make in M. step M o' G. step M n0 Hn0. skip_ M V. apply Ok_inj in M. subst o'. unfold an_generateBlocks in G. step G ne Ne. step G en En. step G vs Vs. step G n Nn. step G ds Ds. apply Ok_inj in G. subst o.
  assert (E : buf (cd_v vs) = buf v). { unfold cd_make in Vs. step Vs k K. skip_ Vs V2. apply Ok_inj in Vs. subst vs. reflexivity. }
  split.
  - unfold an_incidentEnergies. cbn [an_values]. apply (dd_value_agrees bm vs 1); [lia|rewrite E; exact Bl].
  - intros i d Bi H. unfold an_datum in H. cbn [an_values an_dists] in *. skip_ H W. pose proof (at_mapM _ _ _ _ _ Bi Ds H) as R. unfold an_distribution in R. step R lc Lc. step R e Ee. rewrite Ee. f_equal.
    destruct (lc =? 0); [apply Ok_inj in R; subst d; reflexivity|]. step R lo Lo. step R lf Lf. step R rt Rt. destruct (lc <? 0).
    + unfold ta_make in R. step R w Hw. apply Ok_inj in R. subst d. reflexivity.
    + unfold Angular.eq_make in R. skip_ R V3. apply Ok_inj in R. subst d. reflexivity.
Qed.

(** * Electron blocks: energies(), energy( index ), length( index ) and the entry *)
Lemma eb_agrees bm v n o : 0 <= n < 2 ^ 30 -> len (buf v) < 2 ^ 61 -> eb_make bm v n = Ok o ->
  agrees bm (eb_energies bm o) (eb_energy bm o)
  /\ forall i d, 1 <= i < 2 ^ 64 -> eb_datum bm o i = Ok d -> eb_energy bm o i = Ok (ed_energy d) /\ eb_length bm o i = Ok (ed_L d).
Proof.
  intros Bn Bl M. unfold eb_make, eb_generateBlocks in M. step M info Inf. step M ds Ds. apply Ok_inj in M. subst o.
  assert (E : info = ArrayData (sub v (vbeg v) (vbeg v + u32 (3 * u32 n))) (u32 n) 3). { unfold ad_make in Inf. skip_ Inf V. apply Ok_inj in Inf. auto. }
  split.
  - intros l i x H Hi Hx. unfold eb_energies, eb_energy, eb_energy_ in *. cbn [eb_n eb_info] in *. apply same_check; [apply check_or, verifyIndex_or|].
    assert (B1 : 0 <= ad_n info < 2 ^ 30) by (subst info; cbn [ad_n]; rewrite u32_small by lia; lia). assert (B2 : len (buf (ad_v info)) < 2 ^ 61) by (subst info; exact Bl).
    exact (proj1 (ad_agrees bm info 1 B1 ltac:(lia) B2) l i x H Hi Hx).
  - intros i d Bi H. unfold eb_datum in H. cbn [eb_n eb_data] in H. skip_ H W. pose proof (at_mapM _ _ _ _ _ Bi Ds H) as R. cbv beta in R. step R lo Lo. step R lf Lf. step R ln Ln. step R e Ee.
    unfold eb_energy, eb_length. cbn [eb_n eb_info]. rewrite Ee, Ln. unfold ed_make in R. step R a Aa. unfold ad_make in Aa. skip_ Aa V. apply Ok_inj in Aa. subst a. apply Ok_inj in R. subst d. auto.
Qed.

(** * Probability tables: the energies of UNR and of its tables *)
Lemma un_loop_nth bm v m : forall n left index ts k t, un_loop bm v m left index n = Ok ts -> nth_error ts k = Some t -> xss bm v (6 + index + Z.of_nat k) = Ok (tb_incidentEnergy t).
Proof.
  induction n as [|n IH]; intros left index ts k t H Hk; cbn [un_loop] in H.
  - apply Ok_inj in H. subst ts. destruct k; discriminate.
  - step H e Ee. step H t0 T. step H r R. apply Ok_inj in H. subst ts. destruct k as [|k]; cbn [nth_error] in Hk.
    + inversion Hk; subst. rewrite Z.add_0_r, Ee. f_equal. unfold tb_make in T. step T a A. apply Ok_inj in T. subst t. reflexivity.
    + rewrite <- (IH _ _ _ _ _ R Hk). f_equal. lia.
Qed.
Lemma xssr_len bm v i n l : 0 <= i <= 2 ^ 61 -> 0 <= n <= 2 ^ 61 -> xssr bm v i n = Ok l -> len l = n.
Proof.
  intros Bi Bn H. unfold xssr in H. step H lf Lf. step H rt Rt. unfold iter in Lf. skip_ Lf V1. apply Ok_inj in Lf. rewrite (s64_u64 i) in Lf by lia.
  assert (R : rt = lf + n). { rewrite (u64_small n) in Rt by lia. destruct (Z.ltb_spec 0 n).
    - step Rt r Hr. unfold iter in Hr. skip_ Hr V2. apply Ok_inj in Hr. rewrite s64_u64 in Hr by lia. apply Ok_inj in Rt. lia.
    - apply Ok_inj in Rt. lia. }
  unfold read_range in H. destruct ((0 <=? lf) && (lf <=? rt) && (rt <=? len (buf v))) eqn:C; [|discriminate]. apply Ok_inj in H. subst l. unfold slice, len in *. rewrite firstn_length, skipn_length. lia.
Qed.
Lemma un_agrees bm v o i t es : 1 <= i < 2 ^ 64 -> len (buf v) < 2 ^ 61 -> un_make bm v = Ok o ->
  un_probabilityTable bm o i = Ok t -> un_energies bm (un_v o) = Ok es -> nth_error es (Z.to_nat (i - 1)) = Some (tb_incidentEnergy t).
Proof.
  intros Bi Bl M Ht Hes. unfold un_make, un_generateBlocks in M. step M m Mm. step M n Nn. step M ts Ts. apply Ok_inj in M. subst o. cbn [un_v un_data] in *.
  unfold un_probabilityTable in Ht. cbn [un_v un_data] in Ht. skip_ Ht V. unfold at_ in Ht. rewrite u64_small in Ht by lia. destruct (nth_error ts (Z.to_nat (i - 1))) as [t'|] eqn:Et; [|discriminate]. apply Ok_inj in Ht. subst t'.
  pose proof (un_loop_nth _ _ _ _ _ _ _ _ _ Ts Et) as X. unfold un_energies in Hes. rewrite Nn in Hes. cbn [bind] in Hes.
  assert (Bn : 0 <= n < 2 ^ 32). { unfold un_N in Nn. step Nn w W. apply Ok_inj in Nn. subst n. unfold u32. apply Z.mod_pos_bound. lia. }
  pose proof (xssr_len bm v 7 n es ltac:(lia) ltac:(lia) Hes) as L. assert (K : (Z.to_nat (i - 1) < length ts)%nat) by (apply nth_error_Some; congruence).
  assert (T : length ts = Z.to_nat n). { clear -Ts. revert Ts. generalize (vbeg v + 6 + n), 1. revert ts. induction (Z.to_nat n) as [|k IH]; intros ts lf ix H; cbn [un_loop] in H; [apply Ok_inj in H; subst; reflexivity|].
    step H e Ee. step H t0 T0. step H r R. apply Ok_inj in H. subst ts. cbn [length]. f_equal. eapply IH; eassumption. }
  destruct (nth_error es (Z.to_nat (i - 1))) as [x|] eqn:Ex.
  - f_equal. destruct (words_agree0 bm v 7 n es _ x ltac:(lia) Bl Hes Ex) as [W | [_ W]]; replace (7 + Z.of_nat (Z.to_nat (i - 1))) with (6 + 1 + Z.of_nat (Z.to_nat (i - 1))) in W by lia; rewrite X in W; [apply Ok_inj in W; auto|discriminate].
  - apply nth_error_None in Ex. unfold len in L. lia.
Qed.

(** * The limits of the incident energies *)
Lemma cd_column_len bm o c l n : 1 <= c < 2 ^ 29 -> cd_column bm o c = Ok l -> cd_N bm o = Ok n -> len l = n.
Proof.
  intros Bc H Hn. unfold cd_column in H. rewrite Hn in H. cbn [bind] in H. assert (Bn : 0 <= n < 2 ^ 64 /\ exists z q, n = z + q * 2 ^ 64 /\ - 2 ^ 31 <= z < 2 ^ 31).
  { split; [|exact (cd_N_form _ _ _ Hn)]. unfold cd_N in Hn. destruct (vempty (cd_v o)); [apply Ok_inj in Hn; lia|]. unfold ixss_size in Hn. step Hn w W. apply Ok_inj in Hn. subst n. unfold u64. apply Z.mod_pos_bound. lia. }
  destruct Bn as (Bn & z & q & E & Bz). assert (P : - 2 ^ 60 <= (c - 1) * z <= 2 ^ 60) by nia.
  unfold xssr in H. step H lf Lf. step H rt Rt. unfold iter in Lf. skip_ Lf V1. apply Ok_inj in Lf.
  replace (2 + (c - 1) * n) with (2 + (c - 1) * z + ((c - 1) * q) * 2 ^ 64) in Lf, Rt by (rewrite E; ring). rewrite u64_shift, s64_u64 in Lf by lia.
  assert (R : rt = lf + z). { rewrite (u64_small n) in Rt by lia. destruct (Z.ltb_spec 0 n).
    - step Rt r Hr. unfold iter in Hr. skip_ Hr V2. apply Ok_inj in Hr.
      replace (2 + (c - 1) * z + (c - 1) * q * 2 ^ 64 + n - 1) with (1 + (c - 1) * z + z + ((c - 1) * q + q) * 2 ^ 64) in Hr by (rewrite E; ring). rewrite u64_shift, s64_u64 in Hr by lia. apply Ok_inj in Rt. lia.
    - apply Ok_inj in Rt. assert (n = 0) by lia. lia. }
  unfold read_range in H. destruct ((0 <=? lf) && (lf <=? rt) && (rt <=? len (buf (cd_v o)))) eqn:C; [|discriminate]. assert (q = 0) by lia. subst q. apply Ok_inj in H. subst l. unfold slice, len in *. rewrite firstn_length, skipn_length. lia.
Qed.

Lemma nth_last {A} (l : list A) d : l <> [] -> nth_error l (length l - 1) = Some (last l d).
Proof. induction l as [|a l IH]; [congruence|]. intros _. destruct l as [|b l]; [reflexivity|]. specialize (IH ltac:(discriminate)). replace (length (a :: b :: l) - 1)%nat with (S (length (b :: l) - 1)) by (cbn [length]; lia). exact IH. Qed.
Lemma column_limits bm values (one : Z -> outcome double) e es : len (buf (cd_v values)) < 2 ^ 61 -> agrees bm (cd_column bm values 1) one -> cd_column bm values 1 = Ok (e :: es) ->
  same_one bm (one 1) e /\ same_one bm (n <- cd_N bm values ;; one n) (last (e :: es) e).
Proof.
  intros Bl Ag H. split; [exact (Ag _ 1 e H ltac:(lia) eq_refl)|]. pose proof H as H'. unfold cd_column in H'. step H' n Nn. rewrite Nn. cbn [bind].
  pose proof (cd_column_len bm values 1 _ n ltac:(lia) H Nn) as L. apply (Ag _ n _ H); [rewrite len_cons in L; pose proof (len_nonneg es); lia|].
  rewrite <- L. unfold len. replace (Z.to_nat (Z.of_nat (length (e :: es)) - 1)) with (length (e :: es) - 1)%nat by lia. apply nth_last. discriminate.
Qed.

(** * Combined with C45 *)
Lemma full_agreement {A} bm (all : outcome (list A)) one n : agrees bm all one -> returns all n -> (forall i, 1 <= i <= n -> exists x, one i = Ok x) -> all_and_each all one n.
Proof.
  intros Ag (l & E & L) One. exists l. split; [exact E|]. split; [exact L|]. intros i Bi. destruct (nth_error l (Z.to_nat (i - 1))) as [x|] eqn:X; [|apply nth_error_None in X; unfold len in L; lia].
  exists x. split; [reflexivity|]. destruct (One i Bi) as [y Y]. destruct (Ag l i x E ltac:(lia) X) as [W | [_ W]]; [exact W|congruence].
Qed.
Lemma framed_words v : framed v -> len (buf v) < 2 ^ 61.
Proof. intros (_ & _ & B). unfold max_words in B. lia. Qed.
