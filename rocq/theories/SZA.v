(** S, Z and A of a continuous energy table (ContinuousEnergyTable::setSZA). *)
From Coq Require Import ZArith Bool List Lia Ascii.
From Coq Require Import ZifyBool ZifyNat.
From Verif Require Export TableData.
Import ListNotations.
Open Scope Z_scope.

(** * Code *)

(** std::stoi: white space, an optional sign and decimal digits; the rest is ignored.  No digits
    is std::invalid_argument, a value outside int std::out_of_range. *)
Definition is_space (c : ascii) : bool :=
  existsb (fun n => (N_of_ascii c =? n)%N) [9; 10; 11; 12; 13; 32]%N.
Definition digit_of (c : ascii) : option Z :=
  let n := Z.of_N (N_of_ascii c) in if (48 <=? n) && (n <=? 57) then Some (n - 48) else None.
Fixpoint skip_spaces (s : list ascii) : list ascii :=
  match s with c :: r => if is_space c then skip_spaces r else s | [] => [] end.
Fixpoint read_digits (acc : Z) (s : list ascii) : Z :=
  match s with
  | c :: r => match digit_of c with Some d => read_digits (10 * acc + d) r | None => acc end
  | [] => acc
  end.
Definition stoi (s : list ascii) : outcome Z :=
  let s := skip_spaces s in
  let '(neg, s) := match s with
                   | "-"%char :: r => (true, r)
                   | "+"%char :: r => (false, r)
                   | _ => (false, s)
                   end in
  match s with
  | c :: _ =>
      match digit_of c with
      | Some _ => let n := read_digits 0 s in
                  let n := if (neg : bool) then - n else n in
                  if in_int n then Ok n else Throw OutOfRange
      | None => Throw InvalidArgument
      end
  | [] => Throw InvalidArgument
  end.

(** The literals and the formula of src/ACEtk/ContinuousEnergyTable/src/setSZA.hpp:25-26, in
    binary64 arithmetic with one rounding per operation (no fused operations).  A literal is the
    double nearest to its decimal value, which is also the correctly rounded quotient. *)
Definition fmul := SFmul 53 1024.
Definition fadd := SFadd 53 1024.
Definition fsub := SFsub 53 1024.
Definition fdiv := SFdiv 53 1024.
Definition sza_estimate (z : Z) : outcome Z :=
  round_to_u32 (fsub (fmul (fadd (fmul (fdiv (dbl 64) (dbl 10000)) (dbl z)) (fdiv (dbl 20009) (dbl 10000))) (dbl z))
                     (fdiv (dbl 281) (dbl 1000))).

(** The while loop, setSZA.hpp:32-36.  It stops by itself for any [fuel] of at least a. *)
Fixpoint sza_loop (fuel : nat) (estimate a s : Z) : Z * Z :=
  match fuel with
  | O => (a, s)
  | S fuel => if (100 <? a) && (u32 (estimate + 40) <? a) then sza_loop fuel estimate (a - 100) (u32 (s + 1)) else (a, s)
  end.

(** setSZA.hpp:11-50, from the integer in front of the ZAID (an unsigned int) *)
Definition sza_decode (za : Z) : outcome (Z * Z * Z) :=
  let a := za mod 1000 in
  let z := (za - a) / 1000 in
  let '(s, z) := if 999 <? z then (let z' := z mod 1000 in ((z - z') / 1000, z')) else (0, z) in
  if negb (z =? 999) then
    estimate <- sza_estimate z ;;
    let '(a, s) := if (400 <? a) && (u32 (estimate + 40) <? a) then sza_loop (Z.to_nat a) estimate (a - 400) 1 else (a, s) in
    let s := if (z =? 95) && (a =? 242) then (if s <? 2 then (if s =? 0 then 1 else 0) else s) else s in
    Ok (s, z, a)
  else Ok (s, z, a).

(** zaid.substr( 0, zaid.size() - 4 ): everything if the size is below 4 (the difference wraps) *)
Definition sza_number (zaid : list ascii) : outcome Z :=
  let n := u64 (len zaid - 4) in
  n <- stoi (firstn (Z.to_nat (Z.min n (len zaid))) zaid) ;; Ok (u32 n).

(** setSZA.hpp:1-55 *)
Definition setSZA bm (zaid : list ascii) (d : tdata) : outcome tdata :=
  n9 <- d_NXS bm d 9 ;;
  n10 <- (if n9 =? 0 then d_NXS bm d 10 else Ok 1) ;;
  n11 <- (if (n9 =? 0) && (n10 =? 0) then d_NXS bm d 11 else Ok 1) ;;
  if (n9 =? 0) && (n10 =? 0) && (n11 =? 0) then
    za <- sza_number zaid ;;
    r <- sza_decode za ;;
    let '(s, z, a) := r in
    nxs <- store bm (d_nxs d) 9 s ;;
    nxs <- store bm nxs 10 z ;;
    nxs <- store bm nxs 11 a ;;
    Ok (TData (d_iz d) (d_aw d) nxs (d_jxs d) (d_xss d))
  else Ok d.

(** * Specification *)

(** The mass number estimate 0.0064 z^2 + 2.0009 z - 0.281, rounded to the nearest integer. *)
Definition mass_estimate (z : Z) : Z := (64 * z * z + 20009 * z - 2810 + 5000) / 10000.

(** The ZAID number of (m, z, a): metastable states are numbered by adding 300 + 100 m to a. *)
Definition zaid_number (m z a : Z) : Z := 1000 * z + (if m =? 0 then a else a + 300 + 100 * m).

(** A ZAID as text: decimal digits, then a dot, two digits and the class character. *)
Definition all_digits (s : list ascii) : Prop := Forall (fun c => digit_of c <> None) s.

(** * Lemmas *)

Lemma sza_estimate_all : forallb (fun k => match sza_estimate (Z.of_nat k) with Ok e => e =? mass_estimate (Z.of_nat k) | _ => false end) (seq 0 999) = true.
Proof. vm_compute. reflexivity. Qed.
Lemma sza_estimate_ok z : 0 <= z <= 998 -> sza_estimate z = Ok (mass_estimate z).
Proof.
  intros H. pose proof sza_estimate_all as A. rewrite forallb_forall in A. specialize (A (Z.to_nat z)).
  rewrite Z2Nat.id in A by lia. assert (I : In (Z.to_nat z) (seq 0 999)) by (apply in_seq; lia). specialize (A I).
  destruct (sza_estimate z); try discriminate. f_equal. lia.
Qed.
Lemma mass_estimate_range z : 0 <= z <= 998 -> 0 <= mass_estimate z < 10000.
Proof. intros H. unfold mass_estimate. split; [apply Z.div_pos; nia|apply Z.div_lt_upper_bound; nia]. Qed.

Lemma sza_loop_exit fuel e a s : 0 <= e < 10000 -> 0 <= s -> s + Z.of_nat fuel < 2 ^ 32 -> (Z.to_nat a <= fuel)%nat ->
  exists k, sza_loop fuel e a s = (a - 100 * k, s + k) /\ 0 <= k /\ ~ (100 < a - 100 * k /\ e + 40 < a - 100 * k)
    /\ (k > 0 -> 100 < a - 100 * (k - 1) /\ e + 40 < a - 100 * (k - 1)).
Proof.
  intros He. revert a s. induction fuel as [|f IH]; intros a s Hs Hf Hl; cbn [sza_loop].
  - exists 0. rewrite Z.add_0_r, Z.mul_0_r, Z.sub_0_r. split; [reflexivity|]. lia.
  - rewrite (u32_small (e + 40)) by lia. destruct ((100 <? a) && (e + 40 <? a)) eqn:E.
    + rewrite u32_small by lia. destruct (IH (a - 100) (s + 1)) as (k & Ek & K0 & K1 & K2); [lia|lia|lia|].
      exists (k + 1). rewrite Ek. split; [f_equal; lia|]. split; [lia|]. replace (a - 100 * (k + 1)) with (a - 100 - 100 * k) by lia. split; [exact K1|].
      intros _. destruct (Z.eq_dec k 0); [subst; replace (a - 100 * (0 + 1 - 1)) with a by lia; lia|].
      replace (a - 100 * (k + 1 - 1)) with (a - 100 - 100 * (k - 1)) by lia. apply K2. lia.
    + exists 0. rewrite Z.add_0_r, Z.mul_0_r, Z.sub_0_r. split; [reflexivity|]. lia.
Qed.

(** What [sza_decode] returns, in closed form. *)
Definition sza_special (s z a : Z) : Z * Z * Z :=
  (if (z =? 95) && (a =? 242) then (if s <? 2 then (if s =? 0 then 1 else 0) else s) else s, z, a).

Lemma sza_decode_plain S z a : 0 <= z <= 998 -> 0 <= a < 1000 -> 0 <= S -> a <= 400 \/ a <= mass_estimate z + 40 ->
  sza_decode (1000000 * S + 1000 * z + a) = Ok (sza_special S z a).
Proof.
  intros Hz Ha HS C. unfold sza_decode.
  assert (E1 : (1000000 * S + 1000 * z + a) mod 1000 = a).
  { replace (1000000 * S + 1000 * z + a) with (a + (1000 * S + z) * 1000) by lia. rewrite Z.mod_add by lia. apply Z.mod_small. lia. }
  rewrite E1. replace (1000000 * S + 1000 * z + a - a) with ((1000 * S + z) * 1000) by lia. rewrite Z.div_mul by lia.
  assert (E2 : (if 999 <? 1000 * S + z then ((1000 * S + z - (1000 * S + z) mod 1000) / 1000, (1000 * S + z) mod 1000) else (0, 1000 * S + z)) = (S, z)).
  { destruct (Z.ltb_spec 999 (1000 * S + z)).
    - replace (1000 * S + z) with (z + S * 1000) by lia. rewrite Z.mod_add by lia. rewrite Z.mod_small by lia.
      replace (z + S * 1000 - z) with (S * 1000) by lia. rewrite Z.div_mul by lia. reflexivity.
    - f_equal; nia. }
  cbv zeta. rewrite E2. destruct (Z.eqb_spec z 999); [lia|]. cbn [negb]. rewrite sza_estimate_ok by lia. cbn [bind].
  pose proof (mass_estimate_range z Hz). rewrite u32_small by lia.
  destruct ((400 <? a) && (mass_estimate z + 40 <? a)) eqn:E; [lia|]. reflexivity.
Qed.

Lemma sza_decode_meta m z a : 0 <= z <= 998 -> 1 <= m -> 1 <= a -> a + 300 + 100 * m < 1000 ->
  mass_estimate z - 60 < a <= mass_estimate z + 40 ->
  sza_decode (1000 * z + (a + 300 + 100 * m)) = Ok (sza_special m z a).
Proof.
  intros Hz Hm Ha Hb He. unfold sza_decode. set (b := a + 300 + 100 * m) in *.
  assert (E1 : (1000 * z + b) mod 1000 = b).
  { replace (1000 * z + b) with (b + z * 1000) by lia. rewrite Z.mod_add by lia. apply Z.mod_small. lia. }
  rewrite E1. replace (1000 * z + b - b) with (z * 1000) by lia. rewrite Z.div_mul by lia. cbv zeta.
  destruct (Z.ltb_spec 999 z); [lia|]. destruct (Z.eqb_spec z 999); [lia|]. cbn [negb]. rewrite sza_estimate_ok by lia. cbn [bind].
  pose proof (mass_estimate_range z Hz) as R. rewrite u32_small by lia.
  destruct ((400 <? b) && (mass_estimate z + 40 <? b)) eqn:E; [|lia].
  destruct (sza_loop_exit (Z.to_nat b) (mass_estimate z) (b - 400) 1) as (k & Ek & K0 & K1 & K2); [lia|lia|lia|lia|].
  rewrite Ek. assert (k = m - 1) as ->.
  { destruct (Z.lt_trichotomy k (m - 1)) as [L|[L|L]]; [|exact L|].
    - exfalso. apply K1. lia.
    - exfalso. lia. }
  replace (b - 400 - 100 * (m - 1)) with a by lia. replace (1 + (m - 1)) with m by lia. reflexivity.
Qed.

Lemma sza_decode_total za : 0 <= za < 2 ^ 32 -> exists s z a, sza_decode za = Ok (s, z, a).
Proof.
  intros H. unfold sza_decode. set (a := za mod 1000). set (z := (za - a) / 1000). cbv zeta.
  assert (Ha : 0 <= a < 1000) by (apply Z.mod_pos_bound; lia).
  assert (Hz : 0 <= z). { apply Z.div_pos; [|lia]. subst a. pose proof (Z.mod_le za 1000). lia. }
  destruct (Z.ltb_spec 999 z).
  - pose proof (Z.mod_pos_bound z 1000 ltac:(lia)). destruct (Z.eqb_spec (z mod 1000) 999); cbn [negb]; [eauto|].
    rewrite sza_estimate_ok by lia. cbn [bind]. destruct (if (400 <? a) && _ then _ else _) as [a' s']. eauto.
  - destruct (Z.eqb_spec z 999); cbn [negb]; [eauto|]. rewrite sza_estimate_ok by lia. cbn [bind].
    destruct (if (400 <? a) && _ then _ else _) as [a' s']. eauto.
Qed.

(** ** The text *)

Lemma digit_not_space c : digit_of c <> None -> is_space c = false /\ c <> "-"%char /\ c <> "+"%char.
Proof.
  unfold digit_of. destruct ((48 <=? Z.of_N (N_of_ascii c)) && (Z.of_N (N_of_ascii c) <=? 57)) eqn:E; [|congruence]. intros _. split; [|split].
  - unfold is_space. cbn [existsb]. rewrite !orb_false_iff. repeat split; try (apply N.eqb_neq; lia).
  - intros ->. vm_compute in E. discriminate.
  - intros ->. vm_compute in E. discriminate.
Qed.

Definition digits_value (s : list ascii) : Z := fold_left (fun acc c => 10 * acc + match digit_of c with Some d => d | None => 0 end) s 0.
Lemma read_digits_all s : all_digits s -> forall acc, read_digits acc s = fold_left (fun acc c => 10 * acc + match digit_of c with Some d => d | None => 0 end) s acc.
Proof.
  induction 1 as [|c r Hc _ IH]; intros acc; [reflexivity|]. cbn [read_digits fold_left]. destruct (digit_of c); [apply IH|congruence].
Qed.
Lemma stoi_digits s : all_digits s -> s <> [] -> 0 <= digits_value s < 2 ^ 31 -> stoi s = Ok (digits_value s).
Proof.
  intros H Hne B. destruct s as [|c r]; [congruence|]. inversion H as [|? ? Hc _]; subst. destruct (digit_not_space c Hc) as (N1 & N2 & N3).
  unfold stoi. cbn [skip_spaces]. rewrite N1.
  assert (E : match c :: r with "-"%char :: r => (true, r) | "+"%char :: r => (false, r) | _ => (false, c :: r) end = (false, c :: r)).
  { destruct c as [[] [] [] [] [] [] [] []]; try reflexivity; congruence. }
  rewrite E. destruct (digit_of c) eqn:Ec; [|congruence]. rewrite (read_digits_all _ H 0). fold (digits_value (c :: r)).
  unfold in_int. destruct ((_ <=? digits_value (c :: r)) && _) eqn:E'; [reflexivity|lia].
Qed.
Lemma digits_value_nonneg s : 0 <= digits_value s.
Proof.
  unfold digits_value. assert (G : forall l acc, 0 <= acc -> 0 <= fold_left (fun acc c => 10 * acc + match digit_of c with Some d => d | None => 0 end) l acc).
  { induction l as [|c r IH]; intros acc Ha; [exact Ha|]. cbn [fold_left]. apply IH. unfold digit_of.
    destruct ((48 <=? Z.of_N (N_of_ascii c)) && (Z.of_N (N_of_ascii c) <=? 57)) eqn:E; lia. }
  apply G. lia.
Qed.

Lemma sza_number_ok ds x : all_digits ds -> ds <> [] -> len x = 4 -> digits_value ds < 2 ^ 31 -> len ds < 2 ^ 32 ->
  sza_number (ds ++ x) = Ok (digits_value ds).
Proof.
  intros H Hne L B B'. pose proof (digits_value_nonneg ds) as D0. pose proof (len_nonneg ds). unfold sza_number. rewrite len_app, L.
  replace (len ds + 4 - 4) with (len ds) by lia. rewrite u64_small by lia.
  replace (Z.to_nat (Z.min (len ds) (len ds + 4))) with (length ds) by (unfold len; lia).
  rewrite firstn_app, Nat.sub_diag, firstn_all. cbn [firstn]. rewrite app_nil_r. rewrite stoi_digits by (try assumption; lia).
  cbn [bind]. rewrite u32_small by lia. reflexivity.
Qed.

Lemma setSZA_kept bm zaid d n9 n10 n11 : data_wf d -> d_NXS bm d 9 = Ok n9 -> d_NXS bm d 10 = Ok n10 -> d_NXS bm d 11 = Ok n11 ->
  ~ (n9 = 0 /\ n10 = 0 /\ n11 = 0) -> setSZA bm zaid d = Ok d.
Proof.
  intros W E9 E10 E11 N. unfold setSZA. rewrite E9. cbn [bind]. destruct (Z.eqb_spec n9 0).
  - rewrite E10. cbn [bind andb]. destruct (Z.eqb_spec n10 0).
    + rewrite E11. cbn [bind andb]. destruct (Z.eqb_spec n11 0); [tauto|reflexivity].
    + cbn [bind andb]. reflexivity.
  - cbn [bind andb]. reflexivity.
Qed.

Lemma setSZA_set bm zaid d za s z a : data_wf d -> d_NXS bm d 9 = Ok 0 -> d_NXS bm d 10 = Ok 0 -> d_NXS bm d 11 = Ok 0 ->
  sza_number zaid = Ok za -> sza_decode za = Ok (s, z, a) ->
  exists d', setSZA bm zaid d = Ok d' /\ data_wf d' /\ d_NXS bm d' 9 = Ok s /\ d_NXS bm d' 10 = Ok z /\ d_NXS bm d' 11 = Ok a
    /\ (forall i, 1 <= i <= 16 -> i <> 9 -> i <> 10 -> i <> 11 -> d_NXS bm d' i = d_NXS bm d i)
    /\ d_iz d' = d_iz d /\ d_aw d' = d_aw d /\ d_jxs d' = d_jxs d /\ d_xss d' = d_xss d.
Proof.
  intros (W1 & W2 & W3 & W4) E9 E10 E11 En Ed. unfold setSZA. rewrite E9, E10, E11. cbn [bind Z.eqb andb].
  rewrite En. cbn [bind]. rewrite Ed. cbn [bind].
  assert (G : forall (l : list Z) i x, len l = 16 -> 1 <= i <= 16 -> exists l', store bm l i x = Ok l' /\ len l' = 16 /\ fetch bm l' i = Ok x
     /\ forall j, 1 <= j <= 16 -> j <> i -> fetch bm l' j = fetch bm l j).
  { intros l i x L Hi. destruct (@store_in Z bm l (Z.to_nat (i - 1)) x ltac:(lia) ltac:(lia)) as (l' & E & L' & F & O).
    replace (Z.of_nat (Z.to_nat (i - 1)) + 1) with i in E, F by lia. exists l'. split; [exact E|]. split; [lia|]. split; [exact F|].
    intros j Hj N. specialize (O (Z.to_nat (j - 1)) ltac:(lia)). destruct (nth_error l (Z.to_nat (j - 1))) as [y|] eqn:Ey.
    - pose proof (fetch_in bm l _ _ Ey ltac:(lia)) as A. pose proof (fetch_in bm l' _ _ O ltac:(lia)) as A'.
      replace (Z.of_nat (Z.to_nat (j - 1)) + 1) with j in A, A' by lia. congruence.
    - apply nth_error_None in Ey. unfold len in L. lia. }
  destruct (G (d_nxs d) 9 s W3 ltac:(lia)) as (l1 & S1 & L1 & F1 & O1). rewrite S1. cbn [bind].
  destruct (G l1 10 z L1 ltac:(lia)) as (l2 & S2 & L2 & F2 & O2). rewrite S2. cbn [bind].
  destruct (G l2 11 a L2 ltac:(lia)) as (l3 & S3 & L3 & F3 & O3). rewrite S3. cbn [bind].
  eexists. split; [reflexivity|]. unfold data_wf, d_NXS in *. cbn [d_iz d_aw d_nxs d_jxs d_xss].
  split; [tauto|]. split; [rewrite O3, O2 by lia; exact F1|]. split; [rewrite O3 by lia; exact F2|]. split; [exact F3|].
  split; [|tauto]. intros i Hi N1 N2 N3. rewrite O3, O2, O1 by lia. reflexivity.
Qed.
