(** Property theorems C23: S, Z and A from the ZAID. *)
From Coq Require Import ZArith Bool List Lia Ascii.
From Coq Require Import ZifyBool ZifyNat.
From Verif Require Export SZA.
Import ListNotations.
Open Scope Z_scope.

(** The estimate computed in floating point is the formula rounded exactly, for every atomic number that can occur. *)
Theorem C23_estimate_exact : forall z, 0 <= z <= 998 -> sza_estimate z = Ok (mass_estimate z).
Proof. exact sza_estimate_ok. Qed.
Print Assumptions C23_estimate_exact.

(** Every unsigned number in front of a ZAID is decoded: the loop ends and nothing is undefined. *)
Theorem C23_terminates : forall za, 0 <= za < 2 ^ 32 -> exists s z a, sza_decode za = Ok (s, z, a).
Proof. exact sza_decode_total. Qed.
Print Assumptions C23_terminates.
(** The loop stops because its condition fails, not because the model's step count runs out: more steps change nothing. *)
Theorem C23_loop_ends : forall e a s more, 0 <= e < 10000 -> 0 <= s -> s + a + Z.of_nat more < 2 ^ 32 -> 0 <= a ->
  exists a' s', sza_loop (Z.to_nat a) e a s = (a', s') /\ sza_loop (Z.to_nat a + more) e a s = (a', s') /\ ~ (100 < a' /\ e + 40 < a').
Proof.
  intros e a s more He Hs B Ha. destruct (sza_loop_exit (Z.to_nat a) e a s He Hs ltac:(lia) ltac:(lia)) as (k & E & K0 & N & M).
  destruct (sza_loop_exit (Z.to_nat a + more) e a s He Hs ltac:(lia) ltac:(lia)) as (k' & E' & K0' & N' & M').
  assert (k = k') as <- by lia. eexists _, _. split; [exact E|]. split; [exact E'|exact N].
Qed.
Print Assumptions C23_loop_ends.

(** Ground states and metastable states: z below 999, a within 60 below and 40 above the estimate
    (which holds for the known nuclides), encoded as 1000 z + a, or 1000 z + a + 300 + 100 m. *)
Theorem C23_inverts_encoding : forall m z a, 0 <= z <= 998 -> 0 <= m -> (m <> 0 -> 1 <= a /\ a + 300 + 100 * m < 1000 /\ mass_estimate z - 60 < a) ->
  0 <= a < 1000 -> a <= mass_estimate z + 40 -> ~ (z = 95 /\ a = 242) ->
  sza_decode (zaid_number m z a) = Ok (m, z, a).
Proof.
  intros m z a Hz Hm Hme Ha Hest N.
  assert (Sp : forall s, sza_special s z a = (s, z, a)).
  { intros s. unfold sza_special. destruct (Z.eqb_spec z 95), (Z.eqb_spec a 242); cbn [andb]; try reflexivity. tauto. }
  unfold zaid_number. destruct (Z.eqb_spec m 0) as [->|Nm].
  - pose proof (sza_decode_plain 0 z a Hz Ha ltac:(lia) (or_intror Hest)) as D. rewrite Sp in D. rewrite <- D. f_equal.
  - destruct (Hme Nm) as (A1 & A2 & A3). rewrite <- Sp. apply sza_decode_meta; lia.
Qed.
Print Assumptions C23_inverts_encoding.

(** The exception: 95242 is the metastable Am-242m, 95642 the ground state; higher states as usual. *)
Theorem C23_am242 : sza_decode 95242 = Ok (1, 95, 242) /\ sza_decode 95642 = Ok (0, 95, 242)
  /\ forall m, 2 <= m <= 4 -> sza_decode (zaid_number m 95 242) = Ok (m, 95, 242).
Proof.
  split; [vm_compute; reflexivity|]. split; [vm_compute; reflexivity|]. intros m Hm.
  assert (m = 2 \/ m = 3 \/ m = 4) as [->|[->| ->]] by lia; vm_compute; reflexivity.
Qed.
Print Assumptions C23_am242.

(** The other encoding, with the state in the millions. *)
Theorem C23_state_in_millions : forall S z a, 0 <= z <= 998 -> 0 <= a < 1000 -> 0 <= S -> a <= 400 \/ a <= mass_estimate z + 40 ->
  ~ (z = 95 /\ a = 242) -> sza_decode (1000000 * S + 1000 * z + a) = Ok (S, z, a).
Proof.
  intros S z a Hz Ha HS C N. rewrite sza_decode_plain by assumption. unfold sza_special.
  destruct (Z.eqb_spec z 95), (Z.eqb_spec a 242); cbn [andb]; try reflexivity. tauto.
Qed.
Print Assumptions C23_state_in_millions.

(** Values that are already there are kept, whatever the ZAID. *)
Theorem C23_kept : forall bm zaid d n9 n10 n11, data_wf d -> d_NXS bm d 9 = Ok n9 -> d_NXS bm d 10 = Ok n10 -> d_NXS bm d 11 = Ok n11 ->
  ~ (n9 = 0 /\ n10 = 0 /\ n11 = 0) -> setSZA bm zaid d = Ok d.
Proof. exact setSZA_kept. Qed.
Print Assumptions C23_kept.

(** Otherwise NXS(9), (10), (11) become S, Z, A of the number in front of the ZAID, and nothing
    else in the table changes. *)
Theorem C23_set : forall bm digits suffix d s z a, data_wf d -> d_NXS bm d 9 = Ok 0 -> d_NXS bm d 10 = Ok 0 -> d_NXS bm d 11 = Ok 0 ->
  all_digits digits -> digits <> [] -> len digits < 2 ^ 32 -> digits_value digits < 2 ^ 31 -> len suffix = 4 ->
  sza_decode (digits_value digits) = Ok (s, z, a) ->
  exists d', setSZA bm (digits ++ suffix) d = Ok d' /\ data_wf d' /\ d_NXS bm d' 9 = Ok s /\ d_NXS bm d' 10 = Ok z /\ d_NXS bm d' 11 = Ok a
    /\ (forall i, 1 <= i <= 16 -> i <> 9 -> i <> 10 -> i <> 11 -> d_NXS bm d' i = d_NXS bm d i)
    /\ d_iz d' = d_iz d /\ d_aw d' = d_aw d /\ d_jxs d' = d_jxs d /\ d_xss d' = d_xss d.
Proof.
  intros bm ds x d s z a W E9 E10 E11 D Hne Ld B Lx E. eapply setSZA_set; try eassumption. apply sza_number_ok; assumption.
Qed.
Print Assumptions C23_set.

(** A ZAID without a number in front is rejected. *)
Theorem C23_no_number : forall bm d c rest, data_wf d -> d_NXS bm d 9 = Ok 0 -> d_NXS bm d 10 = Ok 0 -> d_NXS bm d 11 = Ok 0 ->
  digit_of c = None -> is_space c = false -> c <> "-"%char -> c <> "+"%char -> 4 <= len rest < 2 ^ 32 ->
  setSZA bm (c :: rest) d = Throw InvalidArgument.
Proof.
  intros bm d c rest W E9 E10 E11 Hd Hs N1 N2 L. unfold setSZA. rewrite E9, E10, E11. cbn [bind Z.eqb andb].
  unfold sza_number. rewrite len_cons. rewrite u64_small by lia.
  replace (Z.to_nat (Z.min (1 + len rest - 4) (1 + len rest))) with (S (Z.to_nat (len rest - 4))) by lia. cbn [firstn].
  unfold stoi. cbn [skip_spaces]. rewrite Hs.
  assert (E : forall r : list ascii, match c :: r with "-"%char :: r => (true, r) | "+"%char :: r => (false, r) | _ => (false, c :: r) end = (false, c :: r)).
  { intros r. destruct c as [[] [] [] [] [] [] [] []]; try reflexivity; congruence. }
  rewrite E, Hd. reflexivity.
Qed.
Print Assumptions C23_no_number.

Definition c23_data : tdata := TData (repeat 0 16) (repeat (dbl 0) 16) (repeat 0 16) (repeat 0 32) [].
Example C23_example :
  mass_estimate 92 = 238 /\ sza_decode (zaid_number 0 92 235) = Ok (0, 92, 235) /\ sza_decode (zaid_number 1 92 235) = Ok (1, 92, 235)
  /\ sza_decode (zaid_number 1 47 110) = Ok (1, 47, 110) /\ sza_decode (zaid_number 2 72 178) = Ok (2, 72, 178)
  /\ sza_decode 1001001 = Ok (1, 1, 1)
  /\ exists d, setSZA Debug ["9"; "5"; "2"; "4"; "2"; "."; "8"; "0"; "c"]%char c23_data = Ok d /\ d_NXS Debug d 9 = Ok 1 /\ d_NXS Debug d 10 = Ok 95 /\ d_NXS Debug d 11 = Ok 242.
Proof. repeat (split; [vm_compute; reflexivity|]). eexists. split; [vm_compute; reflexivity|]. vm_compute. auto. Qed.

(** Outside that range the decoding is not the inverse: a light metastable state such as 1000 * 1 + 2 + 400
    (z = 1, m = 1, a = 2) is fine, but the heavy isotope number 1000 * 20 + 450 (no metastable state)
    loses its mass number. *)
Example C23_outside : sza_decode (zaid_number 1 1 2) = Ok (1, 1, 2) /\ sza_decode (zaid_number 0 20 450) = Ok (1, 20, 50).
Proof. split; vm_compute; reflexivity. Qed.
