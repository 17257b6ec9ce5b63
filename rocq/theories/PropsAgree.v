(** C48: the accessors of an object agree.  Nothing is assumed about the words; [bm]: with and without the index checks.
    [agrees bm all one]: for every value in the array [all] returns, the accessor [one] with its index (from 1) returns that value
    (in Debug its index checks may throw std::out_of_range instead: no other value is ever returned).
    [all_and_each all one n]: both return, n values. *)
From Coq Require Import ZArith Bool List Lia.
From Verif Require Import PropLemmasBasic Truncated NuBlock AtomicBlocks ElectronBlocks ThermalBlocks EnergyDist Accepted PropsAccepted Agree.
Import ListNotations.
Open Scope Z_scope.

(** * Words, arrays, columns: for every object.  2^61 words are more than any memory holds. *)

(** XSS(), XSS( i, n ), IXSS( i, n ) and XSS( i ), IXSS( i ) *)
Theorem C48_words bm v : len (buf v) < 2 ^ 61 -> 0 <= vbeg v ->
  agrees bm (xss_all v) (xss bm v)
  /\ forall i n, 0 <= i <= 2 ^ 61 -> agrees bm (xssr bm v i n) (fun k => xss bm v (i + k - 1)) /\ agrees bm (ixssr bm v i n) (fun k => ixss bm v (i + k - 1)).
Proof. intros Bl Bv. split; [exact (xss_all_agrees bm v Bl Bv)|]. intros i n Bi. split; [apply xssr_agrees|apply ixssr_agrees]; lia. Qed.
Print Assumptions C48_words.

(** darray( a ) and dvalue( a, i ), iarray( a ) and ivalue( a, i ) *)
Theorem C48_arrays bm o a : 0 <= ad_n o < 2 ^ 30 -> 1 <= a < 2 ^ 30 -> len (buf (ad_v o)) < 2 ^ 61 ->
  agrees bm (ad_darray bm o a) (ad_dvalue bm o a) /\ agrees bm (ad_iarray bm o a) (ad_ivalue bm o a).
Proof. exact (ad_agrees bm o a). Qed.
Print Assumptions C48_arrays.

(** both are there if the constructor has accepted the words *)
Theorem C48_accepted_arrays bm v n m o a : framed v -> 0 <= n < 2 ^ 30 -> 0 <= m < 2 ^ 30 -> n * m < 2 ^ 32 -> ad_make v n m = Ok o -> 1 <= a <= m ->
  all_and_each (ad_darray bm o a) (ad_dvalue bm o a) n.
Proof.
  intros F Bn Bm B M Ba. destruct (ad_accepts bm v n m o F ltac:(lia) ltac:(lia) B ltac:(lia) M) as (-> & A1 & A2). apply (full_agreement bm); [|apply A1; exact Ba|intros i Bi; apply A2; assumption].
  apply ad_agrees; cbn [ad_n ad_v]; [lia|lia|exact (framed_words v F)].
Qed.
Print Assumptions C48_accepted_arrays.

(** MTs() and MT( i ) (MT( i ) is an unsigned int), QValues() and QValue( i ) *)
Theorem C48_reactions bm v n o : framed v -> 0 <= n < 2 ^ 30 -> ad_make v n 1 = Ok o ->
  (forall ms i m, mt_MTs bm o = Ok ms -> 1 <= i -> nth_error ms (Z.to_nat (i - 1)) = Some m -> 0 <= m -> mt_MT bm o i = Ok m)
  /\ all_and_each (lq_QValues bm o) (lq_QValue bm o) n.
Proof.
  intros F Bn M. split; [|exact (C48_accepted_arrays bm v n 1 o 1 F Bn ltac:(lia) ltac:(lia) M ltac:(lia))].
  intros ms i m H Hi Hm Pm. destruct (C48_accepted_arrays bm v n 1 o 1 F Bn ltac:(lia) ltac:(lia) M ltac:(lia)) as (l & E & L & Each).
  destruct (ad_accepts bm v n 1 o F ltac:(lia) ltac:(lia) ltac:(lia) ltac:(lia) M) as (-> & _).
  destruct (ad_agrees bm (ArrayData v n 1) 1 ltac:(cbn [ad_n]; lia) ltac:(lia) (framed_words v F)) as [_ Ag]. unfold mt_MT.
  assert (B : m < 2 ^ 31). { unfold mt_MTs, ad_iarray in H. skip_ H V. unfold ixssr in H. step H ws W. apply nth_error_In in Hm. destruct (mapM_in _ _ _ _ H Hm) as (w & _ & T). unfold to_int in T. destruct (sf_round w) as [r|]; [|discriminate].
    destruct (in_int r) eqn:I; [|discriminate]. apply Ok_inj in T. unfold in_int in I. lia. }
  destruct (Ag ms i m H Hi Hm) as [-> | [D T]]; cbn [bind]; [rewrite u32_small by lia; reflexivity|].
  (* the index check cannot fail *)
  exfalso. assert (Bi : 1 <= i <= n). { split; [lia|]. unfold mt_MTs, ad_iarray in H. skip_ H V. unfold ixssr in H. step H ws W. unfold ad_darray in E. rewrite V in E. cbn [bind] in E. rewrite W in E. apply Ok_inj in E. subst ws.
    assert (K : (Z.to_nat (i - 1) < length ms)%nat) by (apply nth_error_Some; congruence). rewrite (Indexed.mapM_length _ _ _ H) in K. unfold len in L. lia. }
  destruct (Each i Bi) as (x & _ & X). unfold ad_ivalue, ixss in T. unfold ad_dvalue in X. skip_ X V. rewrite V in T. cbn [bind] in T. rewrite X in T. cbn [bind] in T. unfold to_int in T. destruct (sf_round x); [destruct (in_int _)|]; discriminate.
Qed.
Print Assumptions C48_reactions.

(** NPs() and NP( i ) of NTRO; MTs() and MT( i ) of YP: the arrays hold the words *)
Theorem C48_particle_types bm o : len (buf (nt_v o)) < 2 ^ 61 ->
  forall ws i n, nt_NPs bm o = Ok ws -> 1 <= i -> nth_error ws (Z.to_nat (i - 1)) = Some (dbl n) -> 0 <= n < 2 ^ 31 -> same_one bm (nt_NP bm o i) n.
Proof.
  intros Bl ws i n H Hi Hn B. pose proof (xssr_agrees bm (nt_v o) 1 (nt_ntype o) ltac:(lia) Bl ws i _ H Hi Hn) as W. cbv beta in W. replace (1 + i - 1) with i in W by lia. unfold nt_NP, ixss.
  destruct W as [-> | [D ->]]; cbn [bind]; [|right; auto]. left. rewrite to_int_dbl by lia. cbn [bind]. rewrite u32_small by lia. reflexivity.
Qed.
Print Assumptions C48_particle_types.
Theorem C48_photon_yields bm v : len (buf v) < 2 ^ 61 ->
  forall ws i n, yp_MTs bm v = Ok ws -> 1 <= i -> nth_error ws (Z.to_nat (i - 1)) = Some (dbl n) -> 0 <= n < 2 ^ 31 -> same_one bm (yp_MT bm v i) n.
Proof.
  intros Bl ws i n H Hi Hn B. unfold yp_MTs in H. step H k K. pose proof (xssr_agrees bm v 2 k ltac:(lia) Bl ws i _ H Hi Hn) as W. cbv beta in W. replace (2 + i - 1) with (i + 1) in W by lia. unfold yp_MT. rewrite K. cbn [bind].
  apply same_check; [destruct bm; cbn [debug]; [destruct (verifyIndex_or (u64 i) 1 k) as [-> | ->]|]; auto|]. unfold ixss.
  destruct W as [-> | [D ->]]; cbn [bind]; [|right; auto]. left. rewrite to_int_dbl by lia. cbn [bind]. rewrite u32_small by lia. reflexivity.
Qed.
Print Assumptions C48_photon_yields.

(** transition( i ) and the accessors for its four values *)
Theorem C48_transitions bm o i p s e q : 0 <= ad_n o < 2 ^ 30 -> 1 <= i < 2 ^ 30 -> len (buf (ad_v o)) < 2 ^ 61 -> tr_transition bm o i = Ok [p; s; e; q] ->
  same_one bm (tr_energy bm o i) e /\ same_one bm (tr_probability bm o i) q
  /\ (forall k, p = dbl k -> 0 <= k < 2 ^ 31 -> same_one bm (tr_primaryDesignator bm o i) k) /\ (forall k, s = dbl k -> 0 <= k < 2 ^ 31 -> same_one bm (tr_secondaryDesignator bm o i) k).
Proof.
  intros Bn Bi Bl H. destruct (ad_agrees bm o i Bn Bi Bl) as [Ag _].
  split; [exact (Ag _ 3 e H ltac:(lia) eq_refl)|]. split; [exact (Ag _ 4 q H ltac:(lia) eq_refl)|].
  assert (G : forall j x k, 1 <= j -> nth_error [p; s; e; q] (Z.to_nat (j - 1)) = Some x -> x = dbl k -> 0 <= k < 2 ^ 31 -> same_one bm (m <- ad_ivalue bm o i j ;; nonneg_or_UB m) k).
  { intros j x k Bj X -> Bk. pose proof (Ag _ j _ H Bj X) as W. unfold ad_dvalue in W. unfold ad_ivalue, ixss. destruct (check bm (ad_verifyIndex2 o i j)) as [[]|er|]; cbn [bind] in *.
    - destruct W as [-> | [D ->]]; cbn [bind]; [|right; auto]. left. rewrite to_int_dbl by lia. cbn [bind]. unfold nonneg_or_UB. destruct (Z.leb_spec 0 k); [reflexivity|lia].
    - destruct W as [W | [D W]]; [discriminate|]. right. split; [exact D|]. inversion W. reflexivity.
    - destruct W as [W | [_ W]]; discriminate. }
  split; intros k E Bk; [exact (G 1 p k ltac:(lia) eq_refl E Bk)|exact (G 2 s k ltac:(lia) eq_refl E Bk)].
Qed.
Print Assumptions C48_transitions.

(** C( c ) / column( c ) and value( c, i ) *)
Theorem C48_columns bm o c : 1 <= c < 2 ^ 29 -> len (buf (cd_v o)) < 2 ^ 61 -> agrees bm (cd_column bm o c) (cd_value bm o c)
  /\ forall l n, cd_column bm o c = Ok l -> cd_N bm o = Ok n -> len l = n.
Proof. intros Bc Bl. split; [exact (cd_agrees bm o c Bc Bl)|]. intros l n. exact (cd_column_len bm o c l n Bc). Qed.
Print Assumptions C48_columns.

(** In Debug the two do not throw for the same indices: of three values (the count 2.5 is truncated where the size is
    checked and rounded where it is shown) the array shows one behind the words of the object, and the accessor with an index refuses it. *)
Definition two_and_a_half := Eval vm_compute in SpecFloat.SFdiv 53 1024 (dbl 5) (dbl 2).
Example C48_refused_index : exists v o l, cd_make v 1 = Ok o /\ cd_column Debug o 1 = Ok l /\ nth_error l 2 = Some (dbl 9)
  /\ cd_value Debug o 1 3 = Throw OutOfRange /\ cd_value Release o 1 3 = Ok (dbl 9).
Proof.
  exists (View [two_and_a_half; dbl 7; dbl 8; dbl 9] 0 3). exists (ColumnData (View [two_and_a_half; dbl 7; dbl 8; dbl 9] 0 3) 1), [dbl 7; dbl 8; dbl 9].
  split; [vm_compute; reflexivity|]. split; [vm_compute; reflexivity|]. split; [reflexivity|]. split; vm_compute; reflexivity.
Qed.

(** * Incident energies: the array, the value with an index, and the energy the distribution itself gives *)

Lemma tq_keeps bm : keeps (tq_make bm) fst.
Proof. intros x l w d H. unfold tq_make in H. step H o Hw. apply Ok_inj in H. subst d. reflexivity. Qed.
Lemma ae_keeps bm : keeps (ae_make bm) fst.
Proof. intros x l w d H. unfold ae_make in H. step H o Hw. apply Ok_inj in H. subst d. reflexivity. Qed.
Lemma ea_keeps bm : keeps (ea_make bm) fst.
Proof. intros x l w d H. unfold ea_make in H. step H o Hw. apply Ok_inj in H. subst d. reflexivity. Qed.

(** laws 4 and 44 *)
Theorem C48_outgoing_energies bm locb v o : len (buf v) < 2 ^ 61 -> og_make bm locb v = Ok o ->
  agrees bm (dd_energies bm o) (dd_energy bm o) /\ forall i d, 1 <= i < 2 ^ 64 -> dd_datum bm o i = Ok d -> dd_energy bm o i = Ok (fst d).
Proof. exact (dd_agrees bm (tq_make bm) fst locb v o (tq_keeps bm)). Qed.
Print Assumptions C48_outgoing_energies.
(** law 67, and the cosines at one incident energy *)
Theorem C48_angle_energy bm locb v o : len (buf v) < 2 ^ 61 -> aed_make bm locb v = Ok o ->
  agrees bm (dd_energies bm o) (dd_energy bm o) /\ forall i d, 1 <= i < 2 ^ 64 -> dd_datum bm o i = Ok d -> dd_energy bm o i = Ok (fst d).
Proof. exact (dd_agrees bm (ae_make bm) fst locb v o (ae_keeps bm)). Qed.
Print Assumptions C48_angle_energy.
Theorem C48_cosines bm value locb v x o : len (buf v) < 2 ^ 61 -> ae_make bm value locb v = Ok (x, o) ->
  x = value /\ agrees bm (di_column bm o 1) (di_value bm o 1) /\ forall i d, 1 <= i < 2 ^ 64 -> di_datum bm o i = Ok d -> di_value bm o 1 i = Ok (fst d).
Proof.
  intros Bl M. unfold ae_make in M. step M o' G. apply Ok_inj in M. apply pair_equal_spec in M as [-> ->]. split; [reflexivity|].
  destruct (di_agrees bm (tq_make bm) fst locb v o (tq_keeps bm) Bl G) as [A B]. split; [apply A; lia|exact B].
Qed.
Print Assumptions C48_cosines.
(** law 61, and the outgoing energies, probabilities and cumulative probabilities at one incident energy *)
Theorem C48_energy_angle bm locb v o : len (buf v) < 2 ^ 61 -> ead_make bm locb v = Ok o ->
  agrees bm (dd_energies bm o) (dd_energy bm o) /\ forall i d, 1 <= i < 2 ^ 64 -> dd_datum bm o i = Ok d -> dd_energy bm o i = Ok (fst d).
Proof. exact (dd_agrees bm (ea_make bm) fst locb v o (ea_keeps bm)). Qed.
Print Assumptions C48_energy_angle.
Theorem C48_outgoing_energy_angle bm value locb v x o : len (buf v) < 2 ^ 61 -> ea_make bm value locb v = Ok (x, o) ->
  x = value /\ (forall c, 1 <= c <= 3 -> agrees bm (di_column bm o c) (di_value bm o c))
  /\ forall i d, 1 <= i < 2 ^ 64 -> di_datum bm o i = Ok d ->
       di_value bm o 1 i = Ok (two_energy d) /\ di_value bm o 2 i = Ok (two_prob d) /\ di_value bm o 3 i = Ok (two_cumul d).
Proof.
  intros Bl M. unfold ea_make in M. step M o' G. apply Ok_inj in M. apply pair_equal_spec in M as [-> ->]. split; [reflexivity|].
  destruct (ea_read_agrees bm locb v o Bl G) as [A B]. split; [intros c Bc; apply A; lia|exact B].
Qed.
Print Assumptions C48_outgoing_energy_angle.
(** law 1 *)
Theorem C48_equiprobable_bins bm v o : len (buf v) < 2 ^ 61 -> SimpleLaws.eq_make bm v = Ok o ->
  agrees bm (eq_incidentEnergies bm o) (eq_incidentEnergy bm o) /\ forall i d, 1 <= i < 2 ^ 64 -> eq_distribution bm o i = Ok d -> eq_incidentEnergy bm o i = Ok (fst d).
Proof. exact (eq_agrees bm v o). Qed.
Print Assumptions C48_equiprobable_bins.
(** angular distributions *)
Theorem C48_angular bm locb v o : len (buf v) < 2 ^ 61 -> an_make bm locb v = Ok o ->
  agrees bm (an_incidentEnergies bm o) (an_incidentEnergy bm (an_values o)) /\ forall i d, 1 <= i < 2 ^ 64 -> an_datum bm o i = Ok d -> an_incidentEnergy bm (an_values o) i = Ok (ang_energy d).
Proof. exact (an_agrees bm locb v o). Qed.
Print Assumptions C48_angular.
(** ELAS, BREME, EION: also the length *)
Theorem C48_electron_blocks bm v n o : 0 <= n < 2 ^ 30 -> len (buf v) < 2 ^ 61 -> eb_make bm v n = Ok o ->
  agrees bm (eb_energies bm o) (eb_energy bm o)
  /\ forall i d, 1 <= i < 2 ^ 64 -> eb_datum bm o i = Ok d -> eb_energy bm o i = Ok (ed_energy d) /\ eb_length bm o i = Ok (ed_L d).
Proof. exact (eb_agrees bm v n o). Qed.
Print Assumptions C48_electron_blocks.
(** UNR: the energies of the block and of its tables *)
Theorem C48_probability_tables bm v o i t es : 1 <= i < 2 ^ 64 -> len (buf v) < 2 ^ 61 -> un_make bm v = Ok o ->
  un_probabilityTable bm o i = Ok t -> un_energies bm (un_v o) = Ok es -> nth_error es (Z.to_nat (i - 1)) = Some (tb_incidentEnergy t).
Proof. exact (un_agrees bm v o i t es). Qed.
Print Assumptions C48_probability_tables.

(** * minimumIncidentEnergy and maximumIncidentEnergy: the first and the last of the energies *)

Theorem C48_energy_limits bm : 
  (forall D (o : distributionData D) e es, len (buf (cd_v (dd_values o))) < 2 ^ 61 -> dd_energies bm o = Ok (e :: es) -> same_one bm (dd_emin bm o) e /\ same_one bm (dd_emax bm o) (last (e :: es) e))
  /\ (forall o e es, len (buf (cd_v (eq_energies_ o))) < 2 ^ 61 -> eq_incidentEnergies bm o = Ok (e :: es) -> same_one bm (eq_emin bm o) e /\ same_one bm (eq_emax bm o) (last (e :: es) e))
  /\ (forall o e es, td_x bm (ev_tab o) = Ok (e :: es) -> ev_emin bm o = Ok e /\ ev_emax bm o = Ok (last (e :: es) e))
  /\ (forall o e es, td_x bm (ge_tab o) = Ok (e :: es) -> ge_emin bm o = Ok e /\ ge_emax bm o = Ok (last (e :: es) e))
  /\ (forall o e es, td_x bm (wa_a o) = Ok (e :: es) -> wa_emin bm o = Ok e /\ wa_emax bm o = Ok (last (e :: es) e)).
Proof.
  assert (Bk : forall e es, front (e :: es) = Ok e /\ back (e :: es) = Ok (last (e :: es) e)).
  { intros e es. split; [reflexivity|]. unfold back. rewrite (app_removelast_last e (l := e :: es)) at 1 by discriminate. rewrite rev_app_distr. reflexivity. }
  split; [|split; [|split; [|split]]].
  - intros D o e es Bl H. exact (column_limits bm (dd_values o) (dd_energy bm o) e es Bl (dd_value_agrees bm (dd_values o) 1 ltac:(lia) Bl) H).
  - intros o e es Bl H. exact (column_limits bm (eq_energies_ o) (eq_incidentEnergy bm o) e es Bl (dd_value_agrees bm (eq_energies_ o) 1 ltac:(lia) Bl) H).
  - intros o e es H. unfold ev_emin, ev_emax. rewrite H. exact (Bk e es).
  - intros o e es H. unfold ge_emin, ge_emax. rewrite H. exact (Bk e es).
  - intros o e es H. unfold wa_emin, wa_emax. rewrite H. exact (Bk e es).
Qed.
Print Assumptions C48_energy_limits.

(** * What the constructor has accepted: both accessors return (with C45) *)

(** laws 4 and 44; [dists_readable]: C45 *)
Theorem C48_accepted_outgoing_energies bm locb v o : framed v -> og_make bm locb v = Ok o ->
  shown (dd_NB bm o) (fun nb => shown (dd_N bm o) (fun n => 2 + 2 * nb + 2 * n < 2 ^ 32 ->
    all_and_each (dd_energies bm o) (dd_energy bm o) n
    /\ forall i, 1 <= i <= n -> exists d, dd_datum bm o i = Ok d /\ dd_energy bm o i = Ok (fst d))).
Proof.
  intros F M. destruct (C48_outgoing_energies bm locb v o (framed_words v F) M) as [A B].
  destruct (og_accepts bm locb v o (framed_nearby v F) M) as (nb & Hb & n & Hn & H). exists nb. split; [exact Hb|]. exists n. split; [exact Hn|]. intros C.
  destruct (H C) as (_ & (q & _ & Lq) & _ & _ & R & E). pose proof (len_nonneg q). split; [apply (full_agreement bm); [exact A|exact R|intros i Bi; exact (proj1 (E i Bi))]|].
  intros i Bi. destruct (E i Bi) as (_ & d & D & _). exists d. split; [exact D|]. apply (B i d); [lia|exact D].
Qed.
Print Assumptions C48_accepted_outgoing_energies.
Theorem C48_accepted_angle_energy bm locb v o : framed v -> aed_make bm locb v = Ok o ->
  shown (dd_NB bm o) (fun nb => shown (dd_N bm o) (fun n => 2 + 2 * nb + 2 * n < 2 ^ 32 ->
    all_and_each (dd_energies bm o) (dd_energy bm o) n
    /\ forall i, 1 <= i <= n -> exists d, dd_datum bm o i = Ok d /\ dd_energy bm o i = Ok (fst d))).
Proof.
  intros F M. destruct (C48_angle_energy bm locb v o (framed_words v F) M) as [A B].
  destruct (aed_accepts bm locb v o (framed_nearby v F) M) as (nb & Hb & n & Hn & H). exists nb. split; [exact Hb|]. exists n. split; [exact Hn|]. intros C.
  destruct (H C) as (_ & (q & _ & Lq) & _ & _ & R & E). pose proof (len_nonneg q). split; [apply (full_agreement bm); [exact A|exact R|intros i Bi; exact (proj1 (E i Bi))]|].
  intros i Bi. destruct (E i Bi) as (_ & d & D & _). exists d. split; [exact D|]. apply (B i d); [lia|exact D].
Qed.
Print Assumptions C48_accepted_angle_energy.
(** law 1 *)
Theorem C48_accepted_equiprobable_bins bm v o : framed v -> SimpleLaws.eq_make bm v = Ok o ->
  shown (eq_NB bm o) (fun nr => shown (eq_NE bm o) (fun ne => forall nb, eq_NET bm o = Ok nb -> 3 + 2 * nr + ne + ne * nb < 2 ^ 32 ->
    all_and_each (eq_incidentEnergies bm o) (eq_incidentEnergy bm o) ne
    /\ forall i, 1 <= i <= ne -> i < 2 ^ 64 -> exists d, eq_distribution bm o i = Ok d /\ eq_incidentEnergy bm o i = Ok (fst d))).
Proof.
  intros F M. destruct (C48_equiprobable_bins bm v o (framed_words v F) M) as [A B].
  destruct (eq_shown bm v o F M) as (nr & Hr & ne & Hn & H). exists nr. split; [exact Hr|]. exists ne. split; [exact Hn|]. intros nb Hb C.
  destruct (H nb Hb C) as (_ & _ & R & E). split; [apply (full_agreement bm); [exact A|exact R|intros i Bi; exact (proj1 (E i Bi))]|].
  intros i Bi Bu. destruct (E i Bi) as (_ & d & D & _). exists d. split; [exact D|]. apply (B i d); [lia|exact D].
Qed.
Print Assumptions C48_accepted_equiprobable_bins.
(** angular distributions, with the index checks *)
Theorem C48_accepted_angular locb v o : framed v -> an_make Debug locb v = Ok o ->
  shown (an_NE Debug o) (fun n => 1 + 2 * n < 2 ^ 32 ->
    all_and_each (an_incidentEnergies Debug o) (an_incidentEnergy Debug (an_values o)) n
    /\ forall i, 1 <= i <= n -> exists d, an_datum Debug o i = Ok d /\ an_incidentEnergy Debug (an_values o) i = Ok (ang_energy d)).
Proof.
  intros F M. destruct (C48_angular Debug locb v o (framed_words v F) M) as [A B].
  destruct (an_shown locb v o (framed_nearby v F) M) as (n & Hn & H). exists n. split; [exact Hn|]. intros C. destruct (H C) as (_ & R & E).
  assert (G : forall i, 1 <= i <= n -> exists d, an_datum Debug o i = Ok d /\ an_incidentEnergy Debug (an_values o) i = Ok (ang_energy d)).
  { intros i Bi. destruct (E i Bi) as (d & D & _). exists d. split; [exact D|]. apply (B i d); [|exact D]. lia. }
  split; [apply (full_agreement Debug); [exact A|exact R|intros i Bi; destruct (G i Bi) as (d & _ & X); eauto]|exact G].
Qed.
Print Assumptions C48_accepted_angular.

(** * Concrete cases *)

(** law 4: two incident energies, 5 and 6, with one outgoing energy each *)
Definition law4_words : list Z := [0; 2; 5; 6; 7; 12; 2; 1; 1; 1; 1; 2; 1; 2; 1; 1].
Example C48_example_law4 bm : exists o d, framed (words law4_words) /\ og_make bm 1 (words law4_words) = Ok o /\ dd_NB bm o = Ok 0 /\ dd_N bm o = Ok 2
  /\ dd_energies bm o = Ok [dbl 5; dbl 6] /\ dd_energy bm o 2 = Ok (dbl 6) /\ dd_datum bm o 2 = Ok d /\ fst d = dbl 6 /\ dd_emax bm o = Ok (dbl 6).
Proof.
  assert (E : exists o, og_make bm 1 (words law4_words) = Ok o
    /\ o = DistData (words law4_words) 1 (ColumnData (sub (words law4_words) 0 1) 2) (ColumnData (sub (words law4_words) 1 6) 2) [(dbl 5, sub (words law4_words) 6 11); (dbl 6, sub (words law4_words) 11 16)])
    by (eexists; split; [destruct bm; vm_compute; reflexivity|vm_compute; reflexivity]).
  destruct E as (o & E & O). exists o, (dbl 6, sub (words law4_words) 11 16). split; [apply (words_inside law4_words); reflexivity|]. split; [exact E|]. rewrite O. destruct bm; repeat split; vm_compute; reflexivity.
Qed.
(** two arrays of two values; a list of reactions *)
Example C48_example_arrays bm : exists o, framed (words [1; 2; 3; 4; 9]) /\ ad_make (words [1; 2; 3; 4; 9]) 2 2 = Ok o /\ ad_darray bm o 2 = Ok [dbl 3; dbl 4] /\ ad_dvalue bm o 2 1 = Ok (dbl 3) /\ ad_ivalue bm o 2 2 = Ok 4.
Proof. exists (ArrayData (words [1; 2; 3; 4; 9]) 2 2). split; [apply (words_inside [1; 2; 3; 4; 9]); reflexivity|]. destruct bm; repeat split; vm_compute; reflexivity. Qed.
Example C48_example_reactions bm : exists o, ad_make (words [16; 18; 102]) 3 1 = Ok o /\ mt_MTs bm o = Ok [16; 18; 102] /\ mt_MT bm o 3 = Ok 102.
Proof. exists (ArrayData (words [16; 18; 102]) 3 1). destruct bm; repeat split; vm_compute; reflexivity. Qed.
(** an electron block with one table of two values at 8 MeV *)
Example C48_example_electron bm : exists o d, eb_make bm (words [8; 2; 0; 1; 2; 3; 4]) 1 = Ok o /\ eb_energies bm o = Ok [dbl 8] /\ eb_energy bm o 1 = Ok (dbl 8) /\ eb_datum bm o 1 = Ok d /\ ed_energy d = dbl 8 /\ ed_L d = 2 /\ eb_length bm o 1 = Ok 2.
Proof.
  assert (E : exists o d, eb_make bm (words [8; 2; 0; 1; 2; 3; 4]) 1 = Ok o /\ d = ElectronDatum (ArrayData (sub (words [8; 2; 0; 1; 2; 3; 4]) 3 7) 2 2) (dbl 8)
    /\ o = ElectronBlock (words [8; 2; 0; 1; 2; 3; 4]) 1 (ArrayData (sub (words [8; 2; 0; 1; 2; 3; 4]) 0 3) 1 3) [d])
    by (eexists; eexists; split; [destruct bm; vm_compute; reflexivity|split; vm_compute; reflexivity]).
  destruct E as (o & d & E & Dd & O). exists o, d. split; [exact E|]. rewrite O, Dd. destruct bm; repeat split; vm_compute; reflexivity.
Qed.
