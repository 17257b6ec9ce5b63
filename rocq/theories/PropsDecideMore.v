(** C50, continued: angular distributions, photon production and multiplicities with their kind. *)
From Coq Require Import ZArith Bool List Lia.
From Verif Require Import PropLemmasBasic Truncated NuBlock AtomicBlocks ElectronBlocks ThermalBlocks Accepted Decide PropsDecide DecideMore.
Import ListNotations.
Open Scope Z_scope.

(** angular distributions: [loc i] is 0 for an isotropic distribution, positive for 33 cosines, negative for a table of [cnt i] cosines *)
Theorem C50_angular_distributions v ne locb (loc cnt : Z -> Z) : inside v -> 0 <= ne < 2 ^ 29 -> 1 <= locb < 2 ^ 31 ->
  states v 1 ne -> (forall i, 1 <= i <= ne -> states v (1 + ne + i) (loc i) /\ - 2 ^ 31 < loc i < 2 ^ 31) ->
  (forall i, 1 <= i <= ne -> loc i < 0 -> states (part v ne (fun k => angular_start locb (loc k)) i) 2 (cnt i) /\ 0 <= cnt i < 2 ^ 30) ->
  let fits := angular_fits v ne locb loc cnt in
  (fits -> forall bm, exists o, an_make bm locb v = Ok o /\ an_NE bm o = Ok ne
     /\ forall i, 1 <= i <= ne -> exists d, an_datum bm o i = Ok d /\ angular_shows bm (loc i) (cnt i) d)
  /\ (~ fits -> exists e, an_make Debug locb v = Throw e).
Proof. intros I He Hb S1 Hl Hc fits. exact (an_decides v ne locb loc cnt I He Hb S1 Hl Hc). Qed.
Print Assumptions C50_angular_distributions.

(** law 44: the same words are asked for as in law 4 although each distribution has two more columns *)
Theorem C50_Kalbach_Mann_columns_refuted : let v := own (map dbl [2; 1; 10; 20; 30]) in
  inside v /\ states v 2 1 /\ size v = 2 + 3 * 1 /\ forall bm, exists o, tq_make bm (dbl 1) 1 v = Ok o /\ tp_column bm (snd o) 0 = UB.
Proof.
  cbv zeta. split; [apply own_inside; reflexivity|]. split; [stated|]. split; [reflexivity|].
  intros bm. eexists. split; [destruct bm; vm_compute; reflexivity|]. destruct bm; vm_compute; reflexivity.
Qed.
Print Assumptions C50_Kalbach_Mann_columns_refuted.

(** law 67: [n i] is the number of cosines for the i-th energy, [loc2 i j] the locator of the energies for the j-th of these,
    [cnt i j] their number; the locators of the second level are relative to the place of the first one. *)
Theorem C50_angle_energy_distributions v nr ne locb (loc n : Z -> Z) (loc2 cnt : Z -> Z -> Z) :
  inside v -> 0 <= nr < 2 ^ 29 -> 0 <= ne < 2 ^ 29 -> 1 <= locb < 2 ^ 31 ->
  states v 1 nr -> states v (2 + 2 * nr) ne -> (forall i, 1 <= i <= ne -> states v (2 + 2 * nr + ne + i) (loc i) /\ 0 <= loc i < 2 ^ 31) ->
  let start i := loc i - locb + 1 in
  let first i := part v ne start i in
  let start2 i j := loc2 i j - loc i + 1 in
  (forall i, 1 <= i <= ne -> states (first i) 2 (n i) /\ 0 <= n i < 2 ^ 29
     /\ forall j, 1 <= j <= n i -> states (first i) (2 + n i + j) (loc2 i j) /\ 0 <= loc2 i j < 2 ^ 31
          /\ states (part (first i) (n i) (start2 i) j) 2 (cnt i j) /\ 0 <= cnt i j < 2 ^ 30) ->
  let fits := dists_ok v (2 + 2 * nr + 2 * ne) ne start
    (fun i => dists_fit (first i) (2 + 2 * n i) (n i) (start2 i) (fun j => 2 + 3 * cnt i j)) in
  decides fits (fun bm => aed_make bm locb v)
    (fun bm o => dd_NB bm o = Ok nr /\ dd_N bm o = Ok ne /\ forall i, 1 <= i <= ne -> exists d, dd_datum bm o i = Ok d /\ di_N bm (snd d) = Ok (n i)
       /\ forall j, 1 <= j <= n i -> exists q, di_datum bm (snd d) j = Ok q /\ tp_numberValues bm (snd q) = Ok (cnt i j)
            /\ returns (tp_values bm (snd q)) (cnt i j) /\ returns (tp_pdf bm (snd q)) (cnt i j) /\ returns (tp_cdf bm (snd q)) (cnt i j)).
Proof.
  intros I Hr He Hb S1 S2 Hl start first start2 Hc fits. unfold aed_make.
  apply (dd_ok_decides (fun bm => ae_make bm) v nr ne locb loc
    (fun i => dists_fit (first i) (2 + 2 * n i) (n i) (start2 i) (fun j => 2 + 3 * cnt i j))
    (fun bm i d => di_N bm (snd d) = Ok (n i)
       /\ forall j, 1 <= j <= n i -> exists q, di_datum bm (snd d) j = Ok q /\ tp_numberValues bm (snd q) = Ok (cnt i j)
            /\ returns (tp_values bm (snd q)) (cnt i j) /\ returns (tp_pdf bm (snd q)) (cnt i j) /\ returns (tp_cdf bm (snd q)) (cnt i j))); auto.
  intros x i Hi Hs In. change (part v ne (fun i => loc i - locb + 1) i) with (first i) in *. destruct (Hc i Hi) as (Sn & Hn & Hj). destruct (Hl i Hi) as [_ Ri]. split.
  - apply dists_fit_dec.
  - destruct (di_ok_decides (fun bm => tq_make bm) (first i) (n i) (loc i) (loc2 i) (fun j => 2 + 3 * cnt i j <= size (part (first i) (n i) (start2 i) j))
      (fun bm j q => tp_numberValues bm (snd q) = Ok (cnt i j)
            /\ returns (tp_values bm (snd q)) (cnt i j) /\ returns (tp_pdf bm (snd q)) (cnt i j) /\ returns (tp_cdf bm (snd q)) (cnt i j))) as [A B]; auto.
    + lia.
    + intros j J. destruct (Hj j J) as (X & Y & _). auto.
    + intros y j J Js Jn. split; [lia|]. destruct (Hj j J) as (_ & _ & X & Y). fold (start2 i) in *. change (part (first i) (n i) (fun i0 => loc2 i i0 - loc i + 1) j) with (part (first i) (n i) (start2 i) j) in *.
      destruct (C50_tabulated_distribution _ (cnt i j) Jn X Y) as [G H]. unfold tq_make. split.
      * intros L bm. destruct (G L bm) as (d & E & Q). exists (y, d). rewrite E. split; [reflexivity|exact Q].
      * intros L. destruct (H ltac:(lia)) as [e E]. rewrite E. eexists. reflexivity.
    + unfold ae_make. split.
      * intros Q bm. destruct (A Q bm) as (o & E & H). exists (x, o). rewrite E. split; [reflexivity|exact H].
      * intros Q. destruct (B Q) as [e E]. rewrite E. eexists. reflexivity.
Qed.
Print Assumptions C50_angle_energy_distributions.

(** one fission multiplicity: a polynomial (1), a table (2); another kind is rejected *)
Theorem C50_fission_multiplicity v kind n nr ne : inside v -> 1 <= size v -> states v 1 kind -> 1 <= kind < 2 ^ 31 ->
  0 <= n < 2 ^ 30 -> 0 <= nr < 2 ^ 29 -> 0 <= ne < 2 ^ 29 ->
  (kind = 1 -> states v 2 n -> needs v (2 + n) (fun bm => nu_make bm v)
     (fun bm o => nu_total o = None /\ exists p, nu_prompt o = NuPoly p /\ pf_NC bm p = Ok n /\ returns (pf_C bm p) n))
  /\ (kind = 2 -> states v 2 nr -> states v (3 + 2 * nr) ne -> needs v (3 + 2 * nr + 2 * ne) (fun bm => nu_make bm v)
       (fun bm o => nu_total o = None /\ exists t, nu_prompt o = NuTab t /\ table_shows bm (pt_tab t) nr ne))
  /\ (2 < kind -> exists e, nu_make Debug v = Throw e).
Proof.
  intros I L S K Hn Hr He. assert (N := fun bm => nu_kind v kind bm I L S K). split; [|split].
  - intros -> S2. destruct (C50_polynomial_multiplicity v 1 n I S S2 ltac:(lia) Hn) as [A _]. destruct (A eq_refl) as [B C]. cbn [Z.eqb Pos.eqb] in N. split.
    + intros Q bm. destruct (B Q bm) as (o & E & H). eexists. rewrite N, E. split; [reflexivity|]. split; [reflexivity|]. exists o. auto.
    + intros Q. destruct (C Q) as [e E]. rewrite N, E. eexists. reflexivity.
  - intros -> S2 S3. destruct (C50_tables_behind_words v 1 nr ne I ltac:(lia) Hr He) as [B C]; [exact S2|exact S3|]. cbn [Z.eqb Pos.eqb] in N. unfold tf_make in N. split.
    + intros Q bm. destruct (B ltac:(lia) bm) as (o & E & _ & H). eexists. rewrite N, E. split; [reflexivity|]. split; [reflexivity|]. exists o. auto.
    + intros Q. destruct (C ltac:(lia)) as [e E]. rewrite N, E. eexists. reflexivity.
  - intros Q. rewrite N. destruct (Z.eqb_spec kind 1); [lia|]. destruct (Z.eqb_spec kind 2); [lia|]. eexists. reflexivity.
Qed.
Print Assumptions C50_fission_multiplicity.

(** law 61: the locators of the second level are not checked, not even in Debug *)
Theorem C50_energy_angle_locators_refuted : let v := own (map dbl [2; 1; 10; 20; 30; 100]) in
  inside v /\ ea_make Debug (dbl 1) 1 v = UB.
Proof. split; [apply own_inside; reflexivity|vm_compute; reflexivity]. Qed.
Print Assumptions C50_energy_angle_locators_refuted.

(** * The hypotheses are met *)

(** two energies: the first isotropic, the second with a table of one cosine *)
Definition an_words : list double := map dbl [2; 10; 20; 0; -6; 2; 1; 30; 40; 50].
Definition an_locs (i : Z) : Z := if i =? 2 then -6 else 0.
Example an_met : let v := own an_words in
  inside v /\ states v 1 2 /\ (forall i, 1 <= i <= 2 -> states v (1 + 2 + i) (an_locs i) /\ - 2 ^ 31 < an_locs i < 2 ^ 31)
  /\ (forall i, 1 <= i <= 2 -> an_locs i < 0 -> states (part v 2 (fun k => angular_start 1 (an_locs k)) i) 2 1)
  /\ angular_fits v 2 1 an_locs (fun _ => 1).
Proof.
  cbv zeta. split; [apply own_inside; reflexivity|]. split; [stated|]. split; [|split].
  - intros i Hi. assert (E : i = 1 \/ i = 2) by lia. destruct E as [-> | ->]; (split; [stated|vm_compute; split; [reflexivity|reflexivity]]).
  - intros i Hi N. assert (E : i = 1 \/ i = 2) by lia. destruct E as [-> | ->]; [discriminate N|stated].
  - split; [vm_compute; discriminate|]. intros i Hi N. assert (E : i = 1 \/ i = 2) by lia. destruct E as [-> | ->]; [contradiction N; reflexivity|]. vm_compute. repeat split; discriminate.
Qed.
(** without the last word it does not fit *)
Example an_short : ~ angular_fits (own (removelast an_words)) 2 1 an_locs (fun _ => 1).
Proof. intros [_ F]. destruct (F 2) as (_ & _ & H); [lia|discriminate|]. vm_compute in H. apply H. reflexivity. Qed.
(** law 67 with one energy, one cosine and one outgoing energy *)
Example ae_met : let v := own (map dbl [0; 1; 10; 5; 2; 1; 1; 9; 2; 1; 20; 30; 40]) in
  let start i := (5 - 1 + 1 : Z) in let first i := part v 1 start i in let start2 (i j : Z) := (9 - 5 + 1 : Z) in
  inside v /\ states v 1 0 /\ states v 2 1 /\ states v 4 5
  /\ states (first 1) 2 1 /\ states (first 1) 4 9 /\ states (part (first 1) 1 (start2 1) 1) 2 1
  /\ dists_ok v (2 + 2 * 0 + 2 * 1) 1 start (fun i => dists_fit (first i) (2 + 2 * 1) 1 (start2 i) (fun j => 2 + 3 * 1)).
Proof.
  cbv zeta. split; [apply own_inside; reflexivity|]. repeat (split; [stated|]). split; [vm_compute; discriminate|].
  intros i Hi. assert (i = 1) as -> by lia. split; [vm_compute; split; discriminate|]. split; [vm_compute; discriminate|]. split; [vm_compute; discriminate|].
  intros j Hj. assert (j = 1) as -> by lia. split; [vm_compute; split; discriminate|]. split; [vm_compute; discriminate|]. vm_compute; discriminate.
Qed.
Example nu_met : let v := own (map dbl [2; 0; 1; 10; 20]) in inside v /\ states v 1 2 /\ states v 2 0 /\ states v 3 1 /\ size v = 3 + 2 * 0 + 2 * 1.
Proof. split; [apply own_inside; reflexivity|]. repeat (split; [stated|]). reflexivity. Qed.
