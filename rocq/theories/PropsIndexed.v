(** Property theorems C42: objects read from any words have as many entries as they report, and every index is checked. *)
From Coq Require Import ZArith Bool List Lia Ascii.
From Coq Require Import ZifyBool ZifyNat.
From Verif Require Import PropsBlocks PropsContinuous PropsThermal PropsPhotoatomic PropsPhotonuclear PropsTables Indexed.
From Verif Require Import CutOff PropsCutOff.
Import ListNotations.
Open Scope Z_scope.

(** ** Thermal scattering: ITXE *)
Lemma it_out01_len nc v n : forall current r, it_out01 nc v n current = Ok r -> length (fst r) = n.
Proof.
  induction n as [|n IH]; intros current r H; cbn [it_out01] in H; [apply Ok_inj in H; subst r; reflexivity|]. cbv zeta in H. inv H. inv H. apply Ok_inj in H. subst r. cbn [fst length]. f_equal. exact (IH _ _ E0).
Qed.
Lemma it_out2_len nc v n next : forall current r, it_out2 nc v n next current = Ok r -> length (fst r) = n.
Proof.
  induction n as [|n IH]; intros current r H; cbn [it_out2] in H; [apply Ok_inj in H; subst r; reflexivity|]. cbv zeta in H. inv H. inv H. apply Ok_inj in H. subst r. cbn [fst length]. f_equal. exact (IH _ _ E0).
Qed.
(** each incident energy has as many entries as NIEB says *)
Definition rows_ok bm (o : itxe) (from : Z) (rows : list (list cosData)) : Prop :=
  forall k row, nth_error rows k = Some row -> it_NIEB bm o (from + Z.of_nat k) = Ok (len row).
Lemma it_count_ok z n : 0 <= z -> it_count z = Ok n -> Z.of_nat n = z.
Proof. intros Z0 H. unfold it_count in H. destruct (z <? 2 ^ 32); [|discriminate H]. apply Ok_inj in H. subst n. lia. Qed.
Lemma it_NIEB_nonneg bm o i z : (forall n, it_nieb o = Some n -> 0 <= n) -> it_NIEB bm o i = Ok z -> 0 <= z.
Proof.
  intros P H. unfold it_NIEB in H. destruct (it_nieb o) as [n|]; [apply Ok_inj in H; subst z; apply P; reflexivity|]. inv H. exact (proj1 (ixss_size_range _ _ _ _ H)).
Qed.
Lemma rows_cons bm o from row rows : it_NIEB bm o from = Ok (len row) -> rows_ok bm o (from + 1) rows -> rows_ok bm o from (row :: rows).
Proof.
  intros E R [|k] r H; cbn [nth_error] in H; [injection H as <-; rewrite Z.add_0_r; exact E|]. replace (from + Z.of_nat (S k)) with (from + 1 + Z.of_nat k) by lia. exact (R k r H).
Qed.
Lemma it_in01_rows bm o n : (forall k, it_nieb o = Some k -> 0 <= k) -> forall incident current rows, it_in01 bm o n incident current = Ok rows -> length rows = n /\ rows_ok bm o incident rows.
Proof.
  intros P. induction n as [|n IH]; intros incident current rows H; cbn [it_in01] in H; [apply Ok_inj in H; subst rows; split; [reflexivity|intros [|k] r F; discriminate F]|].
  inv H. inv E. inv H. inv H. apply Ok_inj in H. subst rows. destruct (IH _ _ _ E2) as [L R]. split; [cbn [length]; f_equal; exact L|]. apply rows_cons; [|exact R].
  pose proof (it_count_ok _ _ (it_NIEB_nonneg _ _ _ _ P E0) E) as C. rewrite E0. f_equal. unfold len. rewrite (it_out01_len _ _ _ _ _ E1). lia.
Qed.
Lemma it_in2_rows bm o n : (forall k, it_nieb o = Some k -> 0 <= k) -> forall incident current rows, it_in2 bm o n incident current = Ok rows -> length rows = n /\ rows_ok bm o incident rows.
Proof.
  intros P. induction n as [|n IH]; intros incident current rows H; cbn [it_in2] in H; [apply Ok_inj in H; subst rows; split; [reflexivity|intros [|k] r F; discriminate F]|].
  inv H. inv H. inv E0. inv H. inv H. inv H. apply Ok_inj in H. subst rows. destruct (IH _ _ _ E4) as [L R]. split; [cbn [length]; f_equal; exact L|]. apply rows_cons; [|exact R].
  pose proof (it_count_ok _ _ (it_NIEB_nonneg _ _ _ _ P E1) E0) as C. rewrite E1. f_equal. unfold len. rewrite (it_out2_len _ _ _ _ _ _ E3). lia.
Qed.
Lemma it_make_rows bm ifeng nieb nc ne locb v o : 0 <= nieb -> 0 <= ne -> it_make bm ifeng nieb nc ne locb v = Ok o ->
  it_ne o = ne /\ len (it_data o) = ne /\ rows_ok bm o 1 (it_data o).
Proof.
  intros P N H. unfold it_make in H. inv H. unfold it_generateBlocks in H. cbn [it_ne it_ifeng it_v it_nc it_nieb it_locb] in H. inv H. inv H. apply Ok_inj in H. subst o. cbn [it_ne it_data].
  set (o := Itxe _ _ _ _ _ _ []) in E1. assert (Q : forall k, it_nieb o = Some k -> 0 <= k) by (intros k; unfold o; cbn [it_nieb]; destruct (ifeng <? 2); [intros K; injection K as <-; exact P|discriminate]).
  assert (X : length a1 = a0 /\ rows_ok bm o 1 a1).
  { destruct (ifeng <? 2); [exact (it_in01_rows bm o a0 Q _ _ _ E1)|]. do 2 inv E1. exact (it_in2_rows bm o a0 Q _ _ _ E1). }
  destruct X as [L R]. split; [reflexivity|]. split; [unfold len; rewrite L; exact (it_count_ok _ _ N E0)|]. exact R.
Qed.
Theorem C42_thermal_cosines : forall bm ifeng nieb nc ne locb v o, 0 <= nieb -> 0 <= ne -> it_make bm ifeng nieb nc ne locb v = Ok o ->
  it_ne o = ne
  /\ (forall incident, 0 <= incident < 2 ^ 64 -> 1 <= incident <= ne -> exists n, it_NIEB bm o incident = Ok n /\ indexed bm 1 n (it_cosineData bm o incident))
  /\ (debug bm = true -> forall incident, 0 <= incident < 2 ^ 64 -> ~ 1 <= incident <= ne -> forall outgoing, it_cosineData bm o incident outgoing = Throw OutOfRange).
Proof.
  intros bm ifeng nieb nc ne locb v o P N H. destruct (it_make_rows _ _ _ _ _ _ _ _ P N H) as (E & L & R). split; [exact E|]. split.
  - intros i B Hi. destruct (nth_error (it_data o) (Z.to_nat (i - 1))) as [row|] eqn:Er; [|apply nth_error_None in Er; unfold len in L; lia].
    pose proof (R _ _ Er) as En. replace (1 + Z.of_nat (Z.to_nat (i - 1))) with i in En by lia. exists (len row). split; [exact En|].
    assert (G : forall j, 0 <= j < 2 ^ 64 -> 1 <= j <= len row -> exists x, (l <- it_at (it_data o) (u64 (i - 1)) ;; it_at l (u64 (j - 1))) = Ok x).
    { intros j Bj Hj. rewrite !u64_small by lia. unfold it_at, nth_or_UB. destruct (Z.ltb_spec (i - 1) 0); [lia|]. rewrite Er. cbn [bind]. destruct (Z.ltb_spec (j - 1) 0); [lia|].
      destruct (nth_error row (Z.to_nat (j - 1))) as [x|] eqn:Ex; [eauto|]. apply nth_error_None in Ex. unfold len in Hj. lia. }
    split.
    + intros j Bj Hj. unfold it_cosineData, it_verifyIndex. rewrite E, (verify_in 1 ne i Hi B), En. cbn [bind]. rewrite (verify_in 1 _ j Hj Bj). destruct (debug bm); cbn [bind]; exact (G j Bj Hj).
    + intros D j Bj Hj. unfold it_cosineData, it_verifyIndex. rewrite D, E, (verify_in 1 ne i Hi B), En. cbn [bind]. rewrite (verify_out 1 _ j Hj Bj). reflexivity.
  - intros D i B Hi j. unfold it_cosineData, it_verifyIndex. rewrite D, E, (verify_out 1 ne i Hi B). reflexivity.
Qed.
Print Assumptions C42_thermal_cosines.

(** ** Blocks with locators: SIG, SIGP, SIGH, dosimetry SIG, SWD, XPROB, whatever reads an entry ([gd]) *)
Theorem C42_blocks_with_locators : forall D bm (gd : Z -> view -> outcome D) v data n locator o, 0 <= n < 2 ^ 64 -> bl_make bm gd v data n locator = Ok o ->
  bl_n o = n /\ bl_v o = v /\ indexed bm 1 n (bl_datum bm o) /\ checked bm 1 n (bl_LLOC bm o).
Proof. intros D. exact (@bl_make_indexed D). Qed.
Print Assumptions C42_blocks_with_locators.

Theorem C42_angular_distribution : forall bm locb v o, an_make bm locb v = Ok o -> exists n, an_NE bm o = Ok n
  /\ indexed bm 1 n (an_datum bm o) /\ checked bm 1 n (an_incidentEnergy bm (an_values o)) /\ checked bm 1 n (an_LOCC bm (an_values o)).
Proof. exact an_make_indexed. Qed.
Print Assumptions C42_angular_distribution.

(** AND ([zero]: the elastic distribution has index 0), ANDP, ANDH *)
Theorem C42_angular_block : forall bm v data nr (zero : bool) o, 0 <= nr < 2 ^ 32 -> ab_make bm v data nr zero = Ok o ->
  let lo := if zero then 0 else 1 in
  ab_nr o = nr /\ indexed bm lo nr (ab_datum bm o) /\ checked bm lo nr (ab_LAND bm o) /\ checked bm lo nr (ab_isGiven bm o) /\ checked bm lo nr (ab_isFullyIsotropic bm o).
Proof. exact ab_make_indexed. Qed.
Print Assumptions C42_angular_block.

(** Laws 4, 44, 61, 67: the distributions at the incident energies, whatever reads one ([gd]) *)
Theorem C42_incident_energies : forall D bm (gd : double -> Z -> view -> outcome D) locb v o, dd_make bm gd locb v = Ok o -> exists n, dd_N bm o = Ok n
  /\ indexed bm 1 n (dd_datum bm o) /\ checked bm 1 n (dd_energy bm o) /\ checked bm 1 n (dd_locator bm o).
Proof. intros D. exact (@dd_make_indexed D). Qed.
Print Assumptions C42_incident_energies.
(** inside law 67 (cosines) and law 61 (outgoing energies) *)
Theorem C42_cosines : forall D bm (gd : double -> Z -> view -> outcome D) locb v o, di_make bm gd locb v = Ok o -> exists n, di_N bm o = Ok n
  /\ indexed bm 1 n (di_datum bm o) /\ (forall c, checked bm 1 n (di_value bm o c)) /\ checked bm 1 n (di_rel bm o).
Proof. intros D. exact (@di_make_indexed D). Qed.
Print Assumptions C42_cosines.
Theorem C42_outgoing_energies : forall bm value locb v x o, ea_make bm value locb v = Ok (x, o) -> x = value /\ exists n, di_N bm o = Ok n
  /\ indexed bm 1 n (di_datum bm o) /\ (forall c, checked bm 1 n (di_value bm o c)) /\ checked bm 1 n (di_rel bm o).
Proof. intros bm value locb v x o H. unfold ea_make in H. inv H. apply Ok_inj in H. apply pair_equal_spec in H as [<- <-]. split; [reflexivity|]. exact (ea_read_indexed _ _ _ _ E). Qed.
Print Assumptions C42_outgoing_energies.
(** Law 1; no vector of doubles has 2^62 elements *)
Theorem C42_equiprobable_bins : forall bm v o, len (buf v) < 2 ^ 62 -> SimpleLaws.eq_make bm v = Ok o -> exists n, eq_NE bm o = Ok n
  /\ indexed bm 1 n (eq_distribution bm o) /\ checked bm 1 n (eq_incidentEnergy bm o).
Proof. exact eq_make_indexed. Qed.
Print Assumptions C42_equiprobable_bins.
(** Several distributions; the probabilities if there is none with law 67 *)
Theorem C42_multiple_distributions : forall bm locb v m, mu_make bm locb v = Ok m -> let n := mu_numberDistributions m in
  indexed bm 1 n (mu_distribution bm m) /\ checked bm 1 n (mu_probability bm m)
  /\ (Forall (fun o => match o with OAngleEnergy _ => False | _ => True end) (mu_dists m) -> indexed bm 1 n (mu_probability bm m)).
Proof.
  intros bm locb v m H n. destruct (mu_make_indexed bm locb v m H) as (A & B & C). split; [exact A|]. split; [exact B|]. intros F. apply C.
  eapply Forall_impl; [|exact F]. intros o X. destruct o; try reflexivity. destruct X.
Qed.
Print Assumptions C42_multiple_distributions.

Theorem C42_frames : forall bm v n o, 0 <= n -> ty_make bm v n = Ok o -> ty_NTR o = n /\ indexed bm 1 n (ty_frame bm o) /\ indexed bm 1 n (ty_mult bm o).
Proof. intros bm v n o N H. destruct (ty_make_indexed bm v n o N H) as (A & _ & B). exact (conj A B). Qed.
Print Assumptions C42_frames.
(** DLW *)
Theorem C42_energy_distributions : forall bm v data t nr o, 0 <= nr -> dl_make bm v data t nr = Ok o ->
  dl_NR o = nr /\ indexed bm 1 nr (dl_distribution bm o) /\ indexed bm 1 nr (dl_multiplicity bm o) /\ indexed bm 1 nr (dl_frame bm o) /\ checked bm 1 nr (dl_LDLW bm o).
Proof. exact dl_make_indexed. Qed.
Print Assumptions C42_energy_distributions.
(** DLWP, DLWH, DNED *)
Theorem C42_secondary_energy_distributions : forall bm v data n t o, 0 <= n < 2 ^ 64 -> dh_make bm v data n t = Ok o ->
  dh_NR o = n /\ indexed bm 1 n (dh_distribution bm o) /\ indexed bm 1 n (dh_frame bm o) /\ checked bm 1 n (dh_LDLW bm o).
Proof. exact dh_make_indexed. Qed.
Print Assumptions C42_secondary_energy_distributions.
Theorem C42_precursor_groups : forall bm v n o, 0 <= n -> bd_make bm v n = Ok o -> bd_NPCR o = n /\ indexed bm 1 n (bd_precursorGroupData bm o).
Proof. exact bd_make_indexed. Qed.
Print Assumptions C42_precursor_groups.
Theorem C42_probability_tables : forall bm v o, un_make bm v = Ok o -> exists n, un_N bm (un_v o) = Ok n /\ un_v o = v /\ indexed bm 1 n (un_probabilityTable bm o).
Proof. intros bm v o H. destruct (un_make_indexed bm v o H) as (n & A & B & C). exists n. rewrite B. exact (conj A (conj eq_refl C)). Qed.
Print Assumptions C42_probability_tables.
(** ELAS, BREME, EION *)
Theorem C42_electron_blocks : forall bm v n o, 0 <= n < 2 ^ 32 -> eb_make bm v n = Ok o ->
  eb_N o = n /\ indexed bm 1 n (eb_datum bm o) /\ checked bm 1 n (eb_energy bm o) /\ checked bm 1 n (eb_length bm o) /\ checked bm 1 n (eb_LLOC bm o).
Proof. exact eb_make_indexed. Qed.
Print Assumptions C42_electron_blocks.
(** ESZE, SPHEL, for every object *)
Theorem C42_subshell_arrays : forall bm o, checked bm 1 (ez_NSSH o) (ez_electroionisation bm o) /\ checked bm 1 (sp_NSSH o) (sp_photoelectric bm o).
Proof. intros bm o. exact (conj (ez_checked bm o) (sp_checked bm o)). Qed.
Print Assumptions C42_subshell_arrays.

(** EION( index ) of a photoatomic table read from any data that has electron data (NEPR > 0) *)
Theorem C42_electroionisation_blocks : forall bm zaid d t k, pa_make bm zaid d = Ok t -> pa_NEPR bm d = Ok k -> 0 < k ->
  exists n, pa_NSSH bm (pt_data t) = Ok n /\ indexed bm 1 n (pa_EION bm t).
Proof.
  intros bm zaid d t k H K P. unfold pa_make in H. inv H. inv H. destruct a0 as [[[[b1 b2] b3] b4] b5]. inv H. inv H. apply Ok_inj in H. subst t. cbn [pt_data].
  unfold pa_electrons in E2. rewrite K in E2. cbn [bind] in E2. destruct (Z.ltb_spec 0 k) as [_|]; [|lia]. inv E2. rename a2 into n. exists n. split; [reflexivity|].
  assert (N : 0 <= n) by (unfold pa_NSSH, pa_N in E3; inv E3; apply Ok_inj in E3; subst n; apply Z.mod_pos_bound; lia).
  assert (L : exists e, a1 = Some e /\ len (pe_eion e) = n).
  { repeat match type of E2 with bind ?o _ = Ok _ => lazymatch o with mapM _ _ => fail | _ => inv E2 end end.
    destruct (mapM _ _) as [eion| |] eqn:EM; [|discriminate E2|discriminate E2]. cbn [bind] in E2.
    repeat inv E2. apply Ok_inj in E2. subst a1. eexists. split; [reflexivity|]. cbn [pe_eion]. exact (mapM_count _ _ _ _ N EM). }
  destruct L as (e & -> & L). apply (indexed_at bm n _ (pe_eion e) L). intros i. unfold pa_EION. cbn [pt_data pt_eion]. rewrite E3. reflexivity.
Qed.
Print Assumptions C42_electroionisation_blocks.

(** *** What does not check *)

(** A distribution with law 67 among several: two distributions are read for one probability, and the second
    probability is outside the vector although the index is accepted. *)
Definition ex_multi67 : list double :=
  map dbl [0; 67; 10; 0; 2; 1; 2; 1; 1;  0; 1; 1; 14;  2; 2; 1; 4; 20; 28; 32; 2; 0; 1; 0; 0; 0; 1; 1; 2; 0; 2; 0; 0; 0; 1].
Theorem C42_probability_refuted : exists m, mu_make Debug 1 (own ex_multi67) = Ok m /\ mu_numberDistributions m = 2 /\ mu_probability Debug m 2 = UB.
Proof. eexists. split; [vm_compute; reflexivity|]. split; vm_compute; reflexivity. Qed.
Print Assumptions C42_probability_refuted.

(** The accessors of the continuous energy and photonuclear tables that take the index of a secondary particle are
    documented to throw std::out_of_range in Debug; they do not check the index in either build mode. *)
Theorem C42_secondary_particles_refuted : forall (t : ceTable) (u : puTable) i, 0 <= i < 2 ^ 64 ->
  (len (ct_particles t) < 2 ^ 63 -> ~ 1 <= i <= len (ct_particles t) -> ce_at t i = UB) /\ (len (ut_particles u) < 2 ^ 63 -> ~ 1 <= i <= len (ut_particles u) -> pu_at u i = UB).
Proof.
  assert (X : forall A (l : list A) i, 0 <= i < 2 ^ 64 -> len l < 2 ^ 63 -> ~ 1 <= i <= len l -> at_ l i = UB).
  { intros A l i B L H. unfold at_. destruct (nth_error l _) eqn:E; [|reflexivity]. exfalso. assert (Z.to_nat (u64 (i - 1)) < length l)%nat by (apply nth_error_Some; congruence). unfold len in *.
    destruct (Z.eq_dec i 0) as [->|]; [change (u64 (0 - 1)) with (2 ^ 64 - 1) in *; lia|]. rewrite u64_small in * by lia. lia. }
  intros t u i B. split; intros L H; apply X; assumption.
Qed.
Print Assumptions C42_secondary_particles_refuted.

(** ** The hypotheses are met: each constructor accepts words with two entries; the second is given, index 3 (and 0) is refused *)
Definition last_and_beyond {O A} (o : outcome O) (get : O -> Z -> outcome A) : Prop :=
  exists obj x, o = Ok obj /\ get obj 2 = Ok x /\ get obj 3 = Throw OutOfRange.
Example C42_example_locators :
  last_and_beyond (bl_make Debug (sig_generateData Debug) (own (map dbl [1; 5; 1; 2; 5; 6; 2; 1; 7])) 2 2 true) (bl_datum Debug).
Proof. do 2 eexists. conc. Qed.
Example C42_example_angular :
  last_and_beyond (an_make Debug 1 (own (map dbl [2; 1; 3; 0; 0]))) (an_datum Debug)
  /\ last_and_beyond (ab_make Debug (own (map dbl [0; 1; 0; 1; 1; 0])) 3 2 true) (ab_datum Debug).
Proof. split; do 2 eexists; conc. Qed.
Example C42_example_distributions : let d e := TQ e 2 0 [dbl 1; dbl 2] [dbl 3; dbl 3] [dbl 0; dbl 1] [] in
  last_and_beyond (l <- og_generateXSS [] [] 1 [d (dbl 1); d (dbl 20)] ;; og_make Debug 1 (own l)) (dd_datum Debug)
  /\ last_and_beyond (SimpleLaws.eq_make Debug (own (map dbl [0; 2; 1; 2; 2; 3; 4; 5; 6]))) (eq_distribution Debug).
Proof. split; do 2 eexists; conc. Qed.
Example C42_example_frames : last_and_beyond (ty_make Debug (own (map dbl [-1; 19])) 2) (ty_frame Debug).
Proof. do 2 eexists; conc. Qed.
Example C42_example_energies :
  last_and_beyond (dlw_of Debug [ISingle ex_level; ISingle ex_level] [MNum 2; MNum 1] [CentreOfMass; Laboratory]) (dl_distribution Debug).
Proof. do 2 eexists; conc. Qed.
Example C42_example_precursors : last_and_beyond (ls <- mapM bi_words [C20_g1; C20_g2] ;; bd_make Debug (own (concat ls)) 2) (bd_precursorGroupData Debug).
Proof. do 2 eexists; conc. Qed.
Example C42_example_probability_tables : last_and_beyond (ts <- mapM tb_of_in [C19_t 1 2; C19_t 20 2] ;; o <- un_of Debug 2 (-1) (-1) 0 ts ;; un_make Debug (un_v o)) (un_probabilityTable Debug).
Proof. do 2 eexists; conc. Qed.
Example C42_example_electrons :
  last_and_beyond (ts <- mapM (fun i => ed_of (ei_e i) (ei_x i) (ei_c i)) [EbIn (dbl 5) [dbl 1; dbl 2] [dbl 3; dbl 4]; EbIn (dbl 6) [dbl 7] [dbl 8]] ;; o <- eb_of Debug ts ;; eb_make Debug (eb_v o) 2) (eb_datum Debug).
Proof. do 2 eexists; conc. Qed.
Example C42_example_thermal : last_and_beyond (it_built Debug 1 1 ex_cs0) (fun o => it_cosineData Debug o 2).
Proof. do 2 eexists; conc. Qed.
