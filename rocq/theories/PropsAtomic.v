(** Property theorems C10 and C36-C40: electron locator blocks and the blocks of the photoatomic,
    photonuclear and dosimetry tables.

    Shape of the statements: for supplied values [x], the constructor from values gives an object
    whose words are the ACE layout and whose accessors return [x], and the constructor from
    iterators on any view starting with (or, where said, showing exactly) these words gives an
    object with the same accessors. *)
From Coq Require Import ZArith Bool List Lia.
From Coq Require Import ZifyBool ZifyNat.
From Verif Require Export PropsBlocks ElectronBlocks AtomicBlocks.
Import ListNotations.
Open Scope Z_scope.

(** ** C10 *)

(** [is] lists the tables: incident energy, x values and cdf.  [eb_layout], [eb_shows] and
    [ei_shows] in ElectronBlocks.v are the layout and the observations. *)
Theorem C10_electron_block_built : forall bm is, Forall ei_valid is -> len (eb_layout is) < max_words ->
  exists tables o, mapM (fun i => ed_of (ei_e i) (ei_x i) (ei_c i)) is = Ok tables
    /\ eb_of bm tables = Ok o /\ content (eb_v o) (eb_layout is) /\ eb_shows bm o is.
Proof.
  intros bm is V B.
  assert (W : Forall (fun i => 2 * len (ei_x i) < max_words) is).
  { pose proof (len_eb_layout is) as L. rewrite L in B. unfold max_words in *. clear L. pose proof (len_nonneg is).
    assert (P : len (concat (map ei_words is)) < 2 ^ 31) by lia. clear B. revert P. induction V as [|i r Hi _ IH]; intros P; constructor.
    - cbn [map concat] in P. unfold ei_words in P at 1. rewrite !len_app in P. unfold ei_valid in Hi. pose proof (len_nonneg (concat (map ei_words r))). lia.
    - apply IH; [apply len_nonneg|]. cbn [map concat] in P. rewrite len_app in P. pose proof (len_nonneg (ei_words i)). lia. }
  assert (T : exists tables, mapM (fun i => ed_of (ei_e i) (ei_x i) (ei_c i)) is = Ok tables /\ Forall2 ei_holds tables is).
  { clear B. induction V as [|i r Hi _ IH]; [exists []; split; [reflexivity|constructor]|]. inversion W; subst.
    destruct IH as (ts & E & F); [assumption|]. destruct (ed_of_ok bm i Hi) as (d & Ed & Hd & _); [assumption|].
    exists (d :: ts). cbn [mapM]. rewrite Ed. cbn [bind]. rewrite E. split; [reflexivity|constructor; assumption]. }
  destruct T as (ts & E & F). destruct (eb_of_ok bm ts is F V B) as (o & M & C & S). exists ts, o. auto.
Qed.
Print Assumptions C10_electron_block_built.

Theorem C10_electron_block_read : forall bm v is, Forall ei_valid is -> has v (eb_layout is) ->
  exists o, eb_make bm v (len is) = Ok o /\ eb_v o = v /\ eb_shows bm o is.
Proof. exact eb_has. Qed.
Print Assumptions C10_electron_block_read.

Theorem C10_table_sizes : forall e x c, len c <> len x -> ed_of e x c = Throw StdException.
Proof. exact ed_of_ragged. Qed.
Print Assumptions C10_table_sizes.

(** The lengths() of the common base class (not re-exported by the public classes) returns the
    energies, rounded. *)
Theorem C10_lengths_refuted : exists is o,
  Forall ei_valid is /\ eb_make Debug (own (eb_layout is)) (len is) = Ok o
  /\ eb_lengths Debug o = Ok [5] /\ map (fun i => len (ei_x i)) is = [2].
Proof.
  exists [EbIn (dbl 5) [dbl 1; dbl 2] [dbl 3; dbl 4]]. eexists. split; [repeat constructor|]. split; [vm_compute; reflexivity|].
  split; vm_compute; reflexivity.
Qed.
Print Assumptions C10_lengths_refuted.

Example C10_example : let is := [EbIn (dbl 5) [dbl 1; dbl 2] [dbl 3; dbl 4]; EbIn (dbl 6) [dbl 7] [dbl 8]] in
  exists ts o d, mapM (fun i => ed_of (ei_e i) (ei_x i) (ei_c i)) is = Ok ts
  /\ eb_of Debug ts = Ok o /\ eb_energies Debug o = Ok [dbl 5; dbl 6] /\ eb_length Debug o 1 = Ok 2
  /\ eb_LLOC Debug o 2 = Ok 5 /\ eb_datum Debug o 2 = Ok d /\ ed_cdf Debug d = Ok [dbl 8]
  /\ eb_energy Debug o 3 = Throw OutOfRange.
Proof. cbn zeta. do 3 eexists. conc. Qed.

(** ** C36 photoatomic blocks *)

(** ESZG *)
Theorem C36_principal_cross_sections : forall bm en inc coh pe pp,
  len inc = len en -> len coh = len en -> len pe = len en -> len pp = len en ->
  let l := en ++ inc ++ coh ++ pe ++ pp in
  (len l < max_words -> exists o, eg_of en inc coh pe pp = Ok o /\ content (ad_v o) l /\ eg_shows bm o en inc coh pe pp)
  /\ (forall v, has v l -> exists o, eg_make v (len en) = Ok o /\ ad_v o = v /\ eg_shows bm o en inc coh pe pp).
Proof.
  intros bm en inc coh pe pp H1 H2 H3 H4 l. assert (El : concat [en; inc; coh; pe; pp] = l) by (cbn [concat]; subst l; las).
  rewrite <- El. apply eg_block. repeat constructor; assumption.
Qed.
Print Assumptions C36_principal_cross_sections.

(** JFLO *)
Theorem C36_fluorescence : forall bm e phi y f, len phi = len e -> len y = len e -> len f = len e ->
  let l := e ++ phi ++ y ++ f in
  (len l < max_words -> exists o, jf_of e phi y f = Ok o /\ content (ad_v o) l /\ jf_shows bm o e phi y f)
  /\ (forall v, has v l -> exists o, jf_make v (len e) = Ok o /\ ad_v o = v /\ jf_shows bm o e phi y f).
Proof.
  intros bm e phi y f H1 H2 H3 l. assert (El : concat [e; phi; y; f] = l) by (cbn [concat]; subst l; las).
  rewrite <- El. apply jf_block. repeat constructor; assumption.
Qed.
Print Assumptions C36_fluorescence.

(** LHNM (heating numbers): a single array, the code of LQR. *)
Theorem C36_heating : forall bm h,
  (len h < max_words -> exists o, lq_of h = Ok o /\ content (ad_v o) h /\ lq_shows bm o h)
  /\ (forall v, has v h -> exists o, lq_make v (len h) = Ok o /\ ad_v o = v /\ lq_shows bm o h).
Proof. intros bm h. split; [apply lq_of_ok|intros v; apply lq_has]. Qed.
Print Assumptions C36_heating.

(** JINC: with the 21 standard momentum values, or with explicit ones. *)
Theorem C36_incoherent_scattering_function : forall bm momentum values,
  (len values = 21 ->
     (exists o, ji_of_values values = Ok o /\ content (ad_v (ji_a o)) values /\ ji_shows bm o ji_standard values)
     /\ (forall v, content v values -> exists o, ji_make v = Ok o /\ ad_v (ji_a o) = v /\ ji_shows bm o ji_standard values))
  /\ (len values = len momentum ->
     (2 * len values < max_words -> exists o, ji_of momentum values = Ok o /\ content (ad_v (ji_a o)) (momentum ++ values) /\ ji_shows bm o momentum values)
     /\ (forall v, content v (momentum ++ values) -> exists o, ji_make v = Ok o /\ ad_v (ji_a o) = v /\ ji_shows bm o momentum values)).
Proof. intros bm m values. split; [apply ji_values_block|apply ji_block]. Qed.
Print Assumptions C36_incoherent_scattering_function.

(** JCOH: with the 55 standard momentum values, or with explicit ones. *)
Theorem C36_coherent_form_factor : forall bm momentum integrated factors,
  (len integrated = 55 -> len factors = 55 ->
     (exists o, jc_of2 integrated factors = Ok o /\ content (ad_v (ji_a o)) (integrated ++ factors) /\ jc_shows bm o jc_standard integrated factors)
     /\ (forall v, content v (integrated ++ factors) -> exists o, jc_make v = Ok o /\ ad_v (ji_a o) = v /\ jc_shows bm o jc_standard integrated factors))
  /\ (len integrated = len momentum -> len factors = len momentum ->
     (3 * len momentum < max_words -> exists o, jc_of momentum integrated factors = Ok o
        /\ content (ad_v (ji_a o)) (momentum ++ integrated ++ factors) /\ jc_shows bm o momentum integrated factors)
     /\ (forall v, content v (momentum ++ integrated ++ factors) -> exists o, jc_make v = Ok o /\ ad_v (ji_a o) = v /\ jc_shows bm o momentum integrated factors)).
Proof. intros bm m i f. split; [apply jc_block2|apply jc_block]. Qed.
Print Assumptions C36_coherent_form_factor.

(** What the form factor constructors reject: every wrong size. *)
Theorem C36_form_factor_sizes :
  (forall values, len values <> 21 -> ji_of_values values = Throw StdException)
  /\ (forall momentum values, len values <> len momentum -> ji_of momentum values = Throw StdException)
  /\ (forall v l, content v l -> len l <> 21 -> ~ (2 | len l) -> ji_make v = Throw StdException)
  /\ (forall integrated factors, len integrated <> 55 \/ len factors <> 55 -> jc_of2 integrated factors = Throw StdException)
  /\ (forall momentum integrated factors, len integrated <> len momentum \/ len factors <> len momentum ->
        jc_of momentum integrated factors = Throw StdException)
  /\ (forall v l, content v l -> len l <> 110 -> ~ (3 | len l) -> jc_make v = Throw StdException).
Proof. destruct ji_rejects as (A & B & C). destruct jc_rejects as (D & E & F). auto 6. Qed.
Print Assumptions C36_form_factor_sizes.

(** EPS *)
Theorem C36_electron_shells : forall bm electrons energies probabilities, mt_valid electrons ->
  len energies = len electrons -> len probabilities = len electrons ->
  let l := map dbl electrons ++ energies ++ probabilities in
  (len l < max_words -> exists o, ep_of electrons energies probabilities = Ok o /\ content (ad_v o) l /\ ep_shows bm o electrons energies probabilities)
  /\ (forall v, has v l -> exists o, ep_make v (len electrons) = Ok o /\ ad_v o = v /\ ep_shows bm o electrons energies probabilities).
Proof.
  intros bm el en pr Hm H1 H2 l. assert (El : concat [map dbl el; en; pr] = l) by (cbn [concat]; subst l; las).
  rewrite <- El. apply ep_block; [exact Hm|]. repeat constructor; rewrite ?len_map; auto.
Qed.
Print Assumptions C36_electron_shells.

(** SWD: Compton profiles (momentum, pdf, cdf). *)
Theorem C36_compton_profiles : forall bm v (ps : list (Z * list double * list double * list double)) cs l,
  Forall (fun p => let '(i, _, _, _) := p in - 2 ^ 31 <= i < 2 ^ 31) ps ->
  mapM (fun p => let '(i, x, pdf, cdf) := p in tp_generateXSS i x pdf cdf []) ps = Ok cs ->
  bl_generateXSS true cs = Ok l -> has v l ->
  exists o, bl_make bm (swd_gd bm) v (vbeg v + len ps) (len ps) true = Ok o /\ bl_v o = v /\ bl_n o = len ps
    /\ forall k i x pdf cdf, nth_error ps k = Some (i, x, pdf, cdf) ->
         exists d, bl_datum bm o (Z.of_nat k + 1) = Ok d /\ tp_shows bm d i x pdf cdf [].
Proof.
  intros bm v ps cs l R G Gl Hv.
  assert (F : Forall2 (fun p c => let '(i, x, pdf, cdf) := p in tp_generateXSS i x pdf cdf [] = Ok c) ps cs).
  { clear R Gl. revert cs G. induction ps as [|p ps IH]; intros cs G; [apply Ok_inj in G; subst; constructor|]. cbn [mapM] in G.
    destruct p as [[[i x] pdf] cdf]. destruct (tp_generateXSS i x pdf cdf []) eqn:E; try discriminate. cbn [bind] in G.
    destruct (mapM _ ps) eqn:E'; try discriminate. cbn [bind] in G. apply Ok_inj in G. subst cs. constructor; [exact E|apply IH; reflexivity]. }
  assert (L : len cs = len ps) by (unfold len; rewrite (Forall2_len _ _ _ F); reflexivity).
  destruct (bl_round_trip bm (swd_gd bm) true cs
    (fun c d => forall i x pdf cdf, - 2 ^ 31 <= i < 2 ^ 31 -> tp_generateXSS i x pdf cdf [] = Ok c -> tp_shows bm d i x pdf cdf []) v l) as (o & M & V & N & D & _).
  - intros loc w c Hc Hw. assert (exists i x pdf cdf, tp_generateXSS i x pdf cdf [] = Ok c /\ - 2 ^ 31 <= i < 2 ^ 31) as (i & x & pdf & cdf & E & Ri).
    { clear - F Hc R. induction F as [|[[[i x] pdf] cdf] c0 ps cs E _ IH]; [contradiction|]. inversion R; subst. destruct Hc as [->|Hc]; [eauto 8|auto]. }
    pose proof (tp_generateXSS_inv _ _ _ _ _ _ E) as [A ->]. exists w. split.
    + apply (proj1 (tp_has bm w i x pdf cdf [] A Ri Hw)).
    + intros i' x' pdf' cdf' Ri' E'. pose proof (tp_generateXSS_inv _ _ _ _ _ _ E') as [A' El].
      apply (tp_has bm w i' x' pdf' cdf' [] A' Ri'). rewrite <- El. exact Hw.
  - exact Gl.
  - exact Hv.
  - rewrite L in M, N. exists o. split; [exact M|]. split; [exact V|]. split; [exact N|]. intros k i x pdf cdf Hk.
    assert (exists c, nth_error cs k = Some c /\ tp_generateXSS i x pdf cdf [] = Ok c) as (c & Hc & E).
    { clear - F Hk. revert k Hk. induction F as [|[[[i' x'] pdf'] cdf'] c0 ps cs E _ IH]; intros [|k] Hk; try discriminate.
      - cbn in Hk. injection Hk as <- <- <- <-. exists c0. auto.
      - apply IH. exact Hk. }
    destruct (D k c Hc) as (d & Ed & Sd). exists d. split; [exact Ed|]. apply Sd; [|exact E].
    rewrite Forall_forall in R. apply nth_error_In in Hk. exact (R _ Hk).
Qed.
Print Assumptions C36_compton_profiles.

(** SPHEL: the cross sections of each subshell. *)
Theorem C36_subshell_cross_sections : forall bm nes xs, Forall (fun x => len x = nes) xs -> xs <> [] -> len xs < 2 ^ 31 ->
  (len (concat xs) < max_words -> exists o, sp_of xs = Ok o /\ content (ad_v o) (concat xs) /\ sp_shows bm o nes xs)
  /\ (forall v, has v (concat xs) -> exists o, sp_make v (len xs) nes = Ok o /\ ad_v o = v /\ sp_shows bm o nes xs).
Proof. exact sp_block. Qed.
Print Assumptions C36_subshell_cross_sections.

Example C36_example : exists o1 o2 o3 o4, eg_of [dbl 1] [dbl 2] [dbl 3] [dbl 4] [dbl 5] = Ok o1 /\ eg_photoelectric Debug o1 = Ok [dbl 4]
  /\ ji_of [dbl 1; dbl 2] [dbl 3; dbl 4] = Ok o2 /\ ji_values Debug o2 = Ok [dbl 3; dbl 4]
  /\ ep_of [2; 4] [dbl 10; dbl 20] [dbl 0; dbl 1] = Ok o3 /\ ep_numberElectronsPerShell Debug o3 2 = Ok 4
  /\ sp_of [[dbl 1; dbl 2]; [dbl 3; dbl 4]] = Ok o4 /\ sp_photoelectric Debug o4 2 = Ok [dbl 3; dbl 4]
  /\ sp_photoelectric Debug o4 3 = Throw OutOfRange.
Proof. do 4 eexists. conc. Qed.
Example C36_compton_example : exists cs l o d,
  mapM (fun p => let '(i, x, pdf, cdf) := p in tp_generateXSS i x pdf cdf []) [(2, [dbl 0; dbl 1], [dbl 3; dbl 4], [dbl 0; dbl 1]); (1, [dbl 7], [dbl 8], [dbl 9])] = Ok cs
  /\ bl_generateXSS true cs = Ok l /\ bl_make Debug (swd_gd Debug) (own l) 2 2 true = Ok o
  /\ bl_datum Debug o 2 = Ok d /\ tp_pdf Debug d = Ok [dbl 8].
Proof. do 4 eexists. conc. Qed.

(** ** C37 electron blocks *)

(** BREML, SELAS, EXCIT *)
Theorem C37_two_column_blocks : forall bm a b, len b = len a -> let l := a ++ b in
  (len l < max_words -> exists o, two_of a b = Ok o /\ content (ad_v o) l /\ two_shows bm o a b)
  /\ (forall v, has v l -> exists o, two_make v (len a) = Ok o /\ ad_v o = v /\ two_shows bm o a b).
Proof.
  intros bm a b H l. assert (El : concat [a; b] = l) by (cbn [concat]; subst l; las). rewrite <- El. apply two_block. repeat constructor; assumption.
Qed.
Print Assumptions C37_two_column_blocks.

(** SUBSH *)
Theorem C37_subshells : forall bm ids population binding vacancy transitions, mt_valid ids -> mt_valid transitions ->
  len population = len ids -> len binding = len ids -> len vacancy = len ids -> len transitions = len ids ->
  let l := map dbl ids ++ population ++ binding ++ vacancy ++ map dbl transitions in
  (len l < max_words -> exists o, ss_of ids population binding vacancy transitions = Ok o /\ content (ad_v o) l
     /\ ss_shows bm o ids population binding vacancy transitions)
  /\ (forall v, has v l -> exists o, ss_make v (len ids) = Ok o /\ ad_v o = v /\ ss_shows bm o ids population binding vacancy transitions).
Proof.
  intros bm ids pop be cv nt H1 H2 L1 L2 L3 L4 l.
  assert (El : concat (ss_arrays ids pop be cv nt) = l) by (unfold ss_arrays; cbn [concat]; subst l; las).
  rewrite <- El. apply ss_block; try assumption. unfold ss_arrays. repeat constructor; rewrite ?len_map; auto.
Qed.
Print Assumptions C37_subshells.

(** ESZE: the total and total electro-ionisation cross sections are computed by the constructor,
    element by element: total = ionisation + (excitation + (bremsstrahlung + elastic)) and
    ionisation = sum over the subshells, in double precision. *)
Theorem C37_electron_cross_sections : forall bm energies elastic brems excitation ion0 ions,
  (forall a, In a (elastic :: brems :: excitation :: ion0 :: ions) -> len a = len energies) ->
  (6 + len (ion0 :: ions)) * len energies < max_words -> 6 + len (ion0 :: ions) < 2 ^ 31 ->
  exists o total ionisation, ez_of energies elastic brems excitation (ion0 :: ions) = Ok o
    /\ content (ad_v o) (concat (energies :: total :: elastic :: brems :: excitation :: ionisation :: ion0 :: ions))
    /\ ez_sums total elastic brems excitation ionisation (ion0 :: ions)
    /\ ez_shows bm o energies total elastic brems excitation ionisation (ion0 :: ions).
Proof. intros bm energies el br ex i0 is H B1 B2. apply ez_of_ok; try assumption. apply Forall_forall. exact H. Qed.
Print Assumptions C37_electron_cross_sections.

Theorem C37_electron_cross_sections_read : forall bm v energies total elastic brems excitation ionisation ions,
  let arrays := energies :: total :: elastic :: brems :: excitation :: ionisation :: ions in
  (forall a, In a arrays -> len a = len energies) -> 6 + len ions < 2 ^ 31 -> has v (concat arrays) ->
  exists o, ez_make v (len ions) (len energies) = Ok o /\ ad_v o = v
    /\ ez_shows bm o energies total elastic brems excitation ionisation ions.
Proof. intros bm v e t el br ex io is arrays H B Hv. apply ez_make_has; try assumption. apply Forall_forall. exact H. Qed.
Print Assumptions C37_electron_cross_sections_read.

Theorem C37_electron_cross_sections_sizes : forall energies elastic brems excitation ions,
  ions = [] \/ (exists a, In a (elastic :: brems :: excitation :: ions) /\ len a <> len energies) ->
  ez_of energies elastic brems excitation ions = Throw StdException.
Proof.
  intros e el br ex ions H. apply ez_of_rejects. destruct H as [H|(a & Ha & N)]; [left; exact H|right].
  intros A. unfold all_len in A. rewrite Forall_forall in A. exact (N (A _ Ha)).
Qed.
Print Assumptions C37_electron_cross_sections_sizes.

Example C37_example : exists o, ez_of [dbl 1; dbl 2] [dbl 10; dbl 20] [dbl 1; dbl 1] [dbl 2; dbl 3] [[dbl 5; dbl 5]; [dbl 6; dbl 7]] = Ok o
  /\ ez_total Debug o = Ok [dbl 24; dbl 36] /\ ez_totalElectroionisation Debug o = Ok [dbl 11; dbl 12]
  /\ ez_electroionisation Debug o 2 = Ok [dbl 6; dbl 7] /\ ez_NSSH o = 2.
Proof. eexists. conc. Qed.

(** ** C38 relaxation data *)

Theorem C38_transition_data : forall bm ts, Forall tr_valid ts ->
  (4 * len ts < max_words -> exists o, tr_of (map ti_primary ts) (map ti_secondary ts) (map ti_energy ts) (map ti_probability ts) = Ok o
     /\ content (ad_v o) (tr_words ts) /\ tr_shows bm o ts)
  /\ (forall v, content v (tr_words ts) -> exists o, tr_make v = Ok o /\ ad_v o = v /\ tr_shows bm o ts).
Proof. intros bm ts H. split; [apply tr_of_ok; exact H|intros v; apply tr_make_content; exact H]. Qed.
Print Assumptions C38_transition_data.

Theorem C38_transition_sizes :
  (forall p s e q, len s <> len p \/ len e <> len p \/ len q <> len p -> tr_of p s e q = Throw StdException)
  /\ (forall v l, content v l -> ~ (4 | len l) -> tr_make v = Throw StdException).
Proof. exact (conj tr_of_rejects tr_make_rejects). Qed.
Print Assumptions C38_transition_sizes.

(** XPROB: the transitions of each subshell; the numbers of transitions come out of the locators. *)
Theorem C38_transition_block : forall bm v (tss : list (list tr_in)) l, Forall (Forall tr_valid) tss ->
  bl_generateXSS false (map tr_words tss) = Ok l -> content v l ->
  exists o, bl_make bm xp_gd v (vbeg v + len tss) (len tss) false = Ok o /\ bl_v o = v /\ bl_n o = len tss
    /\ forall k ts, nth_error tss k = Some ts -> exists d, bl_datum bm o (Z.of_nat k + 1) = Ok d /\ tr_shows bm d ts.
Proof.
  intros bm v tss l Hv G C.
  destruct (bl_round_trip_exact bm xp_gd false (map tr_words tss)
    (fun c d => forall ts, Forall tr_valid ts -> tr_words ts = c -> tr_shows bm d ts) v l) as (o & M & V & N & D).
  - intros loc w c Hc Cw. apply in_map_iff in Hc as (ts & <- & Hts). rewrite Forall_forall in Hv. pose proof (Hv _ Hts) as Vt.
    destruct (tr_make_content bm w ts Vt Cw) as (d & Ed & _ & Sd). exists d. split; [exact Ed|]. intros ts' V' E.
    rewrite <- E in Cw. destruct (tr_make_content bm w ts' V' Cw) as (d' & Ed' & _ & Sd'). congruence.
  - exact G.
  - exact C.
  - rewrite len_map in M, N. exists o. split; [exact M|]. split; [exact V|]. split; [exact N|]. intros k ts Hk.
    destruct (D k (tr_words ts) (map_nth_error _ _ _ Hk)) as (d & Ed & Sd). exists d. split; [exact Ed|]. apply Sd; [|reflexivity].
    rewrite Forall_forall in Hv. apply Hv. exact (nth_error_In _ _ Hk).
Qed.
Print Assumptions C38_transition_block.

Example C38_example : exists l o d, bl_generateXSS false (map tr_words [[TrIn 3 0 (dbl 50) (dbl 1)]; []; [TrIn 5 6 (dbl 7) (dbl 8); TrIn 9 0 (dbl 11) (dbl 12)]]) = Ok l
  /\ bl_make Debug xp_gd (own l) 3 3 false = Ok o /\ bl_datum Debug o 3 = Ok d /\ tr_NT d = 2
  /\ tr_isRadiative Debug d 2 = Ok true /\ tr_primaryDesignator Debug d 1 = Ok 5.
Proof. do 3 eexists. conc. Qed.

(** ** C39 photonuclear and dosimetry blocks *)

(** ESZU: with or without elastic cross section. *)
Theorem C39_photonuclear_cross_sections : forall bm energies total elastic heating,
  (forall a, In a (eu_arrays energies total elastic heating) -> len a = len energies) ->
  let l := concat (eu_arrays energies total elastic heating) in
  (len l < max_words -> exists o, eu_of energies total elastic heating = Ok o /\ content (ad_v o) l /\ eu_shows bm o energies total elastic heating)
  /\ (forall v, has v l -> exists o, eu_make v (len energies) (match elastic with Some _ => 4 | None => 3 end) = Ok o /\ ad_v o = v
        /\ eu_shows bm o energies total elastic heating).
Proof.
  intros bm en tot el heat H l.
  assert (A : all_len (len en) (eu_arrays en tot el heat)) by (apply Forall_forall; exact H).
  destruct (eu_block bm en tot el heat A) as [P Q]. fold l in P, Q. split; [exact P|]. intros v Hv.
  replace (match el with Some _ => 4 | None => 3 end) with (len (eu_arrays en tot el heat)) by (destruct el; reflexivity). apply Q. exact Hv.
Qed.
Print Assumptions C39_photonuclear_cross_sections.

(** IXSU: particle type, number of reactions and ten locators for each secondary particle. *)
Theorem C39_secondary_particle_locators : forall bm types numbers locators,
  len types = len locators -> len numbers = len locators -> mt_valid types -> mt_valid numbers ->
  Forall (fun r => len r = 10 /\ mt_valid r) locators -> 12 * len locators < max_words ->
  let rows := iu_zip types numbers locators in
  (exists o, iu_of types numbers locators = Ok o /\ content (nt_v o) (iu_words rows) /\ iu_shows bm o rows)
  /\ (forall v, has v (iu_words rows) -> exists o, iu_make v (len locators) = Ok o /\ nt_v o = v /\ iu_shows bm o rows).
Proof.
  intros bm types numbers locators L1 L2 V1 V2 VL B rows.
  assert (R : iu_rows_valid rows /\ len rows = len locators).
  { clear B. subst rows. revert numbers locators L1 L2 V1 V2 VL. induction types as [|t ts IH]; intros [|n ns] [|r rs] L1 L2 V1 V2 VL;
      rewrite ?len_cons, ?len_nil in *; nonneg; try lia; [split; [constructor|reflexivity]|].
    inversion V1; subst. inversion V2; subst. inversion VL as [|? ? [Lr Vr] VL']; subst.
    destruct (IH ns rs) as [A C]; try assumption; try lia. cbn [iu_zip]. split; [|rewrite !len_cons; lia].
    constructor; [|exact A]. split; [rewrite !len_cons; lia|]. constructor; [assumption|constructor; assumption]. }
  destruct R as [R E]. split; [apply iu_of_ok; assumption|]. intros v Hv. rewrite <- E. apply iu_has; assumption.
Qed.
Print Assumptions C39_secondary_particle_locators.

Theorem C39_secondary_particle_sizes : forall types numbers locators,
  len types <> len locators \/ len numbers <> len locators -> iu_of types numbers locators = Throw StdException.
Proof. exact iu_of_rejects. Qed.
Print Assumptions C39_secondary_particle_sizes.

(** SIGD: tabulated cross sections, with their own interpolation. *)
Theorem C39_dosimetry_cross_sections : forall bm v (ts : list (list Z * list Z * list double * list double)) cs l,
  mapM (fun t => let '(nbt, int, x, y) := t in td_generateXSS nbt int x y) ts = Ok cs ->
  bl_generateXSS true cs = Ok l -> has v l ->
  exists o, bl_make bm (sigd_gd bm) v (vbeg v + len ts) (len ts) true = Ok o /\ bl_v o = v /\ bl_n o = len ts
    /\ forall k nbt int x y, nth_error ts k = Some (nbt, int, x, y) ->
         exists d, bl_datum bm o (Z.of_nat k + 1) = Ok d /\ td_shows bm d nbt int x y.
Proof.
  intros bm v ts cs l G Gl Hv.
  assert (F : Forall2 (fun t c => let '(nbt, int, x, y) := t in td_generateXSS nbt int x y = Ok c) ts cs).
  { clear Gl. revert cs G. induction ts as [|t ts IH]; intros cs G; [apply Ok_inj in G; subst; constructor|]. cbn [mapM] in G.
    destruct t as [[[nbt int] x] y]. destruct (td_generateXSS nbt int x y) eqn:E; try discriminate. cbn [bind] in G.
    destruct (mapM _ ts) eqn:E'; try discriminate. cbn [bind] in G. apply Ok_inj in G. subst cs. constructor; [exact E|apply IH; reflexivity]. }
  assert (L : len cs = len ts) by (unfold len; rewrite (Forall2_len _ _ _ F); reflexivity).
  destruct (bl_round_trip bm (sigd_gd bm) true cs
    (fun c d => forall nbt int x y, td_generateXSS nbt int x y = Ok c -> td_shows bm d nbt int x y) v l) as (o & M & V & N & D & _).
  - intros loc w c Hc Hw. assert (exists nbt int x y, td_generateXSS nbt int x y = Ok c) as (nbt & int & x & y & E).
    { clear - F Hc. induction F as [|[[[nbt int] x] y] c0 ts cs E _ IH]; [contradiction|]. destruct Hc as [->|Hc]; [eauto 8|auto]. }
    pose proof (td_generateXSS_inv _ _ _ _ _ E) as (A & A' & ->). destruct (td_make_has bm w nbt int x y A A' Hw) as (d & Ed & _ & Sd).
    exists d. split; [exact Ed|]. intros nbt' int' x' y' E'. pose proof (td_generateXSS_inv _ _ _ _ _ E') as (A1 & A2 & El).
    rewrite El in Hw. destruct (td_make_has bm w nbt' int' x' y' A1 A2 Hw) as (d' & Ed' & _ & Sd'). unfold sigd_gd in *. congruence.
  - exact Gl.
  - exact Hv.
  - rewrite L in M, N. exists o. split; [exact M|]. split; [exact V|]. split; [exact N|]. intros k nbt int x y Hk.
    assert (exists c, nth_error cs k = Some c /\ td_generateXSS nbt int x y = Ok c) as (c & Hc & E).
    { clear - F Hk. revert k Hk. induction F as [|[[[nbt' int'] x'] y'] c0 ts cs E _ IH]; intros [|k] Hk; try discriminate.
      - cbn in Hk. injection Hk as <- <- <- <-. exists c0. auto.
      - apply IH. exact Hk. }
    destruct (D k c Hc) as (d & Ed & Sd). exists d. split; [exact Ed|]. apply Sd. exact E.
Qed.
Print Assumptions C39_dosimetry_cross_sections.

Example C39_example : exists o1 o2, eu_of [dbl 1; dbl 2] [dbl 3; dbl 4] None [dbl 5; dbl 6] = Ok o1 /\ eu_heating Debug o1 = Ok [dbl 5; dbl 6]
  /\ eu_elastic Debug o1 = Ok []
  /\ iu_of [1; 31] [2; 3] [[1;2;3;4;5;6;7;8;9;10]; [11;12;13;14;15;16;17;18;19;20]] = Ok o2
  /\ iu_index Debug o2 31 = Ok 2 /\ iu_LLOC Debug o2 2 3 = Ok 11 /\ iu_hasIP Debug o2 9 = Ok false.
Proof. do 2 eexists. conc. Qed.
Example C39_dosimetry_example : exists cs l o d,
  mapM (fun t => let '(nbt, int, x, y) := t in td_generateXSS nbt int x y) [([], [], [dbl 1; dbl 2], [dbl 3; dbl 4]); ([2], [5], [dbl 6; dbl 7], [dbl 8; dbl 9])] = Ok cs
  /\ bl_generateXSS true cs = Ok l /\ bl_make Debug (sigd_gd Debug) (own l) 2 2 true = Ok o
  /\ bl_datum Debug o 2 = Ok d /\ td_y Debug d = Ok [dbl 8; dbl 9].
Proof. do 4 eexists. conc. Qed.
