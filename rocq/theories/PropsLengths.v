(** C49: arrays of different lengths are rejected. *)
From Coq Require Import ZArith Bool List Lia.
From Coq Require Import ZifyBool ZifyNat.
From Verif Require Import PropLemmasBasic EnergyDist MultiDist FrameBlock EnergyBlocks DlwBlock ReactionNumbers PropsBlocks NuBlock AtomicBlocks ElectronBlocks ThermalBlocks PropsEnergy Lengths.
Import ListNotations.
Open Scope Z_scope.

(** ** Energy distributions: all the laws *)

(** With argument ranges met, the constructor of an energy distribution accepts its arguments when the
    arrays agree, and throws otherwise. *)
Theorem C49_energy_distributions : forall bm srt i, eqb_sort_contract srt -> ed_ranges i ->
  accepts (EnergyDist.ed_of bm srt i) (ed_agree i).
Proof. exact ed_accepts. Qed.
Print Assumptions C49_energy_distributions.

Theorem C49_energy_distribution_words : forall bm srt i, eqb_sort_contract srt -> ed_ranges i -> ed_agree i ->
  exists l, ed_generate bm srt i = Ok l /\ len l = ed_size i.
Proof. exact ed_gen. Qed.
Print Assumptions C49_energy_distribution_words.

(** Arguments whose arrays agree are valid arguments of the round trips C14 and C15. *)
Theorem C49_agreeing_arguments_are_valid : forall srt i, eqb_sort_contract srt -> ed_ranges i -> ed_agree i -> ed_valid srt i.
Proof. exact ed_valid_of. Qed.
Print Assumptions C49_agreeing_arguments_are_valid.

(** ** Functions and distributions *)

Theorem C49_interpolation : forall nbt int, accepts (id_generateXSS nbt int) (len int = len nbt).
Proof.
  intros nbt int. unfold id_generateXSS, id_columns. eapply accepts_iff; [|apply cd_gen_accepts].
  rewrite Forall_cons_iff, !len_map. split; [tauto|]. intros H. split; [exact H|constructor].
Qed.
Print Assumptions C49_interpolation.

(** A tabulated function, alone, as a precursor group, as a fission neutron yield and as a photon
    production cross section. *)
Theorem C49_tabulated_functions : forall bm nbt int x y, 4 + 2 * len nbt + 2 * len x < max_words ->
  accepts (td_of bm nbt int x y) (len int = len nbt /\ len y = len x)
  /\ (forall number lambda, accepts (dp_of bm number lambda nbt int x y) (len int = len nbt /\ len y = len x))
  /\ accepts (tf_of bm nbt int x y) (len int = len nbt /\ len y = len x)
  /\ (forall mftype mt, 0 <= mftype < 2 ^ 31 -> 0 <= mt < 2 ^ 31 ->
        accepts (ts_of bm mftype mt nbt int x y) (len int = len nbt /\ len y = len x)).
Proof.
  intros bm nbt int x y B. split; [apply td_of_accepts; lia|].
  assert (G : forall pre, len pre <= 2 -> len int = len nbt /\ len y = len x ->
             pt_generateXSS pre nbt int x y = Ok (pre ++ td_layout nbt int x y) /\ content (own (pre ++ td_layout nbt int x y)) (pre ++ td_layout nbt int x y)).
  { intros pre Hp [H1 H2]. destruct (td_gen _ _ _ _ H1 H2) as [G L]. unfold pt_generateXSS. rewrite G. split; [reflexivity|].
    apply own_content. rewrite len_app, L. lia. }
  assert (R : forall pre, ~ (len int = len nbt /\ len y = len x) -> pt_generateXSS pre nbt int x y = Throw StdException).
  { intros pre H. unfold pt_generateXSS. rewrite (td_gen_bad _ _ _ _ H). reflexivity. }
  split; [|split].
  - intros number lambda. unfold dp_of, dp_generateXSS. split; intros H; [|rewrite (R _ H); reflexivity].
    destruct (G [lambda]) as [E C]; [cbn; unfold len; cbn; lia|exact H|]. rewrite E. cbn [bind]. destruct H as [H1 H2].
    destruct (dp_has bm _ number lambda nbt int x y H1 H2 (content_has _ _ C)) as (o & M & _). eauto.
  - unfold tf_of, tf_generateXSS. split; intros H; [|rewrite (R _ H); reflexivity].
    destruct (G [dbl 2]) as [E C]; [cbn; unfold len; cbn; lia|exact H|]. rewrite E. cbn [bind]. destruct H as [H1 H2].
    destruct (tf_has bm _ nbt int x y H1 H2 (content_has _ _ C)) as (o & M & _). eauto.
  - intros mf mt K1 K2. unfold ts_of, ts_generateXSS. split; intros H; [|rewrite (R _ H); reflexivity].
    destruct (G [dbl mf; dbl mt]) as [E C]; [cbn; unfold len; cbn; lia|exact H|]. rewrite E. cbn [bind]. destruct H as [H1 H2].
    destruct (ts_has bm _ mf mt nbt int x y K1 K2 H1 H2 (content_has _ _ C)) as (o & M & _). eauto.
Qed.
Print Assumptions C49_tabulated_functions.

Theorem C49_tabulated_distribution : forall interpolation x pdf cdf data,
  accepts (tp_generateXSS interpolation x pdf cdf data) (Forall (fun a => len a = len x) (pdf :: cdf :: data)).
Proof.
  intros. unfold tp_generateXSS. apply (accepts_map _ (fun c => dbl interpolation :: c)), cd_gen_accepts.
Qed.
Print Assumptions C49_tabulated_distribution.

(** ** Blocks of arrays *)

Theorem C49_principal_cross_sections : forall energies total disappearance elastic heating,
  accepts (esz_of energies total disappearance elastic heating)
    (len total = len energies /\ len disappearance = len energies /\ len elastic = len energies /\ len heating = len energies).
Proof. intros. eapply accepts_iff; [|apply ad_of_accepts]. lengths. Qed.
Print Assumptions C49_principal_cross_sections.

(** Heating numbers of a secondary particle. *)
Theorem C49_secondary_heating : forall index production heating,
  accepts (hpd_of index production heating) (len heating = len production).
Proof.
  intros. unfold hpd_of. apply (accepts_map _ (fun l => own l)). unfold hpd_generateXSS.
  eapply accepts_iff; [|apply accepts_throw; [|intros _; apply accepts_ok]]; [split; [intros [H _]; exact H|intros H; split; [exact H|exact Logic.I]]|lia].
Qed.
Print Assumptions C49_secondary_heating.

(** Probability tables and electron distributions of one energy. *)
Theorem C49_probability_table : forall incident probabilities total elastic fission capture heating,
  accepts (tb_of incident probabilities total elastic fission capture heating)
    (len total = len probabilities /\ len elastic = len probabilities /\ len fission = len probabilities
     /\ len capture = len probabilities /\ len heating = len probabilities).
Proof.
  intros. unfold tb_of. apply (accepts_map _ (fun a => PTable a incident)). eapply accepts_iff; [|apply ad_of_accepts]. lengths.
Qed.
Print Assumptions C49_probability_table.
Theorem C49_electron_distribution : forall incident values cdf,
  accepts (ElectronBlocks.ed_of incident values cdf) (len cdf = len values).
Proof.
  intros. unfold ElectronBlocks.ed_of. apply (accepts_map _ (fun a => ElectronDatum a incident)). eapply accepts_iff; [|apply ad_of_accepts]. lengths.
Qed.
Print Assumptions C49_electron_distribution.

(** The blocks of photoatomic and electron data. *)
Theorem C49_atomic_blocks :
  (forall a b, accepts (AtomicBlocks.two_of a b) (len b = len a))
  /\ (forall electrons energies probabilities, accepts (ep_of electrons energies probabilities)
        (len energies = len electrons /\ len probabilities = len electrons))
  /\ (forall ids electrons binding vacancies transitions, accepts (ss_of ids electrons binding vacancies transitions)
        (len electrons = len ids /\ len binding = len ids /\ len vacancies = len ids /\ len transitions = len ids))
  /\ (forall energies incoherent coherent photoelectric pair, accepts (eg_of energies incoherent coherent photoelectric pair)
        (len incoherent = len energies /\ len coherent = len energies /\ len photoelectric = len energies /\ len pair = len energies))
  /\ (forall energies ejection yields fluorescence, accepts (jf_of energies ejection yields fluorescence)
        (len ejection = len energies /\ len yields = len energies /\ len fluorescence = len energies))
  /\ (forall xs0 xs, accepts (sp_of (xs0 :: xs)) (Forall (fun a => len a = len xs0) xs)).
Proof.
  split; [|split; [|split; [|split; [|split]]]]; intros; try (eapply accepts_iff; [|apply ad_of_accepts]; lengths).
Qed.
Print Assumptions C49_atomic_blocks.

(** Form factors: with their own momentum grid, or on the standard grid (21 values, 55 pairs). *)
Theorem C49_form_factors :
  (forall momentum values, accepts (ji_of momentum values) (len values = len momentum))
  /\ (forall values, accepts (ji_of_values values) (len values = 21))
  /\ (forall momentum integrated factors, accepts (jc_of momentum integrated factors)
        (len integrated = len momentum /\ len factors = len momentum))
  /\ (forall integrated factors, accepts (jc_of2 integrated factors) (len integrated = 55 /\ len factors = 55)).
Proof.
  split; [|split; [|split]]; intros.
  - unfold ji_of. apply (accepts_map _ (fun a => Jinc a None)). eapply accepts_iff; [|apply ad_of_accepts]. lengths.
  - unfold ji_of_values. eapply accepts_iff; [|apply accepts_throw; [|intros _; apply (accepts_map _ (fun a => Jinc a (Some ji_standard))), ad_of_accepts]].
    + split; [intros [H _]; exact H|]. intros H. split; [exact H|constructor].
    + lia.
  - unfold jc_of. apply (accepts_map _ (fun a => Jinc a None)). eapply accepts_iff; [|apply ad_of_accepts]. lengths.
  - unfold jc_of2. eapply accepts_iff; [|apply (accepts_throw _ _ (len integrated + len factors = 110)); [|intros _; apply (accepts_map _ (fun a => Jinc a (Some jc_standard))), ad_of_accepts]].
    + rewrite Forall_cons_iff. split; [intros (H & K & _); lia|]. intros H. split; [lia|]. split; [lia|constructor].
    + lia.
Qed.
Print Assumptions C49_form_factors.

(** Cross sections of the electrons: one array at least for the ionisation, all as long as the
    energy grid; transitions to a subshell. *)
Theorem C49_electron_cross_sections : forall energies elastic bremsstrahlung excitation ions,
  (6 + len ions) * len energies < max_words -> 6 + len ions < 2 ^ 31 ->
  accepts (ez_of energies elastic bremsstrahlung excitation ions)
    (ions <> [] /\ Forall (fun a => len a = len energies) (elastic :: bremsstrahlung :: excitation :: ions)).
Proof.
  intros e el br ex ions B L. split; intros H.
  - destruct H as [H1 H2]. destruct ions as [|i0 rest]; [congruence|].
    destruct (ez_of_ok Release e el br ex i0 rest H2 B L) as (o & _ & _ & E & _). eauto.
  - apply ez_of_rejects. destruct ions as [|i0 rest]; [left; reflexivity|right]. intros X. apply H. split; [discriminate|exact X].
Qed.
Print Assumptions C49_electron_cross_sections.
Theorem C49_transitions : forall primary secondary energies probabilities,
  accepts (tr_of primary secondary energies probabilities)
    (len secondary = len primary /\ len energies = len primary /\ len probabilities = len primary).
Proof.
  intros p s e q. split; intros H; [|apply tr_of_rejects; lia].
  unfold tr_of, tr_generateArrays, throw_if. destruct (_ || _) eqn:E; [lia|]. cbn [bind].
  assert (K : forall p s e q, Forall (fun r : list double => len r = 4) (zip4 p s e q)).
  { clear. induction p as [|a p IH]; intros [|b s] [|c e] [|d q]; cbn [zip4]; constructor; auto. }
  specialize (K p s e q). destruct (zip4 p s e q) as [|r0 r]; [eexists; reflexivity|].
  apply ad_of_accepts. inversion K as [|? ? K0 K1]; subst. rewrite K0. exact K1.
Qed.
Print Assumptions C49_transitions.

(** Photonuclear blocks. *)
Theorem C49_photonuclear_blocks :
  (forall energies total elastic heating, accepts (eu_of energies total (Some elastic) heating)
      (len total = len energies /\ len elastic = len energies /\ len heating = len energies))
  /\ (forall energies total heating, accepts (eu_of energies total None heating)
      (len total = len energies /\ len heating = len energies))
  /\ (forall types numbers locators, accepts (iu_of types numbers locators)
      (len types = len locators /\ len numbers = len locators)).
Proof.
  split; [|split]; intros.
  - unfold eu_of. eapply accepts_iff; [|apply ad_of_accepts]. lengths.
  - unfold eu_of. eapply accepts_iff; [|apply ad_of_accepts]. lengths.
  - unfold iu_of. apply (accepts_map _ (fun l => Ntro (own l) (u32 (len locators)))). unfold iu_generateXSS.
    eapply accepts_iff; [|apply accepts_throw; [|intros _; apply accepts_ok]]; [split; [intros [H _]; exact H|intros H; split; [exact H|exact Logic.I]]|lia].
Qed.
Print Assumptions C49_photonuclear_blocks.

(** Thermal scattering: cross sections, and cosines of coherent elastic scattering. *)
Theorem C49_thermal_blocks :
  (forall energies xs, accepts (tc_of energies xs) (len xs = len energies))
  /\ (forall c0 cosines, accepts (te_of (c0 :: cosines)) (Forall (fun c => len c = len c0) cosines)).
Proof.
  split; intros.
  - unfold tc_of, cd_of_columns. apply (accepts_map _ (fun l => ColumnData (own l) (len [energies; xs]))). eapply accepts_iff; [|apply cd_gen_accepts]. lengths.
  - apply ad_of_accepts.
Qed.
Print Assumptions C49_thermal_blocks.

(** ** Lists of components *)

(** Reference frames and multiplicities. *)
Theorem C49_frames_and_multiplicities : forall bm frames ms, Forall (fun m => 0 <= m < 2 ^ 31) ms -> len frames < max_words ->
  accepts (ty_of bm frames ms) (len frames = len ms).
Proof.
  intros bm frames ms Hm B. destruct (C16_sizes frames ms) as [S1 S2]. split; intros H; [|apply S1; exact H].
  destruct (S2 H) as (l & G & L). assert (Bl : len l < max_words) by lia.
  destruct (C16_every_multiplicity bm (own l) frames ms l) as [K _]; [|exact G|apply content_has, own_content; exact Bl|exact Bl|].
  - rewrite Forall_forall in *. intros m I. specialize (Hm m I). lia.
  - destruct K as ((o & E & _) & _); [|eauto]. rewrite Forall_forall in *. intros m I. specialize (Hm m I). lia.
Qed.
Print Assumptions C49_frames_and_multiplicities.

(** Energy distribution blocks and multi-law distributions: different numbers of distributions,
    multiplicities, frames or probabilities throw. *)
Theorem C49_numbers_of_distributions : forall bm,
  (forall ds ms fs, len ds <> len ms -> dl_of bm ds ms fs = Throw StdException)
  /\ (forall ds ms fs l tyrs, dl_generateXSS bm ds ms = Ok (l, tyrs) -> len fs <> len ds -> dl_of bm ds ms fs = Throw StdException)
  /\ (forall ps ds locb, Forall (fun p => exists w, xss_all (td_v p) = Ok w) ps -> len ps <> len ds ->
        mu_of bm ps ds locb = Throw StdException).
Proof.
  intros bm. split; [|split].
  - intros ds ms fs. apply C15_sizes_rejected.
  - intros ds ms fs l ty G H. apply (proj2 (C15_sizes_rejected bm ds ms fs) l ty G).
    assert (L : len ty = len ds); [|lia]. unfold dl_generateXSS in G. unfold throw_if in G.
    destruct (Z.eqb_spec (len ds) (len ms)) as [E|]; [|discriminate]. cbn [negb bind] in G.
    assert (K : forall size ds index ms xss tyr l ty, len ds = len ms -> dl_append bm size index ds ms xss tyr = Ok (l, ty) -> len ty = len tyr + len ds).
    { clear. intros size. induction ds as [|d ds IH]; intros index ms xss tyr l ty E G; destruct ms as [|m ms]; cbn [dl_append] in G.
      - apply Ok_inj in G. injection G as <- <-. rewrite len_nil. lia.
      - rewrite len_cons, len_nil in E. pose proof (len_nonneg ms). lia.
      - rewrite len_cons, len_nil in E. pose proof (len_nonneg ds). lia.
      - rewrite !len_cons in E.
        destruct (match m with MuTab _ => _ | MuNum _ => _ end) as [[x t]| |] eqn:Em; try discriminate. cbn [bind] in G.
        assert (T : len t = len tyr + 1).
        { destruct m as [n|tb]; cbn [bind] in Em.
          - destruct (trunc_to_u32 _) as [k| |]; try discriminate. cbn [bind] in Em. apply Ok_inj in Em. injection Em as <- <-. rewrite len_app, len_cons, len_nil. lia.
          - destruct (trunc_to_u32 _) as [k| |]; try discriminate. cbn [bind] in Em. destruct (xss_all _) as [w| |]; try discriminate. cbn [bind] in Em.
            apply Ok_inj in Em. injection Em as <- <-. rewrite len_app, len_cons, len_nil. lia. }
        destruct (upd _ _ _) as [y| |]; try discriminate. cbn [bind] in G. destruct (en_words _ _ _) as [w| |]; try discriminate. cbn [bind] in G.
        apply IH in G; [|lia]. rewrite len_cons. lia. }
    apply K in G; [|exact E]. rewrite len_nil in G. lia.
  - intros ps ds locb F H. unfold mu_of.
    assert (M : exists ls, mapM (fun p => xss_all (td_v p)) ps = Ok ls /\ len ls = len ps).
    { clear H. induction F as [|p ps (w & W) F (ls & M & L)]; [exists []; split; reflexivity|].
      cbn [mapM]. rewrite W. cbn [bind]. rewrite M. cbn [bind]. eexists. split; [reflexivity|]. rewrite !len_cons. lia. }
    destruct M as (ls & -> & L). cbn [bind]. unfold mu_generateXSS, throw_if. destruct (Z.eqb_spec (len ds) (len ls)); [lia|reflexivity].
Qed.
Print Assumptions C49_numbers_of_distributions.

(** A multi-law distribution one of whose laws or probabilities has arrays of different lengths
    throws, wherever it stands in the list. *)
Definition pr_agree (p : pr_in) : Prop := len (pr_int p) = len (pr_nbt p) /\ len (pr_y p) = len (pr_x p).
Theorem C49_multi_law : forall bm srt xs locb, eqb_sort_contract srt ->
  Forall (fun x => 2 + 2 * len (pr_nbt (fst x)) + 2 * len (pr_x (fst x)) < max_words /\ ed_ranges (snd x)) xs ->
  ~ Forall (fun x => pr_agree (fst x) /\ ed_agree (snd x)) xs ->
  en_of bm srt (IMulti xs locb) = Throw StdException.
Proof.
  intros bm srt xs locb Hs R A. cbn [en_of].
  destruct (mapM_accepts (fun x => pr_of bm (fst x)) (fun x => pr_agree (fst x)) xs) as [(F & ps & ->) | (_ & ->)]; [|cbn [bind]|reflexivity].
  - intros x Hx. rewrite Forall_forall in R. destruct (R x Hx) as [B _].
    destruct (td_of_accepts bm _ (pr_int (fst x)) _ (pr_y (fst x)) B) as [T1 T2].
    assert (D : pr_agree (fst x) \/ ~ pr_agree (fst x)) by (unfold pr_agree; lia). unfold pr_of. destruct D as [D|D]; [left|right]; auto.
  - destruct (mapM_accepts (fun x => EnergyDist.ed_of bm srt (snd x)) (fun x => ed_agree (snd x)) xs) as [(G & ds & _) | (_ & ->)]; [| |reflexivity].
    + intros x Hx. rewrite Forall_forall in R. destruct (R x Hx) as [_ B]. destruct (ed_accepts bm srt (snd x) Hs B) as [T1 T2].
      destruct (ed_agree_dec (snd x)) as [D|D]; [left|right]; auto.
    + exfalso. apply A. rewrite Forall_forall in *. intros x Hx. split; [apply F|apply G]; exact Hx.
Qed.
Print Assumptions C49_multi_law.

(** ** Where lengths are not compared *)

(** The frames given to a secondary particle's energy distribution block, the bins of the tables of an
    unresolved resonance block, the bins of equiprobable energies and the cosines of skewed or
    continuous thermal data (C24_ragged_cosine_numbers_refuted) are not compared: too few frames are
    read beyond their end; tables and bins of different lengths are accepted and come back changed. *)
Theorem C49_unchecked_lengths_refuted :
  (forall bm, (ds <- mapM (en_of bm no_sort) [ISingle ex_level; ISingle ex_level] ;; dh_of bm ds (Some [Laboratory])) = UB)
  /\ (exists t1 t2 o t, tb_of (dbl 1) [dbl 1] [dbl 2] [dbl 3] [dbl 4] [dbl 5] [dbl 6] = Ok t1
      /\ tb_of (dbl 2) [dbl 1; dbl 2] [dbl 3; dbl 4] [dbl 5; dbl 6] [dbl 7; dbl 8] [dbl 9; dbl 10] [dbl 11; dbl 12] = Ok t2
      /\ un_of Debug 2 0 0 0 [t1; t2] = Ok o /\ un_probabilityTable Debug o 2 = Ok t /\ tb_numberBins t = 1)
  /\ (exists o d, EnergyDist.ed_of Debug no_sort (IEqui [] [] [(dbl 1, [dbl 1; dbl 2]); (dbl 2, [dbl 3; dbl 4; dbl 5])]) = Ok (OEqui o)
      /\ SimpleLaws.eq_distribution Debug o 2 = Ok d /\ xss_all (snd d) = Ok [dbl 3; dbl 4]).
Proof.
  split; [intros []; vm_compute; reflexivity|]. split; [|do 2 eexists; conc].
  do 4 eexists. conc.
Qed.
Print Assumptions C49_unchecked_lengths_refuted.


(** The hypotheses can be met, and both outcomes occur. *)
Definition ex_law4 (second : list double) : ed_in :=
  IOutgoing [2] [2] [TQ (dbl 1) 2 0 [dbl 0; dbl 1] [dhalf; dhalf] [dbl 0; dbl 1] [];
                     TQ (dbl 3) 2 0 [dbl 0; dbl 1] second [dbl 0; dbl 1] []] 9.
Definition ex_law61 (int : list Z) (second : list double) : ed_in :=
  IEnergyAngle [2] int [EA (dbl 1) 2 5 [TW (dbl 1) dhalf (dbl 1) 2 [dbl 0; dbl 1] [dhalf; dhalf] [dbl 0; dbl 1]];
                        EA (dbl 2) 2 7 [TW (dbl 1) dhalf (dbl 1) 2 [dbl 0; dbl 1] second [dbl 0; dbl 1]]] 9.
Example C49_energy_example :
  ed_ranges (ex_law4 [dhalf; dhalf]) /\ ed_agree (ex_law4 [dhalf; dhalf])
  /\ ed_ranges (ex_law4 [dhalf]) /\ ~ ed_agree (ex_law4 [dhalf])
  /\ EnergyDist.ed_of Debug no_sort (ex_law4 [dhalf]) = Throw StdException
  /\ ed_ranges (ex_law61 [2] [dhalf; dhalf]) /\ ed_agree (ex_law61 [2] [dhalf; dhalf])
  /\ ed_ranges (ex_law61 [2] [dhalf]) /\ ~ ed_agree (ex_law61 [2] [dhalf]) /\ ~ ed_agree (ex_law61 [] [dhalf; dhalf]).
Proof.
  assert (N : forall a b : Z, a <> b -> (a = b -> False)) by auto.
  assert (T : forall p, tq_valid (TQ (dbl 3) 2 0 [dbl 0; dbl 1] p [dbl 0; dbl 1] [])) by (intros p; unfold tq_valid; cbn; lia).
  assert (T' : forall p, tq_valid (TQ (dbl 1) 2 0 [dbl 0; dbl 1] p [dbl 0; dbl 1] [])) by (intros p; unfold tq_valid; cbn; lia).
  assert (R4 : forall p, ed_ranges (ex_law4 p)).
  { intros p. unfold ed_ranges, ex_law4. split; [split; [constructor; [apply T'|constructor; [apply T|constructor]]|split; [repeat constructor; lia|split; [repeat constructor; lia|discriminate]]]|cbn [ed_locb ed_size total fold_right tq_size tq_x tq_data]; unfold len; cbn; lia]. }
  assert (R61 : forall i p, exact i -> ed_ranges (ex_law61 i p)).
  { intros i p Hi. unfold ed_ranges, ex_law61. split; [split; [|split; [repeat constructor; lia|split; [exact Hi|discriminate]]]|].
    - constructor; [|constructor; [|constructor]]; (split; [cbn; lia|split; [constructor; [unfold tw_valid; cbn; lia|constructor]|split; [cbn; lia|]]]; unfold ea_size, tw_size; cbn [ea_dists ea_locb total fold_right tw_x]; unfold tw_size, len; cbn; lia).
    - cbn [ed_locb ed_size total fold_right]. unfold ea_size, len. cbn. lia. }
  split; [apply R4|]. split; [unfold ed_agree, ex_law4, tq_agree; cbn; repeat (split || constructor)|].
  split; [apply R4|]. split; [intros (_ & X); inversion X as [|? ? _ X1]; inversion X1 as [|? ? X2 _]; inversion X2 as [|? ? X3 _]; discriminate X3|].
  split; [vm_compute; reflexivity|].
  split; [apply R61; repeat constructor; lia|]. split; [unfold ed_agree, ex_law61, ea_agree, tw_agree; cbn; repeat (split || constructor)|].
  split; [apply R61; repeat constructor; lia|]. split.
  - intros (_ & X); inversion X as [|? ? _ X1]; inversion X1 as [|? ? X2 _]; inversion X2 as [|? ? (X3 & _) _]; discriminate X3.
  - intros (X & _). discriminate X.
Qed.

Example C49_blocks_example :
  (exists o, td_of Debug [2] [2] [dbl 1; dbl 2] [dbl 3; dbl 4] = Ok o)
  /\ td_of Debug [2] [2] [dbl 1; dbl 2] [dbl 3] = Throw StdException
  /\ td_of Debug [2] [] [dbl 1; dbl 2] [dbl 3; dbl 4] = Throw StdException
  /\ (exists o, ez_of [dbl 1] [dbl 2] [dbl 3] [dbl 4] [[dbl 5]; [dbl 6]] = Ok o)
  /\ ez_of [dbl 1] [dbl 2] [dbl 3] [dbl 4] [[dbl 5]; []] = Throw StdException
  /\ (exists o, tr_of [1; 2] [3; 4] [dbl 5; dbl 6] [dbl 7; dbl 8] = Ok o)
  /\ ty_of Debug [Laboratory] [1; 2] = Throw StdException
  /\ (exists o, ty_of Debug [Laboratory; CentreOfMass] [1; 2] = Ok o).
Proof.
  split; [eexists; vm_compute; reflexivity|]. split; [vm_compute; reflexivity|]. split; [vm_compute; reflexivity|].
  split; [eexists; vm_compute; reflexivity|]. split; [vm_compute; reflexivity|]. split; [eexists; vm_compute; reflexivity|].
  split; [vm_compute; reflexivity|]. eexists; vm_compute; reflexivity.
Qed.
