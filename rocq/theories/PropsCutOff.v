(** Property theorems C40: words that are cut short are rejected.

    [cut_of kept words]: [kept] is [words] without some of its last words (CutOff.v).
    [rejected o]: the constructor throws (std::exception or std::out_of_range, Truncated.v). *)
From Coq Require Import ZArith Bool List Lia Permutation Sorted.
From Coq Require Import ZifyBool ZifyNat.
From Verif Require Import PropsBlocks Truncated AtomicBlocks ElectronBlocks ThermalBlocks SimpleLaws CutOff CutOffDist CutOffAngular CutOffBlocks.
Import ListNotations.
Open Scope Z_scope.

(** ** Data with their own counts *)

(** TabulatedMultiplicity, EnergyDependentFissionSpectra..: tables, evaporation spectra (laws 7 and 9), general evaporation
    spectrum (5), energy dependent Watt spectrum (11): every proper prefix of the words, even the empty one, is rejected. *)
Theorem C40_tables_and_spectra : forall v nbt int x y nbt' int' x' y' u bins words words' kept, content v kept ->
  (td_generateXSS nbt int x y = Ok words -> len words < max_words -> cut_of kept words -> rejected (td_make Debug v))
  /\ (ev_generateXSS nbt int x y u = Ok words -> len words < max_words -> cut_of kept words -> rejected (ev_make Debug v))
  /\ (ge_generateXSS nbt int x y bins = Ok words -> len words < max_words -> cut_of kept words -> rejected (ge_make Debug v))
  /\ (td_generateXSS nbt int x y = Ok words -> td_generateXSS nbt' int' x' y' = Ok words' -> len (wa_generateXSS words words' u) < max_words ->
      cut_of kept (wa_generateXSS words words' u) -> rejected (wa_make Debug v)).
Proof.
  intros v nbt int x y nbt' int' x' y' u bins words words' kept C. split; [|split; [|split]].
  - intros G B (r & Hr & E). exact (td_truncated v nbt int x y words kept r G B E Hr C).
  - intros G B K. exact (ev_cut v nbt int x y u words kept G B K C).
  - intros G B K. exact (ge_cut v nbt int x y bins words kept G B K C).
  - intros G G' B K. exact (wa_cut v _ _ _ _ _ _ _ _ u words words' kept G G' B K C).
Qed.
Print Assumptions C40_tables_and_spectra.

Example C40_spectra_example : exists words, ev_generateXSS [] [] [dbl 1; dbl 20] [dbl 2; dbl 3] (dbl 5) = Ok words
  /\ cut_of (firstn 6 words) words /\ len words = 7 /\ ev_make Debug (own (firstn 6 words)) = Throw StdException
  /\ ev_make Debug (own (firstn 1 words)) = Throw OutOfRange.
Proof. eexists. split; [vm_compute; reflexivity|]. split; [exists [dbl 5]; split; [discriminate|vm_compute; reflexivity]|]. conc. Qed.

(** Interpolation data: every non-empty proper prefix (no words at all are interpolation data of length 0, C06). *)
Theorem C40_interpolation_data : forall v nbt int words kept, id_generateXSS nbt int = Ok words -> len words < max_words ->
  cut_of kept words -> kept <> [] -> content v kept -> rejected (id_make v).
Proof. exact id_cut. Qed.
Print Assumptions C40_interpolation_data.

Example C40_interpolation_example : exists words, id_generateXSS [2; 7] [2; 5] = Ok words /\ cut_of (firstn 4 words) words
  /\ id_make (own (firstn 4 words)) = Throw StdException.
Proof. eexists. split; [vm_compute; reflexivity|]. split; [exists [dbl 5]; split; [discriminate|vm_compute; reflexivity]|]. conc. Qed.

(** One cross section, one photon production cross section, heating, a fission multiplicity polynomial, the reaction numbers of YP *)
Theorem C40_cross_sections_and_numbers : forall v index values h mts words kept, content v kept -> len words < max_words -> cut_of kept words ->
  (words = xs_generateXSS index values -> rejected (xs_make Debug v))
  /\ (words = px_generateXSS index values -> rejected (px_make Debug v))
  /\ (hpd_generateXSS index values h = Ok words -> rejected (hpd_make Debug v))
  /\ (words = pf_generateXSS values -> rejected (pf_make Debug v))
  /\ (words = yp_generateXSS mts -> kept <> [] -> rejected (yp_make Debug v)).
Proof.
  intros v index values h mts words kept C B K. repeat split.
  - intros ->. destruct K as (r & Hr & E). apply (xs_truncated v index values kept r); try assumption.
    unfold xs_generateXSS, max_words in *. rewrite !len_cons in B. lia.
  - intros ->. exact (px_cut v index values kept B K C).
  - intros G. exact (hpd_cut v index values h words kept G B K C).
  - intros ->. exact (pf_cut v values kept B K C).
  - intros -> Hk. exact (yp_cut v mts kept B K Hk C).
Qed.
Print Assumptions C40_cross_sections_and_numbers.

Example C40_cross_section_example : let words := xs_generateXSS 3 [dbl 1; dbl 2] in cut_of (firstn 3 words) words
  /\ xs_make Debug (own (firstn 3 words)) = Throw StdException /\ xs_make Debug (own (firstn 1 words)) = Throw OutOfRange
  /\ pf_make Debug (own (firstn 3 (pf_generateXSS [dbl 2; dbl 1]))) = Throw StdException
  /\ yp_make Debug (own (firstn 2 (yp_generateXSS [16; 102]))) = Throw StdException.
Proof. split; [exists [dbl 2]; split; [discriminate|reflexivity]|]. conc. Qed.

(** Tables behind fixed words (a delayed neutron precursor group, a tabulated fission multiplicity, a secondary particle
    multiplicity): every prefix that holds the fixed words *)
Theorem C40_prefixed_tables : forall v a b nbt int x y number words kept, content v kept -> len words < max_words -> cut_of kept words ->
  (dp_generateXSS a nbt int x y = Ok words -> 1 <= len kept -> rejected (dp_make Debug v number))
  /\ (tf_generateXSS nbt int x y = Ok words -> 1 <= len kept -> rejected (tf_make Debug v))
  /\ (ts_generateXSS number b nbt int x y = Ok words -> 2 <= len kept -> rejected (ts_make Debug v)).
Proof.
  intros v a b nbt int x y number words kept C B K. repeat split.
  - intros G L. unfold dp_make. apply rej_bind. exact (pt_cut v [a] nbt int x y words kept G B K L C).
  - intros G L. exact (pt_cut v [dbl 2] nbt int x y words kept G B K L C).
  - intros G L. exact (pt_cut v [dbl number; dbl b] nbt int x y words kept G B K L C).
Qed.
Print Assumptions C40_prefixed_tables.

Example C40_prefixed_example : exists words, dp_generateXSS (dbl 8) [] [] [dbl 1; dbl 2] [dbl 3; dbl 4] = Ok words /\ cut_of (firstn 6 words) words
  /\ dp_make Debug (own (firstn 6 words)) 1 = Throw StdException.
Proof. eexists. split; [vm_compute; reflexivity|]. split; [exists [dbl 4]; split; [discriminate|vm_compute; reflexivity]|]. conc. Qed.

(** The fission multiplicity block: one multiplicity, or prompt and total with the total one cut *)
Theorem C40_fission_multiplicity : forall v p t kept, nu_valid p -> nu_valid t -> content v kept ->
  (len (nu_layout p) < max_words -> cut_of kept (nu_layout p) -> kept <> [] -> rejected (nu_make Debug v))
  /\ (forall k, len (nu_layout p ++ nu_layout t) + 1 < max_words -> cut_of k (nu_layout t) -> k <> [] ->
      kept = SFopp (dbl (len (nu_layout p))) :: nu_layout p ++ k -> rejected (nu_make Debug v)).
Proof.
  intros v p t kept Hp Ht C. split.
  - intros B K Hk. exact (nu_cut v p _ kept Hp eq_refl B K Hk C).
  - intros k B K Hk ->. exact (nu_cut_total v p t k Hp Ht B K Hk C).
Qed.
Print Assumptions C40_fission_multiplicity.

Example C40_fission_multiplicity_example : nu_valid (IPoly [dbl 2; dbl 1]) /\ cut_of [dbl 1; dbl 2; dbl 2] (nu_layout (IPoly [dbl 2; dbl 1]))
  /\ nu_make Debug (own [dbl 1; dbl 2; dbl 2]) = Throw StdException.
Proof. split; [exact I|]. split; [exists [dbl 1]; split; [discriminate|vm_compute; reflexivity]|]. conc. Qed.

(** ** Distributions *)

(** A tabulated angular or energy distribution, and the 33 cosines of equiprobable bins *)
Theorem C40_one_distribution : forall v e interp x p c words kept, content v kept -> cut_of kept words ->
  (tp_generateXSS interp x p c [] = Ok words -> len words < max_words -> rejected (ta_make Debug e v))
  /\ (len words = 33 -> rejected (Angular.eq_make e v)).
Proof.
  intros v e interp x p c words kept C K. split.
  - intros G B. unfold ta_make. apply rej_bind. destruct K as (r & Hr & E). exact (tp_truncated v interp x p c words kept r G B E Hr C).
  - intros L. exact (ang_eq_cut e words kept v L K C).
Qed.
Print Assumptions C40_one_distribution.

(** Angular distributions for several incident energies: every proper prefix, however many of the last energies are isotropic *)
Theorem C40_angular_distributions : forall v locb ds kept, Forall ang_valid ds -> Forall ang_exact ds -> 1 <= locb ->
  locb + len (an_layout locb ds) <= 2 ^ 31 -> cut_of kept (an_layout locb ds) -> content v kept -> rejected (an_make Debug locb v).
Proof. intros v locb ds kept V X Hb B (r & Hr & E) C. exact (an_cut v locb ds kept r C Hr E V X Hb B). Qed.
Print Assumptions C40_angular_distributions.

(** The words are those the constructor from values writes, for any order std::sort gives (C11). *)
Theorem C40_angular_words : forall srt locb ds, sort_contract srt -> Forall (fun d => ang_energy d <> S754_nan) ds -> 0 <= locb ->
  locb + 1 + 2 * len ds + len (bodies ds) < 2 ^ 53 ->
  an_generateXSS srt locb ds = Ok (an_layout locb (srt ds)) /\ Permutation ds (srt ds).
Proof.
  intros srt locb ds S N Hb B. destruct (S ds N) as [P _]. split; [|exact P]. apply an_generateXSS_ok; [|exact Hb|].
  - symmetry. apply Permutation_length. exact P.
  - rewrite <- (len_bodies_perm _ _ P). exact B.
Qed.
Print Assumptions C40_angular_words.

Example C40_angular_example : let tab := [dbl 2; dbl 2; dbl (-1); dbl 1; dbl 3; dbl 3; dbl 0; dbl 1] in let ds := [AIso (dbl 1); ATab (dbl 2) tab; AIso (dbl 3)] in
  Forall ang_valid ds /\ Forall ang_exact ds /\ cut_of (removelast (an_layout 1 ds)) (an_layout 1 ds)
  /\ an_make Debug 1 (own (removelast (an_layout 1 ds))) = Throw StdException.
Proof.
  cbv zeta. split.
  { repeat constructor. apply (ang_valid_tab (dbl 2) 2 [dbl (-1); dbl 1] [dbl 3; dbl 3] [dbl 0; dbl 1]); [vm_compute; reflexivity|lia]. }
  split; [repeat constructor|]. split; [exists [dbl 1]; split; [discriminate|vm_compute; reflexivity]|]. conc.
Qed.

(** Outgoing energy distributions (law 4) and equiprobable outgoing energy bins (law 1) *)
Theorem C40_outgoing_energy_distributions : forall v nbt int locb ds words kept, og_generateXSS nbt int locb ds = Ok words -> Forall tq_valid ds ->
  Forall (fun d => tq_data d = []) ds -> 1 <= locb -> locb + len words <= 2 ^ 31 ->
  cut_of kept words -> content v kept -> rejected (og_make Debug locb v).
Proof. exact og_cut. Qed.
Print Assumptions C40_outgoing_energy_distributions.

Example C40_outgoing_example : let d e := TQ e 2 0 [dbl 1; dbl 2] [dbl 3; dbl 3] [dbl 0; dbl 1] [] in
  exists words, og_generateXSS [] [] 1 [d (dbl 1); d (dbl 20)] = Ok words /\ Forall tq_valid [d (dbl 1); d (dbl 20)]
  /\ cut_of (removelast words) words /\ og_make Debug 1 (own (removelast words)) = Throw StdException
  /\ og_make Debug 1 (own (firstn 9 words)) = Throw OutOfRange.
Proof.
  cbv zeta. eexists. split; [vm_compute; reflexivity|]. split.
  { repeat constructor; unfold tq_valid; cbn [tq_interp tq_discrete]; lia. }
  split; [exists [dbl 1]; split; [discriminate|vm_compute; reflexivity]|]. conc.
Qed.

Theorem C40_equiprobable_energy_bins : forall v srt nbt int ds words kept,
  eqb_sort_contract srt -> Forall (fun d => fst d <> S754_nan) ds -> eq_valid ds ->
  eq_generateXSS srt nbt int ds = Ok words -> len words < 2 ^ 31 ->
  cut_of kept words -> content v kept -> rejected (SimpleLaws.eq_make Debug v).
Proof.
  intros v srt nbt int ds words kept S N V G B K C.
  destruct (eq_round_trip srt nbt int ds words S N V G B) as (net & sorted & P & _ & Hb & -> & _ & Hn & Hi & _).
  apply (eqb_cut v nbt int net sorted kept Hi (Permutation_Forall P Hb) ltac:(lia)); assumption.
Qed.
Print Assumptions C40_equiprobable_energy_bins.

Example C40_bins_example : let words := eq_layout [] [] 2 [(dbl 1, [dbl 3; dbl 4]); (dbl 2, [dbl 5; dbl 6])] in
  eq_generateXSS (fun l => l) [] [] [(dbl 1, [dbl 3; dbl 4]); (dbl 2, [dbl 5; dbl 6])] = Ok words
  /\ cut_of (removelast words) words /\ SimpleLaws.eq_make Debug (own (removelast words)) = Throw StdException.
Proof. cbv zeta. split; [vm_compute; reflexivity|]. split; [exists [dbl 6]; split; [discriminate|vm_compute; reflexivity]|]. conc. Qed.

(** ** Blocks with locators *)

(** Any such block is rejected if its last entry's constructor rejects cut words and accepts complete ones. *)
Theorem C40_block_with_locators : forall D (gd : Z -> view -> outcome D) v locator cs kept,
  len (bl_layout locator cs) < max_words -> cut_of kept (bl_layout locator cs) -> content v kept ->
  (forall c loc w, In c cs -> content w c -> exists d, gd loc w = Ok d) ->
  (forall pre c k loc w, cs = pre ++ [c] -> cut_of k c -> content w k -> rejected (gd loc w)) ->
  rejected (bl_make Debug gd v (vbeg v + len cs) (len cs) locator).
Proof. intros D gd v locator cs kept B (r & Hr & E) C F K. exact (bl_cut gd v locator cs kept r B Hr E C F K). Qed.
Print Assumptions C40_block_with_locators.

(** SIG, the cross sections of a dosimetry table, and SWD *)
Theorem C40_SIG : forall v es kept, Forall (fun e => 0 <= sig_index e < 2 ^ 31) es -> len (bl_layout true (map sig_words es)) < max_words ->
  cut_of kept (bl_layout true (map sig_words es)) -> content v kept ->
  rejected (bl_make Debug (sig_generateData Debug) v (vbeg v + len es) (len es) true).
Proof. exact sig_cut. Qed.
Print Assumptions C40_SIG.
Theorem C40_dosimetry_SIG : forall v cs kept, Forall (fun c => exists nbt int x y, td_generateXSS nbt int x y = Ok c) cs -> len (bl_layout true cs) < max_words ->
  cut_of kept (bl_layout true cs) -> content v kept ->
  rejected (bl_make Debug (sigd_gd Debug) v (vbeg v + len cs) (len cs) true).
Proof. exact sigd_cut. Qed.
Print Assumptions C40_dosimetry_SIG.
Theorem C40_SWD : forall v cs kept, Forall (fun c => exists interp x p cdf, tp_generateXSS interp x p cdf [] = Ok c /\ - 2 ^ 31 <= interp < 2 ^ 31) cs ->
  len (bl_layout false cs) < max_words -> cut_of kept (bl_layout false cs) -> content v kept ->
  rejected (bl_make Debug (swd_gd Debug) v (vbeg v + len cs) (len cs) false).
Proof. exact swd_cut. Qed.
Print Assumptions C40_SWD.

Example C40_SIG_example : let words := bl_layout true (map sig_words [SigEntry 1 [dbl 5; dbl 6]; SigEntry 2 [dbl 7]]) in
  words = [dbl 1; dbl 5; dbl 1; dbl 2; dbl 5; dbl 6; dbl 2; dbl 1; dbl 7]
  /\ cut_of (firstn 8 words) words /\ cut_of (firstn 1 words) words
  /\ bl_make Debug (sig_generateData Debug) (own (firstn 8 words)) 2 2 true = Throw StdException
  /\ bl_make Debug (sig_generateData Debug) (own (firstn 1 words)) 2 2 true = Throw OutOfRange.
Proof.
  cbv zeta. split; [vm_compute; reflexivity|]. split; [exists [dbl 7]; split; [discriminate|vm_compute; reflexivity]|].
  split; [eexists; split; [|vm_compute; reflexivity]; discriminate|]. conc.
Qed.

(** ** Blocks whose size the caller gives *)

(** Arrays: MTR and its copies, LQR, ESZ of every table type, EPS, SUBSH, ESZE, ESZG, JFLO, SPHEL, ITCA and the two-array blocks *)
Theorem C40_arrays : forall v kept n nssh ne nc size, content v kept -> 0 <= n ->
  (len kept < n -> n < 2 ^ 32 -> mt_make v n = Throw StdException /\ lq_make v n = Throw StdException)
  /\ (len kept < 2 * n -> 2 * n < 2 ^ 32 -> AtomicBlocks.two_make v n = Throw StdException)
  /\ (len kept < 3 * n -> 3 * n < 2 ^ 32 -> ep_make v n = Throw StdException)
  /\ (len kept < 4 * n -> 4 * n < 2 ^ 32 -> jf_make v n = Throw StdException)
  /\ (len kept < 5 * n -> 5 * n < 2 ^ 32 -> esz_make v n = Throw StdException /\ ss_make v n = Throw StdException /\ eg_make v n = Throw StdException)
  /\ (0 <= nssh -> 6 + nssh < 2 ^ 32 -> len kept < n * (6 + nssh) -> n * (6 + nssh) < 2 ^ 32 -> ez_make v nssh n = Throw StdException)
  /\ (0 <= nssh -> len kept < n * nssh -> n * nssh < 2 ^ 32 -> sp_make v nssh n = Throw StdException)
  /\ (0 <= size -> len kept < n * size -> n * size < 2 ^ 32 -> eu_make v n size = Throw StdException)
  /\ (0 <= ne < 2 ^ 32 -> 0 <= nc < 2 ^ 32 -> len kept < nc * ne -> nc * ne < 2 ^ 32 -> te_make v ne nc = Throw StdException).
Proof.
  intros v kept n nssh ne nc size C Hn. repeat split; intros; unfold mt_make, lq_make, AtomicBlocks.two_make, ep_make, jf_make, esz_make, ss_make, eg_make, ez_make, sp_make, eu_make, te_make;
    rewrite ?u32_small by lia; apply (ad_short v kept _ _ C); nia.
Qed.
Print Assumptions C40_arrays.

(** Lists of words: TYR, NTRO, IXS, IXSU; discrete photons and level scattering (laws 2, 3, 33); discrete cosines;
    ITXE with a fixed number of outgoing energies *)
Theorem C40_lists : forall v kept n lo hi, content v kept -> 0 <= n ->
  (len kept < n -> ty_make Debug v n = Throw StdException /\ nt_make v n = Throw StdException)
  /\ (10 * n < 2 ^ 32 -> len kept < 10 * n -> ix_make v n = Throw StdException)
  /\ (12 * n < 2 ^ 32 -> len kept < 12 * n -> iu_make v n = Throw StdException)
  /\ (len kept < 2 -> SimpleLaws.two_make v lo hi = Throw StdException)
  /\ (n < 2 ^ 32 -> (len kept < 1 + n -> dc_make n v = Throw StdException) /\ (len kept < 3 + n -> dq_make n v = Throw StdException))
  /\ (forall ifeng nieb ne locb, ifeng < 2 -> 0 <= ne * nieb * (1 + n) < 2 ^ 32 -> len kept < ne * nieb * (1 + n) ->
      it_make Debug ifeng nieb n ne locb v = Throw StdException).
Proof.
  intros v kept n lo hi C Hn. split; [|split; [|split; [|split; [|split]]]].
  - intros L. split; [exact (ty_short v kept n C L)|exact (nt_short v kept n C L)].
  - intros B L. exact (ix_short v kept n C Hn B L).
  - intros B L. exact (iu_short v kept n C Hn B L).
  - intros L. exact (two_short v kept lo hi C L).
  - intros B. split; intros L; [exact (dc_short v kept n C ltac:(lia) L)|exact (dq_short v kept n C ltac:(lia) L)].
  - intros ifeng nieb ne locb Hi B L. exact (it_short v kept ifeng nieb n ne locb C Hi B L).
Qed.
Print Assumptions C40_lists.

Example C40_sizes_example : esz_make (own (repeat (dbl 1) 9)) 2 = Throw StdException /\ (exists o, esz_make (own (repeat (dbl 1) 10)) 2 = Ok o)
  /\ ty_make Debug (own [dbl 1]) 2 = Throw StdException /\ ix_make (own (repeat (dbl 1) 9)) 1 = Throw StdException
  /\ dc_make 3 (own [dbl 1; dbl 2; dbl 3]) = Throw StdException.
Proof. split; [conc|]. split; [eexists; conc|]. conc. Qed.

(** ** Where cut words are not noticed *)

(** UNR: the views of the tables are computed from N and M alone; the last table runs past the end of the words. *)
Theorem C40_probability_tables_refuted : exists i words kept o t,
  words = un_layout 1 2 (-1) (-1) 0 [i] /\ ti_valid 1 i /\ cut_of kept words
  /\ un_make Debug (own kept) = Ok o /\ un_probabilityTable Debug o 1 = Ok t /\ tb_capture Debug t = Ok (ti_c i) /\ tb_heating Debug t = UB.
Proof.
  set (i := TbIn (dbl 1) [dbl 1] [dbl 2] [dbl 3] [dbl 4] [dbl 5] [dbl 6]). exists i, (un_layout 1 2 (-1) (-1) 0 [i]), (removelast (un_layout 1 2 (-1) (-1) 0 [i])).
  eexists. eexists. split; [reflexivity|]. split; [repeat constructor|]. split; [exists [dbl 6]; split; [discriminate|vm_compute; reflexivity]|].
  split; [vm_compute; reflexivity|]. conc.
Qed.
Print Assumptions C40_probability_tables_refuted.

(** BDD: the views of the groups are computed from their counts alone. *)
Theorem C40_precursors_refuted : exists words kept o g,
  bi_words (BdIn (dbl 8) [] [] [dbl 1; dbl 2] [dbl 3; dbl 4]) = Ok words /\ cut_of kept words
  /\ bd_make Debug (own kept) 1 = Ok o /\ bd_precursorGroupData Debug o 1 = Ok g /\ td_y Debug (pt_tab (dp_tab g)) = UB.
Proof.
  eexists. exists [dbl 8; dbl 0; dbl 2; dbl 1; dbl 2; dbl 3]. eexists. eexists. split; [vm_compute; reflexivity|]. split; [exists [dbl 4]; split; [discriminate|vm_compute; reflexivity]|].
  split; [vm_compute; reflexivity|]. conc.
Qed.
Print Assumptions C40_precursors_refuted.

(** Electron blocks (ELAS, BREME, EION): only the first three words of each datum are checked. *)
Theorem C40_electron_blocks_refuted : exists i kept o e, cut_of kept (eb_layout [i])
  /\ eb_make Debug (own kept) 1 = Ok o /\ eb_datum Debug o 1 = Ok e /\ ed_cdf Debug e = UB.
Proof.
  exists (EbIn (dbl 9) [dbl 1; dbl 2] [dbl 3; dbl 4]), (removelast (eb_layout [EbIn (dbl 9) [dbl 1; dbl 2] [dbl 3; dbl 4]])). eexists. eexists.
  split; [exists [dbl 4]; split; [discriminate|vm_compute; reflexivity]|]. split; [vm_compute; reflexivity|]. conc.
Qed.
Print Assumptions C40_electron_blocks_refuted.

(** N-body phase space (law 66): only two words are required. *)
Theorem C40_phase_space_refuted : exists words kept o, nb_generateXSS 4 (dbl 1) 2 [dbl 1] [dbl 2] [dbl 3] = Ok words /\ cut_of kept words
  /\ nb_make (own kept) (dbl 1) (dbl 2) = Ok o /\ nb_pdf Debug o = Ok [dbl 2] /\ nb_cdf Debug o = UB.
Proof.
  eexists. exists [dbl 4; dbl 1; dbl 2; dbl 1; dbl 1; dbl 2]. eexists. split; [vm_compute; reflexivity|].
  split; [exists [dbl 3]; split; [discriminate|vm_compute; reflexivity]|]. split; [vm_compute; reflexivity|]. conc.
Qed.
Print Assumptions C40_phase_space_refuted.

(** Kalbach-Mann (law 44): three of the five columns are checked. *)
Theorem C40_Kalbach_Mann_refuted : exists words kept o, tq_words (TQ (dbl 1) 2 0 [dbl 1] [dbl 2] [dbl 3] [[dbl 4]; [dbl 5]]) = Ok words /\ cut_of kept words
  /\ tq_make Debug (dbl 1) 1 (own kept) = Ok o /\ tp_column Debug (snd o) 0 = Ok [dbl 4] /\ tp_column Debug (snd o) 1 = UB.
Proof.
  eexists. exists [dbl 2; dbl 1; dbl 1; dbl 2; dbl 3; dbl 4]. eexists. split; [vm_compute; reflexivity|].
  split; [exists [dbl 5]; split; [discriminate|vm_compute; reflexivity]|]. split; [vm_compute; reflexivity|]. conc.
Qed.
Print Assumptions C40_Kalbach_Mann_refuted.

(** A table behind fixed words: with fewer words than these the words before the view's end are read. *)
Theorem C40_fixed_words_refuted : ts_make Debug (own [dbl 1]) = UB /\ tf_make Debug (own []) = UB /\ dp_make Debug (own []) 1 = UB.
Proof. conc. Qed.
Print Assumptions C40_fixed_words_refuted.

(** No words at all are accepted as column data of length 0, as a YP block and as a NU block. *)
Theorem C40_no_words : (exists c, cd_make (own []) 2 = Ok c) /\ (exists o, yp_make Debug (own []) = Ok o) /\ (exists o, nu_make Debug (own []) = Ok o).
Proof. split; [|split]; eexists; vm_compute; reflexivity. Qed.
Print Assumptions C40_no_words.
