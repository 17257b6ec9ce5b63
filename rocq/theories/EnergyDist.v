(** The energy distributions of the DLW, DLWH and DLWP blocks: construction,
    law numbers, words written and reading. *)
From Coq Require Import ZArith Bool List Lia Permutation Sorted.
From Coq Require Import ZifyBool ZifyNat.
From Verif Require Export PropLemmasBasic Remake.
Import ListNotations.
Open Scope Z_scope.

(** * Code *)

(** The arguments of the constructors of the alternatives of EnergyDistributionData,
    src/ACEtk/continuous/EnergyDistributionBlock.hpp:33-48. *)
Inductive ed_in :=
| IEqui (nbt int : list Z) (ds : list eqb_in)
| IDiscrete (lo hi : double) (lp : Z) (eg : double)
| ILevel (lo hi c1 c2 : double)
| ITwoBody (lo hi c1 c2 : double)
| INBody (lo hi : double) (npsx : Z) (ap : double) (interp : Z) (x p c : list double)
| IOutgoing (nbt int : list Z) (ds : list tq_in) (locb : Z)
| IKalbach (nbt int : list Z) (ds : list tq_in) (locb : Z)
| IEnergyAngle (nbt int : list Z) (ds : list ea_in) (locb : Z)
| IAngleEnergy (nbt int : list Z) (ds : list ae_in) (locb : Z)
| IGeneralEvap (nbt int : list Z) (e t bins : list double)
| IMaxwell (nbt int : list Z) (e t : list double) (u : double)
| IEvaporation (nbt int : list Z) (e t : list double) (u : double)
| IWatt (nbta inta : list Z) (xa ya : list double) (nbtb intb : list Z) (xb yb : list double) (u : double).

(** The variant EnergyDistributionData without the alternatives
    MultiDistributionData and UndefinedDistribution
    (= MultiDistributionData::DistributionData). *)
Inductive ed_obj :=
| OEqui (o : equi) | ODiscrete (o : two) | OLevel (o : two) | OTwoBody (o : two) | ONBody (o : two)
| OOutgoing (o : distributionData tq_obj) | OKalbach (o : distributionData tq_obj)
| OEnergyAngle (o : distributionData ea_obj) | OAngleEnergy (o : distributionData ae_obj)
| OGeneralEvap (o : generalEvaporation) | OMaxwell (o : evaporation) | OEvaporation (o : evaporation)
| OWatt (o : watt).

(** The words each constructor puts in its XSS array. *)
Definition ed_generate bm srt (i : ed_in) : outcome (list double) :=
  match i with
  | IEqui nbt int ds => eq_generateXSS srt nbt int ds
  | IDiscrete _ _ lp eg => Ok [dbl lp; eg]
  | ILevel _ _ c1 c2 | ITwoBody _ _ c1 c2 => Ok [c1; c2]
  | INBody _ _ npsx ap interp x p c => nb_generateXSS npsx ap interp x p c
  | IOutgoing nbt int ds locb | IKalbach nbt int ds locb => og_generateXSS nbt int locb ds
  | IEnergyAngle nbt int ds locb => ead_generateXSS bm nbt int locb ds
  | IAngleEnergy nbt int ds locb => aed_generateXSS bm nbt int locb ds
  | IGeneralEvap nbt int e t bins => ge_generateXSS nbt int e t bins
  | IMaxwell nbt int e t u | IEvaporation nbt int e t u => ev_generateXSS nbt int e t u
  | IWatt nbta inta xa ya nbtb intb xb yb u =>
      a <- td_generateXSS nbta inta xa ya ;; b <- td_generateXSS nbtb intb xb yb ;;
      Ok (wa_generateXSS a b u)
  end.

(** The constructors (cited at each of the [_of] functions). *)
Definition ed_of bm srt (i : ed_in) : outcome ed_obj :=
  match i with
  | IEqui nbt int ds => o <- eq_of bm srt nbt int ds ;; Ok (OEqui o)
  | IDiscrete lo hi lp eg => Ok (ODiscrete (two_of lo hi (dbl lp) eg))
  | ILevel lo hi c1 c2 => Ok (OLevel (two_of lo hi c1 c2))
  | ITwoBody lo hi c1 c2 => Ok (OTwoBody (two_of lo hi c1 c2))
  | INBody lo hi npsx ap interp x p c =>
      l <- nb_generateXSS npsx ap interp x p c ;; Ok (ONBody (Two (own l) lo hi))
  | IOutgoing nbt int ds locb => o <- og_of bm nbt int ds locb ;; Ok (OOutgoing o)
  | IKalbach nbt int ds locb => o <- og_of bm nbt int ds locb ;; Ok (OKalbach o)
  | IEnergyAngle nbt int ds locb => o <- ead_of bm nbt int ds locb ;; Ok (OEnergyAngle o)
  | IAngleEnergy nbt int ds locb => o <- aed_of bm nbt int ds locb ;; Ok (OAngleEnergy o)
  | IGeneralEvap nbt int e t bins => o <- ge_of bm nbt int e t bins ;; Ok (OGeneralEvap o)
  | IMaxwell nbt int e t u => o <- ev_of bm nbt int e t u ;; Ok (OMaxwell o)
  | IEvaporation nbt int e t u => o <- ev_of bm nbt int e t u ;; Ok (OEvaporation o)
  | IWatt nbta inta xa ya nbtb intb xb yb u =>
      a <- td_of bm nbta inta xa ya ;; b <- td_of bm nbtb intb xb yb ;;
      la <- xss_all (td_v a) ;; lb <- xss_all (td_v b) ;;
      o <- wa_of bm la lb u ;; Ok (OWatt o)
  end.

(** LAW(): EquiprobableOutgoingEnergyBinData.hpp:47-50, DiscretePhotonDistribution.hpp:36-39,
    LevelScatteringDistribution.hpp:41-44, TwoBodyTransferDistribution.hpp:34-37,
    NBodyPhaseSpaceDistribution.hpp:41-44, OutgoingEnergyDistributionData.hpp:44-47,
    KalbachMannDistributionData.hpp:43-46, EnergyAngleDistributionData.hpp:45-48,
    AngleEnergyDistributionData.hpp:45-48, GeneralEvaporationSpectrum.hpp:43-46,
    SimpleMaxwellianFissionSpectrum.hpp:36-39, EvaporationSpectrum.hpp:36-39 with
    their ctor.hpp, EnergyDependentWattSpectrum.hpp:41-44 (all in src/ACEtk/continuous);
    the values are those of src/ACEtk/EnergyDistributionType.hpp:11-27. *)
Definition ed_LAW (o : ed_obj) : Z :=
  match o with
  | OEqui _ => 1 | ODiscrete _ => 2 | OLevel _ => 3 | OTwoBody _ => 33 | ONBody _ => 66
  | OOutgoing _ => 4 | OKalbach _ => 44 | OEnergyAngle _ => 61
  | OAngleEnergy _ => 61 (* TabulatedEnergyAngle, as in the code *)
  | OGeneralEvap _ => 5 | OMaxwell _ => 7 | OEvaporation _ => 9 | OWatt _ => 11
  end.

(** minimumIncidentEnergy(), maximumIncidentEnergy() *)
Definition ed_emin bm (o : ed_obj) : outcome double :=
  match o with
  | OEqui o => eq_emin bm o
  | ODiscrete o | OLevel o | OTwoBody o | ONBody o => Ok (two_emin o)
  | OOutgoing o | OKalbach o => dd_emin bm o
  | OEnergyAngle o => dd_emin bm o | OAngleEnergy o => dd_emin bm o
  | OGeneralEvap o => ge_emin bm o | OMaxwell o | OEvaporation o => ev_emin bm o
  | OWatt o => wa_emin bm o
  end.
Definition ed_emax bm (o : ed_obj) : outcome double :=
  match o with
  | OEqui o => eq_emax bm o
  | ODiscrete o | OLevel o | OTwoBody o | ONBody o => Ok (two_emax o)
  | OOutgoing o | OKalbach o => dd_emax bm o
  | OEnergyAngle o => dd_emax bm o | OAngleEnergy o => dd_emax bm o
  | OGeneralEvap o => ge_emax bm o | OMaxwell o | OEvaporation o => ev_emax bm o
  | OWatt o => wa_emax bm o
  end.

(** [begin(), end()) *)
Definition ed_view (o : ed_obj) : view :=
  match o with
  | OEqui o => eq_v o
  | ODiscrete o | OLevel o | OTwoBody o | ONBody o => two_v_ o
  | OOutgoing o | OKalbach o => dd_v o
  | OEnergyAngle o => dd_v o | OAngleEnergy o => dd_v o
  | OGeneralEvap o => ge_v o | OMaxwell o | OEvaporation o => ev_v o
  | OWatt o => wa_v o
  end.

(** The words inserted in a block for a distribution at locator [idat]:
    src/ACEtk/continuous/EnergyDistributionBlock/src/generateXSS.hpp:91-150,
    SecondaryParticleEnergyDistributionBlock/src/generateXSS.hpp:60-119 *)
Definition ed_words bm (o : ed_obj) (idat : Z) : outcome (list double) :=
  match o with
  | OOutgoing o | OKalbach o => og_remake bm o idat
  | OEnergyAngle o => ead_remake bm o idat
  | OAngleEnergy o => aed_remake bm o idat
  | _ => xss_all (ed_view o)
  end.

(** The switch on the law:
    src/ACEtk/continuous/EnergyDistributionBlock/src/generateBlocks.hpp:18-78,
    SecondaryParticleEnergyDistributionBlock/src/generateData.hpp:25-85 *)
Definition ed_read bm (law idat : Z) (emin emax : double) (v : view) : outcome ed_obj :=
  match law with
  | 2 => o <- two_make v emin emax ;; Ok (ODiscrete o)
  | 3 => o <- two_make v emin emax ;; Ok (OLevel o)
  | 33 => o <- two_make v emin emax ;; Ok (OTwoBody o)
  | 66 => o <- nb_make v emin emax ;; Ok (ONBody o)
  | 4 => o <- og_make bm idat v ;; Ok (OOutgoing o)
  | 44 => o <- og_make bm idat v ;; Ok (OKalbach o)
  | 61 => o <- ead_make bm idat v ;; Ok (OEnergyAngle o)
  | 67 => o <- aed_make bm idat v ;; Ok (OAngleEnergy o)
  | 1 => o <- eq_make bm v ;; Ok (OEqui o)
  | 5 => o <- ge_make bm v ;; Ok (OGeneralEvap o)
  | 7 => o <- ev_make bm v ;; Ok (OMaxwell o)
  | 9 => o <- ev_make bm v ;; Ok (OEvaporation o)
  | 11 => o <- wa_make bm v ;; Ok (OWatt o)
  | _ => Throw RuntimeError
  end.

(** * Specification *)

(** The ACE law number of each kind of distribution (ACE format manual, LAW in the DLW block). *)
Definition law_of (i : ed_in) : Z :=
  match i with
  | IEqui _ _ _ => 1 | IDiscrete _ _ _ _ => 2 | ILevel _ _ _ _ => 3 | IOutgoing _ _ _ _ => 4
  | IGeneralEvap _ _ _ _ _ => 5 | IMaxwell _ _ _ _ _ => 7 | IEvaporation _ _ _ _ _ => 9
  | IWatt _ _ _ _ _ _ _ _ _ => 11 | ITwoBody _ _ _ _ => 33 | IKalbach _ _ _ _ => 44
  | IEnergyAngle _ _ _ _ => 61 | INBody _ _ _ _ _ _ _ _ => 66 | IAngleEnergy _ _ _ _ => 67
  end.

(** The object [o], with its data at locator [b] and words [l], shows the arguments [i]. *)
Definition ed_shows bm (b : Z) (l : list double) (o : ed_obj) (i : ed_in) : Prop :=
  match i, o with
  | IEqui nbt int ds, OEqui o => exists net sorted,
      Permutation ds sorted /\ StronglySorted eqb_le sorted /\ eq_shows bm o nbt int net sorted
  | IDiscrete lo hi lp eg, ODiscrete o =>
      two_emin o = lo /\ two_emax o = hi /\ dp_LP bm o = Ok lp /\ two_C2 bm o = Ok eg
  | ILevel lo hi c1 c2, OLevel o | ITwoBody lo hi c1 c2, OTwoBody o =>
      two_emin o = lo /\ two_emax o = hi /\ two_C1 bm o = Ok c1 /\ two_C2 bm o = Ok c2
  | INBody lo hi npsx ap interp x p c, ONBody o =>
      two_emin o = lo /\ two_emax o = hi /\ nb_shows bm o npsx ap interp x p c
  | IOutgoing nbt int ds _, OOutgoing o | IKalbach nbt int ds _, OKalbach o => og_shows bm b l o nbt int ds
  | IEnergyAngle nbt int ds _, OEnergyAngle o => ead_shows bm b l o nbt int ds
  | IAngleEnergy nbt int ds _, OAngleEnergy o => aed_shows bm b l o nbt int ds
  | IGeneralEvap nbt int e t bins, OGeneralEvap o => ge_shows bm o nbt int e t bins
  | IMaxwell nbt int e t u, OMaxwell o | IEvaporation nbt int e t u, OEvaporation o => ev_shows bm o nbt int e t u
  | IWatt nbta inta xa ya nbtb intb xb yb u, OWatt o =>
      td_shows bm (wa_a o) nbta inta xa ya /\ td_shows bm (wa_b o) nbtb intb xb yb /\ wa_U o = Ok u
  | _, _ => False
  end.

(** The locator base given by the user. *)
Definition ed_locb (i : ed_in) : Z :=
  match i with
  | IOutgoing _ _ _ b | IKalbach _ _ _ b | IEnergyAngle _ _ _ b | IAngleEnergy _ _ _ b => b
  | _ => 1
  end.

(** Argument ranges: energy grids are not empty, integers fit their types and are
    represented by doubles. *)
Definition ed_args (i : ed_in) : Prop :=
  match i with
  | IEqui _ _ ds => Forall (fun d => fst d <> S754_nan) ds /\ eq_valid ds
  | IDiscrete _ _ lp _ => 0 <= lp < 2 ^ 32
  | ILevel _ _ _ _ | ITwoBody _ _ _ _ => True
  | INBody _ _ npsx _ interp _ _ _ => 0 <= npsx < 2 ^ 31 /\ 0 <= interp < 2 ^ 31
  | IOutgoing nbt int ds _ | IKalbach nbt int ds _ => Forall tq_valid ds /\ exact nbt /\ exact int /\ ds <> []
  | IEnergyAngle nbt int ds _ => Forall ea_valid ds /\ exact nbt /\ exact int /\ ds <> []
  | IAngleEnergy nbt int ds _ => Forall ae_valid ds /\ exact nbt /\ exact int /\ ds <> []
  | IGeneralEvap _ _ e _ _ | IMaxwell _ _ e _ _ | IEvaporation _ _ e _ _ => e <> []
  | IWatt _ _ xa _ _ _ _ _ _ => xa <> []
  end.

(** The arguments are accepted by the constructor and the words fit. *)
Definition ed_valid srt (i : ed_in) : Prop :=
  ed_args i /\ exists bm0 l, ed_generate bm0 srt i = Ok l /\ 1 <= ed_locb i /\ ed_locb i + len l <= 2 ^ 31.

(** Energy limits that are arguments (kept outside the XSS data). *)
Definition ed_limits (i : ed_in) : option (double * double) :=
  match i with
  | IDiscrete lo hi _ _ | ILevel lo hi _ _ | ITwoBody lo hi _ _ | INBody lo hi _ _ _ _ _ _ => Some (lo, hi)
  | _ => None
  end.
Definition limits_ok (i : ed_in) (lo hi : double) : Prop :=
  match ed_limits i with Some p => p = (lo, hi) | None => True end.

(** * Lemmas *)

(** An object holding the words [f] (a function of the locator) for [i]. *)
Definition ed_holds bm (f : Z -> list double) (lo hi : double) (o : ed_obj) : Prop :=
  ed_emin bm o = Ok lo /\ ed_emax bm o = Ok hi
  /\ forall b, fits f b -> ed_words bm o b = Ok (f b).

Definition ed_reads bm (i : ed_in) (f : Z -> list double) (lo hi : double) : Prop :=
  forall b v a z, fits f b -> limits_ok i a z -> has v (f b) ->
  exists o, ed_read bm (law_of i) b a z v = Ok o /\ ed_shows bm b (f b) o i
    /\ (content v (f b) -> ed_holds bm f lo hi o).

Definition ed_kind srt i f lo hi : Prop :=
  word_fun f /\ limits_ok i lo hi
  /\ (forall bm, exists o, ed_of bm srt i = Ok o /\ ed_holds bm f lo hi o)
  /\ forall bm, ed_reads bm i f lo hi.

(** A distribution without locators: read from [has], nothing is rebuilt. *)
Lemma kind_const srt i l lo hi :
  0 < len l < 2 ^ 31 -> limits_ok i lo hi ->
  (forall bm, exists o, ed_of bm srt i = Ok o /\ ed_view o = own l
     /\ ed_emin bm o = Ok lo /\ ed_emax bm o = Ok hi
     /\ forall b, ed_words bm o b = xss_all (ed_view o)) ->
  (forall bm b v a z, has v l -> limits_ok i a z -> exists o, ed_read bm (law_of i) b a z v = Ok o
     /\ ed_view o = v /\ ed_shows bm b l o i
     /\ ed_emin bm o = Ok lo /\ ed_emax bm o = Ok hi
     /\ forall b, ed_words bm o b = xss_all (ed_view o)) ->
  ed_kind srt i (const l) lo hi.
Proof.
  intros Hl Lim Hof Hread. split; [|split; [exact Lim|split]].
  - split; intros; unfold const; [reflexivity|lia].
  - intros bm. destruct (Hof bm) as (o & Ho & Vo & L1 & L2 & Wo). exists o. split; [exact Ho|].
    split; [exact L1|]. split; [exact L2|]. intros b _. rewrite Wo, Vo. apply xss_all_own.
  - intros bm b v a z Hb HL H. unfold const in *.
    destruct (Hread bm b v a z H HL) as (o & Ho & Vo & So & L1 & L2 & Wo).
    exists o. split; [exact Ho|]. split; [exact So|]. intros Hc. split; [exact L1|]. split; [exact L2|].
    intros b' _. rewrite Wo, Vo. apply xss_all_content. exact Hc.
Qed.

Lemma kind_two srt i c1 c2 lo hi (mk : two -> ed_obj) :
  (forall bm, ed_of bm srt i = Ok (mk (two_of lo hi c1 c2))) ->
  (forall o, ed_view (mk o) = two_v_ o) ->
  (forall bm o, ed_emin bm (mk o) = Ok (two_emin o)) -> (forall bm o, ed_emax bm (mk o) = Ok (two_emax o)) ->
  (forall bm o b, ed_words bm (mk o) b = xss_all (two_v_ o)) ->
  ed_limits i = Some (lo, hi) ->
  (forall bm b v a z, ed_read bm (law_of i) b a z v = (o <- two_make v a z ;; Ok (mk o))) ->
  (forall bm b v, has v [c1; c2] -> ed_shows bm b [c1; c2] (mk (Two v lo hi)) i) ->
  ed_kind srt i (const [c1; c2]) lo hi.
Proof.
  intros Hof Hview Hmin Hmax Hw HL Hread Hshow.
  assert (Lim : limits_ok i lo hi) by (unfold limits_ok; rewrite HL; reflexivity).
  apply kind_const; [|exact Lim| |].
  - change (len [c1; c2]) with 2. lia.
  - intros bm. exists (mk (two_of lo hi c1 c2)). split; [apply Hof|]. split; [apply Hview|].
    rewrite Hmin, Hmax. split; [reflexivity|]. split; [reflexivity|].
    intros b. rewrite Hw, Hview. reflexivity.
  - intros bm b v a z Hv Haz. unfold limits_ok in Haz. rewrite HL in Haz. injection Haz as <- <-.
    destruct (two_has bm v c1 c2 lo hi Hv) as (M & C1 & C2).
    exists (mk (Two v lo hi)). rewrite Hread, M. split; [reflexivity|]. split; [apply Hview|]. split; [apply Hshow; exact Hv|].
    rewrite Hmin, Hmax. split; [reflexivity|]. split; [reflexivity|].
    intros b'. rewrite Hw, Hview. reflexivity.
Qed.

(** A distribution with locators (laws 4, 44, 61, 67). *)
Lemma kind_dd {D} srt i f (mk : distributionData D -> ed_obj) (mk_ : build -> Z -> view -> outcome (distributionData D))
    (re : build -> distributionData D -> Z -> outcome (list double)) lo hi :
  word_fun f -> fits f (ed_locb i) ->
  (forall bm, ed_of bm srt i = (o <- mk_ bm (ed_locb i) (own (f (ed_locb i))) ;; Ok (mk o))) ->
  (forall bm o, ed_emin bm (mk o) = dd_emin bm o) -> (forall bm o, ed_emax bm (mk o) = dd_emax bm o) ->
  (forall bm o b, ed_words bm (mk o) b = re bm o b) -> ed_limits i = None ->
  (forall bm b v a z, ed_read bm (law_of i) b a z v = (o <- mk_ bm b v ;; Ok (mk o))) ->
  (forall bm b v, fits f b -> has v (f b) -> exists o, mk_ bm b v = Ok o /\ ed_shows bm b (f b) (mk o) i) ->
  (forall bm b v, fits f b -> content v (f b) -> exists o, mk_ bm b v = Ok o
     /\ dd_emin bm o = Ok lo /\ dd_emax bm o = Ok hi
     /\ forall b', fits f b' -> re bm o b' = Ok (f b')) ->
  ed_kind srt i f lo hi.
Proof.
  intros Hf Hfit Hof Hmin Hmax Hw HL Hread Hhas Hcont.
  assert (Lim : forall a z, limits_ok i a z) by (intros; unfold limits_ok; rewrite HL; exact I).
  split; [exact Hf|]. split; [apply Lim|]. split.
  - intros bm. destruct (Hcont bm _ (own (f (ed_locb i))) Hfit) as (o & Ho & E1 & E2 & R).
    { apply own_content. destruct Hfit. unfold max_words. lia. }
    exists (mk o). rewrite Hof, Ho. split; [reflexivity|]. split; [rewrite Hmin; exact E1|]. split; [rewrite Hmax; exact E2|].
    intros b Hb. rewrite Hw. auto.
  - intros bm b v a z Hb _ H.
    destruct (Hhas bm b v Hb H) as (o & Ho & S). exists (mk o). rewrite Hread, Ho. split; [reflexivity|]. split; [exact S|].
    intros Hc. destruct (Hcont bm b v Hb Hc) as (o' & Ho' & E1 & E2 & R). rewrite Ho in Ho'. injection Ho' as <-.
    split; [rewrite Hmin; exact E1|]. split; [rewrite Hmax; exact E2|].
    intros b' Hb'. rewrite Hw. auto.
Qed.

Lemma front_back_shows bm o nbt int x y : td_shows bm o nbt int x y -> x <> [] ->
  (e <- td_x bm o ;; front e) = Ok (hd (dbl 0) x) /\ (e <- td_x bm o ;; back e) = Ok (last x (dbl 0)).
Proof.
  intros (_ & _ & _ & _ & E & _) H. rewrite E. cbn [bind]. split.
  - destruct x; [congruence|reflexivity].
  - unfold back. destruct (exists_last H) as (r & y0 & ->). rewrite rev_app_distr, last_last. reflexivity.
Qed.

(** A kind of distribution whose constructor shares the block reader. *)
Lemma kind_tab {O} srt i l lo hi (mk : O -> ed_obj) (mk_ gb : build -> view -> outcome O) (vw : O -> view) (sh : build -> O -> Prop) :
  0 < len l < 2 ^ 31 -> ed_limits i = None ->
  (forall bm, ed_of bm srt i = (o <- gb bm (own l) ;; Ok (mk o))) ->
  (forall bm b v a z, ed_read bm (law_of i) b a z v = (o <- mk_ bm v ;; Ok (mk o))) ->
  (forall bm v, has v l -> exists o, mk_ bm v = Ok o /\ vw o = v /\ sh bm o) ->
  (forall bm v, has v l -> exists o, gb bm v = Ok o /\ vw o = v /\ sh bm o) ->
  (forall o, ed_view (mk o) = vw o) ->
  (forall bm o, sh bm o -> ed_emin bm (mk o) = Ok lo /\ ed_emax bm (mk o) = Ok hi) ->
  (forall bm b o, sh bm o -> ed_shows bm b l (mk o) i) ->
  (forall bm o b, ed_words bm (mk o) b = xss_all (ed_view (mk o))) ->
  ed_kind srt i (const l) lo hi.
Proof.
  intros Hl HL Hof Hread Hmk Hgb Hvw He Hs Hw.
  assert (Lim : forall a z, limits_ok i a z) by (intros; unfold limits_ok; rewrite HL; exact I).
  apply kind_const; [exact Hl|apply Lim| |].
  - intros bm. destruct (Hgb bm (own l)) as (o & Go & Vo & So).
    { apply content_has, own_content. unfold max_words. lia. }
    exists (mk o). rewrite Hof, Go. split; [reflexivity|]. rewrite Hvw. split; [exact Vo|].
    destruct (He bm o So) as [E1 E2]. split; [exact E1|]. split; [exact E2|].
    intros b. rewrite Hw, Hvw. reflexivity.
  - intros bm b v a z Hv _. destruct (Hmk bm v Hv) as (o & Mo & Vo & So).
    exists (mk o). rewrite Hread, Mo. split; [reflexivity|]. rewrite Hvw. split; [exact Vo|]. split; [apply Hs; exact So|].
    destruct (He bm o So) as [E1 E2]. split; [exact E1|]. split; [exact E2|].
    intros b'. rewrite Hw, Hvw. reflexivity.
Qed.

Lemma ed_kind_exists srt i : eqb_sort_contract srt -> ed_valid srt i ->
  exists f lo hi, ed_kind srt i f lo hi /\ fits f (ed_locb i) /\ forall bm, ed_generate bm srt i = Ok (f (ed_locb i)).
Proof.
  intros Hsrt [Ha (bm0 & l & Hg & Hb & Hl)].
  assert (LM : len l < 2 ^ 31) by lia.
  destruct i as [nbt int ds|lo hi lp eg|lo hi c1 c2|lo hi c1 c2|lo hi npsx ap itp x p c|nbt int ds locb|nbt int ds locb
                |nbt int ds locb|nbt int ds locb|nbt int e t bins|nbt int e t u|nbt int e t u
                |nbta inta xa ya nbtb intb xb yb u]; cbn [ed_args ed_generate ed_locb] in *.
  - (* 1 *)
    destruct Ha as [Hn Hv].
    destruct (eq_round_trip srt nbt int ds l Hsrt Hn Hv Hg LM) as (net & sorted & P & S & _ & El & Hne & Hnet & Hint & R & Of).
    assert (Ln : 0 < len l).
    { rewrite El. unfold eq_layout. repeat rewrite ?len_app, ?len_cons. rewrite (len_id_layout _ _ Hint). nonneg. lia. }
    destruct sorted as [|d0 r]; [congruence|].
    destruct (nth_error (d0 :: r) (length r)) as [dl|] eqn:El'; [|apply nth_error_None in El'; cbn in El'; lia].
    exists (const l), (fst d0), (fst dl). split; [|split; [split; [lia|exact Hl]|intros bm; exact Hg]].
    apply (kind_tab srt _ l _ _ OEqui eq_make eq_make eq_v (fun bm o => eq_shows bm o nbt int net (d0 :: r))); auto.
    + intros bm. cbn [ed_of]. rewrite Of. reflexivity.
    + intros bm o (_ & _ & _ & N & _ & _ & E & _). cbn [ed_emin ed_emax]. unfold eq_emin, eq_emax. rewrite N. cbn [bind].
      destruct (E 0%nat d0 eq_refl) as [E0 _]. change (Z.of_nat 0 + 1) with 1 in E0. rewrite E0.
      destruct (E _ _ El') as [E1 _]. split; [reflexivity|].
      assert (L1 : len (d0 :: r) = Z.of_nat (length r) + 1) by (rewrite len_cons; unfold len; lia).
      etransitivity; [|exact E1]. exact (f_equal (eq_incidentEnergy bm o) L1).
    + intros bm b o H. cbn [ed_shows]. exists net, (d0 :: r). auto.
  - (* 2 *) injection Hg as <-. exists (const [dbl lp; eg]), lo, hi. split; [|split; [split; [lia|exact Hl]|reflexivity]].
    apply (kind_two srt _ (dbl lp) eg lo hi ODiscrete); try reflexivity.
    intros bm b v Hv. cbn [ed_shows]. split; [reflexivity|]. split; [reflexivity|]. split.
    + unfold dp_LP. destruct (two_has bm v (dbl lp) eg lo hi Hv) as (_ & -> & _). cbn [bind]. apply trunc_to_u32_dbl. exact Ha.
    + apply (two_has bm v (dbl lp) eg); auto.
  - (* 3 *) injection Hg as <-. exists (const [c1; c2]), lo, hi. split; [|split; [split; [lia|exact Hl]|reflexivity]].
    apply (kind_two srt _ c1 c2 lo hi OLevel); try reflexivity.
    intros bm b v Hv. cbn [ed_shows]. split; [reflexivity|]. split; [reflexivity|]. split; apply (two_has bm v c1 c2); auto.
  - (* 33 *) injection Hg as <-. exists (const [c1; c2]), lo, hi. split; [|split; [split; [lia|exact Hl]|reflexivity]].
    apply (kind_two srt _ c1 c2 lo hi OTwoBody); try reflexivity.
    intros bm b v Hv. cbn [ed_shows]. split; [reflexivity|]. split; [reflexivity|]. split; apply (two_has bm v c1 c2); auto.
  - (* 66 *) exists (const l), lo, hi. split; [|split; [split; [lia|exact Hl]|intros bm; exact Hg]].
    destruct Ha as [H1 H2]. destruct (nb_generateXSS_inv _ _ _ _ _ _ _ Hg) as (Ep & Ec & El).
    apply kind_const.
    + split; [|lia]. rewrite El. unfold nb_layout. repeat rewrite ?len_app, ?len_cons. nonneg. lia.
    + reflexivity.
    + intros bm. exists (ONBody (Two (own l) lo hi)). cbn [ed_of]. rewrite Hg. split; [reflexivity|]. split; [reflexivity|].
      repeat split.
    + intros bm b v a z Hv Hlim. unfold limits_ok in Hlim. cbn [ed_limits] in Hlim. injection Hlim as <- <-.
      rewrite El in Hv. destruct (nb_has bm v npsx ap itp x p c lo hi H1 H2 Ep Ec Hv) as [M S].
      exists (ONBody (Two v lo hi)). cbn [ed_read law_of]. rewrite M. split; [reflexivity|]. split; [reflexivity|].
      split; [cbn [ed_shows]; auto|]. repeat split.
  - (* 4 *) destruct Ha as (Hv & X1 & X2 & Hne).
    destruct (og_fs nbt int locb ds l Hg Hv Hb Hl X1 X2 Hne) as (f & Ef & Wf & Gf & Rf).
    assert (Hfit : fits f locb) by (split; [exact Hb|rewrite Ef; exact Hl]).
    exists f, (hd (dbl 0) (map tq_value ds)), (last (map tq_value ds) (dbl 0)). split; [|split; [exact Hfit|intros _; rewrite Ef; exact Hg]].
    apply (kind_dd srt _ f OOutgoing og_make og_remake (hd (dbl 0) (map tq_value ds)) (last (map tq_value ds) (dbl 0))); try reflexivity; try assumption.
    + intros bm. cbn [ed_of ed_locb]. destruct (og_round_trip nbt int locb ds l Hg Hv Hb Hl) as (_ & _ & ->). rewrite Ef. reflexivity.
    + intros bm b v Hfb H. destruct Hfb as [F1 F2]. destruct (og_round_trip nbt int b ds (f b) (Gf b (conj F1 F2)) Hv F1 F2) as (R & _ & _).
      exact (R bm v H).
    + intros bm b v Hfb H. destruct (Rf bm b v Hfb H) as (o & M & _ & E1 & E2 & R). exists o. auto.
  - (* 44 *) destruct Ha as (Hv & X1 & X2 & Hne).
    destruct (og_fs nbt int locb ds l Hg Hv Hb Hl X1 X2 Hne) as (f & Ef & Wf & Gf & Rf).
    assert (Hfit : fits f locb) by (split; [exact Hb|rewrite Ef; exact Hl]).
    exists f, (hd (dbl 0) (map tq_value ds)), (last (map tq_value ds) (dbl 0)). split; [|split; [exact Hfit|intros _; rewrite Ef; exact Hg]].
    apply (kind_dd srt _ f OKalbach og_make og_remake (hd (dbl 0) (map tq_value ds)) (last (map tq_value ds) (dbl 0))); try reflexivity; try assumption.
    + intros bm. cbn [ed_of ed_locb]. destruct (og_round_trip nbt int locb ds l Hg Hv Hb Hl) as (_ & _ & ->). rewrite Ef. reflexivity.
    + intros bm b v Hfb H. destruct Hfb as [F1 F2]. destruct (og_round_trip nbt int b ds (f b) (Gf b (conj F1 F2)) Hv F1 F2) as (R & _ & _).
      exact (R bm v H).
    + intros bm b v Hfb H. destruct (Rf bm b v Hfb H) as (o & M & _ & E1 & E2 & R). exists o. auto.
  - (* 61 *) destruct Ha as (Hv & X1 & X2 & Hne).
    destruct (ead_fs bm0 nbt int locb ds l Hg Hv Hb Hl X1 X2 Hne) as (f & Ef & Wf & Gf & Rf).
    assert (Hfit : fits f locb) by (split; [exact Hb|rewrite Ef; exact Hl]).
    exists f, (hd (dbl 0) (map ea_value ds)), (last (map ea_value ds) (dbl 0)). split; [|split; [exact Hfit|intros bm; exact (Gf bm locb Hfit)]].
    apply (kind_dd srt _ f OEnergyAngle ead_make ead_remake (hd (dbl 0) (map ea_value ds)) (last (map ea_value ds) (dbl 0))); try reflexivity; try assumption.
    + intros bm. cbn [ed_of ed_locb]. destruct (ead_round_trip bm0 nbt int locb ds l Hg Hv Hb Hl) as (_ & ->). rewrite Ef. reflexivity.
    + intros bm b v Hfb H. destruct Hfb as [F1 F2]. destruct (ead_round_trip bm nbt int b ds (f b) (Gf bm b (conj F1 F2)) Hv F1 F2) as (R & _).
      exact (R bm v H).
    + intros bm b v Hfb H. destruct (Rf bm b v Hfb H) as (o & M & _ & E1 & E2 & R). exists o. auto.
  - (* 67 *) destruct Ha as (Hv & X1 & X2 & Hne).
    destruct (aed_fs bm0 nbt int locb ds l Hg Hv Hb Hl X1 X2 Hne) as (f & Ef & Wf & Gf & Rf).
    assert (Hfit : fits f locb) by (split; [exact Hb|rewrite Ef; exact Hl]).
    exists f, (hd (dbl 0) (map ae_value ds)), (last (map ae_value ds) (dbl 0)). split; [|split; [exact Hfit|intros bm; exact (Gf bm locb Hfit)]].
    apply (kind_dd srt _ f OAngleEnergy aed_make aed_remake (hd (dbl 0) (map ae_value ds)) (last (map ae_value ds) (dbl 0))); try reflexivity; try assumption.
    + intros bm. cbn [ed_of ed_locb]. destruct (aed_round_trip bm0 nbt int locb ds l Hg Hv Hb Hl) as (_ & ->). rewrite Ef. reflexivity.
    + intros bm b v Hfb H. destruct Hfb as [F1 F2]. destruct (aed_round_trip bm nbt int b ds (f b) (Gf bm b (conj F1 F2)) Hv F1 F2) as (R & _).
      exact (R bm v H).
    + intros bm b v Hfb H. destruct (Rf bm b v Hfb H) as (o & M & _ & E1 & E2 & R). exists o. auto.
  - (* 5 *) exists (const l), (hd (dbl 0) e), (last e (dbl 0)). split; [|split; [split; [lia|exact Hl]|intros bm; exact Hg]].
    destruct (ge_generateXSS_inv _ _ _ _ _ _ Hg) as (E1 & E2 & El).
    assert (Ln : 0 < len l). { rewrite El. unfold ge_layout. repeat rewrite ?len_app, ?len_cons. nonneg. lia. }
    apply (kind_tab srt _ l _ _ OGeneralEvap ge_make ge_generateBlocks ge_v (fun bm o => ge_shows bm o nbt int e t bins)); auto.
    + intros bm. cbn [ed_of]. unfold ge_of. rewrite Hg. reflexivity.
    + intros bm v H. exact (ge_round_trip bm v _ _ _ _ _ _ Hg H).
    + intros bm v H. rewrite El in H. exact (ge_blocks_has bm v _ _ _ _ _ E1 E2 H).
    + intros bm o (S & _). exact (front_back_shows _ _ _ _ _ _ S Ha).
  - (* 7 *) exists (const l), (hd (dbl 0) e), (last e (dbl 0)). split; [|split; [split; [lia|exact Hl]|intros bm; exact Hg]].
    destruct (ev_generateXSS_inv _ _ _ _ _ _ Hg) as (E1 & E2 & El).
    assert (Ln : 0 < len l). { rewrite El. unfold ev_layout. repeat rewrite ?len_app, ?len_cons. nonneg. lia. }
    apply (kind_tab srt _ l _ _ OMaxwell ev_make ev_generateBlocks ev_v (fun bm o => ev_shows bm o nbt int e t u)); auto.
    + intros bm. cbn [ed_of]. unfold ev_of. rewrite Hg. reflexivity.
    + intros bm v H. exact (ev_round_trip bm v _ _ _ _ _ _ Hg H).
    + intros bm v H. rewrite El in H. exact (ev_blocks_has bm v _ _ _ _ _ E1 E2 H).
    + intros bm o (S & _). exact (front_back_shows _ _ _ _ _ _ S Ha).
  - (* 9 *) exists (const l), (hd (dbl 0) e), (last e (dbl 0)). split; [|split; [split; [lia|exact Hl]|intros bm; exact Hg]].
    destruct (ev_generateXSS_inv _ _ _ _ _ _ Hg) as (E1 & E2 & El).
    assert (Ln : 0 < len l). { rewrite El. unfold ev_layout. repeat rewrite ?len_app, ?len_cons. nonneg. lia. }
    apply (kind_tab srt _ l _ _ OEvaporation ev_make ev_generateBlocks ev_v (fun bm o => ev_shows bm o nbt int e t u)); auto.
    + intros bm. cbn [ed_of]. unfold ev_of. rewrite Hg. reflexivity.
    + intros bm v H. exact (ev_round_trip bm v _ _ _ _ _ _ Hg H).
    + intros bm v H. rewrite El in H. exact (ev_blocks_has bm v _ _ _ _ _ E1 E2 H).
    + intros bm o (S & _). exact (front_back_shows _ _ _ _ _ _ S Ha).
  - (* 11 *) exists (const l), (hd (dbl 0) xa), (last xa (dbl 0)). split; [|split; [split; [lia|exact Hl]|intros bm; exact Hg]].
    destruct (td_generateXSS nbta inta xa ya) as [la| |] eqn:Ga; try discriminate. cbn [bind] in Hg.
    destruct (td_generateXSS nbtb intb xb yb) as [lb| |] eqn:Gb; try discriminate. cbn [bind] in Hg.
    apply Ok_inj in Hg. subst l.
    assert (Ln : 0 < len (wa_generateXSS la lb u)). { unfold wa_generateXSS. repeat rewrite ?len_app, ?len_cons. nonneg. lia. }
    assert (Lab : len la + len lb < 2 ^ 31). { unfold wa_generateXSS in LM. repeat rewrite ?len_app, ?len_cons in LM. nonneg. lia. }
    pose proof (len_nonneg la) as La0. pose proof (len_nonneg lb) as Lb0.
    destruct (td_generateXSS_inv _ _ _ _ _ Ga) as (E1 & E2 & Ela). destruct (td_generateXSS_inv _ _ _ _ _ Gb) as (E3 & E4 & Elb).
    apply (kind_tab srt _ (wa_generateXSS la lb u) _ _ OWatt wa_make wa_generateBlocks wa_v (fun bm o => td_shows bm (wa_a o) nbta inta xa ya /\ td_shows bm (wa_b o) nbtb intb xb yb /\ wa_U o = Ok u)); auto.
    + intros bm. cbn [ed_of].
      destruct (td_of_round_trip bm _ _ _ _ _ Ga) as (a & -> & Ca & _); [unfold max_words; lia|].
      destruct (td_of_round_trip bm _ _ _ _ _ Gb) as (b & -> & Cb & _); [unfold max_words; lia|]. cbn [bind].
      rewrite (xss_all_content _ _ Ca), (xss_all_content _ _ Cb). cbn [bind]. reflexivity.
    + intros bm v H. exact (wa_round_trip bm v _ _ _ _ _ _ _ _ _ _ _ Ga Gb H).
    + intros bm v H. rewrite Ela, Elb in H. exact (wa_blocks_has bm v _ _ _ _ _ _ _ _ _ E1 E2 E3 E4 H).
    + intros bm o (S & _). exact (front_back_shows _ _ _ _ _ _ S Ha).
Qed.
